(** What the theorems about the object store and the lock table are stated
    with. *)
From Verif Require Import Bytes Err FS Prog Pktline Args Local Processor Transfer Spec.

(** [h] is [l] written in lower-case hexadecimal. *)
Inductive hex_of : bytes -> bytes -> Prop :=
| hex_of_nil : hex_of [] []
| hex_of_cons b l x y c d h :
    hex_digit c x -> hex_digit d y -> bN b = (16 * x + y)%N -> hex_of l h ->
    hex_of (b :: l) (c :: d :: h).

(** ** The object store *)

(** Where an object is stored: lfs/objects/ab/cd/abcd... *)
Definition object_path (lfs : path) (o : bytes) : path :=
  lfs ++ [bs "objects"; take 2 o; take 2 (drop 2 o); o].

(** The regular file [p] has the contents [d]. *)
Definition has_file (s : fs) (p : path) (d : bytes) : Prop :=
  exists j x, nodes s !! p = Some (NFile j) /\ inodes s !! j = Some x /\ i_data x = d.

(** Every object file has the contents its name promises. *)
Definition store_ok (H : bytes -> bytes) (lfs : path) (s : fs) : Prop :=
  forall o d, is_oid o -> has_file s (object_path lfs o) d -> hex_of (H d) o.

(** Directory entries refer to existing inodes. *)
Definition sane (s : fs) : Prop :=
  forall p j, nodes s !! p = Some (NFile j) -> (j < length (inodes s))%nat.

(** A hash function with 32-byte results. *)
Definition digest (H : bytes -> bytes) : Prop := forall x, length (H x) = 32%nat.

(** [p] is the program of a server for the repository [lfs], in either mode. *)
Definition is_server (H : bytes -> bytes) (lfs : path) (p : prog (Z * bytes)) : Prop :=
  exists en fuel cfg operation, en_hash en = H /\ p = transfer_main en fuel lfs cfg operation.

(** The directory [p] exists, with all its parents. *)
Definition is_dir (s : fs) (p : path) : Prop :=
  forall a b, p = a ++ b -> a <> [] -> nodes s !! a = Some NDir.

(** The directories a server works in exist. *)
Definition lfs_dirs (s : fs) (lfs : path) : Prop :=
  forall d, d ∈ [bs "objects"; bs "incomplete"; bs "tmp"; bs "locks"] -> is_dir s (lfs ++ [d]).
