(** Contents of files that make no difference: what the theorems of Props_Secret.v
    are stated with. *)
From Verif Require Import Bytes Err FS Prog Pktline Args Local Processor Transfer Spec SpecStore SpecServer.

(** The text of a lock record for path [p] at time [t]. *)
Definition record_text (d : bytes) (t : Z) (p : bytes) : Prop :=
  exists ts, d = bs "v1:" ++ ts ++ bs ":" ++ p /\ signed_text ts t /\ (- 2 ^ 63 <= t < 2 ^ 63)%Z.

(** Contents of the same length that are records of the same lock, or both no
    record of any lock. *)
Definition alike (d1 d2 : bytes) : Prop :=
  length d1 = length d2 /\ forall t p, record_text d1 t p <-> record_text d2 t p.

(** The same names, owners and permissions, and alike contents. *)
Definition alike_files (s1 s2 : fs) : Prop :=
  nodes s1 = nodes s2 /\ hist s1 = hist s2 /\
  Forall2 (fun x y => alike (i_data x) (i_data y) /\ i_uid x = i_uid y /\ i_mode x = i_mode y /\
    i_creator x = i_creator y /\ i_temp x = i_temp y) (inodes s1) (inodes s2).

(** A server process for uploads. *)
Definition is_upload_server (p : prog (Z * bytes)) : Prop :=
  exists en fuel lfs cfg, p = transfer_main en fuel lfs cfg (bs "upload").
