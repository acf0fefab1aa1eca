(** Which files servers change and which they look at: what the theorems of
    Props_Bounds.v are stated with. *)
From Verif Require Import Bytes Err FS Prog Pktline Args Local Processor Transfer Spec SpecStore SpecServer SpecTalk.

(** [p] is the program of a server for the repository [lfs]. *)
Definition server_at (lfs : path) (p : prog (Z * bytes)) : Prop :=
  exists en fuel cfg operation, p = transfer_main en fuel lfs cfg operation.

(** In one of the directories [L]. *)
Definition inside (L : list path) (q : path) : Prop := exists lfs, lfs ∈ L /\ lfs `prefix_of` q.

(** A directory above one of [L]. *)
Definition above (L : list path) (q : path) : Prop := exists lfs, lfs ∈ L /\ q `prefix_of` lfs.

(** No file has names both inside and outside of [L]. *)
Definition apart (L : list path) (s : fs) : Prop :=
  forall q q' j, inside L q -> ~ inside L q' -> nodes s !! q = Some (NFile j) -> nodes s !! q' <> Some (NFile j).

(** Outside of [L] the names of [s0] and [s] are the same, but for directories
    above [L] that did not exist, and so are contents, owners and permissions. *)
Definition untouched (L : list path) (s0 s : fs) : Prop :=
  (forall q, ~ inside L q ->
     nodes s !! q = nodes s0 !! q \/ (above L q /\ nodes s0 !! q = None /\ nodes s !! q = Some NDir)) /\
  (forall q j, ~ inside L q -> nodes s0 !! q = Some (NFile j) -> inodes s !! j = inodes s0 !! j).

(** The file or directory a call looks at. *)
Definition looks_at (d : done_call) : option path :=
  match projT1 d with EOpen p | EStat p | EReaddir p => Some p | _ => None end.

(** However directories are arranged, [p] leads to something in [lfs], or nowhere. *)
Definition leads_inside (lfs p : path) : Prop := forall s q, resolve s p = inr q -> lfs `prefix_of` q.

(** A packet "unlock id" with a "/" in the id. *)
Definition asks_beyond (d : done_call) : Prop :=
  exists n id rest, d = existT (ERead n) (IOk (bs "unlock " ++ id ++ rest)) /\ SLASH ∈ id.

(** Directory listings have no names with "/". *)
Definition true_names (d : done_call) : Prop :=
  forall p ns, d = existT (EReaddir p) (IOk ns) -> Forall (fun c => SLASH ∉ c) ns.
