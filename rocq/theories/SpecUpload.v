(** What the theorems about refused uploads are stated with. *)
From Verif Require Import Bytes Err FS Prog Spec SpecStore.

(** The system while a request is served: no call fails, random names have no
    NUL byte.  Reads and writes may be short. *)
Definition works (o : orc) : Prop := o_fault o = None /\ Byte.x00 ∉ o_sfx o.

(** The same files with the same contents and attributes; all directories are
    still there.  Contents without a name may have been added. *)
Definition same_files (s s' : fs) : Prop :=
  (forall p j, nodes s' !! p = Some (NFile j) <-> nodes s !! p = Some (NFile j)) /\
  (forall p, nodes s !! p = Some NDir -> nodes s' !! p = Some NDir) /\
  exists xs, inodes s' = inodes s ++ xs.
