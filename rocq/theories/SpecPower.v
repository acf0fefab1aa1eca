(** Failures of the power: what the theorems of Props_Power.v are stated with.  No
    code in /repo asks the kernel to put anything on the disk: there is no [fsync],
    [sync_all] or [sync_data], only [flush] (scutiger-lfs/src/backend/local.rs:178),
    which for a file does nothing. *)
From Verif Require Import Bytes Err FS Prog Pktline Args Local Processor Transfer Spec SpecStore SpecServer SpecTogether SpecTalk SpecTruth.

(** The file systems the system has passed through. *)
Definition went_through {A} (y : sys A) (cs : list choice) (t : fs) : Prop :=
  exists cs1 cs2, cs = cs1 ++ cs2 /\ t = shared (sys_run cs1 y).

(** What was on the disk at first is [shared y]; then the system takes the steps [cs],
    the power fails, and the disk, put in order again, holds [s'].  An entry is one
    that was there at some time since.  A file whose bytes are still the same has
    them, and its owner.  Other files may hold anything. *)
Record power_loss {A} (y : sys A) (cs : list choice) (s' : fs) : Prop := PowerLoss {
  pl_entry : forall p, exists t, went_through y cs t /\ nodes s' !! p = nodes t !! p;
  pl_bytes : forall j x x1, inodes (shared y) !! j = Some x -> inodes (shared (sys_run cs y)) !! j = Some x1 ->
    i_data x1 = i_data x -> exists x', inodes s' !! j = Some x' /\ i_data x' = i_data x /\ i_uid x' = i_uid x;
  pl_sane : sane s';
  pl_tree : tree s' }.

(** Some server has moved an upload to the name of the object [o]. *)
Definition replaced {A} (lfs : path) (y : sys A) (cs : list choice) (o : bytes) : Prop :=
  exists i a, existT (ERename a (object_path lfs o)) (IOk tt) ∈ history i cs y.

(** One such failure, as journaling file systems have it that write data late: all
    entries are there, and the files made since have no bytes. *)
Definition emptied (n : nat) (s : fs) : fs :=
  FS (nodes s) (take n (inodes s) ++ map (fun x => Inode [] (i_uid x) (i_mode x) (i_creator x) (i_temp x)) (drop n (inodes s))) (hist s).
