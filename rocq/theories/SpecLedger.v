(** The calls that make and remove locks, in the order in which they are made: what the
    theorems of Props_Ledger.v are stated with. *)
From Verif Require Import Bytes Err FS Prog Pktline Args Local Processor Transfer Spec SpecStore SpecServer SpecLock SpecFrame SpecTalk
  SpecPerm SpecInput SpecTogether SpecStart SpecRound SpecTruth SpecWorn SpecPrune SpecWho SpecComes.

(** The calls of all the processes, in order, when the system takes the steps [cs] from
    [y] on. *)
Fixpoint everyone {A} (cs : list choice) (y : sys A) : list done_call :=
  match cs with
  | [] => []
  | c :: cs' => made (c_pid c) y c ++ everyone cs' (sys_step y c)
  end.

(** Of the calls [tr], the last that is one of [mk] or of [un] is one of [mk]; or there is
    none of them, and [before] is true. *)
Definition last_of (mk un : done_call -> Prop) (before : Prop) (tr : list done_call) : Prop :=
  (before /\ Forall (fun d => ~ un d) tr) \/ exists ta d tb, tr = ta ++ d :: tb /\ mk d /\ Forall (fun d => ~ un d) tb.

(** The lock on [p] has been made and not removed, or was there to begin with ([before])
    and has not been removed, if the calls [tr] are made. *)
Definition still (H : bytes -> bytes) (lfs : path) (p : bytes) : Prop -> list done_call -> Prop :=
  last_of (linked H lfs p) (unlinked H lfs p).

(** The same of the object [o]. *)
Definition put (lfs : path) (o : bytes) (d : done_call) : Prop := exists a, d = existT (ERename a (object_path lfs o)) (IOk tt).
Definition taken (lfs : path) (o : bytes) (d : done_call) : Prop := d = existT (EUnlink (object_path lfs o)) (IOk tt).
Definition still_there (lfs : path) (o : bytes) : Prop -> list done_call -> Prop := last_of (put lfs o) (taken lfs o).

(** There is a file that has the name of the lock on [p]. *)
Definition is_locked (H : bytes -> bytes) (lfs : path) (p : bytes) (s : fs) : Prop :=
  exists j, nodes s !! lock_name H lfs p = Some (NFile j).
