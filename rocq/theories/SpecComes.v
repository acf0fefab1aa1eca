(** Where locks come from and where they go: what the theorems of Props_Comes.v are
    stated with. *)
From Verif Require Import Bytes Err FS Prog Pktline Args Local Processor Transfer Spec SpecStore SpecServer SpecLock SpecFrame SpecTalk
  SpecPerm SpecInput SpecTogether SpecStart SpecRound SpecTruth SpecWorn SpecPrune SpecWho.
From Verif Require SpecOdd.

(** The file of the lock on [p]. *)
Definition lock_name (H : bytes -> bytes) (lfs : path) (p : bytes) : path := lfs ++ [bs "locks"; lock_id H p].

(** The calls that give a file this name, and take the name away. *)
Definition linked (H : bytes -> bytes) (lfs : path) (p : bytes) (d : done_call) : Prop :=
  exists a, d = existT (ELink a (lock_name H lfs p)) (IOk tt).
Definition unlinked (H : bytes -> bytes) (lfs : path) (p : bytes) (d : done_call) : Prop :=
  d = existT (EUnlink (lock_name H lfs p)) (IOk tt).

(** In the calls [tr] the client was heard to ask for a lock on [q], and was told that
    it has it.  The locks on [q] and on [p] have the same name: [q] is [p], unless the
    hash has a collision. *)
Definition locked_as (en : env) (p : bytes) (tr : list done_call) : Prop :=
  exists b ws is kvs q r x who qs, hears (reads tr) (Got (PData b) :: is) /\ SpecOdd.says b ws /\ SpecOdd.named (RLock []) ws /\
    part PFlush is (args kvs) /\ (bs "path", q) ∈ kvs /\ (bs "refname", r) ∈ kvs /\
    lock_id (en_hash en) q = lock_id (en_hash en) p /\
    reply_sent (Reply 201 (info en q x who) BNone) qs /\ wires qs (spoken tr) /\ sent_well tr.
(** In the calls [tr] the client was heard to ask for the removal of a lock, and was told
    that the lock on [q] is removed. *)
Definition unlocked_as (en : env) (p : bytes) (tr : list done_call) : Prop :=
  exists b ws is k q x who qs, hears (reads tr) (Got (PData b) :: is) /\ SpecOdd.says b ws /\ SpecOdd.named (RUnlock k []) ws /\
    lock_id (en_hash en) q = lock_id (en_hash en) p /\
    reply_sent (Reply 200 (info en q x who) BNone) qs /\ wires qs (spoken tr) /\ sent_well tr.

(** The call [d], which comes after the calls [before] and before the calls [later],
    belongs to calls of which [P] is true; or the server has not finished the answer it
    was about to give. *)
Definition in_round (P : list done_call -> Prop) (before : list done_call) (d : done_call) (later : list done_call) : Prop :=
  exists t1 u v t2, before = t1 ++ u /\ later = v ++ t2 /\ (P (u ++ d :: v) \/ t2 = [] /\ flushed ∉ u ++ d :: v).

(** Servers, whose configurations can be read. *)
Definition crew (H : bytes -> bytes) (lfs : path) (ps : list (proc (Z * bytes))) (s0 : fs) : Prop :=
  workers H lfs ps s0 /\ Forall (fun p => exists m, serves H lfs m p) ps.

(** One of the processes [ps], a server that takes uploads, makes the call [Q] while the
    system takes the steps [cs2], after the steps [cs1], in a round as [P] says. *)
Definition by_server (H : bytes -> bytes) (lfs : path) (ps : list (proc (Z * bytes))) (s0 : fs) (cs1 cs2 : list choice)
  (Q : done_call -> Prop) (P : env -> list done_call -> Prop) : Prop :=
  exists i p en fuel v ta d tb, ps !! i = Some p /\ en_hash en = H /\
    pr_prog p = transfer_main en fuel lfs (GOk (libgit2 v)) (operation Upload) /\
    history i cs2 (sys_run cs1 (Sys ps s0)) = ta ++ d :: tb /\ Q d /\
    in_round (P en) (history i cs1 (Sys ps s0) ++ ta) d tb.
