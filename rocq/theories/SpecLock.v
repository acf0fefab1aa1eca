(** What the theorems about locks and many processes are stated with.  The ghost
    history [hist] has the newest event first. *)
From Verif Require Import Bytes Err FS Prog Args Spec SpecStore SpecServer.

(** The file of the lock with id [i]. *)
Definition lock_path (lfs : path) (i : bytes) : path := (lfs ++ [bs "locks"]) ++ [i].

(** The description of a lock in the answers to lock and unlock. *)
Definition described (H : bytes -> bytes) (p : bytes) (a : list bytes) : Prop :=
  exists x u, a = [bs "id=" ++ lock_id H p ++ [NL]; bs "path=" ++ p ++ [NL];
                   bs "locked-at=" ++ x ++ [NL]; bs "ownername=" ++ u ++ [NL]].

(** The events of process [i]. *)
Definition acts (i : nat) (h : list (nat * obs)) : list obs :=
  omap (fun e => if decide (e.1 = i) then Some e.2 else None) h.

Definition is_answer (e : obs) : bool := match e with OAnswer _ _ => true | _ => false end.

(** The event number [n], counting from the start, is [e] by process [i]. *)
Definition log_at (s : fs) (n i : nat) (e : obs) : Prop := rev (hist s) !! n = Some (i, e).
(** Process [i] gave no answer strictly between [m] and [n]. *)
Definition no_answer_between (s : fs) (i m n : nat) : Prop :=
  forall k c a, (m < k < n)%nat -> ~ log_at s k i (OAnswer c a).
Definition no_event_between (s : fs) (i m n : nat) : Prop :=
  forall k e, (m < k < n)%nat -> ~ log_at s k i e.

(** The contents of a file in the lock directory: the beginning of a record for
    a path whose lock has this file name, with ".lock" for a temporary file. *)
Definition partial_record (H : bytes -> bytes) (c d : bytes) : Prop :=
  exists p t, (c = lock_id H p \/ c = lock_id H p ++ bs ".lock") /\ d `prefix_of` record_of t p.
Definition partial_records (H : bytes -> bytes) (lfs : path) (s : fs) : Prop :=
  forall c d, has_file s (lock_path lfs c) d -> partial_record H c d.

(** Every lock visible under its id has a complete record.  (Two paths could in
    principle have the same id: nothing is assumed about collisions.) *)
Definition complete_records (H : bytes -> bytes) (lfs : path) (s : fs) : Prop :=
  forall p d, has_file s (lock_path lfs (lock_id H p)) d ->
  exists q t, lock_id H q = lock_id H p /\ d = record_of t q.

(** The temporary file of a lock being made for [p]. *)
Definition temp_path (H : bytes -> bytes) (lfs : path) (p : bytes) : path := lock_path lfs (lock_id H p ++ bs ".lock").

(** A lock granted in answer [j] or there at the start, and not removed by any
    request up to the end of [reqs]. *)
Definition not_removed (j : nat) (i : bytes) (reqs : list request) (as_ : list reply) : Prop :=
  forall k kvs a, (j <= k)%nat -> reqs !! k = Some (RUnlock i kvs) -> as_ !! k = Some a -> rp_code a <> 200%N.
Definition in_force (w : world) (reqs : list request) (as_ : list reply) (i p : bytes) (t : Z) (u : N) : Prop :=
  (w_locks w !! i = Some (p, t, u) /\ not_removed 0 i reqs as_) \/
  exists j kvs a, reqs !! j = Some (RLock kvs) /\ (bs "path", p) ∈ kvs /\ as_ !! j = Some a /\
    rp_code a = 201%N /\ not_removed (S j) i reqs as_.
