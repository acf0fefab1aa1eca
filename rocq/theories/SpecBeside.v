(** What servers tell about a lock that stands while they work. *)
From Verif Require Import Bytes Err FS Prog Pktline Args Local Processor Transfer Spec SpecStore SpecServer SpecLock SpecTogether.

(** From moment [K] on, file number [j] with the record of time [t] and of owner [u] is
    the lock on [p]. *)
Definition stands (H : bytes -> bytes) (lfs : path) (y0 : sys (Z * bytes)) (cs : list choice) (K : nat)
  (p : bytes) (t : Z) (u : N) (j : nat) : Prop :=
  forall k, (K <= k)%nat -> (k <= length cs)%nat ->
    nodes (shared (sys_run (take k cs) y0)) !! lock_path lfs (lock_id H p) = Some (NFile j) /\
    exists x, inodes (shared (sys_run (take k cs) y0)) !! j = Some x /\ i_data x = record_of t p /\ i_uid x = u.

(** The answer [a] to [r] tells of a lock on [p] made at [x] by [who]: nobody else gets the
    lock (but the request may fail), a list has it if it is the last page, an unlock of it
    is not answered. *)
Definition tells (en : env) (m : mode) (p x who : bytes) (r : request) (a : reply) : Prop :=
  match r with
  | RLock kvs => forall b, (bs "path", p) ∈ kvs -> (bs "refname", b) ∈ kvs ->
      a = Reply 409 (info_of en p x who) (BText (bs "conflict" ++ [NL])) \/ trouble a
  | RList kvs => forall lim n, key (bs "limit") kvs lim -> limit_of lim n -> no_key (bs "cursor") kvs ->
      ((bs "path", p) ∈ kvs -> a = Reply 200 [] (BLines (lines_of en m p x who))) /\
      (no_key (bs "path") kvs -> exists args out, a = Reply 200 args (BLines out) /\
        (args = [] -> exists before after, out = before ++ lines_of en m p x who ++ after))
  | RUnlock id _ => id <> lock_id (en_hash en) p
  | _ => True
  end.
