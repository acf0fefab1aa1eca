(** A server alone on a file system whose calls may fail: the answers, the changes, and
    how it may end. *)
From Verif Require Import Bytes Err FS Prog Pktline Args Local Processor Transfer Spec SpecStore SpecServer SpecTogether.

(** Which calls may fail.  Reading requests and writing answers do not; files with
    temporary names can be removed; unless [writes], temporary files can be created and
    files be written.  Every other call may fail at any time, for any reason but one that
    would be a lie: that the file does not exist, or that it does.  As in [mild], random
    names have no NUL byte and the clock shows times in [clock]. *)
Definition failing (lfs : path) (ts : option Z) (clock : Z -> Prop) (writes : bool) (e : ev) (o : orc) (_ : resp e) : Prop :=
  Byte.x00 ∉ o_sfx o /\ (ts = None -> clock (o_now o)) /\
  forall x, o_fault o = Some x -> io_kind_of x <> KNotFound /\ io_kind_of x <> KAlreadyExists /\
    match e with
    | ERead _ | EOut _ | EFlush | EClock | EUmask _ | ENote _ _ => False
    | EMktemp _ _ | EWriteFd _ _ => writes = true
    | EUnlink p => exists i, p = lfs ++ [bs "locks"; i] /\ length i = 64%nat
    | _ => True
    end.

(** Requests that take calls whose failure is answered. *)
Definition may_fail (r : request) : Prop := match r with RVersion | RBatch _ _ => False | _ => True end.

Definition no_put (r : request) : Prop := match r with RPut _ _ _ => False | _ => True end.

Section failing.
Context (en : env) (m : mode) (uid : N) (clock : Z -> Prop).

(** The owner's name, or "unknown" if the owner cannot be found out. *)
Definition owner (u : N) (who : bytes) : Prop := who = user_name en u \/ who = bs "unknown".

(** Lines of these locks. *)
Inductive seen_lines : list (bytes * (bytes * Z * N)) -> list bytes -> Prop :=
| sl_nil : seen_lines [] []
| sl_cons i p t u x who ls out : en_time en t = Some x -> owner u who -> seen_lines ls out ->
    seen_lines ((i, (p, t, u)) :: ls) (lines_of en m p x who ++ out).

(** The line of a batch about an object: a stored object may be taken for a missing one. *)
Definition batch_seen (w : world) (x : bytes * bytes) (line : bytes) : Prop :=
  exists n, number x.2 n /\ (line = batch_line_for m w x.1 n \/ line = batch_line_for m (World ∅ ∅) x.1 n).

(** The answers to [r] when the objects and locks are [w], and [w] thereafter. *)
Inductive answer_in (w : world) : request -> reply -> world -> Prop :=
(* as if nothing had failed *)
| i_right r a w' : answer_of en m uid clock w r a w' -> answer_in w r a w'
(* an error, and nothing changed *)
| i_trouble r a : may_fail r -> trouble a -> answer_in w r a w
(* an error, but the object is stored *)
| i_put o kvs ds b a :
    (bs "size", b) ∈ kvs -> number b (lenN (concat ds)) -> hex_of (en_hash en (concat ds)) o -> trouble a ->
    answer_in w (RPut o kvs ds) a (World (<[o := concat ds]> (w_objs w)) (w_locks w))
(* stored objects taken for missing ones *)
| i_batch kvs items h ls :
    key (bs "hash-algo") kvs h -> h = None \/ h = Some (bs "sha256") -> Forall2 (batch_seen w) items ls ->
    answer_in w (RBatch kvs items) (Reply 200 [] (BLines ls)) w
(* owners that cannot be found out *)
| i_lock kvs p r t t' x who :
    (bs "path", p) ∈ kvs -> (bs "refname", r) ∈ kvs ->
    w_locks w !! lock_id (en_hash en) p = None ->
    clock t -> clock t' -> en_time en t' = Some x -> owner uid who ->
    answer_in w (RLock kvs) (Reply 201 (info_of en p x who) BNone)
      (World (w_objs w) (<[lock_id (en_hash en) p := (p, t, uid)]> (w_locks w)))
| i_lock_held kvs p r t u x who :
    (bs "path", p) ∈ kvs -> (bs "refname", r) ∈ kvs ->
    w_locks w !! lock_id (en_hash en) p = Some (p, t, u) -> en_time en t = Some x -> owner u who ->
    answer_in w (RLock kvs) (Reply 409 (info_of en p x who) (BText (bs "conflict" ++ [NL]))) w
| i_list_path kvs lim n p c t u x who :
    key (bs "limit") kvs lim -> limit_of lim n -> (bs "path", p) ∈ kvs -> key (bs "cursor") kvs c ->
    w_locks w !! lock_id (en_hash en) p = Some (p, t, u) -> en_time en t = Some x -> owner u who ->
    match c with Some c => blt (lock_id (en_hash en) p) c = false | None => True end ->
    answer_in w (RList kvs) (Reply 200 [] (BLines (lines_of en m p x who))) w
(* and locks passed over in a listing *)
| i_list kvs lim n c ls ls' out :
    key (bs "limit") kvs lim -> limit_of lim n -> no_key (bs "path") kvs -> key (bs "cursor") kvs c ->
    locks_from w c ls -> ls' `sublist_of` ls -> (length ls' <= S n)%nat -> seen_lines ls' out ->
    answer_in w (RList kvs)
      (Reply 200 (match ls' !! n with Some (i, _) => [bs "next-cursor=" ++ i ++ [NL]] | None => [] end)
         (BLines out)) w
| i_unlock i kvs p t u x who : utf8_valid i = true -> w_locks w !! i = Some (p, t, u) -> en_time en t = Some x ->
    owner u who ->
    answer_in w (RUnlock i kvs) (Reply 200 (info_of en p x who) BNone) (World (w_objs w) (delete i (w_locks w)))
(* a lock that may not be removed *)
| i_unlock_forbidden i kvs : utf8_valid i = true -> is_Some (w_locks w !! i) ->
    answer_in w (RUnlock i kvs) (Reply 403 [] (BText (bs "forbidden" ++ [NL]))) w.

Inductive session_in : world -> list request -> list reply -> world -> Prop :=
| si_nil w : session_in w [] [] w
| si_cons w r a w' rs as_ w'' : answer_in w r a w' -> session_in w' rs as_ w'' ->
    session_in w (r :: rs) (a :: as_) w''.
End failing.

(** The setting, but for the calls. *)
Record place (en : env) (lfs : path) (ts : option Z) (clock : Z -> Prop) : Prop := Place {
  pl_hash : digest (en_hash en);
  pl_lfs : Forall plain_name lfs;
  pl_ts : forall t, ts = Some t -> clock t;
  pl_clock : forall t, clock t -> time_ok en t }.

(** Three ways in which the server may end.  It may serve all requests: *)
Definition served_in (en : env) (lfs : path) (clock : Z -> Prop) (m : mode) (l : local) (w : world)
  (reqs : list request) (extra : list reply) (l' : local) (s' : fs) : Prop :=
  exists as_ w' ps out,
    session_in en m (l_uid l) clock w reqs as_ w' /\ represents en lfs s' w' /\
    replies_sent (as_ ++ extra) ps /\
    wires (PData (bs "version=1" ++ [NL]) :: PFlush :: ps) out /\ l_out l' = l_out l ++ out.
(** It may fail to create its directories, and say nothing: *)
Definition not_begun (en : env) (lfs : path) (l : local) (w : world) (l' : local) (s' : fs) : Prop :=
  l_out l' = l_out l /\ holds en lfs s' w.
(** It may break off while it sends an object, when reading that fails: *)
Definition cut_off (en : env) (lfs : path) (clock : Z -> Prop) (m : mode) (l : local) (w : world)
  (reqs : list request) (l' : local) (s' : fs) : Prop :=
  exists k o kvs d as_ w' ps qa cs rest out,
    reqs !! k = Some (RGet o kvs) /\ session_in en m (l_uid l) clock w (take k reqs) as_ w' /\
    represents en lfs s' w' /\ w_objs w' !! o = Some d /\ d = concat cs ++ rest /\
    replies_sent as_ ps /\ lines_sent [bs "size=" ++ dec (lenN d) ++ [NL]] qa /\
    wires (PData (bs "version=1" ++ [NL]) :: PFlush :: ps ++
           PData (bs "status 200" ++ [NL]) :: qa ++ PDelim :: map PData cs) out /\
    l_out l' = l_out l ++ out.

(** The answers [as_] have been sent, and perhaps more. *)
Definition sent (l l' : local) (as_ : list reply) : Prop :=
  exists ps rest out, replies_sent as_ ps /\ l_out l' = l_out l ++ out /\
    (as_ = [] /\ out = [] \/ wires (PData (bs "version=1" ++ [NL]) :: PFlush :: ps ++ rest) out).

(** The object [o] has the contents [d], or others of the same hash. *)
Definition kept (H : bytes -> bytes) (w : world) (o d : bytes) : Prop :=
  exists d', w_objs w !! o = Some d' /\ (d' = d \/ (d' <> d /\ H d' = H d)).

(** The line by which a batch says that an object of [n] bytes is there. *)
Definition there (m : mode) (o : bytes) (n : N) : bytes :=
  o ++ bs " " ++ dec n ++ bs " " ++ match m with Upload => bs "noop" | Download => bs "download" end ++ [NL].
