(** Sessions next to other servers: every answer is the right one at a moment of the
    schedule between the request and the answer, or at a few moments, one after
    another. *)
From Verif Require Import Bytes Err FS Prog Pktline Args Local Processor Transfer Spec SpecStore SpecServer SpecSecret SpecLock.
From stdpp Require Import sorting.

(** The objects stored in a file system. *)
Definition stored (lfs : path) (s : fs) (M : gmap bytes bytes) : Prop :=
  forall o d, M !! o = Some d <-> is_oid o /\ has_file s (object_path lfs o) d.

(** A repository, or a place for one: nothing of another kind is where the server
    keeps its directories and objects, and only files with proper names where it keeps
    its locks. *)
Record ordinary (lfs : path) (s : fs) : Prop := Ordinary {
  o_way : forall d a b j, d ∈ [bs "objects"; bs "incomplete"; bs "tmp"; bs "locks"] ->
    lfs ++ [d] = a ++ b -> a <> [] -> nodes s !! a <> Some (NFile j);
  o_sane : sane s;
  o_tree : tree s;
  o_obj : forall o, is_oid o ->
    nodes s !! object_path lfs o <> Some NDir /\
    (forall j, nodes s !! (lfs ++ [bs "objects"; take 2 o]) <> Some (NFile j)) /\
    (forall j, nodes s !! (lfs ++ [bs "objects"; take 2 o; take 2 (drop 2 o)]) <> Some (NFile j));
  o_lock : forall c n, nodes s !! (lfs ++ [bs "locks"; c]) = Some n -> plain_name c /\ n <> NDir }.

(** Requests about objects. *)
Definition about_objects (r : request) : Prop :=
  match r with RLock _ | RList _ | RUnlock _ _ => False | _ => True end.

(** The same bytes, unless the hash function has a collision. *)
Definition same_object (H : bytes -> bytes) (d d' : bytes) : Prop := d' = d \/ (d' <> d /\ H d' = H d).

(** A configuration that can be read. *)
Definition readable (cfg : gres config) : Prop :=
  exists c, cfg = GOk c /\ forall e, cf_str c = GErr e -> g_code e = GNotFound.

(** Objects alone, no locks. *)
Definition only (M : gmap bytes bytes) : world := World M ∅.

Section together.
Context (en : env) (m : mode) (lfs : path).
(** The system at the beginning, the schedule, and the server looked at. *)
Context (y0 : sys (Z * bytes)) (cs : list choice) (i : nat).

(** After [k] choices the objects [M] are stored, and the server has not yet read
    [inp] and has written [out]. *)
Definition now (k : nat) (M : gmap bytes bytes) (inp out : bytes) : Prop :=
  (k <= length cs)%nat /\ stored lfs (shared (sys_run (take k cs) y0)) M /\
  exists p, procs (sys_run (take k cs) y0) !! i = Some p /\ l_in (pr_local p) = inp /\ l_out (pr_local p) = out.

(** Lines of a batch, each true at its own moment, one after another. *)
Inductive seen (inp out : bytes) : nat -> list bytes -> list N -> list bytes -> nat -> Prop :=
| seen_nil k : seen inp out k [] [] [] k
| seen_cons k k1 k2 M o n os ns ls : (k <= k1)%nat -> now k1 M inp out ->
    seen inp out (S k1) os ns ls k2 ->
    seen inp out k (o :: os) (n :: ns) (batch_line_for m (only M) o n :: ls) k2.

(** *** Locks *)

(** After [k] choices the file system is [s], and the server has not yet read [inp]
    and has written [out]. *)
Definition moment (k : nat) (s : fs) (inp out : bytes) : Prop :=
  (k <= length cs)%nat /\ shared (sys_run (take k cs) y0) = s /\
  exists p, procs (sys_run (take k cs) y0) !! i = Some p /\ l_in (pr_local p) = inp /\ l_out (pr_local p) = out.

(** The clock showed this time to the server. *)
Definition shown (t : Z) : Prop := exists o, Choice i (AGo o) ∈ cs /\ o_now o = t.

(** The bytes in the file number [j]. *)
Definition holds_text (s : fs) (j : nat) (d : bytes) : Prop := exists x, inodes s !! j = Some x /\ i_data x = d.

(** The name of the owner of what is at [f]. *)
Inductive whose (s : fs) (f : path) : bytes -> Prop :=
| who_file j x : nodes s !! f = Some (NFile j) -> inodes s !! j = Some x -> whose s f (user_name en (i_uid x))
| who_gone : nodes s !! f = None -> whose s f (bs "unknown").

(** What a server finds when it reads the lock kept at [f]: nothing, a file
    without a lock record, or a lock on a path with a time and an owner. *)
Inductive finding := Gone | Corrupt | Lock_of (p : bytes) (t : Z) (who : bytes).

(** The file is opened, read, and then its owner is looked up by name, at one moment
    after another. *)
Inductive reads (inp out : bytes) (k : nat) (f : path) : finding -> nat -> Prop :=
| reads_gone k1 s1 : (k <= k1)%nat -> moment k1 s1 inp out -> nodes s1 !! f = None ->
    reads inp out k f Gone (S k1)
| reads_corrupt k1 s1 k2 s2 k3 j d : (k <= k1)%nat -> (k1 < k2)%nat -> (k2 < k3)%nat ->
    moment k1 s1 inp out -> nodes s1 !! f = Some (NFile j) ->
    moment k2 s2 inp out -> holds_text s2 j d -> ~ (exists t p, record_text d t p) ->
    reads inp out k f Corrupt (S k3)
| reads_lock k1 s1 k2 s2 k3 s3 j d t p who : (k <= k1)%nat -> (k1 < k2)%nat -> (k2 < k3)%nat ->
    moment k1 s1 inp out -> nodes s1 !! f = Some (NFile j) ->
    moment k2 s2 inp out -> holds_text s2 j d -> record_text d t p ->
    moment k3 s3 inp out -> whose s3 f who ->
    reads inp out k f (Lock_of p t who) (S k3).

(** Descriptions of a lock, [x] is the time in words. *)
Definition info_of (p x who : bytes) : list bytes :=
  [bs "id=" ++ lock_id (en_hash en) p ++ [NL];
   bs "path=" ++ p ++ [NL];
   bs "locked-at=" ++ x ++ [NL];
   bs "ownername=" ++ who ++ [NL]].
Definition lines_of (p x who : bytes) : list bytes :=
  let i := lock_id (en_hash en) p in
  [bs "lock " ++ i ++ [NL];
   bs "path " ++ i ++ bs " " ++ p ++ [NL];
   bs "locked-at " ++ i ++ bs " " ++ x ++ [NL];
   bs "ownername " ++ i ++ bs " " ++ who ++ [NL]] ++
  match m with
  | Upload => [bs "owner " ++ i ++ bs " " ++
               (if decide (user_name en (en_uid en) = who) then bs "ours" else bs "theirs") ++ [NL]]
  | Download => []
  end.

Definition bad_record : bytes := bs "corrupt data: invalid parsed lock".
(** The server could not go on with a request. *)
Definition trouble (a : reply) : Prop := exists x, a = Reply 500 [] (BText (bs "internal error: " ++ x ++ [NL])).

(** The answers when something else than a lock on [p] is found. *)
Inductive unusable (p : bytes) : finding -> reply -> Prop :=
| un_other p' t who : p' <> p -> unusable p (Lock_of p' t who) (refusal clash)
| un_corrupt : unusable p Corrupt (refusal bad_record).

(** Reading all the locks of these names, one after another. *)
Inductive visits (inp out : bytes) : nat -> list name -> list finding -> nat -> Prop :=
| vi_nil k : visits inp out k [] [] k
| vi_cons k k1 k2 f fs x xs : reads inp out k (lock_path lfs (utf8_lossy f)) x k1 -> visits inp out k1 fs xs k2 ->
    visits inp out k (f :: fs) (x :: xs) k2.

Definition locks_found (xs : list finding) : list (bytes * Z * bytes) :=
  omap (fun x => match x with Lock_of p t who => Some (p, t, who) | _ => None end) xs.
(** Without those before the first that is not before the cursor. *)
Fixpoint from_cursor (c : option bytes) (ls : list (bytes * Z * bytes)) : list (bytes * Z * bytes) :=
  match c, ls with
  | Some id, (p, t, who) :: ls' => if blt (lock_id (en_hash en) p) id then from_cursor c ls' else ls
  | _, _ => ls
  end.
Inductive list_lines : list (bytes * Z * bytes) -> list bytes -> Prop :=
| li_nil : list_lines [] []
| li_cons p t who x ls out : en_time en t = Some x -> list_lines ls out ->
    list_lines ((p, t, who) :: ls) (lines_of p x who ++ out).

(** The answer [a] to a request about locks is right: [k] is before, [k'] after all
    that is looked at or done, and nothing of the answer is written meanwhile. *)
Inductive lock_right (inp out : bytes) (k : nat) : request -> reply -> nat -> Prop :=
(* whatever locks there are *)
| lr_any k1 s1 r a : ~ about_objects r -> (k <= k1)%nat -> moment k1 s1 inp out ->
    (forall w, answer_of en m 0 (fun _ => False) w r a w) -> lock_right inp out k r a (S k1)
(* lock: the temporary file is made, the record is written to it, it gets the name of
   the lock, which was free; then the owner is looked up and the clock read again *)
| lr_lock kvs p r t t' x who j j' k1 s1 s1' k2 s2' k3 s3 s3' k4 s4 k' :
    (bs "path", p) ∈ kvs -> (bs "refname", r) ∈ kvs -> shown t -> shown t' -> en_time en t' = Some x ->
    (k <= k1)%nat -> moment k1 s1 inp out -> nodes s1 !! temp_path (en_hash en) lfs p = None ->
    moment (S k1) s1' inp out -> nodes s1' !! temp_path (en_hash en) lfs p = Some (NFile j) ->
    (k1 < k2)%nat -> moment (S k2) s2' inp out -> holds_text s2' j (record_of t p) ->
    (k2 < k3)%nat -> moment k3 s3 inp out -> nodes s3 !! temp_path (en_hash en) lfs p = Some (NFile j') ->
    nodes s3 !! lock_path lfs (lock_id (en_hash en) p) = None ->
    moment (S k3) s3' inp out -> nodes s3' !! lock_path lfs (lock_id (en_hash en) p) = Some (NFile j') ->
    (k3 < k4)%nat -> moment k4 s4 inp out -> whose s4 (lock_path lfs (lock_id (en_hash en) p)) who -> (k4 < k')%nat ->
    lock_right inp out k (RLock kvs) (Reply 201 (info_of p x who) BNone) k'
(* the temporary file is no longer there when it is to get the name of the lock *)
| lr_lost kvs p r a k1 s1 k3 s3 :
    (bs "path", p) ∈ kvs -> (bs "refname", r) ∈ kvs ->
    (k <= k1)%nat -> moment k1 s1 inp out -> nodes s1 !! temp_path (en_hash en) lfs p = None ->
    (k1 < k3)%nat -> moment k3 s3 inp out -> nodes s3 !! temp_path (en_hash en) lfs p = None ->
    trouble a -> lock_right inp out k (RLock kvs) a (S k3)
(* something is there already; then the lock is read *)
| lr_held kvs p r t x who k1 s1 k' :
    (bs "path", p) ∈ kvs -> (bs "refname", r) ∈ kvs -> (k <= k1)%nat -> moment k1 s1 inp out ->
    is_Some (nodes s1 !! temp_path (en_hash en) lfs p) \/ is_Some (nodes s1 !! lock_path lfs (lock_id (en_hash en) p)) ->
    reads inp out (S k1) (lock_path lfs (lock_id (en_hash en) p)) (Lock_of p t who) k' -> en_time en t = Some x ->
    lock_right inp out k (RLock kvs) (Reply 409 (info_of p x who) (BText (bs "conflict" ++ [NL]))) k'
| lr_lock_bad kvs p r f a k1 s1 k' :
    (bs "path", p) ∈ kvs -> (bs "refname", r) ∈ kvs -> (k <= k1)%nat -> moment k1 s1 inp out ->
    is_Some (nodes s1 !! temp_path (en_hash en) lfs p) \/ is_Some (nodes s1 !! lock_path lfs (lock_id (en_hash en) p)) ->
    reads inp out (S k1) (lock_path lfs (lock_id (en_hash en) p)) f k' -> unusable p f a ->
    lock_right inp out k (RLock kvs) a k'
(* list-lock with a path *)
| lr_list_path kvs lim n p c t x who k' :
    key (bs "limit") kvs lim -> limit_of lim n -> (bs "path", p) ∈ kvs -> key (bs "cursor") kvs c ->
    reads inp out k (lock_path lfs (lock_id (en_hash en) p)) (Lock_of p t who) k' -> en_time en t = Some x ->
    match c with Some c => blt (lock_id (en_hash en) p) c = false | None => True end ->
    lock_right inp out k (RList kvs) (Reply 200 [] (BLines (lines_of p x who))) k'
| lr_list_none kvs lim n p c f k' :
    key (bs "limit") kvs lim -> limit_of lim n -> (bs "path", p) ∈ kvs -> key (bs "cursor") kvs c ->
    reads inp out k (lock_path lfs (lock_id (en_hash en) p)) f k' ->
    f = Gone \/ (exists t who c', f = Lock_of p t who /\ c = Some c' /\ blt (lock_id (en_hash en) p) c' = true) ->
    lock_right inp out k (RList kvs) not_found k'
| lr_list_bad kvs lim n p f a k' :
    key (bs "limit") kvs lim -> limit_of lim n -> (bs "path", p) ∈ kvs ->
    reads inp out k (lock_path lfs (lock_id (en_hash en) p)) f k' -> unusable p f a ->
    lock_right inp out k (RList kvs) a k'
(* list-lock: the names of all files in order at one moment, then each is read *)
| lr_list kvs lim n c k1 s1 names later xs ls out' k' :
    key (bs "limit") kvs lim -> limit_of lim n -> no_key (bs "path") kvs -> key (bs "cursor") kvs c ->
    (k <= k1)%nat -> moment k1 s1 inp out ->
    StronglySorted (fun a b => blt a b = true) (names ++ later) ->
    (forall f, f ∈ names ++ later <-> is_Some (nodes s1 !! lock_path lfs f)) ->
    visits inp out (S k1) names xs k' -> ls = from_cursor c (locks_found xs) ->
    (length ls <= S n)%nat -> later = [] \/ length ls = S n -> list_lines ls out' ->
    lock_right inp out k (RList kvs)
      (Reply 200 (match ls !! n with Some (p, _, _) => [bs "next-cursor=" ++ lock_id (en_hash en) p ++ [NL]] | None => [] end)
         (BLines out')) k'
(* unlock: the lock is read, then the lock of its path is removed *)
| lr_unlock id kvs p t x who k1 k2 s2 s2' :
    utf8_valid id = true -> reads inp out k (lock_path lfs id) (Lock_of p t who) k1 -> en_time en t = Some x ->
    (k1 <= k2)%nat -> moment k2 s2 inp out -> (exists j, nodes s2 !! lock_path lfs (lock_id (en_hash en) p) = Some (NFile j)) ->
    moment (S k2) s2' inp out -> nodes s2' !! lock_path lfs (lock_id (en_hash en) p) = None ->
    lock_right inp out k (RUnlock id kvs) (Reply 200 (info_of p x who) BNone) (S k2)
| lr_unlock_late id kvs p t x who k1 k2 s2 :
    utf8_valid id = true -> reads inp out k (lock_path lfs id) (Lock_of p t who) k1 -> en_time en t = Some x ->
    (k1 <= k2)%nat -> moment k2 s2 inp out -> nodes s2 !! lock_path lfs (lock_id (en_hash en) p) = None ->
    lock_right inp out k (RUnlock id kvs) not_found (S k2)
| lr_unlock_none id kvs k' :
    utf8_valid id = true -> reads inp out k (lock_path lfs id) Gone k' ->
    lock_right inp out k (RUnlock id kvs) not_found k'
| lr_unlock_corrupt id kvs k' :
    utf8_valid id = true -> reads inp out k (lock_path lfs id) Corrupt k' ->
    lock_right inp out k (RUnlock id kvs) (refusal bad_record) k'.

(** *** All requests *)

(** The answer [a] to [r] is right at a moment after [k] when nothing of it has been
    written: it is the abstract server's answer for the objects stored then, and if
    it stores an object, the next moment finds it stored.  [k'] is after that. *)
Inductive right (inp out : bytes) (k : nat) : request -> reply -> nat -> Prop :=
| right_at k1 M M' r a : about_objects r -> (k <= k1)%nat -> now k1 M inp out ->
    answer_of en m 0 (fun _ => False) (only M) r a (only M') ->
    M' = M \/ now (S k1) M' inp out ->
    right inp out k r a (S k1)
| right_batch kvs items ns h ls k' :
    key (bs "hash-algo") kvs h -> h = None \/ h = Some (bs "sha256") ->
    Forall2 (fun x n => number x.2 n) items ns ->
    seen inp out k items.*1 ns ls k' ->
    right inp out k (RBatch kvs items) (Reply 200 [] (BLines ls)) k'
| right_lock r a k' : lock_right inp out k r a k' -> right inp out k r a k'.

(** The requests [rs] have been read from [inp0] and answered by [as_] after the
    output [out0]; [inp] remains to be read, all of it was right by moment [k]. *)
Inductive told (inp0 out0 : bytes) : list request -> list reply -> nat -> bytes -> bytes -> Prop :=
| told_none : told inp0 out0 [] [] 0 inp0 out0
| told_more rs as_ k inp out r a k' wr wa ps :
    told inp0 out0 rs as_ k (wr ++ inp) out -> wires (packets_of r) wr ->
    right inp out k r a k' -> reply_sent a ps -> wires ps wa ->
    told inp0 out0 (rs ++ [r]) (as_ ++ [a]) k' inp (out ++ wa).

(** What the server has written so far, [out]: a beginning of the capabilities and
    of right answers to the first requests, followed by the answer to "quit" if all
    have been answered. *)
Definition so_far (inp0 : bytes) (reqs : list request) (extra : list reply) (out : bytes) (n : nat) (all : Prop) : Prop :=
  exists caps asked later as_ k inp w ps we,
    wires [PData (bs "version=1" ++ [NL]); PFlush] caps /\
    reqs = asked ++ later /\ told inp0 caps asked as_ k inp w /\ (k <= n)%nat /\
    (ps = [] \/ later = [] /\ replies_sent extra ps) /\ wires ps we /\
    out `prefix_of` w ++ we /\
    (all -> later = [] /\ replies_sent extra ps /\ out = w ++ we).

(** The same, with something to say about the requests and their answers. *)
Definition so_far_such (inp0 : bytes) (reqs : list request) (extra : list reply) (out : bytes)
  (P : list request -> list reply -> Prop) : Prop :=
  exists caps asked later as_ k inp w ps we,
    wires [PData (bs "version=1" ++ [NL]); PFlush] caps /\
    reqs = asked ++ later /\ told inp0 caps asked as_ k inp w /\ (k <= length cs)%nat /\
    (ps = [] \/ later = [] /\ replies_sent extra ps) /\ wires ps we /\
    out `prefix_of` w ++ we /\ P asked as_.

(** The model gave up at a file longer than the bound of its loops. *)
Definition too_long (fuel : nat) (f : failure) : Prop :=
  f = OutOfFuel /\ exists k o d, has_file (shared (sys_run (take k cs) y0)) (object_path lfs o) d /\ (fuel <= length d)%nat.

(** Why the server may give up on requests about locks: something was in the way of a
    lock and the lock could not be found afterwards, or a time in a record or on the
    clock cannot be displayed. *)
Inductive gives_up (fuel : nat) (reqs : list request) : failure -> Prop :=
| gu_long f : too_long fuel f -> gives_up fuel reqs f
| gu_race kvs p k1 k2 : RLock kvs ∈ reqs -> (bs "path", p) ∈ kvs -> (k1 < k2)%nat ->
    is_Some (nodes (shared (sys_run (take k1 cs) y0)) !! temp_path (en_hash en) lfs p) \/
    is_Some (nodes (shared (sys_run (take k1 cs) y0)) !! lock_path lfs (lock_id (en_hash en) p)) ->
    nodes (shared (sys_run (take k2 cs) y0)) !! lock_path lfs (lock_id (en_hash en) p) = None ->
    gives_up fuel reqs PUnreachable
| gu_clock kvs t : RLock kvs ∈ reqs -> shown t -> en_time en t = None -> gives_up fuel reqs PBadTime
| gu_record r k1 k2 c j d t p : r ∈ reqs -> ~ about_objects r -> (k1 < k2)%nat ->
    nodes (shared (sys_run (take k1 cs) y0)) !! lock_path lfs c = Some (NFile j) ->
    holds_text (shared (sys_run (take k2 cs) y0)) j d -> record_text d t p -> en_time en t = None ->
    gives_up fuel reqs PBadTime.

(** The answers to the first [n] requests have been written completely: after the
    capabilities, that many packets that end an answer. *)
Definition answered (out : bytes) (n : nat) : Prop :=
  exists ps w, wires ps w /\ w `prefix_of` out /\ (n < length (filter (fun p => p = PFlush) ps))%nat.

(** At moment [k] the server has not read beyond the first [n] of its requests. *)
Definition unread (inp0 : bytes) (reqs : list request) (k n : nat) : Prop :=
  exists p w, procs (sys_run (take k cs) y0) !! i = Some p /\ wires (concat (map packets_of (take n reqs))) w /\
    (length inp0 <= length w + length (l_in (pr_local p)))%nat.

(** The answer [a] to [r] knows that the object [o] is there with the bytes [d]. *)
Definition knows (o d : bytes) (r : request) (a : reply) : Prop :=
  match r with
  | RGet o' _ => o' = o -> exists d', same_object (en_hash en) d d' /\
      a = Reply 200 [bs "size=" ++ dec (lenN d') ++ [NL]] (BData d')
  | RVerify o' kvs => o' = o -> forall b n, (bs "size", b) ∈ kvs -> number b n -> exists d', same_object (en_hash en) d d' /\
      a = if (n =? lenN d')%N then Reply 200 [] BNone
          else Reply 409 [] (BText (bs "mismatched size or cryptographic collision"))
  | RBatch kvs items => forall ls, a = Reply 200 [] (BLines ls) -> forall q b, items !! q = Some (o, b) ->
      exists d', same_object (en_hash en) d d' /\
        ls !! q = Some (o ++ [SP] ++ dec (lenN d') ++ [SP] ++
                        match m with Upload => bs "noop" | Download => bs "download" end ++ [NL])
  | _ => True
  end.
End together.

(** Servers on one repository, which is in order. *)
Record servers (H : bytes -> bytes) (lfs : path) (ps : list (proc (Z * bytes))) (s0 : fs) : Prop := Servers {
  sv_digest : digest H;
  sv_lfs : Forall plain_name lfs;
  sv_ordinary : ordinary lfs s0;
  sv_ok : store_ok H lfs s0;
  sv_all : Forall (fun p => is_server H lfs (pr_prog p)) ps }.

(** The server [i] among them is [git-lfs-transfer] for [m] with a readable
    configuration.  Its client sends the requests [reqs], and none of its own system
    calls fails. *)
Record asker (en : env) (fuel : nat) (m : mode) (lfs : path) (ps : list (proc (Z * bytes))) (cs : list choice) (i : nat)
  (l : local) (reqs : list request) (extra : list reply) : Prop := Asker {
  as_program : exists cfg dead, ps !! i = Some (Proc (transfer_main en fuel lfs cfg (operation m)) l dead) /\
    readable cfg /\ (2 * length (l_in l) + 2 <= fuel)%nat;
  as_asks : asks m l reqs extra;
  as_start : l_out l = [];
  as_calls : forall o, Choice i (AGo o) ∈ cs -> o_fault o = None /\ Byte.x00 ∉ o_sfx o }.

(** The same with requests about objects only. *)
Record client (en : env) (fuel : nat) (m : mode) (lfs : path) (ps : list (proc (Z * bytes))) (cs : list choice) (i : nat)
  (l : local) (reqs : list request) (extra : list reply) : Prop := Client {
  cl_program : exists cfg dead, ps !! i = Some (Proc (transfer_main en fuel lfs cfg (operation m)) l dead) /\
    readable cfg /\ (2 * length (l_in l) + 2 <= fuel)%nat;
  cl_asks : asks m l reqs extra;
  cl_objects : Forall about_objects reqs;
  cl_start : l_out l = [];
  cl_calls : forall o, Choice i (AGo o) ∈ cs -> o_fault o = None /\ Byte.x00 ∉ o_sfx o }.

(** The beginning of an endless schedule. *)
Definition first (n : nat) (f : nat -> choice) : list choice := map f (seq 0 n).
