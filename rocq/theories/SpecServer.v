(** An abstract LFS server: a map of objects, a table of locks, and the answer to
    each well-formed request.  The packets of requests and answers are given as
    relations on packet lists. *)
From Verif Require Import Bytes Err FS Prog Pktline Args Local Processor Transfer Spec SpecStore.
From stdpp Require Import sorting.

(** ** Abstract state *)

(** Objects by id; locks by id, each with its path, time and owner. *)
Record world := World { w_objs : gmap bytes bytes; w_locks : gmap bytes (bytes * Z * N) }.

(** The id of the lock for a path. *)
Definition lock_id (H : bytes -> bytes) (p : bytes) : bytes := hex_encode (H (bs "v1:" ++ p)).

(** The record of a lock held at time [t]. *)
Definition record_of (t : Z) (p : bytes) : bytes := bs "v1:" ++ decZ t ++ bs ":" ++ p.

(** Times that can be stored and displayed. *)
Definition time_ok (en : env) (t : Z) : Prop := (- 2 ^ 63 <= t < 2 ^ 63)%Z /\ is_Some (en_time en t).

(** Every entry is in a directory. *)
Definition tree (s : fs) : Prop :=
  forall p c n, nodes s !! (p ++ [c]) = Some n -> p = [] \/ nodes s !! p = Some NDir.

(** A file with contents [d] and owner [u]. *)
Definition owned_file (s : fs) (p : path) (d : bytes) (u : N) : Prop :=
  exists j x, nodes s !! p = Some (NFile j) /\ inodes s !! j = Some x /\ i_data x = d /\ i_uid x = u.

(** The repository at [lfs] represents [w]. *)
Record represents (en : env) (lfs : path) (s : fs) (w : world) : Prop := Represents {
  r_dirs : lfs_dirs s lfs;
  r_sane : sane s;
  r_tree : tree s;
  r_obj : forall o d, is_oid o -> (w_objs w !! o = Some d <-> has_file s (object_path lfs o) d);
  r_obj_keys : forall o d, w_objs w !! o = Some d -> is_oid o;
  r_obj_dir : forall o, is_oid o ->
    nodes s !! object_path lfs o <> Some NDir /\
    (forall j, nodes s !! (lfs ++ [bs "objects"; take 2 o]) <> Some (NFile j)) /\
    (forall j, nodes s !! (lfs ++ [bs "objects"; take 2 o; take 2 (drop 2 o)]) <> Some (NFile j));
  r_lock : forall i p t u, w_locks w !! i = Some (p, t, u) ->
    owned_file s (lfs ++ [bs "locks"; i]) (record_of t p) u /\ i = lock_id (en_hash en) p /\ time_ok en t;
  r_lock_only : forall i n, nodes s !! (lfs ++ [bs "locks"; i]) = Some n -> is_Some (w_locks w !! i) }.

(** A repository that holds [w] but whose directories may not exist yet. *)
Record holds (en : env) (lfs : path) (s : fs) (w : world) : Prop := Holds {
  h_way : forall d a b j, d ∈ [bs "objects"; bs "incomplete"; bs "tmp"; bs "locks"] -> lfs ++ [d] = a ++ b -> a <> [] ->
    nodes s !! a <> Some (NFile j);
  h_sane : sane s;
  h_tree : tree s;
  h_obj : forall o d, is_oid o -> (w_objs w !! o = Some d <-> has_file s (object_path lfs o) d);
  h_obj_keys : forall o d, w_objs w !! o = Some d -> is_oid o;
  h_obj_dir : forall o, is_oid o ->
    nodes s !! object_path lfs o <> Some NDir /\
    (forall j, nodes s !! (lfs ++ [bs "objects"; take 2 o]) <> Some (NFile j)) /\
    (forall j, nodes s !! (lfs ++ [bs "objects"; take 2 o; take 2 (drop 2 o)]) <> Some (NFile j));
  h_lock : forall i p t u, w_locks w !! i = Some (p, t, u) ->
    owned_file s (lfs ++ [bs "locks"; i]) (record_of t p) u /\ i = lock_id (en_hash en) p /\ time_ok en t;
  h_lock_only : forall i n, nodes s !! (lfs ++ [bs "locks"; i]) = Some n -> is_Some (w_locks w !! i) }.

(** What the system does while the server runs: no call fails, random names have
    no NUL byte and, if the server looks at the clock, it shows a time in [clock]. *)
Definition mild (ts : option Z) (clock : Z -> Prop) (o : orc) : Prop :=
  o_fault o = None /\ Byte.x00 ∉ o_sfx o /\ (ts = None -> clock (o_now o)).

(** ** Requests *)

(** Arguments are key-value pairs; items of a batch are ids with the text of a
    size; [ds] are the data packets of an upload. *)
Inductive request :=
| RVersion
| RBatch (kvs : list (bytes * bytes)) (items : list (bytes * bytes))
| RPut (o : bytes) (kvs : list (bytes * bytes)) (ds : list bytes)
| RVerify (o : bytes) (kvs : list (bytes * bytes))
| RGet (o : bytes) (kvs : list (bytes * bytes))
| RLock (kvs : list (bytes * bytes))
| RList (kvs : list (bytes * bytes))
| RUnlock (i : bytes) (kvs : list (bytes * bytes)).

Definition lines (ls : list bytes) : list packet := map PData ls.
Definition args (kvs : list (bytes * bytes)) : list packet := lines (map arg_line kvs).
Definition item_line (x : bytes * bytes) : bytes := x.1 ++ [SP] ++ x.2 ++ [NL].

(** How a client sends a request. *)
Definition packets_of (r : request) : list packet :=
  match r with
  | RVersion => [PData (bs "version 1" ++ [NL]); PFlush]
  | RBatch kvs items =>
      PData (bs "batch" ++ [NL]) :: args kvs ++ [PDelim] ++ lines (map item_line items) ++ [PFlush]
  | RPut o kvs ds =>
      PData (bs "put-object " ++ o ++ [NL]) :: args kvs ++ [PDelim] ++ lines ds ++ [PFlush]
  | RVerify o kvs => PData (bs "verify-object " ++ o ++ [NL]) :: args kvs ++ [PFlush]
  | RGet o kvs => PData (bs "get-object " ++ o ++ [NL]) :: args kvs ++ [PFlush]
  | RLock kvs => PData (bs "lock" ++ [NL]) :: args kvs ++ [PFlush]
  | RList kvs => PData (bs "list-lock" ++ [NL]) :: args kvs ++ [PFlush]
  | RUnlock i kvs => PData (bs "unlock " ++ i ++ [NL]) :: args kvs ++ [PFlush]
  end.

Definition args_ok (kvs : list (bytes * bytes)) : Prop :=
  Forall (fun kv => EQ ∉ kv.1) kvs /\ NoDup kvs.*1.

Definition number (b : bytes) (n : N) : Prop := unsigned_text b n /\ (n < 2 ^ 64)%N.

(** The requests a client may send in a mode. *)
Definition well_formed (m : mode) (r : request) : Prop :=
  match r with
  | RVersion => True
  | RBatch kvs items =>
      args_ok kvs /\ Forall (fun x => is_oid x.1 /\ exists n, number x.2 n) items
  | RPut o kvs ds =>
      m = Upload /\ args_ok kvs /\ is_oid o /\ (exists b n, (bs "size", b) ∈ kvs /\ number b n) /\
      Forall (fun d => lenN d <= 65516)%N ds
  | RVerify o kvs => m = Upload /\ args_ok kvs /\ SP ∉ o
  | RGet o kvs => m = Download /\ args_ok kvs /\ SP ∉ o
  | RLock kvs => m = Upload /\ args_ok kvs
  | RList kvs => args_ok kvs
  | RUnlock i kvs => m = Upload /\ args_ok kvs /\ SP ∉ i /\ plain_name i
  end.

(** ** Answers *)

Inductive body :=
| BNone                     (* no second part *)
| BLines (ls : list bytes)
| BData (d : bytes)
| BText (t : bytes).        (* a message in words *)
Record reply := Reply { rp_code : N; rp_args : list bytes; rp_body : body }.

(** A line is sent in one packet, or in several if it is too long for one. *)
Definition line_sent (l : bytes) (ps : list packet) : Prop :=
  exists cs, ps = map PData cs /\ concat cs = l /\ Forall (fun c => 1 <= lenN c <= 65516)%N cs /\
    ((1 <= lenN l <= 65516)%N -> cs = [l]).

Inductive lines_sent : list bytes -> list packet -> Prop :=
| ls_nil : lines_sent [] []
| ls_cons l ls ps qs : line_sent l ps -> lines_sent ls qs -> lines_sent (l :: ls) (ps ++ qs).

Definition body_sent (b : body) (ps : list packet) : Prop :=
  match b with
  | BNone => ps = []
  | BLines ls => exists qs, ps = PDelim :: qs /\ lines_sent ls qs
  | BData d => exists cs, ps = PDelim :: map PData cs /\ concat cs = d /\
                 Forall (fun c => 1 <= lenN c <= 65516)%N cs
  | BText t => exists qs, ps = PDelim :: qs /\ line_sent t qs
  end.

Definition reply_sent (r : reply) (ps : list packet) : Prop :=
  exists code qa qb, denotes code (rp_code r) /\ length code = 3%nat /\
    lines_sent (rp_args r) qa /\ body_sent (rp_body r) qb /\
    ps = PData (bs "status " ++ code ++ [NL]) :: qa ++ qb ++ [PFlush].

Inductive replies_sent : list reply -> list packet -> Prop :=
| rs_nil : replies_sent [] []
| rs_cons r rs ps qs : reply_sent r ps -> replies_sent rs qs -> replies_sent (r :: rs) (ps ++ qs).

(** ** The abstract server *)

(** The message of a refusal. *)
Definition refusal (t : bytes) : reply := Reply 400 [] (BText (bs "error: " ++ t ++ [NL])).
Definition bad_oid : bytes := bs "invalid or malformed LFS oid".
Definition bad_number (b : bytes) : bytes :=
  bs "invalid or malformed integer or size value: unexpected value parsing integer: " ++ debug_bytes b.
Definition clash : bytes := bs "corrupt data: unexpected filename in parsed lock".
Definition not_found : reply := Reply 404 [] (BText (bs "not found" ++ [NL])).
Definition counted (expected got : N) : bytes := bs ": expected " ++ dec expected ++ bs " bytes, got " ++ dec got.

Section server.
Context (en : env) (m : mode).
(** Owner of new locks, and the times the clock may show. *)
Context (uid : N) (clock : Z -> Prop).

Definition user_name (u : N) : bytes :=
  match en_user en u with Some n => n | None => bs "uid " ++ dec u end.

(** The description of a lock in the answers to lock and unlock; [x] is the time
    in words. *)
Definition lock_info (p x : bytes) (u : N) : list bytes :=
  [bs "id=" ++ lock_id (en_hash en) p ++ [NL];
   bs "path=" ++ p ++ [NL];
   bs "locked-at=" ++ x ++ [NL];
   bs "ownername=" ++ user_name u ++ [NL]].

(** The description in a listing. *)
Definition lock_lines (p x : bytes) (u : N) : list bytes :=
  let i := lock_id (en_hash en) p in
  [bs "lock " ++ i ++ [NL];
   bs "path " ++ i ++ bs " " ++ p ++ [NL];
   bs "locked-at " ++ i ++ bs " " ++ x ++ [NL];
   bs "ownername " ++ i ++ bs " " ++ user_name u ++ [NL]] ++
  match m with
  | Upload => [bs "owner " ++ i ++ bs " " ++
               (if decide (user_name (en_uid en) = user_name u) then bs "ours" else bs "theirs") ++ [NL]]
  | Download => []
  end.

Definition batch_line_for (w : world) (o : bytes) (n : N) : bytes :=
  match w_objs w !! o with
  | Some d => o ++ [SP] ++ dec (lenN d) ++ [SP] ++
              match m with Upload => bs "noop" | Download => bs "download" end ++ [NL]
  | None => o ++ [SP] ++ dec n ++ [SP] ++
            match m with Upload => bs "upload" | Download => bs "noop" end ++ [NL]
  end.

(** Locks in the order of their ids, from [cursor] on. *)
Definition locks_from (w : world) (cursor : option bytes) (ls : list (bytes * (bytes * Z * N))) : Prop :=
  StronglySorted (fun a b => blt a.1 b.1 = true) ls /\
  forall i r, (i, r) ∈ ls <-> w_locks w !! i = Some r /\
    match cursor with Some c => blt i c = false | None => True end.

(** The lines of several locks. *)
Inductive locks_lines : list (bytes * (bytes * Z * N)) -> list bytes -> Prop :=
| ll_nil : locks_lines [] []
| ll_cons i p t u x ls out : en_time en t = Some x -> locks_lines ls out ->
    locks_lines ((i, (p, t, u)) :: ls) (lock_lines p x u ++ out).

Definition no_key (k : bytes) (kvs : list (bytes * bytes)) : Prop := k ∉ kvs.*1.
Definition key (k : bytes) (kvs : list (bytes * bytes)) (v : option bytes) : Prop :=
  match v with Some x => (k, x) ∈ kvs | None => no_key k kvs end.

(** The number of locks asked for. *)
Inductive limit_of : option bytes -> nat -> Prop :=
| lim_none : limit_of None 100
| lim_some b n : number b n -> n <> 0%N -> limit_of (Some b) (N.to_nat (N.min n 100)).

Inductive answer_of (w : world) : request -> reply -> world -> Prop :=
| a_version : answer_of w RVersion (Reply 200 [] (BLines [])) w
| a_batch kvs items ns h :
    key (bs "hash-algo") kvs h -> h = None \/ h = Some (bs "sha256") ->
    Forall2 (fun x n => number x.2 n) items ns ->
    answer_of w (RBatch kvs items)
      (Reply 200 [] (BLines (zip_with (batch_line_for w) items.*1 ns))) w
| a_batch_algo kvs items h :
    (bs "hash-algo", h) ∈ kvs -> h <> bs "sha256" ->
    answer_of w (RBatch kvs items) (refusal (bs "not allowed: " ++ utf8_lossy h ++ bs " is not a permitted hash algorithm")) w
| a_put o kvs ds b :
    (bs "size", b) ∈ kvs -> number b (lenN (concat ds)) -> hex_of (en_hash en (concat ds)) o ->
    answer_of w (RPut o kvs ds) (Reply 200 [] BNone)
      (World (<[o := concat ds]> (w_objs w)) (w_locks w))
| a_put_less o kvs ds b n :
    (bs "size", b) ∈ kvs -> number b n -> (lenN (concat ds) < n)%N ->
    answer_of w (RPut o kvs ds) (refusal (bs "incomplete or missing data" ++ counted n (lenN (concat ds)))) w
| a_put_more o kvs ds b n :
    (bs "size", b) ∈ kvs -> number b n -> (n < lenN (concat ds))%N ->
    answer_of w (RPut o kvs ds) (refusal (bs "extra data" ++ counted n (lenN (concat ds)))) w
| a_put_other o kvs ds b o' :
    (bs "size", b) ∈ kvs -> number b (lenN (concat ds)) -> hex_of (en_hash en (concat ds)) o' -> o' <> o ->
    answer_of w (RPut o kvs ds) (refusal (bs "corrupt data: expected oid " ++ o ++ bs ", got " ++ o')) w
| a_verify_oid o kvs : ~ is_oid o ->
    answer_of w (RVerify o kvs) (refusal bad_oid) w
| a_verify_no_size o kvs : is_oid o -> no_key (bs "size") kvs ->
    answer_of w (RVerify o kvs) (refusal (bs "incomplete or missing data: missing required header")) w
| a_verify_number o kvs b : is_oid o -> (bs "size", b) ∈ kvs -> ~ (exists n, number b n) ->
    answer_of w (RVerify o kvs) (refusal (bad_number b)) w
| a_verify_ok o kvs b d :
    is_oid o -> (bs "size", b) ∈ kvs -> w_objs w !! o = Some d -> number b (lenN d) ->
    answer_of w (RVerify o kvs) (Reply 200 [] BNone) w
| a_verify_size o kvs b n d :
    is_oid o -> (bs "size", b) ∈ kvs -> w_objs w !! o = Some d -> number b n -> n <> lenN d ->
    answer_of w (RVerify o kvs) (Reply 409 [] (BText (bs "mismatched size or cryptographic collision"))) w
| a_verify_none o kvs b n :
    is_oid o -> (bs "size", b) ∈ kvs -> number b n -> w_objs w !! o = None ->
    answer_of w (RVerify o kvs) (Reply 404 [] (BText (bs "not found"))) w
| a_get_bad o kvs : ~ is_oid o -> answer_of w (RGet o kvs) (refusal bad_oid) w
| a_get_none o kvs : is_oid o -> w_objs w !! o = None ->
    answer_of w (RGet o kvs) not_found w
| a_get o kvs d : is_oid o -> w_objs w !! o = Some d ->
    answer_of w (RGet o kvs) (Reply 200 [bs "size=" ++ dec (lenN d) ++ [NL]] (BData d)) w
| a_lock_bad kvs : no_key (bs "path") kvs \/ no_key (bs "refname") kvs ->
    answer_of w (RLock kvs) (refusal (bs "incomplete or missing data: both path and refname required")) w
| a_lock kvs p r t t' x :
    (bs "path", p) ∈ kvs -> (bs "refname", r) ∈ kvs ->
    w_locks w !! lock_id (en_hash en) p = None ->
    clock t -> clock t' -> en_time en t' = Some x ->
    answer_of w (RLock kvs) (Reply 201 (lock_info p x uid) BNone)
      (World (w_objs w) (<[lock_id (en_hash en) p := (p, t, uid)]> (w_locks w)))
| a_lock_held kvs p r t u x :
    (bs "path", p) ∈ kvs -> (bs "refname", r) ∈ kvs ->
    w_locks w !! lock_id (en_hash en) p = Some (p, t, u) -> en_time en t = Some x ->
    answer_of w (RLock kvs) (Reply 409 (lock_info p x u) (BText (bs "conflict" ++ [NL]))) w
| a_lock_clash kvs p r p' t u :
    (bs "path", p) ∈ kvs -> (bs "refname", r) ∈ kvs ->
    w_locks w !! lock_id (en_hash en) p = Some (p', t, u) -> p' <> p ->
    answer_of w (RLock kvs) (refusal clash) w
| a_list_number kvs b :
    (bs "limit", b) ∈ kvs -> ~ (exists n, number b n) ->
    answer_of w (RList kvs) (refusal (bad_number b)) w
| a_list_zero kvs b :
    (bs "limit", b) ∈ kvs -> number b 0 ->
    answer_of w (RList kvs) (refusal (bs "not allowed: bizarre request for no data")) w
| a_list_path kvs lim n p c t u x :
    key (bs "limit") kvs lim -> limit_of lim n -> (bs "path", p) ∈ kvs -> key (bs "cursor") kvs c ->
    w_locks w !! lock_id (en_hash en) p = Some (p, t, u) -> en_time en t = Some x ->
    match c with Some c => blt (lock_id (en_hash en) p) c = false | None => True end ->
    answer_of w (RList kvs) (Reply 200 [] (BLines (lock_lines p x u))) w
| a_list_path_none kvs lim n p c :
    key (bs "limit") kvs lim -> limit_of lim n -> (bs "path", p) ∈ kvs -> key (bs "cursor") kvs c ->
    w_locks w !! lock_id (en_hash en) p = None \/
    (exists t u c', w_locks w !! lock_id (en_hash en) p = Some (p, t, u) /\
       c = Some c' /\ blt (lock_id (en_hash en) p) c' = true) ->
    answer_of w (RList kvs) not_found w
| a_list_path_clash kvs lim n p p' t u :
    key (bs "limit") kvs lim -> limit_of lim n -> (bs "path", p) ∈ kvs ->
    w_locks w !! lock_id (en_hash en) p = Some (p', t, u) -> p' <> p ->
    answer_of w (RList kvs) (refusal clash) w
| a_list kvs lim n c ls out :
    key (bs "limit") kvs lim -> limit_of lim n -> no_key (bs "path") kvs -> key (bs "cursor") kvs c ->
    locks_from w c ls -> locks_lines (take (S n) ls) out ->
    answer_of w (RList kvs)
      (Reply 200 (match ls !! n with Some (i, _) => [bs "next-cursor=" ++ i ++ [NL]] | None => [] end)
         (BLines out)) w
| a_unlock_bad i kvs : utf8_valid i = false -> answer_of w (RUnlock i kvs) (refusal (bs "corrupt data: invalid or corrupt ID")) w
| a_unlock_none i kvs : utf8_valid i = true -> w_locks w !! i = None ->
    answer_of w (RUnlock i kvs) not_found w
| a_unlock i kvs p t u x : utf8_valid i = true -> w_locks w !! i = Some (p, t, u) -> en_time en t = Some x ->
    answer_of w (RUnlock i kvs) (Reply 200 (lock_info p x u) BNone)
      (World (w_objs w) (delete i (w_locks w))).

Inductive session_of : world -> list request -> list reply -> world -> Prop :=
| s_nil w : session_of w [] [] w
| s_cons w r a w' rs as_ w'' : answer_of w r a w' -> session_of w' rs as_ w'' ->
    session_of w (r :: rs) (a :: as_) w''.
End server.

(** How a session ends: at end of file, or with "quit", which is answered 200. *)
Inductive ending : bytes -> list reply -> Prop :=
| e_eof : ending [] []
| e_quit w junk : wire (PData (bs "quit" ++ [NL])) w -> ending (w ++ junk) [Reply 200 [] BNone].

(** The two operations. *)
Definition operation (m : mode) : bytes := match m with Upload => bs "upload" | Download => bs "download" end.

(** ** Running the server alone *)

(** The hash function has 32-byte results, the repository has an ordinary path,
    system calls behave, and the times that occur can be stored and displayed. *)
Record setting (en : env) (lfs : path) (ts : option Z) (clock : Z -> Prop) (os : orcs) : Prop := Setting {
  set_hash : digest (en_hash en);
  set_lfs : Forall plain_name lfs;
  set_ts : forall t, ts = Some t -> clock t;
  set_clock : forall t, clock t -> time_ok en t;
  set_os : forall n, mild ts clock (os n) }.

(** The input of the process is the requests [reqs] and then the end of the
    session. *)
Definition asks (m : mode) (l : local) (reqs : list request) (extra : list reply) : Prop :=
  Forall (well_formed m) reqs /\ exists inp rest, wires (concat (map packets_of reqs)) inp /\ ending rest extra /\
    l_in l = inp ++ rest.

(** The bound on loops of the model is large enough. *)
Definition enough (fuel : nat) (l : local) (w : world) : Prop :=
  (2 * length (l_in l) + 2 <= fuel)%nat /\ forall o d, w_objs w !! o = Some d -> (length d < fuel)%nat.

(** The server runs on state [l], [s], which holds [w], to its end; its output is
    the capabilities and the answers [as_] of the abstract server, and its final
    state represents the abstract server's. *)
Definition served (en : env) (lfs : path) (umask : N) (ts : option Z) (clock : Z -> Prop) (m : mode)
  (pid fuel : nat) (os : orcs) (l : local) (s : fs) (w : world) (reqs : list request)
  (as_ extra : list reply) (w' : world) (s' : fs) : Prop :=
  exists l' ps out,
    run pid (transfer_run en fuel lfs umask ts (operation m)) os l s = (Done (Ok tt), l', s') /\
    session_of en m (l_uid l) clock w reqs as_ w' /\ represents en lfs s' w' /\
    replies_sent (as_ ++ extra) ps /\
    wires (PData (bs "version=1" ++ [NL]) :: PFlush :: ps) out /\ l_out l' = l_out l ++ out.

(** ** Listing page by page *)

(** The arguments of a client that lists all locks with the limit [b]. *)
Definition list_args (b : bytes) (c : option bytes) : list (bytes * bytes) :=
  (bs "limit", b) :: match c with Some c => [(bs "cursor", c)] | None => [] end.

(** Requests that follow the next-cursor of each answer until there is none. *)
Inductive follows (b : bytes) : option bytes -> list request -> list reply -> Prop :=
| f_last c a : (forall x, bs "next-cursor=" ++ x ++ [NL] ∉ rp_args a) ->
    follows b c [RList (list_args b c)] [a]
| f_more c c' a rs as_ : rp_args a = [bs "next-cursor=" ++ c' ++ [NL]] -> follows b (Some c') rs as_ ->
    follows b c (RList (list_args b c) :: rs) (a :: as_).

(** The answers show these pages of at most [n] locks; every page but the last
    also shows the first lock of the next one. *)
Inductive shows (en : env) (m : mode) (n : nat) : list reply -> list (list (bytes * (bytes * Z * N))) -> Prop :=
| sh_last ls out : locks_lines en m ls out -> (length ls <= n)%nat ->
    shows en m n [Reply 200 [] (BLines out)] [ls]
| sh_more ls e ls' out as_ pgs : locks_lines en m (ls ++ [e]) out -> length ls = n ->
    shows en m n as_ ((e :: ls') :: pgs) ->
    shows en m n (Reply 200 [bs "next-cursor=" ++ e.1 ++ [NL]] (BLines out) :: as_) (ls :: (e :: ls') :: pgs).
