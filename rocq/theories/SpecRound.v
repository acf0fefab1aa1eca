(** What a server does with one request, whatever the system answers to its calls:
    what the theorems of Props_Round.v are stated with. *)
From Verif Require Import Bytes Err FS Prog Pktline Args Local Processor Transfer Spec SpecStore SpecServer SpecFrame SpecTalk
  SpecPerm SpecInput.
From Verif Require SpecOdd SpecLockDir.
From stdpp Require Import sorting.

(** ** The calls of a round *)

(** Reads from the client; words to the client; and everything else. *)
Definition is_read (d : done_call) : bool := match projT1 d with ERead _ => true | _ => false end.
Definition is_deed (d : done_call) : bool :=
  match projT1 d with ERead _ | EOut _ | EFlush | ENote _ _ => false | _ => true end.
Definition reads (tr : list done_call) : list done_call := List.filter is_read tr.
Definition deeds (tr : list done_call) : list done_call := List.filter is_deed tr.
Definition words (d : done_call) : bytes := match projT1 d with EOut b => b | _ => [] end.
Definition spoken (tr : list done_call) : bytes := concat (map words tr).

(** A read of [n] bytes returns [n] bytes or fails. *)
Definition exact (tr : list done_call) : Prop := forall n b, existT (ERead n) (IOk b) ∈ tr -> lenN b = n.
(** No call for output has failed. *)
Definition sent_well (tr : list done_call) : Prop := Forall (fun d => ~ failed_write d) tr.

(** ** What the client is heard to say *)

(** A packet; a read that failed; four bytes that are no header; the header of a
    packet too long for the data of an upload. *)
Inductive item := Got (p : packet) | Lost (x : ioerr) | Garbled | TooLong.

Inductive hear : list done_call -> item -> Prop :=
| he_flush h : header h 0 -> hear [existT (ERead 4) (IOk h)] (Got PFlush)
| he_delim h : header h 1 -> hear [existT (ERead 4) (IOk h)] (Got PDelim)
| he_data h n d : header h (n + 4) -> lenN d = n -> hear [existT (ERead 4) (IOk h); existT (ERead n) (IOk d)] (Got (PData d))
| he_lost x : hear [existT (ERead 4) (IErr x)] (Lost x)
| he_cut h n x : header h (n + 4) -> hear [existT (ERead 4) (IOk h); existT (ERead n) (IErr x)] (Lost x)
| he_garbled h : no_header h -> hear [existT (ERead 4) (IOk h)] Garbled
| he_long h v : header h v -> (65520 < v)%N -> hear [existT (ERead 4) (IOk h)] TooLong.
Inductive hears : list done_call -> list item -> Prop :=
| hs_nil : hears [] []
| hs_cons r i rs is : hear r i -> hears rs is -> hears (r ++ rs) (i :: is).

Definition end_of_file (i : item) : Prop := exists x, i = Lost x /\ io_kind_of x = KUnexpectedEof.

(** Packets up to [stop], or up to the end of the input; up to something else. *)
Definition part (stop : packet) (is : list item) (qs : list packet) : Prop :=
  exists i, is = map Got qs ++ [i] /\ stop ∉ qs /\ (i = Got stop \/ end_of_file i).
Definition broken_part (stop : packet) (is : list item) (i : item) : Prop :=
  exists qs, is = map Got qs ++ [i] /\ stop ∉ qs /\
    (i = Garbled \/ exists x, i = Lost x /\ io_kind_of x <> KUnexpectedEof).

(** ** Answers *)

Definition fixed (code : N) (t : bytes) : reply := Reply code [] (BText (t ++ [NL])).
Definition io_trouble (x : ioerr) : reply := fixed 500 (bs "internal error: fatal: I/O error: " ++ io_text x).
Definition what_is_wrong (i : item) : bytes :=
  match i with
  | Lost x => bs "fatal: I/O error: " ++ io_text x
  | _ => bs "malformed or unknown pkt-line header"
  end.
(** The answer to a request that cannot be read. *)
Definition unreadable (i : item) : reply :=
  match i with
  | Lost x => io_trouble x
  | _ => refusal (bs "malformed or unknown pkt-line header")
  end.
Definition unparsable : reply := fixed 500 (bs "internal error: parse error").
Definition missing (x : ioerr) : Prop := io_kind_of x = KNotFound.

Section round.
Context (en : env) (lfs : path) (umask : N) (m : mode).
Notation id p := (lock_id (en_hash en) p).
Notation locks := (lfs ++ [bs "locks"]).
Definition lock_at (p : bytes) : path := lfs ++ [bs "locks"; id p].
Definition draft_at (p : bytes) : path := lfs ++ [bs "locks"; id p ++ bs ".lock"].

(** ** Looking for a lock *)

(** The file meant by an id. *)
Fixpoint slashed (cs : list bytes) : bytes :=
  match cs with
  | [] => []
  | [c] => c
  | c :: cs' => c ++ [SLASH] ++ slashed cs'
  end.
Definition target (i : bytes) (f : path) : Prop :=
  exists cs, cs <> [] /\ Forall (fun c => SLASH ∉ c) cs /\ i = slashed cs /\
    f = if decide (head i = Some SLASH) then cs else locks ++ cs.

Definition owner_name (r : iores (N * N)) : bytes :=
  match r with IOk (_, u) => user_name en u | IErr _ => bs "unknown" end.

Inductive finding := Absent | Unusable (a : reply) | Found (p : bytes) (t : Z) (owner : bytes).
Inductive looks (f : path) : list done_call -> finding -> Prop :=
| lk_none x : missing x -> looks f [existT (EOpen f) (IErr x)] Absent
| lk_open x : ~ missing x -> looks f [existT (EOpen f) (IErr x)] (Unusable (io_trouble x))
| lk_read h x : looks f [existT (EOpen f) (IOk h); existT (EReadAll h) (IErr x)] (Unusable (io_trouble x))
| lk_bad h d r : (forall t p, ~ SpecLockDir.says d t p) ->
    looks f [existT (EOpen f) (IOk h); existT (EReadAll h) (IOk d); existT (EStat f) r]
      (Unusable (refusal (bs "corrupt data: invalid parsed lock")))
| lk_found h d r t p : SpecLockDir.says d t p ->
    looks f [existT (EOpen f) (IOk h); existT (EReadAll h) (IOk d); existT (EStat f) r] (Found p t (owner_name r)).
(** The lock of a path. *)
Inductive looks_for (p : bytes) : list done_call -> finding -> Prop :=
| lf_same ds x : looks (lock_at p) ds x -> (forall q t o, x = Found q t o -> q = p) -> looks_for p ds x
| lf_clash ds q t o : looks (lock_at p) ds (Found q t o) -> q <> p -> looks_for p ds (Unusable (refusal clash)).

(** The descriptions of a lock; [x] is the time in words. *)
Definition info (p x owner : bytes) : list bytes :=
  [bs "id=" ++ id p ++ [NL]; bs "path=" ++ p ++ [NL]; bs "locked-at=" ++ x ++ [NL]; bs "ownername=" ++ owner ++ [NL]].
Definition info_lines (p x owner : bytes) : list bytes :=
  [bs "lock " ++ id p ++ [NL];
   bs "path " ++ id p ++ bs " " ++ p ++ [NL];
   bs "locked-at " ++ id p ++ bs " " ++ x ++ [NL];
   bs "ownername " ++ id p ++ bs " " ++ owner ++ [NL]] ++
  match m with
  | Upload => [bs "owner " ++ id p ++ bs " " ++
               (if decide (user_name en (en_uid en) = owner) then bs "ours" else bs "theirs") ++ [NL]]
  | Download => []
  end.
Inductive all_lines : list (bytes * Z * bytes) -> list bytes -> Prop :=
| al_nil : all_lines [] []
| al_cons p t o x ls out : en_time en t = Some x -> all_lines ls out ->
    all_lines ((p, t, o) :: ls) (info_lines p x o ++ out).

(** Looking at the entries of the directory of locks. *)
Inductive visits : list bytes -> list done_call -> list (bytes * Z * bytes) -> Prop :=
| vi_nil : visits [] [] []
| vi_found i is f ds ds' p t o ls : target (utf8_lossy i) f -> looks f ds (Found p t o) -> visits is ds' ls ->
    visits (i :: is) (ds ++ ds') ((p, t, o) :: ls)
| vi_other i is f ds ds' x ls : target (utf8_lossy i) f -> looks f ds x -> (forall p t o, x <> Found p t o) ->
    visits is ds' ls -> visits (i :: is) (ds ++ ds') ls.

(** ** Looking at objects *)

Definition state_line (o : bytes) (n : N) (r : iores (N * N)) : bytes :=
  match r with
  | IOk (k, _) => o ++ [SP] ++ dec k ++ [SP] ++ match m with Upload => bs "noop" | Download => bs "download" end ++ [NL]
  | IErr _ => o ++ [SP] ++ dec n ++ [SP] ++ match m with Upload => bs "upload" | Download => bs "noop" end ++ [NL]
  end.
Inductive checks : list (bytes * bytes) -> list done_call -> list bytes -> Prop :=
| ck_nil : checks [] [] []
| ck_cons o v n r items ds ls : number v n -> checks items ds ls ->
    checks ((o, v) :: items) (existT (EStat (object_path lfs o)) r :: ds) (state_line o n r :: ls).

(** Reading a file from [off] to its end. *)
Inductive fetches (h : handle) : nat -> list done_call -> bytes -> Prop :=
| fe_end off n : (0 < n)%N -> fetches h off [existT (EReadAt h off n) (IOk [])] []
| fe_more off n c ds d : c <> [] -> fetches h (off + length c) ds d ->
    fetches h off (existT (EReadAt h off n) (IOk c) :: ds) (c ++ d).

(** ** Requests other than uploads *)

(** The draft of a lock: what was written, and how it ended. *)
Inductive drafts (p : bytes) : list done_call -> option ioerr -> Prop :=
| dr_exists t x r : drafts p [existT EClock t; existT (ECreate (draft_at p)) (IErr x); existT (EUnlink (draft_at p)) r] (Some x)
| dr_link t fd x r : drafts p
    [existT EClock t; existT (ECreate (draft_at p)) (IOk fd); existT (EWriteFd fd (record_of t p)) (IOk tt);
     existT (ELink (draft_at p) (lock_at p)) (IErr x); existT (EUnlink (draft_at p)) r] (Some x)
| dr_done t fd r : drafts p
    [existT EClock t; existT (ECreate (draft_at p)) (IOk fd); existT (EWriteFd fd (record_of t p)) (IOk tt);
     existT (ELink (draft_at p) (lock_at p)) (IOk tt); existT (EUnlink (draft_at p)) r] None.

Inductive locking (p : bytes) : list done_call -> reply -> Prop :=
| lc_done ds r t x : drafts p ds None -> en_time en t = Some x ->
    locking p (ds ++ [existT (EStat (lock_at p)) r; existT EClock t]) (Reply 201 (info p x (owner_name r)) BNone)
| lc_write t fd x r : locking p
    [existT EClock t; existT (ECreate (draft_at p)) (IOk fd); existT (EWriteFd fd (record_of t p)) (IErr x);
     existT (EUnlink (draft_at p)) r] (io_trouble x)
| lc_failed ds x : drafts p ds (Some x) -> io_kind_of x <> KAlreadyExists -> locking p ds (io_trouble x)
| lc_held ds x ds' t o tx : drafts p ds (Some x) -> io_kind_of x = KAlreadyExists -> looks_for p ds' (Found p t o) ->
    en_time en t = Some tx -> locking p (ds ++ ds') (Reply 409 (info p tx o) (BText (bs "conflict" ++ [NL])))
| lc_useless ds x ds' a : drafts p ds (Some x) -> io_kind_of x = KAlreadyExists -> looks_for p ds' (Unusable a) ->
    locking p (ds ++ ds') a.

Inductive listing (c : option bytes) (n : nat) : list done_call -> reply -> Prop :=
| li_failed x : listing c n [existT (EReaddir locks) (IErr x)] (io_trouble x)
| li_done names is1 is2 ds before ls out :
    is1 ++ is2 ≡ₚ names -> StronglySorted (fun a b => blt b a = false) (is1 ++ is2) ->
    visits is1 ds (before ++ ls) -> Forall (fun x => SpecLockDir.passed c (id x.1.1)) before ->
    match ls with x :: _ => ~ SpecLockDir.passed c (id x.1.1) | [] => True end ->
    (length ls <= S n)%nat -> is2 = [] \/ length ls = S n -> all_lines ls out ->
    listing c n (existT (EReaddir locks) (IOk names) :: ds)
      (Reply 200 (match ls !! n with Some (p, _, _) => [bs "next-cursor=" ++ id p ++ [NL]] | None => [] end) (BLines out)).

Inductive path_listing (p : bytes) (c : option bytes) : list done_call -> reply -> Prop :=
| pl_none ds : looks_for p ds Absent -> path_listing p c ds not_found
| pl_useless ds a : looks_for p ds (Unusable a) -> path_listing p c ds a
| pl_passed ds t o : looks_for p ds (Found p t o) -> SpecLockDir.passed c (id p) -> path_listing p c ds not_found
| pl_found ds t o x : looks_for p ds (Found p t o) -> ~ SpecLockDir.passed c (id p) -> en_time en t = Some x ->
    path_listing p c ds (Reply 200 [] (BLines (info_lines p x o))).

Inductive unlocking (f : path) : list done_call -> reply -> Prop :=
| un_none ds : looks f ds Absent -> unlocking f ds not_found
| un_useless ds a : looks f ds (Unusable a) -> unlocking f ds a
| un_done ds p t o x : looks f ds (Found p t o) -> en_time en t = Some x ->
    unlocking f (ds ++ [existT (EUnlink (lock_at p)) (IOk tt)]) (Reply 200 (info p x o) BNone)
| un_gone ds p t o x : looks f ds (Found p t o) -> is_Some (en_time en t) -> missing x ->
    unlocking f (ds ++ [existT (EUnlink (lock_at p)) (IErr x)]) not_found
| un_denied ds p t o x : looks f ds (Found p t o) -> is_Some (en_time en t) -> io_kind_of x = KPermissionDenied ->
    unlocking f (ds ++ [existT (EUnlink (lock_at p)) (IErr x)]) (fixed 403 (bs "forbidden"))
| un_failed ds p t o x : looks f ds (Found p t o) -> is_Some (en_time en t) -> ~ missing x -> io_kind_of x <> KPermissionDenied ->
    unlocking f (ds ++ [existT (EUnlink (lock_at p)) (IErr x)]) (io_trouble x).

(** A request with arguments, all of which are read: the calls and the answer. *)
Inductive acts : request -> list done_call -> reply -> Prop :=
| ac_verify_oid o kvs : ~ is_oid o -> acts (RVerify o kvs) [] (refusal bad_oid)
| ac_verify_size o kvs : is_oid o -> no_key (bs "size") kvs ->
    acts (RVerify o kvs) [] (refusal (bs "incomplete or missing data: missing required header"))
| ac_verify_number o kvs v : is_oid o -> (bs "size", v) ∈ kvs -> ~ (exists n, number v n) ->
    acts (RVerify o kvs) [] (refusal (bad_number v))
| ac_verify_ok o kvs v n u : is_oid o -> (bs "size", v) ∈ kvs -> number v n ->
    acts (RVerify o kvs) [existT (EStat (object_path lfs o)) (IOk (n, u))] (Reply 200 [] BNone)
| ac_verify_wrong o kvs v n k u : is_oid o -> (bs "size", v) ∈ kvs -> number v n -> k <> n ->
    acts (RVerify o kvs) [existT (EStat (object_path lfs o)) (IOk (k, u))]
      (Reply 409 [] (BText (bs "mismatched size or cryptographic collision")))
| ac_verify_none o kvs v n x : is_oid o -> (bs "size", v) ∈ kvs -> number v n -> missing x ->
    acts (RVerify o kvs) [existT (EStat (object_path lfs o)) (IErr x)] (Reply 404 [] (BText (bs "not found")))
| ac_verify_failed o kvs v n x : is_oid o -> (bs "size", v) ∈ kvs -> number v n -> ~ missing x ->
    acts (RVerify o kvs) [existT (EStat (object_path lfs o)) (IErr x)] (io_trouble x)
| ac_get_oid o kvs : ~ is_oid o -> acts (RGet o kvs) [] (refusal bad_oid)
| ac_get_open o kvs x : is_oid o ->
    acts (RGet o kvs) [existT (EOpen (object_path lfs o)) (IErr x)]
      (if decide (missing x) then not_found else io_trouble x)
| ac_get_stat o kvs h x : is_oid o ->
    acts (RGet o kvs) [existT (EOpen (object_path lfs o)) (IOk h); existT (EFstat h) (IErr x)]
      (if decide (missing x) then not_found else io_trouble x)
| ac_get o kvs h n ds d : is_oid o -> fetches h 0 ds d ->
    acts (RGet o kvs) (existT (EOpen (object_path lfs o)) (IOk h) :: existT (EFstat h) (IOk n) :: ds)
      (Reply 200 [bs "size=" ++ dec n ++ [NL]] (BData d))
| ac_batch kvs items h ds ls : key (bs "hash-algo") kvs h -> h = None \/ h = Some (bs "sha256") ->
    Forall (fun x => is_oid x.1) items -> checks items ds ls ->
    acts (RBatch kvs items) ds (Reply 200 [] (BLines ls))
| ac_lock_bad kvs : no_key (bs "path") kvs \/ no_key (bs "refname") kvs ->
    acts (RLock kvs) [] (refusal (bs "incomplete or missing data: both path and refname required"))
| ac_lock kvs p r ds a : (bs "path", p) ∈ kvs -> (bs "refname", r) ∈ kvs -> locking p ds a -> acts (RLock kvs) ds a
| ac_list_number kvs v : (bs "limit", v) ∈ kvs -> ~ (exists n, number v n) -> acts (RList kvs) [] (refusal (bad_number v))
| ac_list_zero kvs v : (bs "limit", v) ∈ kvs -> number v 0 ->
    acts (RList kvs) [] (refusal (bs "not allowed: bizarre request for no data"))
| ac_list_path kvs lim n c p ds a : key (bs "limit") kvs lim -> limit_of lim n -> key (bs "cursor") kvs c ->
    (bs "path", p) ∈ kvs -> path_listing p c ds a -> acts (RList kvs) ds a
| ac_list kvs lim n c ds a : key (bs "limit") kvs lim -> limit_of lim n -> key (bs "cursor") kvs c ->
    no_key (bs "path") kvs -> listing c n ds a -> acts (RList kvs) ds a.

(** The arguments of a request. *)
Definition with_args (kvs : list (bytes * bytes)) (r : request) : request :=
  match r with
  | RVersion => RVersion
  | RBatch _ items => RBatch kvs items
  | RPut o _ ds => RPut o kvs ds
  | RVerify o _ => RVerify o kvs
  | RGet o _ => RGet o kvs
  | RLock _ => RLock kvs
  | RList _ => RList kvs
  | RUnlock i _ => RUnlock i kvs
  end.

(** Requests whose arguments end with a flush packet and count; locks and listings
    complain about packets in their own way. *)
Definition plain_request (r : request) : Prop := match r with RVerify _ _ | RGet _ _ => True | _ => False end.
Definition lock_request (r : request) : Prop := match r with RLock _ | RList _ => True | _ => False end.

(** What is heard of a request that is no upload, the calls, and the answer. *)
Inductive responds : list item -> list done_call -> reply -> Prop :=
| re_flush : responds [Got PFlush] [] (fixed 400 (bs "unknown command"))
| re_delim : responds [Got PDelim] [] (fixed 400 (bs "unknown command"))
| re_empty : responds [Got (PData [])] [] (fixed 400 (bs "no command provided"))
| re_turned b ws code t : SpecOdd.says b ws -> SpecOdd.turned_away m ws code t -> responds [Got (PData b)] [] (fixed code t)
| re_version b ws is qs : SpecOdd.says b ws -> SpecOdd.named RVersion ws -> part PFlush is qs ->
    responds (Got (PData b) :: is) [] (Reply 200 [] (BLines []))
| re_unlock_bad b ws i is qs : m = Upload -> SpecOdd.says b ws -> SpecOdd.named (RUnlock i []) ws -> part PFlush is qs ->
    utf8_valid i = false -> responds (Got (PData b) :: is) [] (refusal (bs "corrupt data: invalid or corrupt ID"))
| re_unlock b ws i is qs f ds a : m = Upload -> SpecOdd.says b ws -> SpecOdd.named (RUnlock i []) ws -> part PFlush is qs ->
    utf8_valid i = true -> target i f -> unlocking f ds a -> responds (Got (PData b) :: is) ds a
| re_broken b ws r is i : SpecOdd.says b ws -> SpecOdd.named r ws -> SpecOdd.allowed m r ->
    plain_request r \/ r = RVersion \/ (exists i, r = RUnlock i []) -> broken_part PFlush is i ->
    responds (Got (PData b) :: is) [] (unreadable i)
| re_broken_lock b ws r is i : SpecOdd.says b ws -> SpecOdd.named r ws -> SpecOdd.allowed m r -> lock_request r -> broken_part PFlush is i ->
    responds (Got (PData b) :: is) [] unparsable
| re_args b ws r is qs code t : SpecOdd.says b ws -> SpecOdd.named r ws -> SpecOdd.allowed m r -> plain_request r \/ lock_request r ->
    part PFlush is qs -> SpecOdd.bad_args qs code t -> responds (Got (PData b) :: is) [] (fixed code t)
| re_acts b ws r is kvs ds a : SpecOdd.says b ws -> SpecOdd.named r ws -> SpecOdd.allowed m r -> plain_request r \/ lock_request r ->
    part PFlush is (args kvs) -> args_ok kvs -> acts (with_args kvs r) ds a -> responds (Got (PData b) :: is) ds a
| re_batch_broken b ws is i : SpecOdd.says b ws -> SpecOdd.named (RBatch [] []) ws -> broken_part PDelim is i ->
    responds (Got (PData b) :: is) [] (unreadable i)
| re_batch_args b ws is qs code t : SpecOdd.says b ws -> SpecOdd.named (RBatch [] []) ws -> part PDelim is qs -> SpecOdd.bad_args qs code t ->
    responds (Got (PData b) :: is) [] (fixed code t)
| re_batch_broken2 b ws is1 is2 kvs i : SpecOdd.says b ws -> SpecOdd.named (RBatch [] []) ws -> part PDelim is1 (args kvs) -> args_ok kvs ->
    broken_part PFlush is2 i -> responds (Got (PData b) :: is1 ++ is2) [] unparsable
| re_batch_algo b ws is1 is2 kvs qs h : SpecOdd.says b ws -> SpecOdd.named (RBatch [] []) ws -> part PDelim is1 (args kvs) -> args_ok kvs ->
    part PFlush is2 qs -> (bs "hash-algo", h) ∈ kvs -> h <> bs "sha256" ->
    responds (Got (PData b) :: is1 ++ is2) []
      (refusal (bs "not allowed: " ++ utf8_lossy h ++ bs " is not a permitted hash algorithm"))
| re_batch_items b ws is1 is2 kvs qs h code t : SpecOdd.says b ws -> SpecOdd.named (RBatch [] []) ws -> part PDelim is1 (args kvs) ->
    args_ok kvs -> part PFlush is2 qs -> key (bs "hash-algo") kvs h -> h = None \/ h = Some (bs "sha256") ->
    SpecOdd.bad_items qs code t -> responds (Got (PData b) :: is1 ++ is2) [] (fixed code t)
| re_batch b ws is1 is2 kvs items ds a : SpecOdd.says b ws -> SpecOdd.named (RBatch [] []) ws -> part PDelim is1 (args kvs) -> args_ok kvs ->
    part PFlush is2 (lines (map item_line items)) -> acts (RBatch kvs items) ds a ->
    responds (Got (PData b) :: is1 ++ is2) ds a.

(** ** Uploads *)

Definition written (fd : nat) (cs : list bytes) : list done_call := map (fun c => existT (EWriteFd fd c) (IOk tt)) cs.

(** The whole data [d] is in the temporary file. *)
Inductive finishing (o : bytes) (n : N) (tmp : path) (d : bytes) : list done_call -> reply -> Prop :=
| fi_less r : (lenN d < n)%N -> finishing o n tmp d [existT (EUnlink tmp) r]
    (refusal (bs "incomplete or missing data" ++ counted n (lenN d)))
| fi_more r : (n < lenN d)%N -> finishing o n tmp d [existT (EUnlink tmp) r] (refusal (bs "extra data" ++ counted n (lenN d)))
| fi_other r o' : lenN d = n -> hex_of (en_hash en d) o' -> o' <> o -> finishing o n tmp d [existT (EUnlink tmp) r]
    (refusal (bs "corrupt data: expected oid " ++ o ++ bs ", got " ++ o'))
| fi_mkdir x r : lenN d = n -> hex_of (en_hash en d) o ->
    finishing o n tmp d
      [existT (EMkdir (lfs ++ [bs "objects"; take 2 o; take 2 (drop 2 o)])) (IErr x); existT (EUnlink tmp) r] (io_trouble x)
| fi_rename x r : lenN d = n -> hex_of (en_hash en d) o ->
    finishing o n tmp d
      [existT (EMkdir (lfs ++ [bs "objects"; take 2 o; take 2 (drop 2 o)])) (IOk tt);
       existT (ERename tmp (object_path lfs o)) (IErr x); existT (EUnlink tmp) r]
      (fixed 500 (bs "internal error: fatal: I/O error: failed to persist temporary path: " ++ io_text x))
| fi_stat x : lenN d = n -> hex_of (en_hash en d) o ->
    finishing o n tmp d
      [existT (EMkdir (lfs ++ [bs "objects"; take 2 o; take 2 (drop 2 o)])) (IOk tt);
       existT (ERename tmp (object_path lfs o)) (IOk tt); existT (EStat (object_path lfs o)) (IErr x)] (io_trouble x)
| fi_chmod y p x : lenN d = n -> hex_of (en_hash en d) o -> perm_bits p umask ->
    finishing o n tmp d
      [existT (EMkdir (lfs ++ [bs "objects"; take 2 o; take 2 (drop 2 o)])) (IOk tt);
       existT (ERename tmp (object_path lfs o)) (IOk tt); existT (EStat (object_path lfs o)) (IOk y);
       existT (EChmod (object_path lfs o) p) (IErr x)] (io_trouble x)
| fi_done y p : lenN d = n -> hex_of (en_hash en d) o -> perm_bits p umask ->
    finishing o n tmp d
      [existT (EMkdir (lfs ++ [bs "objects"; take 2 o; take 2 (drop 2 o)])) (IOk tt);
       existT (ERename tmp (object_path lfs o)) (IOk tt); existT (EStat (object_path lfs o)) (IOk y);
       existT (EChmod (object_path lfs o) p) (IOk tt)] (Reply 200 [] BNone).

(** The data of an upload: bytes [old] left from an earlier upload that was given up,
    and then the packets; [new] is left. *)
Inductive storing (o : bytes) (n : N) (old : bytes) : list item -> list done_call -> reply -> bytes -> Prop :=
| so_temp x : storing o n old [] [existT (EMktemp (lfs ++ [bs "incomplete"]) o) (IErr x)] (io_trouble x) old
| so_write ds tmp fd cs c x r new : concat cs ++ c ++ new = old ++ concat ds ->
    storing o n old (map Got (lines ds))
      (existT (EMktemp (lfs ++ [bs "incomplete"]) o) (IOk (tmp, fd)) :: written fd cs ++
       [existT (EWriteFd fd c) (IErr x); existT (EUnlink tmp) r]) (io_trouble x) new
| so_read ds tmp fd cs i r : concat cs = old ++ concat ds -> (forall p, i <> Got p) ->
    storing o n old (map Got (lines ds) ++ [i])
      (existT (EMktemp (lfs ++ [bs "incomplete"]) o) (IOk (tmp, fd)) :: written fd cs ++ [existT (EUnlink tmp) r])
      (fixed 500 (bs "internal error: fatal: I/O error: " ++ what_is_wrong i)) []
| so_data ds e tmp fd cs ds' a : e = PFlush \/ e = PDelim -> concat cs = old ++ concat ds ->
    finishing o n tmp (old ++ concat ds) ds' a ->
    storing o n old (map Got (lines ds) ++ [Got e])
      (existT (EMktemp (lfs ++ [bs "incomplete"]) o) (IOk (tmp, fd)) :: written fd cs ++ ds') a [].

Inductive uploads (old : bytes) : list item -> list done_call -> reply -> bytes -> Prop :=
| up_broken b ws o is i : SpecOdd.says b ws -> SpecOdd.named (RPut o [] []) ws -> is_oid o -> broken_part PDelim is i ->
    uploads old (Got (PData b) :: is) [] (unreadable i) old
| up_args b ws o is qs code t : SpecOdd.says b ws -> SpecOdd.named (RPut o [] []) ws -> is_oid o -> part PDelim is qs -> SpecOdd.bad_args qs code t ->
    uploads old (Got (PData b) :: is) [] (fixed code t) old
| up_no_size b ws o is kvs : SpecOdd.says b ws -> SpecOdd.named (RPut o [] []) ws -> is_oid o -> part PDelim is (args kvs) -> args_ok kvs ->
    no_key (bs "size") kvs ->
    uploads old (Got (PData b) :: is) [] (refusal (bs "incomplete or missing data: missing required size header")) old
| up_number b ws o is kvs v : SpecOdd.says b ws -> SpecOdd.named (RPut o [] []) ws -> is_oid o -> part PDelim is (args kvs) -> args_ok kvs ->
    (bs "size", v) ∈ kvs -> ~ (exists n, number v n) ->
    uploads old (Got (PData b) :: is) [] (refusal (bad_number v)) old
| up_data b ws o is1 is2 kvs v n ds a new : SpecOdd.says b ws -> SpecOdd.named (RPut o [] []) ws -> is_oid o -> part PDelim is1 (args kvs) ->
    args_ok kvs -> (bs "size", v) ∈ kvs -> number v n -> storing o n old is2 ds a new ->
    uploads old (Got (PData b) :: is1 ++ is2) ds a new.

(** ** Rounds *)

(** The calls [tr] are those of a request and its answer; [old] and [new] are what is
    left of the data of uploads before and after. *)
Definition round (old : bytes) (tr : list done_call) (new : bytes) : Prop :=
  exists is a ps, hears (reads tr) is /\ reply_sent a ps /\ wires ps (spoken tr) /\ sent_well tr /\
    (responds is (deeds tr) a /\ new = old \/ m = Upload /\ uploads old is (deeds tr) a new).
Inductive rounds : bytes -> list done_call -> bytes -> Prop :=
| rn_nil old : rounds old [] old
| rn_cons old tr mid tr' new : round old tr mid -> rounds mid tr' new -> rounds old (tr ++ tr') new.

(** The input ends where a request might begin. *)
Definition hung_up (tr : list done_call) : Prop :=
  exists i, end_of_file i /\ hears tr [i].
(** The answer to "quit" is the last one. *)
Definition farewell (tr : list done_call) : Prop :=
  exists b ws ps, hears (reads tr) [Got (PData b)] /\ SpecOdd.says b ws /\ ws = [bs "quit"] /\
    reply_sent (Reply 200 [] BNone) ps /\ wires ps (spoken tr) /\ sent_well tr /\ deeds tr = [].
End round.
