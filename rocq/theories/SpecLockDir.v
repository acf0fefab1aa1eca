(** The answers of a server to requests about locks, whatever is in the directory
    of locks: damaged or foreign files, directories, files left by servers that
    were killed. *)
From Verif Require Import Bytes Err FS Prog Pktline Args Local Processor Transfer Spec SpecStore SpecServer.
From stdpp Require Import sorting.

(** ** What is in the directory *)

(** By name: a directory, or a file with contents and owner. *)
Inductive entry := Folder | File (d : bytes) (u : N).
Notation lockdir := (gmap bytes entry).

Record contains (lfs : path) (s : fs) (D : lockdir) : Prop := Contains {
  c_dirs : lfs_dirs s lfs;
  c_sane : sane s;
  c_names : forall i, is_Some (D !! i) -> plain_name i;
  c_folder : forall i, D !! i = Some Folder <-> nodes s !! (lfs ++ [bs "locks"; i]) = Some NDir;
  c_file : forall i d u, D !! i = Some (File d u) <-> owned_file s (lfs ++ [bs "locks"; i]) d u }.

(** A file with the record of a lock says since when which path is locked. *)
Definition says (d : bytes) (t : Z) (p : bytes) : Prop :=
  exists b, d = bs "v1:" ++ b ++ bs ":" ++ p /\ signed_text b t /\ (- 2 ^ 63 <= t < 2 ^ 63)%Z.

(** What a server makes of an entry: none, one it cannot use and how it complains,
    or a lock. *)
Inductive thing := Nothing | Useless (complaint : reply) | Held (p : bytes) (t : Z) (u : N).

Definition trouble : reply :=
  Reply 500 [] (BText (bs "internal error: fatal: I/O error: Is a directory (os error 21)" ++ [NL])).

Inductive under (D : lockdir) (i : bytes) : thing -> Prop :=
| u_none : D !! i = None -> under D i Nothing
| u_folder : D !! i = Some Folder -> under D i (Useless trouble)
| u_bad d u : D !! i = Some (File d u) -> (forall t p, ~ says d t p) ->
    under D i (Useless (refusal (bs "corrupt data: invalid parsed lock")))
| u_held d u t p : D !! i = Some (File d u) -> says d t p -> under D i (Held p t u).

(** ** Answers *)

(** The request is answered, or the server panics; and what is in the directory
    then. *)
Inductive fate := Answered (a : reply) (D : lockdir) | Panics (f : failure) (D : lockdir).

Section answers.
Context (en : env) (m : mode) (uid : N) (clock : Z -> Prop).
Notation id p := (lock_id (en_hash en) p).

(** The file in which a record is prepared. *)
Definition draft (p : bytes) : bytes := id p ++ bs ".lock".

(** The draft is removed, if it is a file. *)
Definition without_draft (D : lockdir) (p : bytes) : lockdir :=
  match D !! draft p with Some (File _ _) => delete (draft p) D | _ => D end.

Definition passed (cursor : option bytes) (i : bytes) : Prop :=
  match cursor with Some c => blt i c = true | None => False end.

(** The locks found under a list of names. *)
Inductive finds (D : lockdir) : list bytes -> list (bytes * Z * N) -> Prop :=
| fi_nil : finds D [] []
| fi_held i is p t u ls : under D (utf8_lossy i) (Held p t u) -> finds D is ls -> finds D (i :: is) ((p, t, u) :: ls)
| fi_skip i is x ls : under D (utf8_lossy i) x -> (forall p t u, x <> Held p t u) -> finds D is ls -> finds D (i :: is) ls.

(** The locks listed: those found under the names of the directory in order,
    without a beginning of locks before the cursor. *)
Definition listed (D : lockdir) (cursor : option bytes) (ls : list (bytes * Z * N)) : Prop :=
  exists is before, StronglySorted (fun a b => blt a b = true) is /\ (forall i, i ∈ is <-> is_Some (D !! i)) /\
    finds D is (before ++ ls) /\ Forall (fun x => passed cursor (id x.1.1)) before /\
    match ls with x :: _ => ~ passed cursor (id x.1.1) | [] => True end.

Inductive lines_of : list (bytes * Z * N) -> list bytes -> Prop :=
| lo_nil : lines_of [] []
| lo_cons p t u x ls out : en_time en t = Some x -> lines_of ls out ->
    lines_of ((p, t, u) :: ls) (lock_lines en m p x u ++ out).

(** What lock answers for a path whose lock or draft exists. *)
Inductive refused (D : lockdir) (p : bytes) : fate -> Prop :=
| r_nothing : under D (id p) Nothing -> refused D p (Panics PUnreachable D)
| r_useless a : under D (id p) (Useless a) -> refused D p (Answered a D)
| r_clash p' t u : under D (id p) (Held p' t u) -> p' <> p -> refused D p (Answered (refusal clash) D)
| r_held t u x : under D (id p) (Held p t u) -> en_time en t = Some x ->
    refused D p (Answered (Reply 409 (lock_info en p x u) (BText (bs "conflict" ++ [NL]))) D)
| r_time t u : under D (id p) (Held p t u) -> en_time en t = None -> refused D p (Panics PBadTime D).

Inductive does (D : lockdir) : request -> fate -> Prop :=
| d_version : does D RVersion (Answered (Reply 200 [] (BLines [])) D)
| d_lock_bad kvs : no_key (bs "path") kvs \/ no_key (bs "refname") kvs ->
    does D (RLock kvs) (Answered (refusal (bs "incomplete or missing data: both path and refname required")) D)
| d_lock kvs p r t t' x : (bs "path", p) ∈ kvs -> (bs "refname", r) ∈ kvs ->
    D !! id p = None -> D !! draft p = None -> clock t -> clock t' -> en_time en t' = Some x ->
    does D (RLock kvs) (Answered (Reply 201 (lock_info en p x uid) BNone) (<[id p := File (record_of t p) uid]> D))
| d_lock_refused kvs p r o : (bs "path", p) ∈ kvs -> (bs "refname", r) ∈ kvs ->
    is_Some (D !! id p) \/ is_Some (D !! draft p) -> refused (without_draft D p) p o -> does D (RLock kvs) o
| d_list_number kvs b : (bs "limit", b) ∈ kvs -> ~ (exists n, number b n) ->
    does D (RList kvs) (Answered (refusal (bad_number b)) D)
| d_list_zero kvs b : (bs "limit", b) ∈ kvs -> number b 0 ->
    does D (RList kvs) (Answered (refusal (bs "not allowed: bizarre request for no data")) D)
| d_path kvs lim n p c t u x :
    key (bs "limit") kvs lim -> limit_of lim n -> (bs "path", p) ∈ kvs -> key (bs "cursor") kvs c ->
    under D (id p) (Held p t u) -> ~ passed c (id p) -> en_time en t = Some x ->
    does D (RList kvs) (Answered (Reply 200 [] (BLines (lock_lines en m p x u))) D)
| d_path_time kvs lim n p c t u :
    key (bs "limit") kvs lim -> limit_of lim n -> (bs "path", p) ∈ kvs -> key (bs "cursor") kvs c ->
    under D (id p) (Held p t u) -> ~ passed c (id p) -> en_time en t = None ->
    does D (RList kvs) (Panics PBadTime D)
| d_path_none kvs lim n p c :
    key (bs "limit") kvs lim -> limit_of lim n -> (bs "path", p) ∈ kvs -> key (bs "cursor") kvs c ->
    under D (id p) Nothing \/ (exists t u, under D (id p) (Held p t u) /\ passed c (id p)) ->
    does D (RList kvs) (Answered not_found D)
| d_path_useless kvs lim n p a :
    key (bs "limit") kvs lim -> limit_of lim n -> (bs "path", p) ∈ kvs -> under D (id p) (Useless a) ->
    does D (RList kvs) (Answered a D)
| d_path_clash kvs lim n p p' t u :
    key (bs "limit") kvs lim -> limit_of lim n -> (bs "path", p) ∈ kvs ->
    under D (id p) (Held p' t u) -> p' <> p -> does D (RList kvs) (Answered (refusal clash) D)
| d_list kvs lim n c ls out :
    key (bs "limit") kvs lim -> limit_of lim n -> no_key (bs "path") kvs -> key (bs "cursor") kvs c ->
    listed D c ls -> lines_of (take (S n) ls) out ->
    does D (RList kvs) (Answered
      (Reply 200 (match ls !! n with Some (p, _, _) => [bs "next-cursor=" ++ id p ++ [NL]] | None => [] end)
         (BLines out)) D)
| d_list_time kvs lim n c ls p t u :
    key (bs "limit") kvs lim -> limit_of lim n -> no_key (bs "path") kvs -> key (bs "cursor") kvs c ->
    listed D c ls -> (p, t, u) ∈ take (S n) ls -> en_time en t = None ->
    does D (RList kvs) (Panics PBadTime D)
| d_unlock_bad i kvs : utf8_valid i = false ->
    does D (RUnlock i kvs) (Answered (refusal (bs "corrupt data: invalid or corrupt ID")) D)
| d_unlock_none i kvs : utf8_valid i = true -> under D i Nothing -> does D (RUnlock i kvs) (Answered not_found D)
| d_unlock_useless i kvs a : utf8_valid i = true -> under D i (Useless a) -> does D (RUnlock i kvs) (Answered a D)
| d_unlock_time i kvs p t u : utf8_valid i = true -> under D i (Held p t u) -> en_time en t = None ->
    does D (RUnlock i kvs) (Panics PBadTime D)
(* the file removed is that of the id of the path in the record *)
| d_unlock i kvs p t u x d' u' : utf8_valid i = true -> under D i (Held p t u) -> en_time en t = Some x ->
    D !! id p = Some (File d' u') ->
    does D (RUnlock i kvs) (Answered (Reply 200 (lock_info en p x u) BNone) (delete (id p) D))
| d_unlock_gone i kvs p t u x : utf8_valid i = true -> under D i (Held p t u) -> en_time en t = Some x ->
    D !! id p = None -> does D (RUnlock i kvs) (Answered not_found D)
| d_unlock_folder i kvs p t u x : utf8_valid i = true -> under D i (Held p t u) -> en_time en t = Some x ->
    D !! id p = Some Folder -> does D (RUnlock i kvs) (Answered trouble D).

(** A session, to its end or to a panic. *)
Inductive serves : lockdir -> list request -> list reply -> option failure -> lockdir -> Prop :=
| sv_nil D : serves D [] [] None D
| sv_cons D r a D' rs as_ f D'' : does D r (Answered a D') -> serves D' rs as_ f D'' ->
    serves D (r :: rs) (a :: as_) f D''
| sv_panic D r f D' rs : does D r (Panics f D') -> serves D (r :: rs) [] (Some f) D'.
End answers.

(** Requests about locks. *)
Definition about_locks (r : request) : Prop :=
  match r with RVersion | RLock _ | RList _ | RUnlock _ _ => True | _ => False end.

(** The server runs on [l], [s]; its output is the capabilities, the answers [as_],
    and at a regular end the answer to "quit", if any. *)
Definition handled (en : env) (lfs : path) (umask : N) (ts : option Z) (clock : Z -> Prop) (m : mode)
  (pid fuel : nat) (os : orcs) (l : local) (s : fs) (D : lockdir) (reqs : list request)
  (as_ extra : list reply) (f : option failure) (D' : lockdir) (s' : fs) : Prop :=
  exists l' ps out,
    run pid (transfer_run en fuel lfs umask ts (operation m)) os l s =
      (match f with None => Done (Ok tt) | Some f => Failed f end, l', s') /\
    serves en m (l_uid l) clock D reqs as_ f D' /\ contains lfs s' D' /\
    replies_sent (as_ ++ match f with None => extra | Some _ => [] end) ps /\
    wires (PData (bs "version=1" ++ [NL]) :: PFlush :: ps) out /\ l_out l' = l_out l ++ out.

(** ** Clutter *)

(** Entries that are not locks, under names no lock or draft has. *)
Definition clutter (en : env) (J : lockdir) : Prop :=
  forall i e, J !! i = Some e ->
    (forall p, i <> lock_id (en_hash en) p /\ i <> draft en p) /\
    (forall d u, e = File d u -> forall t p, ~ says d t p).

(** The directory holds the locks of [w] and [J]. *)
Definition locks_and (w : world) (J D : lockdir) : Prop :=
  forall i, D !! i = match w_locks w !! i with
                     | Some (p, t, u) => Some (File (record_of t p) u)
                     | None => J !! i
                     end.

Definition locks_ok (en : env) (w : world) : Prop :=
  forall i p t u, w_locks w !! i = Some (p, t, u) -> i = lock_id (en_hash en) p /\ time_ok en t.

(** The request does not name an entry of [J]. *)
Definition keeps_off (J : lockdir) (r : request) : Prop :=
  match r with RUnlock i _ => J !! i = None | _ => True end.
