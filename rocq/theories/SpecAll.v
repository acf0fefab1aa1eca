(** Every input, the unlocking of ids with a slash included: what the theorems of
    Props_All.v are stated with. *)
From Verif Require Import Bytes Err FS Prog Pktline Args Local Processor Transfer Spec SpecStore SpecServer SpecFrame SpecOdd
  SpecSecret SpecInput.

(** ** The input *)
Inductive asks := Known (x : meaning) | Slash (i : bytes).

(** The unlocking of an id with a slash. *)
Definition slash (m : mode) (b i : bytes) : Prop :=
  exists ws, m = Upload /\ says b ws /\ named (RUnlock i []) ws /\ utf8_valid i = true /\ Byte.x00 ∉ i /\ SLASH ∈ i.

Inductive first_all (m : mode) : bytes -> asks -> bytes -> Prop :=
| fa_known i x i' : first m i x i' -> first_all m i (Known x) i'
| fa_slash b i qs w tl : slash m b i -> PFlush ∉ qs -> seens (PData b :: qs ++ [PFlush]) w ->
    first_all m (w ++ tl) (Slash i) tl
| fa_slash_cut b i qs w f : slash m b i -> PFlush ∉ qs -> seens (PData b :: qs) w -> fragment 65535 f ->
    first_all m (w ++ f) (Slash i) [].

Inductive reading_all (m : mode) : bytes -> list asks -> finish -> Prop :=
| ra_over i e : over m i e -> e <> AtSlash -> reading_all m i [] e
| ra_first i x i' xs e : first_all m i x i' -> reading_all m i' xs e -> reading_all m i (x :: xs) e.

(** ** What such an id leads to *)
Inductive finding := Nothing | Blocked (t : bytes) | Text (d : bytes) (owner : N).

(** The id that leads to an object, and one that leads to a lock. *)
Definition object_id (o : bytes) : bytes :=
  bs "../objects/" ++ take 2 o ++ [SLASH] ++ take 2 (drop 2 o) ++ [SLASH] ++ o.
Definition lock_alias (i : bytes) : bytes := bs "../locks/" ++ i.

(** An id may lead anywhere, to any text; but those two lead where they say. *)
Record can_find (w : world) (i : bytes) (f : finding) : Prop := CanFind {
  cf_object : forall o, is_oid o -> i = object_id o ->
    match w_objs w !! o with Some d => exists u, f = Text d u | None => f = Nothing end;
  cf_lock : forall k, plain_name k -> i = lock_alias k ->
    match w_locks w !! k with Some (p, t, u) => f = Text (record_of t p) u | None => f = Nothing end;
  cf_blocked : forall t, f = Blocked t -> t ∈ [bs "Is a directory (os error 21)"; bs "Not a directory (os error 20)"] }.

(** ** The abstract server *)
Section server.
Context (en : env) (m : mode) (uid : N) (clock : Z -> Prop).

(** What is there is taken as the record of a lock.  The lock for the path in it, if
    there is one, is removed; time, path and owner in the answer are those found. *)
Inductive unlocks (w : world) : finding -> reply -> world -> Prop :=
| un_nothing : unlocks w Nothing not_found w
| un_blocked t : unlocks w (Blocked t) (Reply 500 [] (BText (bs "internal error: fatal: I/O error: " ++ t ++ [NL]))) w
| un_text d u : (forall t p, ~ record_text d t p) -> unlocks w (Text d u) (refusal (bs "corrupt data: invalid parsed lock")) w
| un_none d u t p x : record_text d t p -> en_time en t = Some x -> w_locks w !! lock_id (en_hash en) p = None ->
    unlocks w (Text d u) not_found w
| un_lock d u t p x : record_text d t p -> en_time en t = Some x -> is_Some (w_locks w !! lock_id (en_hash en) p) ->
    unlocks w (Text d u) (Reply 200 (lock_info en p x u) BNone)
      (World (w_objs w) (delete (lock_id (en_hash en) p) (w_locks w))).

Definition reacts_all (w : world) (x : asks) (a : reply) (w' : world) : Prop :=
  match x with
  | Known x => reacts en m uid clock w x a w'
  | Slash i => exists f, can_find w i f /\ unlocks w f a w'
  end.
Inductive reactions_all : world -> list asks -> list reply -> world -> Prop :=
| rea_nil w : reactions_all w [] [] w
| rea_cons w x a w' xs as_ w'' : reacts_all w x a w' -> reactions_all w' xs as_ w'' ->
    reactions_all w (x :: xs) (a :: as_) w''.

(** The record found has a time that cannot be written as a date. *)
Definition undated (w : world) (i : bytes) : Prop :=
  exists d u t p, can_find w i (Text d u) /\ record_text d t p /\ en_time en t = None.
End server.

(** As [coped]. *)
Definition coped_all (en : env) (lfs : path) (umask : N) (ts : option Z) (clock : Z -> Prop) (m : mode)
  (pid fuel : nat) (os : orcs) (l : local) (s : fs) (w : world) (xs : list asks) (e : finish)
  (as_ : list reply) (w' : world) (s' : fs) : Prop :=
  exists l' ps out,
    run pid (transfer_run en fuel lfs umask ts (operation m)) os l s = (Done (result_of e), l', s') /\
    reactions_all en m (l_uid l) clock w xs as_ w' /\ represents en lfs s' w' /\
    replies_sent (as_ ++ last_answer e) ps /\
    wires (PData (bs "version=1" ++ [NL]) :: PFlush :: ps) out /\ l_out l' = l_out l ++ out.

(** The server answers the requests [xs], and panics at the unlocking of [i]. *)
Definition panicked (en : env) (lfs : path) (umask : N) (ts : option Z) (clock : Z -> Prop) (m : mode)
  (pid fuel : nat) (os : orcs) (l : local) (s : fs) (w : world) (xs : list asks) (i : bytes)
  (as_ : list reply) (w' : world) (s' : fs) : Prop :=
  exists l' ps out,
    run pid (transfer_run en fuel lfs umask ts (operation m)) os l s = (Failed PBadTime, l', s') /\
    reactions_all en m (l_uid l) clock w xs as_ w' /\ undated en w' i /\ represents en lfs s' w' /\
    replies_sent as_ ps /\
    wires (PData (bs "version=1" ++ [NL]) :: PFlush :: ps) out /\ l_out l' = l_out l ++ out.
