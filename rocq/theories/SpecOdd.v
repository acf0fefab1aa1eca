(** What every request means, well-formed or not: what the theorems of Props_Odd.v
    are stated with. *)
From Verif Require Import Bytes Err FS Prog Pktline Args Local Processor Transfer Spec SpecStore SpecServer SpecFrame.

(** ** Commands *)

(** Words with single spaces between them. *)
Fixpoint joined (ws : list bytes) : bytes :=
  match ws with
  | [] => []
  | [w] => w
  | w :: ws' => w ++ [SP] ++ joined ws'
  end.

(** The words of a packet; one newline at its end does not count. *)
Definition says (b : bytes) (ws : list bytes) : Prop :=
  b <> [] /\ ws <> [] /\ Forall (fun w => SP ∉ w) ws /\
  (b = joined ws ++ [NL] \/ (b = joined ws /\ forall c, b <> c ++ [NL])).

(** The words of a request. *)
Definition verb (r : request) : list bytes :=
  match r with
  | RVersion => [bs "version"; bs "1"]
  | RBatch _ _ => [bs "batch"]
  | RPut o _ _ => [bs "put-object"; o]
  | RVerify o _ => [bs "verify-object"; o]
  | RGet o _ => [bs "get-object"; o]
  | RLock _ => [bs "lock"]
  | RList _ => [bs "list-lock"]
  | RUnlock i _ => [bs "unlock"; i]
  end.

(** Further words do not count if the command has an operand. *)
Definition named (r : request) (ws : list bytes) : Prop :=
  exists more, ws = verb r ++ more /\ (length (verb r) = 1%nat -> more = []).

(** The commands of a mode. *)
Definition allowed (m : mode) (r : request) : Prop :=
  match r with
  | RVersion | RBatch _ _ | RList _ => True
  | RGet _ _ => m = Download
  | RPut _ _ _ | RVerify _ _ | RLock _ | RUnlock _ _ => m = Upload
  end.

(** Commands that are answered at once, with the status and the message. *)
Inductive turned_away (m : mode) : list bytes -> N -> bytes -> Prop :=
| ta_unknown c ws : c ∉ known_words -> turned_away m (c :: ws) 400 (bs "unknown command")
| ta_version ws : head ws <> Some (bs "1") -> turned_away m (bs "version" :: ws) 400 (bs "unknown version")
| ta_bare c : c ∈ [bs "put-object"; bs "verify-object"; bs "get-object"; bs "unlock"] ->
    turned_away m [c] 400 (bs "unknown command")
| ta_operand c x ws : c ∈ [bs "batch"; bs "lock"; bs "list-lock"; bs "quit"] ->
    turned_away m (c :: x :: ws) 400 (bs "unknown command")
| ta_lock : m = Download -> turned_away m [bs "lock"] 400 (bs "unknown command")
| ta_unlock x ws : m = Download -> turned_away m (bs "unlock" :: x :: ws) 400 (bs "unknown command")
| ta_write c o ws : m = Download -> c ∈ [bs "put-object"; bs "verify-object"] ->
    turned_away m (c :: o :: ws) 403 (bs "not allowed")
| ta_read o ws : m = Upload -> turned_away m (bs "get-object" :: o :: ws) 403 (bs "not allowed")
| ta_oid o ws : m = Upload -> ~ is_oid o -> turned_away m (bs "put-object" :: o :: ws) 400 (bs "error: " ++ bad_oid).

(** ** Arguments and items *)

(** Packets that are no arguments: the first that is wrong decides the answer. *)
Inductive bad_args : list packet -> N -> bytes -> Prop :=
| ba_equals kvs q qs : args_ok kvs -> EQ ∉ payload q ->
    bad_args (args kvs ++ q :: qs) 500
      (bs "internal error: parse error: unexpected value parsing argument (missing equals)")
| ba_newline kvs q qs : args_ok kvs -> EQ ∈ payload q -> (forall c, payload q <> c ++ [NL]) ->
    bad_args (args kvs ++ q :: qs) 500
      (bs "internal error: parse error: unexpected value parsing argument (missing newline)")
| ba_twice kvs k v qs : args_ok kvs -> EQ ∉ k -> k ∈ kvs.*1 ->
    bad_args (args kvs ++ PData (arg_line (k, v)) :: qs) 400
      (bs "error: extra data: unexpected duplicate key").

Definition item_ok (x : bytes * bytes) : Prop := is_oid x.1 /\ exists n, number x.2 n.

(** The same for the items of a batch. *)
Inductive bad_items : list packet -> N -> bytes -> Prop :=
| bi_newline items q qs : Forall item_ok items -> (forall c, payload q <> c ++ [NL]) ->
    bad_items (lines (map item_line items) ++ q :: qs) 400 (bs "error: invalid or malformed packet")
| bi_words items c qs : Forall item_ok items -> (forall o z, SP ∉ o -> SP ∉ z -> c <> o ++ [SP] ++ z) ->
    bad_items (lines (map item_line items) ++ PData (c ++ [NL]) :: qs) 500 (bs "internal error: parse error")
| bi_number items o z qs : Forall item_ok items -> SP ∉ o -> SP ∉ z -> ~ (exists n, number z n) ->
    bad_items (lines (map item_line items) ++ PData (item_line (o, z)) :: qs) 400
      (bs "error: invalid or malformed integer or size value: got " ++ debug_bytes (z ++ [NL]))
| bi_oid items o z n qs : Forall item_ok items -> SP ∉ o -> ~ is_oid o -> number z n ->
    bad_items (lines (map item_line items) ++ PData (item_line (o, z)) :: qs) 400 (bs "error: " ++ bad_oid).

(** ** Requests *)

(** A group of packets is a request of the abstract server, or it gets a fixed
    answer. *)
Inductive meaning := Does (r : request) | Fixed (code : N) (text : bytes).

Inductive means (m : mode) : list packet -> meaning -> Prop :=
| m_request r ws b : well_formed m r -> says b ws -> named r ws ->
    means m (PData b :: tail (packets_of r)) (Does r)
(* The packets after these commands are not looked at. *)
| m_version ws b qs : says b ws -> named RVersion ws -> PFlush ∉ qs ->
    means m (PData b :: qs ++ [PFlush]) (Does RVersion)
| m_unlock i ws b qs : m = Upload -> plain_name i -> says b ws -> named (RUnlock i []) ws -> PFlush ∉ qs ->
    means m (PData b :: qs ++ [PFlush]) (Does (RUnlock i []))
| m_unlock_bytes i ws b qs : m = Upload -> utf8_valid i = false -> says b ws -> named (RUnlock i []) ws -> PFlush ∉ qs ->
    means m (PData b :: qs ++ [PFlush]) (Fixed 400 (bs "error: corrupt data: invalid or corrupt ID"))
| m_unlock_nul i ws b qs : m = Upload -> utf8_valid i = true -> Byte.x00 ∈ i -> says b ws -> named (RUnlock i []) ws ->
    PFlush ∉ qs ->
    means m (PData b :: qs ++ [PFlush])
      (Fixed 500 (bs "internal error: fatal: I/O error: file name contained an unexpected NUL byte"))
| m_unlock_dir i ws b qs : m = Upload -> i ∈ [[]; bs "."; bs ".."] -> says b ws -> named (RUnlock i []) ws -> PFlush ∉ qs ->
    means m (PData b :: qs ++ [PFlush]) (Fixed 500 (bs "internal error: fatal: I/O error: Is a directory (os error 21)"))
(* A delimiter also ends the data of an upload. *)
| m_put o kvs ds ws b : well_formed m (RPut o kvs ds) -> says b ws -> named (RPut o kvs ds) ws ->
    means m (PData b :: args kvs ++ [PDelim] ++ lines ds ++ [PDelim]) (Does (RPut o kvs ds))
| m_nothing : means m [PData []] (Fixed 400 (bs "no command provided"))
| m_control p : p = PFlush \/ p = PDelim -> means m [p] (Fixed 400 (bs "unknown command"))
| m_turned ws b code t : says b ws -> turned_away m ws code t -> means m [PData b] (Fixed code t)
| m_args r ws b qs code t :
    match r with RVerify _ _ | RGet _ _ | RLock _ | RList _ => True | _ => False end ->
    allowed m r -> says b ws -> named r ws -> PFlush ∉ qs -> bad_args qs code t ->
    means m (PData b :: qs ++ [PFlush]) (Fixed code t)
| m_args_first r ws b qs code t :
    match r with RBatch _ _ => True | RPut o _ _ => is_oid o | _ => False end ->
    allowed m r -> says b ws -> named r ws -> PDelim ∉ qs -> bad_args qs code t ->
    means m (PData b :: qs ++ [PDelim]) (Fixed code t)
| m_put_size o kvs ws b : m = Upload -> is_oid o -> says b ws -> named (RPut o [] []) ws ->
    args_ok kvs -> no_key (bs "size") kvs ->
    means m (PData b :: args kvs ++ [PDelim]) (Fixed 400 (bs "error: incomplete or missing data: missing required size header"))
| m_put_number o kvs v ws b : m = Upload -> is_oid o -> says b ws -> named (RPut o [] []) ws ->
    args_ok kvs -> (bs "size", v) ∈ kvs -> ~ (exists n, number v n) ->
    means m (PData b :: args kvs ++ [PDelim]) (Fixed 400 (bs "error: " ++ bad_number v))
| m_algo kvs h qs ws b : says b ws -> named (RBatch [] []) ws -> args_ok kvs ->
    (bs "hash-algo", h) ∈ kvs -> h <> bs "sha256" -> PFlush ∉ qs ->
    means m (PData b :: args kvs ++ [PDelim] ++ qs ++ [PFlush])
      (Fixed 400 (bs "error: not allowed: " ++ utf8_lossy h ++ bs " is not a permitted hash algorithm"))
| m_items kvs h qs ws b code t : says b ws -> named (RBatch [] []) ws -> args_ok kvs ->
    key (bs "hash-algo") kvs h -> h = None \/ h = Some (bs "sha256") -> PFlush ∉ qs -> bad_items qs code t ->
    means m (PData b :: args kvs ++ [PDelim] ++ qs ++ [PFlush]) (Fixed code t).

(** What is left when no more requests can be read from a list of packets: the
    closing packet is missing, or the session ends, or the request is of a kind not
    covered: the id of a lock that has a slash, or too much data in a packet. *)
Inductive unfinished (m : mode) : list packet -> Prop :=
| u_nil : unfinished m []
| u_quit b qs : says b [bs "quit"] -> unfinished m (PData b :: qs)
| u_lines r ws b qs :
    match r with RVersion | RVerify _ _ | RGet _ _ | RLock _ | RList _ | RUnlock _ _ => True | _ => False end ->
    allowed m r -> says b ws -> named r ws -> PFlush ∉ qs -> unfinished m (PData b :: qs)
| u_first r ws b qs :
    match r with RBatch _ _ => True | RPut o _ _ => is_oid o | _ => False end ->
    allowed m r -> says b ws -> named r ws -> PDelim ∉ qs -> unfinished m (PData b :: qs)
| u_items kvs ws b qs : says b ws -> named (RBatch [] []) ws -> args_ok kvs -> PFlush ∉ qs ->
    unfinished m (PData b :: args kvs ++ [PDelim] ++ qs)
| u_data o kvs v n ds ws b : m = Upload -> is_oid o -> says b ws -> named (RPut o [] []) ws -> args_ok kvs ->
    (bs "size", v) ∈ kvs -> number v n -> unfinished m (PData b :: args kvs ++ [PDelim] ++ lines ds)
| u_much o kvs v n ds d qs ws b : m = Upload -> is_oid o -> says b ws -> named (RPut o [] []) ws -> args_ok kvs ->
    (bs "size", v) ∈ kvs -> number v n -> (65516 < lenN d)%N ->
    unfinished m (PData b :: args kvs ++ [PDelim] ++ lines ds ++ PData d :: qs)
| u_name i ws b qs : m = Upload -> says b ws -> named (RUnlock i []) ws ->
    utf8_valid i = true -> Byte.x00 ∉ i -> SLASH ∈ i ->
    unfinished m (PData b :: qs).

(** ** The abstract server *)
Section dialogue.
Context (en : env) (m : mode) (uid : N) (clock : Z -> Prop).

Definition reacts (w : world) (x : meaning) (a : reply) (w' : world) : Prop :=
  match x with
  | Does r => answer_of en m uid clock w r a w'
  | Fixed code t => a = Reply code [] (BText (t ++ [NL])) /\ w' = w
  end.

Inductive dialogue : world -> list (list packet) -> list reply -> world -> Prop :=
| d_nil w : dialogue w [] [] w
| d_cons w g x a w' gs as_ w'' : means m g x -> reacts w x a w' -> dialogue w' gs as_ w'' ->
    dialogue w (g :: gs) (a :: as_) w''.
End dialogue.

(** The end of a session, as [ending]: the newline after "quit" may be missing. *)
Inductive closing : bytes -> list reply -> Prop :=
| cl_eof : closing [] []
| cl_quit b w junk : says b [bs "quit"] -> wire (PData b) w -> closing (w ++ junk) [Reply 200 [] BNone].

(** As [served], for groups of packets. *)
Definition conversed (en : env) (lfs : path) (umask : N) (ts : option Z) (clock : Z -> Prop) (m : mode)
  (pid fuel : nat) (os : orcs) (l : local) (s : fs) (w : world) (gs : list (list packet))
  (as_ extra : list reply) (w' : world) (s' : fs) : Prop :=
  exists l' ps out,
    run pid (transfer_run en fuel lfs umask ts (operation m)) os l s = (Done (Ok tt), l', s') /\
    dialogue en m (l_uid l) clock w gs as_ w' /\ represents en lfs s' w' /\
    replies_sent (as_ ++ extra) ps /\
    wires (PData (bs "version=1" ++ [NL]) :: PFlush :: ps) out /\ l_out l' = l_out l ++ out.

(** ** Lines *)

(** A line ends with a newline. *)
Definition line (t : bytes) : Prop := exists c, t = c ++ [NL].
(** The lines and messages of an answer, without the data of an object. *)
Definition texts (a : reply) : list bytes :=
  rp_args a ++ match rp_body a with BNone | BData _ => [] | BLines ls => ls | BText t => [t] end.
