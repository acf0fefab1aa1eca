(** What every input means, whatever its bytes: what the theorems of Props_Input.v
    are stated with. *)
From Verif Require Import Bytes Err FS Prog Pktline Args Local Processor Transfer Spec SpecStore SpecServer SpecFrame SpecOdd.

(** ** Packets in bytes *)

(** The digits the server accepts: ':' counts as 10 and 'g' as 16 (see C03). *)
Definition digit (c : byte) (v : N) : Prop :=
  bs "0123456789:" !! N.to_nat v = Some c \/ (10 <= v)%N /\ bs "abcdefg" !! N.to_nat (v - 10) = Some c.
Definition header (h : bytes) (v : N) : Prop :=
  exists a b c d x y z w, h = [a; b; c; d] /\ digit a x /\ digit b y /\ digit c z /\ digit d w /\
    v = ((x * 4096 + y * 256 + z * 16 + w) mod 65536)%N.

(** What the server takes as a packet. *)
Inductive seen : packet -> bytes -> Prop :=
| seen_flush h : header h 0 -> seen PFlush h
| seen_delim h : header h 1 -> seen PDelim h
| seen_data h d : header h (lenN d + 4) -> seen (PData d) (h ++ d).

Inductive seens : list packet -> bytes -> Prop :=
| seens_nil : seens [] []
| seens_cons p w ps ws : seen p w -> seens ps ws -> seens (p :: ps) (w ++ ws).

(** Four bytes that are no header; and those that are none in the data of an upload. *)
Definition no_header (h : bytes) : Prop := length h = 4%nat /\ forall v, header h v -> (v = 2 \/ v = 3)%N.
Definition no_data_header (h : bytes) : Prop :=
  length h = 4%nat /\ forall v, header h v -> (v = 2 \/ v = 3 \/ 65520 < v)%N.

(** The beginning of a packet at the end of the input. *)
Inductive fragment (max : N) : bytes -> Prop :=
| fr_header f : (length f < 4)%nat -> fragment max f
| fr_data h v d : header h v -> (4 <= v <= max)%N -> (lenN d < v - 4)%N -> fragment max (h ++ d).

(** ** Requests that are cut or broken *)

(** The input ends within a request that is no upload: it counts as if the missing
    closing packets were there. *)
Definition cut (m : mode) (g : list packet) (x : meaning) : Prop :=
  g <> [] /\ (forall o kvs ds, x <> Does (RPut o kvs ds)) /\
  (means m (g ++ [PFlush]) x \/ means m (g ++ [PDelim]) x \/
   exists b qs ws, g = PData b :: qs /\ says b ws /\ named (RBatch [] []) ws /\ PDelim ∉ qs /\
     means m (g ++ [PDelim; PFlush]) x).

(** The packets of a request before four bytes that are no header, and the
    answer. *)
Inductive broken (m : mode) : list packet -> N -> bytes -> Prop :=
| br_lines r ws b qs :
    match r with RVersion | RVerify _ _ | RGet _ _ | RUnlock _ _ => True | _ => False end ->
    allowed m r -> says b ws -> named r ws -> PFlush ∉ qs ->
    broken m (PData b :: qs) 400 (bs "error: malformed or unknown pkt-line header")
| br_locks r ws b qs : match r with RLock _ | RList _ => True | _ => False end ->
    allowed m r -> says b ws -> named r ws -> PFlush ∉ qs ->
    broken m (PData b :: qs) 500 (bs "internal error: parse error")
| br_first r ws b qs :
    match r with RBatch _ _ => True | RPut o _ _ => is_oid o | _ => False end ->
    allowed m r -> says b ws -> named r ws -> PDelim ∉ qs ->
    broken m (PData b :: qs) 400 (bs "error: malformed or unknown pkt-line header")
| br_items kvs ws b qs : says b ws -> named (RBatch [] []) ws -> args_ok kvs -> PFlush ∉ qs ->
    broken m (PData b :: args kvs ++ [PDelim] ++ qs) 500 (bs "internal error: parse error").

(** The command and the arguments of an upload. *)
Definition upload (m : mode) (b : bytes) (kvs : list (bytes * bytes)) : Prop :=
  exists o v n ws, m = Upload /\ is_oid o /\ says b ws /\ named (RPut o [] []) ws /\ args_ok kvs /\
    (bs "size", v) ∈ kvs /\ number v n.
Definition small_data (ds : list bytes) : Prop := Forall (fun d => lenN d <= 65516)%N ds.
Definition upload_cut : meaning :=
  Fixed 500 (bs "internal error: fatal: I/O error: fatal: I/O error: failed to fill whole buffer").
Definition upload_broken : meaning :=
  Fixed 500 (bs "internal error: fatal: I/O error: malformed or unknown pkt-line header").

(** ** The input *)

(** [first m i x i']: the input [i] begins with a request that means [x], and goes
    on with [i']. *)
Inductive first (m : mode) : bytes -> meaning -> bytes -> Prop :=
| fi_whole g x w tl : means m g x -> seens g w -> first m (w ++ tl) x tl
| fi_cut g x w f : cut m g x -> seens g w -> fragment 65535 f -> first m (w ++ f) x []
| fi_broken g code t w h tl : broken m g code t -> seens g w -> no_header h -> first m (w ++ h ++ tl) (Fixed code t) tl
| fi_upload_args b kvs w f : upload m b kvs -> seens (PData b :: args kvs) w -> fragment 65535 f ->
    first m (w ++ f) upload_cut []
| fi_upload_cut b kvs ds w f : upload m b kvs -> small_data ds ->
    seens (PData b :: args kvs ++ [PDelim] ++ lines ds) w -> fragment 65520 f -> first m (w ++ f) upload_cut []
| fi_upload_broken b kvs ds w h tl : upload m b kvs -> small_data ds ->
    seens (PData b :: args kvs ++ [PDelim] ++ lines ds) w -> no_data_header h -> first m (w ++ h ++ tl) upload_broken tl.

(** The end of a session: the end of the input, "quit", or four bytes that are no
    header.  The last is the one kind of request that is not covered, the unlocking of
    an id with a slash. *)
Inductive finish := AtEof | AtQuit | AtGarbage | AtSlash.
Inductive over (m : mode) : bytes -> finish -> Prop :=
| ov_eof f : fragment 65535 f -> over m f AtEof
| ov_quit b w tl : says b [bs "quit"] -> seen (PData b) w -> over m (w ++ tl) AtQuit
| ov_garbage h tl : no_header h -> over m (h ++ tl) AtGarbage
| ov_slash i b ws w tl : m = Upload -> says b ws -> named (RUnlock i []) ws ->
    utf8_valid i = true -> Byte.x00 ∉ i -> SLASH ∈ i -> seen (PData b) w -> over m (w ++ tl) AtSlash.

Inductive reading (m : mode) : bytes -> list meaning -> finish -> Prop :=
| rd_over i e : over m i e -> reading m i [] e
| rd_first i x i' xs e : first m i x i' -> reading m i' xs e -> reading m i (x :: xs) e.

(** ** The abstract server *)
Section reactions.
Context (en : env) (m : mode) (uid : N) (clock : Z -> Prop).
Inductive reactions : world -> list meaning -> list reply -> world -> Prop :=
| re_nil w : reactions w [] [] w
| re_cons w x a w' xs as_ w'' : reacts en m uid clock w x a w' -> reactions w' xs as_ w'' ->
    reactions w (x :: xs) (a :: as_) w''.
End reactions.

Definition last_answer (e : finish) : list reply := match e with AtQuit => [Reply 200 [] BNone] | _ => [] end.
Definition result_of (e : finish) : res unit :=
  match e with AtGarbage => Er (err_simple BadPktlineHeader) | _ => Ok tt end.

(** As [served], for any input. *)
Definition coped (en : env) (lfs : path) (umask : N) (ts : option Z) (clock : Z -> Prop) (m : mode)
  (pid fuel : nat) (os : orcs) (l : local) (s : fs) (w : world) (xs : list meaning) (e : finish)
  (as_ : list reply) (w' : world) (s' : fs) : Prop :=
  exists l' ps out,
    run pid (transfer_run en fuel lfs umask ts (operation m)) os l s = (Done (result_of e), l', s') /\
    reactions en m (l_uid l) clock w xs as_ w' /\ represents en lfs s' w' /\
    replies_sent (as_ ++ last_answer e) ps /\
    wires (PData (bs "version=1" ++ [NL]) :: PFlush :: ps) out /\ l_out l' = l_out l ++ out.

(** The same as far as it is covered when the unlocking of an id with a slash comes
    after [xs]: the output begins with the answers. *)
Definition coped_so_far (en : env) (lfs : path) (umask : N) (ts : option Z) (clock : Z -> Prop) (m : mode)
  (pid fuel : nat) (os : orcs) (l : local) (s : fs) (w : world) (xs : list meaning) (as_ : list reply) (w' : world) : Prop :=
  exists r l' s' ps out more,
    run pid (transfer_run en fuel lfs umask ts (operation m)) os l s = (r, l', s') /\
    reactions en m (l_uid l) clock w xs as_ w' /\ replies_sent as_ ps /\
    wires (PData (bs "version=1" ++ [NL]) :: PFlush :: ps) out /\ l_out l' = l_out l ++ out ++ more.
