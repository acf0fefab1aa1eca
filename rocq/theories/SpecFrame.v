(** Which packets a request takes from the input: what the theorems of
    Props_Frame.v are stated with. *)
From Verif Require Import Bytes Err FS Prog Pktline Args Local Processor Transfer Spec SpecStore SpecServer.

(** A command with or without a newline. *)
Definition text (c b : bytes) : Prop := b = c ++ [NL] \/ (b = c /\ NL ∉ c).

(** Packets that can be received, none of which is [stop]. *)
Definition before (stop : packet) (qs : list packet) : Prop :=
  Forall (fun q => q <> stop /\ (lenN (payload q) <= 65531)%N) qs.

(** Commands followed by arguments and a flush packet. *)
Inductive line_command : mode -> bytes -> Prop :=
| lc_version m : line_command m (bs "version 1")
| lc_list m : line_command m (bs "list-lock")
| lc_lock : line_command Upload (bs "lock")
| lc_verify o : SP ∉ o -> line_command Upload (bs "verify-object " ++ o)
| lc_unlock i : SP ∉ i -> line_command Upload (bs "unlock " ++ i)
| lc_get o : SP ∉ o -> line_command Download (bs "get-object " ++ o).

Definition known_words : list bytes :=
  [bs "version"; bs "batch"; bs "put-object"; bs "verify-object"; bs "get-object"; bs "lock"; bs "list-lock"; bs "unlock";
   bs "quit"].

(** Commands that are refused without looking at what follows. *)
Inductive refused : mode -> bytes -> Prop :=
| rf_unknown m c : SP ∉ c -> c ∉ known_words -> refused m c
| rf_unknown_args m c x : SP ∉ c -> c ∉ known_words -> refused m (c ++ bs " " ++ x)
| rf_version m v : SP ∉ v -> v <> bs "1" -> refused m (bs "version " ++ v)
| rf_put o : SP ∉ o -> ~ is_oid o -> refused Upload (bs "put-object " ++ o)
| rf_put_down o : SP ∉ o -> refused Download (bs "put-object " ++ o)
| rf_verify o : SP ∉ o -> refused Download (bs "verify-object " ++ o)
| rf_get o : SP ∉ o -> refused Upload (bs "get-object " ++ o)
| rf_lock : refused Download (bs "lock")
| rf_unlock i : SP ∉ i -> refused Download (bs "unlock " ++ i).

(** The packets of one request as the server sees it: it reads exactly these.
    (Uploads with an object id and a size that is a number are left to the theorems on well-formed
    requests.) *)
Inductive takes (m : mode) : list packet -> Prop :=
| t_lines c b qs : line_command m c -> text c b -> (lenN b <= 65531)%N -> before PFlush qs ->
    takes m (PData b :: qs ++ [PFlush])
| t_batch b kvs qs : text (bs "batch") b -> args_ok kvs -> before PDelim (args kvs) -> before PFlush qs ->
    takes m (PData b :: args kvs ++ [PDelim] ++ qs ++ [PFlush])
| t_batch_bad b qs q : text (bs "batch") b -> before PDelim qs -> q ∈ qs -> EQ ∉ payload q ->
    takes m (PData b :: qs ++ [PDelim])
| t_put_size o b kvs : m = Upload -> is_oid o -> text (bs "put-object " ++ o) b -> args_ok kvs ->
    (forall v n, (bs "size", v) ∈ kvs -> ~ number v n) -> before PDelim (args kvs) -> takes m (PData b :: args kvs ++ [PDelim])
| t_control : takes m [PFlush]
| t_delim : takes m [PDelim]
| t_empty : takes m [PData []]
| t_refused c b : refused m c -> text c b -> (lenN b <= 65531)%N -> takes m [PData b].

(** Every call of this run with its oracle and its result is as [P] says. *)
Fixpoint run_such {A} (P : forall e, orc -> resp e -> Prop) (pid : nat) (p : prog A) (os : orcs) (l : local) (s : fs) : Prop :=
  match p with
  | Vis e k =>
      let '(r, l', s') := handle_ev pid e (os 0) l s in
      P e (os 0) r /\ run_such P pid (k r) (shift os) l' s'
  | _ => True
  end.

(** Reading the input does not fail; other calls may. *)
Definition reads_well (e : ev) (o : orc) : resp e -> Prop :=
  match e return resp e -> Prop with
  | ERead _ => fun _ => o_fault o = None
  | _ => fun _ => True
  end.

(** Neither does creating temporary files nor writing to files; other calls may. *)
Definition stores_well (e : ev) (o : orc) : resp e -> Prop :=
  match e return resp e -> Prop with
  | ERead _ => fun _ => o_fault o = None
  | EMktemp _ _ => fun r => exists x, r = IOk x
  | EWriteFd _ _ => fun r => r = IOk tt
  | _ => fun _ => True
  end.

(** The packets of an upload with an object id and a size, whatever the data. *)
Inductive takes_upload (m : mode) : list packet -> Prop :=
| tu o b kvs v n ds e : m = Upload -> is_oid o -> text (bs "put-object " ++ o) b -> args_ok kvs ->
    (bs "size", v) ∈ kvs -> number v n -> before PDelim (args kvs) ->
    Forall (fun d => lenN d <= 65516)%N ds -> e = PFlush \/ e = PDelim ->
    takes_upload m (PData b :: args kvs ++ [PDelim] ++ lines ds ++ [e]).

(** Setting the permissions of a stored file does not fail; other calls may. *)
Definition permits_well (e : ev) (o : orc) : resp e -> Prop :=
  match e return resp e -> Prop with
  | EStat _ => fun r => exists x, r = IOk x
  | EChmod _ _ => fun r => r = IOk tt
  | _ => fun _ => True
  end.
