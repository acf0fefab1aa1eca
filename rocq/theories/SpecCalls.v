(** The system calls of a server one after the other, with the answers of the
    system, whatever these are: what the theorems of Props_Calls.v are stated with.
    Nothing is said here about what the calls do. *)
From Verif Require Import Bytes Err FS Prog Pktline Args Local Processor Transfer Spec SpecStore SpecServer SpecEnd SpecTalk SpecLockDir.

(** ** Files of a server *)

(** From the call on it is the server's task to get rid of the file: a temporary file
    has been made for it, or it has tried to create a draft of a lock. *)
Inductive opens : done_call -> path -> Prop :=
| o_temp d pre p fd : opens (existT (EMktemp d pre) (IOk (p, fd))) p
| o_draft p r : opens (existT (ECreate p) r) p.

(** The server has removed it, or tried to, or it has got another name. *)
Inductive closes : done_call -> path -> Prop :=
| c_removed p r : closes (existT (EUnlink p) r) p
| c_moved p q : closes (existT (ERename p q) (IOk tt)) p.

(** After the calls [tr] there is no such file. *)
Definition tidied (tr : list done_call) : Prop :=
  forall tr1 d tr2 p, tr = tr1 ++ d :: tr2 -> opens d p -> exists y, y ∈ tr2 /\ closes y p.

(** After the calls [tr] the file [p] is one. *)
Definition pending (tr : list done_call) (p : path) : Prop :=
  exists tr1 d tr2, tr = tr1 ++ d :: tr2 /\ opens d p /\ forall y, y ∈ tr2 -> ~ closes y p.

(** ** Reasons for calls *)

(** Reads of the input and successful writes of [c] to the file [fd]. *)
Inductive written (fd : nat) : list done_call -> bytes -> Prop :=
| w_none : written fd [] []
| w_read n r tr c : written fd tr c -> written fd (tr ++ [existT (ERead n) r]) c
| w_write b tr c : written fd tr c -> written fd (tr ++ [existT (EWriteFd fd b) (IOk tt)]) (c ++ b).

Section calls.
Context (en : env) (lfs : path).
Notation H := (en_hash en).
Definition draft_path (q : bytes) : path := lfs ++ [bs "locks"; lock_id H q ++ bs ".lock"].
Definition lock_path (q : bytes) : path := lfs ++ [bs "locks"; lock_id H q].
Definition fan_out (o : bytes) : path := lfs ++ [bs "objects"; take 2 o; take 2 (drop 2 o)].

(** The file [tmp] has been made for an upload of [o], and [c] is written to it. *)
Definition received (tr : list done_call) (o : bytes) (tmp : path) (c : bytes) : Prop :=
  exists tr1 fd mid, tr = tr1 ++ existT (EMktemp (lfs ++ [bs "incomplete"]) o) (IOk (tmp, fd)) :: mid /\ written fd mid c.

(** The call [e] may come after [tr]. *)
Inductive justified (tr : list done_call) : ev -> Prop :=
(* At the beginning. *)
| j_dir d : d ∈ [bs "objects"; bs "incomplete"; bs "tmp"; bs "locks"] ->
    (forall y, y ∈ tr -> exists e r, y = existT e r /\ match e with EMkdir _ | EUmask _ => True | _ => False end) ->
    justified tr (EMkdir (lfs ++ [d]))
(* An upload. *)
| j_temp o : is_oid o -> tidied tr -> justified tr (EMktemp (lfs ++ [bs "incomplete"]) o)
| j_data tr1 o tmp fd mid c b : tr = tr1 ++ existT (EMktemp (lfs ++ [bs "incomplete"]) o) (IOk (tmp, fd)) :: mid ->
    written fd mid c -> justified tr (EWriteFd fd b)
| j_fan o tmp c : is_oid o -> received tr o tmp c -> hex_of (H c) o -> justified tr (EMkdir (fan_out o))
| j_place tr' o tmp c : tr = tr' ++ [existT (EMkdir (fan_out o)) (IOk tt)] -> is_oid o -> received tr' o tmp c -> hex_of (H c) o ->
    justified tr (ERename tmp (object_path lfs o))
| j_mode tr' tmp o n m : tr = tr' ++ [existT (ERename tmp (object_path lfs o)) (IOk tt); existT (EStat (object_path lfs o)) (IOk n)] ->
    is_oid o -> justified tr (EChmod (object_path lfs o) m)
(* A lock. *)
| j_draft tr' t q : tr = tr' ++ [existT EClock t] -> tidied tr -> justified tr (ECreate (draft_path q))
| j_record tr' t q fd : tr = tr' ++ [existT EClock t; existT (ECreate (draft_path q)) (IOk fd)] ->
    justified tr (EWriteFd fd (record_of t q))
| j_link tr' t q fd : tr = tr' ++ [existT EClock t; existT (ECreate (draft_path q)) (IOk fd);
      existT (EWriteFd fd (record_of t q)) (IOk tt)] ->
    justified tr (ELink (draft_path q) (lock_path q))
(* The end of a lock, or of a file of its own. *)
| j_unlock tr' f h c r t q : tr = tr' ++ [existT (EOpen f) (IOk h); existT (EReadAll h) (IOk c); existT (EStat f) r] ->
    says c t q -> tidied tr -> justified tr (EUnlink (lock_path q))
| j_remove p : pending tr p -> justified tr (EUnlink p)
(* The client is told something. *)
| j_out b : tidied tr -> justified tr (EOut b)
| j_flush : tidied tr -> justified tr EFlush
| j_note c a : tidied tr -> justified tr (ENote c a)
(* Calls that change nothing. *)
| j_other e : match e with
              | ERead _ | EOpen _ | EReadAll _ | EReadAt _ _ _ | EFstat _ | EStat _ | EReaddir _ | EClock | EUmask _ => True
              | _ => False
              end -> justified tr e.
End calls.
