(** Where objects come from: what the theorems of Props_Who.v are stated with. *)
From Verif Require Import Bytes Err FS Prog Pktline Args Local Processor Transfer Spec SpecStore SpecServer SpecFrame SpecTalk
  SpecPerm SpecInput SpecTogether SpecStart SpecRound SpecTruth SpecWorn SpecPrune.
From Verif Require SpecOdd.

(** The call that puts a file in the place of the object [o]. *)
Definition placed (lfs : path) (o : bytes) (tr : list done_call) : Prop :=
  exists a, existT (ERename a (object_path lfs o)) (IOk tt) ∈ tr.

(** Among [tr] a call that has to do with permissions fails, with [x]. *)
Definition no_permissions (lfs : path) (o : bytes) (tr : list done_call) (x : ioerr) : Prop :=
  existT (EStat (object_path lfs o)) (IErr x) ∈ tr \/ exists p, existT (EChmod (object_path lfs o) p) (IErr x) ∈ tr.

(** A call fails by which data of an upload would be written. *)
Definition broken_write (tr : list done_call) : Prop := exists fd c x, existT (EWriteFd fd c) (IErr x) ∈ tr.

(** The calls [tr] are those of an upload of [o]: the client was heard to name [o] and
    the number of bytes, and then to send them; they have this number and this name.
    [old] are bytes left from an upload that was given up; they come first.  The answer
    [a] was sent. *)
Definition upload_as (H : bytes -> bytes) (o old : bytes) (tr : list done_call) (a : reply) : Prop :=
  exists b ws is1 kvs v ds e qs,
    hears (reads tr) (Got (PData b) :: is1 ++ map Got (lines ds) ++ [Got e]) /\
    SpecOdd.says b ws /\ SpecOdd.named (RPut o [] []) ws /\ part PDelim is1 (args kvs) /\ (e = PFlush \/ e = PDelim) /\
    (bs "size", v) ∈ kvs /\ number v (lenN (old ++ concat ds)) /\ hex_of (H (old ++ concat ds)) o /\
    reply_sent a qs /\ wires qs (spoken tr) /\ sent_well tr.

(** Such an upload is among the calls of a server and was answered with 200, or with
    500 because the permissions could not be set; or the server has not finished an
    answer since it put the object in its place.  Nothing is left from other uploads
    unless the data of one of them could not be written. *)
Inductive brought (H : bytes -> bytes) (lfs : path) (o : bytes) (tr : list done_call) : Prop :=
| br_stored old t1 t t2 : tr = t1 ++ t ++ t2 -> placed lfs o t -> (old = [] \/ broken_write t1) ->
    upload_as H o old t (Reply 200 [] BNone) -> brought H lfs o tr
| br_mode old t1 t t2 x : tr = t1 ++ t ++ t2 -> placed lfs o t -> (old = [] \/ broken_write t1) ->
    upload_as H o old t (io_trouble x) -> no_permissions lfs o t x -> brought H lfs o tr
| br_open t1 t : tr = t1 ++ t -> placed lfs o t -> flushed ∉ t -> brought H lfs o tr.

(** The process [p] is a server, in the operation [m], with a configuration that can be
    read. *)
Definition serves (H : bytes -> bytes) (lfs : path) (m : mode) (p : proc (Z * bytes)) : Prop :=
  exists en fuel v, en_hash en = H /\ pr_prog p = transfer_main en fuel lfs (GOk (libgit2 v)) (operation m).

(** Servers with such configurations, and programs that remove objects. *)
Definition crowd (H : bytes -> bytes) (lfs : path) (ps : list (proc (Z * bytes))) (s0 : fs) : Prop :=
  company H lfs ps s0 /\ Forall (fun p => (exists m, serves H lfs m p) \/ is_pruner lfs (pr_prog p)) ps.
