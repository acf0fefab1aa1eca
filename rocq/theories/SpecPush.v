(** Sending and fetching objects: what the theorems of Props_Push.v are stated with. *)
From Verif Require Import Bytes Err FS Prog Pktline Args Local Processor Transfer Spec SpecStore SpecServer SpecTogether.

(** [r] uploads the object [o]: its bytes have this name, and their number is told. *)
Definition sends_it (H : bytes -> bytes) (o : bytes) (r : request) : Prop :=
  exists kvs ds b, r = RPut o kvs ds /\ (bs "size", b) ∈ kvs /\ number b (lenN (concat ds)) /\ hex_of (H (concat ds)) o.

(** A batch that is not refused. *)
Definition fair_batch (kvs : list (bytes * bytes)) : Prop :=
  exists h, key (bs "hash-algo") kvs h /\ (h = None \/ h = Some (bs "sha256")).

(** What the server may say of an object in a batch of an uploading client. *)
Definition has_it (o line : bytes) : Prop := exists n : N, line = o ++ [SP] ++ dec n ++ [SP] ++ bs "noop" ++ [NL].
Definition wants_it (o line : bytes) : Prop := exists n : N, line = o ++ [SP] ++ dec n ++ [SP] ++ bs "upload" ++ [NL].

(** The requests [reqs] are those of a client that gets the answers [as_] and uploads
    the objects it is asked for. *)
Definition obeys (H : bytes -> bytes) (reqs : list request) (as_ : list reply) : Prop :=
  forall n kvs items ls a o b line, reqs !! n = Some (RBatch kvs items) -> as_ !! n = Some (Reply 200 [] (BLines ls)) ->
    items !! a = Some (o, b) -> ls !! a = Some line -> wants_it o line ->
    exists n' r, (n < n')%nat /\ reqs !! n' = Some r /\ sends_it H o r.

(** The answers a pushing client gets: a line for each object of a batch, and 200 to
    each upload. *)
Definition served (H : bytes -> bytes) (reqs : list request) (as_ : list reply) : Prop :=
  length as_ = length reqs /\
  (forall n kvs items, reqs !! n = Some (RBatch kvs items) -> fair_batch kvs ->
    exists ls, as_ !! n = Some (Reply 200 [] (BLines ls)) /\
      Forall2 (fun x line => has_it x.1 line \/ wants_it x.1 line) items ls) /\
  (forall n o r, reqs !! n = Some r -> sends_it H o r -> as_ !! n = Some (Reply 200 [] BNone)).
