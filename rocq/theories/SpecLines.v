(** One line, one packet: what the theorems of Props_Lines.v are stated with. *)
From Verif Require Import Bytes Err FS Prog Pktline Args Local Processor Transfer Spec SpecStore SpecServer.

(** The answer is sent with one packet for each argument and each line of its
    second part. *)
Definition one_packet_each (r : reply) (ps : list packet) : Prop :=
  exists code qb, denotes code (rp_code r) /\ length code = 3%nat /\
    ps = PData (bs "status " ++ code ++ [NL]) :: lines (rp_args r) ++ qb ++ [PFlush] /\
    match rp_body r with BLines ls => qb = PDelim :: lines ls | b => body_sent b qb end.

Inductive all_one_packet_each : list reply -> list packet -> Prop :=
| ao_nil : all_one_packet_each [] []
| ao_cons r rs ps qs : one_packet_each r ps -> all_one_packet_each rs qs -> all_one_packet_each (r :: rs) (ps ++ qs).

(** Names and times in words that leave room for the rest of the line. *)
Definition short_name (en : env) (u : N) : Prop := (lenN (user_name en u) <= 65440)%N.
Definition short_time (en : env) (t : Z) : Prop := forall x, en_time en t = Some x -> (lenN x <= 65440)%N.

(** Only locks for such paths, times and users, and objects with a size that can be told. *)
Definition short_world (en : env) (w : world) : Prop :=
  (forall i p t u, w_locks w !! i = Some (p, t, u) -> (lenN p <= 65445)%N /\ short_time en t /\ short_name en u) /\
  (forall o d, w_objs w !! o = Some d -> (lenN d < 2 ^ 64)%N).
Definition short_request (r : request) : Prop :=
  match r with RLock kvs => forall p, (bs "path", p) ∈ kvs -> (lenN p <= 65445)%N | _ => True end.
