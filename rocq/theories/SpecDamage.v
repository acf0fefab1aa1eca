(** Repositories with objects that are not what they should be, after a power failure
    or by a bad disk: what the theorems of Props_Damage.v are stated with. *)
From Verif Require Import Bytes Err FS Prog Pktline Args Local Processor Transfer Spec SpecStore SpecServer.

(** The objects a request names. *)
Definition names (r : request) : list bytes :=
  match r with
  | RBatch _ items => items.*1
  | RPut o _ _ | RVerify o _ | RGet o _ => [o]
  | _ => []
  end.

(** The two differ at most in what is stored as the objects [D], if anything is. *)
Definition same_but (D : bytes -> Prop) (w1 w2 : world) : Prop :=
  w_locks w1 = w_locks w2 /\ forall o, ~ D o -> w_objs w1 !! o = w_objs w2 !! o.

(** What is stored as [o] is not what belongs there. *)
Definition damaged (en : env) (w : world) (o : bytes) : Prop :=
  exists d, w_objs w !! o = Some d /\ ~ hex_of (en_hash en d) o.
