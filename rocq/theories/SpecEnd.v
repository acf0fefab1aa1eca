(** How sessions end and what the answers look like, for any input: what the
    theorems of Props_End.v are stated with. *)
From Verif Require Import Bytes Err FS Prog Pktline Args Local Processor Transfer Spec SpecStore SpecServer.

(** No file is longer than [n] bytes. *)
Definition files_below (n : nat) (s : fs) : Prop := Forall (fun x => length (i_data x) < n)%nat (inodes s).

(** Reading the configuration failed in the two ways that are not fatal. *)
Definition config_failed (cfg : gres config) : Prop :=
  exists e, g_code e <> GOther /\
    (cfg = GErr e \/ exists c, cfg = GOk c /\ cf_str c = GErr e).

(** The statuses of the protocol. *)
Definition known_code (c : N) : Prop := c ∈ [200; 201; 400; 403; 404; 409; 500]%N.

(** "key=value\n". *)
Definition is_arg_line (a : bytes) : Prop := exists kv, a = arg_line kv /\ EQ ∉ kv.1 /\ kv.1 <> [].

(** [out] is the line of capabilities followed by the answers [rs]. *)
Definition answer_stream (rs : list reply) (out : bytes) : Prop :=
  exists ps, replies_sent rs ps /\ wires (PData (bs "version=1" ++ [NL]) :: PFlush :: ps) out /\
    Forall (fun r => known_code (rp_code r) /\ Forall is_arg_line (rp_args r)) rs.
