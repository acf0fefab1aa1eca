(** C35: what a server says on standard error when it ends. *)
From Verif Require Import Bytes Err FS Prog Pktline Args Local Processor Transfer Transcripts
  Spec SpecStore SpecServer SpecEnd SpecGit SpecLast LastProofs Props_Store.

(** Whatever the input and whatever fails, a server that ends says nothing and exits
    with status 0, or says one of the lines of [last_words] and exits with the status
    that goes with it. *)
Theorem C35_last_words en lfs cfg op pid os l s fuel code msg l' s' :
  run pid (transfer_main en fuel lfs cfg op) os l s = (Done (code, msg), l', s') ->
  (code = 0%Z /\ msg = []) \/ exists t, msg = t ++ [NL] /\ last_words cfg op code t.
Proof. exact (c35_words en lfs cfg op pid os l s fuel code msg l' s'). Qed.
Print Assumptions C35_last_words.

(** Each of the lines can be had. *)
Definition eio : ioerr := IoErr KOther (bs "Input/output error (os error 5)").
Definition with_config (cfg : gres config) (op input : bytes) (os : orcs) : outcome (Z * bytes) :=
  (run 0 (transfer_main test_env 300 lfs_dir cfg op) os (Local input [] 18 1000) fs0).1.1.
Example C35_last_words_cases :
  let x := GitErr GOther (bs "locked") in let y := GitErr GConflict (bs "twice") in
  with_config (GErr x) (bs "upload") [] quiet = Done (2%Z, bs "fatal: locked" ++ [NL]) /\
  with_config (GErr y) (bs "upload") [] quiet = Done (1%Z, bs "fatal: conflict" ++ [NL]) /\
  with_config (GOk (Config (GErr x) (GErr x))) (bs "upload") [] quiet = Done (2%Z, bs "fatal: locked" ++ [NL]) /\
  with_config no_config (bs "lock") [] quiet = Done (2%Z, bs "unknown command or operation" ++ [NL]) /\
  with_config no_config (bs "upload") (bs "0003") quiet = Done (2%Z, bs "malformed or unknown pkt-line header" ++ [NL]) /\
  with_config no_config (bs "upload") [] (fun n => Orc (if (n =? 4)%nat then Some eio else None) 0 [] 0) =
    Done (2%Z, bs "fatal: I/O error: Input/output error (os error 5)" ++ [NL]).
Proof. split_and!; by vm_compute. Qed.
