(** What a server says of objects is so, whatever fails and whoever else is at work. *)
From Verif Require Import Bytes Err FS Prog Pktline Args Local Processor Transfer Sha256 Rfc3339 Spec SpecStore SpecServer
  SpecFrame SpecTalk SpecPerm SpecInput SpecStart SpecTogether SpecRound SpecTruth TruthProofs Transcripts Props_Store Props_Server Props_End Props_Start
  Props_Together Props_Talk.

(** ** C96 *)

(** A server is one of many at work on a repository in order.  Calls may fail and
    servers may be killed at any time, this one too.  The calls it makes are some of
    those before the first request, or all of those, then those of requests with
    answers, and then calls among which no output is flushed, or "quit" and its
    answer.  What the answers say of objects is so when the others have gone on as far
    as they like: an upload answered with 200 is stored, an object whose size was
    confirmed has this size, what was sent is the object, and the objects said to be
    there are.  And these answers are in the output. *)
Theorem C96_answers_are_so en fuel lfs v m l ps s0 i cs :
  servers (en_hash en) lfs ps s0 ->
  ps !! i = Some (Proc (transfer_main en fuel lfs (GOk (libgit2 v)) (operation m)) l false) ->
  let tr := history i cs (Sys ps s0) in
  let y := sys_run cs (Sys ps s0) in
  (forall e r, existT e r ∈ tr -> introduces lfs e) \/
  exists um u body rest new p, tr = um ++ announced lfs ++ body ++ rest /\ masks (asked v) um u /\
    true_rounds en lfs u m (shared y) [] body new /\ (flushed ∉ rest \/ farewell rest) /\
    procs y !! i = Some p /\ (l_out l ++ bs "000eversion=1" ++ [NL] ++ bs "0000" ++ spoken body) `prefix_of` l_out (pr_local p).
Proof. intros Hsv Hi. exact (c96 en lfs ps s0 Hsv fuel v m l i cs Hi). Qed.
Print Assumptions C96_answers_are_so.

(** A server whose first attempt to move an upload to its place fails stores it at the
    second attempt and is killed.  Another one sends the object. *)
Definition up_then_down : list (proc (Z * bytes)) :=
  [Proc (server_with Unset (operation Upload)) (stdin2 (put_abc ++ put_abc)) false;
   Proc (server_with Unset (operation Download)) (stdin2 get_abc) false].
Definition up_then_down_choices : list choice :=
  map (fun n => Choice 0 (AGo (fails_at 21 n))) (seq 0 50) ++ [Choice 0 ACrash] ++ replicate 40 (Choice 1 (AGo (quiet 0))).
Example C96_case :
  servers sha256 lfs_dir up_then_down fs0 /\
  up_then_down !! 0%nat = Some (Proc (transfer_main test_env 300 lfs_dir (GOk (libgit2 Unset)) (operation Upload)) (stdin2 (put_abc ++ put_abc)) false) /\
  up_then_down !! 1%nat = Some (Proc (transfer_main test_env 300 lfs_dir (GOk (libgit2 Unset)) (operation Download)) (stdin2 get_abc) false) /\
  out_of (sys_run up_then_down_choices (Sys up_then_down fs0)) 0 = Some (bs "000eversion=1
0000000fstatus 500
00010068internal error: fatal: I/O error: failed to persist temporary path: Input/output error (os error 5)
0000000fstatus 200
0000") /\
  out_of (sys_run up_then_down_choices (Sys up_then_down fs0)) 1 = Some (bs "000eversion=1
0000000fstatus 200
000bsize=3
00010007abc0000") /\
  length (history 1 up_then_down_choices (Sys up_then_down fs0)) = 28%nat.
Proof.
  split_and!; [|done|done|vm_compute; reflexivity..].
  split.
  - exact sha256_ok.
  - repeat constructor; try done; by (refine (bool_decide_eq_true_1 _ _); vm_compute).
  - exact fs0_ordinary.
  - apply fs0_ok.
  - repeat constructor; by eexists test_env, 300%nat, (GOk (libgit2 Unset)), _.
Qed.
