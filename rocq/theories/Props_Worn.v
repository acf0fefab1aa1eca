(** Servers on repositories with damaged objects, as a failure of the power can leave
    them: C100. *)
From Verif Require Import Bytes Err FS Prog Pktline Args Local Processor Transfer Sha256 Rfc3339 Spec SpecStore SpecServer
  SpecFrame SpecTalk SpecPerm SpecInput SpecStart SpecTogether SpecRound SpecTruth SpecPower SpecWorn TextProofs PowerProofs WornProofs Transcripts
  Props_Store Props_Server Props_End Props_Together Props_Power.

(** ** C100 *)

(** Any number of servers is at work on a repository whose objects may hold anything.
    Calls may fail and servers may be killed at any time.  Between any two moments,
    what was stored under the name of an object stays as it is or gives way to the
    object with this name, for good; nothing is removed.  And what is stored is the
    object with this name, or was there before. *)
Theorem C100_damage_does_not_spread H lfs ps s0 cs1 cs2 o d :
  workers H lfs ps s0 -> is_oid o ->
  let s1 := shared (sys_run cs1 (Sys ps s0)) in
  let s2 := shared (sys_run (cs1 ++ cs2) (Sys ps s0)) in
  (has_file s1 (object_path lfs o) d -> exists d', has_file s2 (object_path lfs o) d' /\ (d' = d \/ hex_of (H d') o)) /\
  (has_file s2 (object_path lfs o) d -> hex_of (H d) o \/ has_file s1 (object_path lfs o) d).
Proof. intros Hsv Ho. exact (c100_store H lfs ps s0 Hsv cs1 cs2 o d Ho). Qed.
Print Assumptions C100_damage_does_not_spread.

(** The calls of one of these servers are as C96 has them.  An upload answered with 200
    is stored, and what the name says, whatever was there before.  What is sent, or
    said to be there, or to have a size, is the object with this name, or what was
    stored under it when the servers began. *)
Theorem C100_answers en fuel lfs v m l ps s0 i cs :
  workers (en_hash en) lfs ps s0 ->
  ps !! i = Some (Proc (transfer_main en fuel lfs (GOk (libgit2 v)) (operation m)) l false) ->
  let tr := history i cs (Sys ps s0) in
  let y := sys_run cs (Sys ps s0) in
  (forall e r, existT e r ∈ tr -> introduces lfs e) \/
  exists um u body rest new p, tr = um ++ announced lfs ++ body ++ rest /\ masks (asked v) um u /\
    worn_rounds en lfs u m s0 (shared y) [] body new /\ (flushed ∉ rest \/ farewell rest) /\
    procs y !! i = Some p /\ (l_out l ++ bs "000eversion=1" ++ [NL] ++ bs "0000" ++ spoken body) `prefix_of` l_out (pr_local p).
Proof. intros Hsv Hi. exact (c100 en lfs ps s0 Hsv fuel v m l i cs Hi). Qed.
Print Assumptions C100_answers.

(** Servers started after a failure of the power as in C98 are such servers, and so on
    after further failures. *)
Theorem C100_after_power H lfs ps s0 cs s' ps' :
  workers H lfs ps s0 -> power_loss (Sys ps s0) cs s' -> Forall (fun p => is_server H lfs (pr_prog p)) ps' ->
  workers H lfs ps' s'.
Proof.
  intros Hsv Hpl Hps. pose proof (c98_ordinary H lfs ps s0 Hsv cs s' Hpl) as Ho. destruct Hsv as [HH Hlfs _ _]. by constructor.
Qed.
Print Assumptions C100_after_power.

(** The power fails after an upload of "abc", whose file is empty then.  One server
    sends it as it is.  Another uploads it again; its first attempt to move it to its
    place fails, the second succeeds, and it is killed.  Asked again, the first sends
    "abc". *)
Definition worn_out : fs := emptied 0 (shared (sys_run steps (Sys [serving Upload [upload_of (bs "abc")]] fs0))).
Definition started (m : mode) (reqs : list request) : proc (Z * bytes) :=
  Proc (transfer_main test_env 1000 lfs_dir (GOk (libgit2 Unset)) (operation m)) (input_of reqs) false.
Definition at_work : list (proc (Z * bytes)) :=
  [started Download [RGet abc_oid []; RGet abc_oid []]; started Upload [upload_of (bs "abc"); upload_of (bs "abc")]].
Definition mending : list choice :=
  goes 0 24 ++ map (fun n => Choice 1 (AGo (fails_at 21 n))) (seq 0 50) ++ [Choice 1 ACrash] ++ goes 0 60.
Example C100_case :
  workers sha256 lfs_dir at_work worn_out /\ is_oid abc_oid /\
  at_work !! 0%nat = Some (Proc (transfer_main test_env 1000 lfs_dir (GOk (libgit2 Unset)) (operation Download))
    (input_of [RGet abc_oid []; RGet abc_oid []]) false) /\
  has_file worn_out (object_path lfs_dir abc_oid) [] /\
  has_file (shared (sys_run mending (Sys at_work worn_out))) (object_path lfs_dir abc_oid) (bs "abc") /\
  out_of (sys_run mending (Sys at_work worn_out)) 0 = Some (bs "000eversion=1
0000000fstatus 200
000bsize=0
00010000000fstatus 200
000bsize=3
00010007abc0000") /\
  out_of (sys_run mending (Sys at_work worn_out)) 1 = Some (bs "000eversion=1
0000000fstatus 500
00010068internal error: fatal: I/O error: failed to persist temporary path: Input/output error (os error 5)
0000000fstatus 200
0000").
Proof.
  split_and!; [| |done| | |vm_compute; reflexivity..].
  - assert (S1 : workers sha256 lfs_dir [serving Upload [upload_of (bs "abc")]] fs0) by (apply sv_workers, servers_of; repeat constructor; by eexists _, _).
    apply (C100_after_power _ _ _ _ steps _ _ S1); [exact (c98_emptied _ _ _ _ S1 steps)|].
    repeat constructor; by eexists test_env, 1000%nat, (GOk (libgit2 Unset)), _.
  - by apply oid_valid_iff.
  - eapply owned_has, file_at_owned. vm_compute. reflexivity.
  - eapply owned_has, file_at_owned. vm_compute. reflexivity.
Qed.
