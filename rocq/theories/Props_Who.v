(** Where objects come from: C103. *)
From Verif Require Import Bytes Err FS Prog Pktline Args Local Processor Transfer Sha256 Rfc3339 Spec SpecStore SpecServer
  SpecFrame SpecTalk SpecPerm SpecInput SpecStart SpecTogether SpecRound SpecTruth SpecPower SpecWorn SpecPrune SpecWho TextProofs PowerProofs WornProofs PruneProofs WhoProofs Rg RoundFacts Transcripts
  Props_Store Props_Server Props_End Props_Together Props_Power Props_Worn Props_Prune.

(** ** C103 *)

(** One server, whatever the others do and however its calls end: it puts a file in the
    place of an object only if it runs the operation "upload", and only in a round in
    which the client sent this object, with its number of bytes (after what is left of
    uploads whose data could not be written, if there are any), and which was answered
    with 200, or with 500 because the permissions could not be set; or in a round whose
    answer is not finished, which is its last. *)
Theorem C103_placed en fuel lfs v m tr x o :
  digest (en_hash en) -> exact tr ->
  calls (transfer_main en fuel lfs (GOk (libgit2 v)) (operation m)) tr x ->
  placed lfs o tr -> m = Upload /\ brought (en_hash en) lfs o tr.
Proof. apply who_calls. Qed.
Print Assumptions C103_placed.

(** Any number of servers is at work on a repository, in either operation, beside
    programs that remove objects.  Calls may fail and any of them may be killed.  What is
    stored under the name of an object was there before they began, or one of the servers
    that take uploads put it there, as above. *)
Theorem C103_brought H lfs ps s0 cs o d :
  crowd H lfs ps s0 -> is_oid o ->
  has_file (shared (sys_run cs (Sys ps s0))) (object_path lfs o) d ->
  has_file s0 (object_path lfs o) d \/
  exists i p, ps !! i = Some p /\ serves H lfs Upload p /\ brought H lfs o (history i cs (Sys ps s0)).
Proof. apply c103. Qed.
Print Assumptions C103_brought.

(** Between any two moments: what is stored later was stored before, or was put in its
    place in between by one of them. *)
Theorem C103_between H lfs ps s0 cs1 cs2 o d :
  company H lfs ps s0 -> is_oid o ->
  let y1 := sys_run cs1 (Sys ps s0) in
  has_file (shared (sys_run cs2 y1)) (object_path lfs o) d ->
  has_file (shared y1) (object_path lfs o) d \/ exists i, placed lfs o (history i cs2 y1).
Proof. apply c103_whence. Qed.
Print Assumptions C103_between.

(** If none of the servers takes uploads, no object appears or changes. *)
Theorem C103_fetchers H lfs ps s0 cs1 cs2 o d :
  company H lfs ps s0 -> Forall (fun p => serves H lfs Download p \/ is_pruner lfs (pr_prog p)) ps -> is_oid o ->
  let y1 := sys_run cs1 (Sys ps s0) in
  has_file (shared (sys_run cs2 y1)) (object_path lfs o) d -> has_file (shared y1) (object_path lfs o) d.
Proof. apply c103_fetchers. Qed.
Print Assumptions C103_fetchers.

(** The servers of C101_case.  At first the answer to the upload is not finished, but
    "abc" is there; then it is removed, and the answer is 500; then it is there again,
    with the answer 200. *)
Example C103_case :
  crowd sha256 lfs_dir beside fs0 /\ is_oid abc_oid /\ (forall d, ~ has_file fs0 (object_path lfs_dir abc_oid) d) /\
  let y1 := sys_run (goes 1 22) (Sys beside fs0) in
  let y2 := sys_run (goes 2 2 ++ goes 1 60) y1 in
  has_file (shared y1) (object_path lfs_dir abc_oid) (bs "abc") /\
  has_file (shared y2) (object_path lfs_dir abc_oid) (bs "abc") /\
  out_of y1 1 = Some (bs "000eversion=1
0000") /\
  out_of y2 1 = Some (bs "000eversion=1
0000000fstatus 500
0001004dinternal error: fatal: I/O error: No such file or directory (os error 2)
0000000fstatus 200
0000").
Proof.
  cbn zeta. destruct C101_case as (Hsv & _ & Ho & _).
  split_and!; [split; [done|]|done| | | |vm_compute; reflexivity..].
  - unfold beside. constructor; [left; exists Download; by exists test_env, 1000%nat, Unset|].
    constructor; [left; exists Upload; by exists test_env, 1000%nat, Unset|].
    do 2 (constructor; [right; by apply pruner_prunes|]). constructor.
  - intros d (j & x & Hj & _). revert Hj.
    replace (nodes fs0 !! object_path lfs_dir abc_oid) with (@None node); [done|]. vm_compute. reflexivity.
  - eapply owned_has, file_at_owned. vm_compute. reflexivity.
  - eapply owned_has, file_at_owned. vm_compute. reflexivity.
Qed.

(** A server that sends objects, beside a program that removes "abc", where nothing is
    stored under the name of "abc" but an empty file (as in C100_case). *)
Definition fetching : list (proc (Z * bytes)) := [started Download [RGet abc_oid []; RGet abc_oid []]; pruner_of abc_oid].
Example C103_fetchers_case :
  company sha256 lfs_dir fetching worn_out /\
  Forall (fun p => serves sha256 lfs_dir Download p \/ is_pruner lfs_dir (pr_prog p)) fetching /\ is_oid abc_oid /\
  let y1 := sys_run (goes 0 18) (Sys fetching worn_out) in
  let y2 := sys_run (goes 1 2 ++ goes 0 60) y1 in
  has_file (shared y1) (object_path lfs_dir abc_oid) [] /\
  (forall d, ~ has_file (shared y2) (object_path lfs_dir abc_oid) d) /\
  out_of y2 0 = Some (bs "000eversion=1
0000000fstatus 200
000bsize=0
00010000000fstatus 404
0001000enot found
0000").
Proof.
  cbn zeta. destruct C100_case as ([? ? ? _] & Ho & _). split_and!; [constructor; try done| |done| | |vm_compute; reflexivity].
  - constructor; [left; by eexists test_env, 1000%nat, (GOk (libgit2 Unset)), _|]. constructor; [right; by apply pruner_prunes|]. constructor.
  - constructor; [left; by exists test_env, 1000%nat, Unset|]. constructor; [right; by apply pruner_prunes|]. constructor.
  - eapply owned_has, file_at_owned. vm_compute. reflexivity.
  - intros d (j & x & Hj & _). revert Hj.
    replace (nodes (shared (sys_run (goes 1 2 ++ goes 0 60) (sys_run (goes 0 18) (Sys fetching worn_out)))) !! object_path lfs_dir abc_oid) with (@None node);
      [done|]. vm_compute. reflexivity.
Qed.
