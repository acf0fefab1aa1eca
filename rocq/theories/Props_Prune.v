(** Objects removed while servers work, as `git lfs prune` does: C101. *)
From Verif Require Import Bytes Err FS Prog Pktline Args Local Processor Transfer Sha256 Rfc3339 Spec SpecStore SpecServer
  SpecFrame SpecTalk SpecPerm SpecInput SpecStart SpecTogether SpecRound SpecTruth SpecPower SpecWorn SpecPrune TextProofs PowerProofs WornProofs PruneProofs Rg RoundFacts Transcripts
  Props_Store Props_Server Props_End Props_Together Props_Power Props_Worn.

(** ** C101 *)

(** Any number of servers is at work on a repository whose objects may hold anything,
    and any number of programs that may remove objects at any time.  Calls may fail and
    any of them may be killed.  Between any two moments, what was stored under the name
    of an object stays as it is, or gives way to the object with this name, or was
    removed by one of these programs.  And what is stored is the object with this name,
    or was there before: removing objects makes room for no others. *)
Theorem C101_only_removed H lfs ps s0 cs1 cs2 o d :
  company H lfs ps s0 -> is_oid o ->
  let y1 := sys_run cs1 (Sys ps s0) in
  let s1 := shared y1 in
  let s2 := shared (sys_run cs2 y1) in
  (has_file s1 (object_path lfs o) d ->
     (exists d', has_file s2 (object_path lfs o) d' /\ (d' = d \/ hex_of (H d') o)) \/ removed lfs ps cs2 y1 o) /\
  (has_file s2 (object_path lfs o) d -> hex_of (H d) o \/ has_file s1 (object_path lfs o) d).
Proof. intros Hsv Ho. exact (c101_store H lfs ps s0 Hsv cs1 cs2 o d Ho). Qed.
Print Assumptions C101_only_removed.

(** If all objects are right to begin with, they are at any time. *)
Theorem C101_store H lfs ps s0 cs :
  company H lfs ps s0 -> store_ok H lfs s0 -> store_ok H lfs (shared (sys_run cs (Sys ps s0))).
Proof.
  intros Hsv Hs o d Ho Hf. destruct (c101_store H lfs ps s0 Hsv [] cs o d Ho) as [_ G].
  destruct (G Hf) as [G'|G']; [done|]. by apply Hs.
Qed.
Print Assumptions C101_store.

(** The calls of one of these servers are as C96 has them.  An upload answered with 200
    is what the name says, and stored in the end, or removed after the server had moved
    it to its place.  What is sent, or said to be there, or to have a size, is the
    object with this name, or what was stored under it when the servers began; and
    something is stored under the name in the end, or was removed after the server had
    found it.  An object that is removed while it is sent is sent as it was. *)
Theorem C101_answers en fuel lfs v m l ps s0 i cs :
  company (en_hash en) lfs ps s0 ->
  ps !! i = Some (Proc (transfer_main en fuel lfs (GOk (libgit2 v)) (operation m)) l false) ->
  let tr := history i cs (Sys ps s0) in
  let y := sys_run cs (Sys ps s0) in
  (forall e r, existT e r ∈ tr -> introduces lfs e) \/
  exists um u body rest new p, tr = um ++ announced lfs ++ body ++ rest /\ masks (asked v) um u /\
    pruned_rounds en lfs u m ps s0 i cs (um ++ announced lfs) [] body new /\ (flushed ∉ rest \/ farewell rest) /\
    procs y !! i = Some p /\ (l_out l ++ bs "000eversion=1" ++ [NL] ++ bs "0000" ++ spoken body) `prefix_of` l_out (pr_local p).
Proof. intros Hsv Hi. exact (c101 en lfs ps s0 Hsv fuel v m l i cs Hi). Qed.
Print Assumptions C101_answers.

(** "abc" is uploaded, and removed before the server has changed its mode: the server
    answers with 500.  Uploaded again it is stored.  Another server opens it, it is
    removed again, and this server sends it.  Asked once more, it does not find it. *)
Definition pruner_of (o : bytes) : proc (Z * bytes) :=
  Proc (let! _ := call (EStat (object_path lfs_dir o)) in let! _ := call (EUnlink (object_path lfs_dir o)) in Ret (0%Z, [])) (input_of []) false.
Definition beside : list (proc (Z * bytes)) :=
  [started Download [RGet abc_oid []; RGet abc_oid []]; started Upload [upload_of (bs "abc"); upload_of (bs "abc")];
   pruner_of abc_oid; pruner_of abc_oid].
Definition taking : list choice := goes 1 22 ++ goes 2 2 ++ goes 1 60 ++ goes 0 18.
Lemma pruner_prunes o : is_oid o -> is_pruner lfs_dir (pr_prog (pruner_of o)).
Proof.
  intros Ho tr x Hc e r Hin.
  assert (G : all_ev (prunes lfs_dir) (pr_prog (pruner_of o))).
  { split; [done|]. intros ? _. split; [by exists o|done]. }
  pose proof (calls_all_ev _ _ _ _ G Hc) as F. rewrite Forall_forall in F. by apply (F _ Hin).
Qed.
Example C101_case :
  company sha256 lfs_dir beside fs0 /\ store_ok sha256 lfs_dir fs0 /\ is_oid abc_oid /\
  beside !! 0%nat = Some (Proc (transfer_main test_env 1000 lfs_dir (GOk (libgit2 Unset)) (operation Download))
    (input_of [RGet abc_oid []; RGet abc_oid []]) false) /\
  let y1 := sys_run taking (Sys beside fs0) in
  let y2 := sys_run (goes 3 2 ++ goes 0 60) y1 in
  has_file (shared y1) (object_path lfs_dir abc_oid) (bs "abc") /\
  removed lfs_dir beside (goes 3 2 ++ goes 0 60) y1 abc_oid /\
  (forall d, ~ has_file (shared y2) (object_path lfs_dir abc_oid) d) /\
  out_of y2 0 = Some (bs "000eversion=1
0000000fstatus 200
000bsize=3
00010007abc0000000fstatus 404
0001000enot found
0000") /\
  out_of y2 1 = Some (bs "000eversion=1
0000000fstatus 500
0001004dinternal error: fatal: I/O error: No such file or directory (os error 2)
0000000fstatus 200
0000").
Proof.
  assert (Ho : is_oid abc_oid) by (by apply oid_valid_iff).
  assert (S1 : servers sha256 lfs_dir [] fs0) by (apply servers_of; constructor).
  cbn zeta. split_and!; [| |done|done| | | |vm_compute; reflexivity..].
  - destruct S1 as [? ? ? _ _]. constructor; try done.
    unfold beside. do 2 (constructor; [left; by eexists test_env, 1000%nat, (GOk (libgit2 Unset)), _|]).
    do 2 (constructor; [right; by apply pruner_prunes|]). constructor.
  - by destruct S1.
  - eapply owned_has, file_at_owned. vm_compute. reflexivity.
  - exists 3%nat, (pruner_of abc_oid). split_and!; [done|by apply pruner_prunes|].
    replace (history 3 (goes 3 2 ++ goes 0 60) (sys_run taking (Sys beside fs0))) with
      ([existT (EStat (object_path lfs_dir abc_oid)) (IOk (3%N, 1000%N)); existT (EUnlink (object_path lfs_dir abc_oid)) (IOk tt)] : list done_call);
      [right; left|]. vm_compute. reflexivity.
  - intros d (j & x & Hj & _). revert Hj.
    replace (nodes (shared (sys_run (goes 3 2 ++ goes 0 60) (sys_run taking (Sys beside fs0)))) !! object_path lfs_dir abc_oid) with (@None node);
      [done|]. vm_compute. reflexivity.
Qed.
