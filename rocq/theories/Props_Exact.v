(** Which objects there are in the end: C105. *)
From Verif Require Import Bytes Err FS Prog Pktline Args Local Processor Transfer Sha256 Rfc3339 Spec SpecStore SpecServer
  SpecFrame SpecTalk SpecPerm SpecInput SpecStart SpecTogether SpecRound SpecTruth SpecPower SpecWorn SpecPrune SpecWho SpecComes TextProofs PowerProofs WornProofs PruneProofs WhoProofs ExactProofs Rg RoundFacts Transcripts
  Props_Store Props_Server Props_End Props_Together Props_Power Props_Worn Props_Prune.
From Verif Require Import SpecComes.

(** ** C105 *)

(** Any number of servers is at work on a repository, and nothing else removes objects.
    Calls may fail and any of them may be killed.  An object is there at a later moment
    if and only if it was there at the earlier one or one of the servers put it in its
    place in between. *)
Theorem C105_between H lfs ps s0 cs1 cs2 o :
  workers H lfs ps s0 -> is_oid o ->
  let y1 := sys_run cs1 (Sys ps s0) in
  (exists d, has_file (shared (sys_run cs2 y1)) (object_path lfs o) d) <->
  (exists d, has_file (shared y1) (object_path lfs o) d) \/ exists i, placed lfs o (history i cs2 y1).
Proof. intros Hwk Ho. exact (exactly H lfs ps s0 Hwk cs1 cs2 o Ho). Qed.
Print Assumptions C105_between.

(** If their configurations can be read: the objects in the end are those of the
    beginning and those which a client sent in an upload that was answered with 200, or
    with 500 because the permissions could not be set, or whose answer is not finished
    (C103). *)
Theorem C105_exactly H lfs ps s0 cs o :
  crew H lfs ps s0 -> is_oid o ->
  (exists d, has_file (shared (sys_run cs (Sys ps s0))) (object_path lfs o) d) <->
  (exists d, has_file s0 (object_path lfs o) d) \/
  exists i p, ps !! i = Some p /\ serves H lfs Upload p /\ brought H lfs o (history i cs (Sys ps s0)).
Proof. apply exactly_brought. Qed.
Print Assumptions C105_exactly.

(** It does not matter in which order they are put in their places, or by which servers,
    or what else is asked for: if the same objects are put in their places twice, by any
    two companies of servers, from the same beginning, then the same objects are there in
    the end, and what is stored for an object has the same hash. *)
Theorem C105_order H lfs ps ps' s0 cs cs' :
  workers H lfs ps s0 -> workers H lfs ps' s0 -> store_ok H lfs s0 ->
  (forall o, is_oid o ->
    (exists i, placed lfs o (history i cs (Sys ps s0))) <-> (exists i, placed lfs o (history i cs' (Sys ps' s0)))) ->
  let s1 := shared (sys_run cs (Sys ps s0)) in
  let s2 := shared (sys_run cs' (Sys ps' s0)) in
  forall o, is_oid o ->
    ((exists d, has_file s1 (object_path lfs o) d) <-> (exists d, has_file s2 (object_path lfs o) d)) /\
    (forall d1 d2, has_file s1 (object_path lfs o) d1 -> has_file s2 (object_path lfs o) d2 -> H d1 = H d2).
Proof. apply same_objects. Qed.
Print Assumptions C105_order.

(** One of the servers of C100_case uploads "abc" while the other one asks for it, and a
    third is killed within its upload of "xyz" before the object is in its place. *)
Definition putting : list (proc (Z * bytes)) :=
  [started Download [RGet abc_oid []; RGet abc_oid []]; started Upload [upload_of (bs "abc")]; started Upload [upload_of (bs "xyz")]].
Definition one_way : list choice := goes 0 12 ++ goes 1 10 ++ goes 2 18 ++ goes 1 60 ++ [Choice 2 ACrash] ++ goes 0 60.
Example C105_case :
  crew sha256 lfs_dir putting fs0 /\ store_ok sha256 lfs_dir fs0 /\ is_oid abc_oid /\ is_oid (oid_of (bs "xyz")) /\
  let y := sys_run one_way (Sys putting fs0) in
  has_file (shared y) (object_path lfs_dir abc_oid) (bs "abc") /\
  (forall d, ~ has_file (shared y) (object_path lfs_dir (oid_of (bs "xyz"))) d) /\
  out_of y 1 = Some (bs "000eversion=1
0000000fstatus 200
0000").
Proof.
  assert (S1 : servers sha256 lfs_dir [] fs0) by (apply servers_of; constructor).
  assert (Ho : is_oid abc_oid) by (by apply oid_valid_iff).
  assert (Ho' : is_oid (oid_of (bs "xyz"))) by (apply oid_valid_iff; vm_compute; reflexivity).
  cbn zeta. split_and!; [| |done|done| | |vm_compute; reflexivity].
  - split.
    + destruct S1 as [? ? ? _ _]. constructor; try done.
      unfold putting. do 3 (constructor; [by eexists test_env, 1000%nat, (GOk (libgit2 Unset)), _|]). constructor.
    + unfold putting. constructor; [exists Download; by exists test_env, 1000%nat, Unset|].
      do 2 (constructor; [exists Upload; by exists test_env, 1000%nat, Unset|]). constructor.
  - by destruct S1.
  - eapply owned_has, file_at_owned. vm_compute. reflexivity.
  - intros d (j & x & Hj & _). revert Hj.
    replace (nodes (shared (sys_run one_way (Sys putting fs0))) !! object_path lfs_dir (oid_of (bs "xyz"))) with (@None node);
      [done|]. vm_compute. reflexivity.
Qed.

(** Two other servers, one after the other: the first sends "xyz" under the name of "abc"
    and is refused, the second sends "abc" itself, and asks for it no more.  The same
    object is put in its place, so the same one is there as in C105_case. *)
Definition others : list (proc (Z * bytes)) :=
  [started Upload [RPut abc_oid [(bs "size", bs "3")] [bs "xyz"]]; started Upload [upload_of (bs "abc")]].
Definition another_way : list choice := goes 0 80 ++ goes 1 80.
Definition targets (tr : list done_call) : list path :=
  omap (fun d : done_call => match d with existT (ERename _ b) (IOk _) => Some b | _ => None end) tr.
Lemma placed_targets lfs o tr : placed lfs o tr <-> object_path lfs o ∈ targets tr.
Proof.
  unfold placed, targets. rewrite elem_of_list_omap. split.
  - intros [a Ha]. eexists. split; [exact Ha|done].
  - intros ([e r] & Hin & E). destruct e; try done. destruct r as [[]|]; [|done]. injection E as <-. eauto.
Qed.
Lemma placed_abc (ps : list (proc (Z * bytes))) cs i :
  targets (history i cs (Sys ps fs0)) = [object_path lfs_dir abc_oid] ->
  (forall k, k <> i -> targets (history k cs (Sys ps fs0)) = []) ->
  forall o, (exists k, placed lfs_dir o (history k cs (Sys ps fs0))) <-> object_path lfs_dir o = object_path lfs_dir abc_oid.
Proof.
  intros Hi Hk o. split.
  - intros [k Hp]. apply placed_targets in Hp. destruct (decide (k = i)) as [->|Hn].
    + rewrite Hi in Hp. by apply elem_of_list_singleton in Hp.
    + rewrite Hk in Hp by done. by apply elem_of_nil in Hp.
  - intros E. exists i. apply placed_targets. rewrite Hi, E. by apply elem_of_list_singleton.
Qed.
Example C105_order_case :
  workers sha256 lfs_dir putting fs0 /\ workers sha256 lfs_dir others fs0 /\ store_ok sha256 lfs_dir fs0 /\
  (forall o, is_oid o ->
    (exists i, placed lfs_dir o (history i one_way (Sys putting fs0))) <-> (exists i, placed lfs_dir o (history i another_way (Sys others fs0)))) /\
  (exists i, placed lfs_dir abc_oid (history i another_way (Sys others fs0))) /\
  let y := sys_run another_way (Sys others fs0) in
  has_file (shared y) (object_path lfs_dir abc_oid) (bs "abc") /\
  take 32 <$> out_of y 0 = Some (bs "000eversion=1
0000000fstatus 400").
Proof.
  destruct C105_case as ([Hw _] & Hs & _).
  assert (P1 := placed_abc putting one_way 1). assert (P2 := placed_abc others another_way 1).
  assert (G2 : forall o, (exists i, placed lfs_dir o (history i another_way (Sys others fs0))) <-> object_path lfs_dir o = object_path lfs_dir abc_oid).
  { apply P2; [vm_compute; reflexivity|]. intros [|[|k]] Hk; [vm_compute; reflexivity|done|]. by rewrite WhoProofs.history_none. }
  assert (G1 : forall o, (exists i, placed lfs_dir o (history i one_way (Sys putting fs0))) <-> object_path lfs_dir o = object_path lfs_dir abc_oid).
  { apply P1; [vm_compute; reflexivity|]. intros [|[|[|k]]] Hk; [vm_compute; reflexivity|done|vm_compute; reflexivity|]. by rewrite WhoProofs.history_none. }
  cbn zeta. split_and!; [done| |done| | | |vm_compute; reflexivity].
  - destruct Hw as [? ? ? _]. constructor; try done.
    unfold others. do 2 (constructor; [by eexists test_env, 1000%nat, (GOk (libgit2 Unset)), _|]). constructor.
  - intros o _. by rewrite G1, G2.
  - by apply G2.
  - eapply owned_has, file_at_owned. vm_compute. reflexivity.
Qed.
