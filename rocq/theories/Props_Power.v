(** Properties of failures of the power: C98.  The servers of the theorems are any
    number, at work on a repository whose objects may hold anything; their calls may
    fail, and they may be killed. *)
From Verif Require Import Bytes Err FS Prog Pktline Args Local Processor Transfer Sha256 Rfc3339 Spec SpecStore SpecServer SpecLockDir
  SpecTalk SpecTogether SpecTruth SpecPower SpecWorn ByteFacts ObjProofs TextProofs LockDirProofs TruthProofs WornProofs PowerProofs Transcripts Props_Store Props_Server Props_Together.

(** ** C98 *)

(** Refuted: what was answered is so after a failure of the power.  A server has
    answered an upload with 200 and a lock with 201.  After the failure the object is
    empty: it is sent with 200, and a client that would upload it again is told that
    there is nothing to do.  The lock is an empty file: the path can neither be locked
    nor unlocked, and no lock is shown.  Or the failure takes back that a lock was
    removed, which had been answered with 200. *)
Definition two_things : list request := [upload_of (bs "abc"); lock_of (bs "b")].
Definition asked_again : list request := [RBatch [] [(abc_oid, bs "3")]; lock_of (bs "b"); RUnlock (id_of (bs "b")) []; RList []].
Definition on_and_off : list request := [lock_of (bs "b"); RUnlock (id_of (bs "b")) []].
Definition steps : list choice := goes 0 100.

Theorem C98_survives_refuted : exists H lfs ps ps2 s0 cs s' s2,
  servers H lfs ps s0 /\ power_loss (Sys ps s0) cs s' /\
  out_of (sys_run cs (Sys ps s0)) 0 = Some (bs "000eversion=1
0000000fstatus 200
0000000fstatus 201
0048id=73b6a671c66efeb43a35cd79a0057df1a2c0ea8a5141e341101728e3179b5f04
000bpath=b
0028locked-at=1970-01-01T00:00:00+00:00
0018ownername=test user
0000") /\
  output (serve Download [RGet abc_oid []] s') = bs "000eversion=1
0000000fstatus 200
000bsize=0
00010000" /\
  output (serve Upload asked_again s') = bs "000eversion=1
0000000fstatus 200
0001004cba7816bf8f01cfea414140de5dae2223b00361a396177a9cb410ff61f20015ad 0 noop
0000000fstatus 400
0001002derror: corrupt data: invalid parsed lock
0000000fstatus 400
0001002derror: corrupt data: invalid parsed lock
0000000fstatus 200
00010000" /\
  servers H lfs ps2 s0 /\ power_loss (Sys ps2 s0) cs s2 /\
  out_of (sys_run cs (Sys ps2 s0)) 0 = Some (bs "000eversion=1
0000000fstatus 201
0048id=73b6a671c66efeb43a35cd79a0057df1a2c0ea8a5141e341101728e3179b5f04
000bpath=b
0028locked-at=1970-01-01T00:00:00+00:00
0018ownername=test user
0000000fstatus 200
0048id=73b6a671c66efeb43a35cd79a0057df1a2c0ea8a5141e341101728e3179b5f04
000bpath=b
0028locked-at=1970-01-01T00:00:00+00:00
0018ownername=test user
0000") /\
  output (serve Upload [lock_of (bs "b")] s2) = bs "000eversion=1
0000000fstatus 409
0048id=73b6a671c66efeb43a35cd79a0057df1a2c0ea8a5141e341101728e3179b5f04
000bpath=b
0028locked-at=1970-01-01T00:00:00+00:00
0018ownername=test user
0001000dconflict
0000".
Proof.
  assert (S1 : servers sha256 lfs_dir [serving Upload two_things] fs0) by (apply servers_of; repeat constructor; by eexists _, _).
  assert (S2 : servers sha256 lfs_dir [serving Upload on_and_off] fs0) by (apply servers_of; repeat constructor; by eexists _, _).
  exists sha256, lfs_dir, [serving Upload two_things], [serving Upload on_and_off], fs0, steps,
    (emptied 0 (shared (sys_run steps (Sys [serving Upload two_things] fs0)))),
    (FS (nodes (shared (sys_run (goes 0 40) (Sys [serving Upload on_and_off] fs0)))) (inodes (shared (sys_run steps (Sys [serving Upload on_and_off] fs0)))) []).
  split_and!; [exact S1|exact (c98_emptied _ _ _ _ (sv_workers _ _ _ _ S1) steps)|vm_compute; reflexivity|vm_compute; reflexivity|vm_compute; reflexivity|exact S2| |vm_compute; reflexivity|vm_compute; reflexivity].
  apply (c98_back _ _ _ _ (sv_workers _ _ _ _ S2)). exists (goes 0 40), (goes 0 60). split; [vm_compute; reflexivity|done].
Qed.
Print Assumptions C98_survives_refuted.

(** What was there at first and was left alone is there.  An object to which no upload
    was moved since is stored as it was, and if it was not stored, it is not. *)
Theorem C98_objects_left_alone_partial H lfs ps s0 cs s' o d :
  workers H lfs ps s0 -> power_loss (Sys ps s0) cs s' -> is_oid o -> ~ replaced lfs (Sys ps s0) cs o ->
  has_file s' (object_path lfs o) d <-> has_file s0 (object_path lfs o) d.
Proof. intros Hsv Hpl. exact (c98_objects H lfs ps s0 Hsv cs s' Hpl o d). Qed.
Print Assumptions C98_objects_left_alone_partial.

(** Any other file, as that of a lock, that was there all the while has its bytes and
    its owner. *)
Theorem C98_files_left_alone_partial H lfs ps s0 cs s' f d u :
  workers H lfs ps s0 -> power_loss (Sys ps s0) cs s' -> (forall o, is_oid o -> f <> object_path lfs o) -> owned_file s0 f d u ->
  (forall t, went_through (Sys ps s0) cs t -> is_Some (nodes t !! f)) -> owned_file s' f d u.
Proof. intros Hsv Hpl. exact (c98_files H lfs ps s0 Hsv cs s' Hpl f d u). Qed.
Print Assumptions C98_files_left_alone_partial.

(** Servers can go on: the repository is as the theorems about servers side by side
    want it but for the bytes of its objects, and what C84 says of lock directories is
    about the one there is now. *)
Theorem C98_order_partial H lfs ps s0 cs s' :
  workers H lfs ps s0 -> power_loss (Sys ps s0) cs s' ->
  ordinary lfs s' /\ (lfs_dirs s0 lfs -> exists D, contains lfs s' D).
Proof.
  intros Hsv Hpl. split; [exact (c98_ordinary H lfs ps s0 Hsv cs s' Hpl)|]. exact (c98_contains H lfs ps s0 cs s' Hsv Hpl).
Qed.
Print Assumptions C98_order_partial.

(** In the repository with "abc" and the locks on "a" and "c", another object is
    uploaded and another path locked. *)
Definition more_things : list request := [upload_of (bs "de"); lock_of (bs "b")].
Definition busy : list (proc (Z * bytes)) := [serving Upload more_things].
Definition doubtful : fs := emptied (length (inodes fs_demo)) (shared (sys_run steps (Sys busy fs_demo))).

Lemma history_none {A} i cs : forall y : sys A, Forall (fun c => c_pid c <> i) cs -> history i cs y = [].
Proof.
  induction cs as [|c cs IH]; intros y Hc; [done|]. apply Forall_cons in Hc as [Hc Hcs]. cbn [history]. rewrite IH by done.
  unfold made. destruct (c_act c); [|done]. by rewrite decide_False.
Qed.
Definition renames (f : path) (d : done_call) : bool :=
  match projT1 d with ERename _ b => bool_decide (b = f) | _ => false end.
Lemma not_replaced (ps : list (proc (Z * bytes))) s n o : existsb (renames (object_path lfs_dir o)) (history 0 (goes 0 n) (Sys ps s)) = false ->
  ~ replaced lfs_dir (Sys ps s) (goes 0 n) o.
Proof.
  intros E (i & a & Hin). destruct (decide (i = 0%nat)) as [->|Hne].
  - apply elem_of_list_In in Hin. rewrite <- not_true_iff_false in E. apply E, existsb_exists.
    eexists. split; [exact Hin|]. cbn. by apply bool_decide_eq_true.
  - rewrite history_none in Hin; [by apply elem_of_nil in Hin|]. apply Forall_replicate. cbn. congruence.
Qed.
Fixpoint all_through (f : fs -> bool) (cs : list choice) (y : sys (Z * bytes)) : bool :=
  f (shared y) && match cs with [] => true | c :: cs' => all_through f cs' (sys_step y c) end.
Lemma all_through_ok f cs : forall y t, all_through f cs y = true -> went_through y cs t -> f t = true.
Proof.
  induction cs as [|c cs IH]; intros y t Ha (cs1 & cs2 & E & ->); cbn [all_through] in Ha; apply andb_true_iff in Ha as [H1 H2].
  - by destruct cs1.
  - destruct cs1 as [|c1 cs1]; [done|]. injection E as <- ->. apply (IH (sys_step y c)); [done|]. by exists cs1, cs2.
Qed.
Definition has_entry (f : path) (s : fs) : bool := bool_decide (is_Some (nodes s !! f)).

Lemma busy_servers : servers sha256 lfs_dir busy fs_demo.
Proof.
  split.
  - exact sha256_ok.
  - repeat constructor; try done; by (refine (bool_decide_eq_true_1 _ _); vm_compute).
  - exact (holds_ordinary test_env _ _ _ sha256_ok demo_holds).
  - intros o d Ho Hf. apply (h_obj _ _ _ _ demo_holds o d Ho) in Hf. unfold w_demo in Hf. cbn [w_objs] in Hf.
    apply lookup_singleton_Some in Hf as [<- <-]. apply hex_of_iff. by vm_compute.
  - repeat constructor. by eexists test_env, 1000%nat, no_config, _.
Qed.
Example C98_case :
  workers sha256 lfs_dir busy fs_demo /\ power_loss (Sys busy fs_demo) steps doubtful /\
  ~ replaced lfs_dir (Sys busy fs_demo) steps abc_oid /\ has_file fs_demo (object_path lfs_dir abc_oid) (bs "abc") /\
  existsb (renames (object_path lfs_dir (oid_of (bs "de")))) (history 0 steps (Sys busy fs_demo)) = true /\
  has_file doubtful (object_path lfs_dir (oid_of (bs "de"))) [] /\
  owned_file fs_demo (lfs_dir ++ [bs "locks"; id_of (bs "a")]) (record_of noon (bs "a")) 1000 /\
  (forall t, went_through (Sys busy fs_demo) steps t -> is_Some (nodes t !! (lfs_dir ++ [bs "locks"; id_of (bs "a")]))) /\
  owned_file doubtful (lfs_dir ++ [bs "locks"; id_of (bs "a")]) (record_of noon (bs "a")) 1000 /\
  has_file doubtful (lfs_dir ++ [bs "locks"; id_of (bs "b")]) [].
Proof.
  split_and!.
  - exact (sv_workers _ _ _ _ busy_servers).
  - exact (c98_emptied _ _ _ _ (sv_workers _ _ _ _ busy_servers) steps).
  - apply not_replaced. vm_compute. reflexivity.
  - eapply owned_has, file_at_owned. vm_compute. reflexivity.
  - vm_compute. reflexivity.
  - eapply owned_has, file_at_owned. vm_compute. reflexivity.
  - apply file_at_owned. vm_compute. reflexivity.
  - intros t Ht. assert (G : has_entry (lfs_dir ++ [bs "locks"; id_of (bs "a")]) t = true).
    { apply (all_through_ok _ steps (Sys busy fs_demo)); [vm_compute; reflexivity|exact Ht]. }
    by apply bool_decide_eq_true in G.
  - apply file_at_owned. vm_compute. reflexivity.
  - eapply owned_has, file_at_owned. vm_compute. reflexivity.
Qed.
