(** Failures of the power: proofs for Props_Power.v. *)
From Verif Require Import Bytes ByteFacts Err FS Prog Pktline Args Local Processor Transfer Wp Rg
  Spec SpecStore SpecServer SpecTalk SpecTogether SpecTruth SpecPower FsFacts PktFacts PktProofs IoFacts TextProofs ObjProofs StoreProofs SeqIo SeqFs SeqCmd
  SpecLockDir LockDirProofs GetProofs TogetherProofs TruthProofs SpecWorn WornProofs.
From Verif Require Import Shape.
From stdpp Require Import relations.
Local Existing Instance may_be.

Section calls.
Context (lfs : path) (Hlfs : Forall stays lfs).
Local Notation inc := (lfs ++ [bs "incomplete"]).
Local Notation lockdir := (lfs ++ [bs "locks"]).
Local Notation obj o := (expected_path lfs o).

(** What a call of a server does to an entry. *)
Inductive turned (s : fs) (e : ev) (r : resp e) (s' : fs) (f : path) : Prop :=
| tn_same : nodes s' !! f = nodes s !! f -> turned s e r s' f
| tn_gone j : nodes s !! f = Some (NFile j) -> nodes s' !! f = None -> turned s e r s' f
| tn_new n : nodes s !! f = None -> nodes s' !! f = Some n -> (forall o, n <> NDir -> f <> obj o) -> turned s e r s' f
| tn_moved a o n : f = obj o -> is_oid o -> nodes s' !! f = Some n -> existT e r = existT (ERename a f) (IOk tt) :> done_call -> turned s e r s' f.

Lemma obj_not_inc o c : inc ++ [c] <> obj o.
Proof using Type. intros E. apply (f_equal length) in E. rewrite <- object_path_eq in E. unfold object_path in E. rewrite !app_length in E. simpl in E. lia. Qed.
Lemma obj_not_lock o c : lockdir ++ [c] <> obj o.
Proof using Type. intros E. apply (f_equal length) in E. rewrite <- object_path_eq in E. unfold object_path in E. rewrite !app_length in E. simpl in E. lia. Qed.

Lemma shapely_turned pid e o l s f : shapely lfs e -> 
  turned s e (handle_ev pid e o l s).1.1 (handle_ev pid e o l s).2 f.
Proof using Hlfs.
  intros He.
  assert (Hsame : forall r, turned s e r s f) by (intros r; by apply tn_same).
  destruct e; cbn [handle_ev]; unfold faulty, with_l; try (destruct (o_fault o); [by apply Hsame|]); try by apply Hsame; cbn [fst snd].
  - by destruct (do_read n l).
  - (* mkdir *) unfold fs_mkdir_all. destruct (fs_mkdirs s [] p) as [x|s'] eqn:E; [by apply Hsame|].
    apply mkdirs_spec in E as (I & _ & M1 & M2). cbn [fst snd].
    destruct (M1 f) as [E'|(E1 & E2 & _)]; [by apply tn_same|]. by eapply tn_new.
  - (* mktemp *) simpl in He. subst dir. unfold fs_mktemp. destruct (resolve s inc) as [x|d] eqn:E; [by apply Hsame|].
    apply resolve_stays in E as ->; [|by apply inc_stays].
    destruct (node_at s inc) as [[|j]|] eqn:En; try by apply Hsame. simpl.
    pose proof (free_name_free s inc (prefix ++ o_sfx o)) as Hfree. set (c := free_name _ _ _) in *.
    destruct (decide (f = inc ++ [c])) as [->|Hne].
    + eapply tn_new; [done|simpl; apply lookup_insert|]. intros ob _. apply obj_not_inc.
    + apply tn_same. simpl. by rewrite lookup_insert_ne.
  - (* write *) assert (G : forall r b', turned s (EWriteFd i b) r (fs_write i b' s).2 f).
    { intros r b'. unfold fs_write. destruct (inode_at s i); by apply tn_same. }
    destruct (o_fault o); apply G.
  - (* rename *) destruct He as (ob & Ho & ->). unfold fs_rename.
    destruct (file_at s a) as [x|[qa i]] eqn:Ea; [by apply Hsame|].
    destruct (resolve s (obj ob)) as [x|qb] eqn:Eb; [by apply Hsame|].
    pose proof (obj_stays lfs Hlfs ob Ho) as Hst. apply resolve_stays in Eb as ->; [|done].
    unfold file_at in Ea. destruct (resolve s a) as [x|qa'] eqn:Era; [done|].
    destruct (node_at s qa') as [[|j]|] eqn:Eqa; try done. injection Ea as -> ->.
    assert (Hqa : nodes s !! qa = Some (NFile i)) by (by destruct qa).
    assert (G : turned s (ERename a (obj ob)) (IOk tt) (set_nodes (fun m => <[obj ob := NFile i]> (delete qa m)) s) f).
    { destruct (decide (f = obj ob)) as [->|Hne].
      - eapply tn_moved; [done|done|simpl; apply lookup_insert|done].
      - destruct (decide (f = qa)) as [->|Hne'].
        + eapply tn_gone; [done|]. simpl. rewrite lookup_insert_ne by done. apply lookup_delete.
        + apply tn_same. simpl. rewrite lookup_insert_ne by done. by rewrite lookup_delete_ne. }
    destruct (node_at s (obj ob)) as [[|k]|]; [by apply Hsame|exact G|exact G].
  - (* unlink *) unfold fs_unlink, file_at. destruct (resolve s p) as [x|q]; [by apply Hsame|].
    destruct (node_at s q) as [[|j]|] eqn:En; try by apply Hsame.
    assert (Hq : nodes s !! q = Some (NFile j)) by (by destruct q).
    simpl. destruct (decide (f = q)) as [->|Hne]; [eapply tn_gone; [done|]; simpl; apply lookup_delete|].
    apply tn_same. simpl. by rewrite lookup_delete_ne.
  - (* link *) simpl in He. unfold fs_link, file_at. destruct (resolve s a) as [x|qa]; [by apply Hsame|].
    destruct (node_at s qa) as [[|j]|] eqn:En; try by apply Hsame.
    destruct (resolve s b) as [x|qb] eqn:Eb; [by apply Hsame|].
    pose proof (lockname_stays _ Hlfs _ He) as Hst. destruct He as (c & Hc & ->).
    apply resolve_stays in Eb as ->; [|done]. rewrite node_at_app.
    destruct (nodes s !! (lockdir ++ [c])) eqn:Ec; [by apply Hsame|]. simpl.
    destruct (decide (f = lockdir ++ [c])) as [->|Hne]; [|apply tn_same; simpl; by rewrite lookup_insert_ne].
    eapply tn_new; [done|simpl; apply lookup_insert|]. intros ob _. apply obj_not_lock.
  - (* create *) simpl in He. unfold fs_create_new. destruct (resolve s p) as [x|q] eqn:Eb; [by apply Hsame|].
    pose proof (lockname_stays _ Hlfs _ He) as Hst. destruct He as (c & Hc & ->).
    apply resolve_stays in Eb as ->; [|done]. rewrite node_at_app.
    destruct (nodes s !! (lockdir ++ [c])) eqn:Ec; [by apply Hsame|]. simpl.
    destruct (decide (f = lockdir ++ [c])) as [->|Hne]; [|apply tn_same; simpl; by rewrite lookup_insert_ne].
    eapply tn_new; [done|simpl; apply lookup_insert|]. intros ob _. apply obj_not_lock.
  - (* chmod *) unfold fs_chmod. destruct (resolve s p) as [x|q]; [by apply Hsame|].
    destruct (node_at s q) as [[|j]|]; by apply tn_same.
  - (* note *) by apply tn_same.
Qed.
End calls.

Section power.
Context (H : bytes -> bytes) (lfs : path) (ps : list (proc (Z * bytes))) (s0 : fs) (Hsv : workers H lfs ps s0).
Local Notation n0 := (length (inodes s0)).
Local Notation fine := (fine H lfs s0).
Local Notation y0 := (Sys ps s0).

Lemma lfs_plain : Forall plain_name lfs. Proof using Hsv. by destruct Hsv. Qed.
Lemma lfs_stays : Forall stays lfs.
Proof using Hsv. eapply Forall_impl; [apply lfs_plain|]. intros x. apply plain_stays. Qed.
Lemma fine0 : fine y0.
Proof using Hsv. exact (fine_start (Env H (fun _ => None) (fun _ => None) 0) lfs ps s0 Hsv). Qed.

(** A step is a call of a server, or nothing for the file system. *)
Lemma step_turned y c f : fine y ->
  nodes (shared (sys_step y c)) !! f = nodes (shared y) !! f \/
  exists e r, existT e r ∈ made (c_pid c) y c /\ turned lfs (shared y) e r (shared (sys_step y c)) f.
Proof using Hsv.
  intros (_ & _ & Hev & _). destruct (procs y !! c_pid c) as [p|] eqn:Hp.
  2: { left. unfold sys_step. by rewrite Hp. }
  destruct (step_made y c (c_pid c) p Hp) as [(Em & d & Hd & _)|(o & e & k & Ec & Hd & Hq & Hh)].
  - left. unfold sys_step. rewrite Hp. unfold proc_step. destruct p as [q l dd]. cbn [pr_dead pr_prog pr_local].
    destruct dd; [done|]. destruct c as [j a]. cbn [c_pid c_act] in *. destruct a; [|done].
    destruct q as [x|x|e k]; try done. unfold made in Em. cbn [c_act c_pid] in Em. rewrite decide_True, Hp in Em by done. done.
  - right. cbn beta zeta in Hh. destruct Hh as (Em & _ & Es). rewrite Es, Em.
    eexists e, _. split; [by apply elem_of_list_singleton|]. apply shapely_turned; [apply lfs_stays|].
    pose proof (Hev _ _ Hp) as He. rewrite Hq in He. by destruct He.
Qed.

Lemma through_fine cs t : went_through y0 cs t -> exists cs1 cs2, cs = cs1 ++ cs2 /\ t = shared (sys_run cs1 y0) /\ fine (sys_run cs1 y0).
Proof using Hsv. intros (cs1 & cs2 & E1 & E2). exists cs1, cs2. split_and!; [done..|]. apply fine_run; [apply lfs_plain|apply fine0]. Qed.

(** The name of an object is what it was, unless it was replaced. *)
Lemma object_entry cs2 : forall cs1 o, is_oid o -> 
  (forall i a, existT (ERename a (object_path lfs o)) (IOk tt) ∉ history i (cs1 ++ cs2) y0) ->
  nodes (shared (sys_run cs1 y0)) !! object_path lfs o = nodes s0 !! object_path lfs o.
Proof using Hsv.
  intros cs1. revert cs2. induction cs1 as [|c cs1 IH] using rev_ind; intros cs2 o Ho Hno; [done|].
  rewrite <- app_assoc in Hno. rewrite <- (IH _ o Ho Hno).
  pose proof (fine_run H lfs s0 lfs_plain cs1 y0 fine0) as Hg.
  pose proof (fine_step H lfs s0 lfs_plain _ c Hg) as Hg'.
  rewrite sys_run_app. change (sys_run [c] ?y) with (sys_step y c).
  destruct (step_turned (sys_run cs1 y0) c (object_path lfs o) Hg) as [?|(e & r & Hin & Ht)]; [done|].
  set (y := sys_run cs1 y0) in *. destruct Ht as [E|j E1 E2|n E1 E2 E3|a o' n E1 Ho' E2 E3]; [done| | |].
  - exfalso. destruct (moved_objects H lfs n0 any_oid _ _ o (fine_moved H lfs s0 [c] y Hg) Ho) as [j' Hj'].
    { exists j. by rewrite <- object_path_eq. }
    rewrite <- object_path_eq in Hj'. change (sys_run [c] y) with (sys_step y c) in Hj'. congruence.
  - exfalso. destruct n as [|j]; [|by apply (E3 o); [done|apply object_path_eq]].
    destruct Hg' as (_ & Hsh & _). by destruct (sh_obj _ _ Hsh o Ho) as [G _].
  - exfalso. rewrite E3 in Hin. apply (Hno (c_pid c) a). rewrite history_app, elem_of_app. right.
    cbn [history app]. apply elem_of_app. by left.
Qed.

(** The bytes of the files of the beginning do not change. *)
Lemma bytes_same cs j x : inodes s0 !! j = Some x ->
  exists x1, inodes (shared (sys_run cs y0)) !! j = Some x1 /\ i_data x1 = i_data x.
Proof using Hsv.
  intros Hx. destruct (frozen_stays H lfs s0 cs y0 j (i_data x) fine0) as (x1 & H1 & H2 & _).
  { exists x. split_and!; [done|done|]. left. by apply lookup_lt_Some in Hx. }
  by exists x1.
Qed.

(** A file that is no object is what it was as long as it is there. *)
Lemma file_entry cs2 : forall cs1 f j, nodes s0 !! f = Some (NFile j) -> (forall o, is_oid o -> f <> object_path lfs o) ->
  (forall t, went_through y0 (cs1 ++ cs2) t -> is_Some (nodes t !! f)) -> nodes (shared (sys_run cs1 y0)) !! f = Some (NFile j).
Proof using Hsv.
  intros cs1. revert cs2. induction cs1 as [|c cs1 IH] using rev_ind; intros cs2 f j Hj Hf Hall; [done|].
  assert (Hnow : is_Some (nodes (shared (sys_run (cs1 ++ [c]) y0)) !! f)).
  { apply Hall. by exists (cs1 ++ [c]), cs2. }
  rewrite <- app_assoc in Hall. pose proof (IH _ f j Hj Hf Hall) as E.
  pose proof (fine_run H lfs s0 lfs_plain cs1 y0 fine0) as Hg.
  rewrite sys_run_app in *. change (sys_run [c] ?y) with (sys_step y c) in *.
  destruct (step_turned (sys_run cs1 y0) c f Hg) as [?|(e & r & Hin & Ht)]; [congruence|].
  destruct Ht as [E'|j' E1 E2|n E1 E2 E3|a o' n E1 Ho' E2 E3]; [congruence| |congruence|].
  - rewrite E2 in Hnow. by destruct Hnow.
  - destruct (Hf o' Ho'). rewrite object_path_eq. exact E1.
Qed.

Lemma through_shape cs t : went_through y0 cs t -> shape lfs t /\ dirs s0 t.
Proof using Hsv.
  intros (cs1 & cs2 & -> & ->). induction cs1 as [|c cs1 IH] using rev_ind.
  - split; [|apply dirs_refl]. by destruct fine0 as (_ & ? & _).
  - pose proof (fine_run H lfs s0 lfs_plain cs1 y0 fine0) as Hg.
    pose proof (fine_step H lfs s0 lfs_plain _ c Hg) as Hg'. destruct IH as [_ Hd].
    rewrite sys_run_app. change (sys_run [c] ?y) with (sys_step y c). split; [by destruct Hg' as (_ & ? & _)|].
    intros q Hq. apply Hd in Hq.
    destruct (step_turned _ c q Hg) as [?|(e & r & Hin & Ht)]; [congruence|].
    destruct Ht as [E'|j' E1 E2|n E1 E2 E3|a o' n E1 Ho' E2 E3]; try congruence.
    destruct Hg as (_ & Hsh & _). destruct (sh_obj _ _ Hsh o' Ho') as [G _]. rewrite object_path_eq in G. congruence.
Qed.

Lemma uid_same cs j x x1 : inodes s0 !! j = Some x -> inodes (shared (sys_run cs y0)) !! j = Some x1 -> i_uid x1 = i_uid x.
Proof using Hsv.
  intros Hx Hx1. pose proof (fine_moved H lfs s0 cs y0 fine0) as Hm. cbn [shared] in Hm. revert Hm Hx1.
  generalize (shared (sys_run cs y0)). intros s Hm Hx1. clear -Hm Hx Hx1.
  revert x Hx. induction Hm as [z|a b c (_ & _ & i & HG) _ IH]; intros x Hx; [congruence|].
  destruct (gu_ino _ _ _ _ _ _ HG j x Hx) as (x' & Hx' & _ & _ & E & _). rewrite <- E. by apply IH.
Qed.

(** The file systems in which new files are empty. *)
Lemma c98_emptied cs : power_loss y0 cs (emptied n0 (shared (sys_run cs y0))).
Proof using Hsv.
  set (s := shared (sys_run cs y0)).
  assert (Hsh : shape lfs s). { apply (through_shape cs). exists cs, []. by rewrite app_nil_r. }
  split.
  - intros p. exists s. split; [|done]. exists cs, []. by rewrite app_nil_r.
  - intros j x x1 Hx Hx1 E. cbn [shared] in Hx.
    pose proof (uid_same cs j x x1 Hx Hx1) as Hu.
    exists x1. split_and!; [|done|done]. apply lookup_lt_Some in Hx.
    unfold emptied. cbn [inodes]. fold s in Hx1. rewrite lookup_app_l.
    + by rewrite lookup_take.
    + rewrite take_length. apply lookup_lt_Some in Hx1. lia.
  - intros p j Hj. unfold emptied in *. cbn [nodes inodes] in *. apply (sh_sane _ _ Hsh) in Hj.
    rewrite app_length, map_length, take_length, drop_length. lia.
  - intros p c n. apply (sh_tree _ _ Hsh).
Qed.

(** The file systems in which the entries of an earlier time are back. *)
Lemma c98_back cs t : went_through y0 cs t -> power_loss y0 cs (FS (nodes t) (inodes (shared (sys_run cs y0))) []).
Proof using Hsv.
  intros Ht. pose proof (through_shape cs t Ht) as [Hsh _]. split.
  - intros p. by exists t.
  - intros j x x1 Hx Hx1 E. exists x1. cbn [inodes]. split_and!; [done|done|].
    exact (uid_same cs j x x1 Hx Hx1).
  - intros p j Hj. cbn [nodes inodes] in *. apply (sh_sane _ _ Hsh) in Hj.
    destruct Ht as (cs1 & cs2 & -> & ->). rewrite sys_run_app. 
    pose proof (fine_moved H lfs s0 cs2 _ (fine_run H lfs s0 lfs_plain cs1 y0 fine0)) as Hm.
    enough (length (inodes (shared (sys_run cs1 y0))) <= length (inodes (shared (sys_run cs2 (sys_run cs1 y0)))))%nat by lia.
    clear -Hm. induction Hm as [z|a b c (_ & _ & i & HG) _ IH]; [done|]. pose proof (gu_len _ _ _ _ _ _ HG). lia.
  - intros p c n. cbn [nodes]. apply (sh_tree _ _ Hsh).
Qed.

Context (cs : list choice) (s' : fs) (Hpl : power_loss y0 cs s').

Lemma has_owned s f d : has_file s f d <-> exists u, owned_file s f d u.
Proof using Type.
  split.
  - intros (j & x & H1 & H2 & H3). by exists (i_uid x), j, x.
  - intros (u & j & x & H1 & H2 & H3 & _). by exists j, x.
Qed.

Lemma same_entry f d u : nodes s' !! f = nodes s0 !! f -> owned_file s' f d u <-> owned_file s0 f d u.
Proof using Hsv Hpl.
  intros E. split.
  - intros (j & x & H1 & H2 & H3 & H4). rewrite E in H1.
    assert (Hj : (j < n0)%nat). { destruct Hsv as [_ _ Hor _]. by apply (o_sane _ _ Hor f). }
    apply lookup_lt_is_Some in Hj as [x0 H0]. destruct (bytes_same cs j x0 H0) as (x1 & G1 & G2).
    destruct (pl_bytes _ _ _ Hpl j x0 x1 H0 G1 G2) as (x' & G3 & G4 & G5). exists j, x0. split_and!; congruence.
  - intros (j & x & H1 & H2 & H3 & H4). destruct (bytes_same cs j x H2) as (x1 & G1 & G2).
    destruct (pl_bytes _ _ _ Hpl j x x1 H2 G1 G2) as (x' & G3 & G4 & G5). exists j, x'. split_and!; congruence.
Qed.

Lemma c98_objects o d : is_oid o -> ~ replaced lfs y0 cs o ->
  has_file s' (object_path lfs o) d <-> has_file s0 (object_path lfs o) d.
Proof using Hsv Hpl.
  intros Ho Hno. rewrite !has_owned. assert (E : nodes s' !! object_path lfs o = nodes s0 !! object_path lfs o).
  { destruct (pl_entry _ _ _ Hpl (object_path lfs o)) as (t & (cs1 & cs2 & -> & ->) & ->).
    apply (object_entry cs2); [done|]. intros i a Hin. apply Hno. by exists i, a. }
  split; intros [u Hu]; exists u; by apply (same_entry _ _ _ E).
Qed.

Lemma c98_files f d u : (forall o, is_oid o -> f <> object_path lfs o) -> owned_file s0 f d u ->
  (forall t, went_through y0 cs t -> is_Some (nodes t !! f)) -> owned_file s' f d u.
Proof using Hsv Hpl.
  intros Hf Ho Hall. apply same_entry; [|done]. destruct Ho as (j & x & Hj & _). rewrite Hj.
  destruct (pl_entry _ _ _ Hpl f) as (t & (cs1 & cs2 & -> & ->) & ->). by apply (file_entry cs2).
Qed.

Lemma c98_ordinary : ordinary lfs s'.
Proof using Hsv Hpl.
  destruct Hpl as [He _ Hsa Htr]. split; [|done|done| |].
  - intros d a b j Hd E Ha. destruct (He a) as (t & Ht & ->). apply through_shape in Ht as [Ht _]. by eapply sh_way.
  - intros o Ho. split_and!.
    + destruct (He (object_path lfs o)) as (t & Ht & ->). apply through_shape in Ht as [Ht _]. by apply (sh_obj _ _ Ht).
    + intros j. match goal with |- nodes _ !! ?p <> _ => destruct (He p) as (t & Ht & ->) end. apply through_shape in Ht as [Ht _]. by apply (sh_obj _ _ Ht o Ho).
    + intros j. match goal with |- nodes _ !! ?p <> _ => destruct (He p) as (t & Ht & ->) end. apply through_shape in Ht as [Ht _]. by apply (sh_obj _ _ Ht o Ho).
  - intros c n. match goal with |- nodes _ !! ?p = _ -> _ => destruct (He p) as (t & Ht & ->) end. apply through_shape in Ht as [Ht _]. apply (sh_lock _ _ Ht).
Qed.
End power.

Lemma c98_contains H lfs ps s0 cs s' : workers H lfs ps s0 -> power_loss (Sys ps s0) cs s' -> lfs_dirs s0 lfs ->
  exists D, contains lfs s' D.
Proof.
  intros Hsv Hpl Hd. exists (entries lfs s'). pose proof (c98_ordinary H lfs ps s0 Hsv cs s' Hpl) as Ho. apply entries_ok.
  - intros d Hin a b E Ha. pose proof (Hd d Hin a b E Ha) as Hn.
    destruct (pl_entry _ _ _ Hpl a) as (t & Ht & ->). by apply (through_shape H lfs ps s0 Hsv cs t Ht).
  - by apply Hpl.
  - apply Forall_forall. intros c Hc. apply elem_children in Hc as [n Hn]. rewrite <- app_assoc in Hn. by apply (o_lock _ _ Ho c n).
Qed.

Lemma holds_ordinary en lfs s w : digest (en_hash en) -> holds en lfs s w -> ordinary lfs s.
Proof.
  intros HH [W S T O K D L LO]. split; [done..|]. intros c n Hn. destruct (LO c n Hn) as [[[p t] u] E].
  destruct (L c p t u E) as ((j & x & Hj & _) & -> & _). split; [|congruence].
  by apply (lock_id_plain en HH).
Qed.
