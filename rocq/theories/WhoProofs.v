(** Where objects come from: proofs for Props_Who.v. *)
From Verif Require Import Bytes ByteFacts Err FS Prog Pktline Args Local Processor Transfer Wp Rg
  Spec SpecStore SpecServer SpecFrame SpecTalk SpecPerm SpecInput SpecTogether SpecStart SpecRound SpecTruth FsFacts PktFacts ServerEv ReadOnly PktProofs IoFacts TextProofs ObjProofs StoreProofs SeqIo SeqFs SeqCmd Session
  SessionFacts GetProofs TogetherProofs TogetherFacts FaultFacts OddProofs RoundFacts RoundProofs RoundMain TruthProofs SpecWorn WornProofs SpecPrune PruneProofs SpecWho.
From Verif Require SpecOdd.
From Verif Require Import Shape.
From stdpp Require Import relations.

(** ** The calls *)

Definition stays_put (d : done_call) : Prop := match projT1 d with ERename _ _ => False | _ => True end.

Definition done_right (d : done_call) : bool := match d with existT (ERename _ _) (IErr _) => false | _ => true end.

Section calls.
Context (en : env) (lfs : path).
Ltac put := repeat (apply Forall_cons; split; [exact I|]); try apply Forall_nil_2; try assumption.
Lemma looks_put f ds x : looks en f ds x -> Forall stays_put ds.
Proof using Type. intros []; put. Qed.
Lemma looks_for_put p ds x : looks_for en lfs p ds x -> Forall stays_put ds.
Proof using Type. intros []; by eapply looks_put. Qed.
Lemma visits_put is ds ls : visits en lfs is ds ls -> Forall stays_put ds.
Proof using Type. induction 1; [put|apply Forall_app; split; [by eapply looks_put|done]..]. Qed.
Lemma checks_put m items ds ls : checks lfs m items ds ls -> Forall stays_put ds.
Proof using Type. induction 1; put. Qed.
Lemma fetches_put h off ds d : fetches h off ds d -> Forall stays_put ds.
Proof using Type. induction 1; put. Qed.
Lemma drafts_put p ds x : drafts en lfs p ds x -> Forall stays_put ds.
Proof using Type. intros []; put. Qed.
Lemma locking_put p ds a : locking en lfs p ds a -> Forall stays_put ds.
Proof using Type.
  intros []; try by (eapply drafts_put; eassumption).
  - apply Forall_app. split; [by eapply drafts_put|]. put.
  - put.
  - apply Forall_app. split; [by eapply drafts_put|by eapply looks_for_put].
  - apply Forall_app. split; [by eapply drafts_put|by eapply looks_for_put].
Qed.
Lemma listing_put m c n ds a : listing en lfs m c n ds a -> Forall stays_put ds.
Proof using Type. intros []; put. by eapply visits_put. Qed.
Lemma path_listing_put m p c ds a : path_listing en lfs m p c ds a -> Forall stays_put ds.
Proof using Type. intros []; by eapply looks_for_put. Qed.
Lemma unlocking_put f ds a : unlocking en lfs f ds a -> Forall stays_put ds.
Proof using Type. intros []; try (apply Forall_app; split; [|put]); by eapply looks_put. Qed.
Lemma acts_put m r ds a : acts en lfs m r ds a -> Forall stays_put ds.
Proof using Type.
  intros []; put; first [by eapply fetches_put|by eapply checks_put|by eapply locking_put|by eapply path_listing_put|by eapply listing_put].
Qed.
Lemma responds_put m is ds a : responds en lfs m is ds a -> Forall stays_put ds.
Proof using Type. intros []; put; first [by eapply unlocking_put|by eapply acts_put]. Qed.

Lemma put_not ds a b r : Forall stays_put ds -> existT (ERename a b) r ∉ ds.
Proof using Type. intros Hf Hin. rewrite Forall_forall in Hf. by apply (Hf _ Hin). Qed.
Lemma deeds_in tr d : d ∈ deeds tr <-> d ∈ tr /\ is_deed d = true.
Proof using Type. unfold deeds. rewrite !elem_of_list_In. apply List.filter_In. Qed.

(** The round in which an object is put in its place. *)
Lemma round_brings u m old tr new o : round en lfs u m old tr new -> placed lfs o tr ->
  upload_as (en_hash en) o old tr (Reply 200 [] BNone) \/
  exists x, upload_as (en_hash en) o old tr (io_trouble x) /\ no_permissions lfs o tr x.
Proof using Type.
  intros (is & a & qs & H1 & H2 & H3 & H4 & H5) [from Hin].
  assert (Hd : existT (ERename from (object_path lfs o)) (IOk tt) ∈ deeds tr) by (by apply deeds_in).
  destruct H5 as [[H5 _]|[_ H5]]; [exfalso; revert Hd; apply put_not; by eapply responds_put|].
  inversion H5 as [| | | |b ws o' is1 is2 kvs v n ds a' new' Hs Hn Ho Hp Ha Hk Hv Hst E1 E2 E3 E4]; clear H5; subst;
    try match goal with E : [] = deeds tr |- _ => rewrite <- E in Hd; by apply elem_of_nil in Hd end.
  assert (Hnw : forall fd cs, existT (ERename from (object_path lfs o)) (IOk tt) ∉ written fd cs).
  { intros fd cs. apply put_not. unfold written. apply Forall_map, Forall_true. intros c. exact I. }
  inversion Hst as [x E1 E2|ds' tmp fd cs c x r nw Hc E1 E2|ds' tmp fd cs i r Hc Hi E1 E2|ds' e tmp fd cs ds'' a' He Hc Hf E1 E2]; clear Hst; subst.
  - match goal with E : _ = deeds tr |- _ => rewrite <- E in Hd end. by apply elem_of_list_singleton in Hd.
  - match goal with E : _ = deeds tr |- _ => rewrite <- E in Hd end.
    rewrite elem_of_cons, elem_of_app, !elem_of_cons, elem_of_nil in Hd. destruct Hd as [?|[Hd|[?|[?|[]]]]]; try done. by apply Hnw in Hd.
  - match goal with E : _ = deeds tr |- _ => rewrite <- E in Hd end.
    rewrite elem_of_cons, elem_of_app, elem_of_list_singleton in Hd. destruct Hd as [?|[Hd|?]]; try done. by apply Hnw in Hd.
  - match goal with E : _ = deeds tr |- _ => rename E into Et end. pose proof Hd as Hd'. rewrite <- Et in Hd.
    rewrite elem_of_cons, elem_of_app in Hd. destruct Hd as [?|[Hd|Hd]]; [done|by apply Hnw in Hd|].
    assert (Hsub : forall d, d ∈ ds'' -> d ∈ tr).
    { intros d Hdd. assert (G : d ∈ deeds tr) by (rewrite <- Et; rewrite elem_of_cons, elem_of_app; auto). by apply deeds_in in G as [G _]. }
    assert (Hup : n = lenN (old ++ concat ds') -> hex_of (en_hash en (old ++ concat ds')) o' -> o' = o -> upload_as (en_hash en) o old tr a).
    { intros -> Hx ->. exists b, ws, is1, kvs, v, ds', e, qs. by split_and!. }
    assert (Hob : forall t f, existT (ERename from (object_path lfs o)) (IOk tt) = existT (ERename f (object_path lfs t)) (IOk tt) :> done_call -> t = o).
    { intros t f [=  _ E]. by apply expected_path_inj in E. }
    inversion Hf; clear Hf; subst; rewrite ?elem_of_cons, ?elem_of_nil in Hd;
      try (by destruct_or! Hd).
    + exfalso. destruct_or! Hd; try done. apply (f_equal done_right) in Hd. done.
    + assert (o' = o) as E by (destruct_or! Hd; try done; eapply Hob; eassumption). right. eexists. split; [by apply Hup|]. subst. left. apply Hsub. right; right; left.
    + assert (o' = o) as E by (destruct_or! Hd; try done; eapply Hob; eassumption). right. eexists. split; [by apply Hup|]. subst. right. eexists. apply Hsub. right; right; right; left.
    + assert (o' = o) as E by (destruct_or! Hd; try done; eapply Hob; eassumption). left. by apply Hup.
Qed.

Lemma round_leaves u m old tr new : round en lfs u m old tr new -> new = [] \/ old = new \/ broken_write tr.
Proof using Type.
  intros (is & a & qs & _ & _ & _ & _ & [[_ ->]|[_ Hu]]); [auto|].
  inversion Hu as [| | | |b ws o' is1 is2 kvs v n ds a' new' _ _ _ _ _ _ _ Hst E1 E2 E3 E4]; clear Hu; subst; auto.
  inversion Hst as [x E1 E2|ds' tmp fd cs c x r nw Hc E1 E2|ds' tmp fd cs i r Hc Hi E1 E2|ds' e tmp fd cs ds'' a' He Hc Hf E1 E2]; clear Hst; subst; auto.
  right; right. exists fd, c, x.
  assert (G : existT (EWriteFd fd c) (IErr x) ∈ deeds tr) by (rewrite <- E2; right; apply elem_of_app; right; left).
  by apply deeds_in in G as [G _].
Qed.
Lemma broken_app_l t t' : broken_write t -> broken_write (t ++ t').
Proof using Type. intros (fd & c & x & G). exists fd, c, x. apply elem_of_app. by left. Qed.
Lemma broken_app_r t t' : broken_write t' -> broken_write (t ++ t').
Proof using Type. intros (fd & c & x & G). exists fd, c, x. apply elem_of_app. by right. Qed.

Lemma rounds_bring u m old body new o pre : rounds en lfs u m old body new -> old = [] \/ broken_write pre -> placed lfs o body ->
  exists old' t1 t t2, body = t1 ++ t ++ t2 /\ placed lfs o t /\ (old' = [] \/ broken_write (pre ++ t1)) /\
    (upload_as (en_hash en) o old' t (Reply 200 [] BNone) \/ exists x, upload_as (en_hash en) o old' t (io_trouble x) /\ no_permissions lfs o t x).
Proof using Type.
  intros Hr. revert pre. induction Hr as [|old tr mid tr' new Hr _ IH]; intros pre Hold [a Ha]; [by apply elem_of_nil in Ha|].
  apply elem_of_app in Ha as [Ha|Ha].
  - assert (Hp : placed lfs o tr) by (by exists a). exists old, [], tr, tr'. rewrite app_nil_r. split_and!; [done|done|done|by eapply round_brings].
  - destruct (IH (pre ++ tr)) as (old' & t1 & t & t2 & -> & Hp & Hl & G).
    + destruct (round_leaves _ _ _ _ _ Hr) as [->|[<-|Hb]]; [by left| |right; by apply broken_app_r].
      destruct Hold as [?|?]; [by left|right; by apply broken_app_l].
    + by exists a.
    + exists old', (tr ++ t1), t, t2. split_and!; [by rewrite <- app_assoc|done|by rewrite app_assoc|done].
Qed.

Lemma who_calls fuel v m tr x o : digest (en_hash en) -> exact tr ->
  calls (transfer_main en fuel lfs (GOk (libgit2 v)) (operation m)) tr x -> placed lfs o tr -> m = Upload /\ brought (en_hash en) lfs o tr.
Proof using Type.
  intros HH He Hc [a Ha]. split.
  { destruct m; [done|]. exfalso. pose proof (calls_all_ev _ _ _ _ (ev_download_main en fuel lfs _) Hc) as F.
    rewrite Forall_forall in F. by destruct (F _ Ha) as [?|(? & _ & ?)]. }
  destruct (c_session en fuel lfs v m tr x HH He Hc) as [[G _]|(um & u & body & rest & new & -> & Hm & Hr & Hf & _)].
  { by apply G in Ha. }
  rewrite !elem_of_app in Ha. destruct Ha as [Ha|[Ha|[Ha|Ha]]].
  - exfalso. unfold masks in Hm. destruct (asked v) as [n|]; [destruct Hm as (_ & r & ->)|destruct Hm as (r & ->)];
      rewrite ?elem_of_cons, ?elem_of_nil in Ha; by destruct_or! Ha.
  - exfalso. revert Ha. apply put_not. repeat (apply Forall_cons; split; [exact I|]). apply Forall_nil_2.
  - destruct (rounds_bring _ _ _ _ _ o (um ++ announced lfs) Hr) as (old' & t1 & t & t2 & -> & Hp & Hl & [G|(y & G & Gx)]); [by left|by exists a|..].
    all: rewrite <- app_assoc in Hl.
    + apply (br_stored _ _ _ _ old' (um ++ announced lfs ++ t1) t (t2 ++ rest)); [by rewrite <- !app_assoc|done|done|done].
    + apply (br_mode _ _ _ _ old' (um ++ announced lfs ++ t1) t (t2 ++ rest) y); [by rewrite <- !app_assoc|done|done|done|done].
  - destruct Hf as [Hf|(? & ? & ? & _ & _ & _ & _ & _ & _ & Hd)].
    + apply (br_open _ _ _ _ (um ++ announced lfs ++ body) rest); [by rewrite <- !app_assoc|by exists a|done].
    + exfalso. assert (G : existT (ERename a (object_path lfs o)) (IOk tt) ∈ deeds rest) by (by apply deeds_in). rewrite Hd in G. by apply elem_of_nil in G.
Qed.
End calls.

(** ** The files *)
Section files.
Context (H : bytes -> bytes) (lfs : path) (ps : list (proc (Z * bytes))) (s0 : fs).
Context (Hlfs : Forall plain_name lfs).
Local Existing Instance may_be.
Local Existing Instance these.
Local Notation n0 := (length (inodes s0)).
Local Notation Gua := (Guar lfs n0 any_oid).
Local Notation INV := (Inv H lfs n0).
Local Notation Hst := (plain_stays_all lfs Hlfs).
Local Notation obj o := (expected_path lfs o).
Implicit Types y : sys (Z * bytes).

(** The one call that puts another file there. *)
Lemma place_step i e o l s ob j : shapely lfs e -> nodes (handle_ev i e o l s).2 !! obj ob = Some (NFile j) ->
  nodes s !! obj ob = Some (NFile j) \/
  exists a, existT e (handle_ev i e o l s).1.1 = existT (ERename a (object_path lfs ob)) (IOk tt) :> done_call.
Proof using Hlfs.
  intros He Hn.
  assert (Hq : quiet e -> nodes s !! obj ob = Some (NFile j)).
  { intros Hq. destruct (quiet_same i e o l s Hq) as [E _]. congruence. }
  destruct e; try (left; by apply Hq); clear Hq; revert Hn; cbn [handle_ev]; unfold faulty, with_l; cbn [fst snd].
  - destruct (o_fault o); [by left|]. unfold fs_mkdir_all. destruct (fs_mkdirs s [] p) as [x|s'] eqn:E; [by left|].
    apply mkdirs_spec in E as (_ & _ & M & _). cbn [fst snd]. intros Hn. left. destruct (M (obj ob)) as [G|(_ & G & _)]; congruence.
  - destruct (o_fault o); [by left|]. simpl in He. subst dir. unfold fs_mktemp. destruct (resolve s _) as [x|d] eqn:E; [by left|].
    apply resolve_stays in E as ->; [|by apply inc_stays, Hst].
    destruct (node_at s _) as [[|k]|]; [|by left..]. simpl. rewrite lookup_insert_ne by apply inc_obj. by left.
  - assert (G : forall b', nodes (fs_write i0 b' s).2 = nodes s) by (intros b'; unfold fs_write; by destruct (inode_at s i0)).
    destruct (o_fault o); cbn [fst snd]; rewrite G; by left.
  - destruct (o_fault o); [by left|]. destruct He as (o' & Ho & ->). unfold fs_rename.
    destruct (file_at s a) as [x|[qa k]] eqn:Ea; [by left|].
    destruct (resolve s (obj o')) as [x|qb] eqn:Eb; [by left|].
    apply resolve_stays in Eb as ->; [|by apply obj_stays; [apply Hst|]].
    destruct (node_at s (obj o')) as [[|k']|]; [by left|..]; cbn [fst snd nodes set_nodes]; intros Hn;
      (apply lookup_insert_Some in Hn as [[E _]|[_ Hn]]; [right; exists a; apply expected_path_inj in E as ->; reflexivity|left; by apply lookup_delete_Some in Hn as [_ Hn]]).
  - destruct (o_fault o); [by left|]. unfold fs_unlink. destruct (file_at s p) as [x|[q k]]; [by left|]. simpl.
    intros [_ Hn]%lookup_delete_Some. by left.
  - destruct (o_fault o); [by left|]. simpl in He. unfold fs_link. destruct (file_at s a) as [x|[qa k]]; [by left|].
    destruct (resolve s b) as [x|qb] eqn:Eb; [by left|].
    apply resolve_stays in Eb as ->; [|by apply (lockname_stays lfs Hst)]. destruct He as (c & Hc & ->).
    destruct (node_at s _); [by left|]. simpl. rewrite lookup_insert_ne by apply lock_obj. by left.
  - destruct (o_fault o); [by left|]. simpl in He. unfold fs_create_new. destruct (resolve s p) as [x|q] eqn:Eb; [by left|].
    apply resolve_stays in Eb as ->; [|by apply (lockname_stays lfs Hst)]. destruct He as (c & Hc & ->).
    destruct (node_at s _); [by left|]. simpl. rewrite lookup_insert_ne by apply lock_obj. by left.
  - destruct (o_fault o); [by left|]. unfold fs_chmod. destruct (resolve s p) as [x|q]; [by left|].
    destruct (node_at s q) as [[|k]|]; by left.
Qed.

Lemma step_whence y c o d : fine H lfs ps s0 y -> is_oid o -> has_file (shared (sys_step y c)) (object_path lfs o) d ->
  has_file (shared y) (object_path lfs o) d \/ exists i, placed lfs o (made i y c).
Proof using Hlfs.
  intros Hy Ho Hf. pose proof (fine_step H lfs ps s0 Hlfs y c Hy) as Hy'. pose proof (fine_inv _ _ _ _ _ Hy') as HI'.
  pose proof (fine_moved H lfs ps s0 [c] y Hy) as Hm. cbn [sys_run fold_left] in Hm. unfold sys_run in Hm. cbn [fold_left] in Hm.
  destruct Hy as ([HI Hs] & _ & Hev & _).
  assert (Hsame : forall j, nodes (shared (sys_step y c)) !! obj o = Some (NFile j) -> nodes (shared y) !! obj o = Some (NFile j) ->
    has_file (shared y) (object_path lfs o) d).
  { intros j Hj' Hj. destruct (inv_file _ _ _ _ HI o j Ho Hj) as (x & Hx & _).
    assert (Hf0 : has_file (shared y) (object_path lfs o) (i_data x)) by (exists j, x; by rewrite object_path_eq).
    destruct (has_frozen H lfs s0 _ o _ HI Ho Hf0) as (j1 & Hj1 & Hfr). assert (j1 = j) as -> by congruence.
    destruct (moved_frozen H lfs ps s0 _ _ _ _ Hm Hfr) as (x' & Hx' & Ed & _).
    destruct Hf as (j2 & x2 & Hj2 & Hx2 & Hd2). rewrite object_path_eq in Hj2. assert (j2 = j) as -> by congruence.
    assert (d = i_data x) as -> by congruence. done. }
  pose proof Hf as (j & x & Hj & _). rewrite object_path_eq in Hj.
  destruct c as [i a]. unfold sys_step in Hj, Hsame. cbn [c_pid c_act] in Hj, Hsame.
  destruct (procs y !! i) as [[q l dd]|] eqn:Ei; [|left; by eapply Hsame].
  unfold proc_step in Hj, Hsame. cbn [pr_dead pr_prog pr_local] in Hj, Hsame.
  destruct dd; [left; by eapply Hsame|]. destruct a as [or|]; [|left; by eapply Hsame].
  destruct q as [x0|f|e k]; [left; by eapply Hsame..|].
  destruct (Hev _ _ Ei) as [[He _] _].
  pose proof (place_step i e or l (shared y) o j He) as G.
  assert (Em : made i y (Choice i (AGo or)) = [existT e (handle_ev i e or l (shared y)).1.1]).
  { unfold made. cbn [c_pid c_act]. rewrite decide_True by done. by rewrite Ei. }
  destruct (handle_ev i e or l (shared y)) as [[r l'] s'] eqn:Eh. cbn [fst snd shared] in *.
  destruct (G Hj) as [G'|(from & G')]; [left; by eapply Hsame|right].
  exists i, from. rewrite Em, G'. by left.
Qed.
Lemma run_whence cs o d : is_oid o -> forall y, fine H lfs ps s0 y -> has_file (shared (sys_run cs y)) (object_path lfs o) d ->
  has_file (shared y) (object_path lfs o) d \/ exists i, placed lfs o (history i cs y).
Proof using Hlfs.
  intros Ho. induction cs as [|c cs IH]; intros y Hy Hf; [by left|].
  destruct (IH _ (fine_step H lfs ps s0 Hlfs y c Hy) Hf) as [Hf'|(i & a & Ha)].
  - destruct (step_whence y c o d Hy Ho Hf') as [?|(i & a & Ha)]; [by left|right]. exists i, a. cbn [history]. apply elem_of_app. by left.
  - right. exists i, a. cbn [history]. apply elem_of_app. by right.
Qed.
End files.

Lemma history_none i cs : forall y : sys (Z * bytes), procs y !! i = None -> history i cs y = [].
Proof.
  induction cs as [|c cs IH]; intros y Hy; [done|]. cbn [history]. rewrite IH.
  - unfold made. destruct (c_act c); [|done]. destruct (decide _); [|done]. by rewrite Hy.
  - unfold sys_step. destruct (procs y !! c_pid c) as [q|] eqn:E; [|done]. destruct (proc_step _ _ _ _) as [? ?]. simpl.
    rewrite list_lookup_insert_ne; [done|]. congruence.
Qed.

Lemma c103_whence H lfs ps s0 cs1 cs2 o d : company H lfs ps s0 -> is_oid o ->
  let y1 := sys_run cs1 (Sys ps s0) in
  has_file (shared (sys_run cs2 y1)) (object_path lfs o) d ->
  has_file (shared y1) (object_path lfs o) d \/ exists i, placed lfs o (history i cs2 y1).
Proof.
  intros Hsv Ho y1. pose proof Hsv as [_ Hlfs _ _].
  pose proof (fine_start (Env H (fun _ => None) (fun _ => None) 0) lfs ps s0 Hsv) as Hy. cbn [en_hash] in Hy.
  apply (run_whence H lfs ps s0 Hlfs cs2 o d Ho). by apply fine_run.
Qed.

Lemma c103 H lfs ps s0 cs o d : crowd H lfs ps s0 -> is_oid o ->
  has_file (shared (sys_run cs (Sys ps s0))) (object_path lfs o) d ->
  has_file s0 (object_path lfs o) d \/
  exists i p, ps !! i = Some p /\ serves H lfs Upload p /\ brought H lfs o (history i cs (Sys ps s0)).
Proof.
  intros [Hsv Hall] Ho Hf. destruct (c103_whence H lfs ps s0 [] cs o d Hsv Ho Hf) as [?|(i & Hp)]; [by left|right].
  destruct (ps !! i) as [p|] eqn:Ei.
  2: { exfalso. destruct Hp as [a Ha]. by rewrite history_none in Ha; [apply elem_of_nil in Ha|]. }
  pose proof (history_calls i cs (Sys ps s0) p Ei) as Hc.
  rewrite Forall_lookup in Hall. destruct (Hall i p Ei) as [(m & en & fuel & v & <- & Ep)|Hpr].
  - rewrite Ep in Hc. destruct (who_calls en lfs fuel v m _ _ o (co_digest _ _ _ _ Hsv) (history_exact i cs _) Hc Hp) as [-> G].
    exists i, p. split_and!; [done| |done]. by exists en, fuel, v.
  - exfalso. destruct Hp as [a Ha]. by apply (Hpr _ _ Hc) in Ha.
Qed.

Lemma c103_fetchers H lfs ps s0 cs1 cs2 o d : company H lfs ps s0 ->
  Forall (fun p => serves H lfs Download p \/ is_pruner lfs (pr_prog p)) ps -> is_oid o ->
  let y1 := sys_run cs1 (Sys ps s0) in
  has_file (shared (sys_run cs2 y1)) (object_path lfs o) d -> has_file (shared y1) (object_path lfs o) d.
Proof.
  intros Hsv Hall Ho y1 Hf. destruct (c103_whence H lfs ps s0 cs1 cs2 o d Hsv Ho Hf) as [?|(i & Hp)]; [done|exfalso].
  assert (Hp' : placed lfs o (history i (cs1 ++ cs2) (Sys ps s0))).
  { destruct Hp as [a Ha]. exists a. rewrite history_app. apply elem_of_app. by right. }
  destruct (ps !! i) as [p|] eqn:Ei.
  2: { destruct Hp' as [a Ha]. by rewrite history_none in Ha; [apply elem_of_nil in Ha|]. }
  pose proof (history_calls i (cs1 ++ cs2) (Sys ps s0) p Ei) as Hc.
  rewrite Forall_lookup in Hall. destruct (Hall i p Ei) as [(en & fuel & v & <- & Ep)|Hpr].
  - rewrite Ep in Hc. by destruct (who_calls en lfs fuel v Download _ _ o (co_digest _ _ _ _ Hsv) (history_exact i _ _) Hc Hp').
  - destruct Hp' as [a Ha]. by apply (Hpr _ _ Hc) in Ha.
Qed.
