(** Objects removed while servers work: proofs for Props_Prune.v. *)
From Verif Require Import Bytes ByteFacts Err FS Prog Pktline Args Local Processor Transfer Wp Rg
  Spec SpecStore SpecServer SpecFrame SpecTalk SpecPerm SpecInput SpecTogether SpecStart SpecRound SpecTruth FsFacts PktFacts ServerEv PktProofs IoFacts TextProofs ObjProofs StoreProofs SeqIo SeqFs SeqCmd Session
  SessionFacts GetProofs TogetherProofs TogetherFacts FaultFacts OddProofs RoundFacts RoundProofs RoundMain TruthProofs SpecWorn WornProofs SpecPrune.
From Verif Require SpecOdd.
From Verif Require Import Shape.
From stdpp Require Import relations.

Local Existing Instance may_be.
Definition pruners (lfs : path) (ps : list (proc (Z * bytes))) : pruning :=
  fun i => exists p, ps !! i = Some p /\ is_pruner lfs (pr_prog p).

(** ** Programs that remove objects *)
Lemma some_answer e : exists r : resp e, sensible e r.
Proof.
  destruct e; cbn [resp sensible];
    first [by exists (IErr (IoErr KInvalidData [])) | by exists 0%Z | by exists 0%N | by exists tt].
Qed.
Lemma pruner_ev lfs p : is_pruner lfs p -> all_ev (prunes lfs) p.
Proof.
  unfold is_pruner. induction p as [a|f|e k IH]; intros Hp; [done|done|]. split.
  - destruct (some_answer e) as [r Hr]. apply (Hp [existT e r] None) with (r := r); [|by left].
    exists r. split_and!; [done|done|]. destruct (k r); simpl; auto.
  - intros r Hr. apply IH. intros tr x Hc e' r' Hin. apply (Hp (existT e r :: tr) x) with (r := r'); [|by right].
    exists r. by split_and!.
Qed.
Lemma prunes_shapely lfs e : prunes lfs e -> shapely lfs e.
Proof. by destruct e. Qed.

Section prune.
Context (H : bytes -> bytes) (lfs : path) (ps : list (proc (Z * bytes))) (s0 : fs).
Context (HH : digest H) (Hlfs : Forall plain_name lfs).
Local Instance these : pruning := pruners lfs ps.
Local Notation n0 := (length (inodes s0)).
Local Notation Rel := (Rely H lfs n0 any_oid).
Local Notation Gua := (Guar lfs n0 any_oid).
Local Notation INV := (Inv H lfs n0).
Implicit Types y : sys (Z * bytes).
Local Notation Hst := (plain_stays_all lfs Hlfs).
Local Notation obj o := (expected_path lfs o).

Lemma file_obj s o q i : is_oid o -> file_at s (obj o) = inr (q, i) -> q = obj o /\ nodes s !! obj o = Some (NFile i).
Proof using Hlfs.
  intros Ho. pose proof (obj_stays lfs Hst o Ho) as Hs. revert Hs. unfold expected_path.
  change [bs "objects"; slice 0 2 o; slice 2 4 o; o] with ([bs "objects"; slice 0 2 o; slice 2 4 o] ++ [o]).
  rewrite app_assoc. apply file_at_stays.
Qed.

(** Removing an object. *)
Lemma unlink_ok pid o s : prn pid -> is_oid o -> INV s ->
  let s' := (fs_unlink pid (obj o) s).2 in INV s' /\ Gua pid s s'.
Proof using Hlfs.
  intros Hp Ho HI. unfold fs_unlink. destruct (file_at s (obj o)) as [e|[q i]] eqn:E.
  { destruct (same_ok H lfs n0 any_oid s s) as [H1 H2]; [done|done|]. by split. }
  apply file_obj in E as [-> En]; [|done]. simpl.
  assert (Hsub : forall p j, delete (obj o) (nodes s) !! p = Some (NFile j) -> nodes s !! p = Some (NFile j)).
  { intros p j. rewrite lookup_delete_Some. naive_solver. }
  assert (Hinc : forall c, delete (obj o) (nodes s) !! ((lfs ++ [bs "incomplete"]) ++ [c]) = nodes s !! ((lfs ++ [bs "incomplete"]) ++ [c])).
  { intros c. apply lookup_delete_ne. intros Ex. symmetry in Ex. by apply inc_obj in Ex. }
  split.
  - split; simpl.
    + intros ob j Hob Hj%Hsub. by apply (inv_file H lfs n0 s).
    + intros p j Hj%Hsub. by eapply (inv_ref H lfs n0 s HI).
    + intros p q j y Hp'%Hsub Hq%Hsub. by eapply (inv_one H lfs n0 s HI).
    + intros d j y Hd'%Hsub. by eapply (inv_lock H lfs n0 s HI).
    + apply HI.
  - split; simpl; try done.
    + intros j y Hy. exists y. split_and!; auto.
    + intros c j y Hc _ _. by rewrite Hinc.
    + intros c j. by rewrite Hinc.
    + intros o'. destruct (decide (obj o' = obj o)) as [->|Hne].
      * right. right. right. split_and!; [done|by exists i|apply lookup_delete].
      * left. by rewrite lookup_delete_ne.
    + intros o' j Hj%Hsub. by left.
Qed.
Lemma rg_pruner pid (p : prog (Z * bytes)) : prn pid -> all_ev (prunes lfs) p -> forall l s,
  rg pid (Rel pid) (Gua pid) INV p (fun _ _ _ => True) l s.
Proof using Hlfs.
  intros Hp. induction p as [a|f|e k IH]; intros Hev l s; [done|done|]. destruct Hev as [He Hk].
  apply rg_vis. intros s1 o HR HI.
  assert (G : INV (handle_ev pid e o l s1).2 /\ Gua pid s1 (handle_ev pid e o l s1).2).
  { assert (Hq : easy lfs e -> INV (handle_ev pid e o l s1).2 /\ Gua pid s1 (handle_ev pid e o l s1).2).
    { intros Hz. destruct (easy_ok H lfs n0 any_oid Hst pid e o l s1 Hz HI) as [? HG]. split; [done|]. apply HG. }
    destruct e; try (by apply Hq); try (by destruct He).
    destruct He as (ob & Hob & ->). simpl. unfold faulty, with_l. rewrite object_path_eq. destruct (o_fault o).
    - destruct (same_ok H lfs n0 any_oid s1 s1) as [H1 H2]; [done|done|]. by split.
    - pose proof (unlink_ok pid ob s1 Hp Hob HI) as G. by destruct (fs_unlink pid (obj ob) s1). }
  pose proof (handle_resp_ok pid e o l s1) as Hr. destruct (handle_ev pid e o l s1) as [[r l'] s2]. simpl in G, Hr.
  destruct G. split_and!; [done|done|]. apply IH. by apply Hk.
Qed.

(** The one call that takes an object away. *)
Lemma prune_step i e o l s ob j : prunes lfs e -> nodes s !! obj ob = Some (NFile j) -> nodes (handle_ev i e o l s).2 !! obj ob = None ->
  existT e (handle_ev i e o l s).1.1 = existT (EUnlink (object_path lfs ob)) (IOk tt) :> done_call.
Proof using Hlfs.
  intros He Hj Hn.
  assert (Hq : quiet e -> False).
  { intros Hq. destruct (quiet_same i e o l s Hq) as [E _]. congruence. }
  destruct e; try (by destruct Hq); try (by destruct He).
  destruct He as (o' & Ho' & ->). clear Hq. revert Hn. simpl. unfold faulty, with_l.
  destruct (o_fault o); [intros; simpl in *; congruence|]. unfold fs_unlink.
  change (object_path lfs o') with (obj o'). destruct (file_at s (obj o')) as [x|[q k]] eqn:E; [intros; simpl in *; congruence|].
  apply file_obj in E as [-> En]; [|done]. simpl.
  destruct (decide (obj o' = obj ob)) as [E|Hne].
  - intros _. apply expected_path_inj in E as ->. done.
  - rewrite lookup_delete_ne by done. congruence.
Qed.

Definition fine (y : sys (Z * bytes)) : Prop :=
  sys_ok Rel Gua INV (fun _ _ _ _ => True) y /\ shape lfs (shared y) /\
  (forall j p, procs y !! j = Some p -> all_ev (shapely lfs) (pr_prog p) /\ (prn j -> all_ev (prunes lfs) (pr_prog p))) /\
  rtc (moved Gua INV) s0 (shared y).

Lemma fine_step y c : fine y -> fine (sys_step y c).
Proof using Hlfs.
  intros (Hs & Hsh & Hev & Hm). split.
  { by apply (sys_step_sound Rel Gua INV (fun _ _ _ _ => True) (rely_refl H lfs n0 any_oid) (rely_trans H lfs n0 any_oid) (guar_rely H lfs n0 any_oid)). }
  apply and_assoc. split.
  2: { etrans; [exact Hm|]. by apply (sys_step_sound Rel Gua INV (fun _ _ _ _ => True) (rely_refl H lfs n0 any_oid) (rely_trans H lfs n0 any_oid) (guar_rely H lfs n0 any_oid)). }
  destruct c as [j a]. unfold sys_step. cbn [c_pid c_act]. destruct (procs y !! j) as [[q l d]|] eqn:Ej; [|done].
  unfold proc_step. cbn [pr_dead pr_prog pr_local].
  assert (Hsame : forall d', shape lfs (shared (Sys (<[j := Proc q l d']> (procs y)) (shared y))) /\
    forall j' p, procs (Sys (<[j := Proc q l d']> (procs y)) (shared y)) !! j' = Some p ->
      all_ev (shapely lfs) (pr_prog p) /\ (prn j' -> all_ev (prunes lfs) (pr_prog p))).
  { intros d'. cbn [shared procs]. split; [done|]. intros j' p. rewrite list_lookup_insert_Some.
    intros [(-> & <- & _)|[_ G]]; [|by eapply Hev]. by apply (Hev j' (Proc q l d)). }
  destruct d; [apply Hsame|]. destruct a as [o|]; [|apply Hsame]. destruct q as [x|f|e k]; [apply Hsame|apply Hsame|].
  pose proof (Hev _ _ Ej) as [[He Hk] Hpr]. cbn [pr_prog] in He, Hk, Hpr.
  destruct (shapely_ok lfs Hst j e o l (shared y) He Hsh) as [Hsh' _].
  pose proof (handle_resp_ok j e o l (shared y)) as Hrok.
  destruct (handle_ev j e o l (shared y)) as [[r l'] s']. cbn [fst snd shared procs] in *. split; [done|].
  intros j' p. rewrite list_lookup_insert_Some. intros [(-> & <- & _)|[_ G]]; [|by eapply Hev].
  split; [by apply Hk|]. intros Hp. destruct (Hpr Hp) as [_ G]. by apply G.
Qed.
Lemma fine_run cs : forall y, fine y -> fine (sys_run cs y).
Proof using Hlfs. induction cs as [|c cs IH]; intros y Hy; [done|]. apply IH. by apply fine_step. Qed.
Lemma fine_moved cs y : fine y -> rtc (moved Gua INV) (shared y) (shared (sys_run cs y)).
Proof using Type.
  intros [Hs _]. by destruct (sys_run_sound Rel Gua INV (fun _ _ _ _ => True) (rely_refl H lfs n0 any_oid) (rely_trans H lfs n0 any_oid) (guar_rely H lfs n0 any_oid) cs y Hs).
Qed.
Lemma fine_inv y : fine y -> INV (shared y).
Proof using Type. by intros [[G _] _]. Qed.

(** What nobody changes. *)
Lemma moved_frozen s s' j d : rtc (moved Gua INV) s s' -> frozen lfs n0 j d s -> frozen lfs n0 j d s'.
Proof using Type.
  induction 1 as [|a b c (Ia & Ib & i & HG) _ IH]; [done|]. intros (x & Hx & Hd & Hf). apply IH.
  destruct (gu_ino _ _ _ _ _ _ HG j x Hx) as (x' & Hx' & E1 & E2 & E3 & E4). exists x'.
  split_and!; [done| |].
  - destruct E4 as [->|(Hn & _ & Hc)]; [done|]. destruct Hf as [Hf|[Ht Hf]]; [lia|].
    destruct (Hc Ht) as [c' Hc']. by destruct (Hf c').
  - destruct Hf as [Hf|[Ht Hf]]; [by left|right]. split; [congruence|].
    intros c' Hc. apply (Hf c'). apply (gu_new _ _ _ _ _ _ HG c' j Hc). by apply lookup_lt_Some in Hx.
Qed.
Lemma frozen_stays cs y j d : fine y -> frozen lfs n0 j d (shared y) -> frozen lfs n0 j d (shared (sys_run cs y)).
Proof using Type. intros Hy. apply moved_frozen. by apply fine_moved. Qed.
Lemma moved_back s s' o j : rtc (moved Gua INV) s s' -> nodes s' !! obj o = Some (NFile j) ->
  nodes s !! obj o = Some (NFile j) \/ (n0 <= j)%nat.
Proof using Type.
  induction 1 as [|a b c (Ia & Ib & i & HG) _ IH]; [by left|]. intros Hj.
  destruct (IH Hj) as [Hb|?]; [|by right]. exact (gu_back _ _ _ _ _ _ HG o j Hb).
Qed.
Lemma moved_upload s s' c j : rtc (moved Gua INV) s s' -> nodes s !! (lfs ++ [bs "incomplete"] ++ [c]) = None ->
  nodes s' !! (lfs ++ [bs "incomplete"] ++ [c]) = Some (NFile j) -> (length (inodes s) <= j)%nat.
Proof using Type.
  rewrite app_assoc. intros Hm Hn. revert j. revert s' Hm.
  apply (rtc_ind_r (fun s' => forall j, nodes s' !! ((lfs ++ [bs "incomplete"]) ++ [c]) = Some (NFile j) -> (length (inodes s) <= j)%nat)); [congruence|].
  intros a b Hm (Ia & Ib & i & HG) IH j Hj. destruct (decide (length (inodes s) <= j)%nat) as [?|Hlt]; [done|]. apply IH.
  apply (gu_new _ _ _ _ _ _ HG c j Hj).
  assert (G : forall u v, rtc (moved Gua INV) u v -> (length (inodes u) <= length (inodes v))%nat).
  { induction 1 as [|u v w (_ & _ & i' & HG') _ IH']; [done|]. pose proof (gu_len _ _ _ _ _ _ HG'). lia. }
  pose proof (G _ _ Hm). lia.
Qed.
Lemma moved_whence s s' o d : rtc (moved Gua INV) s s' -> INV s -> INV s' -> is_oid o -> has_file s' (object_path lfs o) d ->
  hex_of (H d) o \/ has_file s (object_path lfs o) d.
Proof using Type.
  intros Hm HI HI' Ho (j & x & Hj & Hx & Hd). rewrite object_path_eq in Hj.
  destruct (inv_file _ _ _ _ HI' o j Ho Hj) as (x' & Hx' & E & _). assert (x' = x) as -> by congruence.
  destruct E as [E|[_ Hlt]]; [left; apply hex_of_iff; congruence|right].
  destruct (moved_back s s' o j Hm Hj) as [Hb|?]; [|lia].
  destruct (worn_frozen H lfs s0 s o j HI Ho Hb) as (d2 & Hfr). pose proof (moved_frozen _ _ _ _ Hm Hfr) as (x3 & Hx3 & Hd3 & _).
  destruct Hfr as (x2 & Hx2 & Hd2 & _). exists j, x2. rewrite object_path_eq. split_and!; congruence.
Qed.
Lemma fine_first y : fine y -> INV s0.
Proof using Type.
  intros Hy. pose proof Hy as (_ & _ & _ & Hm). apply rtc_inv in Hm as [E|(s & (? & _) & _)]; [|done].
  pose proof (fine_inv y Hy) as G. by rewrite <- E in G.
Qed.

(** ** An object stays, or one of these programs removes it *)
Lemma guar_object i s s' o d : INV s -> INV s' -> Gua i s s' -> is_oid o -> has_file s (object_path lfs o) d ->
  (exists d', has_file s' (object_path lfs o) d' /\ (d' = d \/ hex_of (H d') o)) \/
  prn i /\ (exists j, nodes s !! obj o = Some (NFile j)) /\ nodes s' !! obj o = None.
Proof using Type.
  intros HI HI' HG Ho Hf. destruct (has_frozen H lfs s0 s o d HI Ho Hf) as (j & Hj & Hfr).
  assert (Hm : rtc (moved Gua INV) s s') by (apply rtc_once; split_and!; [done|done|by exists i]).
  assert (G : (exists j', nodes s' !! obj o = Some (NFile j')) -> exists d', has_file s' (object_path lfs o) d' /\ (d' = d \/ hex_of (H d') o)).
  { intros [j' Hj']. destruct (inv_file _ _ _ _ HI' o j' Ho Hj') as (x' & Hx' & E & _).
    exists (i_data x'). split; [exists j', x'; by rewrite object_path_eq|].
    destruct E as [E|[_ Hlt]]; [right; by apply hex_of_iff|left].
    destruct (moved_back s s' o j' Hm Hj') as [Hb|?]; [|lia]. assert (j' = j) as -> by congruence.
    destruct (moved_frozen _ _ _ _ Hm Hfr) as (x2 & Hx2 & Hd2 & _). congruence. }
  destruct (gu_node _ _ _ _ _ _ HG o) as [E|[[E _]|[(_ & _ & E)|E]]].
  - left. apply G. exists j. congruence.
  - congruence.
  - left. by apply G.
  - by right.
Qed.
Lemma step_object y c o d : fine y -> is_oid o -> has_file (shared y) (object_path lfs o) d ->
  (exists d', has_file (shared (sys_step y c)) (object_path lfs o) d' /\ (d' = d \/ hex_of (H d') o)) \/ removed lfs ps [c] y o.
Proof using Hlfs.
  intros Hy Ho Hf. pose proof (fine_inv _ (fine_step y c Hy)) as HI'. destruct Hy as ([HI Hs] & _ & Hev & _).
  destruct c as [i a]. unfold removed. cbn [history]. unfold sys_step in *. cbn [c_pid c_act] in *.
  destruct (procs y !! i) as [[q l dd]|] eqn:Ei; [|left; exists d; by auto].
  unfold proc_step in *. cbn [pr_dead pr_prog pr_local] in *.
  destruct dd; [left; exists d; by auto|]. destruct a as [or|]; [|left; exists d; by auto].
  destruct q as [x|f|e k]; [left; exists d; by auto..|].
  destruct (Hs _ _ Ei) as (s1 & H1 & H2). pose proof (H2 (shared y) or H1 HI) as H3. cbn [pr_local] in H3.
  destruct (Hev _ _ Ei) as [_ Hpr]. cbn [pr_prog] in Hpr.
  pose proof (prune_step i e or l (shared y) o) as Hst'.
  assert (Em : made i y (Choice i (AGo or)) = [existT e (handle_ev i e or l (shared y)).1.1]).
  { unfold made. cbn [c_pid c_act]. rewrite decide_True by done. by rewrite Ei. }
  destruct (handle_ev i e or l (shared y)) as [[r l'] s'] eqn:Eh. cbn [fst snd shared] in *. destruct H3 as (_ & HG & _).
  destruct (guar_object i (shared y) s' o d HI HI' HG Ho Hf) as [G|(Hp & [j Hj] & Hn)]; [by left|right].
  destruct (Hpr Hp) as [He _]. destruct Hp as (p & Hp1 & Hp2). exists i, p. split_and!; [done|done|].
  rewrite Em, (Hst' j He Hj Hn). left.
Qed.
Lemma removed_cons c cs y o : removed lfs ps cs (sys_step y c) o -> removed lfs ps (c :: cs) y o.
Proof using Type. intros (i & p & H1 & H2 & H3). exists i, p. split_and!; [done|done|]. cbn [history]. apply elem_of_app. by right. Qed.
Lemma removed_first c cs y o : removed lfs ps [c] y o -> removed lfs ps (c :: cs) y o.
Proof using Type.
  intros (i & p & H1 & H2 & H3). exists i, p. split_and!; [done|done|]. cbn [history] in *. rewrite app_nil_r in H3. apply elem_of_app. by left.
Qed.
Lemma run_object cs o : is_oid o -> forall y d, fine y -> has_file (shared y) (object_path lfs o) d ->
  (exists d', has_file (shared (sys_run cs y)) (object_path lfs o) d' /\ (d' = d \/ hex_of (H d') o)) \/ removed lfs ps cs y o.
Proof using Hlfs.
  intros Ho. induction cs as [|c cs IH]; intros y d Hy Hf; [left; exists d; by auto|].
  destruct (step_object y c o d Hy Ho Hf) as [(d1 & Hf1 & E1)|G]; [|right; by apply removed_first].
  destruct (IH _ _ (fine_step y c Hy) Hf1) as [(d2 & Hf2 & E2)|G]; [left|right; by apply removed_cons].
  exists d2. split; [done|]. destruct E2 as [->|E2]; [done|by right].
Qed.
Lemma right_stays cs y o d : fine y -> is_oid o -> has_file (shared y) (object_path lfs o) d -> hex_of (H d) o ->
  kept H lfs (shared (sys_run cs y)) o d \/ removed lfs ps cs y o.
Proof using Hlfs.
  intros Hy Ho Hf Hh. destruct (run_object cs o Ho y d Hy Hf) as [(d' & Hf' & E)|G]; [left|by right].
  split; [done|]. exists d'. split; [done|]. destruct E as [->|E]; [by left|].
  destruct (decide (d' = d)) as [?|Hne]; [by left|right]. split; [done|].
  apply hex_of_iff in Hh, E. apply hex_encode_inj. congruence.
Qed.
Lemma object_stays cs y o d : fine y -> is_oid o -> has_file (shared y) (object_path lfs o) d ->
  found H lfs s0 (shared (sys_run cs y)) o d \/
  (hex_of (H d) o \/ has_file s0 (object_path lfs o) d) /\ removed lfs ps cs y o.
Proof using Hlfs.
  intros Hy Ho Hf. pose proof Hy as (_ & _ & _ & Hm).
  destruct (moved_whence _ _ o d Hm (fine_first y Hy) (fine_inv _ Hy) Ho Hf) as [Hh|H0].
  - destruct (right_stays cs y o d Hy Ho Hf Hh) as [G|G]; [left; by left|right]. auto.
  - destruct (run_object cs o Ho y d Hy Hf) as [G|G]; [left; by right|right]. auto.
Qed.

(** ** The next deed *)
Lemma next_deed i cs y tr d ds rest : fine y -> history i cs y = tr ++ rest -> deeds tr = d :: ds ->
  exists cs1 o cs2 l e t1 tr', let y1 := sys_run cs1 y in let y2 := sys_step y1 (Choice i (AGo o)) in
    cs = (cs1 ++ [Choice i (AGo o)]) ++ cs2 /\ d = existT e (handle_ev i e o l (shared y1)).1.1 /\
    shared y2 = (handle_ev i e o l (shared y1)).2 /\
    fine y1 /\ fine y2 /\ history i cs2 y2 = tr' ++ rest /\ deeds tr' = ds /\
    sys_run (cs1 ++ [Choice i (AGo o)]) y = y2 /\
    tr = t1 ++ d :: tr' /\ history i (cs1 ++ [Choice i (AGo o)]) y = t1 ++ [d].
Proof using Hlfs.
  intros Hy Hh Hd. apply deeds_cons in Hd as (t1 & t2 & -> & Hd). rewrite <- app_assoc in Hh. cbn [app] in Hh.
  destruct (history_at _ _ _ _ _ _ Hh) as (cs1 & o & cs2 & e & k & l & -> & H1 & H2). cbn beta zeta in H2.
  destruct H2 as (H2 & H3 & H4 & H5). exists cs1, o, cs2, l, e, t1, t2. cbn beta zeta.
  pose proof (fine_run cs1 y Hy) as Hy1. rewrite sys_run_app, history_app, H1. cbn [history].
  split_and!; try done; [by rewrite <- app_assoc|by apply fine_step|].
  f_equal. rewrite app_nil_r. unfold made. cbn [c_act c_pid]. rewrite decide_True by done. rewrite H2. by rewrite H3.
Qed.

Lemma fetched i j d ds off d' : fetches (HFile j) off ds d' -> forall cs y tr rest, fine y -> history i cs y = tr ++ rest -> deeds tr = ds ->
  frozen lfs n0 j d (shared y) -> d' = drop off d.
Proof using Hlfs.
  induction 1 as [off n Hn|off n c ds d' Hc Hf IH]; intros cs y tr rest Hy Hh Hd Hfr;
    destruct (next_deed i cs y tr _ _ rest Hy Hh Hd) as (cs1 & o & cs2 & l & e & t1 & tr' & G); cbn beta zeta in G;
    destruct G as (-> & G1 & G2 & G3 & G4 & G5 & G6 & _);
    apply call_eq in G1 as [E G1]; subst e; cbn [eq_rect] in G1;
    pose proof (frozen_stays cs1 y j d Hy Hfr) as Hfr1;
    pose proof (read_shows lfs n0 i o l _ j d off n _ Hfr1 (eq_sym G1)) as Ec.
  - destruct (drop off d) as [|b t] eqn:Ed; [done|]. destruct (N.to_nat n) eqn:En; [lia|done].
  - assert (Hfr2 : frozen lfs n0 j d (shared (sys_step (sys_run cs1 y) (Choice i (AGo o))))).
    { apply (frozen_stays [Choice i (AGo o)] _ j d G3 Hfr1). }
    rewrite (IH cs2 _ tr' rest G4 G5 G6 Hfr2). rewrite <- (take_drop (N.to_nat n) (drop off d)), <- Ec. f_equal.
    rewrite drop_drop. assert (Hl : (length c <= N.to_nat n)%nat) by (rewrite Ec, take_length; lia).
    destruct (decide (length c = N.to_nat n)) as [->|Hne]; [done|].
    assert (length (drop off d) <= length c)%nat.
    { rewrite Ec, take_length in Hne. rewrite Ec, take_length. lia. }
    rewrite drop_length in H0. rewrite !drop_ge by lia. done.
Qed.

(** A call of [tr] shows the object, which is removed after that. *)
Definition lost_in (i : nat) (cs : list choice) (y : sys (Z * bytes)) (tr : list done_call) (o : bytes) : Prop :=
  exists t1 c t2 cs1 cs2, tr = t1 ++ c :: t2 /\ shows lfs o c /\
    cs = cs1 ++ cs2 /\ history i cs1 y = t1 ++ [c] /\ removed lfs ps cs2 (sys_run cs1 y) o.
Lemma lost_later i csa csb y ta tb o : history i csa y = ta -> lost_in i csb (sys_run csa y) tb o -> lost_in i (csa ++ csb) y (ta ++ tb) o.
Proof using Type.
  intros <- (t1 & c & t2 & cs1 & cs2 & -> & Hs & -> & Hh & Hr). exists (history i csa y ++ t1), c, t2, (csa ++ cs1), cs2.
  split_and!; [by rewrite <- app_assoc|done|by rewrite app_assoc|rewrite history_app, Hh; apply app_assoc|by rewrite sys_run_app].
Qed.
Lemma lost_after i csa csb y ta c tb o : history i csa y = ta ++ [c] -> lost_in i csb (sys_run csa y) tb o -> lost_in i (csa ++ csb) y (ta ++ c :: tb) o.
Proof using Type. intros Hh Hl. pose proof (lost_later i csa csb y _ tb o Hh Hl) as G. by rewrite <- app_assoc in G. Qed.
Lemma lost_here i cs1 cs2 y t1 c t2 o : history i cs1 y = t1 ++ [c] -> shows lfs o c -> removed lfs ps cs2 (sys_run cs1 y) o ->
  lost_in i (cs1 ++ cs2) y (t1 ++ c :: t2) o.
Proof using Type. intros Hh Hs Hr. exists t1, c, t2, cs1, cs2. by split_and!. Qed.
Lemma lost_global i cs0 cs tr o : lost_in i cs (sys_run cs0 (Sys ps s0)) tr o ->
  lost lfs ps s0 i (cs0 ++ cs) (history i cs0 (Sys ps s0)) tr o.
Proof using Type.
  intros (t1 & c & t2 & cs1 & cs2 & -> & Hs & -> & Hh & Hr). exists t1, c, t2, (cs0 ++ cs1), cs2.
  split_and!; [done|done|by rewrite app_assoc|by rewrite history_app, Hh|by rewrite sys_run_app].
Qed.
End prune.

(** ** Rounds *)
Section rounds.
Context (en : env) (lfs : path) (ps : list (proc (Z * bytes))) (s0 : fs).
Context (HH : digest (en_hash en)) (Hlfs : Forall plain_name lfs).
Local Existing Instance these.
Local Notation H := (en_hash en).
Local Notation n0 := (length (inodes s0)).
Context (i : nat).
Local Notation fine := (fine H lfs ps s0).
Local Notation end_ cs y := (shared (sys_run cs y)).
Local Notation lost_in := (lost_in lfs ps i).

Definition fol (cs : list choice) (y : sys (Z * bytes)) (tr : list done_call) (o d : bytes) : Prop :=
  found H lfs s0 (end_ cs y) o d \/ (hex_of (H d) o \/ has_file s0 (object_path lfs o) d) /\ lost_in cs y tr o.

Lemma stat_found cs y tr ds rest o n u : fine y -> history i cs y = tr ++ rest -> is_oid o ->
  deeds tr = existT (EStat (object_path lfs o)) (IOk (n, u)) :: ds -> exists d, lenN d = n /\ fol cs y tr o d.
Proof using Hlfs.
  intros Hy Hh Ho Hd. destruct (next_deed H lfs ps s0 Hlfs i cs y tr _ _ rest Hy Hh Hd) as (cs1 & or & cs2 & l & e & t1 & tr' & G).
  cbn beta zeta in G. destruct G as (-> & G1 & G2 & G3 & G4 & G5 & G6 & G7 & G8 & G9). apply call_eq in G1 as [E G1]. subst e. cbn [eq_rect] in G1.
  pose proof G3 as (_ & Hsh & _). destruct (stat_shows H lfs s0 Hlfs i o Ho or l _ n u Hsh (fine_inv _ _ _ _ _ G3) (eq_sym G1)) as (d & Hf & Hn).
  exists d. split; [done|].
  assert (Hf2 : has_file (end_ (cs1 ++ [Choice i (AGo or)]) y) (object_path lfs o) d).
  { rewrite G7, G2. by destruct (quiet_same i (EStat (object_path lfs o)) or l (shared (sys_run cs1 y))) as [E1 E2]; [|unfold has_file; rewrite E1, E2]. }
  unfold fol. rewrite sys_run_app. destruct (object_stays H lfs ps s0 Hlfs cs2 (sys_run (cs1 ++ [Choice i (AGo or)]) y) o d) as [G|[G Gr]]; [by rewrite G7|done|done|by left|right].
  split; [done|]. rewrite G8. apply lost_here; [done|constructor|done].
Qed.
Lemma checks_found m items ds ls : checks lfs m items ds ls -> Forall (fun x => is_oid x.1) items ->
  forall cs y tr rest, fine y -> history i cs y = tr ++ rest -> deeds tr = ds ->
  forall o n, is_oid o -> o ++ [SP] ++ dec n ++ [SP] ++ there m ++ [NL] ∈ ls -> exists d, lenN d = n /\ fol cs y tr o d.
Proof using Hlfs.
  induction 1 as [|o v n r items ds ls Hn Hc IH]; intros Hall cs y tr rest Hy Hh Hd o' n' Ho' Hin; [by apply elem_of_nil in Hin|].
  apply Forall_cons in Hall as [Ho Hall]. cbn [fst] in Ho.
  apply elem_of_cons in Hin as [Hin|Hin].
  - symmetry in Hin. apply line_one in Hin as [-> [u ->]]; try done. by eapply stat_found.
  - destruct (next_deed H lfs ps s0 Hlfs i cs y tr _ _ rest Hy Hh Hd) as (cs1 & or & cs2 & l & e & t1 & tr' & G).
    cbn beta zeta in G. destruct G as (-> & G1 & G2 & G3 & G4 & G5 & G6 & G7 & G8 & G9).
    destruct (IH Hall cs2 _ tr' rest G4 G5 G6 o' n' Ho' Hin) as (d & Hn' & [Hk|[Hw Hl]]); exists d; (split; [done|]).
    + left. by rewrite sys_run_app, G7.
    + right. split; [done|]. rewrite G8. apply lost_after; [done|by rewrite G7].
Qed.
Lemma get_found cs y tr ds rest o h n d : fine y -> history i cs y = tr ++ rest -> is_oid o -> fetches h 0 ds d ->
  deeds tr = existT (EOpen (object_path lfs o)) (IOk h) :: existT (EFstat h) (IOk n) :: ds ->
  n = lenN d /\ fol cs y tr o d.
Proof using Hlfs.
  intros Hy Hh Ho Hf Hd. destruct (next_deed H lfs ps s0 Hlfs i cs y tr _ _ rest Hy Hh Hd) as (cs1 & or & cs2 & l & e & t1 & tr' & G).
  cbn beta zeta in G. destruct G as (-> & G1 & G2 & G3 & G4 & G5 & G6 & G7 & G8 & G9). apply call_eq in G1 as [E G1]. subst e. cbn [eq_rect] in G1.
  pose proof G3 as (_ & Hsh & _). destruct (open_shows H lfs s0 Hlfs i o Ho or l _ h Hsh (fine_inv _ _ _ _ _ G3) (eq_sym G1)) as (j & d0 & -> & Hfile & Hfr).
  pose proof (frozen_stays H lfs ps s0 [Choice i (AGo or)] _ j d0 G3 Hfr) as Hfr2. unfold sys_run in Hfr2 at 1. cbn [fold_left] in Hfr2.
  destruct (next_deed H lfs ps s0 Hlfs i cs2 _ tr' _ _ rest G4 G5 G6) as (cs3 & or3 & cs4 & l3 & e3 & t3 & tr3 & K).
  cbn beta zeta in K. destruct K as (-> & K1 & K2 & K3 & K4 & K5 & K6 & K7 & K8 & K9). apply call_eq in K1 as [E K1]. subst e3. cbn [eq_rect] in K1.
  pose proof (frozen_stays H lfs ps s0 cs3 _ j d0 G4 Hfr2) as Hfr3.
  pose proof (fstat_shows lfs n0 i or3 l3 _ j d0 n Hfr3 (eq_sym K1)) as ->.
  pose proof (frozen_stays H lfs ps s0 [Choice i (AGo or3)] _ j d0 K3 Hfr3) as Hfr4. unfold sys_run in Hfr4 at 1. cbn [fold_left] in Hfr4.
  pose proof (fetched H lfs ps s0 Hlfs i j d0 ds 0 d Hf cs4 _ tr3 rest K4 K5 K6 Hfr4) as ->. rewrite drop_0.
  split; [done|].
  assert (Hf2 : has_file (end_ (cs1 ++ [Choice i (AGo or)]) y) (object_path lfs o) d0).
  { rewrite G7, G2. by destruct (quiet_same i (EOpen (object_path lfs o)) or l (shared (sys_run cs1 y))) as [E1 E2]; [|unfold has_file; rewrite E1, E2]. }
  unfold fol. rewrite sys_run_app.
  destruct (object_stays H lfs ps s0 Hlfs ((cs3 ++ [Choice i (AGo or3)]) ++ cs4) (sys_run (cs1 ++ [Choice i (AGo or)]) y) o d0) as [G|[G Gr]]; [by rewrite G7|done|done|by left|right].
  split; [done|]. rewrite G8. apply lost_here; [done|constructor|done].
Qed.
Lemma put_kept cs y tr rest o n u tmp d fd old ws ds' : fine y -> history i cs y = tr ++ rest -> is_oid o ->
  concat ws = old ++ d -> finishing en lfs u o n tmp (old ++ d) ds' (Reply 200 [] BNone) ->
  deeds tr = existT (EMktemp (lfs ++ [bs "incomplete"]) o) (IOk (tmp, fd)) :: written fd ws ++ ds' ->
  n = lenN (old ++ d) /\ (kept H lfs (end_ cs y) o (old ++ d) \/ hex_of (H (old ++ d)) o /\ lost_in cs y tr o).
Proof using Hlfs.
  intros Hy Hh Ho Hw Hf Hd. inversion Hf as [| | | | | | |y' p Hn Hx Hp]; subst. split; [done|].
  destruct (next_deed H lfs ps s0 Hlfs i cs y tr _ _ rest Hy Hh Hd) as (csm & orm & csn & lm & em & tm & tr' & G).
  cbn beta zeta in G. destruct G as (Ec & G1 & G2 & G3 & G4 & G5 & G6 & G7 & G8 & G9). apply call_eq in G1 as [E G1]. subst em. cbn [eq_rect] in G1.
  symmetry in G1. apply (mktemp_shows lfs Hlfs i o Ho) in G1 as (c & Hc & Etmp & Hfree).
  set (ym := sys_run csm y) in *.
  assert (Hin' : existT (ERename tmp (object_path lfs o)) (IOk tt) ∈ tr').
  { assert (G : existT (ERename tmp (object_path lfs o)) (IOk tt) ∈ deeds tr').
    { rewrite G6. apply elem_of_app. right. right. left. }
    unfold deeds in G. apply elem_of_list_In, filter_In in G as [G _]. by apply elem_of_list_In. }
  apply elem_of_list_split in Hin' as (t1 & t2 & ->). rewrite <- app_assoc in G5. cbn [app] in G5.
  destruct (history_at _ _ _ _ _ _ G5) as (cs1 & or & cs2 & e & k & l & -> & Hh1 & K). cbn beta zeta in K. destruct K as (K0 & K1 & K2 & _).
  apply call_eq in K1 as [E K1]. subst e. cbn [eq_rect] in K1.
  set (y1 := sys_step ym (Choice i (AGo orm))) in *. set (yr := sys_run cs1 y1) in *.
  destruct (rename_shows lfs Hlfs i o Ho or l (shared yr) tmp) as (q & j & Hq & Hj); [by rewrite <- K1|].
  assert (Hg1 : fine yr) by (by apply fine_run).
  assert (Hnew : (n0 <= j)%nat).
  { rewrite Etmp in Hq. apply file_at_stays in Hq as [_ Hq].
    2: { apply Forall_app. split; [|by constructor]. apply (inc_stays lfs). by apply plain_stays_all. }
    pose proof (fine_moved H lfs ps s0 (Choice i (AGo orm) :: cs1) ym G3) as Hm.
    change (sys_run (Choice i (AGo orm) :: cs1) ym) with yr in Hm.
    rewrite Etmp in Hfree. rewrite <- app_assoc in Hfree, Hq.
    pose proof (moved_upload H lfs ps s0 _ _ c j Hm Hfree Hq) as L1. pose proof (inv_len _ _ _ _ (fine_inv H lfs ps s0 ym G3)) as L2. lia. }
  rewrite <- K2 in Hj. set (y2 := sys_step yr (Choice i (AGo or))) in *.
  assert (Hg : fine y2) by (by apply fine_step).
  pose proof Hj as Hj'. rewrite object_path_eq in Hj'. destruct (inv_file _ _ _ _ (fine_inv _ _ _ _ _ Hg) o j Ho Hj') as (x & Hx2 & [Eh|[_ ?]] & _); [|lia].
  assert (Ey : sys_run cs y = sys_run cs2 y2).
  { rewrite Ec, sys_run_app, G7. change (Choice i (AGo or) :: cs2) with ([Choice i (AGo or)] ++ cs2). by rewrite !sys_run_app. }
  destruct (right_stays H lfs ps s0 Hlfs cs2 y2 o (i_data x) Hg Ho) as [G|G]; [by exists j, x|by apply hex_of_iff|left|right].
  - rewrite Ey. by eapply (kept_same H lfs _ o (i_data x)).
  - split; [exact Hx|].
    rewrite Ec, G8. apply lost_after; [done|]. rewrite G7.
    replace (cs1 ++ Choice i (AGo or) :: cs2) with ((cs1 ++ [Choice i (AGo or)]) ++ cs2) by (by rewrite <- app_assoc).
    apply lost_here; [|constructor|by rewrite sys_run_app].
    rewrite history_app, Hh1. f_equal. cbn [history]. rewrite app_nil_r. unfold made. cbn [c_act c_pid]. rewrite decide_True by done.
    fold yr. rewrite K0. by rewrite K1.
Qed.

Lemma round_pruned cs0 cs tr rest u m old new : let y := sys_run cs0 (Sys ps s0) in fine y -> history i cs y = tr ++ rest ->
  round en lfs u m old tr new -> pruned_round en lfs u m ps s0 i (cs0 ++ cs) (history i cs0 (Sys ps s0)) old tr new.
Proof using Hlfs.
  intros y Hy Hh (is & a & qs & H1 & H2 & H3 & H4 & H5). exists is, a, qs. split_and!; try done.
  assert (Hfol : forall o d, fol cs y tr o d -> found_or_lost H lfs ps s0 i (cs0 ++ cs) (history i cs0 (Sys ps s0)) tr o d).
  { intros o d [G|[G Gl]]; [left; by rewrite sys_run_app|right]. split; [done|]. by apply lost_global. }
  intros b ws is' -> Hs Hc. destruct H5 as [[H5 _]|[-> H5]].
  - destruct (responds_200 en lfs _ _ _ _ _ _ _ H5 eq_refl Hs Hc) as (r & Hn & Hr).
    split_and!; [intros o Ho|intros o Ho|intros o Ho|intros Ho]; pose proof (named_one _ _ _ Hn Ho) as E; cbn [SpecOdd.verb] in E;
      destruct Hr as [->|[[x ->]|[(Hp & kvs & Ha & Hb)|(-> & kvs & items & Hb)]]]; try (exfalso; by vm_compute in E);
      try (destruct r; cbn [SpecOdd.verb] in E; try (exfalso; by vm_compute in E); try (exfalso; by destruct Hp)).
    + injection E as ->. cbn [with_args] in Hb. inversion Hb; subst; try done.
      destruct (stat_found cs y tr [] rest o n u0 Hy Hh) as (d & <- & Hk); [done|done|]. exists kvs, v, d. auto.
    + injection E as ->. cbn [with_args] in Hb. inversion Hb; subst; try done; [by case_decide..|].
      destruct (get_found cs y tr ds rest o h n d Hy Hh) as [-> Hk]; [done..|]. exists d. auto.
    + inversion Hb; subst; try done. exists ls. split; [done|]. intros o n Hoid Hin.
      assert (G : exists d, lenN d = n /\ fol cs y tr o d) by (by eapply checks_found). destruct G as (d & Hl & Hk). exists d. auto.
  - inversion H5; subst; try done;
    repeat match goal with G : SpecOdd.says b ?w |- _ => tryif constr_eq w ws then fail else (apply (says_one _ _ _ Hs) in G; subst w) end;
    repeat match goal with
    | G : SpecOdd.bad_args _ _ _ |- _ => by inversion G; subst
    | G : rp_code (unreadable ?x) = _ |- _ => by destruct x
    end.
    match goal with G : SpecOdd.named (RPut _ _ _) _ |- _ => rename G into Hn end.
    split_and!; [intros o' Ho|intros o' Ho|intros o' Ho|intros Ho]; pose proof (named_one _ _ _ Hn Ho) as E; cbn [SpecOdd.verb] in E; try (exfalso; by vm_compute in E).
    injection E as <-.
    match goal with G : storing _ _ _ _ _ _ _ _ _ _ |- _ => rename G into Hst end.
    inversion Hst as [| | |ds0 e tmp fd cs' ds' a' He Hcs Hf]; subst; try done.
    assert (a = Reply 200 [] BNone) as -> by (by inversion Hf; subst).
    destruct (put_kept cs y tr rest o n u tmp (concat ds0) fd old cs' ds' Hy Hh) as [-> Hk]; [done..|].
    exists kvs, v, is1, ds0, e. split_and!; try done.
    destruct Hk as [G|[G Gl]]; [left; by rewrite sys_run_app|right]. split; [done|]. by apply lost_global.
Qed.
End rounds.

Section session.
Context (en : env) (lfs : path) (ps : list (proc (Z * bytes))) (s0 : fs).
Context (Hsv : company (en_hash en) lfs ps s0).
Local Existing Instance these.
Local Notation H := (en_hash en).
Local Notation n0 := (length (inodes s0)).

Lemma fine_start : fine H lfs ps s0 (Sys ps s0).
Proof using Hsv.
  destruct Hsv as [HH Hlfs [W S T O L] Hall]. rewrite Forall_lookup in Hall. split; [|split_and!].
  - split; [by apply worn_inv|]. intros j p Hp. exists s0. split; [apply rely_refl|].
    destruct (Hall j p Hp) as [G|G].
    + by apply rg_server; [apply plain_stays_all|..].
    + apply rg_pruner; [done|by exists p|by apply pruner_ev].
  - by constructor.
  - intros j p Hp. split.
    + destruct (Hall j p Hp) as [G|G]; [by apply (sv_server H lfs HH)|].
      eapply all_ev_mono; [apply prunes_shapely|by apply pruner_ev].
    + intros (p' & Hp' & G). cbn [procs] in Hp. assert (p' = p) as -> by congruence. by apply pruner_ev.
  - apply rtc_refl.
Qed.

Lemma rounds_pruned i u m old body new : rounds en lfs u m old body new ->
  forall cs0 cs rest, history i cs (sys_run cs0 (Sys ps s0)) = body ++ rest ->
  pruned_rounds en lfs u m ps s0 i (cs0 ++ cs) (history i cs0 (Sys ps s0)) old body new.
Proof using Hsv.
  pose proof fine_start as Hg. destruct Hsv as [HH Hlfs _ _].
  induction 1 as [|old tr mid tr' new Hr _ IH]; intros cs0 cs rest Hh; [constructor|].
  rewrite <- app_assoc in Hh. econstructor.
  - eapply (round_pruned en lfs ps s0 Hlfs i); [by apply fine_run|exact Hh|exact Hr].
  - destruct (history_split _ _ _ _ _ Hh) as (cs1 & cs2 & -> & H1 & H2).
    rewrite app_assoc. rewrite <- H1, <- history_app. eapply IH. by rewrite sys_run_app.
Qed.

Lemma c101 fuel v m l i cs : ps !! i = Some (Proc (transfer_main en fuel lfs (GOk (libgit2 v)) (operation m)) l false) ->
  let tr := history i cs (Sys ps s0) in
  let y := sys_run cs (Sys ps s0) in
  (forall e r, existT e r ∈ tr -> introduces lfs e) \/
  exists um u body rest new p, tr = um ++ announced lfs ++ body ++ rest /\ masks (asked v) um u /\
    pruned_rounds en lfs u m ps s0 i cs (um ++ announced lfs) [] body new /\ (flushed ∉ rest \/ farewell rest) /\
    procs y !! i = Some p /\ (l_out l ++ bs "000eversion=1" ++ [NL] ++ bs "0000" ++ spoken body) `prefix_of` l_out (pr_local p).
Proof using Hsv.
  intros Hi tr y. pose proof fine_start as Hg. pose proof Hsv as [HH _ _ _].
  destruct (c_session en fuel lfs v m tr None HH) as [[G _]|(um & u & body & rest & new & E & Hm & Hr & Hf & _)].
  - apply history_exact.
  - by apply (history_calls i cs (Sys ps s0) _ Hi).
  - left. exact G.
  - right. unfold tr in E.
    assert (Hw : sent_well (um ++ announced lfs ++ body) /\ spoken (um ++ announced lfs) = bs "000eversion=1" ++ [NL] ++ bs "0000").
    { assert (sent_well um /\ spoken um = []) as [Hw Hs].
      { unfold masks in Hm. destruct (asked v) as [n|]; [destruct Hm as (_ & r & ->)|destruct Hm as (r & ->)]; split; try done; repeat constructor; by intros []. }
      split; [|unfold spoken in *; rewrite map_app, concat_app, Hs; done]. apply Forall_app. split; [done|]. apply Forall_app.
      split; [|by eapply rounds_sent]. repeat constructor; by intros []. }
    destruct Hw as [Hw Hs].
    pose proof E as E1. replace (um ++ announced lfs ++ body ++ rest) with ((um ++ announced lfs ++ body) ++ rest) in E1 by (by rewrite <- !app_assoc).
    pose proof E as E2. rewrite app_assoc in E2.
    destruct (history_split _ _ _ _ _ E1) as (cs1 & cs2 & Ec & H1 & H2).
    destruct (out_spoken i cs1 (Sys ps s0) _ Hi) as (p1 & Hp1 & Ho1); [by rewrite H1|].
    destruct (out_grows i cs2 (sys_run cs1 (Sys ps s0)) p1 Hp1) as (p & Hp & Ho).
    exists um, u, body, rest, new, p. split; [done|]. split; [done|]. split; [|split; [done|split]].
    + destruct (history_split _ _ _ _ _ E2) as (cs3 & cs4 & Ec4 & H3 & H4).
      rewrite Ec4, <- H3. by eapply (rounds_pruned i u m [] body new Hr cs3 cs4 rest).
    + unfold y. by rewrite Ec, sys_run_app.
    + rewrite Ho1, H1 in Ho. cbn [pr_local] in Ho. unfold spoken in Ho. rewrite app_assoc, map_app, concat_app in Ho.
      fold (spoken (um ++ announced lfs)) in Ho. rewrite Hs, <- !app_assoc in Ho. done.
Qed.
End session.

(** ** The objects *)
Lemma c101_store H lfs ps s0 : company H lfs ps s0 -> forall cs1 cs2 o d, is_oid o ->
  let y1 := sys_run cs1 (Sys ps s0) in
  let s1 := shared y1 in
  let s2 := shared (sys_run cs2 y1) in
  (has_file s1 (object_path lfs o) d ->
     (exists d', has_file s2 (object_path lfs o) d' /\ (d' = d \/ hex_of (H d') o)) \/ removed lfs ps cs2 y1 o) /\
  (has_file s2 (object_path lfs o) d -> hex_of (H d) o \/ has_file s1 (object_path lfs o) d).
Proof.
  intros Hsv cs1 cs2 o d Ho y1 s1 s2. pose proof Hsv as [_ Hlfs _ _].
  pose proof (fine_start (Env H (fun _ => None) (fun _ => None) 0) lfs ps s0 Hsv) as Hy. cbn [en_hash] in Hy.
  pose proof (fine_run H lfs ps s0 Hlfs cs1 _ Hy) as Hy1. pose proof (fine_run H lfs ps s0 Hlfs cs2 _ Hy1) as Hy2. split.
  - by apply (run_object H lfs ps s0 Hlfs).
  - apply (moved_whence H lfs ps s0); [by apply fine_moved|by apply (fine_inv H lfs ps s0)..|done].
Qed.
