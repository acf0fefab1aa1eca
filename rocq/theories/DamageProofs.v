(** Proofs for Props_Damage.v. *)
From Verif Require Import Bytes Err FS Prog Pktline Args Local Processor Transfer Spec SpecStore SpecServer SpecDamage
  TextProofs ObjProofs SeqCmd Session SessionFacts.

Section damage.
Context (en : env) (m : mode) (uid : N) (clock : Z -> Prop) (D : bytes -> Prop).
Notation answer := (answer_of en m uid clock).
Notation answers := (session_of en m uid clock).

Lemma same_sym w1 w2 : same_but D w1 w2 -> same_but D w2 w1.
Proof using Type. intros [H1 H2]. split; [done|]. intros o Ho. symmetry. by apply H2. Qed.

Lemma answer_same w1 w2 r a w1' : answer w1 r a w1' -> same_but D w1 w2 -> Forall (fun o => ~ D o) (names r) ->
  exists w2', answer w2 r a w2' /\ same_but D w1' w2' /\ forall o, D o -> w_objs w1' !! o = w_objs w1 !! o /\ w_objs w2' !! o = w_objs w2 !! o.
Proof using Type.
  intros Ha [Hl Ho] Hn. destruct w1 as [ob1 lk], w2 as [ob2 lk2]. simpl in Hl, Ho. subst lk2.
  assert (Hs : same_but D (World ob1 lk) (World ob2 lk)) by done.
  destruct Ha; simpl in *; try (rewrite Forall_singleton in Hn; pose proof (Ho _ Hn) as E; try (rewrite E in * ));
    try (exists (World ob2 lk); split_and!; [by econstructor; eauto; simpl; congruence|done|done]).
  - exists (World ob2 lk). split_and!; [|done|done].
    replace (zip_with (batch_line_for m (World ob1 lk)) items.*1 ns) with (zip_with (batch_line_for m (World ob2 lk)) items.*1 ns); [by econstructor|].
    clear -Hn Ho. revert ns. induction items as [|x items IH]; intros ns; [done|]. cbn in Hn. apply Forall_cons in Hn as [Hx Hn].
    destruct ns as [|n ns]; [done|]. cbn. f_equal; [|by apply IH]. unfold batch_line_for. simpl. by rewrite (Ho _ Hx).
  - exists (World (<[o := concat ds]> ob2) lk). split_and!; [by eapply (a_put _ _ _ _ (World ob2 lk))| |].
    + split; [done|]. intros o' Ho'. simpl. destruct (decide (o = o')) as [->|Hne]; [by rewrite !lookup_insert|]. rewrite !lookup_insert_ne by done. by apply Ho.
    + intros o' Ho'. simpl. rewrite !lookup_insert_ne by (by intros ->). done.
  - exists (World ob2 (<[lock_id (en_hash en) p := (p, t, uid)]> lk)). split_and!; [by eapply (a_lock _ _ _ _ (World ob2 lk))|split; [done|exact Ho]|done].
  - eexists (World ob2 _). split_and!; [by eapply (a_unlock _ _ _ _ (World ob2 lk))|split; [done|exact Ho]|done].
Qed.
Lemma answers_same w1 w2 rs as_ w1' : answers w1 rs as_ w1' -> same_but D w1 w2 -> Forall (fun r => Forall (fun o => ~ D o) (names r)) rs ->
  exists w2', answers w2 rs as_ w2' /\ same_but D w1' w2' /\ forall o, D o -> w_objs w1' !! o = w_objs w1 !! o /\ w_objs w2' !! o = w_objs w2 !! o.
Proof using Type.
  intros Ha. revert w2. induction Ha as [w|w r a w' rs as_ w'' Ha Hs IH]; intros w2 Hw Hn.
  { exists w2. split_and!; [constructor|done|done]. }
  apply Forall_cons in Hn as [Hr Hn]. destruct (answer_same w w2 r a w' Ha Hw Hr) as (w2' & H1 & H2 & H3).
  destruct (IH w2' H2 Hn) as (w2'' & H4 & H5 & H6). exists w2''. split_and!; [by econstructor|done|].
  intros o Ho. destruct (H3 o Ho), (H6 o Ho). split; congruence.
Qed.
Lemma answers_app_inv w rs1 rs2 as_ w' : answers w (rs1 ++ rs2) as_ w' ->
  exists as1 as2 wi, as_ = as1 ++ as2 /\ answers w rs1 as1 wi /\ answers wi rs2 as2 w'.
Proof using Type.
  revert w as_. induction rs1 as [|r rs1 IH]; intros w as_ Ha; simpl in Ha.
  { exists [], as_, w. split_and!; [done|constructor|done]. }
  inversion Ha as [|? ? a w1 ? as1 ? H1 H2]; subst. destruct (IH _ _ H2) as (as2 & as3 & wi & -> & H3 & H4).
  exists (a :: as2), as3, wi. split_and!; [done|by econstructor|done].
Qed.
Lemma answers_app w rs1 rs2 as1 as2 wi w' : answers w rs1 as1 wi -> answers wi rs2 as2 w' -> answers w (rs1 ++ rs2) (as1 ++ as2) w'.
Proof using Type. induction 1; intros Ha; simpl; [done|]. econstructor; eauto. Qed.
End damage.

Lemma c91 en lfs umask ts clock m pid os l s D w w0 reqs extra fuel :
  setting en lfs ts clock os -> holds en lfs s w -> asks m l reqs extra -> enough fuel l w ->
  same_but D w w0 -> Forall (fun r => Forall (fun o => ~ D o) (names r)) reqs ->
  exists as_ w1 s1 w2, served en lfs umask ts clock m pid fuel os l s w reqs as_ extra w1 s1 /\
    session_of en m (l_uid l) clock w0 reqs as_ w2 /\ same_but D w1 w2 /\ forall o, D o -> w_objs w1 !! o = w_objs w !! o.
Proof.
  intros H1 H2 H3 H4 Hw Hn. destruct (c13 en lfs umask ts clock m pid os l s w reqs extra fuel H1 H2 H3 H4) as (as_ & w1 & s1 & Hs).
  assert (Ha : session_of en m (l_uid l) clock w reqs as_ w1) by (destruct Hs as (? & ? & ? & ? & ? & _); done).
  destruct (answers_same en m (l_uid l) clock D w w0 reqs as_ w1 Ha Hw Hn) as (w2 & G1 & G2 & G3).
  exists as_, w1, s1, w2. split_and!; [done..|]. intros o Ho. by apply G3.
Qed.

Lemma c92 en lfs umask ts clock pid os l s o w w0 before kvs ds b after extra fuel :
  setting en lfs ts clock os -> holds en lfs s w -> asks Upload l (before ++ RPut o kvs ds :: after) extra -> enough fuel l w ->
  same_but (eq o) w w0 -> Forall (fun r => o ∉ names r) before ->
  (bs "size", b) ∈ kvs -> number b (lenN (concat ds)) -> hex_of (en_hash en (concat ds)) o ->
  exists as1 as2 w1 s1, served en lfs umask ts clock Upload pid fuel os l s w (before ++ RPut o kvs ds :: after) (as1 ++ Reply 200 [] BNone :: as2) extra w1 s1 /\
    length as1 = length before /\
    session_of en Upload (l_uid l) clock w0 (before ++ RPut o kvs ds :: after) (as1 ++ Reply 200 [] BNone :: as2) w1.
Proof.
  intros H1 H2 H3 H4 Hw Hn Hb Hnum Hh.
  destruct (c13 en lfs umask ts clock Upload pid os l s w _ extra fuel H1 H2 H3 H4) as (as_ & w1 & s1 & Hs).
  assert (Ha : session_of en Upload (l_uid l) clock w (before ++ RPut o kvs ds :: after) as_ w1) by (destruct Hs as (? & ? & ? & ? & ? & _); done).
  pose proof Ha as (as1 & as2 & wi & -> & Ha1 & Ha2)%answers_app_inv.
  inversion Ha2 as [|? ? a wj ? as3 ? Hput Ha3]; subst.
  assert (Hwf : well_formed Upload (RPut o kvs ds)).
  { destruct H3 as [Hwf _]. rewrite Forall_forall in Hwf. apply Hwf, elem_of_app. right. by left. }
  assert (Hargs : args_ok kvs) by (by destruct Hwf as (_ & ? & _)).
  assert (E : a = Reply 200 [] BNone /\ wj = World (<[o := concat ds]> (w_objs wi)) (w_locks wi)).
  { inversion Hput as [ |  |  | ? ? ? b' Hb' Hn' Hh' | ? ? ? b' n Hb' Hn' Hlt | ? ? ? b' n Hb' Hn' Hlt | ? ? ? b' o' Hb' Hn' Hh' Hne |  |  |  |  |  |  |  |  |  |  |  |  |  |  |  |  |  |  |  |  |  | ]; subst.
    - done.
    - rewrite (args_fun kvs _ b' b) in Hn' by done. rewrite (number_fun b n (lenN (concat ds))) in Hlt by done. lia.
    - rewrite (args_fun kvs _ b' b) in Hn' by done. rewrite (number_fun b n (lenN (concat ds))) in Hlt by done. lia.
    - apply hex_of_iff in Hh, Hh'. congruence. }
  destruct E as [-> ->].
  destruct (answers_same en Upload (l_uid l) clock (eq o) w w0 before as1 wi Ha1 Hw) as (w2 & G1 & G2 & _).
  { eapply Forall_impl; [exact Hn|]. intros r Hr. apply Forall_forall. intros x Hx ->. done. }
  exists as1, as3, w1, s1. split_and!; [done| |].
  - clear -Ha1. induction Ha1; simpl; congruence.
  - eapply answers_app; [exact G1|]. econstructor; [by eapply a_put|].
    replace (World (<[o := concat ds]> (w_objs w2)) (w_locks w2)) with (World (<[o := concat ds]> (w_objs wi)) (w_locks wi)); [done|].
    destruct G2 as [-> Ho]. f_equal. apply map_eq. intros x. destruct (decide (o = x)) as [->|Hne]; [by rewrite !lookup_insert|].
    rewrite !lookup_insert_ne by done. by apply Ho.
Qed.

(** What is stored stays as it is while no request names it. *)
Lemma c90 en lfs umask ts clock m pid os l s o d w before r after extra fuel :
  setting en lfs ts clock os -> holds en lfs s w -> asks m l (before ++ r :: after) extra -> enough fuel l w ->
  w_objs w !! o = Some d -> Forall (fun r => o ∉ names r) before ->
  exists as1 a as2 w1 s1 wi wj, served en lfs umask ts clock m pid fuel os l s w (before ++ r :: after) (as1 ++ a :: as2) extra w1 s1 /\
    length as1 = length before /\ w_objs wi !! o = Some d /\ answer_of en m (l_uid l) clock wi r a wj.
Proof.
  intros H1 H2 H3 H4 Hw Hn.
  destruct (c13 en lfs umask ts clock m pid os l s w _ extra fuel H1 H2 H3 H4) as (as_ & w1 & s1 & Hs).
  assert (Ha : session_of en m (l_uid l) clock w (before ++ r :: after) as_ w1) by (destruct Hs as (? & ? & ? & ? & ? & _); done).
  pose proof Ha as (as1 & as2 & wi & -> & Ha1 & Ha2)%answers_app_inv.
  inversion Ha2 as [|? ? a wj ? as3 ? Hr Ha3]; subst.
  destruct (answers_same en m (l_uid l) clock (eq o) w w before as1 wi Ha1 ltac:(done)) as (w2 & _ & _ & G).
  { eapply Forall_impl; [exact Hn|]. intros r' Hr'. apply Forall_forall. intros x Hx ->. done. }
  exists as1, a, as3, w1, s1, wi, wj. split_and!; [done| | |done].
  - clear -Ha1. induction Ha1; simpl; congruence.
  - destruct (G o eq_refl) as [-> _]. done.
Qed.
Lemma verify_length en m uid clock w o kvs b n d a w' : args_ok kvs -> is_oid o -> (bs "size", b) ∈ kvs -> number b n ->
  w_objs w !! o = Some d -> lenN d <> n -> answer_of en m uid clock w (RVerify o kvs) a w' ->
  a = Reply 409 [] (BText (bs "mismatched size or cryptographic collision")).
Proof.
  intros Hk Ho Hb Hn Hd Hne Ha.
  assert (F : forall b', (bs "size", b') ∈ kvs -> b' = b) by (intros b' Hb'; by eapply args_fun).
  inversion Ha as [ | | | | | | |? ? Hx|? ? _ Hx|? ? b' _ Hx Hy|? ? b' d' _ Hx Hy Hz| |? ? b' n' _ Hx _ Hy| | | | | | | | | | | | | | | | ]; subst; try done.
  - exfalso. apply Hx. apply elem_of_list_fmap. by exists (bs "size", b).
  - exfalso. apply F in Hx as ->. apply Hy. by exists n.
  - exfalso. apply F in Hx as ->. rewrite Hd in Hy. injection Hy as <-. apply Hne. by eapply number_fun.
  - congruence.
Qed.
