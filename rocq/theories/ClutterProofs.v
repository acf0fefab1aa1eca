(** Clutter in the directory of locks does not change the answers. *)
From Verif Require Import Bytes ByteFacts Err FS Prog Pktline Args Local Processor Transfer
  Spec SpecStore SpecServer SpecLockDir TextProofs IoFacts FsFacts ObjProofs LossyFacts SeqFs SeqCmd LockDirProofs.
From stdpp Require Import sorting.

Section clutter.
Context (en : env) (m : mode) (uid : N) (clock : Z -> Prop).
Context (HH : digest (en_hash en)) (Hclock : forall t, clock t -> time_ok en t).
Context (J : lockdir) (HJ : clutter en J).
Notation id p := (lock_id (en_hash en) p).

Lemma says_record t p : (- 2 ^ 63 <= t < 2 ^ 63)%Z -> says (record_of t p) t p.
Proof using Type. intros H. apply says_iff. by apply c33. Qed.
Lemma says_fun d t p t' p' : says d t p -> says d t' p' -> t' = t /\ p' = p.
Proof using Type. rewrite !says_iff. intros -> [= -> ->]. done. Qed.

Section dir.
Context (w : world) (D : lockdir) (Hw : locks_ok en w) (HD : locks_and w J D).

Lemma cl_under i x : under D i x ->
  match w_locks w !! i with
  | Some (p, t, u) => x = Held p t u
  | None => match J !! i with Some _ => exists a, x = Useless a | None => x = Nothing end
  end.
Proof using Hw HD HJ.
  intros H. pose proof (HD i) as E. destruct (w_locks w !! i) as [[[p t] u]|] eqn:Ew.
  - destruct (Hw _ _ _ _ Ew) as [_ Ht].
    destruct H as [H|H|d' u' H Hno|d' u' t' p' H Hs]; rewrite E in H; try done; injection H as <- <-.
    + destruct (Hno t p). apply says_record, Ht.
    + destruct (says_fun _ _ _ _ _ (says_record t p (proj1 Ht)) Hs) as [-> ->]. done.
  - destruct H as [H|H|d' u' H Hno|d' u' t' p' H Hs]; rewrite E in H; rewrite H; try done; try by eexists.
    destruct (HJ _ _ H) as [_ Hn]. by destruct (Hn _ _ eq_refl t' p').
Qed.

Lemma cl_id p x : under D (id p) x ->
  match w_locks w !! id p with Some (p', t, u) => x = Held p' t u | None => x = Nothing end.
Proof using Hw HD HJ.
  intros H. apply cl_under in H. destruct (w_locks w !! id p) as [[[p' t] u]|]; [done|].
  destruct (J !! id p) eqn:E; [|done]. apply HJ in E as [E _]. by destruct (proj1 (E p)).
Qed.

Lemma cl_draft p : D !! draft en p = None.
Proof using Hw HD HJ HH.
  rewrite (HD _). destruct (w_locks w !! draft en p) as [[[p' t] u]|] eqn:E.
  - destruct (Hw _ _ _ _ E) as [E' _]. by apply draft_id in E'.
  - destruct (J !! draft en p) eqn:EJ; [|done]. apply HJ in EJ as [EJ _]. by destruct (proj2 (EJ p)).
Qed.

Lemma cl_lossy i x : is_Some (D !! i) -> under D (utf8_lossy i) x ->
  match w_locks w !! i with Some (p, t, u) => x = Held p t u | None => forall p t u, x <> Held p t u end.
Proof using Hw HD HJ HH.
  intros Hi H. destruct (w_locks w !! i) as [[[p t] u]|] eqn:E.
  - destruct (Hw _ _ _ _ E) as [Ei _]. rewrite utf8_lossy_ascii in H by (rewrite Ei; by apply lock_id_plain).
    apply cl_under in H. by rewrite E in H.
  - intros p t u ->. apply cl_under in H. destruct (w_locks w !! utf8_lossy i) as [[[p' t'] u']|] eqn:E'.
    + destruct (Hw _ _ _ _ E') as [Ei _]. unfold utf8_lossy in Ei, E'.
      rewrite (lossy_aux_same (S (length i)) i) in E' by (lia || (rewrite Ei; by apply lock_id_plain)). congruence.
    + destruct (J !! utf8_lossy i); [by destruct H|done].
Qed.

Lemma cl_finds is ls : Forall (fun i => is_Some (D !! i)) is -> StronglySorted (fun a b => blt a b = true) is -> finds D is ls ->
  StronglySorted (fun a b => blt a b = true) ((fun x => id x.1.1) <$> ls) /\
  (forall x, x ∈ ls -> id x.1.1 ∈ is /\ w_locks w !! id x.1.1 = Some x) /\
  (forall i x, i ∈ is -> w_locks w !! i = Some x -> x ∈ ls).
Proof using Hw HD HJ HH.
  intros Ha Hs Hf. induction Hf as [|i is p t u ls Hu Hf IH|i is x ls Hu Hno Hf IH].
  - split_and!; [constructor| |]; intros x; [by intros ?%elem_of_nil|by intros ? ?%elem_of_nil].
  - apply Forall_cons in Ha as [Hi Ha]. apply StronglySorted_inv in Hs as [Hs Hlt]. destruct (IH Ha Hs) as (G1 & G2 & G3).
    apply cl_lossy in Hu; [|done]. destruct (w_locks w !! i) as [[[p' t'] u']|] eqn:E; [|by destruct (Hu p t u)].
    injection Hu as <- <- <-. destruct (Hw _ _ _ _ E) as [-> _]. split_and!.
    + cbn [fmap list_fmap fst]. constructor; [done|]. apply Forall_fmap, Forall_forall. intros x Hx. cbn [compose].
      rewrite Forall_forall in Hlt. apply Hlt. by apply G2.
    + intros x [->|Hx]%elem_of_cons; [split; [by left|done]|]. destruct (G2 _ Hx). split; [by right|done].
    + intros k x [->|Hk]%elem_of_cons Hx; [rewrite E in Hx; injection Hx as <-; by left|]. right. by eapply G3.
  - apply Forall_cons in Ha as [Hi Ha]. apply StronglySorted_inv in Hs as [Hs Hlt]. destruct (IH Ha Hs) as (G1 & G2 & G3).
    apply cl_lossy in Hu; [|done]. split_and!; [done| |].
    + intros y Hy. destruct (G2 _ Hy). split; [by right|done].
    + intros k y [->|Hk]%elem_of_cons Hy; [|by eapply G3]. rewrite Hy in Hu. destruct y as [[p t] u]. by destruct (Hno p t u).
Qed.

Lemma cl_listed c ls : listed en D c ls -> locks_from w c ((fun x => (id x.1.1, x)) <$> ls).
Proof using Hw HD HJ HH.
  intros (is & before & Hs & Hin & Hf & Hb & Hh).
  apply cl_finds in Hf as (G1 & G2 & G3); [|apply Forall_forall; intros; by apply Hin|done].
  assert (Hno : forall x, x ∈ ls -> ~ passed c (id x.1.1)).
  { destruct ls as [|y ls]; [by intros x ?%elem_of_nil|]. intros x [->|Hx]%elem_of_cons; [done|].
    rewrite fmap_app in G1. apply StronglySorted_app_inv_r in G1. cbn [fmap list_fmap] in G1.
    apply StronglySorted_inv in G1 as [_ G1]. rewrite Forall_fmap, Forall_forall in G1. specialize (G1 _ Hx). cbn [compose] in G1.
    destruct c as [c|]; cbn [passed] in *; [|tauto]. intros Hxc. apply Hh. by eapply blt_trans. }
  split.
  - rewrite fmap_app in G1. apply StronglySorted_app_inv_r in G1. clear -G1.
    induction ls as [|x ls IH]; [constructor|]. cbn [fmap list_fmap] in *. apply StronglySorted_inv in G1 as [G1 G2].
    constructor; [by apply IH|]. apply Forall_fmap in G2. apply Forall_fmap. exact G2.
  - intros i r. rewrite elem_of_list_fmap. split.
    + intros (x & [= -> ->] & Hx). split; [by apply G2, elem_of_app; right|]. specialize (Hno _ Hx).
      destruct c as [c|]; cbn [passed] in Hno; [|done]. by destruct (blt _ c).
    + intros [Hi Hc]. exists r. assert (i = id r.1.1) as Ei by (destruct r as [[p t] u]; by apply (Hw _ _ _ _ Hi)).
      split; [by rewrite Ei|]. assert (r ∈ before ++ ls) as Hr.
      { eapply G3; [|exact Hi]. apply Hin. rewrite (HD i), Hi. destruct r as [[p t] u]. by eexists. }
      apply elem_of_app in Hr as [Hr|]; [|done]. rewrite Forall_forall in Hb. apply Hb in Hr. rewrite <- Ei in Hr.
      destruct c as [c|]; cbn [passed] in Hr; [|done]. congruence.
Qed.

Lemma cl_lines ls out : lines_of en m ls out -> locks_lines en m ((fun x => (id x.1.1, x)) <$> ls) out.
Proof using Type. induction 1; [constructor|]. cbn [fmap list_fmap fst]. by constructor. Qed.

Lemma cl_does r o : does en m uid clock D r o -> about_locks r -> keeps_off J r ->
  exists a w' D', o = Answered a D' /\ answer_of en m uid clock w r a w' /\ locks_ok en w' /\ locks_and w' J D'.
Proof using Hw HD HJ HH Hclock.
  intros Hd _ Hoff.
  assert (Hsame : forall a, answer_of en m uid clock w r a w -> exists b w' D', Answered a D = Answered b D' /\
    answer_of en m uid clock w r b w' /\ locks_ok en w' /\ locks_and w' J D') by (intros a Ha; by exists a, w, D).
  assert (Hheld : forall p p' t u, under D (id p) (Held p' t u) -> w_locks w !! id p = Some (p', t, u)).
  { intros p p' t u H. apply cl_id in H. destruct (w_locks w !! id p) as [[[p2 t2] u2]|]; [|done]. by injection H as <- <- <-. }
  assert (Hnone : forall p, under D (id p) Nothing -> w_locks w !! id p = None).
  { intros p H. apply cl_id in H. by destruct (w_locks w !! id p) as [[[p2 t2] u2]|]. }
  assert (Huse : forall p a, ~ under D (id p) (Useless a)).
  { intros p a H. apply cl_id in H. by destruct (w_locks w !! id p) as [[[p2 t2] u2]|]. }
  assert (Htime : forall i p t u, w_locks w !! i = Some (p, t, u) -> en_time en t <> None).
  { intros i p t u H. destruct (Hw _ _ _ _ H) as [_ [_ [x Hx]]]. congruence. }
  destruct Hd as [|kvs Hk|kvs p r t t' x H1 H2 H3 H4 H5 H6 H7|kvs p r o H1 H2 H3 H4|kvs b H1 H2|kvs b H1 H2
    |kvs lim n p c t u x H1 H2 H3 H4 H5 H6 H7|kvs lim n p c t u H1 H2 H3 H4 H5 H6 H7|kvs lim n p c H1 H2 H3 H4 H5
    |kvs lim n p a H1 H2 H3 H4|kvs lim n p p' t u H1 H2 H3 H4 H5|kvs lim n c ls out H1 H2 H3 H4 H5 H6
    |kvs lim n c ls p t u H1 H2 H3 H4 H5 H6 H7|i kvs H1|i kvs H1 H2|i kvs a H1 H2|i kvs p t u H1 H2 H3
    |i kvs p t u x d' u' H1 H2 H3 H4|i kvs p t u x H1 H2 H3 H4|i kvs p t u x H1 H2 H3 H4].
  - apply Hsame. constructor.
  - apply Hsame. by constructor.
  - assert (w_locks w !! id p = None) as Hn.
    { rewrite (HD _) in H3. by destruct (w_locks w !! id p) as [[[p2 t2] u2]|]. }
    exists (Reply 201 (lock_info en p x uid) BNone), (World (w_objs w) (<[id p := (p, t, uid)]> (w_locks w))), (<[id p := File (record_of t p) uid]> D).
    split_and!; [done|by eapply a_lock| |].
    + intros i p' t2 u2 Hi. cbn [w_locks] in Hi. apply lookup_insert_Some in Hi as [[<- [= <- <- <-]]|[_ Hi]]; [|by eapply Hw].
      split; [done|by apply Hclock].
    + intros i. cbn [w_locks]. destruct (decide (id p = i)) as [<-|Hne].
      * by rewrite !lookup_insert.
      * rewrite !lookup_insert_ne by done. apply HD.
  - rewrite cl_draft in H3. destruct H3 as [H3|[? ?]]; [|done].
    assert (without_draft en D p = D) as E by (unfold without_draft; by rewrite cl_draft). rewrite E in H4.
    destruct H4 as [H4|a H4|p' t u H4 H5|t u x H4 H5|t u H4 H5].
    + inversion H4. rewrite H in H3. by destruct H3.
    + by destruct (Huse _ _ H4).
    + apply Hsame. eapply a_lock_clash; [done|done|by apply Hheld|done].
    + apply Hsame. eapply a_lock_held; [done|done|by apply Hheld|done].
    + apply Hheld in H4. by apply Htime in H4.
  - apply Hsame. by eapply a_list_number.
  - apply Hsame. by eapply a_list_zero.
  - apply Hsame. eapply a_list_path; try done; [by apply Hheld|].
    destruct c as [c|]; [|done]. cbn [passed] in H6. by destruct (blt _ c).
  - apply Hheld in H5. by apply Htime in H5.
  - apply Hsame. eapply a_list_path_none; try done. destruct H5 as [H5|(t & u & H5 & Hc)]; [left; by apply Hnone|right].
    destruct c as [c|]; [|done]. exists t, u, c. split; [by apply Hheld|done].
  - by destruct (Huse _ _ H4).
  - apply Hsame. eapply a_list_path_clash; try done. by apply Hheld.
  - apply Hsame. pose proof (cl_listed _ _ H5) as G.
    replace (match ls !! n with Some (p, _, _) => [bs "next-cursor=" ++ id p ++ [NL]] | None => [] end)
      with (match ((fun x => (id x.1.1, x)) <$> ls) !! n with Some (i, _) => [bs "next-cursor=" ++ i ++ [NL]] | None => [] end).
    2: { rewrite list_lookup_fmap. destruct (ls !! n) as [[[p t] u]|]; done. }
    eapply a_list; try done. rewrite <- fmap_take. by apply cl_lines.
  - pose proof (cl_listed _ _ H5) as [_ G]. exfalso.
    assert ((p, t, u) ∈ ls) as Hin by (rewrite <- (take_drop (S n) ls); apply elem_of_app; by left).
    apply (Htime (id p) p t u); [|done]. apply G. apply elem_of_list_fmap. by exists (p, t, u).
  - apply Hsame. by apply a_unlock_bad.
  - apply Hsame. apply a_unlock_none; [done|]. apply cl_under in H2. by destruct (w_locks w !! i) as [[[p2 t2] u2]|].
  - cbn [keeps_off] in Hoff. apply cl_under in H2. rewrite Hoff in H2. by destruct (w_locks w !! i) as [[[p2 t2] u2]|].
  - exfalso. apply cl_under in H2. destruct (w_locks w !! i) as [[[p2 t2] u2]|] eqn:E.
    + injection H2 as <- <- <-. by apply Htime in E.
    + destruct (J !! i); [by destruct H2|done].
  - apply cl_under in H2. destruct (w_locks w !! i) as [[[p2 t2] u2]|] eqn:E; [|destruct (J !! i); [by destruct H2|done]].
    injection H2 as <- <- <-. destruct (Hw _ _ _ _ E) as [Ei _]. rewrite <- Ei in *.
    exists (Reply 200 (lock_info en p x u) BNone), (World (w_objs w) (delete i (w_locks w))), (delete i D).
    split_and!; [done|by eapply a_unlock| |].
    + intros k p' t2 u2 Hk. cbn [w_locks] in Hk. apply lookup_delete_Some in Hk as [_ Hk]. by eapply Hw.
    + intros k. cbn [w_locks]. destruct (decide (i = k)) as [<-|Hne].
      * by rewrite !lookup_delete.
      * rewrite !lookup_delete_ne by done. apply HD.
  - exfalso. apply cl_under in H2. destruct (w_locks w !! i) as [[[p2 t2] u2]|] eqn:E; [|destruct (J !! i); [by destruct H2|done]].
    injection H2 as <- <- <-. destruct (Hw _ _ _ _ E) as [Ei _]. rewrite <- Ei, (HD i), E in H4. done.
  - exfalso. apply cl_under in H2. destruct (w_locks w !! i) as [[[p2 t2] u2]|] eqn:E; [|destruct (J !! i); [by destruct H2|done]].
    injection H2 as <- <- <-. destruct (Hw _ _ _ _ E) as [Ei _]. rewrite <- Ei, (HD i), E in H4. done.
Qed.
End dir.

Lemma cl_serves D reqs as_ f D' w : serves en m uid clock D reqs as_ f D' -> locks_ok en w -> locks_and w J D ->
  Forall about_locks reqs -> Forall (keeps_off J) reqs ->
  f = None /\ exists w', session_of en m uid clock w reqs as_ w' /\ locks_ok en w' /\ locks_and w' J D'.
Proof using HJ HH Hclock.
  intros H. revert w. induction H as [D|D r a D1 rs as_ f D2 H1 H2 IH|D r f D1 rs H1]; intros w Hw HD Hab Hoff.
  - split; [done|]. exists w. split_and!; [constructor|done|done].
  - apply Forall_cons in Hab as [Ha Hab]. apply Forall_cons in Hoff as [Ho Hoff].
    destruct (cl_does w D Hw HD r _ H1 Ha Ho) as (b & w' & E & [= -> ->] & G1 & G2 & G3).
    destruct (IH w' G2 G3 Hab Hoff) as (-> & w2 & G4 & G5 & G6). split; [done|]. exists w2. split_and!; [by econstructor|done|done].
  - apply Forall_cons in Hab as [Ha Hab]. apply Forall_cons in Hoff as [Ho Hoff].
    by destruct (cl_does w D Hw HD r _ H1 Ha Ho) as (b & w' & E & ? & _).
Qed.
End clutter.

(** ** C85 *)
Lemma c85 en lfs umask ts (clock : Z -> Prop) m pid os l s w J D reqs extra fuel :
  setting en lfs ts clock os -> contains lfs s D -> locks_ok en w -> clutter en J -> locks_and w J D ->
  asks m l reqs extra -> Forall about_locks reqs -> Forall (keeps_off J) reqs ->
  (2 * length (l_in l) + 2 <= fuel)%nat ->
  exists as_ w' D' l' s' ps out,
    run pid (transfer_run en fuel lfs umask ts (operation m)) os l s = (Done (Ok tt), l', s') /\
    session_of en m (l_uid l) clock w reqs as_ w' /\ contains lfs s' D' /\ locks_and w' J D' /\
    replies_sent (as_ ++ extra) ps /\
    wires (PData (bs "version=1" ++ [NL]) :: PFlush :: ps) out /\ l_out l' = l_out l ++ out.
Proof.
  intros Hset Hc Hw HJ HD Hasks Hab Hoff Hf.
  destruct (c84 en lfs umask ts clock m pid os l s D reqs extra fuel Hset Hc Hasks Hab Hf)
    as (as_ & f & D' & s' & l' & ps & out & Hrun & Hsv & Hc' & Hps & Hwi & Hout).
  destruct Hset as [HH _ _ Hclock _].
  destruct (cl_serves en m (l_uid l) clock HH Hclock J HJ _ _ _ _ _ w Hsv Hw HD Hab Hoff) as (-> & w' & G1 & G2 & G3).
  exists as_, w', D', l', s', ps, out. by split_and!.
Qed.

(** ** C86 *)
Lemma finds_in D is ls x : finds D is ls -> x ∈ ls -> exists i d, D !! i = Some (File d x.2) /\ says d x.1.2 x.1.1.
Proof.
  induction 1 as [|i is p t u ls Hu Hf IH|i is y ls Hu Hno Hf IH]; intros Hx; [by apply elem_of_nil in Hx| |by apply IH].
  apply elem_of_cons in Hx as [->|Hx]; [|by apply IH]. inversion Hu as [| | |d' u' t' p' H1 H2]; subst. by exists (utf8_lossy i), d'.
Qed.
Lemma finds_le D is ls : finds D is ls -> (length ls <= length is)%nat.
Proof. induction 1; simpl; lia. Qed.
Lemma finds_all D is ls i d u t p : finds D is ls -> i ∈ is -> utf8_lossy i = i -> D !! i = Some (File d u) -> says d t p -> (p, t, u) ∈ ls.
Proof.
  intros Hf Hi Hl HD Hs. induction Hf as [|k is p' t' u' ls Hu Hf IH|k is y ls Hu Hno Hf IH]; [by apply elem_of_nil in Hi| |].
  - apply elem_of_cons in Hi as [<-|Hi]; [|right; by apply IH]. rewrite Hl in Hu.
    inversion Hu as [| | |d' u2 t2 p2 H1 H2]; subst. rewrite HD in H1. injection H1 as <- <-.
    destruct (says_fun _ _ _ _ _ Hs H2) as [-> ->]. by left.
  - apply elem_of_cons in Hi as [<-|Hi]; [|by apply IH]. rewrite Hl in Hu. exfalso.
    inversion Hu as [H1|H1|d' u2 H1 H2|d' u2 t2 p2 H1 H2]; subst; rewrite HD in H1; try done.
    + injection H1 as <- <-. by destruct (H2 t p).
    + by destruct (Hno p2 t2 u2).
Qed.
Lemma lines_of_in en m ls out p t u : lines_of en m ls out -> (p, t, u) ∈ ls ->
  exists x pre post, en_time en t = Some x /\ out = pre ++ lock_lines en m p x u ++ post.
Proof.
  induction 1 as [|p' t' u' x ls out Hx Hl IH]; intros Hin; [by apply elem_of_nil in Hin|].
  apply elem_of_cons in Hin as [[= -> -> ->]|Hin].
  - by exists x, [], out.
  - destruct (IH Hin) as (y & pre & post & Hy & ->). exists y, (lock_lines en m p' x u' ++ pre), post.
    split; [done|]. by rewrite <- app_assoc.
Qed.
Lemma strict_nodup (l : list bytes) : StronglySorted (fun a b => blt a b = true) l -> NoDup l.
Proof.
  induction 1 as [|a l _ IH Hf]; constructor; [|done]. intros Ha. rewrite Forall_forall in Hf. apply Hf in Ha.
  by rewrite blt_irrefl in Ha.
Qed.

Lemma c86 en lfs umask ts (clock : Z -> Prop) m pid os l s D kvs extra fuel :
  setting en lfs ts clock os -> contains lfs s D -> asks m l [RList kvs] extra ->
  no_key (bs "path") kvs -> no_key (bs "cursor") kvs -> no_key (bs "limit") kvs ->
  (2 * length (l_in l) + 2 <= fuel)%nat -> (size D <= 100)%nat ->
  (forall i d u t p, D !! i = Some (File d u) -> says d t p -> is_Some (en_time en t)) ->
  exists out s', handled en lfs umask ts clock m pid fuel os l s D [RList kvs] [Reply 200 [] (BLines out)] extra None D s' /\
    forall p d u t, D !! lock_id (en_hash en) p = Some (File d u) -> says d t p ->
      exists x pre post, en_time en t = Some x /\ out = pre ++ lock_lines en m p x u ++ post.
Proof.
  intros Hset Hc Hasks Hnp Hnc Hnl Hf Hsize Htimes.
  destruct (c84 en lfs umask ts clock m pid os l s D [RList kvs] extra fuel Hset Hc Hasks ltac:(by repeat constructor) Hf)
    as (as_ & f & D' & s' & G). pose proof (set_hash _ _ _ _ _ Hset) as HH.
  assert (Hnokey : forall k v, no_key k kvs -> (k, v) ∉ kvs).
  { intros k v Hk Hin. apply Hk. apply elem_of_list_fmap. by exists (k, v). }
  assert (Hdo : forall o, does en m (l_uid l) clock D (RList kvs) o -> exists ls out, listed en D None ls /\
    lines_of en m (take 101 ls) out /\
    o = Answered (Reply 200 (match ls !! 100%nat with Some (p, _, _) => [bs "next-cursor=" ++ lock_id (en_hash en) p ++ [NL]] | None => [] end) (BLines out)) D).
  { assert (Hc' : forall v, key (bs "cursor") kvs v -> v = None) by (intros [v|] Hv; [by apply Hnokey in Hv|done]).
    assert (Hl' : forall v, key (bs "limit") kvs v -> v = None) by (intros [v|] Hv; [by apply Hnokey in Hv|done]).
    intros o Ho. inversion Ho as [| | | | | | | | | | |? lim n c ls out H1 H2 H3 H4 H5 H6|? lim n c ls p t u H1 H2 H3 H4 H5 H6 H7| | | | | | |]; subst;
      try (match goal with
           | H : (bs "path", _) ∈ kvs |- _ => by destruct (Hnokey _ _ Hnp H)
           | H : (bs "limit", _) ∈ kvs |- _ => by destruct (Hnokey _ _ Hnl H)
           end).
    - apply Hc' in H4 as ->. apply Hl' in H1 as ->. inversion H2; subst. by exists ls, out.
    - exfalso. destruct H5 as (is & b & _ & _ & Hfi & _).
      assert ((p, t, u) ∈ b ++ ls) as Hin.
      { apply elem_of_app. right. rewrite <- (take_drop (S n) ls). apply elem_of_app. by left. }
      destruct (finds_in _ _ _ _ Hfi Hin) as (i & d & Hi & Hs). destruct (Htimes _ _ _ _ _ Hi Hs) as [? ?]. cbn [fst snd] in *. congruence. }
  destruct G as (l' & ps & out & Hrun & Hsv & G).
  inversion Hsv as [|? ? a D1 ? as1 ? ? H1 H2|? ? f' ? ? H1]; subst.
  2: { apply Hdo in H1 as (? & ? & _ & _ & ?). done. }
  pose proof H1 as H1'. apply Hdo in H1' as (ls & lout & Hls & Hlo & [= -> ->]).
  assert (D' = D /\ as1 = [] /\ f = None) as (-> & -> & ->) by (by inversion H2).
  destruct Hls as (is & b & Hss & Hin & Hfi & Hb & _).
  assert (b = []) as -> by (destruct b as [|x b]; [done|]; apply Forall_cons in Hb as [[] _]). cbn [app] in Hfi.
  assert (Hlen : (length ls <= 100)%nat).
  { pose proof (finds_le _ _ _ Hfi). assert (length is <= size D)%nat; [|lia].
    rewrite <- (size_list_to_set (C := gset bytes) is) by (by apply strict_nodup). rewrite <- size_dom.
    apply subseteq_size. intros i Hi. apply elem_of_list_to_set in Hi. apply elem_of_dom. by apply Hin. }
  rewrite lookup_ge_None_2 in Hsv, G, H1 by lia. exists lout, s'. split.
  - by exists l', ps, out.
  - intros p d u t Hp Hs. eapply lines_of_in; [exact Hlo|]. rewrite take_ge by lia.
    eapply finds_all; [exact Hfi| | |exact Hp|exact Hs].
    + apply Hin. by eexists.
    + apply utf8_lossy_ascii. by apply lock_id_plain.
Qed.
