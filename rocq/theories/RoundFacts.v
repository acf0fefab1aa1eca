(** Calls in parts, and how packets are read: for RoundProofs.v. *)
From Verif Require Import Bytes ByteFacts Err FS Prog Pktline Args Local Processor Transfer Wp Rg PktFacts ReaderFacts Total ServerEv
  Spec SpecStore SpecServer SpecFrame SpecTalk SpecPerm SpecInput SpecRound FsFacts PktProofs TextProofs IoFacts ObjProofs SeqIo SeqCmd
  OddProofs InputProofs TalkProofs PermProofs.
From Verif Require SpecOdd SpecLockDir LockDirProofs.
From stdpp Require Import sorting.

Local Arguments parse_header : simpl never.
Local Opaque COPY_BUF pk MAX_PACKET_LEN.

(** ** Calls in parts *)
Lemma calls_ret {A} (a b : A) tr : calls (Ret a) tr (Some b) -> tr = [] /\ b = a.
Proof. destruct tr; [|done]. by intros [|[= ->]]. Qed.
Lemma calls_bind {A B} (p : prog A) (f : A -> prog B) tr b : calls (bind p f) tr (Some b) ->
  exists tr1 tr2 a, tr = tr1 ++ tr2 /\ calls p tr1 (Some a) /\ calls (f a) tr2 (Some b).
Proof.
  revert tr. induction p as [a|x|e k IH]; intros tr H; cbn [bind] in H.
  - exists [], tr, a. split_and!; [done|by right|done].
  - by destruct tr.
  - destruct tr as [|d tr]; [done|]. destruct H as (r & -> & Hr & H). apply IH in H as (tr1 & tr2 & a & -> & H1 & H2).
    exists (existT e r :: tr1), tr2, a. split_and!; [done| |done]. by exists r.
Qed.
Lemma calls_bindR {A B} (p : prog (res A)) (f : A -> prog (res B)) tr b : calls (bindR p f) tr (Some b) ->
  exists tr1 tr2 r, tr = tr1 ++ tr2 /\ calls p tr1 (Some r) /\
    match r with Ok a => calls (f a) tr2 (Some b) | Er e => tr2 = [] /\ b = Er e end.
Proof.
  intros (tr1 & tr2 & r & -> & H1 & H2)%calls_bind. exists tr1, tr2, r. split_and!; [done|done|].
  destruct r as [a|e]; [done|]. by apply calls_ret.
Qed.
Lemma calls_vis {A} e (k : resp e -> prog A) tr b : calls (Vis e k) tr (Some b) ->
  exists r tr2, tr = existT e r :: tr2 /\ sensible e r /\ calls (k r) tr2 (Some b).
Proof. destruct tr as [|d tr]; [done|]. intros (r & -> & Hr & H). by exists r, tr. Qed.
Lemma calls_io_call {A} (p : prog (iores A)) tr r : calls (io_call p) tr (Some r) ->
  exists x, calls p tr (Some x) /\ r = res_of_io x.
Proof.
  intros (tr1 & tr2 & x & -> & H1 & [-> ->]%calls_ret)%calls_bind. exists x. by rewrite app_nil_r.
Qed.
Lemma calls_all_ev {A} (P : ev -> Prop) (p : prog A) tr x : all_ev P p -> calls p tr x -> Forall (fun d => P (projT1 d)) tr.
Proof.
  revert tr. induction p as [a|f|e k IH]; intros tr Hp Hc; destruct tr as [|d tr]; try done.
  destruct Hp as [He Hp]. destruct Hc as (r & -> & Hr & Hc). constructor; [done|]. by apply (IH r tr (Hp r Hr)).
Qed.

(** ** Parts of the calls *)
Lemma reads_app a b : reads (a ++ b) = reads a ++ reads b. Proof. apply List.filter_app. Qed.
Lemma deeds_app a b : deeds (a ++ b) = deeds a ++ deeds b. Proof. apply List.filter_app. Qed.
Lemma spoken_app a b : spoken (a ++ b) = spoken a ++ spoken b. Proof. unfold spoken. by rewrite map_app, concat_app. Qed.
Lemma exact_app a b : exact (a ++ b) <-> exact a /\ exact b.
Proof.
  unfold exact. split.
  - intros H. split; intros n c Hin; apply H, elem_of_app; auto.
  - intros [H1 H2] n c [Hin|Hin]%elem_of_app; auto.
Qed.
Lemma exact_cons d b : exact (d :: b) -> exact b.
Proof. intros H n c Hin. apply H. by right. Qed.
Lemma hears_app r1 r2 is1 is2 : hears r1 is1 -> hears r2 is2 -> hears (r1 ++ r2) (is1 ++ is2).
Proof. induction 1 as [|r i rs is Hr H IH]; [done|]. intros H2. rewrite <- app_assoc. cbn [app]. constructor; auto. Qed.
Lemma hears_one r i : hear r i -> hears r [i].
Proof. intros H. rewrite <- (app_nil_r r). constructor; [done|constructor]. Qed.

Definition took (tr : list done_call) (is : list item) (ds : list done_call) : Prop := hears (reads tr) is /\ deeds tr = ds.
Lemma took_app a b is1 is2 ds1 ds2 : took a is1 ds1 -> took b is2 ds2 -> took (a ++ b) (is1 ++ is2) (ds1 ++ ds2).
Proof. intros [H1 H2] [H3 H4]. split; [rewrite reads_app; by apply hears_app|rewrite deeds_app; congruence]. Qed.
Lemma took_nil : took [] [] []. Proof. split; [constructor|done]. Qed.
Lemma took_deed d tr is ds : is_deed d = true -> took tr is ds -> took (d :: tr) is (d :: ds).
Proof.
  intros Hd [H1 H2]. unfold took, reads, deeds in *. cbn [List.filter]. rewrite Hd, H2.
  assert (is_read d = false) as -> by (destruct d as [e r]; by destruct e). done.
Qed.
Lemma took_call e r tr is ds : is_deed (existT e r) = true -> took tr is ds -> took (existT e r :: tr) is (existT e r :: ds).
Proof. apply took_deed. Qed.

(** ** Packets *)
Definition err_for (i : item) : error :=
  match i with Lost x => err_of_io x | _ => err_simple BadPktlineHeader end.
Lemma c_read_header tr r : exact tr -> calls read_header tr (Some r) ->
  (exists h v, tr = [existT (ERead 4) (IOk h)] /\ header h v /\ r = Ok v) \/
  (exists h, tr = [existT (ERead 4) (IOk h)] /\ length h = 4%nat /\ (forall v, ~ header h v) /\ r = Er (err_simple BadPktlineHeader)) \/
  (exists x, tr = [existT (ERead 4) (IErr x)] /\ r = Er (err_of_io x)).
Proof.
  intros He (tr1 & tr2 & x & -> & (y & (y0 & tr0 & -> & _ & [-> ->]%calls_ret)%calls_vis & ->)%calls_io_call & H)%calls_bindR.
  destruct y0 as [h|x]; cbn [res_of_io] in H.
  2: { destruct H as [-> ->]. right; right. by exists x. }
  assert (Hl : lenN h = 4%N) by (apply (He 4%N h); by left).
  assert (length h = 4%nat) as Hl' by (unfold lenN in Hl; lia). destruct (four h Hl') as (a & b & c & d & ->).
  apply calls_ret in H as [-> ->]. destruct (parse_header (a, b, c, d)) as [v|e] eqn:E.
  - left. exists [a; b; c; d], v. split_and!; [done| |done]. apply header_iff. by exists a, b, c, d.
  - right; left. exists [a; b; c; d]. split_and!; [done|done| |].
    + intros v (a' & b' & c' & d' & [= <- <- <- <-] & Hv)%header_iff. congruence.
    + unfold parse_header in E. destruct (hdr_digit a), (hdr_digit b), (hdr_digit c), (hdr_digit d); try discriminate E; by injection E as <-.
Qed.

Lemma c_read_packet tr r : exact tr -> calls read_packet tr (Some r) ->
  exists i, took tr [i] [] /\
    match r with Ok p => i = Got p | Er e => e = err_for i /\ (i = Garbled \/ exists x, i = Lost x) end.
Proof.
  intros He (tr1 & tr2 & x & -> & H1 & H)%calls_bindR. apply exact_app in He as [He1 He2].
  destruct (c_read_header _ _ He1 H1) as [(h & v & -> & Hv & ->)|[(h & -> & Hh & Hv & ->)|(x' & -> & ->)]].
  - destruct (v =? 0)%N eqn:E0.
    { apply N.eqb_eq in E0 as ->. apply calls_ret in H as [-> ->]. exists (Got PFlush). split; [|done].
      split; [|done]. apply hears_one. by constructor. }
    destruct (v =? 1)%N eqn:E1.
    { apply N.eqb_eq in E1 as ->. apply calls_ret in H as [-> ->]. exists (Got PDelim). split; [|done].
      split; [|done]. apply hears_one. by constructor. }
    apply N.eqb_neq in E0, E1.
    destruct ((v =? 2) || (v =? 3))%N eqn:E2.
    { apply calls_ret in H as [-> ->]. exists Garbled. split; [|split; [done|by left]]. split; [|done]. apply hears_one. constructor.
      split; [by eapply header_len|]. intros v' Hv'. apply orb_true_iff in E2. rewrite !N.eqb_eq in E2.
      apply header_iff in Hv as (a & b & c & d & -> & P1), Hv' as (a' & b' & c' & d' & [= <- <- <- <-] & P2). rewrite P1 in P2.
      injection P2 as <-. done. }
    apply orb_false_iff in E2. rewrite !N.eqb_neq in E2.
    apply calls_bindR in H as (tr3 & tr4 & y & -> & (z & (y0 & tr0 & -> & _ & [-> ->]%calls_ret)%calls_vis & ->)%calls_io_call & H).
    assert (Ev : v = (v - 4 + 4)%N) by lia. destruct y0 as [d|x]; cbn [res_of_io] in H.
    + apply calls_ret in H as [-> ->]. exists (Got (PData d)). split; [|done]. split; [|done]. apply hears_one.
      apply (he_data h (v - 4) d); [by rewrite <- Ev|]. apply (He2 (v - 4)%N d). by left.
    + destruct H as [-> ->]. exists (Lost x). split; [|split; [done|right; by exists x]]. split; [|done]. apply hears_one.
      apply (he_cut h (v - 4) x). by rewrite <- Ev.
  - destruct H as [-> ->]. exists Garbled. split; [|split; [done|by left]]. split; [|done]. apply hears_one. constructor. split; [done|].
    intros v' Hv'. by destruct (Hv v').
  - destruct H as [-> ->]. exists (Lost x'). split; [|split; [done|right; by exists x']]. split; [|done]. apply hears_one. constructor.
Qed.

Lemma c_read_one tr r : exact tr -> calls read_one tr (Some r) ->
  exists i, took tr [i] [] /\
    match r with Ok p => i = Got p | Er e => e = err_for i /\ forall p, i <> Got p end.
Proof.
  intros He (tr1 & tr2 & x & -> & H1 & H)%calls_bindR. apply exact_app in He as [He1 He2].
  destruct (c_read_header _ _ He1 H1) as [(h & v & -> & Hv & ->)|[(h & -> & Hh & Hv & ->)|(x' & -> & ->)]].
  - destruct (v =? 0)%N eqn:E0.
    { apply N.eqb_eq in E0 as ->. apply calls_ret in H as [-> ->]. exists (Got PFlush). split; [|done].
      split; [|done]. apply hears_one. by constructor. }
    destruct (v =? 1)%N eqn:E1.
    { apply N.eqb_eq in E1 as ->. apply calls_ret in H as [-> ->]. exists (Got PDelim). split; [|done].
      split; [|done]. apply hears_one. by constructor. }
    apply N.eqb_neq in E0, E1.
    destruct ((v =? 2) || (v =? 3))%N eqn:E2.
    { apply calls_ret in H as [-> ->]. exists Garbled. split; [|split; [done|by intros p]]. split; [|done]. apply hears_one. constructor.
      split; [by eapply header_len|]. intros v' Hv'. apply orb_true_iff in E2. rewrite !N.eqb_eq in E2.
      apply header_iff in Hv as (a & b & c & d & -> & P1), Hv' as (a' & b' & c' & d' & [= <- <- <- <-] & P2). rewrite P1 in P2.
      injection P2 as <-. done. }
    apply orb_false_iff in E2. rewrite !N.eqb_neq in E2.
    destruct (MAX_PACKET_LEN + 4 <? v)%N eqn:E3.
    { apply N.ltb_lt in E3. apply calls_ret in H as [-> ->]. exists TooLong. split; [|split; [done|by intros p]]. split; [|done].
      apply hears_one. by apply (he_long h v). }
    apply calls_bindR in H as (tr3 & tr4 & y & -> & (z & (y0 & tr0 & -> & _ & [-> ->]%calls_ret)%calls_vis & ->)%calls_io_call & H).
    assert (Ev : v = (v - 4 + 4)%N) by lia. destruct y0 as [d|x]; cbn [res_of_io] in H.
    + apply calls_ret in H as [-> ->]. exists (Got (PData d)). split; [|done]. split; [|done]. apply hears_one.
      apply (he_data h (v - 4) d); [by rewrite <- Ev|]. apply (He2 (v - 4)%N d). by left.
    + destruct H as [-> ->]. exists (Lost x). split; [|split; [done|by intros p]]. split; [|done]. apply hears_one.
      apply (he_cut h (v - 4) x). by rewrite <- Ev.
  - destruct H as [-> ->]. exists Garbled. split; [|split; [done|by intros p]]. split; [|done]. apply hears_one. constructor. split; [done|].
    intros v' Hv'. by destruct (Hv v').
  - destruct H as [-> ->]. exists (Lost x'). split; [|split; [done|by intros p]]. split; [|done]. apply hears_one. constructor.
Qed.

Lemma c_read_to_type f stop tr r : exact tr -> calls (read_to_type f stop) tr (Some r) ->
  exists is, took tr is [] /\
    match r with
    | Ok ls => exists qs, part stop is qs /\ ls = map payload qs
    | Er e => exists i, broken_part stop is i /\ e = err_for i
    end.
Proof.
  revert tr r. induction f as [|f IH]; intros tr r He H; cbn [read_to_type] in H; [by destruct tr|].
  apply calls_bind in H as (tr1 & tr2 & x & -> & H1 & H). apply exact_app in He as [He1 He2].
  destruct (c_read_packet _ _ He1 H1) as (i & Hi & Hx). destruct x as [p|e].
  - subst i. case_decide as Ep.
    + subst p. apply calls_ret in H as [-> ->]. exists [Got stop]. rewrite app_nil_r. split; [done|].
      exists []. split; [|done]. exists (Got stop). split_and!; [done|apply not_elem_of_nil|by left].
    + apply calls_bindR in H as (tr3 & tr4 & y & -> & H2 & H). apply exact_app in He2 as [He2 _].
      destruct (IH _ _ He2 H2) as (is & Hi2 & Hy). exists (Got p :: is).
      assert (Ht : forall t4, t4 = [] -> took (tr1 ++ tr3 ++ t4) (Got p :: is) []).
      { intros t4 ->. rewrite app_nil_r. apply (took_app _ _ [Got p] is [] []); done. }
      destruct y as [ls|e].
      * apply calls_ret in H as [-> ->]. split; [by apply Ht|]. destruct Hy as (qs & (i & -> & Hq & Hs) & ->).
        exists (p :: qs). split; [|by destruct p]. exists i. split_and!; [done| |done]. apply not_elem_of_cons. split; [congruence|done].
      * destruct H as [-> ->]. split; [by apply Ht|]. destruct Hy as (i & (qs & -> & Hq & Hs) & ->). exists i. split; [|done].
        exists (p :: qs). split_and!; [done| |done]. apply not_elem_of_cons. split; [congruence|done].
  - destruct Hx as [-> Hx]. case_decide as Ee; apply calls_ret in H as [-> ->]; exists [i]; rewrite app_nil_r; split; try done.
    + exists []. split; [|done]. exists i. split_and!; [done|apply not_elem_of_nil|]. right.
      destruct Hx as [->|[x ->]]; [done|]. exists x. done.
    + exists i. split; [|done]. exists []. split_and!; [done|apply not_elem_of_nil|]. destruct Hx as [->|[x ->]]; [by left|].
      right. exists x. done.
Qed.
