(** Proofs for Props_Lines.v. *)
From Verif Require Import Bytes Err FS Prog Pktline Args Local Processor Transfer Wp
  ByteFacts PktFacts FsFacts IoFacts Spec SpecStore SpecServer SpecLines Session SessionFacts SessionProps.

Definition fits (l : bytes) : Prop := (1 <= lenN l <= 65516)%N.
Definition fitting (r : reply) : Prop :=
  Forall fits (rp_args r) /\ match rp_body r with BLines ls => Forall fits ls | _ => True end.

Lemma lines_one ls ps : lines_sent ls ps -> Forall fits ls -> ps = lines ls.
Proof.
  induction 1 as [|l ls ps qs Hl Hls IH]; intros Hf; [done|].
  apply Forall_cons in Hf as [Hf Hfs]. destruct Hl as (cs & -> & _ & _ & E). rewrite (E Hf), (IH Hfs). done.
Qed.
Lemma reply_one r ps : reply_sent r ps -> fitting r -> one_packet_each r ps.
Proof.
  intros (code & qa & qb & Hc & Hn & Ha & Hb & ->) [Fa Fb]. exists code, qb.
  rewrite (lines_one _ _ Ha Fa). split_and!; try done. destruct (rp_body r); try done.
  destruct Hb as (qs & -> & Hq). by rewrite (lines_one _ _ Hq Fb).
Qed.
Lemma replies_one rs ps : replies_sent rs ps -> Forall fitting rs -> all_one_packet_each rs ps.
Proof.
  induction 1 as [|r rs ps qs Hr Hrs IH]; intros Hf; [constructor|].
  apply Forall_cons in Hf as [Hf Hfs]. constructor; [by apply reply_one|by apply IH].
Qed.

Section s.
Context (en : env) (m : mode) (uid : N) (clock : Z -> Prop).
Context (Hh : digest (en_hash en)) (Ht : forall t, clock t -> short_time en t) (Hu : short_name en uid).

Lemma id_len p : lenN (lock_id (en_hash en) p) = 64%N.
Proof. unfold lock_id, lenN. rewrite hex_encode_length, Hh. done. Qed.
Ltac fit := unfold fits, lenN in *; rewrite ?app_length; simpl length; rewrite ?app_length; simpl length; lia.
Lemma info_fits p x u t : (lenN p <= 65445)%N /\ short_time en t /\ short_name en u -> en_time en t = Some x -> Forall fits (lock_info en p x u).
Proof.
  intros (Hp & Ht' & Hu') E. pose proof (id_len p). apply Ht' in E. unfold short_name in Hu'.
  repeat constructor; fit.
Qed.
Lemma lock_lines_fit p x u t : (lenN p <= 65445)%N /\ short_time en t /\ short_name en u -> en_time en t = Some x -> Forall fits (lock_lines en m p x u).
Proof.
  intros (Hp & Ht' & Hu') E. pose proof (id_len p). apply Ht' in E. unfold short_name in Hu'. unfold lock_lines.
  apply Forall_app. split; [repeat constructor; fit|]. destruct m; [|constructor]. repeat constructor; [|].
  - destruct (decide _); fit.
  - destruct (decide _); fit.
Qed.
Lemma locks_fit ls out : locks_lines en m ls out ->
  (forall i p t u, (i, (p, t, u)) ∈ ls -> (lenN p <= 65445)%N /\ short_time en t /\ short_name en u) -> Forall fits out.
Proof.
  induction 1 as [|i p t u x ls out E Hl IH]; intros Hs; [constructor|]. apply Forall_app.
  split; [eapply lock_lines_fit; [|done]; eapply Hs; left|].
  apply IH. intros * Hi. eapply Hs. by right.
Qed.
Lemma batch_fits w o n : short_world en w -> is_oid o -> (n < 2 ^ 64)%N -> fits (batch_line_for m w o n).
Proof.
  intros Hw [Ho _] Hnn. unfold batch_line_for. destruct (w_objs w !! o) as [d|] eqn:E.
  - apply (proj2 Hw) in E. pose proof (dec_length _ 64 E). destruct m; fit.
  - pose proof (dec_length _ 64 Hnn). destruct m; fit.
Qed.
Lemma batches_fit w items ns : short_world en w ->
  Forall (fun x => is_oid x.1 /\ exists n, number x.2 n) items -> Forall2 (fun x n => number x.2 n) items ns ->
  Forall fits (zip_with (batch_line_for m w) items.*1 ns).
Proof.
  intros Hw Hi H. revert Hi. induction H as [|x n items ns Hx Hs IH]; intros Hi; simpl; constructor;
    apply Forall_cons in Hi as [[Ho _] Hi]; [|by apply IH]. apply batch_fits; [done|done|]. apply Hx.
Qed.

Definition ids (w : world) : Prop := forall i e, w_locks w !! i = Some e -> lenN i = 64%N.
Lemma answer_fits w r a w' : answer_of en m uid clock w r a w' -> well_formed m r -> short_request r -> short_world en w -> ids w ->
  fitting a /\ short_world en w' /\ ids w'.
Proof.
  intros Ha Hr Hs Hw Hi. destruct Ha; try (split; [split; [by constructor|exact I]|done]).
  - split; [split; constructor|done].
  - split; [|done]. split; [constructor|]. destruct Hr as [_ Hit]. by eapply batches_fit.
  - split; [split; constructor|]. split; [|done]. split; [apply Hw|]. intros o' d Hd. simpl in Hd.
    apply lookup_insert_Some in Hd as [[_ <-]|[_ Hd]]; [|by eapply Hw]. by match goal with H : number _ _ |- _ => destruct H end.
  - split; [split; [constructor; [|constructor]|done]|done].
    match goal with H : w_objs w !! _ = Some _ |- _ => apply (proj2 Hw) in H; pose proof (dec_length _ 64 H) end. fit.
  - assert (Hp : (lenN p <= 65445)%N) by by apply Hs.
    split; [split; [eapply (info_fits p x uid t'); [split_and!; [done|by apply Ht|done]|done]|done]|]. split; [split; [|apply Hw]|].
    + intros i p' t2 u Hl. simpl in Hl. apply lookup_insert_Some in Hl as [[_ [= <- <- <-]]|[_ Hl]]; [split_and!; [done|by apply Ht|done]|].
      by apply (proj1 Hw) in Hl.
    + intros i e Hl. simpl in Hl. apply lookup_insert_Some in Hl as [[<- _]|[_ Hl]]; [apply id_len|by eapply Hi].
  - match goal with H : w_locks w !! _ = Some _ |- _ => apply (proj1 Hw) in H end.
    split; [split; [by eapply info_fits|done]|done].
  - match goal with H : w_locks w !! _ = Some _ |- _ => apply (proj1 Hw) in H end.
    split; [split; [constructor|by eapply lock_lines_fit]|done].
  - match goal with H : locks_from _ _ _ |- _ => destruct H as [_ Hl] end. split; [|done]. split.
    + simpl rp_args. destruct (ls !! n) as [[i r]|] eqn:E; [|constructor]. constructor; [|constructor].
      apply elem_of_list_lookup_2, Hl in E as [E _]. apply Hi in E.
      fit.
    + simpl. eapply locks_fit; [done|]. intros i p t u Hx. apply elem_of_take in Hx as (k & Hk & _).
      apply elem_of_list_lookup_2, Hl in Hk as [Hk _]. by apply (proj1 Hw) in Hk.
  - match goal with H : w_locks w !! _ = Some _ |- _ => pose proof H as Hl; apply (proj1 Hw) in Hl end.
    split; [split; [by eapply info_fits|done]|]. split; [split; [|apply Hw]|].
    + intros i' p' t' u' Hd. simpl in Hd. apply lookup_delete_Some in Hd as [_ Hd]. by apply (proj1 Hw) in Hd.
    + intros i' e Hd. simpl in Hd. apply lookup_delete_Some in Hd as [_ Hd]. by eapply Hi.
Qed.
Lemma session_fits w reqs as_ w' : session_of en m uid clock w reqs as_ w' -> Forall (well_formed m) reqs ->
  Forall short_request reqs -> short_world en w -> ids w -> Forall fitting as_.
Proof.
  induction 1 as [w|w r a w1 rs as_ w2 Ha _ IH]; intros Hr Hs Hw Hi; [constructor|].
  apply Forall_cons in Hr as [Hr Hrs], Hs as [Hs Hss].
  destruct (answer_fits _ _ _ _ Ha Hr Hs Hw Hi) as (? & ? & ?). constructor; [done|by apply IH].
Qed.
End s.

Lemma c48 en lfs umask ts (clock : Z -> Prop) m pid os l s w reqs extra fuel :
  setting en lfs ts clock os -> holds en lfs s w -> asks m l reqs extra -> enough fuel l w ->
  (forall t, clock t -> short_time en t) -> short_name en (l_uid l) -> short_world en w -> Forall short_request reqs ->
  exists as_ w' l' s' ps out,
    run pid (transfer_run en fuel lfs umask ts (operation m)) os l s = (Done (Ok tt), l', s') /\
    session_of en m (l_uid l) clock w reqs as_ w' /\ all_one_packet_each (as_ ++ extra) ps /\
    wires (PData (bs "version=1" ++ [NL]) :: PFlush :: ps) out /\ l_out l' = l_out l ++ out.
Proof.
  intros Hset Hh Ha Hf Ht Hu Hw Hs.
  destruct (c13 en lfs umask ts clock m pid os l s w reqs extra fuel Hset Hh Ha Hf)
    as (as_ & w' & s' & l' & ps & out & H1 & H2 & _ & H3 & H4 & H5).
  exists as_, w', l', s', ps, out. split_and!; try done. apply replies_one; [done|]. apply Forall_app. split.
  - eapply (session_fits en m (l_uid l) clock (set_hash _ _ _ _ _ Hset) Ht Hu); [done|apply Ha|done|done|].
    intros i [[p t] u] Hi. apply (h_lock _ _ _ _ Hh) in Hi as (_ & -> & _). apply id_len, Hset.
  - destruct Ha as (_ & inp & rest & _ & He & _). destruct He; repeat constructor.
Qed.
