(** Proofs for Props_Round.v: whole sessions. *)
From Verif Require Import Bytes ByteFacts Err FS Prog Pktline Args Local Processor Transfer Wp Rg Total ServerEv Mon
  Spec SpecStore SpecServer SpecFrame SpecTalk SpecPerm SpecStart SpecRound PktProofs CallsProofs TalkProofs PermProofs StartProofs Session ReaderFacts RoundFacts RoundProofs.

(** ** Calls of which the last may still be going on *)
Lemma calls_cut {A B} (p : prog A) (f : A -> prog B) tr x : calls (bind p f) tr x ->
  (exists tr1 tr2 a, tr = tr1 ++ tr2 /\ calls p tr1 (Some a) /\ calls (f a) tr2 x) \/ calls p tr None /\ x = None.
Proof.
  revert tr. induction p as [a|c|e k IH]; intros tr H; cbn [bind] in H.
  - left. exists [], tr, a. split_and!; [done|by right|done].
  - right. by destruct tr.
  - destruct tr as [|d tr]; [by right|]. destruct H as (r & -> & Hr & H).
    apply IH in H as [(tr1 & tr2 & a & -> & H1 & H2)|[H ->]].
    + left. exists (existT e r :: tr1), tr2, a. split_and!; [done| |done]. by exists r.
    + right. split; [|done]. by exists r.
Qed.

(** ** The call to flush the output is the last one *)
Definition no_flush (e : ev) : Prop := match e with EFlush => False | _ => True end.
Fixpoint flush_last {A} (P : A -> Prop) (p : prog A) : Prop :=
  match p with
  | Vis e k => forall r, resp_ok e r -> (existT e r = flushed -> exists a, k r = Ret a /\ P a) /\ flush_last P (k r)
  | _ => True
  end.
Lemma fl_split {A} (P : A -> Prop) (p : prog A) tr x : flush_last P p -> calls p tr x -> flushed ∈ tr ->
  exists a, P a /\ calls p tr (Some a) /\ (x = None \/ x = Some a).
Proof.
  revert tr. induction p as [a|c|e k IH]; intros tr Hp Hc Hin; destruct tr as [|d tr]; try done; try (by apply elem_of_nil in Hin).
  destruct Hc as (r & -> & Hr & Hc). destruct (Hp r Hr) as [H1 H2].
  apply elem_of_cons in Hin as [Hin|Hin].
  - destruct (H1 (eq_sym Hin)) as (a & E & Ha). rewrite E in Hc. destruct tr; [|done]. exists a. split_and!; [done| |done]. exists r. split_and!; [done|done|].
    rewrite E. by right.
  - destruct (IH r tr H2 Hc Hin) as (a & Ha & Hca & Hx). exists a. split_and!; [done| |done]. by exists r.
Qed.

Lemma fl_bind {A B} (P : B -> Prop) (p : prog A) (f : A -> prog B) : all_ev no_flush p -> (forall a, flush_last P (f a)) -> flush_last P (bind p f).
Proof.
  intros Hp Hf. induction p as [a|c|e k IH]; [apply Hf|done|]. destruct Hp as [He Hp]. cbn [bind]. intros r Hr. split.
  - intros E. apply (f_equal (@projT1 ev resp)) in E. cbn in E. by subst e.
  - by apply IH, Hp.
Qed.
Lemma fl_bindR {A B} (P : res B -> Prop) (p : prog (res A)) (f : A -> prog (res B)) :
  all_ev no_flush p -> (forall a, flush_last P (f a)) -> flush_last P (bindR p f).
Proof. intros Hp Hf. apply fl_bind; [done|]. intros [a|e]; [apply Hf|done]. Qed.
Lemma fl_then {A B} (P : A -> Prop) (Q : B -> Prop) (p : prog A) (g : A -> B) : flush_last P p -> (forall a, P a -> Q (g a)) ->
  flush_last Q (let! a := p in Ret (g a)).
Proof.
  intros Hp Hg. induction p as [a|c|e k IH]; [done|done|]. cbn [bind]. intros r Hr. destruct (Hp r Hr) as [H1 H2]. split; [|by apply IH].
  intros E. destruct (H1 E) as (a & -> & Ha). exists (g a). split; [done|by apply Hg].
Qed.
Definition is_flushed (d : done_call) : Prop := match d with existT EFlush (IOk _) => True | _ => False end.
Lemma flushed_or (tr : list done_call) : flushed ∈ tr \/ flushed ∉ tr.
Proof.
  induction tr as [|d tr [IH|IH]]; [right; apply not_elem_of_nil|left; by right|].
  assert (Hd : d = flushed \/ ~ is_flushed d).
  { destruct d as [e r]. destruct e; try by right; intros []. destruct r as [[]|e]; [by left|by right; intros []]. }
  destruct Hd as [->|Hd]; [left; by left|]. right. intros [<-|Hin]%elem_of_cons; [by apply Hd|done].
Qed.
Definition went_well (r : res unit) : Prop := r = Ok tt.
Lemma fl_flush : flush_last went_well flush.
Proof.
  intros r Hr. split; [intros E; by apply (f_equal (@projT1 ev resp)) in E|]. destruct r as [[]|e]; [|done].
  intros r Hr2. split; [|by destruct r]. intros E. assert (Hf : is_flushed (existT EFlush r)) by (by rewrite E).
  destruct r as [[]|e]; [|done]. by exists (Ok tt).
Qed.
Lemma nf_send b : all_ev no_flush (send b). Proof. by apply wr_send. Qed.
Lemma nf_all bs : all_ev no_flush (send_all bs). Proof. by apply wr_send_all. Qed.
Lemma nf_delim : all_ev no_flush delim. Proof. unfold delim, write_packet. ev. Qed.
Lemma fl_send_status fuel st : flush_last went_well (send_status fuel st).
Proof.
  unfold send_status. apply fl_bindR; [apply nf_send|intros _]. apply fl_bindR; [apply nf_all|intros _].
  apply fl_bindR; [|intros _; apply fl_flush]. destruct (st_msgs st) as [ls|].
  - apply all_ev_bindR; [apply nf_delim|]. intros _. apply nf_all.
  - destruct (st_reader st) as [h|]; [|done]. apply all_ev_bindR; [apply nf_delim|]. intros _. generalize 0%nat.
    induction fuel as [|f IH]; intros off; [done|].
    cbn [copy_out]. apply all_ev_bindR; [by apply all_ev_io_call, all_ev_call|]. intros [|x b]; [done|].
    apply all_ev_bindR; [apply nf_send|]. intros _. apply IH.
Qed.
Lemma fl_answer fuel st : flush_last went_well (answer fuel st).
Proof. apply fl_bind; [by apply all_ev_call|]. intros _. apply fl_send_status. Qed.
Lemma fl_answer_error c t : flush_last went_well (answer_error c t).
Proof.
  apply fl_bind; [by apply all_ev_call|]. intros _. unfold send_error. apply fl_bindR; [apply nf_send|intros _].
  apply fl_bindR; [apply nf_delim|intros _]. apply fl_bindR; [apply nf_send|intros _]. apply fl_flush.
Qed.
Definition goes_well (x : next) : Prop := match x with Return (Er _) => False | _ => True end.
Lemma fl_process_one en be fuel m rb : flush_last goes_well (process_one en be fuel m rb).
Proof.
  unfold process_one. apply fl_bind; [by apply rd_read_packet|]. intros [pkt|e]; [|done].
  assert (Hg : forall rb p, flush_last went_well p -> flush_last goes_well (and_go_on rb p)).
  { intros rb1 p H. eapply fl_then; [exact H|]. by intros r ->. }
  destruct (pkt_data pkt) as [[|x b]|]; [apply Hg, fl_answer_error| |apply Hg, fl_answer_error].
  assert (Hcmd : forall c, flush_last goes_well (let! (r, rb') := handle_command en be fuel c m rb in and_go_on rb' (answer fuel (status_of r)))).
  { intros c. apply fl_bind; [|intros [r rb']; apply Hg, fl_answer].
    eapply all_ev_mono; [|apply wl_handle]. by intros []. }
  destruct (dispatch (command_words (x :: b)) m); try apply Hcmd. eapply fl_then; [apply fl_answer|]. by intros r ->.
Qed.

(** ** Sessions *)
Section session.
Context (en : env) (lfs : path) (u : N) (m : mode) (fuel : nat) (HH : digest (en_hash en)).
Lemma hung_up_flush tr : hung_up tr -> flushed ∉ tr.
Proof using Type.
  intros (i0 & _ & H) Hin. induction H as [|r i rs is Hr _ IH]; [by apply elem_of_nil in Hin|].
  apply elem_of_app in Hin as [Hin|]; [|done].
  assert (Hf : Forall (fun d => no_flush (projT1 d)) r) by (destruct Hr; by repeat constructor).
  eapply Forall_forall in Hin; [|exact Hf]. done.
Qed.
Lemma c_process_commands n rb tr x : rb_wf rb -> exact tr ->
  calls (process_commands en (Backend lfs u None) fuel n m rb) tr x ->
  exists body rest new, tr = body ++ rest /\ rounds en lfs u m (pend rb) body new /\ (flushed ∉ rest \/ farewell rest) /\
    (x = Some (Ok tt) -> farewell rest \/ hung_up rest).
Proof using HH.
  revert rb tr x. induction n as [|n IH]; intros rb tr x Hwf He H.
  { destruct tr; [|done]. cbn in H. exists [], [], (pend rb). split_and!; [done|constructor|left; apply not_elem_of_nil|by rewrite H]. }
  cbn [process_commands] in H.
  apply calls_cut in H as [(t1 & t2 & a & -> & H1 & H2)|[H1 ->]].
  - apply exact_app in He as [He1 He2]. pose proof (c_process_one _ _ _ _ _ HH _ _ _ He1 Hwf H1) as Ha. destruct a as [rb'|r].
    + destruct Ha as [Hr Hwf']. destruct (IH rb' t2 x Hwf' He2 H2) as (body & rest & new & -> & Hrs & Hf & Hx).
      exists (t1 ++ body), rest, new. split_and!; [by rewrite app_assoc| |done|done]. econstructor; eauto.
    + assert (t2 = [] /\ (x = None \/ x = Some r)) as [-> Hx] by (destruct t2; [by split|done]). rewrite app_nil_r.
      exists [], t1, (pend rb). split_and!; [done|constructor| |].
      * destruct (flushed_or t1) as [Hin|]; [|by left]. right.
        destruct (fl_split _ _ _ _ (fl_process_one _ _ _ _ _) H1 Hin) as (a & Hg & _ & [|[= <-]]); [done|].
        destruct r as [[]|e]; [|done]. destruct Ha as [|Ha]; [done|]. by apply hung_up_flush in Ha.
      * intros ->. destruct Hx as [|[= <-]]; [done|]. done.
  - destruct (flushed_or tr) as [Hin|].
    + destruct (fl_split _ _ _ _ (fl_process_one _ _ _ _ _) H1 Hin) as (a & Hg & Hca & _).
      pose proof (c_process_one _ _ _ _ _ HH _ _ _ He Hwf Hca) as Ha. destruct a as [rb'|[[]|e]]; [| |done].
      * destruct Ha as [Hr Hwf']. exists tr, [], (pend rb'). split_and!; [by rewrite app_nil_r| |left; apply not_elem_of_nil|done].
        rewrite <- (app_nil_r tr). econstructor; [done|constructor].
      * exists [], tr, (pend rb). split_and!; [done|constructor| |done]. right. destruct Ha as [|Ha]; [done|]. by apply hung_up_flush in Ha.
    + exists [], tr, (pend rb). split_and!; [done|constructor|by left|done].
Qed.
End session.

(** ** The beginning *)
Definition all_introduce (lfs : path) (tr : list done_call) : Prop := forall e r, existT e r ∈ tr -> introduces lfs e.
Definition no_success {A} (x : option (res A)) : Prop := forall a, x <> Some (Ok a).
Lemma introduce_forall lfs tr : Forall (fun d => introduces lfs (projT1 d)) tr -> all_introduce lfs tr.
Proof. intros H e r Hin. eapply Forall_forall in Hin; [|exact H]. done. Qed.
Lemma mon_introduce {A} lfs (p : prog A) Q w tr x : mon (fun _ => introduces lfs) cl_ans cl_next w p Q -> calls p tr x -> all_introduce lfs tr.
Proof. intros Hm H e r (tr1 & tr2 & ->)%elem_of_list_split. apply (hist_calls _ _ _ _ _ _ _ _ Hm H). Qed.
Lemma introduce_app lfs a b : all_introduce lfs a -> all_introduce lfs b -> all_introduce lfs (a ++ b).
Proof. intros Ha Hb e r [Hin|Hin]%elem_of_app; eauto. Qed.
Lemma cut_dirs {A} lfs ds (K : unit -> prog (res A)) tr x : ds ⊆ [bs "objects"; bs "incomplete"; bs "tmp"; bs "locks"] ->
  calls (let? u := create_directories_in lfs ds in K u) tr x ->
  all_introduce lfs tr /\ no_success x \/
  exists t, tr = map (fun d => existT (EMkdir (lfs ++ [d])) (IOk tt)) ds ++ t /\ calls (K tt) t x.
Proof.
  revert tr. induction ds as [|d ds IH]; intros tr Hs H; [right; by exists tr|]. destruct tr as [|y tr].
  { left. change (x = None) in H. subst x. split; [|done]. by intros e r ?%elem_of_nil. }
  assert (Hd : introduces lfs (EMkdir (lfs ++ [d]))) by (exists d; split; [apply Hs; by left|done]).
  destruct H as (r & -> & Hr & H). destruct r as [[]|e].
  - assert (Hs' : ds ⊆ [bs "objects"; bs "incomplete"; bs "tmp"; bs "locks"]) by (intros z Hz; apply Hs; by right).
    destruct (IH tr Hs' H) as [[H1 H2]|(t & -> & H1)]; [left|right; by exists t]. split; [|done].
    apply (introduce_app _ [_]); [|done]. apply introduce_forall. by constructor.
  - left. destruct tr as [|y tr]; [|done]. split.
    + apply introduce_forall. by constructor.
    + intros a ->. by destruct H.
Qed.
Definition spoken_first : list done_call :=
  [existT (EOut (bs "000e")) (IOk tt); existT (EOut (bs "version=1" ++ [NL])) (IOk tt);
   existT (EOut (bs "0000")) (IOk tt); existT EFlush (IOk tt)].
Lemma c_run en fuel lfs u m tr x : calls (transfer_run en fuel lfs u None (operation m)) tr x ->
  all_introduce lfs tr /\ no_success x \/
  exists t, tr = announced lfs ++ t /\ calls (process_commands en (Backend lfs u None) fuel fuel m rb_empty) t x.
Proof.
  intros H. apply cut_dirs in H as [H|(t & -> & H)]; [by left| |done].
  assert (Hd : all_introduce lfs (map (fun d => existT (EMkdir (lfs ++ [d])) (IOk tt)) dir_names)).
  { intros e r Hin. apply elem_of_list_fmap in Hin as (d & E & Hin). apply (f_equal (@projT1 ev resp)) in E. cbn in E. subst e. by exists d. }
  assert (Hm : forall Q : list done_call -> res unit -> Prop, (forall w' e, Q w' (Er e)) ->
    Q spoken_first (Ok tt) ->
    mon (fun _ => introduces lfs) cl_ans cl_next [] send_capabilities Q).
  { intros Q H1 H2. apply watch_capabilities; [by intros|by intros|by intros|done]. }
  apply calls_cut in H as [(t1 & t2 & r & -> & H1 & H2)|[H ->]].
  - pose proof (mon_introduce _ _ _ _ _ _ (Hm (fun _ _ => True) ltac:(done) ltac:(done)) H1) as Hi.
    assert (Hr : match r with Er e => True | Ok _ => t1 = spoken_first end).
    { apply (hist_end _ _ _ [] _ _ (Hm (fun w r => match r with Er e => True | Ok _ => w = spoken_first end) ltac:(done) eq_refl) H1). }
    destruct r as [[]|e].
    + right. exists t2. rewrite Hr. split; [done|]. by destruct m.
    + left. destruct t2; [|done]. rewrite app_nil_r. split; [by apply introduce_app|]. intros a ->. by destruct H2.
  - left. split; [|done]. apply introduce_app; [done|].
    apply (mon_introduce _ _ _ _ _ _ (Hm (fun _ _ => True) ltac:(done) ltac:(done)) H).
Qed.

Lemma c_session en fuel lfs v m tr x : digest (en_hash en) -> exact tr ->
  calls (transfer_main en fuel lfs (GOk (libgit2 v)) (operation m)) tr x ->
  all_introduce lfs tr /\ (forall msg, x <> Some (0%Z, msg)) \/
  exists um u body rest new, tr = um ++ announced lfs ++ body ++ rest /\ masks (asked v) um u /\
    rounds en lfs u m [] body new /\ (flushed ∉ rest \/ farewell rest) /\
    (forall msg, x = Some (0%Z, msg) -> farewell rest \/ hung_up rest).
Proof.
  intros HH He H.
  assert (Ha : exists perms, shared_perms (libgit2 v) = Ok perms /\ umask_of_perms <$> perms = asked v).
  { eexists. split; [apply shared_perms_libgit2|]. unfold asked. destruct (documented v) as [| | |k]; try done. by destruct (k =? 0)%N. }
  destruct Ha as (perms & Hp & Ha).
  assert (Hx : exists y, calls (transfer_main_internal en fuel lfs (GOk (libgit2 v)) (operation m)) tr y /\
    forall msg, x = Some (0%Z, msg) -> y = Some (Ok tt)).
  { apply calls_cut in H as [(t1 & t2 & r & -> & H1 & H2)|[H ->]]; [|by exists None].
    exists (Some r). destruct t2; [|done]. rewrite app_nil_r. split; [done|]. intros msg ->. destruct r as [[]|e]; [done|]. exfalso.
    destruct H2 as [|[= E _]]; [done|]. unfold err_exit_status in E. by destruct (e_kind e). }
  clear H. destruct Hx as (y & H & Hx).
  assert (Hn : no_success y -> forall msg, x <> Some (0%Z, msg)) by (intros Hn msg E; by apply (Hn tt), (Hx msg)).
  apply calls_cut in H as [(t1 & t2 & r & -> & H1 & H2)|[H ->]].
  2: { left. split; [|by apply Hn].
       apply (mon_introduce _ _ _ _ _ _ (masks_set _ [] perms Hp (fun _ _ => True) (fun _ => introduces lfs) ltac:(done) ltac:(done)) H). }
  assert (Hm : exists u, r = Ok u /\ masks (asked v) t1 u).
  { apply (hist_end _ _ _ [] _ _ (masks_set _ [] perms Hp (fun w r => exists u, r = Ok u /\ masks (asked v) w u) (fun _ _ => True)
      ltac:(done) ltac:(intros um u Hu; exists u; by rewrite <- Ha)) H1). }
  destruct Hm as (u & -> & Hum). apply c_run in H2 as [[H2 Hy]|(t & -> & H2)].
  - left. split; [|by apply Hn]. apply introduce_app; [|done]. apply introduce_forall. unfold masks in Hum. destruct (asked v).
    + destruct Hum as (-> & z & ->). by constructor.
    + destruct Hum as (z & ->). by repeat constructor.
  - right. rewrite !exact_app in He.
    destruct (c_process_commands en lfs u m fuel HH fuel rb_empty t y ltac:(done) ltac:(tauto) H2) as (body & rest & new & -> & Hrs & Hf & Hend).
    exists t1, u, body, rest, new. split_and!; [done|done|done|done|]. intros msg E. by apply Hend, (Hx msg).
Qed.
