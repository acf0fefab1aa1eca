(** Proofs for Props_Bounds.v: which files servers look at. *)
From stdpp Require Import sorting.
From Verif Require Import Bytes ByteFacts Err FS Prog Pktline Args Local Processor Transfer Wp Rg ServerEv
  PktFacts FsFacts TextProofs Spec SpecStore SpecServer SpecEnd SpecTalk SpecBounds ObjProofs Total Mon BoundsProofs.

(** ** Where lock names lead *)
Lemma leads_child lfs d c : Forall plain_name lfs -> plain_name d -> leads_inside lfs (lfs ++ [d; c]).
Proof.
  intros H1 H2 s q. unfold resolve. destruct (has_nul _); [done|]. intros E.
  assert (H : Forall stays (lfs ++ [d])).
  { apply Forall_app; split; [|constructor; [|done]]; [eapply Forall_impl; [exact H1|]|]; unfold plain_name, stays in *; naive_solver. }
  change [d; c] with ([d] ++ [c]) in E. rewrite app_assoc in E. apply walk_clean in E; [|done]. cbn [app] in E. simpl in E.
  destruct (node_at s (lfs ++ [d])) as [[|i]|]; try done.
  destruct (decide (c = [] \/ c = bs ".")); [injection E as <-; by apply prefix_app_r|].
  destruct (decide _); injection E as <-; [by rewrite removelast_last|]. by apply prefix_app_r, prefix_app_r.
Qed.

Lemma lossy_aux_slash f l : SLASH ∉ l -> SLASH ∉ utf8_lossy_aux f l.
Proof.
  revert l. induction f as [|f IH]; intros l H; cbn [utf8_lossy_aux]; [apply not_elem_of_nil|]. destruct l as [|x l]; [apply not_elem_of_nil|].
  destruct (utf8_next (x :: l)) as [ok n]. rewrite elem_of_app. intros [H1|H1].
  - destruct ok; [apply H; rewrite <- (take_drop n (x :: l)), elem_of_app; by left|].
    assert (G : bool_decide (SLASH ∈ [Byte.xef; Byte.xbf; Byte.xbd]) = false) by reflexivity. by apply bool_decide_eq_false in G.
  - revert H1. apply IH. intros H2. apply H. rewrite <- (take_drop n (x :: l)), elem_of_app. by right.
Qed.
Lemma lossy_slash l : SLASH ∉ l -> SLASH ∉ utf8_lossy l.
Proof. apply lossy_aux_slash. Qed.
Lemma push_one base i : SLASH ∉ i -> push_str base i = base ++ [i].
Proof.
  intros H. unfold push_str. destruct i as [|b i]; [done|]. rewrite decide_False by (intros ->; apply H; left).
  by rewrite split_on_none.
Qed.

Lemma all_ev_leaves {A B} (Q : A -> Prop) P (p : prog A) (f : A -> prog B) :
  all_ev P p -> leaves Q p -> (forall a, Q a -> all_ev P (f a)) -> all_ev P (bind p f).
Proof.
  intros H1 H2 Hf. induction p as [a|x|e k IH]; [by apply Hf|done|]. destruct H1 as [H1 H3]. split; [done|].
  intros r Hr. apply IH; [by apply H3|apply H2].
Qed.

Lemma ret_ok {A B} (a : A) (f : A -> prog (res B)) : bindR (Ret (Ok a)) f = f a.
Proof. done. Qed.

(** ** Commands *)
Definition asksb (b : bytes) : bool := bool_decide (take 7 b = bs "unlock ") && bool_decide (SLASH ∈ drop 7 b).
Lemma asksb_spec b : asksb b = true -> exists id rest, b = bs "unlock " ++ id ++ rest /\ SLASH ∈ id.
Proof.
  unfold asksb. intros [H1 H2]%andb_true_iff. apply bool_decide_eq_true in H1, H2. exists (drop 7 b), []. split; [|done].
  by rewrite app_nil_r, <- H1, take_drop.
Qed.
Lemma split_two c l a b ws : split_on c l = a :: b :: ws -> exists rest, l = a ++ c :: b ++ rest.
Proof.
  intros E. rewrite <- (join_split c l), E. simpl. destruct ws; eexists; [by rewrite app_nil_r|reflexivity].
Qed.
Lemma unlock_asks b m id : dispatch (command_words b) m = CUnlock id -> m = Upload /\ (SLASH ∈ id -> asksb b = true).
Proof.
  unfold dispatch, command_words. set (b' := if last_is NL b then removelast b else b).
  assert (Hb : exists x, b = b' ++ x).
  { unfold b'. destruct (last_is NL b) eqn:E; [|exists []; by rewrite app_nil_r].
    apply last_is_true in E as [y ->]. exists [NL]. by rewrite removelast_last. }
  clearbody b'. destruct (split_on SP b') as [|c ws] eqn:E; [done|]. repeat case_decide; try done; try (destruct (head ws), m; done).
  destruct ws as [|i ws]; [done|]. cbn [head]. destruct m; [|done]. intros [= <-]. split; [done|]. intros Hi.
  apply split_two in E as [rest E]. destruct Hb as [x ->]. rewrite E. subst c. unfold asksb.
  apply andb_true_iff. split; apply bool_decide_eq_true; [done|]. rewrite <- app_assoc. change (SLASH ∈ drop 7 ((bs "unlock" ++ [SP]) ++ (i ++ rest) ++ x)).
  rewrite drop_app_alt by done. set_solver.
Qed.

(** ** Calls that look inside *)
Section look.
(** [u]: only upload servers are asked to unlock. *)
Context (lfs : path) (u : bool).
Definition lk_look (e : ev) : option path := match e with EOpen p | EStat p | EReaddir p => Some p | _ => None end.
Definition lk_may (w : bool) (e : ev) : Prop := match lk_look e with Some p => w = true \/ leads_inside lfs p | None => True end.
Definition lk_ans (_ : bool) (e : ev) : resp e -> Prop :=
  match e as e' return resp e' -> Prop with
  | EReaddir _ => fun r => match r with IOk ns => Forall (fun c => SLASH ∉ c) ns | IErr _ => True end
  | e' => fun r => resp_ok e' r
  end.
Definition lk_next (w : bool) (e : ev) : resp e -> bool :=
  match e return resp e -> bool with
  | ERead _ => fun r => match r with IOk b => w || (u && asksb b) | IErr _ => w end
  | _ => fun _ => w
  end.
End look.
Global Arguments lk_look !_ / : assert.

Section server.
Context (en : env) (be : backend) (fuel : nat) (m : mode).
Context (Hpl : Forall plain_name (be_lfs be)).
Notation u := (is_upload m).
Notation LK := (mon (lk_may (be_lfs be)) lk_ans (lk_next u)).
Notation lfs := (be_lfs be).
Notation all_ok := (fun _ _ => True).

Lemma lk_grows w e r : w = true -> lk_next u w e r = true.
Proof using Type. intros ->. destruct e; cbn; try done. by destruct r. Qed.
Lemma lk_resp w e r : lk_ans w e r -> resp_ok e r.
Proof using Type. by destruct e. Qed.
Lemma lk_true {A} (p : prog A) : LK true p all_ok.
Proof using Type.
  induction p as [a|f|e k IH]; [done|done|]. apply mon_vis; [unfold lk_may; destruct (lk_look e); [by left|done]|].
  intros r _. rewrite lk_grows by done. apply IH.
Qed.
Definition near (e : ev) : Prop := match lk_look e with Some p => leads_inside lfs p | None => True end.
Lemma lk_ev {A} w (p : prog A) (Q : bool -> A -> Prop) :
  all_ev near p ->
  (forall w' a, (w = true -> w' = true) -> Q w' a) -> LK w p Q.
Proof using Type.
  intros H. revert w. induction p as [a|f|e k IH]; intros w HQ; [by apply HQ|done|]. destruct H as [H1 H2]. apply mon_vis.
  - unfold near in H1. unfold lk_may. destruct (lk_look e); [by right|done].
  - intros r Hr. apply IH; [by eapply H2, lk_resp|]. intros w' a Hw. apply HQ. intros E. by apply Hw, lk_grows.
Qed.

(** The parts that look inside whatever the client asks for. *)
Hint Extern 1 (near _) => exact I : ev.
Hint Extern 1 (forall n, near _) => (intros ?; exact I) : ev.
Hint Resolve rd_read_packet rd_read_one rd_reader_read rd_read_to_type : ev.
Hint Resolve wr_send wr_send_all wr_flush wr_delim wr_send_error : ev.
Hint Resolve cv_or_panic cv_error cv_as_arguments cv_as_lock_spec cv_lock_specs : ev.
Lemma nr_copy_out f h o : all_ev near (copy_out f h o).
Proof using Type. revert o. induction f as [|f IH]; intros o; simpl; ev. Qed.
Hint Resolve nr_copy_out : ev.
Lemma nr_send_status st : all_ev near (send_status fuel st).
Proof using Type. unfold send_status. ev. Qed.
Hint Resolve nr_send_status : ev.
Lemma nr_answer st : all_ev near (answer fuel st).
Proof using Type. unfold answer. ev. Qed.
Lemma nr_answer_error c x : all_ev near (answer_error c x).
Proof using Type. unfold answer_error. ev. Qed.
Lemma nr_wrapped : all_ev near (read_to_flush_wrapped fuel).
Proof using Type. unfold read_to_flush_wrapped, read_to_flush. ev. Qed.
Hint Resolve nr_answer nr_answer_error nr_wrapped : ev.
Lemma nr_copy f fd got rb : all_ev near (copy_to_file f fd got rb).
Proof using Type. revert got rb. induction f as [|f IH]; intros got rb; cbn [copy_to_file]; ev. Qed.
Hint Resolve nr_copy : ev.

Lemma near_obj o : is_oid o -> near (EStat (expected_path lfs o)) /\ near (EOpen (expected_path lfs o)).
Proof using Hpl.
  intros Ho. assert (leads_inside lfs (expected_path lfs o)); [|done]. apply leads_down; [done|].
  pose proof (obj_stays [] (Forall_nil_2 _) o Ho) as H. unfold expected_path in H. cbn [app] in H.
  intros Hd. rewrite Forall_forall in H. by destruct (H _ Hd) as (_ & _ & ?).
Qed.
Lemma near_lock c : near (EStat (lock_dir be ++ [c])) /\ near (EOpen (lock_dir be ++ [c])).
Proof using Hpl.
  assert (leads_inside lfs (lock_dir be ++ [c])); [|done]. unfold lock_dir. rewrite <- app_assoc.
  apply leads_child; [done|]. unfold plain_name. split_and!; try done; intros H%elem_of_list_In; vm_compute in H; naive_solver.
Qed.
Lemma nr_from_id i : SLASH ∉ i -> all_ev near (lock_from_id en be i).
Proof using Hpl.
  intros Hi. unfold lock_from_id. cbv zeta. rewrite (push_one _ i Hi). destruct (near_lock i) as [H1 H2]. unfold user_for_file. ev.
Qed.
Lemma hash_slash x : SLASH ∉ hash_for en x.
Proof using Type.
  unfold hash_for. generalize (en_hash en (bs "v1:" ++ x)). intros b. induction b as [|y b IH]; [apply not_elem_of_nil|].
  rewrite hex_encode_cons, !not_elem_of_cons. destruct (hex_nibbles y) as [H1 H2].
  assert (G : forall v, (v < 16)%N -> SLASH <> hexdig v).
  { intros v Hv E. apply (f_equal bN) in E. rewrite hexdig_bN in E by done. change (bN SLASH) with 47%N in E. destruct (v <? 10)%N; lia. }
  split_and!; [by apply G..|done].
Qed.
Lemma nr_from_path x : all_ev near (lock_from_path en be x).
Proof using Hpl. unfold lock_from_path. apply all_ev_bind; [apply nr_from_id, hash_slash|]. intros r. ev. Qed.
Hint Resolve nr_from_path : ev.
Lemma nr_create x : all_ev near (lock_create en be x).
Proof using Hpl.
  unfold lock_create, timestamp, lockfile_write, lockfile_drop, lockfile_persist, user_for_file. cbv zeta.
  destruct (near_lock (hash_for en x)) as [H1 H2]. ev.
Qed.
Hint Resolve nr_create : ev.
Lemma nr_lock : all_ev near (p_lock en be fuel).
Proof using Hpl. unfold p_lock. ev. Qed.
Lemma nr_for_path x c o : all_ev near (p_list_for_path en be x c o).
Proof using Hpl. unfold p_list_for_path. ev. Qed.
Lemma nr_verify o : all_ev near (p_verify_object be fuel o).
Proof using Hpl.
  unfold p_verify_object, read_to_flush, backend_verify. apply all_ev_bindR; [ev|intros ls]. apply all_ev_bindR; [ev|intros a].
  destruct (oid_new o) as [o'|e] eqn:Eo; [|exact I]. apply oid_new_iff in Eo as [-> Ho]. destruct (near_obj o Ho). rewrite ret_ok. ev.
Qed.
Lemma nr_get o : all_ev near (p_get_object be fuel o).
Proof using Hpl.
  unfold p_get_object, read_to_flush, backend_download. apply all_ev_bindR; [ev|intros ls]. apply all_ev_bindR; [ev|intros a].
  destruct (oid_new o) as [o'|e] eqn:Eo; [|exact I]. apply oid_new_iff in Eo as [-> Ho]. destruct (near_obj o Ho). rewrite ret_ok. ev.
Qed.
Lemma batch_oids ls xs : batch_lines ls = Ok xs -> Forall (fun x => is_oid x.1) xs.
Proof using Type.
  revert xs. induction ls as [|l ls IH]; intros xs; cbn [batch_lines]; [by intros [= <-]|].
  destruct (batch_line l) as [x|e] eqn:E; [|done]. destruct (batch_lines ls) as [ys|e]; [|done]. intros [= <-].
  constructor; [|by apply IH]. unfold batch_line in E. repeat (case_match; try done). injection E as <-.
  by match goal with H : oid_new _ = Ok _ |- _ => apply oid_new_iff in H as [-> ?] end.
Qed.
Lemma nr_batch a b : all_ev near (p_batch be fuel a b).
Proof using Hpl.
  unfold p_batch, read_batch, read_to_delim. apply all_ev_bindR; [|intros; ev]. apply all_ev_bindR; [ev|intros ls].
  apply all_ev_bindR; [ev|intros x]. apply all_ev_bindR; [ev|intros d]. cbv zeta.
  assert (G : all_ev near (let? oids := Ret (batch_lines d) in let! items := backend_batch be oids in Ret (Ok items))).
  { destruct (batch_lines d) as [xs|e] eqn:E; [rewrite ret_ok|exact I]. apply batch_oids in E. apply all_ev_bind; [|ev].
    induction E as [|[o n] xs Ho _ IH]; cbn [backend_batch]; unfold size_at_path; [ev|]. destruct (near_obj o Ho). ev. }
  ev.
Qed.
Lemma nr_put o rb : all_ev near (p_put_object en be fuel o rb).
Proof using Hpl.
  unfold p_put_object, read_to_delim, start_upload. destruct (oid_new o) as [o'|e] eqn:Eo; [|ev].
  apply oid_new_iff in Eo as [-> Ho]. destruct (near_obj o Ho) as [H1 H2].
  apply all_ev_bind; [ev|intros [n|e]; [|ev]]. eapply (all_ev_leaves (fun x => match x.1 with Ok (st, _) => us_oid st = o | Er _ => True end)).
  { apply all_ev_bind; [ev|]. intros [[tmp fd]|e]; [|ev]. unfold drop_temp. ev. }
  { apply leaves_bind, leaves_call. intros [[tmp fd]|e]; [|done]. apply leaves_bind, leaves_all. intros [[got|e] rb']; [done|].
    by apply leaves_bind, leaves_all. }
  intros [[[st got]|e] rb'] Hst; [|ev]. cbn [fst] in Hst. cbv zeta. unfold drop_temp, finish_upload, fix_permissions. rewrite Hst. cbv zeta. ev.
Qed.

(** ** Locks asked for by name, and listed *)
Lemma lk_collect w c todo sk n (Q : bool -> list lock -> Prop) : Forall (fun c => SLASH ∉ c) todo ->
  (forall w' a, (w = true -> w' = true) -> Q w' a) -> LK w (collect_locks en be c todo sk n) Q.
Proof using Hpl.
  intros H. apply lk_ev. revert sk n. induction H as [|x todo Hx _ IH]; intros sk n; destruct n; cbn [collect_locks]; try done.
  apply all_ev_bind; [by apply nr_from_id, lossy_slash|]. intros r. ev.
Qed.
Lemma lk_list w o : LK w (p_list_locks en be fuel o) all_ok.
Proof using Hpl.
  unfold p_list_locks. apply mon_bindR, lk_ev; [ev|]. intros w1 [ls|e] _; [|done]. apply mon_bindR, lk_ev; [ev|]. intros w2 [a|e] _; [|done].
  apply mon_bindR, mon_ret. case_match; [|done]. destruct (_ =? 0)%N; [done|]. cbv zeta. destruct (a !! bs "path"); [apply lk_ev; [apply nr_for_path|done]|].
  apply mon_bindR. unfold list_lock_items. apply mon_bind, mon_call.
  { right. unfold lock_dir. apply leads_down; [done|]. intros Hd%elem_of_list_singleton; by vm_compute in Hd. }
  intros [ns|e] Hns; [|done]. cbn [lk_next]. apply mon_bind, lk_collect.
  - cbn in Hns. by rewrite merge_sort_Permutation.
  - intros w3 ls' _. apply mon_ret. apply lk_ev; [ev|done].
Qed.
Lemma lk_unlock w i : (SLASH ∈ i -> w = true) -> LK w (p_unlock en be fuel i) all_ok.
Proof using Hpl.
  intros Hw. destruct (decide (SLASH ∈ i)) as [Hi|Hi]; [rewrite (Hw Hi); apply lk_true|]. apply lk_ev; [|done].
  unfold p_unlock, read_to_flush, lock_unlock. pose proof (nr_from_id i Hi). ev.
Qed.
Lemma lk_read_packet w (Q : bool -> res packet -> Prop) :
  (forall w' r, (w = true -> w' = true) -> (forall b, r = Ok (PData b) -> u && asksb b = true -> w' = true) -> Q w' r) -> LK w read_packet Q.
Proof using Type.
  intros HQ. unfold read_packet. apply mon_bindR, lk_ev; [unfold read_header; ev|]. intros w1 [n|e] Hw1; [|by apply HQ].
  repeat (case_match; [by apply mon_ret, HQ|]). apply mon_bindR, mon_io_call, mon_call; [done|]. intros [b|e] _; cbn; [|by apply HQ].
  apply HQ; [intros E; by rewrite (Hw1 E)|]. intros b' [= <-] ->. by rewrite orb_true_r.
Qed.
Lemma lk_handle w words rb : (forall i, dispatch words m = CUnlock i -> SLASH ∈ i -> w = true) ->
  LK w (handle_command en be fuel (dispatch words m) m rb) all_ok.
Proof using Hpl.
  intros Hw.
  assert (Hq : forall p : prog (res status), LK w p all_ok -> LK w (let! r := p in Ret (r, rb)) all_ok).
  { intros p H. apply mon_bind. eapply mon_mono; [|exact H]. done. }
  destruct (dispatch words m) eqn:E; cbn [handle_command].
  all: try (apply lk_ev; [apply nr_put|done]).
  all: apply Hq.
  all: try (apply lk_ev; [solve [ev]|done]).
  - apply lk_ev; [unfold p_version, read_to_flush; ev|done].
  - apply lk_ev; [|done]. destruct u; [unfold p_upload_batch|unfold p_download_batch]; apply nr_batch.
  - apply lk_ev; [apply nr_verify|done].
  - apply lk_ev; [apply nr_get|done].
  - apply lk_ev; [apply nr_lock|done].
  - apply lk_list.
  - by apply lk_unlock, Hw.
Qed.
Lemma lk_commands n w rb : LK w (process_commands en be fuel n m rb) all_ok.
Proof using Hpl.
  revert w rb. induction n as [|n IH]; intros w rb; cbn [process_commands]; [done|]. apply mon_bind, (mon_mono _ _ _ _ _ all_ok).
  { intros w' [rb'|r] _; [apply IH|done]. }
  unfold process_one. apply mon_bind, lk_read_packet. intros w1 [pkt|e] _ Hw1; [|done].
  destruct (pkt_data pkt) as [[|x b]|] eqn:Ep; [apply lk_ev; [unfold and_go_on; ev|done]| |apply lk_ev; [unfold and_go_on; ev|done]].
  destruct pkt as [| |b']; try done. injection Ep as ->. specialize (Hw1 _ eq_refl).
  assert (G : LK w1 (let! (r, rb') := handle_command en be fuel (dispatch (command_words (x :: b)) m) m rb in
    and_go_on rb' (answer fuel (status_of r))) all_ok).
  { apply mon_bind. eapply mon_mono; [|apply lk_handle]. 
    - intros w2 [r rb'] _. apply lk_ev; [unfold and_go_on; ev|done].
    - intros i Ei Hi. apply unlock_asks in Ei as [Em Ei]. apply Hw1. rewrite (Ei Hi), Em. done. }
  destruct (dispatch (command_words (x :: b)) m); try exact G. apply lk_ev; [ev|done].
Qed.
End server.

Lemma lk_main en fuel lfs cfg op : Forall plain_name lfs ->
  mon (lk_may lfs) lk_ans (lk_next (bool_decide (op = bs "upload"))) false (transfer_main en fuel lfs cfg op) (fun _ _ => True).
Proof.
  intros Hpl. unfold transfer_main, transfer_main_internal.
  set (u := bool_decide (op = bs "upload")).
  set (m := if u then Upload else Download). assert (Hm : u = is_upload m) by by destruct u.
  assert (Hop : mode_of op = Some m \/ mode_of op = None).
  { unfold mode_of, m, u. case_decide; [|case_decide]; [rewrite bool_decide_eq_true_2 by done|rewrite bool_decide_eq_false_2 by done|]; auto. }
  rewrite Hm. set (be := Backend lfs 0 None).
  assert (EV : forall A w (p : prog A) (Q : bool -> A -> Prop), all_ev (near be) p -> (forall w' a, Q w' a) ->
    mon (lk_may lfs) lk_ans (lk_next (is_upload m)) w p Q).
  { intros A w p Q H HQ. apply (lk_ev be m); [done|]. intros; apply HQ. }
  assert (N : forall e, lk_look e = None -> near be e) by (intros e E; unfold near; by rewrite E).
  apply mon_bind, mon_bindR, EV; [unfold set_permissions; ev; by apply N|].
  intros w [um|e]; [|done]. unfold transfer_run. apply mon_bindR, EV.
  { unfold create_directories. generalize dir_names. intros ds. induction ds; cbn [create_directories_in]; ev; by apply N. }
  intros w1 [[]|e]; [|done]. apply mon_bindR, EV.
  { unfold send_capabilities. apply all_ev_bindR; [apply wr_send|intros _; apply wr_flush]; intros; by apply N. }
  intros w2 [[]|e]; [|done]. destruct Hop as [->| ->]; [|done].
  eapply mon_mono; [|apply (lk_commands en (Backend lfs um None) fuel m Hpl)]. intros ? [[]|e]; done.
Qed.

(** ** What the calls of a run look at *)
Lemma calls_look {A} lfs u (p : prog A) w tr d tr' x q :
  mon (lk_may lfs) lk_ans (lk_next u) w p (fun _ _ => True) -> calls p (tr ++ d :: tr') x -> Forall true_names tr -> looks_at d = Some q ->
  leads_inside lfs q \/ w = true \/ (u = true /\ exists d', d' ∈ tr /\ asks_beyond d').
Proof.
  revert p w. induction tr as [|d0 tr IH]; intros p w Hm Hc Ht Hd; destruct p as [a|f|e k]; try done.
  - destruct Hc as (r & -> & _). destruct Hm as [Hm _]. unfold lk_may in Hm. unfold looks_at in Hd. cbn [projT1] in Hd.
    assert (E : lk_look e = Some q) by by destruct e. rewrite E in Hm. tauto.
  - destruct Hc as (r & -> & Hs & Hc). apply Forall_cons in Ht as [Ht1 Ht2]. destruct Hm as [_ Hm].
    assert (Ha : lk_ans w e r).
    { destruct e; try done; cbn [lk_ans]. destruct r as [ns|e]; [|done]. by eapply Ht1. }
    destruct (IH (k r) _ (Hm r Ha) Hc Ht2 Hd) as [H|[H|(Hu & d' & H1 & H2)]]; [by left| |right; right; split; [done|]; exists d'; split; [by right|done]].
    destruct w; [by right; left|]. destruct e; try done. cbn [lk_next] in H. destruct r as [b|e]; [|done]. cbn [orb] in H.
    apply andb_true_iff in H as [H1 H2]. right. right. split; [done|]. eexists. split; [left|].
    apply asksb_spec in H2 as (i & rest & -> & Hi). by exists n, i, rest.
Qed.

Lemma c52 en fuel lfs cfg op tr d tr' x q : Forall plain_name lfs ->
  calls (transfer_main en fuel lfs cfg op) (tr ++ d :: tr') x -> Forall true_names tr -> looks_at d = Some q ->
  leads_inside lfs q \/ (op = bs "upload" /\ exists d', d' ∈ tr /\ asks_beyond d').
Proof.
  intros Hpl Hc Ht Hd. destruct (calls_look _ _ _ _ _ _ _ _ _ (lk_main en fuel lfs cfg op Hpl) Hc Ht Hd) as [H|[H|[H1 H2]]]; [by left|done|].
  right. by apply bool_decide_eq_true in H1.
Qed.
