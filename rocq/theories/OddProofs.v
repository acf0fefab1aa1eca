(** Proofs for Props_Odd.v. *)
From Verif Require Import Bytes ByteFacts Err FS Prog Pktline Args Local Processor Transfer Wp PktFacts ReaderFacts
  Spec SpecStore SpecServer SpecFrame SpecOdd FsFacts PktProofs TextProofs IoFacts ObjProofs StoreProofs GetProofs
  SeqIo SeqFs SeqCmd Session FrameProofs.

Local Arguments parse_header : simpl never.
Local Opaque COPY_BUF pk MAX_PACKET_LEN.

(** ** Words *)
Lemma split_joined ws : ws <> [] -> Forall (fun w => SP ∉ w) ws -> split_on SP (joined ws) = ws.
Proof.
  induction ws as [|w [|w' ws] IH]; intros Hne H; [done| |].
  - apply Forall_cons in H as [H _]. by apply split_on_none.
  - apply Forall_cons in H as [H1 H]. change (joined (w :: w' :: ws)) with (w ++ SP :: joined (w' :: ws)).
    rewrite split_on_app by done. by rewrite IH.
Qed.
Lemma last_is_no b : (forall c, b <> c ++ [NL]) -> last_is NL b = false.
Proof.
  intros H. destruct b as [|x b] using rev_ind; [done|]. rewrite last_is_snoc. apply bool_decide_eq_false.
  intros ->. by apply (H b).
Qed.
Lemma says_words b ws : says b ws -> command_words b = ws.
Proof.
  intros (_ & Hne & Hsp & [->|[-> H]]); unfold command_words.
  - by rewrite last_is_snoc, bool_decide_eq_true_2, removelast_last, split_joined by done.
  - by rewrite last_is_no, split_joined by done.
Qed.
Lemma words_joined b : joined (split_on SP b) = b.
Proof.
  induction b as [|x b IH]; [done|]. simpl. case_decide as E.
  - subst. destruct (split_on SP b) as [|w ws] eqn:Es; [by apply split_on_not_nil in Es|]. simpl in IH |- *. by rewrite IH.
  - destruct (split_on SP b) as [|w ws] eqn:Es; [by apply split_on_not_nil in Es|].
    destruct ws as [|w' ws]; simpl in IH |- *; by rewrite IH.
Qed.
Lemma says_some b : b <> [] -> says b (command_words b).
Proof.
  intros Hb. unfold command_words. split_and!; [done|apply split_on_not_nil| |].
  - apply Forall_forall. intros w. apply split_on_pieces.
  - destruct (last_is NL b) eqn:E.
    + left. rewrite words_joined. destruct b as [|x b] using rev_ind; [done|]. rewrite last_is_snoc in E.
      apply bool_decide_eq_true in E as ->. by rewrite removelast_last.
    + right. rewrite words_joined. split; [done|]. intros c ->. rewrite last_is_snoc in E. by apply bool_decide_eq_false in E.
Qed.

(** The command of a request. *)
Definition command_for (r : request) : command :=
  match r with
  | RVersion => CVersion
  | RBatch _ _ => CBatch
  | RPut o _ _ => CPut o
  | RVerify o _ => CVerify o
  | RGet o _ => CGet o
  | RLock _ => CLock
  | RList _ => CListLock
  | RUnlock i _ => CUnlock i
  end.
Lemma named_dispatch m r ws : allowed m r -> named r ws -> dispatch ws m = command_for r.
Proof.
  intros Ha (more & -> & Hm). destruct r; simpl in Ha, Hm; subst; try (rewrite (Hm eq_refl)); try done; by destruct m.
Qed.
Lemma well_formed_allowed m r : well_formed m r -> allowed m r.
Proof. destruct r; simpl; try done; by intros []. Qed.
Lemma command_for_quit r : command_for r <> CQuit.
Proof. by destruct r. Qed.
Definition reply_of (c : command) : option (N * bytes) :=
  match c with
  | CBadVersion => Some (400%N, bs "unknown version")
  | CForbidden => Some (403%N, bs "not allowed")
  | CUnknown => Some (400%N, bs "unknown command")
  | _ => None
  end.
Lemma turned_dispatch m ws code t : turned_away m ws code t ->
  reply_of (dispatch ws m) = Some (code, t) \/
  (exists o, dispatch ws m = CPut o /\ ~ is_oid o /\ code = 400%N /\ t = bs "error: " ++ bad_oid).
Proof.
  intros H. destruct H as [c ws H|ws H|c H|c x ws H| -> |x ws -> |c o ws -> H|o ws -> |o ws -> H].
  - left. by rewrite dispatch_unknown.
  - left. unfold dispatch. rewrite decide_True by done. by rewrite decide_False.
  - left. repeat (apply elem_of_cons in H as [->|H]; [by destruct m|]). by apply elem_of_nil in H.
  - left. repeat (apply elem_of_cons in H as [->|H]; [by destruct m|]). by apply elem_of_nil in H.
  - by left.
  - by left.
  - left. repeat (apply elem_of_cons in H as [->|H]; [done|]). by apply elem_of_nil in H.
  - by left.
  - right. by exists o.
Qed.

(** ** Parsing *)
Lemma parse_from_app m kvs items :
  Forall (fun kv => EQ ∉ kv.1) kvs -> NoDup kvs.*1 -> Forall (fun kv => m !! kv.1 = None) kvs ->
  parse_args_from m (map arg_line kvs ++ items) = parse_args_from (list_to_map kvs ∪ m) items.
Proof.
  revert m. induction kvs as [|[k v] kvs IH]; intros m Hk Hn Hm; simpl.
  - by rewrite (left_id_L ∅ (∪)).
  - apply Forall_cons in Hk as [Hk1 Hk]. apply NoDup_cons in Hn as [Hn1 Hn].
    apply Forall_cons in Hm as [Hm1 Hm]. simpl in *.
    rewrite parse_item_line by done. rewrite Hm1.
    rewrite IH; [|done|done|].
    + rewrite <- insert_union_r by (by apply not_elem_of_list_to_map_1).
      by rewrite insert_union_l.
    + apply Forall_forall. intros [k' v'] H. simpl. rewrite lookup_insert_ne.
      * rewrite Forall_forall in Hm. by apply (Hm (k', v')).
      * intros ->. apply Hn1. by apply (elem_of_list_fmap_1 fst _ (k', v')).
Qed.
Lemma parse_app kvs items : args_ok kvs ->
  parse_args (map arg_line kvs ++ items) = parse_args_from (list_to_map kvs) items.
Proof.
  intros [H1 H2]. unfold parse_args. rewrite parse_from_app; [by rewrite (right_id_L ∅ (∪))|done|done|].
  apply Forall_forall. intros. apply lookup_empty.
Qed.
Lemma first_eq (b : bytes) : EQ ∈ b -> exists k v, b = k ++ EQ :: v /\ EQ ∉ k.
Proof.
  induction b as [|x b IH]; intros H; [by apply elem_of_nil in H|].
  destruct (decide (x = EQ)) as [->|Hx]; [exists [], b; split; [done|apply not_elem_of_nil]|].
  apply elem_of_cons in H as [E|H]; [congruence|]. destruct (IH H) as (k & v & -> & Hk). exists (x :: k), v. split; [done|].
  apply not_elem_of_cons. split; congruence.
Qed.
Lemma bad_args_parse qs code t : bad_args qs code t ->
  exists e, parse_args (map payload qs) = Some (Er e) /\ status_of_error e = st_failure code (t ++ [NL]) /\ code ∈ codes.
Proof.
  intros H. destruct H as [kvs q qs Hk Hq|kvs q qs Hk Hq Hn|kvs k v qs Hk Hq Hin];
    rewrite map_app, map_payload_args, parse_app by done; cbn [map parse_args_from].
  - unfold parse_item. rewrite position_none by done. eexists. split; [done|]. split; [by vm_compute|by apply is_code].
  - unfold parse_item. destruct (first_eq _ Hq) as (k & v & E & Hk'). 
    assert (position EQ (payload q) = Some (length k)) as -> by (rewrite E; by apply position_app). clear E.
    destruct (payload q) as [|x b] using rev_ind; [by apply elem_of_nil in Hq|]. rewrite app_length. cbn [length].
    replace (length b + 1 - 1)%nat with (length b) by lia. rewrite list_lookup_middle by done.
    rewrite decide_True by (intros ->; by apply (Hn b)).
    eexists. split; [done|]. split; [by vm_compute|by apply is_code].
  - cbn [payload]. rewrite parse_item_line by done.
    destruct (list_to_map kvs !! k) as [v'|] eqn:E.
    + eexists. split; [done|]. split; [by vm_compute|by apply is_code].
    + apply not_elem_of_list_to_map in E. done.
Qed.
Lemma snoc_dec (b : bytes) : (exists c, b = c ++ [NL]) \/ (forall c, b <> c ++ [NL]).
Proof.
  destruct b as [|x b] using rev_ind; [right; intros c E; by destruct c|].
  destruct (decide (x = NL)) as [->|H]; [left; by exists b|]. right. intros c E. apply app_inj_tail in E as [_ E]. done.
Qed.
Lemma args_cases_from kvs qs : args_ok kvs ->
  (exists kvs', args kvs ++ qs = args kvs' /\ args_ok kvs') \/ exists code t, bad_args (args kvs ++ qs) code t.
Proof.
  revert kvs. induction qs as [|q qs IH]; intros kvs Hk.
  { left. exists kvs. by rewrite app_nil_r. }
  destruct (decide (EQ ∈ payload q)) as [He|He]; [|right; by eexists _, _; apply ba_equals].
  destruct (snoc_dec (payload q)) as [[c Hc]|Hc]; [|right; by eexists _, _; apply ba_newline].
  destruct q as [| |b]; [by destruct c|by destruct c|]. cbn [payload] in He, Hc. subst b.
  assert (He' : EQ ∈ c) by (apply elem_of_app in He as [He|He]; [done|]; by apply elem_of_list_singleton in He).
  destruct (first_eq c He') as (k & v & -> & Hkq).
  replace ((k ++ EQ :: v) ++ [NL]) with (arg_line (k, v)) by (unfold arg_line; simpl; by rewrite <- app_assoc).
  destruct (decide (k ∈ kvs.*1)) as [Hin|Hin]; [right; by eexists _, _; apply ba_twice|].
  destruct (IH (kvs ++ [(k, v)])) as [(kvs' & E & Hk')|(code & t & Hb)].
  - destruct Hk as [H1 H2]. split.
    + apply Forall_app. split; [done|]. by constructor.
    + rewrite fmap_app. apply NoDup_app. split_and!; [done| |apply NoDup_singleton].
      intros x Hx Hx'. apply elem_of_list_singleton in Hx'. simpl in Hx'. by subst.
  - left. exists kvs'. split; [|done]. rewrite <- E. unfold args, lines. by rewrite !map_app, <- app_assoc.
  - right. exists code, t. unfold args, lines in *. by rewrite !map_app, <- app_assoc in Hb.
Qed.
Lemma args_cases qs : (exists kvs, qs = args kvs /\ args_ok kvs) \/ exists code t, bad_args qs code t.
Proof. apply (args_cases_from []). split; constructor. Qed.

(** Items of a batch. *)
Lemma batch_lines_app items ls : Forall item_ok items ->
  batch_lines (map item_line items ++ ls) =
  match batch_lines ls with Ok xs => match batch_lines (map item_line items) with Ok ys => Ok (ys ++ xs) | Er e => Er e end | Er e => Er e end.
Proof.
  induction 1 as [|[o b] items [Ho [n Hn]] _ IH]; [cbn [map app]; by destruct (batch_lines ls)|].
  cbn [map app batch_lines]. rewrite (batch_line_item o b n) by done. rewrite IH.
  destruct (batch_lines ls); [|done]. by destruct (batch_lines (map item_line items)).
Qed.
Lemma batch_line_words c : batch_line (c ++ [NL]) =
  match split_on SP c with
  | [o; z] => match parse_u64 z with
              | None => Er (err_msg InvalidInteger (bs "got " ++ debug_bytes (z ++ [NL])))
              | Some n => match oid_new o with Ok o' => Ok (o', n) | Er e => Er e end
              end
  | _ => Er (err_simple ParseError)
  end.
Proof.
  unfold batch_line. rewrite last_is_snoc, bool_decide_eq_true_2 by done.
  assert (G : forall c, exists ws w, split_on SP c = ws ++ [w] /\ split_on SP (c ++ [NL]) = ws ++ [w ++ [NL]]).
  { clear c. induction c as [|x c (ws & w & E1 & E2)]; [by exists [], []|]. cbn [app split_on]. rewrite E1, E2.
    case_decide; [by exists ([] :: ws), w|]. destruct ws as [|v ws]; [by exists [], (x :: w)|by exists ((x :: v) :: ws), w]. }
  destruct (G c) as (ws & w & -> & ->). destruct ws as [|v [|v' ws]]; [done| |].
  - cbn [app]. destruct (w ++ [NL]) as [|y z] eqn:E; [by destruct w|]. cbn match. by rewrite <- E, removelast_last.
  - by destruct ws.
Qed.
Lemma parse_u64_none z : parse_u64 z = None <-> ~ exists n, number z n.
Proof.
  split.
  - intros E [n Hn]. apply parse_number in Hn. unfold parse_integer in Hn. by rewrite E in Hn.
  - intros H. destruct (parse_u64 z) as [n|] eqn:E; [|done]. exfalso. apply H. exists n. apply parse_number.
    unfold parse_integer. by rewrite E.
Qed.
Lemma parse_u64_some z n : parse_u64 z = Some n <-> number z n.
Proof. rewrite <- parse_number. unfold parse_integer. destruct (parse_u64 z); split; congruence. Qed.
Lemma bad_items_parse qs code t : bad_items qs code t ->
  exists e, batch_lines (map payload qs) = Er e /\ status_of_error e = st_failure code (t ++ [NL]) /\ code ∈ codes.
Proof.
  assert (Hp : forall items q qs, Forall item_ok items ->
    batch_lines (map payload (lines (map item_line items) ++ q :: qs)) =
    match batch_line (payload q) with Er e => Er e | Ok _ => batch_lines (map payload (lines (map item_line items) ++ q :: qs)) end).
  { intros items q qs' H. destruct (batch_line (payload q)) as [x|e] eqn:E; [done|].
    replace (map payload (lines (map item_line items) ++ q :: qs')) with (map item_line items ++ payload q :: map payload qs').
    2: { rewrite map_app. f_equal. unfold lines. rewrite !map_map. by apply map_ext. }
    rewrite batch_lines_app by done. cbn [batch_lines]. by rewrite E. }
  intros H. destruct H as [items q qs Hi Hq|items c qs Hi Hc|items o z qs Hi Ho Hz Hn|items o z n qs Hi Ho Ho' Hn]; rewrite Hp by done; cbn [payload].
  - unfold batch_line. rewrite last_is_no by done. eexists. split; [done|]. split; [by vm_compute|by apply is_code].
  - rewrite batch_line_words. destruct (split_on SP c) as [|o [|z [|y ws]]] eqn:E;
      try (eexists; split; [done|]; split; [by vm_compute|by apply is_code]).
    exfalso. pose proof (words_joined c) as Ej. rewrite E in Ej. apply (Hc o z); [| |done].
    + apply (split_on_pieces SP c). rewrite E. by left.
    + apply (split_on_pieces SP c). rewrite E. right. by left.
  - unfold item_line. cbn [fst snd]. rewrite !app_assoc, batch_line_words, <- app_assoc.
    change (o ++ [SP] ++ z) with (o ++ SP :: z). rewrite split_on_app, split_on_none by done.
    rewrite (proj2 (parse_u64_none z)) by done.
    eexists. split; [done|]. split; [|by apply is_code]. unfold status_of_error. cbn [e_kind err_msg client_error].
    unfold display. cbn [e_kind e_int e_msg err_msg kind_text]. by rewrite <- !app_assoc.
  - unfold item_line. cbn [fst snd]. rewrite !app_assoc, batch_line_words, <- app_assoc.
    change (o ++ [SP] ++ z) with (o ++ SP :: z). rewrite split_on_app, split_on_none by (done || by eapply number_no_sp).
    rewrite (proj2 (parse_u64_some z n)) by done. destruct (oid_new o) as [o'|e] eqn:E.
    { by apply oid_new_iff in E as [_ ?]. }
    exists e. split; [done|]. unfold oid_new in E. destruct (oid_valid o); [done|]. injection E as <-.
    split; [by vm_compute|by apply is_code].
Qed.
Lemma items_cases_from items qs : Forall item_ok items ->
  (exists items', lines (map item_line items) ++ qs = lines (map item_line items') /\ Forall item_ok items') \/
  exists code t, bad_items (lines (map item_line items) ++ qs) code t.
Proof.
  revert items. induction qs as [|q qs IH]; intros items Hi.
  { left. exists items. by rewrite app_nil_r. }
  destruct (snoc_dec (payload q)) as [[c Hc]|Hc]; [|right; by eexists _, _; apply bi_newline].
  destruct q as [| |b]; [by destruct c|by destruct c|]. cbn [payload] in Hc. subst b.
  pose proof (words_joined c) as Ej. pose proof (split_on_pieces SP c) as Hsp.
  assert (Hw : (exists o z, SP ∉ o /\ SP ∉ z /\ c = o ++ [SP] ++ z) \/ forall o z, SP ∉ o -> SP ∉ z -> c <> o ++ [SP] ++ z).
  { destruct (split_on SP c) as [|o [|z [|y ws]]] eqn:E.
    - right. intros o z Ho Hz ->. change (o ++ [SP] ++ z) with (o ++ SP :: z) in E. by rewrite split_on_app in E.
    - right. intros o' z Ho Hz ->. change (o' ++ [SP] ++ z) with (o' ++ SP :: z) in E. by rewrite split_on_app, split_on_none in E.
    - left. exists o, z. split_and!; [apply Hsp; by left|apply Hsp; right; by left|done].
    - right. intros o' z' Ho Hz ->. change (o' ++ [SP] ++ z') with (o' ++ SP :: z') in E. by rewrite split_on_app, split_on_none in E. }
  destruct Hw as [(o & z & Ho & Hz & ->)|Hw]; [|right; by eexists _, _; apply bi_words].
  replace ((o ++ [SP] ++ z) ++ [NL]) with (item_line (o, z)) by (unfold item_line; simpl; by rewrite <- app_assoc).
  destruct (parse_u64 z) as [n|] eqn:E.
  2: { right. eexists _, _. apply bi_number; try done. by apply parse_u64_none. }
  apply parse_u64_some in E. destruct (oid_new o) as [o'|e] eqn:Eo.
  2: { right. eexists _, _. eapply bi_oid; try done. by apply oid_new_no in Eo as [_ ?]. }
  apply oid_new_iff in Eo as [_ Hoid].
  destruct (IH (items ++ [(o, z)])) as [(items' & E' & Hi')|(code & t & Hb)].
  - apply Forall_app. split; [done|]. constructor; [|constructor]. split; [done|by exists n].
  - left. exists items'. split; [|done]. rewrite <- E'. unfold lines. by rewrite !map_app, <- app_assoc.
  - right. exists code, t. unfold lines in *. by rewrite !map_app, <- app_assoc in Hb.
Qed.
Lemma items_cases qs :
  (exists items, qs = lines (map item_line items) /\ Forall item_ok items) \/ exists code t, bad_items qs code t.
Proof. apply (items_cases_from []). constructor. Qed.

(** ** Sessions *)
Lemma packets_le qs ps tl : (length qs <= length (enc_all (qs ++ ps) ++ tl))%nat.
Proof.
  rewrite app_length. induction qs as [|q qs IH]; [simpl; lia|].
  cbn [app enc_all flat_map length]. change (flat_map enc) with enc_all. rewrite app_length.
  assert (1 <= length (enc q))%nat; [|lia]. destruct q; simpl; try lia.
  unfold hex04, pad0. rewrite !app_length, replicate_length. lia.
Qed.
Lemma enc_all_cons p ps : enc_all (p :: ps) = enc p ++ enc_all ps.
Proof. done. Qed.

Section odd.
Context (en : env) (lfs : path) (umask : N) (ts : option Z) (clock : Z -> Prop) (m : mode).
Context (pid fuel : nat) (F : failure -> local -> fs -> Prop).
Context (HH : digest (en_hash en)) (Hlfs : Forall plain_name lfs).
Context (Hts : forall t, ts = Some t -> clock t) (Hclock : forall t, clock t -> time_ok en t).
Let be := Backend lfs umask ts.
Let ok := mild ts clock.
Notation WP := (wp pid ok F).
Notation rep := (represents en lfs).
Notation answers := (answers en lfs umask ts clock m pid fuel F).
Notation room := (room fuel).

Lemma odd_nf : forall o, ok o -> no_fault o.
Proof using Type. by intros o []. Qed.

Lemma nf_read stop qs tl (Q : res (list bytes) -> local -> fs -> Prop) l s :
  (length (l_in l) < fuel)%nat -> upto stop qs (l_in l) tl ->
  Q (Ok (map payload qs)) (set_in tl l) s -> WP (read_to_type fuel stop) Q l s.
Proof using Type. apply nf_read_to_type. exact odd_nf. Qed.

Definition outcome (w : world) (x : meaning) (tl : bytes) (l : local) (y : res status * rbuf) (l' : local) (s' : fs) : Prop :=
  exists a w', reacts en m (l_uid l) clock w x a w' /\ rep s' w' /\ room w' /\
    sends s' (status_of y.1) a /\ fits fuel a /\ l' = set_in tl l /\ rb_ok y.2.

Lemma outcome_error w code t tl l e rb s : status_of_error e = st_failure code (t ++ [NL]) -> code ∈ codes ->
  rep s w -> room w -> rb_ok rb -> outcome w (Fixed code t) tl l (Er e, rb) (set_in tl l) s.
Proof using Type.
  intros He Hc Hr Hw Hrb. exists (Reply code [] (BText (t ++ [NL]))), w. split_and!; try done.
  cbn [fst status_of]. rewrite He. by apply sends_fail.
Qed.
Lemma outcome_fixed w code t tl l rb s : code ∈ codes ->
  rep s w -> room w -> rb_ok rb -> outcome w (Fixed code t) tl l (Ok (st_failure code (t ++ [NL])), rb) (set_in tl l) s.
Proof using Type.
  intros Hc Hr Hw Hrb. by exists (Reply code [] (BText (t ++ [NL]))), w.
Qed.

Lemma answers_for r : well_formed m r -> answers r (command_for r).
Proof using HH Hlfs Hts Hclock.
  intros Hw. destruct r.
  - by apply nf_version.
  - by apply nf_batch_cmd.
  - by apply nf_put_cmd.
  - by apply nf_verify_cmd.
  - by apply nf_get_cmd.
  - by apply nf_lock_cmd.
  - by apply nf_list_cmd.
  - by apply nf_unlock_cmd.
Qed.

(** The packets a command reads after its words, *)
Inductive shape := SNow | SLines (qs : list packet) | SFirst (qs : list packet) | STwo (qs rs : list packet)
  | SData (qs : list packet) (ds : list bytes).
Definition takes (sh : shape) (i tl : bytes) : Prop :=
  match sh with
  | SNow => i = tl
  | SLines qs => upto PFlush qs i tl
  | SFirst qs => upto PDelim qs i tl
  | STwo qs rs => exists i1, upto PDelim qs i i1 /\ upto PFlush rs i1 tl
  | SData qs ds => exists i1, upto PDelim qs i i1 /\ datas i1 ds (Ok tt) tl
  end.
(** with those that close them. *)
Definition shaped (sh : shape) (ps : list packet) : Prop :=
  match sh with
  | SNow => ps = []
  | SLines qs => ps = qs ++ [PFlush] /\ PFlush ∉ qs
  | SFirst qs => ps = qs ++ [PDelim] /\ PDelim ∉ qs
  | STwo qs rs => ps = qs ++ [PDelim] ++ rs ++ [PFlush] /\ PDelim ∉ qs /\ PFlush ∉ rs
  | SData qs ds => exists e, ps = qs ++ [PDelim] ++ lines ds ++ [e] /\ PDelim ∉ qs /\ (e = PFlush \/ e = PDelim) /\
      Forall (fun d => lenN d <= 65516)%N ds
  end.
Lemma takes_enc sh ps tl : shaped sh ps -> short ps -> takes sh (enc_all ps ++ tl) tl.
Proof using Type.
  destruct sh as [|qs|qs|qs rs|qs ds]; simpl.
  - by intros ->.
  - intros [-> H] Hs. apply Forall_app in Hs as [Hs _]. apply upto_enc; [by left|done|done].
  - intros [-> H] Hs. apply Forall_app in Hs as [Hs _]. apply upto_enc; [by right|done|done].
  - intros (-> & H1 & H2) Hs. apply Forall_app in Hs as [Hs1 Hs]. apply Forall_cons in Hs as [_ Hs]. apply Forall_app in Hs as [Hs2 _].
    change (qs ++ PDelim :: rs ++ [PFlush]) with (qs ++ [PDelim] ++ rs ++ [PFlush]).
    rewrite app_assoc, enc_all_app, <- app_assoc. eexists. split; apply upto_enc; by auto.
  - intros (e & -> & H1 & He & Hds) Hs. apply Forall_app in Hs as [Hs1 _].
    change (qs ++ PDelim :: lines ds ++ [e]) with (qs ++ [PDelim] ++ lines ds ++ [e]).
    rewrite app_assoc, enc_all_app, <- app_assoc. eexists. split; [apply upto_enc; by auto|by apply datas_enc].
Qed.
Definition shape_of (r : request) : shape :=
  match r with
  | RVersion => SLines []
  | RBatch kvs items => STwo (args kvs) (lines (map item_line items))
  | RPut _ kvs ds => SData (args kvs) ds
  | RVerify _ kvs | RGet _ kvs | RLock kvs | RList kvs | RUnlock _ kvs => SLines (args kvs)
  end.
Lemma shape_given r i tl : takes (shape_of r) i tl -> given r i tl.
Proof using Type. by destruct r. Qed.
Lemma shape_shaped r : well_formed m r -> shaped (shape_of r) (tail (packets_of r)).
Proof using Type.
  assert (Hd : forall ls p, p = PFlush \/ p = PDelim -> p ∉ lines ls) by (intros; by apply lines_data).
  destruct r; simpl; intros Hwf; try (split; [done|]; apply Hd; by auto).
  - split; [done|]. apply not_elem_of_nil.
  - split; [done|]. split; apply Hd; by auto.
  - exists PFlush. split_and!; [done|apply Hd; by auto|by left|apply Hwf].
Qed.

(** A command whose words have been read. *)
Definition handled (c : command) (P : bytes -> bytes -> Prop) (x : meaning) : Prop :=
  forall w rb tl l s, rep s w -> room w -> rb_ok rb -> (2 * length (l_in l) + 2 <= fuel)%nat -> P (l_in l) tl ->
  WP (handle_command en be fuel c m rb) (outcome w x tl l) l s.
Definition handles (c : command) (sh : shape) (x : meaning) : Prop := handled c (takes sh) x.

Lemma h_request r : well_formed m r -> handles (command_for r) (shape_of r) (Does r).
Proof using HH Hlfs Hts Hclock.
  intros Hwf w rb tl l s Hr Hw Hrb Hf Hin. exact (answers_for r Hwf w rb tl l s Hr Hw Hrb Hf (shape_given _ _ _ Hin)).
Qed.
Lemma h_version qs : handles CVersion (SLines qs) (Does RVersion).
Proof using Type.
  intros w rb tl l s Hr Hw Hrb Hf Hin. cbn [handle_command].
  apply wp_bind. unfold p_version. apply wp_bindR. unfold read_to_flush.
  eapply nf_read; [lia|done|]. apply wp_ret, wp_ret.
  exists (Reply 200 [] (BLines [])), w. split_and!; try done; [constructor|]. by apply (sends_lines s 200 None), is_code.
Qed.
Lemma h_unlock i qs : plain_name i -> handles (CUnlock i) (SLines qs) (Does (RUnlock i [])).
Proof using HH Hlfs Hclock.
  intros Hi w rb tl l s Hr Hw Hrb Hf Hin.
  apply nf_unlock_any; try done. intros Q HQ. unfold read_to_flush. eapply nf_read; [lia|done|]. apply HQ.
Qed.
Lemma push_nul base i : Byte.x00 ∈ i -> has_nul (push_str base i) = true.
Proof using Type.
  intros Hi.
  assert (G : existsb (fun c => existsb (fun b => bool_decide (b = Byte.x00)) c) (split_on SLASH i) = true).
  { rewrite <- (join_split SLASH i) in Hi. revert Hi. generalize (split_on SLASH i). clear. intros ws.
    induction ws as [|w ws IH]; simpl; [by intros ?%elem_of_nil|]. intros Hi. apply orb_true_iff.
    assert (Hw : Byte.x00 ∈ w -> existsb (fun b => bool_decide (b = Byte.x00)) w = true).
    { intros Hw. apply existsb_exists. exists Byte.x00. by rewrite <- elem_of_list_In, bool_decide_true. }
    destruct ws as [|w' ws]; [by left; apply Hw|]. apply elem_of_app in Hi as [Hi|Hi]; [by left; apply Hw|].
    right. apply IH. apply elem_of_cons in Hi as [Hi|Hi]; [by vm_compute in Hi|done]. }
  unfold push_str, has_nul. destruct i as [|c i]; [by apply elem_of_nil in Hi|].
  case_decide; [done|]. by rewrite existsb_app, G, orb_true_r.
Qed.
Lemma h_unlock_fixed i qs code t e : code ∈ codes -> status_of_error e = st_failure code (t ++ [NL]) ->
  (forall w l s (Q : res status -> local -> fs -> Prop), rep s w -> Q (Er e) l s ->
     WP (if utf8_valid i then
           let! f := lock_from_id en be i in
           match f with
           | Ok (Some k) =>
               let! args := as_arguments en k in
               let! u := lock_unlock en be k in
               match u with
               | Ok _ => Ret (Ok (st_success_with_code 200 args))
               | Er e =>
                   if decide (io_kind e = KNotFound) then p_error 404 (bs "not found")
                   else if decide (io_kind e = KPermissionDenied) then p_error 403 (bs "forbidden")
                   else Ret (Er e)
               end
           | Ok None => p_error 404 (bs "not found")
           | Er e => Ret (Er e)
           end
         else Ret (Er (err_msg CorruptData (bs "invalid or corrupt ID")))) Q l s) ->
  handles (CUnlock i) (SLines qs) (Fixed code t).
Proof using Type.
  intros Hc He Hgo w rb tl l s Hr Hw Hrb Hf Hin. cbn [handle_command].
  apply wp_bind. unfold p_unlock. apply wp_bindR. unfold read_to_flush.
  eapply nf_read; [lia|done|]. apply (Hgo w); [done|]. apply wp_ret. by apply outcome_error.
Qed.
Lemma h_unlock_bytes i qs : utf8_valid i = false ->
  handles (CUnlock i) (SLines qs) (Fixed 400 (bs "error: corrupt data: invalid or corrupt ID")).
Proof using Type.
  intros Hi. eapply h_unlock_fixed with (e := err_msg CorruptData (bs "invalid or corrupt ID")); [by apply is_code|done|].
  intros w l s Q Hr HQ. rewrite Hi. by apply wp_ret.
Qed.
Lemma h_unlock_nul i qs : utf8_valid i = true -> Byte.x00 ∈ i ->
  handles (CUnlock i) (SLines qs)
    (Fixed 500 (bs "internal error: fatal: I/O error: file name contained an unexpected NUL byte")).
Proof using Type.
  intros Hu Hi. eapply h_unlock_fixed with (e := err_of_io EINVAL_NUL); [by apply is_code|done|].
  intros w l s Q Hr HQ. rewrite Hu. apply wp_bind. unfold lock_from_id. apply wp_bind, nf_open.
  unfold fs_open, resolve. rewrite push_nul by done. rewrite decide_False by done. by apply wp_ret, wp_ret.
Qed.
Lemma h_unlock_dir i qs : i ∈ [[]; bs "."; bs ".."] ->
  handles (CUnlock i) (SLines qs) (Fixed 500 (bs "internal error: fatal: I/O error: Is a directory (os error 21)")).
Proof using Hlfs.
  intros Hi. eapply h_unlock_fixed with (e := err_of_io EISDIR); [by apply is_code|done|].
  intros w l s Q Hr HQ.
  assert (Hu : utf8_valid i = true).
  { repeat (apply elem_of_cons in Hi as [->|Hi]; [by vm_compute|]). by apply elem_of_nil in Hi. }
  rewrite Hu. apply wp_bind. unfold lock_from_id. apply wp_bind, nf_open.
  assert (fs_open (push_str (lock_dir be) i) s = IOk HDir) as ->.
  { assert (push_str (lock_dir be) i = (lfs ++ [bs "locks"]) ++ [i]) as ->.
    { repeat (apply elem_of_cons in Hi as [->|Hi]; [done|]). by apply elem_of_nil in Hi. }
    destruct (resolve_dir lfs Hlfs s (bs "locks") (r_dirs _ _ _ _ Hr) in_locks) as [Er En].
    pose proof (is_dir_to _ _ (r_dirs _ _ _ _ Hr (bs "locks") in_locks)) as Hup.
    unfold resolve in Er. destruct (has_nul (lfs ++ [bs "locks"])) eqn:Enul; [done|].
    unfold fs_open, resolve, has_nul in *. rewrite existsb_app, Enul.
    assert (existsb (fun c => existsb (fun b => bool_decide (b = Byte.x00)) c) [i] = false) as ->.
    { repeat (apply elem_of_cons in Hi as [->|Hi]; [by vm_compute|]). by apply elem_of_nil in Hi. }
    cbn [orb]. rewrite walk_app, Er. cbn [walk]. rewrite En.
    apply elem_of_cons in Hi as [->|Hi]; [by rewrite decide_True, En by (by left)|].
    apply elem_of_cons in Hi as [->|Hi]; [by rewrite decide_True, En by (by right)|].
    apply elem_of_list_singleton in Hi as ->. rewrite decide_False by (by intros [?|?]). rewrite decide_True by done.
    rewrite removelast_last. by rewrite (Hup lfs [bs "locks"]). }
  apply wp_bindR, wp_io_call, nf_read_all. cbn [fs_read_all res_of_io]. by apply wp_ret.
Qed.
Lemma h_turned c code t : reply_of c = Some (code, t) -> handles c SNow (Fixed code t).
Proof using Type.
  intros Hc w rb tl l s Hr Hw Hrb Hf Hin. simpl in Hin.
  assert (El : l = set_in tl l) by (rewrite <- Hin; by destruct l). rewrite El at 2. clear El.
  destruct c; try done; injection Hc as <- <-; cbn [handle_command]; apply wp_bind, wp_ret, wp_ret;
    (apply outcome_fixed; [by apply is_code|done..]).
Qed.
Lemma h_oid o : ~ is_oid o -> handles (CPut o) SNow (Fixed 400 (bs "error: " ++ bad_oid)).
Proof using Type.
  intros Ho w rb tl l s Hr Hw Hrb Hf Hin. simpl in Hin.
  assert (El : l = set_in tl l) by (rewrite <- Hin; by destruct l). rewrite El at 2. clear El.
  cbn [handle_command]. unfold p_put_object.
  destruct (oid_new o) as [o'|e] eqn:E; [by apply oid_new_iff in E as [_ ?]|]. apply wp_ret.
  unfold oid_new in E. destruct (oid_valid o); [done|]. injection E as <-. apply outcome_error; try done. by apply is_code.
Qed.
Lemma h_args r qs code t :
  match r with RVerify _ _ | RGet _ _ | RLock _ | RList _ => True | _ => False end ->
  bad_args qs code t -> handles (command_for r) (SLines qs) (Fixed code t).
Proof using Type.
  intros Hc Hb w rb tl l s Hr Hw Hrb Hf Hin.
  destruct (bad_args_parse qs code t Hb) as (e & E1 & E2 & E3).
  destruct r; try done; cbn [command_for handle_command]; apply wp_bind.
  - apply wp_bindR. unfold read_to_flush. eapply nf_read; [lia|done|]. rewrite E1.
    apply wp_bindR, wp_ret, wp_ret. by apply outcome_error.
  - apply wp_bindR. unfold read_to_flush. eapply nf_read; [lia|done|]. rewrite E1.
    apply wp_bindR, wp_ret, wp_ret. by apply outcome_error.
  - apply wp_bindR, wp_bind. unfold read_to_flush. eapply nf_read; [lia|done|]. apply wp_ret. rewrite E1.
    apply wp_bindR, wp_ret, wp_ret. by apply outcome_error.
  - apply wp_bindR, wp_bind. unfold read_to_flush. eapply nf_read; [lia|done|]. apply wp_ret. rewrite E1.
    apply wp_bindR, wp_ret, wp_ret. by apply outcome_error.
Qed.
Lemma h_args_first r qs code t :
  match r with RBatch _ _ => True | RPut o _ _ => is_oid o | _ => False end ->
  bad_args qs code t -> handles (command_for r) (SFirst qs) (Fixed code t).
Proof using Type.
  intros Hc Hb w rb tl l s Hr Hw Hrb Hf Hin.
  destruct (bad_args_parse qs code t Hb) as (e & E1 & E2 & E3).
  destruct r; try done; cbn [command_for handle_command].
  - assert (G : forall a b, WP (let! r := p_batch be fuel a b in Ret (r, rb)) (outcome w (Fixed code t) tl l) l s); [|destruct (is_upload m); apply G].
    intros a b. apply wp_bind. unfold p_batch, read_batch. apply wp_bindR, wp_bindR. unfold read_to_delim.
    eapply nf_read; [lia|done|]. rewrite E1. apply wp_bindR, wp_ret, wp_ret. by apply outcome_error.
  - unfold p_put_object. rewrite (proj2 (oid_new_iff o o)) by done. apply wp_bind, wp_bindR. unfold read_to_delim.
    eapply nf_read; [lia|done|]. rewrite E1. apply wp_bindR, wp_ret, wp_ret. by apply outcome_error.
Qed.
Lemma h_put_size o kvs code t : is_oid o -> args_ok kvs -> code = 400%N ->
  (no_key (bs "size") kvs /\ t = bs "error: incomplete or missing data: missing required size header" \/
   exists v, (bs "size", v) ∈ kvs /\ (~ exists n, number v n) /\ t = bs "error: " ++ bad_number v) ->
  handles (CPut o) (SFirst (args kvs)) (Fixed code t).
Proof using Type.
  intros Ho Hk -> Ht w rb tl l s Hr Hw Hrb Hf Hin. cbn [handle_command].
  unfold p_put_object. rewrite (proj2 (oid_new_iff o o)) by done. apply wp_bind, wp_bindR. unfold read_to_delim.
  eapply nf_read; [lia|done|]. rewrite map_payload_args.
  apply wp_bindR, nf_args; [done|]. intros a Ha. apply wp_ret. unfold size_from_arguments.
  destruct (a !! bs "size") as [v|] eqn:Ev.
  - apply Ha in Ev. destruct Ht as [[Hno ->]|(v' & Hv' & Hn & ->)].
    { exfalso. apply Hno. by apply (elem_of_list_fmap_1 fst _ (bs "size", v)). }
    assert (v' = v) as -> by (apply Ha in Hv'; apply Ha in Ev; congruence).
    destruct (parse_integer v) as [n|e] eqn:E; [exfalso; apply Hn; exists n; by apply parse_number|].
    apply parse_number_er in E as (E1 & _ & E2). apply wp_ret. apply outcome_error; try done; [|by apply is_code].
    unfold status_of_error. rewrite E1, E2. by rewrite <- app_assoc.
  - destruct Ht as [[Hno ->]|(v' & Hv' & _)]; [|apply Ha in Hv'; congruence].
    apply wp_ret. apply outcome_error; try done. by apply is_code.
Qed.
Lemma h_batch kvs qs code t : args_ok kvs ->
  (exists h, (bs "hash-algo", h) ∈ kvs /\ h <> bs "sha256" /\ code = 400%N /\
    t = bs "error: not allowed: " ++ utf8_lossy h ++ bs " is not a permitted hash algorithm") \/
  (exists h, key (bs "hash-algo") kvs h /\ (h = None \/ h = Some (bs "sha256")) /\ bad_items qs code t) ->
  handles CBatch (STwo (args kvs) qs) (Fixed code t).
Proof using Type.
  intros Hk Ht w rb tl l s Hr Hw Hrb Hf (tl1 & Hin1 & Hin2). pose proof (upto_shrink _ _ _ _ Hin1) as Hsh. cbn [handle_command].
  assert (G : forall a b, WP (let! r := p_batch be fuel a b in Ret (r, rb)) (outcome w (Fixed code t) tl l) l s); [|destruct (is_upload m); apply G].
  intros a0 b0. apply wp_bind. unfold p_batch, read_batch. apply wp_bindR, wp_bindR. unfold read_to_delim.
  eapply nf_read; [lia|exact Hin1|]. rewrite map_payload_args.
  apply wp_bindR, nf_args; [done|]. intros a Ha. apply wp_bindR, wp_bind. unfold read_to_flush.
  eapply nf_read; [cbn [l_in set_in]; lia|exact Hin2|].
  apply wp_ret. rewrite set_in_set_in.
  destruct Ht as [(h & Hh & Hne & -> & ->)|(h & Hh & Hh' & Hb)].
  - apply Ha in Hh as ->. rewrite decide_False by done. apply wp_ret, wp_ret. apply outcome_error; [|by apply is_code|done..].
    unfold status_of_error, display. cbn [e_kind e_int e_msg err_msg kind_text client_error]. by rewrite <- !app_assoc.
  - destruct (bad_items_parse qs code t Hb) as (e & E1 & E2 & E3).
    assert (Hrun : WP (let? oids := Ret (batch_lines (map payload qs)) in let! items := backend_batch be oids in Ret (Ok items))
      (fun r l' s' => match r with
        | Ok a1 => WP (Ret (Ok (st_new_success (map (batch_out a0 b0) a1)))) (fun a2 => WP (Ret (a2, rb)) (outcome w (Fixed code t) tl l)) l' s'
        | Er e => WP (Ret (Er e, rb)) (outcome w (Fixed code t) tl l) l' s' end) (set_in tl l) s).
    { rewrite E1. apply wp_bindR, wp_ret, wp_ret. by apply outcome_error. }
    destruct h as [h|].
    + destruct Hh' as [?|E]; [done|]. injection E as ->. apply Ha in Hh as ->. rewrite decide_True by done. exact Hrun.
    + destruct (a !! bs "hash-algo") as [v|] eqn:Ev; [|exact Hrun]. apply Ha in Ev. destruct Hh.
      by apply (elem_of_list_fmap_1 fst _ (bs "hash-algo", v)).
Qed.

Lemma nf_answer_error code t (Q : res unit -> local -> fs -> Prop) l s : code ∈ codes ->
  (forall ps s', reply_sent (Reply code [] (BText (t ++ [NL]))) ps -> nodes s' = nodes s -> inodes s' = inodes s ->
     Q (Ok tt) (add_out (enc_all ps) l) s') ->
  WP (answer_error code t) Q l s.
Proof using Type.
  intros Hc HQ. unfold answer_error, send_error. apply wp_bind, wp_call. intros o _. cbn [handle_ev].
  destruct (code_denotes _ Hc) as [Hden Hlen].
  assert (Hsm : small (status_line code)).
  { apply status_line_small. clear -Hc. unfold codes in Hc.
    repeat (apply elem_of_cons in Hc as [->|Hc]; [done|]). by apply elem_of_nil in Hc. }
  apply wp_bindR, nf_send; [exact odd_nf|]. apply wp_bindR, nf_delim; [exact odd_nf|].
  apply wp_bindR, nf_send; [exact odd_nf|]. apply nf_flush; [exact odd_nf|]. rewrite (pk_short (status_line code)) by done. rewrite !add_out_app.
  match goal with |- Q _ (add_out ?w l) _ =>
    replace w with (enc_all (PData (status_line code) :: [] ++ (PDelim :: pk (t ++ [NL])) ++ [PFlush])) end.
  - apply HQ; [|done|done]. exists (pad0 3 (dec code)), [], (PDelim :: pk (t ++ [NL])).
    split_and!; try done; [constructor|]. exists (pk (t ++ [NL])). split; [done|apply line_sent_pk].
  - cbn [app]. rewrite !enc_all_cons, enc_all_app. cbn [enc_all flat_map]. by rewrite !app_nil_r, !app_assoc.
Qed.

(** One request. *)
Lemma nf_command b ws c P x i1 w rb tl l s (Q : next -> local -> fs -> Prop) :
  decode 65535 (l_in l) = (Ok (PData b), i1) -> says b ws -> dispatch ws m = c -> c <> CQuit -> handled c P x ->
  P i1 tl -> rep s w -> room w -> rb_ok rb -> (2 * length (l_in l) + 2 <= fuel)%nat ->
  (forall a w' ps rb' s', reacts en m (l_uid l) clock w x a w' -> reply_sent a ps -> rep s' w' -> room w' ->
     rb_ok rb' -> Q (Next rb') (add_out (enc_all ps) (set_in tl l)) s') ->
  WP (process_one en be fuel m rb) Q l s.
Proof using HH Hlfs Hts Hclock.
  intros Hin Hb Hd Hc Hh Ht Hr Hw Hrb Hf HQ.
  unfold process_one. apply wp_bind, (nf_read_packet pid ok F odd_nf). rewrite Hin. cbn [fst snd].
  cbn [pkt_data]. pose proof (says_words b ws Hb) as Eb. destruct b as [|b0 b']; [by destruct Hb|]. rewrite Eb, Hd.
  set (l1 := set_in _ l).
  assert (Hgo : WP (let! (r0, rb') := handle_command en be fuel c m rb in and_go_on rb' (answer fuel (status_of r0))) Q l1 s).
  { apply wp_bind. eapply wp_mono; [|apply (Hh w rb tl l1 s); [done|done|done| |done]].
    - intros [y rb'] l' s' (a & w' & H1 & H2 & H3 & H4 & H5 & -> & H6). cbn [fst snd] in *.
      unfold and_go_on. apply wp_bind. eapply (nf_answer ts clock); [done|done|].
      intros ps s'' Hps E1 E2. apply wp_ret. unfold l1. rewrite set_in_set_in.
      eapply HQ; [exact H1|done| |done|done].
      eapply rep_same; [exact H2|done|by apply ino_le_eq].
    - unfold l1. cbn [l_in set_in]. apply decode_shrink in Hin. lia. }
  destruct c; done || exact Hgo.
Qed.
Definition lone (p : packet) (code : N) (t : bytes) : Prop :=
  code = 400%N /\ (p = PData [] /\ t = bs "no command provided" \/ (p = PFlush \/ p = PDelim) /\ t = bs "unknown command").
Lemma nf_lone p code t w rb tl l s (Q : next -> local -> fs -> Prop) :
  decode 65535 (l_in l) = (Ok p, tl) -> lone p code t -> rep s w -> room w -> rb_ok rb ->
  (forall a w' ps rb' s', reacts en m (l_uid l) clock w (Fixed code t) a w' -> reply_sent a ps -> rep s' w' -> room w' ->
     rb_ok rb' -> Q (Next rb') (add_out (enc_all ps) (set_in tl l)) s') ->
  WP (process_one en be fuel m rb) Q l s.
Proof using Type.
  intros Hin [-> Hp] Hr Hw Hrb HQ. unfold process_one. apply wp_bind, (nf_read_packet pid ok F odd_nf). rewrite Hin. cbn [fst snd].
  assert (G : WP (and_go_on rb (answer_error 400 t)) Q (set_in tl l) s).
  { unfold and_go_on. apply wp_bind. apply nf_answer_error; [by apply is_code|]. intros ps s' Hps E1 E2. apply wp_ret.
    eapply HQ; [split; done|done| |done|done]. eapply rep_same; [exact Hr|done|by apply ino_le_eq]. }
  destruct Hp as [[-> ->]|[[-> | ->] ->]]; exact G.
Qed.

(** What a group of packets asks for. *)
Lemma group_cases g x : means m g x ->
  (exists p code t, g = [p] /\ x = Fixed code t /\ lone p code t) \/
  (exists b ws c sh qs, g = PData b :: qs /\ says b ws /\ dispatch ws m = c /\ c <> CQuit /\ handles c sh x /\ shaped sh qs /\
     (c = CBatch -> match sh with SFirst _ | STwo _ _ => True | _ => False end) /\
     (forall rs ds, sh = SData rs ds -> exists o kvs ds', x = Does (RPut o kvs ds'))).
Proof using HH Hlfs Hts Hclock.
  assert (Hd : forall ls p, p = PFlush \/ p = PDelim -> p ∉ lines ls) by (intros; by apply lines_data).
  intros Hg.
  set (goal := _ \/ _).
  assert (Hr0 : forall r b ws sh qs, allowed m r -> says b ws -> named r ws -> handles (command_for r) sh x -> g = PData b :: qs ->
    shaped sh qs -> (command_for r = CBatch -> match sh with SFirst _ | STwo _ _ => True | _ => False end) ->
    (forall rs ds, sh = SData rs ds -> exists o kvs ds', x = Does (RPut o kvs ds')) -> goal).
  { intros r b ws sh qs Ha Hb Hn Hh E Hsh Hbat Hput. right. exists b, ws, (command_for r), sh, qs.
    split_and!; try done; [by apply named_dispatch|apply command_for_quit]. }
  destruct Hg as [r ws b Hwf Hb Hn|ws b qs Hb Hn Hqs|i ws b qs Hm Hi Hb Hn Hqs
    |i ws b qs Hm Hi Hb Hn Hqs|i ws b qs Hm Hu Hi Hb Hn Hqs|i ws b qs Hm Hi Hb Hn Hqs|o kvs ds ws b Hwf Hb Hn| |p Hp|ws b code t Hb Ht
    |r ws b qs code t Hc Ha Hb Hn Hqs Hbad|r ws b qs code t Hc Ha Hb Hn Hqs Hbad|o kvs ws b Hm Ho Hb Hn Hk Hno
    |o kvs v ws b Hm Ho Hb Hn Hk Hv Hno|kvs h qs ws b Hb Hn Hk Hh Hne Hqs|kvs h qs ws b code t Hb Hn Hk Hh Hh' Hqs Hbad].
  - eapply Hr0; [by apply well_formed_allowed|exact Hb|exact Hn|by apply h_request|done|by apply shape_shaped|by destruct r|].
    intros rs ds E. destruct r; try done. by eexists _, _, _.
  - eapply (Hr0 RVersion); [done|exact Hb|exact Hn|apply h_version|done|done|done|done].
  - eapply Hr0; [|exact Hb|exact Hn|by apply h_unlock|done|done|done|done]. done.
  - eapply Hr0; [|exact Hb|exact Hn|by apply h_unlock_bytes|done|done|done|done]. done.
  - eapply Hr0; [|exact Hb|exact Hn|by apply h_unlock_nul|done|done|done|done]. done.
  - eapply Hr0; [|exact Hb|exact Hn|by apply h_unlock_dir|done|done|done|done]. done.
  - eapply Hr0; [|exact Hb|exact Hn|by apply h_request|done| |done|]; [by apply well_formed_allowed| |].
    + exists PDelim. split_and!; [done|apply Hd; by auto|by right|apply Hwf].
    + intros rs ds' E. by eexists _, _, _.
  - left. eexists _, _, _. split_and!; [done|done|]. split; [done|by left].
  - left. eexists _, _, _. split_and!; [done|done|]. split; [done|by right].
  - right. destruct (turned_dispatch m ws code t Ht) as [Hdi|(o & Hdi & Ho & -> & ->)].
    + eexists b, ws, _, SNow, []. split_and!; [done|done|done| |by apply h_turned|done| |done]; intros E; by rewrite E in Hdi.
    + eexists b, ws, _, SNow, []. split_and!; [done|done|exact Hdi|done|by apply h_oid|done|done|done].
  - eapply Hr0; [exact Ha|exact Hb|exact Hn|by apply h_args|done|done|by destruct r|done].
  - eapply Hr0; [exact Ha|exact Hb|exact Hn|by apply h_args_first|done|done|done|done].
  - eapply (Hr0 (RPut o [] [])); [done|exact Hb|exact Hn|apply h_put_size; [done|done|done|by left]|done| |done|done].
    split; [done|]. apply Hd; by auto.
  - eapply (Hr0 (RPut o [] [])); [done|exact Hb|exact Hn|apply h_put_size; [done|done|done|right; by exists v]|done| |done|done].
    split; [done|]. apply Hd; by auto.
  - eapply (Hr0 (RBatch [] [])); [done|exact Hb|exact Hn|apply h_batch; [done|left; by exists h]|done| |done|done].
    split_and!; [done|apply Hd; by auto|done].
  - eapply (Hr0 (RBatch [] [])); [done|exact Hb|exact Hn|apply h_batch; [done|right; by exists h]|done| |done|done].
    split_and!; [done|apply Hd; by auto|done].
Qed.

(** One group of packets. *)
Lemma nf_group g x w rb tl l s (Q : next -> local -> fs -> Prop) :
  means m g x -> rep s w -> room w -> rb_ok rb -> (2 * length (l_in l) + 2 <= fuel)%nat ->
  l_in l = enc_all g ++ tl -> short g ->
  (forall a w' ps rb' s', reacts en m (l_uid l) clock w x a w' -> reply_sent a ps -> rep s' w' -> room w' ->
     rb_ok rb' -> Q (Next rb') (add_out (enc_all ps) (set_in tl l)) s') ->
  WP (process_one en be fuel m rb) Q l s.
Proof using HH Hlfs Hts Hclock.
  intros Hg Hr Hw Hrb Hf Hin Hs HQ.
  assert (Hdec : forall p qs, g = p :: qs -> decode 65535 (l_in l) = (Ok p, enc_all qs ++ tl)).
  { intros p qs ->. rewrite Hin, enc_all_cons, <- app_assoc. apply Forall_cons in Hs as [Hs _].
    apply decode_enc; rewrite <- ?payload_len; lia. }
  destruct (group_cases g x Hg) as [(p & code & t & E & -> & Hp)|(b & ws & c & sh & qs & E & H1 & H2 & H3 & H4 & H5 & _)].
  - eapply (nf_lone p code t); [by apply Hdec|done..].
  - eapply (nf_command b ws c (takes sh) x); [by apply Hdec|done..| |done|done|done|done|done].
    apply takes_enc; [done|]. rewrite E in Hs. by apply Forall_cons in Hs as [_ ?].
Qed.

Lemma group_len g x : means m g x -> (1 <= length (enc_all g))%nat.
Proof using Type.
  intros H. assert (G : exists p ps, g = p :: ps) by (destruct H; by eexists _, _).
  destruct G as (p & ps & ->). pose proof (packets_le (p :: ps) [] []). rewrite !app_nil_r in H0. simpl in H0 |- *. lia.
Qed.

Lemma nf_groups gs n w rb rest extra l s :
  Forall (fun g => exists x, means m g x) gs -> rep s w -> room w -> rb_ok rb ->
  (2 * length (l_in l) + 2 <= fuel)%nat -> (length gs < n)%nat ->
  l_in l = enc_all (concat gs) ++ rest -> short (concat gs) -> closing rest extra ->
  WP (process_commands en be fuel n m rb)
    (fun r l' s' => r = Ok tt /\ exists answers w' ps, dialogue en m (l_uid l) clock w gs answers w' /\
       replies_sent (answers ++ extra) ps /\ rep s' w' /\ exists tl, l' = add_out (enc_all ps) (set_in tl l)) l s.
Proof using HH Hlfs Hts Hclock.
  revert n w rb l s. induction gs as [|g gs IH]; intros n w rb l s Hwf Hr Hw Hrb Hf Hn Hin Hs Hend.
  - destruct n as [|n]; [simpl in Hn; lia|]. cbn [process_commands]. apply wp_bind.
    simpl in Hin. destruct Hend as [|b w0 junk Hb Hq].
    + unfold process_one. apply wp_bind, (nf_read_packet pid ok F odd_nf). rewrite Hin.
      change (decode 65535 []) with (Er (A := packet) (err_of_io EEOF), @nil byte).
      cbn [fst snd]. apply wp_ret. cbn. rewrite decide_True by done. apply wp_ret. split; [done|]. exists [], w, [].
      split_and!; [constructor|constructor|done|]. exists []. by rewrite add_out_nil.
    + apply wire_inv in Hq as [-> Hq]. unfold process_one. apply wp_bind. eapply (nf_read_enc pid ok F odd_nf); [exact Hin|done|].
      cbn [pkt_data].
      assert (dispatch (command_words b) m = CQuit) as E by (rewrite (says_words _ _ Hb); by destruct m).
      destruct b as [|b0 b]; [by destruct Hb|]. rewrite E.
      apply wp_bind. eapply (nf_answer ts clock pid fuel F st_success (Reply 200 [] BNone)); [|done|].
      { by apply (sends_none s 200 None), is_code. }
      intros ps s' Hps E1 E2. apply wp_ret. split; [done|]. exists [], w, (ps ++ []). split_and!.
      * constructor.
      * by repeat constructor.
      * eapply rep_same; [exact Hr|done|by apply ino_le_eq].
      * exists junk. by rewrite app_nil_r.
  - destruct n as [|n]; [simpl in Hn; lia|]. cbn [process_commands]. apply wp_bind.
    apply Forall_cons in Hwf as [[x Hx] Hwf]. cbn [concat] in Hin, Hs.
    rewrite enc_all_app, <- app_assoc in Hin. apply Forall_app in Hs as [Hs1 Hs].
    eapply nf_group; [exact Hx|exact Hr|exact Hw|done|done|exact Hin|done|].
    intros a w' ps rb' s' Ha Hps Hr' Hw' Hrb'. eapply wp_mono; [|eapply (IH n w' rb'); try done].
    + intros y l' s'' (-> & ans & w'' & qs & H1 & H2 & H3 & tl & ->). split; [done|].
      exists (a :: ans), w'', (ps ++ qs). split_and!; [|by constructor|done|].
      * econstructor; [done|done|]. exact H1.
      * exists tl. rewrite enc_all_app. rewrite <- add_out_app. done.
    + cbn [l_in add_out set_in]. rewrite Hin, app_length in Hf. lia.
    + simpl in Hn. lia.
Qed.

Lemma nf_run_groups gs w rest extra l s :
  Forall (fun g => exists x, means m g x) gs -> holds en lfs s w -> room w ->
  (2 * length (l_in l) + 2 <= fuel)%nat ->
  l_in l = enc_all (concat gs) ++ rest -> short (concat gs) -> closing rest extra ->
  WP (transfer_run en fuel lfs umask ts (operation m))
    (fun r l' s' => r = Ok tt /\ exists answers w' ps, dialogue en m (l_uid l) clock w gs answers w' /\
       replies_sent (answers ++ extra) ps /\ rep s' w' /\ exists tl, l' = add_out (enc_all (capabilities ++ ps)) (set_in tl l)) l s.
Proof using HH Hlfs Hts Hclock.
  intros Hwf Hr Hw Hf Hin Hs Hend. unfold transfer_run. apply wp_bindR. unfold create_directories.
  apply (nf_create en lfs ts clock pid F dir_names w); [done|done|]. intros s1 H1 H2 _.
  apply wp_bindR. unfold send_capabilities. apply wp_bindR, (nf_send pid ok F odd_nf), (nf_flush pid ok F odd_nf).
  rewrite mode_operation. rewrite add_out_app. rewrite pk_short.
  2: { unfold small. by vm_compute. }
  replace (enc_all [PData (bs "version=1" ++ [NL])] ++ enc PFlush) with (enc_all capabilities) by done.
  assert (Hreqs : (length gs <= length (enc_all (concat gs)))%nat).
  { clear -Hwf. induction Hwf as [|g gs [x Hx] _ IH]; [simpl; lia|]. cbn [concat]. rewrite enc_all_app, app_length.
    pose proof (group_len g x Hx). simpl. lia. }
  eapply wp_mono; [|eapply (nf_groups gs fuel w rb_empty rest extra); try done].
  - intros r l' s' (-> & ans & w' & ps & G1 & G2 & G3 & tl & ->). split; [done|]. exists ans, w', ps.
    split_and!; try done. exists tl. rewrite enc_all_app, <- add_out_app. done.
  - by apply represents_of.
  - rewrite Hin, app_length in Hf. lia.
Qed.
End odd.

Lemma c58 en lfs umask ts (clock : Z -> Prop) m pid os l s w gs inp rest extra fuel :
  setting en lfs ts clock os -> holds en lfs s w ->
  Forall (fun g => exists x, means m g x) gs -> wires (concat gs) inp -> closing rest extra -> l_in l = inp ++ rest ->
  enough fuel l w ->
  exists as_ w' s', conversed en lfs umask ts clock m pid fuel os l s w gs as_ extra w' s'.
Proof.
  intros [HH Hlfs Hts Hclock Hos] Hr Hwf Hw Hend Hin [Hf Hroom]. apply wires_inv in Hw as [-> Hs].
  pose proof (nf_run_groups en lfs umask ts clock m pid fuel no_fail HH Hlfs Hts Hclock gs w rest extra l s Hwf Hr Hroom) as G.
  specialize (G Hf Hin Hs Hend).
  apply wp_run with (os := os) in G; [|done].
  destruct (run pid (transfer_run en fuel lfs umask ts (operation m)) os l s) as [[[a|f] l'] s'] eqn:E; [|done].
  destruct G as (-> & ans & w' & ps & H1 & H2 & H3 & tl & ->). exists ans, w', s'.
  exists (add_out (enc_all (capabilities ++ ps)) (set_in tl l)), ps, (enc_all (capabilities ++ ps)). split_and!; try done.
  change (PData (bs "version=1" ++ [NL]) :: PFlush :: ps) with (capabilities ++ ps).
  apply wires_enc. apply Forall_app. split; [|by eapply replies_small]. by repeat constructor.
Qed.

(** ** Every list of packets *)
Lemma words_cases m ws : ws <> [] ->
  (exists r, allowed m r /\ named r ws) \/ (exists code t, turned_away m ws code t) \/ ws = [bs "quit"].
Proof.
  intros Hne. destruct ws as [|c ws]; [done|].
  destruct (decide (c ∈ known_words)) as [Hc|Hc]; [|right; left; by eexists _, _; apply ta_unknown].
  unfold known_words in Hc. rewrite !elem_of_cons, elem_of_nil in Hc.
  assert (Hin : forall (x : bytes) (l : list bytes), bool_decide (x ∈ l) = true -> x ∈ l) by (intros x l; by apply bool_decide_eq_true).
  destruct Hc as [->|[->|[->|[->|[->|[->|[->|[->|[->|[]]]]]]]]]].
  - destruct ws as [|x ws]; [right; left; by eexists _, _; apply ta_version|].
    destruct (decide (x = bs "1")) as [->|Hx]; [|right; left; eexists _, _; apply ta_version; simpl; congruence].
    left. exists RVersion. split; [done|]. by exists ws.
  - destruct ws as [|x ws]; [|right; left; eexists _, _; apply ta_operand; by apply Hin].
    left. exists (RBatch [] []). split; [done|]. by exists [].
  - destruct ws as [|o ws]; [right; left; eexists _, _; apply ta_bare; by apply Hin|].
    destruct m; [|right; left; eexists _, _; apply ta_write; [done|by apply Hin]].
    left. exists (RPut o [] []). split; [done|]. by exists ws.
  - destruct ws as [|o ws]; [right; left; eexists _, _; apply ta_bare; by apply Hin|].
    destruct m; [|right; left; eexists _, _; apply ta_write; [done|by apply Hin]].
    left. exists (RVerify o []). split; [done|]. by exists ws.
  - destruct ws as [|o ws]; [right; left; eexists _, _; apply ta_bare; by apply Hin|].
    destruct m; [right; left; eexists _, _; by apply ta_read|].
    left. exists (RGet o []). split; [done|]. by exists ws.
  - destruct ws as [|x ws]; [|right; left; eexists _, _; apply ta_operand; by apply Hin].
    destruct m; [|right; left; eexists _, _; by apply ta_lock].
    left. exists (RLock []). split; [done|]. by exists [].
  - destruct ws as [|x ws]; [|right; left; eexists _, _; apply ta_operand; by apply Hin].
    left. exists (RList []). split; [done|]. by exists [].
  - destruct ws as [|o ws]; [right; left; eexists _, _; apply ta_bare; by apply Hin|].
    destruct m; [|right; left; eexists _, _; by apply ta_unlock].
    left. exists (RUnlock o []). split; [done|]. by exists ws.
  - destruct ws as [|x ws]; [|right; left; eexists _, _; apply ta_operand; by apply Hin]. by right; right.
Qed.

Lemma data_cases (qs : list packet) :
  (exists ds, qs = lines ds) \/
  (exists ds e rest, qs = lines ds ++ e :: rest /\ (e = PFlush \/ e = PDelim) /\ Forall (fun d => lenN d <= 65516)%N ds) \/
  (exists ds d rest, qs = lines ds ++ PData d :: rest /\ (65516 < lenN d)%N).
Proof.
  induction qs as [|q qs IH]; [left; by exists []|].
  destruct q as [| |d].
  - right; left. exists [], PFlush, qs. split; [done|]. split; [by left|constructor].
  - right; left. exists [], PDelim, qs. split; [done|]. split; [by right|constructor].
  - destruct (decide (65516 < lenN d)%N) as [Hd|Hd]; [right; right; by exists [], d, qs|].
    destruct IH as [[ds ->]|[(ds & e & rest & -> & He & Hds)|(ds & d' & rest & -> & Hd')]].
    + left. by exists (d :: ds).
    + right; left. exists (d :: ds), e, rest. split; [done|]. split; [done|]. constructor; [lia|done].
    + right; right. by exists (d :: ds), d', rest.
Qed.

Definition c_plain := plain_name.
Global Instance c_plain_dec i : Decision (c_plain i).
Proof. unfold c_plain, plain_name. apply _. Defined.
Lemma plain_name_dec i : plain_name i \/ ~ plain_name i.
Proof. destruct (decide (c_plain i)); [by left|by right]. Qed.
Lemma is_oid_dec o : is_oid o \/ ~ is_oid o.
Proof.
  destruct (oid_new o) as [o'|e] eqn:E; [left; by apply oid_new_iff in E as [_ ?]|right; by apply oid_new_no in E as [_ ?]].
Qed.
Lemma key_cases k (kvs : list (bytes * bytes)) : (exists v, (k, v) ∈ kvs) \/ no_key k kvs.
Proof.
  unfold no_key. destruct (decide (k ∈ kvs.*1)) as [H|H]; [left|by right].
  apply elem_of_list_fmap in H as ([k' v] & -> & H). by exists v.
Qed.

Lemma one_group m ps : unfinished m ps \/ exists g x rest, ps = g ++ rest /\ g <> [] /\ means m g x.
Proof.
  destruct ps as [|p qs]; [left; constructor|].
  destruct p as [| |b]; [right; eexists [_], _, qs; split; [done|]; split; [done|]; apply m_control; by auto..|].
  destruct (decide (b = [])) as [->|Hb]; [right; eexists [_], _, qs; split; [done|]; split; [done|]; apply m_nothing|].
  pose proof (says_some b Hb) as Hs. set (ws := command_words b) in *.
  assert (Hgo : forall g x rest, means m (PData b :: g) x -> qs = g ++ rest ->
    unfinished m (PData b :: qs) \/ exists g x rest, PData b :: qs = g ++ rest /\ g <> [] /\ means m g x).
  { intros g x rest Hm ->. right. by exists (PData b :: g), x, rest. }
  set (goal := unfinished m (PData b :: qs) \/ exists g x rest, PData b :: qs = g ++ rest /\ g <> [] /\ means m g x) in *.
  destruct (words_cases m ws) as [(r & Ha & Hn)|[(code & t & Ht)|Hq]]; [by destruct Hs as (_ & ? & _)| | |].
  2: { eapply (Hgo []); [|done]. by eapply m_turned. }
  2: { left. apply u_quit. by rewrite <- Hq. }
  assert (Hsp : Forall (fun w => SP ∉ w) (verb r)).
  { destruct Hs as (_ & _ & Hs & _), Hn as (more & E & _). rewrite E in Hs. by apply Forall_app in Hs as [? _]. }
  assert (Hshort : forall a rest, qs = a ++ PFlush :: rest -> qs = (a ++ [PFlush]) ++ rest) by (intros a rest ->; by rewrite <- app_assoc).
  assert (Hlines : match r with RVerify _ _ | RGet _ _ | RLock _ | RList _ => True | _ => False end ->
    (forall kvs, args_ok kvs -> exists r', well_formed m r' /\ named r' ws /\ tail (packets_of r') = args kvs ++ [PFlush]) ->
    goal).
  { intros Hr Hk. destruct (decide (PFlush ∈ qs)) as [Hin|Hin]; [|left; eapply u_lines; [|exact Ha|exact Hs|exact Hn|done]; by destruct r].
    apply elem_of_list_split_l in Hin as (a & rest & E & Hna). apply Hshort in E.
    destruct (args_cases a) as [(kvs & -> & Hkv)|(code & t & Hbad)].
    - destruct (Hk kvs Hkv) as (r' & H1 & H2 & H3). eapply Hgo; [|exact E]. rewrite <- H3. by eapply m_request.
    - eapply Hgo; [|exact E]. by eapply (m_args m r). }
  assert (Hfirst : match r with RBatch _ _ => True | RPut o _ _ => is_oid o | _ => False end ->
    (forall kvs q2, args_ok kvs -> qs = args kvs ++ PDelim :: q2 -> goal) -> goal).
  { intros Hr Hk. destruct (decide (PDelim ∈ qs)) as [Hin|Hin]; [|left; by eapply (u_first m r)].
    apply elem_of_list_split_l in Hin as (a & q2 & E & Hna).
    destruct (args_cases a) as [(kvs & -> & Hkv)|(code & t & Hbad)]; [by eapply Hk|].
    eapply (Hgo (a ++ [PDelim]) _ q2); [by eapply (m_args_first m r)|by rewrite E, <- app_assoc]. }
  destruct r as [|k0 i0|o k0 d0|o k0|o k0|k0|k0|i k0].
  - destruct (decide (PFlush ∈ qs)) as [Hin|Hin]; [|left; by eapply (u_lines m RVersion)].
    apply elem_of_list_split_l in Hin as (a & rest & E & Hna). apply Hshort in E. eapply Hgo; [|exact E]. by eapply m_version.
  - apply Hfirst; [done|]. intros kvs q2 Hk ->.
    destruct (decide (PFlush ∈ q2)) as [Hin|Hin]; [|left; by eapply u_items].
    apply elem_of_list_split_l in Hin as (c & rest & -> & Hnc).
    assert (E : args kvs ++ PDelim :: c ++ PFlush :: rest = (args kvs ++ [PDelim] ++ c ++ [PFlush]) ++ rest) by (by rewrite <- !app_assoc).
    assert (Hok : forall h, key (bs "hash-algo") kvs h -> h = None \/ h = Some (bs "sha256") -> goal).
    { intros h Hh Hh'. destruct (items_cases c) as [(items & -> & Hi)|(code & t & Hbad)]; (eapply Hgo; [|exact E]).
      - by eapply (m_request m (RBatch kvs items)).
      - by eapply m_items. }
    destruct (key_cases (bs "hash-algo") kvs) as [[h Hh]|Hno]; [|apply (Hok None); [done|by left]].
    destruct (decide (h = bs "sha256")) as [->|Hne]; [apply (Hok (Some (bs "sha256"))); [done|by right]|].
    eapply Hgo; [|exact E]. by eapply m_algo.
  - simpl in Ha. destruct (is_oid_dec o) as [Ho|Ho].
    2: { destruct Hn as (more & E & _). simpl in E. eapply (Hgo []); [|done]. eapply m_turned; [exact Hs|]. rewrite E. by apply ta_oid. }
    apply Hfirst; [done|]. intros kvs q2 Hk ->.
    assert (E1 : args kvs ++ PDelim :: q2 = (args kvs ++ [PDelim]) ++ q2) by (by rewrite <- app_assoc).
    destruct (key_cases (bs "size") kvs) as [[v Hv]|Hno]; [|eapply Hgo; [|exact E1]; by eapply m_put_size].
    destruct (parse_u64 v) as [n|] eqn:En.
    2: { apply parse_u64_none in En. eapply Hgo; [|exact E1]. by eapply m_put_number. }
    apply parse_u64_some in En. destruct (data_cases q2) as [[ds ->]|[(ds & e & rest & -> & He & Hds)|(ds & d & rest & -> & Hd)]].
    + left. by eapply u_data.
    + assert (E : args kvs ++ PDelim :: lines ds ++ e :: rest = (args kvs ++ [PDelim] ++ lines ds ++ [e]) ++ rest) by (by rewrite <- !app_assoc).
      assert (Hwf : well_formed m (RPut o kvs ds)) by (split_and!; [done|done|done|by exists v, n|done]).
      eapply Hgo; [|exact E]. destruct He as [-> | ->]; [by eapply (m_request m (RPut o kvs ds))|by eapply m_put].
    + left. by eapply u_much.
  - simpl in Ha. apply Hlines; [done|]. intros kvs Hk. exists (RVerify o kvs). split_and!; [|done|done]. split_and!; [done|done|].
    by apply Forall_cons in Hsp as [_ [? _]%Forall_cons].
  - simpl in Ha. apply Hlines; [done|]. intros kvs Hk. exists (RGet o kvs). split_and!; [|done|done]. split_and!; [done|done|].
    by apply Forall_cons in Hsp as [_ [? _]%Forall_cons].
  - apply Hlines; [done|]. intros kvs Hk. by exists (RLock kvs).
  - apply Hlines; [done|]. intros kvs Hk. by exists (RList kvs).
  - simpl in Ha. destruct (decide (PFlush ∈ qs)) as [Hin|Hin]; [|left; by eapply (u_lines m (RUnlock i []))].
    apply elem_of_list_split_l in Hin as (a & rest & E & Hna). apply Hshort in E.
    destruct (utf8_valid i) eqn:Hu; [|eapply Hgo; [|exact E]; by eapply m_unlock_bytes].
    destruct (decide (Byte.x00 ∈ i)) as [Hz|Hz]; [eapply Hgo; [|exact E]; by eapply m_unlock_nul|].
    destruct (decide (SLASH ∈ i)) as [Hsl|Hsl]; [left; by eapply u_name|].
    destruct (decide (i ∈ [[]; bs "."; bs ".."])) as [Hd|Hd]; [eapply Hgo; [|exact E]; by eapply m_unlock_dir|].
    eapply Hgo; [|exact E]. eapply m_unlock; [done| |done|done|done].
    rewrite !not_elem_of_cons in Hd. destruct Hd as (? & ? & ? & _). by split_and!.
Qed.

Lemma c58_split m ps : exists gs rest, ps = concat gs ++ rest /\ Forall (fun g => exists x, means m g x) gs /\ unfinished m rest.
Proof.
  remember (length ps) as n eqn:Hn. revert ps Hn. induction (lt_wf n) as [n _ IH]. intros ps ->.
  destruct (one_group m ps) as [Hu|(g & x & rest & -> & Hg & Hm)]; [exists [], ps; split_and!; [done|constructor|done]|].
  destruct (IH (length rest)) with (ps := rest) as (gs & rest' & -> & Hgs & Hu); [|done|].
  { rewrite app_length. destruct g; [done|]. simpl. lia. }
  exists (g :: gs), rest'. split_and!; [simpl; by rewrite app_assoc|constructor; [by exists x|done]|done].
Qed.

(** ** Lines *)
Lemma line_app a b : line b -> line (a ++ b).
Proof. intros [c ->]. exists (a ++ c). by rewrite app_assoc. Qed.
Lemma line_nl : line [NL].
Proof. by exists []. Qed.
Lemma lock_lines_line en m p x u : Forall line (lock_lines en m p x u).
Proof.
  unfold lock_lines. apply Forall_app. split; [repeat constructor; repeat apply line_app; apply line_nl|].
  destruct m; repeat constructor; repeat apply line_app; apply line_nl.
Qed.
Lemma locks_lines_line en m ls out : locks_lines en m ls out -> Forall line out.
Proof. induction 1; [constructor|]. apply Forall_app. split; [apply lock_lines_line|done]. Qed.
Lemma c59_answer en m uid clock w r a w' t : answer_of en m uid clock w r a w' -> t ∈ texts a ->
  line t \/ (rp_code a = 404%N /\ t = bs "not found") \/ (rp_code a = 409%N /\ t = bs "mismatched size or cryptographic collision").
Proof.
  intros H. assert (Hln : forall ls, Forall line ls -> t ∈ ls -> line t) by (intros ls Hls Hin; rewrite Forall_forall in Hls; auto).
  destruct H; unfold texts, refusal, not_found; cbn [rp_args rp_body rp_code]; intros Ht;
    try (left; revert Ht; apply Hln; repeat constructor; unfold line; repeat apply line_app; apply line_nl).
  - left. revert Ht. apply Hln. simpl. clear. revert ns.
    induction items as [|x items IH]; intros [|n ns]; simpl; constructor; [|apply IH].
    unfold batch_line_for. destruct (w_objs w !! x.1); repeat apply line_app; apply line_nl.
  - apply elem_of_list_singleton in Ht as ->. by right; right.
  - apply elem_of_list_singleton in Ht as ->. by right; left.
  - left. revert Ht. by apply Hln, lock_lines_line.
  - left. revert Ht. apply Hln, Forall_app. split.
    + destruct (ls !! n) as [[i y]|]; repeat constructor. repeat apply line_app. apply line_nl.
    + eapply locks_lines_line. eassumption.
Qed.
Lemma c59 en m uid clock w gs as_ w' a t :
  dialogue en m uid clock w gs as_ w' -> a ∈ as_ -> t ∈ texts a ->
  line t \/ (rp_code a = 404%N /\ t = bs "not found") \/ (rp_code a = 409%N /\ t = bs "mismatched size or cryptographic collision").
Proof.
  intros H Ha Ht. induction H as [|w g x a0 w1 gs as_ w2 _ Hx _ IH]; [by apply elem_of_nil in Ha|].
  apply elem_of_cons in Ha as [->|Ha]; [|by apply IH]. destruct x as [r|code tt]; simpl in Hx.
  - eapply c59_answer; eassumption.
  - destruct Hx as [-> _]. apply elem_of_list_singleton in Ht as ->. left. apply line_app, line_nl.
Qed.
