(** Proofs for Props_Frame.v. *)
From Verif Require Import Bytes Err FS Prog Pktline Args Local Processor Transfer Wp Rg Wpr ServerEv
  ByteFacts PktFacts PktProofs TextProofs FsFacts IoFacts GetProofs ReaderFacts Spec SpecStore SpecServer SpecEnd SpecFrame SeqIo SeqCmd Session Total.

(** ** Words of a command *)
Lemma text_words c b : text c b -> command_words b = split_on SP c.
Proof.
  intros [->|[-> H]]; unfold command_words.
  - by rewrite last_is_snoc, bool_decide_eq_true_2, removelast_last by done.
  - assert (last_is NL c = false) as ->; [|done].
    destruct c as [|x c] using rev_ind; [done|]. rewrite last_is_snoc. apply bool_decide_eq_false. intros ->.
    apply H, elem_of_app. right. by left.
Qed.
Lemma text_ne c b : text c b -> c <> [] -> b <> [].
Proof. intros [->|[-> _]] H; [by destruct c|done]. Qed.
Lemma no_sp (x : bytes) : bool_decide (SP ∈ x) = false -> SP ∉ x.
Proof. by apply bool_decide_eq_false. Qed.
Lemma split1 c a : SP ∉ c -> SP ∉ a -> split_on SP ((c ++ [SP]) ++ a) = [c; a].
Proof. intros Hc Ha. rewrite <- app_assoc. change ([SP] ++ a) with (SP :: a). rewrite split_on_app by done. by rewrite split_on_none. Qed.

Definition reads_lines (c : command) : Prop :=
  match c with CVersion | CVerify _ | CGet _ | CLock | CListLock | CUnlock _ => True | _ => False end.
Lemma line_command_dispatch m c : line_command m c -> c <> [] /\ reads_lines (dispatch (split_on SP c) m).
Proof.
  intros H. split; [by destruct H|]. destruct H.
  - by vm_compute.
  - by destruct m; vm_compute.
  - by vm_compute.
  - change (bs "verify-object ") with (bs "verify-object" ++ [SP]). by rewrite split1 by (done || by apply no_sp; vm_compute).
  - change (bs "unlock ") with (bs "unlock" ++ [SP]). by rewrite split1 by (done || by apply no_sp; vm_compute).
  - change (bs "get-object ") with (bs "get-object" ++ [SP]). by rewrite split1 by (done || by apply no_sp; vm_compute).
Qed.
Definition refuses (c : command) : Prop :=
  match c with CBadVersion | CForbidden | CUnknown => True | CPut o => ~ is_oid o | _ => False end.
Lemma dispatch_unknown m c rest : c ∉ known_words -> dispatch (c :: rest) m = CUnknown.
Proof.
  intros H. unfold known_words in H. rewrite !not_elem_of_cons in H. unfold dispatch.
  rewrite !decide_False by tauto. done.
Qed.
Lemma refused_dispatch m c b : refused m c -> text c b -> b = [] \/ refuses (dispatch (split_on SP c) m).
Proof.
  intros H Ht. destruct H.
  - right. rewrite split_on_none by done. by rewrite dispatch_unknown.
  - right. change (bs " " ++ x) with (SP :: x). rewrite split_on_app by done. by rewrite dispatch_unknown.
  - right. change (bs "version ") with (bs "version" ++ [SP]). rewrite split1 by (done || by apply no_sp; vm_compute).
    unfold dispatch. rewrite decide_True by done. cbn [head]. rewrite decide_False; [done|]. congruence.
  - right. change (bs "put-object ") with (bs "put-object" ++ [SP]). by rewrite split1 by (done || by apply no_sp; vm_compute).
  - right. change (bs "put-object ") with (bs "put-object" ++ [SP]). by rewrite split1 by (done || by apply no_sp; vm_compute).
  - right. change (bs "verify-object ") with (bs "verify-object" ++ [SP]). by rewrite split1 by (done || by apply no_sp; vm_compute).
  - right. change (bs "get-object ") with (bs "get-object" ++ [SP]). by rewrite split1 by (done || by apply no_sp; vm_compute).
  - right. by vm_compute.
  - right. change (bs "unlock ") with (bs "unlock" ++ [SP]). by rewrite split1 by (done || by apply no_sp; vm_compute).
Qed.

(** ** What a round takes *)
Section frame.
Context (en : env) (be : backend) (fuel pid : nat).
Context (good : forall e, orc -> resp e -> Prop).
Context (Hread : forall n o r, good (ERead n) o r -> no_fault o).
Let F (f : failure) (l : local) (s : fs) : Prop := True.
Notation WP := (wpr good pid F).
Definition only_reads (e : ev) : Prop := match e with ERead _ => True | _ => False end.
Lemma reads_no_fault e o l s : only_reads e -> good e o (handle_ev pid e o l s).1.1 -> no_fault o.
Proof using Hread. destruct e; try done. intros _. apply Hread. Qed.
Lemma wpr_read_enc p tl (Q : res packet -> local -> fs -> Prop) l s :
  l_in l = enc p ++ tl -> (lenN (payload p) <= 65531)%N -> Q (Ok p) (set_in tl l) s -> WP read_packet Q l s.
Proof using Hread.
  intros H1 H2 H3. apply (wpr_no_fault good pid F only_reads); [apply reads_no_fault|by apply rd_read_packet|]. by apply (nf_read_enc pid no_fault F (fun o H => H) p tl).
Qed.

Lemma wpr_read_any f stop qs tl (Q : res (list bytes) -> local -> fs -> Prop) l s :
  stop = PFlush \/ stop = PDelim -> before stop qs ->
  l_in l = enc_all (qs ++ [stop]) ++ tl ->
  Q (Ok (map payload qs)) (set_in tl l) s -> WP (read_to_type f stop) Q l s.
Proof using Hread.
  revert l qs Q. induction f as [|f IH]; intros l qs Q Hst Hqs Hin HQ; [exact I|]. cbn [read_to_type].
  destruct qs as [|q qs].
  - apply wpr_bind. apply (wpr_read_enc stop tl).
    + rewrite Hin. cbn [app enc_all flat_map]. by rewrite app_nil_r.
    + by destruct Hst as [-> | ->].
    + rewrite decide_True by done. by apply wpr_ret.
  - apply Forall_cons in Hqs as [[Hq Hsz] Hqs]. apply wpr_bind.
    apply (wpr_read_enc q (enc_all (qs ++ [stop]) ++ tl)).
    + rewrite Hin. cbn [app enc_all flat_map]. by rewrite <- app_assoc.
    + done.
    + rewrite decide_False by done. apply wpr_bindR.
      apply (IH _ qs); [done|done|done|]. apply wpr_ret. rewrite set_in_set_in.
      replace (default [] (pkt_data q)) with (payload q) by by destruct q. exact HQ.
Qed.

(** No reading, so the input stays. *)
Definition noread (e : ev) : Prop := match e with ERead _ => False | _ => True end.
Lemma wp_noread {A} (p : prog A) (Q : A -> local -> fs -> Prop) l s :
  all_ev noread p -> (forall a l' s', l_in l' = l_in l -> Q a l' s') -> WP p Q l s.
Proof using Type.
  intros Hp HQ. assert (G : forall l1 s1, l_in l1 = l_in l -> WP p Q l1 s1); [|by apply G].
  induction p as [a|f|e k IH]; intros l1 s1 H1; [by apply HQ|exact I|].
  apply wpr_vis. intros o. destruct Hp as [He Hk].
  assert (Hl : l_in (handle_ev pid e o l1 s1).1.2 = l_in l1).
  { destruct e; try done; simpl; unfold faulty, with_l; destruct (o_fault o); try done. }
  pose proof (handle_resp_ok pid e o l1 s1) as Hr.
  destruct (handle_ev pid e o l1 s1) as [[r l2] s2]. simpl in Hl, Hr.
  intros _. apply IH; [by apply Hk|congruence].
Qed.
Lemma mute_noread {A} (p : prog A) : mute p -> all_ev noread p.
Proof using Type.
  induction p as [a|f|e k IH]; intros H; [done|done|]. destruct H as [He Hk]. split; [by destruct e|].
  intros r _. apply IH, Hk.
Qed.
Hint Extern 1 (noread _) => exact I : ev.
Lemma nr_copy_out f h o : all_ev noread (copy_out f h o).
Proof using Type. revert o. induction f as [|f IH]; intros o; simpl; ev. apply wr_send. done. Qed.
Lemma nr_answer st : all_ev noread (answer fuel st).
Proof using Type.
  unfold answer, send_status. ev; try (by apply wr_send); try (by apply wr_send_all); try (by apply wr_delim);
    try (by apply wr_flush); apply nr_copy_out.
Qed.
Lemma nr_answer_error c t : all_ev noread (answer_error c t).
Proof using Type. unfold answer_error. ev. by apply wr_send_error. Qed.

(** The command has taken its packets. *)
Definition left (tl : bytes) (x : res status * rbuf) (l : local) (s : fs) : Prop := l_in l = tl /\ pend x.2 = [].
Definition went (tl : bytes) (x : next) (l : local) (s : fs) : Prop :=
  match x with Next rb => l_in l = tl /\ pend rb = [] | Return r => r <> Ok tt end.

Lemma take_lines c m rb qs tl l s : pend rb = [] -> reads_lines c -> before PFlush qs -> l_in l = enc_all (qs ++ [PFlush]) ++ tl ->
  WP (handle_command en be fuel c m rb) (left tl) l s.
Proof using Hread.
  intros Hrb Hc Hqs Hin. destruct c; try done; cbn [handle_command].
  - apply wpr_bind, wpr_bindR. unfold read_to_flush. eapply wpr_read_any; [by left|done|done|]. by apply wpr_ret, wpr_ret.
  - apply wpr_bind, wpr_bindR. unfold read_to_flush. eapply wpr_read_any; [by left|done|done|].
    apply wp_noread; [apply mute_noread; mu|]. intros. by apply wpr_ret.
  - apply wpr_bind, wpr_bindR. unfold read_to_flush. eapply wpr_read_any; [by left|done|done|].
    apply wp_noread; [apply mute_noread; mu|]. intros. by apply wpr_ret.
  - apply wpr_bind, wpr_bindR, wpr_bind. unfold read_to_flush. eapply wpr_read_any; [by left|done|done|]. apply wpr_ret.
    apply wp_noread; [apply mute_noread; mu|]. intros. by apply wpr_ret.
  - apply wpr_bind, wpr_bindR, wpr_bind. unfold read_to_flush. eapply wpr_read_any; [by left|done|done|]. apply wpr_ret.
    apply wp_noread; [apply mute_noread; mu|]. intros. by apply wpr_ret.
  - apply wpr_bind, wpr_bindR. unfold read_to_flush. eapply wpr_read_any; [by left|done|done|].
    apply wp_noread; [apply mute_noread; mu|]. intros. by apply wpr_ret.
Qed.
Lemma take_refused c m rb l s : pend rb = [] -> refuses c -> WP (handle_command en be fuel c m rb) (left (l_in l)) l s.
Proof using Type.
  intros Hrb Hc. destruct c as [| | |o| | | | | | | |]; try done; cbn [handle_command].
  unfold p_put_object. destruct (oid_new o) as [o'|e] eqn:E; [|by apply wpr_ret].
  apply oid_new_iff in E as [_ E]. by destruct Hc.
Qed.
Lemma map_payload_args kvs : map payload (args kvs) = map arg_line kvs.
Proof using Type. unfold args, lines. rewrite !map_map. by apply map_ext. Qed.
Lemma parse_ok kvs : args_ok kvs -> parse_args (map arg_line kvs) = Some (Ok (list_to_map kvs)).
Proof using Type. intros [H1 H2]. apply parse_args_iff. by exists kvs. Qed.
Lemma parse_bad qs q : q ∈ qs -> EQ ∉ payload q -> exists e, parse_args (map payload qs) = Some (Er e).
Proof using Type.
  intros Hq He. destruct (parse_args (map payload qs)) as [[a|e]|] eqn:E; [|by eexists|].
  - apply parse_args_iff in E as (kvs & E & _). exfalso.
    assert (Hin : payload q ∈ map payload qs) by (apply elem_of_list_fmap; by exists q).
    rewrite E in Hin. apply elem_of_list_fmap in Hin as (kv & Hkv & _). apply He. rewrite Hkv. unfold arg_line.
    apply elem_of_app. right. left.
  - by apply parse_args_from_total in E.
Qed.

Lemma take_batch m rb kvs qs tl l s : pend rb = [] -> args_ok kvs -> before PDelim (args kvs) -> before PFlush qs ->
  l_in l = enc_all (args kvs ++ [PDelim] ++ qs ++ [PFlush]) ++ tl ->
  WP (handle_command en be fuel CBatch m rb) (left tl) l s.
Proof using Hread.
  intros Hrb Hk Ha Hqs Hin. cbn [handle_command].
  assert (G : forall a b, WP (let! r := p_batch be fuel a b in Ret (r, rb)) (left tl) l s).
  { intros a b. unfold p_batch, read_batch. apply wpr_bind, wpr_bindR, wpr_bindR. unfold read_to_delim.
    rewrite (app_assoc (args kvs)), enc_all_app, <- app_assoc in Hin.
    eapply wpr_read_any; [by right|done|exact Hin|]. rewrite map_payload_args, parse_ok by done.
    apply wpr_bindR, wpr_ret, wpr_bindR, wpr_bind. unfold read_to_flush.
    eapply wpr_read_any; [by left|done|done|]. apply wpr_ret. rewrite set_in_set_in.
    apply wp_noread; [apply mute_noread; mu|]. intros [items|e] l1 s1 H1; [apply wpr_ret|]; by apply wpr_ret. }
  destruct (is_upload m); apply G.
Qed.
Lemma take_batch_bad m rb qs q tl l s : pend rb = [] -> before PDelim qs -> q ∈ qs -> EQ ∉ payload q ->
  l_in l = enc_all (qs ++ [PDelim]) ++ tl ->
  WP (handle_command en be fuel CBatch m rb) (left tl) l s.
Proof using Hread.
  intros Hrb Ha Hq He Hin. cbn [handle_command]. destruct (parse_bad qs q Hq He) as [e E].
  assert (G : forall a b, WP (let! r := p_batch be fuel a b in Ret (r, rb)) (left tl) l s).
  { intros a b. unfold p_batch, read_batch. apply wpr_bind, wpr_bindR, wpr_bindR. unfold read_to_delim.
    eapply wpr_read_any; [by right|done|exact Hin|]. rewrite E. by apply wpr_bindR, wpr_ret, wpr_ret. }
  destruct (is_upload m); apply G.
Qed.
Lemma take_put m rb o kvs tl l s : pend rb = [] -> args_ok kvs -> (forall v n, (bs "size", v) ∈ kvs -> ~ number v n) -> before PDelim (args kvs) ->
  l_in l = enc_all (args kvs ++ [PDelim]) ++ tl ->
  WP (handle_command en be fuel (CPut o) m rb) (left tl) l s \/ ~ is_oid o.
Proof using Hread.
  intros Hrb Hk Hs Ha Hin. destruct (oid_new o) as [o'|e] eqn:E; [left|right].
  2: { intros Ho. assert (oid_new o = Ok o) by by apply oid_new_iff. congruence. }
  cbn [handle_command]. unfold p_put_object. rewrite E. apply wpr_bind, wpr_bindR. unfold read_to_delim.
  eapply wpr_read_any; [by right|done|exact Hin|]. rewrite map_payload_args, parse_ok by done.
  apply wpr_bindR, wpr_ret, wpr_ret. unfold size_from_arguments.
  destruct ((list_to_map kvs : gmap bytes bytes) !! bs "size") as [v|] eqn:Ev; [|by apply wpr_ret].
  apply elem_of_list_to_map_2 in Ev. destruct (parse_integer v) as [n|e'] eqn:En; [|by apply wpr_ret].
  apply parse_number in En. by destruct (Hs v n Ev).
Qed.

Lemma go_on tl c m rb l s : c <> CQuit -> WP (handle_command en be fuel c m rb) (left tl) l s ->
  WP (let! (r, rb') := handle_command en be fuel c m rb in and_go_on rb' (answer fuel (status_of r))) (went tl) l s.
Proof using Type.
  intros _ H. apply wpr_bind. eapply wpr_mono; [|exact H]. intros [r rb'] l1 s1 H1. apply wpr_bind.
  apply wp_noread; [apply nr_answer|]. intros [[]|e] l2 s2 H2; apply wpr_ret; [|done].
  unfold went, left in *. destruct H1. split; [congruence|done].
Qed.
Lemma go_error tl c t rb l s : pend rb = [] -> l_in l = tl -> WP (and_go_on rb (answer_error c t)) (went tl) l s.
Proof using Type.
  intros Hrb H. apply wpr_bind. apply wp_noread; [apply nr_answer_error|]. intros [[]|e] l2 s2 H2; apply wpr_ret; [|done].
  unfold went. split; [congruence|done].
Qed.

Lemma take_command m rb g tl l s b qs c : l_in l = enc_all g ++ tl ->
  g = PData b :: qs -> (lenN b <= 65531)%N -> b <> [] ->
  dispatch (command_words b) m = c -> c <> CQuit ->
  (forall l', l_in l' = enc_all qs ++ tl -> WP (handle_command en be fuel c m rb) (left tl) l' s) ->
  WP (process_one en be fuel m rb) (went tl) l s.
Proof using Hread.
  intros Hin -> Hb Hne Hd Hq Hh. unfold process_one. apply wpr_bind.
  apply (wpr_read_enc (PData b) (enc_all qs ++ tl)); [|done|].
  - rewrite Hin. cbn [enc_all flat_map]. by rewrite <- app_assoc.
  - cbn [pkt_data]. destruct b as [|b0 b]; [done|]. rewrite Hd.
    assert (G := go_on tl c m rb _ s Hq (Hh (set_in (enc_all qs ++ tl) l) eq_refl)).
    destruct c; exact G || done.
Qed.

Lemma take_round m rb g tl l s : pend rb = [] -> takes m g -> l_in l = enc_all g ++ tl ->
  WP (process_one en be fuel m rb) (went tl) l s.
Proof using Hread.
  intros Hrb Hg Hin.
  pose proof (fun b qs c => take_command m rb g tl l s b qs c Hin) as Hcmd.
  destruct Hg as [c b qs Hc Ht Hb Hqs|b kvs qs Ht Hk Ha Hqs|b qs q Ht Hqs Hq He|o b kvs Hm Ho Ht Hk Hs Ha| | | |c b Hc Ht Hb].
  - destruct (line_command_dispatch m c Hc) as [Hne Hr]. pose proof (text_words c b Ht) as E.
    eapply Hcmd; [done|done|by eapply text_ne|by rewrite E| |].
    + intros Eq. by rewrite Eq in Hr.
    + intros l' Hl. by eapply take_lines.
  - pose proof (text_words _ b Ht) as E. eapply (Hcmd b _ CBatch); [done| |by eapply text_ne|rewrite E; by destruct m; vm_compute|done|].
    + destruct Ht as [->|[-> _]]; by vm_compute.
    + intros l' Hl. by eapply take_batch.
  - pose proof (text_words _ b Ht) as E. eapply (Hcmd b _ CBatch); [done| |by eapply text_ne|rewrite E; by destruct m; vm_compute|done|].
    + destruct Ht as [->|[-> _]]; by vm_compute.
    + intros l' Hl. by eapply take_batch_bad.
  - subst m. pose proof (text_words _ b Ht) as E. eapply (Hcmd b _ (CPut o)); [done| |by eapply text_ne| |done|].
    + destruct Ho as [Ho _]. destruct Ht as [->|[-> _]]; unfold lenN; rewrite !app_length, Ho; by vm_compute.
    + rewrite E. change (bs "put-object ") with (bs "put-object" ++ [SP]).
      rewrite split1; [done|by apply no_sp; vm_compute|by apply oid_no_sp].
    + intros l' Hl. by destruct (take_put Upload rb o kvs tl l' s Hrb Hk Hs Ha Hl).
  - unfold process_one. apply wpr_bind. apply (wpr_read_enc PFlush tl); [by rewrite Hin|done|]. by apply go_error.
  - unfold process_one. apply wpr_bind. apply (wpr_read_enc PDelim tl); [by rewrite Hin|done|]. by apply go_error.
  - unfold process_one. apply wpr_bind. apply (wpr_read_enc (PData []) tl); [by rewrite Hin|done|]. by apply go_error.
  - destruct (refused_dispatch m c b Hc Ht) as [->|Hr].
    + unfold process_one. apply wpr_bind. apply (wpr_read_enc (PData []) tl); [by rewrite Hin|done|]. by apply go_error.
    + destruct b as [|b0 b].
      { unfold process_one. apply wpr_bind. apply (wpr_read_enc (PData []) tl); [by rewrite Hin|done|]. by apply go_error. }
      pose proof (text_words _ _ Ht) as E. eapply Hcmd; [done|done|done|by rewrite E| |].
      * intros Eq. by rewrite Eq in Hr.
      * intros l' Hl. change (enc_all [] ++ tl) with tl in Hl. rewrite <- Hl. by apply take_refused.
Qed.
(** Uploads. *)
Context (Htemp : forall d pre o r, good (EMktemp d pre) o r -> exists x, r = IOk x).
Context (Hwrite : forall fd b o r, good (EWriteFd fd b) o r -> r = IOk tt).
Definition copies (e : ev) : Prop := match e with ERead _ | EWriteFd _ _ => True | _ => False end.
Lemma copies_no_fault e o l s : copies e -> good e o (handle_ev pid e o l s).1.1 -> no_fault o.
Proof using Hread Hwrite.
  destruct e; try done; intros _ Hg; [by apply Hread in Hg|]. apply Hwrite in Hg. unfold no_fault. cbn [handle_ev] in Hg.
  by destruct (o_fault o).
Qed.
Lemma cp_copy_to_file f fd got rb : all_ev copies (copy_to_file f fd got rb).
Proof using Type. revert got rb. induction f as [|f IH]; intros got rb; simpl; ev. by apply rd_reader_read. Qed.

Lemma take_upload m rb o kvs v n ds e tl l s : rb_wf rb -> pend rb = [] -> (2 * length (l_in l) + 1 < fuel)%nat ->
  args_ok kvs -> (bs "size", v) ∈ kvs -> number v n -> before PDelim (args kvs) -> is_oid o ->
  Forall (fun d => lenN d <= 65516)%N ds -> e = PFlush \/ e = PDelim ->
  l_in l = enc_all (args kvs ++ [PDelim] ++ lines ds ++ [e]) ++ tl ->
  WP (handle_command en be fuel (CPut o) m rb) (left tl) l s.
Proof using Hread Htemp Hwrite.
  intros Hwf Hrb Hf Hk Hv Hn Ha Ho Hds He Hin. cbn [handle_command]. unfold p_put_object.
  assert (oid_new o = Ok o) as -> by by apply oid_new_iff.
  rewrite (app_assoc (args kvs)), enc_all_app, <- app_assoc in Hin.
  assert (Hlen : (length (enc_all (lines ds ++ [e]) ++ tl) <= length (l_in l))%nat) by (rewrite Hin, !app_length; lia).
  apply wpr_bind, wpr_bindR. unfold read_to_delim.
  eapply wpr_read_any; [by right|done|exact Hin|]. rewrite map_payload_args, parse_ok by done.
  apply wpr_bindR, wpr_ret, wpr_ret. unfold size_from_arguments.
  assert (Ev : (list_to_map kvs : gmap bytes bytes) !! bs "size" = Some v).
  { apply elem_of_list_to_map_1; [apply Hk|done]. }
  rewrite Ev. assert (parse_integer v = Ok n) as -> by by apply parse_number.
  apply wpr_bind. unfold start_upload. apply wpr_bind, wpr_call. intros or.
  destruct (handle_ev pid (EMktemp (be_lfs be ++ [bs "incomplete"]) o) or _ s) as [[r l1] s1] eqn:Em.
  intros Hg. apply Htemp in Hg as [[tmp fd] ->].
  assert (Hfd : l1 = set_in (enc_all (lines ds ++ [e]) ++ tl) l /\ exists x, inodes s1 !! fd = Some x).
  { cbn [handle_ev] in Em. unfold faulty, with_l, fs_mktemp in Em. destruct (o_fault or); [done|].
    destruct (resolve s _) as [e1|d]; [done|]. destruct (node_at s d) as [[|j]|]; try done.
    injection Em as _ <- <- <-. split; [done|]. eexists. simpl. by apply list_lookup_middle. }
  destruct Hfd as [-> [x Hx]].
  apply wpr_bind.
  apply (wpr_no_fault good pid F copies); [apply copies_no_fault|apply cp_copy_to_file|].
  pose proof (datas_enc ds e tl Hds He) as Hd. pose proof (datas_len _ _ _ _ Hd) as Hdl.
  eapply (nf_copy_to_file pid no_fault F (fun o H => H) fuel fd [] rb ds (Ok tt) tl); [|done|exact Hd|exact Hx|].
  - rewrite Hrb. cbn [app l_in set_in]. lia.
  - intros rb' Hwf' Hp'. rewrite Hrb. cbn [app]. apply wpr_ret. cbn [us_temp].
    assert (Hdrop : forall (r : res status) l2 s2, l_in l2 = tl -> WP (let! _ := drop_temp tmp in Ret (r, rb')) (left tl) l2 s2).
    { intros r l2 s2 Hl. apply wpr_bind, wp_noread; [apply mute_noread; mu|]. intros _ l3 s3 H3. apply wpr_ret.
      split; [congruence|done]. }
    destruct (_ <? n)%N; [by apply Hdrop|]. destruct (n <? _)%N; [by apply Hdrop|].
    destruct (oid_new _) as [o'|e']; [|by apply Hdrop]. destruct (decide (o' <> o)); [by apply Hdrop|].
    apply wpr_bind, wp_noread; [apply mute_noread; mu|]. intros r l3 s3 H3. apply wpr_ret. split; [exact H3|done].
Qed.

Lemma take_round_upload m rb g tl l s : rb_wf rb -> pend rb = [] -> (2 * length (l_in l) + 1 < fuel)%nat ->
  takes_upload m g -> l_in l = enc_all g ++ tl ->
  WP (process_one en be fuel m rb) (went tl) l s.
Proof using Hread Htemp Hwrite.
  intros Hwf Hrb Hf Hg Hin. destruct Hg as [o b kvs v n ds e -> Ho Ht Hk Hv Hn Ha Hds He].
  pose proof (text_words _ b Ht) as E.
  eapply (take_command Upload rb _ tl l s b _ (CPut o) Hin); [done| |by eapply text_ne| |done|].
  - destruct Ho as [Ho _]. destruct Ht as [->|[-> _]]; unfold lenN; rewrite !app_length, Ho; by vm_compute.
  - rewrite E. change (bs "put-object ") with (bs "put-object" ++ [SP]).
    rewrite split1; [done|by apply no_sp; vm_compute|by apply oid_no_sp].
  - intros l' Hl. eapply take_upload; try done. rewrite Hl. rewrite Hin in Hf. cbn [enc_all flat_map] in Hf.
    rewrite !app_length in Hf. rewrite app_length. unfold enc_all. lia.
Qed.
End frame.

(** ** Sessions *)
Section session.
Context (en : env) (be : backend) (fuel pid : nat).
Context (good : forall e, orc -> resp e -> Prop) (stores : Prop).
Context (Hread : forall n o r, good (ERead n) o r -> no_fault o).
Context (Hstores : stores -> (forall d pre o r, good (EMktemp d pre) o r -> exists x, r = IOk x) /\
  (forall fd b o r, good (EWriteFd fd b) o r -> r = IOk tt)).
Notation WP := (wpr good pid fueled).
(** Uploads are allowed if their files can be written. *)
Definition taken (m : mode) (g : list packet) : Prop := takes m g \/ (stores /\ takes_upload m g).
Notation told := (told).

Lemma end_round m rb l s rest extra : small_files fuel m s -> (0 < fuel)%nat -> ending rest extra -> l_in l = rest ->
  WP (process_one en be fuel m rb) (fun x l' s' => exists r, x = Return r /\
     (r = Ok tt -> exists rs, told l l' rs /\ length rs = length extra)) l s.
Proof.
  intros Hsm Hpos He Hin. unfold process_one. apply wpr_bind. destruct He as [|w junk Hw].
  - eapply wpr_mono; [|apply wpr_any, (any_read_packet pid any_orc fueled (fun r l' s' => l_out l' = l_out l /\ exists e, r = Er e))].
    + intros r l' s' [Ho [e ->]]. apply wpr_ret. eexists. split; [done|]. intros _. exists []. split; [by apply told_nil|done].
    + rewrite Hin. split; [done|]. by eexists.
    + intros e i _. split; [done|by eexists].
  - assert (Hw' : wires [PData (bs "quit" ++ [NL])] (w ++ [])) by (constructor; [done|constructor]).
    apply wires_inv in Hw' as [E _]. rewrite app_nil_r in E. subst w.
    apply (wpr_no_fault good pid fueled only_reads); [by apply reads_no_fault|by apply rd_read_packet|].
    apply (nf_read_enc pid no_fault fueled (fun o H => H) (PData (bs "quit" ++ [NL])) junk).
    + rewrite Hin. cbn [enc_all flat_map]. by rewrite app_nil_r.
    + by vm_compute.
    + cbn [pkt_data app bs]. destruct (bs "quit" ++ [NL]) as [|x b] eqn:Eb; [done|]. rewrite <- Eb.
      replace (dispatch (command_words (bs "quit" ++ [NL])) m) with CQuit by (destruct m; by vm_compute).
      apply wpr_bind, wpr_any, any_answer with (m := m); [by apply fine_msg, is_code|done|done|..].
      * intros r ps s' H1 H2 H3 _. apply wpr_ret. eexists. split; [done|]. intros _. exists [r]. split; [|done].
        by eapply told_one.
      * intros e w s' _. apply wpr_ret. eexists. split; [done|]. done.
Qed.

Lemma sync_commands n m rb l s gs rest extra :
  rb_wf rb -> pend rb = [] -> (2 * ahead rb l + 2 <= fuel)%nat -> (ahead rb l < n)%nat -> small_files fuel m s ->
  Forall (taken m) gs -> ending rest extra -> l_in l = enc_all (concat gs) ++ rest ->
  WP (process_commands en be fuel n m rb) (fun r l' s' =>
    r = Ok tt -> exists rs, told l l' rs /\ length rs = (length gs + length extra)%nat) l s.
Proof.
  revert rb l s gs. induction n as [|n IH]; intros rb l s gs Hwf Hrb Hf Hn Hsm Hgs He Hin; [lia|]. cbn [process_commands].
  apply wpr_bind. destruct gs as [|g gs].
  - eapply wpr_mono; [|apply (end_round m rb l s rest extra); [done|lia|done|done]].
    intros x l' s' (r & -> & Hr). apply wpr_ret. exact Hr.
  - apply Forall_cons in Hgs as [Hg Hgs]. simpl in Hin. rewrite enc_all_app, <- app_assoc in Hin.
    assert (Hq : WP (process_one en be fuel m rb) (fun x l' s' =>
      (match x with
       | Next rb' => rb_wf rb' /\ (ahead rb' l' < ahead rb l)%nat /\ (exists r, told l l' [r])
       | Return r => ended l r l'
       end /\ small_files fuel m s') /\ went (enc_all (concat gs) ++ rest) x l' s') l s).
    { apply wpr_conj.
      2: { destruct Hg as [Hg|[Hst Hg]]; [by eapply take_round|]. destruct (Hstores Hst).
           eapply take_round_upload; try done. unfold ahead in Hf. lia. }
      apply wpr_any.
      destruct m.
      - eapply wp_mono; [|apply any_process_one; [done|lia|done]]. intros a l' s' H. by split.
      - apply wp_conj; [apply any_process_one; [done|lia|done]|].
        apply wp_quiet_ok; [apply ev_process_one_download|]. intros a l2 s2 Hs Em. by eapply same_readable, Hsm. }
    eapply wpr_mono; [|exact Hq]. intros [rb'|r] l1 s1 [[H Hsm1] Hw].
    + destruct H as (Hwf1 & Ha1 & r & Ht). destruct Hw as [Hw Hrb1].
      eapply wpr_mono; [|apply (IH rb' l1 s1 gs); [done|done|lia|lia|done|done|done|exact Hw]].
      intros x l2 s2 H Hx. destruct (H Hx) as (rs & Hrs & Hlen). exists (r :: rs). split; [by eapply (told_app _ _ _ [r])|].
      simpl. lia.
    + apply wpr_ret. intros ->. by destruct Hw.
Qed.
End session.

Lemma cut_such {A} P pid (p q : prog A) os l s :
  cut p q -> (run pid p os l s).1.1 <> Failed OutOfFuel -> run_such P pid p os l s -> run_such P pid q os l s.
Proof.
  revert q os l s. induction p as [a|f|e k IH]; intros q os l s H; cbn [run].
  - change (q = Ret a) in H. by subst q.
  - change (f = OutOfFuel \/ q = Fail f) in H. destruct H as [->| ->]; done.
  - change (exists k', q = Vis e k' /\ forall r, cut (k r) (k' r)) in H. destruct H as (k' & -> & Hk). cbn [run_such].
    destruct (handle_ev pid e (os 0) l s) as [[r l'] s']. intros Hr [H1 H2]. split; [done|]. by apply (IH r).
Qed.

Section main.
Context (en : env) (lfs : path) (cfg : gres config) (m : mode) (pid : nat).
Context (good : forall e, orc -> resp e -> Prop) (stores : Prop).
Context (Hread : forall n o r, good (ERead n) o r -> no_fault o).
Context (Hstores : stores -> (forall d pre o r, good (EMktemp d pre) o r -> exists x, r = IOk x) /\
  (forall fd b o r, good (EWriteFd fd b) o r -> r = IOk tt)).
Notation WP := (wpr good pid fueled).
Local Notation taken := (taken stores).

Lemma sync_run fuel umask ts l s gs rest extra :
  (2 * length (l_in l) + 2 <= fuel)%nat -> (m = Download -> readable fuel s) ->
  Forall (taken m) gs -> ending rest extra -> l_in l = enc_all (concat gs) ++ rest ->
  WP (transfer_run en fuel lfs umask ts (operation m)) (fun r l' s' =>
    match r with
    | Ok _ => exists rs l1, l_out l1 = l_out l ++ enc_all [PData (bs "version=1" ++ [NL]); PFlush] /\ told l1 l' rs /\
        length rs = (length gs + length extra)%nat
    | Er _ => True
    end) l s.
Proof.
  intros Hf Hsm Hgs He Hin. unfold transfer_run. apply wpr_bindR.
  assert (Hd : WP (create_directories lfs) (fun _ l' s' => l' = l /\ inodes s' = inodes s) l s).
  { apply wpr_any. unfold create_directories. assert (Hgen : forall s1, inodes s1 = inodes s ->
      wp pid any_orc fueled (create_directories_in lfs dir_names) (fun _ l' s' => l' = l /\ inodes s' = inodes s) l s1); [|by apply Hgen].
    induction dir_names as [|d ds IH]; intros s1 Hs1; simpl; [by apply wp_ret|].
    apply wp_bindR, wp_io_call, wp_call. intros o _. cbn [handle_ev]. unfold faulty, with_l, fs_mkdir_all.
    destruct (o_fault o); [done|]. destruct (fs_mkdirs s1 [] (lfs ++ [d])) as [e|s2] eqn:E; [done|]. apply IH.
    apply mkdirs_spec in E as [E _]. simpl. congruence. }
  eapply wpr_mono; [|exact Hd]. intros [[]|e] l1 s1 [-> Hs1]; [|done]. clear Hd.
  unfold send_capabilities. apply wpr_bindR, wpr_any, wp_bindR, any_send; [|done].
  apply any_flush; [|done]. rewrite add_out_app. set (w := enc_all _ ++ _).
  rewrite mode_operation.
  eapply wpr_mono; [|apply (sync_commands en (Backend lfs umask ts) fuel pid good stores Hread Hstores fuel m rb_empty _ _ gs rest extra)].
  - intros [[]|e] l2 s2 H; [|done]. destruct (H eq_refl) as (rs & Hrs & Hlen). exists rs, (add_out w l). split_and!; [|done|done].
    reflexivity.
  - apply rb_empty_wf.
  - done.
  - unfold ahead. simpl. lia.
  - unfold ahead. simpl. lia.
  - intros Em j. specialize (Hsm Em j). unfold fs_data, inode_at in *. by rewrite Hs1.
  - done.
  - done.
  - done.
Qed.

Lemma sync_main fuel l s gs rest extra : (2 * length (l_in l) + 2 <= fuel)%nat -> files_below fuel s ->
  Forall (taken m) gs -> ending rest extra -> l_in l = enc_all (concat gs) ++ rest ->
  WP (transfer_main en fuel lfs cfg (operation m)) (fun x l' s' =>
    x.1 = 0%Z -> exists rs out, answer_stream rs out /\ l_out l' = l_out l ++ out /\
      length rs = (length gs + length extra)%nat) l s.
Proof.
  intros Hf Hs Hgs He Hin. unfold transfer_main, transfer_main_internal. apply wpr_bind, wpr_bindR.
  assert (Hq : all_ev ServerEv.quiet (set_permissions cfg)) by by apply ev_set_permissions.
  eapply wpr_mono; [|apply wpr_any, wp_conj; [apply (wp_mute _ _ _ (fun _ l' s' => l_in l' = l_in l /\ l_out l' = l_out l))|
    apply (wp_quiet_ok _ _ _ (fun _ _ s' => same s s')); [exact Hq|done]]].
  2: unfold set_permissions; mu. 2: done.
  intros [u|e] l1 s1 [[H1 H2] [_ H3]].
  2: { apply wpr_ret. simpl. unfold err_exit_status. by destruct (e_kind e). }
  eapply wpr_mono; [|apply (sync_run fuel _ _ l1 s1 gs rest extra); [by rewrite H1| |done|done|congruence]].
  2: { intros _. apply files_readable; [|lia]. unfold files_below. by rewrite H3. }
  intros [[]|e] l2 s2 H.
  2: { apply wpr_ret. simpl. unfold err_exit_status. by destruct (e_kind e). }
  apply wpr_ret. intros _. destruct H as (rs & l3 & E & (ps & H4 & H5 & H6) & H7). rewrite H2 in E.
  exists rs, (enc_all (PData (bs "version=1" ++ [NL]) :: PFlush :: ps)). split_and!; [|rewrite H5, E, <- app_assoc; f_equal|done].
  exists ps. split_and!; [done| |done]. apply wires_enc.
  constructor; [by vm_compute|]. constructor; [by vm_compute|]. by eapply replies_small.
Qed.

Lemma c14 os l s fuel msg l' s' gs inp rest extra :
  run_such good pid (transfer_main en fuel lfs cfg (operation m)) os l s ->
  Forall (taken m) gs -> wires (concat gs) inp -> ending rest extra -> l_in l = inp ++ rest ->
  run pid (transfer_main en fuel lfs cfg (operation m)) os l s = (Done (0%Z, msg), l', s') ->
  exists rs out, answer_stream rs out /\ l_out l' = l_out l ++ out /\ length rs = (length gs + length extra)%nat.
Proof.
  intros Hos Hgs Hw He Hin H. apply wires_inv in Hw as [-> _].
  destruct (files_below_max s (fuel + 2 * length (l_in l) + 2)) as (n & Hn & Hs).
  pose proof (sync_main n l s gs rest extra ltac:(lia) Hs Hgs He Hin) as G. 
  assert (Hc : cut (transfer_main en fuel lfs cfg (operation m)) (transfer_main en n lfs cfg (operation m)))
    by (apply ct_transfer_main; lia).
  apply wpr_run with (os := os) in G.
  2: { apply (cut_such _ _ _ _ _ _ _ Hc); [by rewrite H|exact Hos]. }
  assert (E : run pid (transfer_main en n lfs cfg (operation m)) os l s = run pid (transfer_main en fuel lfs cfg (operation m)) os l s).
  { apply cut_run; [exact Hc|by rewrite H]. }
  rewrite E, H in G. by apply G.
Qed.
End main.

Lemma c14_takes en lfs cfg m pid os l s fuel msg l' s' gs inp rest extra :
  run_such reads_well pid (transfer_main en fuel lfs cfg (operation m)) os l s ->
  Forall (takes m) gs -> wires (concat gs) inp -> ending rest extra -> l_in l = inp ++ rest ->
  run pid (transfer_main en fuel lfs cfg (operation m)) os l s = (Done (0%Z, msg), l', s') ->
  exists rs out, answer_stream rs out /\ l_out l' = l_out l ++ out /\ length rs = (length gs + length extra)%nat.
Proof.
  intros Hos Hgs. apply (c14 en lfs cfg m pid reads_well False); [done|done|done|].
  eapply Forall_impl; [exact Hgs|]. intros g Hg. by left.
Qed.
Lemma c71 en lfs cfg m pid os l s fuel msg l' s' gs inp rest extra :
  run_such stores_well pid (transfer_main en fuel lfs cfg (operation m)) os l s ->
  Forall (fun g => takes m g \/ takes_upload m g) gs -> wires (concat gs) inp -> ending rest extra -> l_in l = inp ++ rest ->
  run pid (transfer_main en fuel lfs cfg (operation m)) os l s = (Done (0%Z, msg), l', s') ->
  exists rs out, answer_stream rs out /\ l_out l' = l_out l ++ out /\ length rs = (length gs + length extra)%nat.
Proof.
  intros Hos Hgs. apply (c14 en lfs cfg m pid stores_well True); [done|done|done|].
  eapply Forall_impl; [exact Hgs|]. intros g [Hg|Hg]; [by left|by right].
Qed.
