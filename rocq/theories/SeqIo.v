(** Requests and answers when no system call fails. *)
From Verif Require Import Bytes ByteFacts Err FS Prog Pktline Args Local Processor Transfer Wp PktFacts ReaderFacts
  Spec SpecStore SpecServer PktProofs TextProofs IoFacts FsFacts GetProofs.

Local Arguments parse_header : simpl never.
Local Opaque COPY_BUF pk MAX_PACKET_LEN.

Section io.
Context (pid : nat) (ok : orc -> Prop) (F : failure -> local -> fs -> Prop).
Context (Hok : forall o, ok o -> no_fault o).
Notation WP := (wp pid ok F).

Lemma wp_vis {A} e (k : resp e -> prog A) (Q : A -> local -> fs -> Prop) l s :
  (forall o, ok o -> let '(r, l', s') := handle_ev pid e o l s in WP (k r) Q l' s') -> WP (Vis e k) Q l s.
Proof using Type. done. Qed.

(** Weaker assumptions about the oracles prove more. *)
Lemma wp_oracle {A} (ok' : orc -> Prop) (p : prog A) (Q : A -> local -> fs -> Prop) l s :
  (forall o, ok o -> ok' o) -> wp pid ok' F p Q l s -> WP p Q l s.
Proof using Type.
  intros H. revert l s. induction p as [a|f|e k IH]; intros l s Hp; [done|done|].
  apply wp_vis. intros o Ho. specialize (Hp o (H o Ho)). destruct (handle_ev pid e o l s) as [[r l'] s']. by apply IH.
Qed.

Lemma nf_send m (Q : res unit -> local -> fs -> Prop) l s :
  Q (Ok tt) (add_out (enc_all (pk m)) l) s -> WP (send m) Q l s.
Proof using Hok.
  intros H. apply (wp_oracle no_fault); [done|]. apply wp_io_call, wp_writer_write_all. exact H.
Qed.
Lemma nf_send_all ms (Q : res unit -> local -> fs -> Prop) l s :
  Q (Ok tt) (add_out (enc_all (pks ms)) l) s -> WP (send_all ms) Q l s.
Proof using Hok.
  revert l. induction ms as [|m ms IH]; intros l H1; simpl.
  - apply wp_ret. simpl in H1. by rewrite add_out_nil in H1.
  - apply wp_bindR, nf_send. apply IH. simpl in H1. rewrite enc_all_app in H1. by rewrite add_out_app.
Qed.
Lemma nf_write_packet p (Q : res N -> local -> fs -> Prop) l s :
  (forall n, Q (Ok n) (add_out (enc p) l) s) -> WP (write_packet p) Q l s.
Proof using Hok. intros H. apply (wp_oracle no_fault); [done|]. by apply wp_write_packet. Qed.
Lemma nf_flush (Q : res unit -> local -> fs -> Prop) l s :
  Q (Ok tt) (add_out (enc PFlush) l) s -> WP flush Q l s.
Proof using Hok. intros H1. apply wp_bindR, nf_write_packet. intros _. by apply wp_ret. Qed.
Lemma nf_delim (Q : res unit -> local -> fs -> Prop) l s :
  Q (Ok tt) (add_out (enc PDelim) l) s -> WP delim Q l s.
Proof using Hok. intros H1. apply wp_bindR, nf_write_packet. intros _. by apply wp_ret. Qed.

Lemma nf_read_packet (Q : res packet -> local -> fs -> Prop) l s :
  Q (decode 65535 (l_in l)).1 (set_in (decode 65535 (l_in l)).2 l) s -> WP read_packet Q l s.
Proof using Hok. intros H. apply (wp_oracle no_fault); [done|]. by apply wp_read_packet. Qed.

Lemma nf_read_enc p tl (Q : res packet -> local -> fs -> Prop) l s :
  l_in l = enc p ++ tl -> (lenN (payload p) <= 65531)%N -> Q (Ok p) (set_in tl l) s -> WP read_packet Q l s.
Proof using Hok.
  intros Hin Hp HQ. apply nf_read_packet. rewrite Hin, decode_enc by (rewrite <- ?payload_len; lia). done.
Qed.

(** The packets up to [stop] or to the end of the input. *)
Inductive upto (stop : packet) : list packet -> bytes -> bytes -> Prop :=
| up_stop i tl : decode 65535 i = (Ok stop, tl) -> upto stop [] i tl
| up_eof i tl : decode 65535 i = (Er (err_of_io EEOF), tl) -> upto stop [] i tl
| up_more i p i' qs tl : decode 65535 i = (Ok p, i') -> p <> stop -> upto stop qs i' tl -> upto stop (p :: qs) i tl.
(** The packets up to a malformed header. *)
Inductive badto (stop : packet) : list packet -> bytes -> bytes -> Prop :=
| bt_bad i tl : decode 65535 i = (Er (err_simple BadPktlineHeader), tl) -> badto stop [] i tl
| bt_more i p i' qs tl : decode 65535 i = (Ok p, i') -> p <> stop -> badto stop qs i' tl -> badto stop (p :: qs) i tl.

Lemma upto_shrink stop qs i tl : upto stop qs i tl -> (length tl <= length i)%nat.
Proof using Type.
  induction 1 as [i tl E|i tl E|i p i' qs tl E _ _ IH]; apply decode_shrink' in E; lia.
Qed.
Lemma upto_enc stop qs tl : stop = PFlush \/ stop = PDelim -> stop ∉ qs -> Forall (fun p => lenN (payload p) <= 65531)%N qs ->
  upto stop qs (enc_all (qs ++ [stop]) ++ tl) tl.
Proof using Type.
  intros Hst Hqs Hs. induction Hs as [|q qs Hq Hs IH]; cbn [app enc_all flat_map].
  - apply up_stop. rewrite app_nil_r. apply decode_enc; destruct Hst as [-> | ->]; simpl; lia.
  - apply not_elem_of_cons in Hqs as [H1 Hqs]. rewrite <- app_assoc. eapply up_more; [|done|by apply IH].
    apply decode_enc; rewrite <- ?payload_len; lia.
Qed.

Lemma nf_read_to_type f stop qs tl (Q : res (list bytes) -> local -> fs -> Prop) l s :
  (length (l_in l) < f)%nat -> upto stop qs (l_in l) tl ->
  Q (Ok (map payload qs)) (set_in tl l) s -> WP (read_to_type f stop) Q l s.
Proof using Hok.
  revert l qs Q. induction f as [|f IH]; intros l qs Q Hf Hin HQ; [lia|]. cbn [read_to_type].
  apply wp_bind, nf_read_packet. inversion Hin as [i tl' E|i tl' E|i p i' qs' tl' E Hp Hin']; subst; rewrite E; cbn [fst snd].
  - rewrite decide_True by done. by apply wp_ret.
  - rewrite decide_True by done. by apply wp_ret.
  - rewrite decide_False by done. apply wp_bindR. eapply (IH _ qs').
    + apply decode_shrink in E. cbn [l_in set_in]. lia.
    + done.
    + apply wp_ret. rewrite set_in_set_in. replace (default [] (pkt_data p)) with (payload p) by by destruct p. exact HQ.
Qed.
Lemma nf_read_bad f stop qs tl (Q : res (list bytes) -> local -> fs -> Prop) l s :
  (length (l_in l) < f)%nat -> badto stop qs (l_in l) tl ->
  Q (Er (err_simple BadPktlineHeader)) (set_in tl l) s -> WP (read_to_type f stop) Q l s.
Proof using Hok.
  revert l qs Q. induction f as [|f IH]; intros l qs Q Hf Hin HQ; [lia|]. cbn [read_to_type].
  apply wp_bind, nf_read_packet. inversion Hin as [i tl' E|i p i' qs' tl' E Hp Hin']; subst; rewrite E; cbn [fst snd].
  - rewrite decide_False by done. by apply wp_ret.
  - rewrite decide_False by done. apply wp_bindR. eapply (IH _ qs').
    + apply decode_shrink in E. cbn [l_in set_in]. lia.
    + done.
    + done.
Qed.

(** The data packets at the beginning of a stream, up to a control packet or to an
    error. *)
Inductive datas : bytes -> list bytes -> res unit -> bytes -> Prop :=
| da_end i p tl : decode 65520 i = (Ok p, tl) -> p = PFlush \/ p = PDelim -> datas i [] (Ok tt) tl
| da_err i e tl : decode 65520 i = (Er e, tl) -> datas i [] (Er e) tl
| da_data i d i' ds r tl : decode 65520 i = (Ok (PData d), i') -> datas i' ds r tl -> datas i (d :: ds) r tl.

Lemma next_datas f i ds r tl : datas i ds r tl -> (length i < f)%nat ->
  (concat ds = [] /\ next_data f i = Some (match r with Ok _ => Ok None | Er e => Er e end, tl)) \/
  (exists d i' ds', d <> [] /\ next_data f i = Some (Ok (Some d), i') /\ datas i' ds' r tl /\ concat ds = d ++ concat ds').
Proof using Type.
  intros H. revert f. induction H as [i p tl E Hp|i e tl E|i d i' ds r tl E H IH]; intros f Hf;
    (destruct f as [|f]; [lia|]); cbn [next_data]; rewrite E.
  - left. by destruct Hp as [-> | ->].
  - by left.
  - destruct d as [|x d]; [|right; by exists (x :: d), i', ds].
    apply IH. apply decode_shrink in E. lia.
Qed.
Lemma datas_enc ds e tl : Forall (fun d => lenN d <= 65516)%N ds -> e = PFlush \/ e = PDelim ->
  datas (enc_all (lines ds ++ [e]) ++ tl) ds (Ok tt) tl.
Proof using Type.
  intros Hds He. induction Hds as [|d ds Hd _ IH]; cbn [lines map app enc_all flat_map].
  - rewrite app_nil_r. apply (da_end _ e); [|done]. apply decode_enc; destruct He as [-> | ->]; simpl; lia.
  - rewrite <- app_assoc. eapply da_data; [|exact IH]. apply decode_enc; simpl; lia.
Qed.
Lemma datas_len i ds r tl : datas i ds r tl -> (length (concat ds) <= length i)%nat.
Proof using Type.
  induction 1 as [| |i d i' ds r tl E _ IH]; simpl; [lia..|]. rewrite app_length.
  destruct d as [|x d]; [apply decode_shrink in E; simpl; lia|].
  assert (Hn : next_data 1 i = Some (Ok (Some (x :: d)), i')) by (cbn [next_data]; by rewrite E).
  apply next_data_data in Hn as (_ & _ & Hn). lia.
Qed.

(** Copying the body of an upload. *)
Lemma nf_copy_to_file fuel fd got rb ds r tl (Q : res bytes * rbuf -> local -> fs -> Prop) l s x :
  (length (pend rb ++ concat ds) + length (l_in l) + 1 < fuel)%nat ->
  rb_wf rb -> datas (l_in l) ds r tl -> inodes s !! fd = Some x ->
  (forall rb', rb_wf rb' -> pend rb' = [] ->
     Q (match r with Ok _ => Ok (got ++ pend rb ++ concat ds) | Er e => Er (err_of_io (io_of_err e)) end, rb') (set_in tl l)
       (upd_inode fd (append_data (pend rb ++ concat ds)) s)) ->
  WP (copy_to_file fuel fd got rb) Q l s.
Proof using Hok.
  revert got rb ds l s x Q. induction fuel as [|f IH]; intros got rb ds l s x Q Hf Hwf Hin Hx HQ; [lia|].
  cbn [copy_to_file]. apply wp_bind, (wp_oracle no_fault); [done|].
  assert (Hstep : forall d rb' l' ds', d <> [] ->
    (length (pend rb' ++ concat ds') + length (l_in l') + 1 < f)%nat -> rb_wf rb' ->
    datas (l_in l') ds' r tl ->
    set_in tl l' = set_in tl l -> d ++ pend rb' ++ concat ds' = pend rb ++ concat ds ->
    WP (let '(r, rb') := (IOk d, rb') in match r with IOk [] => Ret (Ok got, rb')
        | IOk d => let! w := call (EWriteFd fd d) in
          match w with IErr e => Ret (Er (err_of_io e), rb') | IOk _ => copy_to_file f fd (got ++ d) rb' end
        | IErr e => Ret (Er (err_of_io e), rb') end) Q l' s).
  { intros d rb' l' ds' Hne Hlen Hwf' Hin' Hl' Happ. destruct d as [|c d]; [done|].
    apply wp_bind, wp_call. intros o Ho. pose proof (Hok o Ho) as Ho'. unfold no_fault in Ho'.
    cbn [handle_ev]. rewrite Ho'. unfold with_l, fs_write, inode_at.
    rewrite Hx. cbn [fst snd]. eapply (IH _ _ ds' _ _ (append_data (c :: d) x)); try done.
    - by apply inodes_upd_eq.
    - intros rb2 Hwf2 Hp2. rewrite Hl', <- app_assoc, Happ.
      replace (upd_inode fd (append_data (pend rb' ++ concat ds')) (upd_inode fd (append_data (c :: d)) s))
        with (upd_inode fd (append_data (pend rb ++ concat ds)) s); [by apply HQ|].
      unfold upd_inode. simpl. f_equal. rewrite <- list_alter_compose. apply list_alter_ext; [|done].
      intros y _. unfold compose, append_data. simpl. by rewrite <- app_assoc, <- Happ. }
  destruct copy_buf_pos as [k Ek].
  apply wp_reader_read; [done|done|lia|..].
  - intros Hne rb' Hwf' Hp'. apply (Hstep _ rb' l ds); try done.
    + apply take_nonempty; [lia|done].
    + rewrite Hp', app_length, drop_length. rewrite app_length in Hf.
      assert (1 <= length (pend rb))%nat by (destruct (pend rb); [done|simpl; lia]). lia.
    + rewrite Hp', app_assoc. by rewrite take_drop.
  - intros Hpe r0 i' Hnd.
    destruct (next_datas f (l_in l) ds r tl Hin) as [[Hc H1]|(d & i1 & ds' & H1 & H2 & H3 & H4)]; [lia|..].
    + rewrite H1 in Hnd. injection Hnd as <- <-.
      specialize (HQ rb Hwf Hpe). rewrite Hpe, Hc in HQ. simpl in HQ.
      replace (upd_inode fd (append_data []) s) with s in HQ.
      { destruct r as [u|e]; [|by apply wp_ret]. rewrite app_nil_r in HQ. by apply wp_ret. }
      unfold upd_inode. destruct s as [n i h]. simpl in *. f_equal. symmetry.
      assert (E : append_data [] x = x) by (destruct x; unfold append_data; simpl; by rewrite app_nil_r).
      apply list_eq. intros j. destruct (decide (j = fd)) as [->|Hj].
      * by rewrite list_lookup_alter, Hx; simpl; rewrite E.
      * by rewrite list_lookup_alter_ne.
    + rewrite H2 in Hnd. injection Hnd as <- <-. intros rb' Hwf' Hp'. pose proof (next_data_data _ _ _ _ H2) as (_ & _ & H5).
      apply (Hstep _ rb' _ ds'); try done.
      * apply take_nonempty; [lia|done].
      * cbn [l_in set_in]. rewrite Hp', app_length, drop_length. rewrite app_length, H4, app_length in Hf. lia.
      * rewrite Hp', Hpe, H4. rewrite app_assoc. by rewrite take_drop.
Qed.
End io.
