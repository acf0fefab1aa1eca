(** One server alone, when calls to the file system fail. *)
From Verif Require Import Bytes ByteFacts Err FS Prog Pktline Args Local Processor Transfer Wp Rg PktFacts ReaderFacts
  Spec SpecStore SpecServer SpecFrame SpecTogether SpecFault Wpr ServerEv FsFacts PktProofs TextProofs IoFacts ObjProofs StoreProofs GetProofs
  SeqIo SeqFs SeqCmd Session.
From stdpp Require Import sorting.

Local Arguments parse_header : simpl never.
Local Opaque COPY_BUF pk MAX_PACKET_LEN.

Lemma wpr_from {A} (good : forall e, orc -> resp e -> Prop) pid F (ok : orc -> Prop) (E : ev -> Prop) (p : prog A) (Q : A -> local -> fs -> Prop) l s :
  (forall e o r, E e -> good e o r -> ok o) -> all_ev E p -> wp pid ok F p Q l s -> wpr good pid F p Q l s.
Proof.
  intros HE. revert l s. induction p as [a|f|e k IH]; intros l s Hp H; [done|done|]. destruct Hp as [He Hk].
  apply wpr_vis. intros o. specialize (H o). pose proof (handle_resp_ok pid e o l s) as Hr.
  destruct (handle_ev pid e o l s) as [[r l'] s']. intros Hg. apply IH; [by apply Hk|]. apply H. by eapply HE.
Qed.
Lemma wpr_io_call {A} (good : forall e, orc -> resp e -> Prop) pid F (p : prog (iores A)) (Q : res A -> local -> fs -> Prop) l s :
  wpr good pid F p (fun r l s => Q (res_of_io r) l s) l s -> wpr good pid F (io_call p) Q l s.
Proof. intros H. unfold io_call. apply wpr_bind. eapply wpr_mono; [|exact H]. intros [a|e] l' s' H'; exact H'. Qed.

(** More directories. *)
Lemma rep_dirs en lfs s s' w o : represents en lfs s w -> is_oid o -> ino_le s s' -> tree s' ->
  (forall q, nodes s' !! q = nodes s !! q \/
     (nodes s !! q = None /\ nodes s' !! q = Some NDir /\
      (q = lfs ++ [bs "objects"; take 2 o] \/ q = lfs ++ [bs "objects"; take 2 o; take 2 (drop 2 o)]))) ->
  represents en lfs s' w.
Proof.
  intros Hr Ho Hi Ht Hq.
  assert (Hm : forall q n, nodes s !! q = Some n -> nodes s' !! q = Some n).
  { intros q n E. destruct (Hq q) as [->|(E' & _)]; congruence. }
  assert (Hf : forall q k, nodes s' !! q = Some (NFile k) -> nodes s !! q = Some (NFile k)).
  { intros q n E. destruct (Hq q) as [<-|(_ & E' & _)]; congruence. }
  assert (Hlen : forall q, (length q = length lfs + 4)%nat -> nodes s' !! q = nodes s !! q).
  { intros q Hl. destruct (Hq q) as [?|(_ & _ & [-> | ->])]; [done| |]; rewrite app_length in Hl; simpl in Hl; lia. }
  assert (Hlk : forall i, nodes s' !! (lfs ++ [bs "locks"; i]) = nodes s !! (lfs ++ [bs "locks"; i])).
  { intros i. destruct (Hq (lfs ++ [bs "locks"; i])) as [?|(_ & _ & [E | E])]; [done| |]; by apply app_inv_head in E. }
  assert (Hlo : forall o, nodes s' !! object_path lfs o = nodes s !! object_path lfs o).
  { intros o'. apply Hlen. unfold object_path. by rewrite app_length. }
  destruct Hr as [H1 H2 H3 H4 H5 H6 H7 H8]. split; try done.
  - eapply dirs_mono; [|exact H1]. intros q. apply Hm.
  - intros q j Hj. apply Hf, H2 in Hj. pose proof (ino_le_length _ _ Hi). lia.
  - intros o' d Ho'. rewrite (H4 o' d Ho'). unfold has_file. rewrite Hlo. split.
    + intros (j & x & Hj & Hx & Hd). destruct (Hi _ _ Hx) as (x' & Hx' & E & _). exists j, x'. split_and!; congruence.
    + intros (j & x & Hj & Hx & Hd). destruct (lookup_lt_is_Some_2 (inodes s) j (H2 _ _ Hj)) as [z Hz].
      destruct (Hi _ _ Hz) as (x' & Hx' & E & _). exists j, z. split_and!; congruence.
  - intros o' Ho'. rewrite Hlo. destruct (H6 o' Ho') as (D1 & D2 & D3). split_and!; [done| |].
    + intros j Hj. by apply (D2 j), Hf.
    + intros j Hj. by apply (D3 j), Hf.
  - intros i p t u Hl. destruct (H7 _ _ _ _ Hl) as ((j & x & Hj & Hx & Hd & Hu) & HR). split; [|done].
    destruct (Hi _ _ Hx) as (x' & Hx' & E1 & E2). exists j, x'. rewrite Hlk. split_and!; congruence.
  - intros i n. rewrite Hlk. apply H8.
Qed.

Section cmd.
Context (en : env) (lfs : path) (umask : N) (ts : option Z) (clock : Z -> Prop) (wr : bool).
Context (m : mode) (pid fuel : nat) (F : failure -> local -> fs -> Prop).
Context (HH : digest (en_hash en)) (Hlfs : Forall plain_name lfs).
Context (Hts : forall t, ts = Some t -> clock t) (Hclock : forall t, clock t -> time_ok en t).
Local Notation be := (Backend lfs umask ts).
Local Notation ok := (mild ts clock).
Local Notation good := (failing lfs ts clock wr).
Local Notation rep := (represents en lfs).
Local Notation WP := (wp pid ok F).
Local Notation WR := (wpr good pid F).
Local Notation room := (room fuel).
Local Notation fits := (fits fuel).

(** Calls that do not fail. *)
Definition steady (e : ev) : Prop :=
  match e with
  | ERead _ | EOut _ | EFlush | EClock | EUmask _ | ENote _ _ => True
  | EMktemp _ _ | EWriteFd _ _ => wr = false
  | EUnlink p => forall i, p = lfs ++ [bs "locks"; i] -> length i <> 64%nat
  | _ => False
  end.
Lemma steady_ok e o (r : resp e) : steady e -> good e o r -> ok o.
Proof using Type.
  intros He (H1 & H2 & H3). split_and!; [|done|done]. destruct (o_fault o) as [x|]; [|done].
  destruct (H3 x eq_refl) as (_ & _ & H). destruct e; try done; simpl in He; try congruence.
  destruct H as (i & -> & Hi). by destruct (He i eq_refl).
Qed.
Lemma wr_from {A} (p : prog A) (Q : A -> local -> fs -> Prop) l s : all_ev steady p -> WP p Q l s -> WR p Q l s.
Proof using Type. apply wpr_from. apply steady_ok. Qed.

Definition odd (x : ioerr) : Prop := io_kind_of x <> KNotFound /\ io_kind_of x <> KAlreadyExists.

Local Ltac look := intros H1 H2; apply wpr_call; intros o; cbn [handle_ev]; unfold faulty;
  destruct (o_fault o) as [x|] eqn:Eo; intros (_ & _ & H); [apply H2; by destruct (H x Eo) as (? & ? & _)|done].
Lemma hd_stat p (Q : iores (N * N) -> local -> fs -> Prop) l s :
  Q (fs_stat p s) l s -> (forall x, odd x -> Q (IErr x) l s) -> WR (call (EStat p)) Q l s.
Proof using Type. look. Qed.
Lemma hd_open p (Q : iores handle -> local -> fs -> Prop) l s :
  Q (fs_open p s) l s -> (forall x, odd x -> Q (IErr x) l s) -> WR (call (EOpen p)) Q l s.
Proof using Type. look. Qed.
Lemma hd_read_all h (Q : iores bytes -> local -> fs -> Prop) l s :
  Q (fs_read_all h s) l s -> (forall x, odd x -> Q (IErr x) l s) -> WR (call (EReadAll h)) Q l s.
Proof using Type. look. Qed.
Lemma hd_read_at h a n (Q : iores bytes -> local -> fs -> Prop) l s :
  Q (fs_read_at h a n s) l s -> (forall x, odd x -> Q (IErr x) l s) -> WR (call (EReadAt h a n)) Q l s.
Proof using Type. look. Qed.
Lemma hd_fstat h (Q : iores N -> local -> fs -> Prop) l s :
  Q (fs_fstat h s) l s -> (forall x, odd x -> Q (IErr x) l s) -> WR (call (EFstat h)) Q l s.
Proof using Type. look. Qed.
Lemma hd_readdir p (Q : iores (list name) -> local -> fs -> Prop) l s :
  Q (fs_readdir p s) l s -> (forall x, odd x -> Q (IErr x) l s) -> WR (call (EReaddir p)) Q l s.
Proof using Type. look. Qed.

Lemma hd_timestamp (Q : Z -> local -> fs -> Prop) l s :
  (forall t, clock t -> Q t l s) -> WR (timestamp be) Q l s.
Proof using Hts.
  intros H. apply wr_from; [unfold timestamp; by ev|]. by apply (nf_timestamp lfs umask ts clock).
Qed.

(** ** Sending answers *)
Lemma hd_send b (Q : res unit -> local -> fs -> Prop) l s :
  Q (Ok tt) (add_out (enc_all (pk b)) l) s -> WR (send b) Q l s.
Proof using Type. intros H. apply wr_from; [by apply wr_send|]. by apply nf_send; [apply ok_no_fault|]. Qed.
Lemma hd_send_all bs (Q : res unit -> local -> fs -> Prop) l s :
  Q (Ok tt) (add_out (enc_all (pks bs)) l) s -> WR (send_all bs) Q l s.
Proof using Type. intros H. apply wr_from; [by apply wr_send_all|]. by apply nf_send_all; [apply ok_no_fault|]. Qed.
Lemma hd_delim (Q : res unit -> local -> fs -> Prop) l s :
  Q (Ok tt) (add_out (enc PDelim) l) s -> WR delim Q l s.
Proof using Type. intros H. apply wr_from; [by apply wr_delim|]. by apply nf_delim; [apply ok_no_fault|]. Qed.
Lemma hd_flush (Q : res unit -> local -> fs -> Prop) l s :
  Q (Ok tt) (add_out (enc PFlush) l) s -> WR flush Q l s.
Proof using Type. intros H. apply wr_from; [by apply wr_flush|]. by apply nf_flush; [apply ok_no_fault|]. Qed.

Lemma hd_copy_out f j x d off (Q : res unit -> local -> fs -> Prop) l s :
  inodes s !! j = Some x -> i_data x = d -> (length d - off < f)%nat ->
  (forall cs, concat cs = drop off d -> Forall small cs ->
     Q (Ok tt) (add_out (enc_all (map PData cs)) l) s) ->
  (forall e cs rest, concat cs ++ rest = drop off d -> Forall small cs ->
     Q (Er e) (add_out (enc_all (map PData cs)) l) s) ->
  WR (copy_out f (HFile j) off) Q l s.
Proof using Type.
  intros Hx Hd. revert off l Q. induction f as [|f IH]; intros off l Q Hf HQ HE; [lia|]. cbn [copy_out].
  apply wpr_bindR, wpr_io_call, hd_read_at.
  2: { intros e _. cbn [res_of_io]. specialize (HE (err_of_io e) [] (drop off d)). simpl in HE. rewrite add_out_nil in HE. by apply HE. }
  cbn [res_of_io fs_read_at]. unfold fs_data, inode_at. rewrite Hx, Hd.
  set (c := take (N.to_nat COPY_BUF) (drop off d)). destruct copy_buf_pos as [k Ek].
  assert (Hc : c = [] -> drop off d = []).
  { unfold c. rewrite Ek. by destruct (drop off d). }
  destruct c as [|y c'] eqn:Ec.
  - apply wpr_ret. specialize (HQ []). simpl in HQ. rewrite add_out_nil in HQ. apply HQ; [|constructor].
    by rewrite Hc.
  - rewrite <- Ec. apply wpr_bindR, hd_send.
    assert (Ek' : c ++ drop (off + length c) d = drop off d).
    { rewrite <- drop_drop.
      assert (drop (length c) (drop off d) = drop (N.to_nat COPY_BUF) (drop off d)) as ->; [|apply take_drop].
      unfold c. rewrite take_length.
      destruct (decide (N.to_nat COPY_BUF <= length (drop off d))%nat); [by rewrite Nat.min_l by lia|].
      rewrite !drop_ge; [done|lia|lia]. }
    destruct (pk_chunks c) as (cs0 & E0 & E1 & E2). apply IH.
    + apply (f_equal length) in Ec. unfold c in Ec |- *. rewrite take_length, drop_length in Ec |- *.
      simpl in Ec. lia.
    + intros cs H1 H2. rewrite add_out_app. rewrite E0, <- enc_all_app, <- map_app.
      apply HQ; [|by apply Forall_app]. by rewrite concat_app, E1, H1.
    + intros e cs rest H1 H2. rewrite add_out_app. rewrite E0, <- enc_all_app, <- map_app.
      apply (HE e _ rest); [|by apply Forall_app]. by rewrite concat_app, E1, <- app_assoc, H1.
Qed.

(** What is sent of an answer that is broken off. *)
Definition broken (r : reply) (ps : list packet) : Prop :=
  exists d cs rest, rp_body r = BData d /\ d = concat cs ++ rest /\ Forall small cs /\
    ps = PData (status_line (rp_code r)) :: pks (rp_args r) ++ PDelim :: map PData cs.

Lemma hd_answer st r (Q : res unit -> local -> fs -> Prop) l s :
  sends s st r -> fits r ->
  (forall ps s', reply_sent r ps -> nodes s' = nodes s -> inodes s' = inodes s ->
     Q (Ok tt) (add_out (enc_all ps) l) s') ->
  (forall e ps s', broken r ps -> nodes s' = nodes s -> inodes s' = inodes s ->
     Q (Er e) (add_out (enc_all ps) l) s') ->
  WR (answer fuel st) Q l s.
Proof using Type.
  intros Hsends Hfit HQ HE. destruct (rp_body r) as [|ls|d|t] eqn:Eb.
  3: {
  destruct Hsends as (Hc & Ec & Ea & Hb).
  unfold answer, send_status. apply wpr_bind, wr_from; [done|]. apply wp_call. intros o _. cbn [handle_ev].
  destruct (code_denotes _ Hc) as [Hden Hlen].
  assert (Hsm : small (status_line (st_code st))).
  { apply status_line_small. clear -Hc. unfold codes in Hc.
    repeat (apply elem_of_cons in Hc as [->|Hc]; [done|]). by apply elem_of_nil in Hc. }
  apply wpr_bindR, hd_send. apply wpr_bindR, hd_send_all.
  rewrite Eb in Hb. destruct Hb as (-> & j & x & -> & Hx & Hd). apply wpr_bindR, wpr_bindR, hd_delim.
  eapply hd_copy_out; [exact Hx|exact Hd|unfold SeqCmd.fits in Hfit; rewrite Eb in Hfit; lia| |].
  - intros cs H1 H2. apply hd_flush. rewrite pk_short by done. rewrite !add_out_app.
    match goal with |- Q _ (add_out ?x _) _ =>
      replace x with (enc_all (PData (status_line (st_code st)) :: pks (default [] (st_args st)) ++ (PDelim :: map PData cs) ++ [PFlush])) end.
    2: { cbn [enc_all flat_map]. change (flat_map enc) with enc_all. rewrite !enc_all_app. cbn [enc_all flat_map].
         change (flat_map enc) with enc_all. by rewrite !app_nil_r, <- !app_assoc. }
    apply HQ; [|done|done].
    exists (pad0 3 (dec (st_code st))), (pks (default [] (st_args st))), (PDelim :: map PData cs).
    rewrite Ec, Ea, Eb. split_and!; try done; [apply lines_sent_pks|by exists cs].
  - intros e cs rest H1 H2. rewrite pk_short by done. rewrite !add_out_app.
    match goal with |- Q _ (add_out ?x _) _ =>
      replace x with (enc_all (PData (status_line (st_code st)) :: pks (default [] (st_args st)) ++ PDelim :: map PData cs)) end.
    2: { cbn [enc_all flat_map]. change (flat_map enc) with enc_all. rewrite !enc_all_app. cbn [enc_all flat_map].
         change (flat_map enc) with enc_all. rewrite !app_nil_r; repeat rewrite <- app_assoc; done. }
    apply HE; [|done|done]. exists d, cs, rest. rewrite Ec, Ea. by rewrite H1. }
  all: apply wr_from; [|eapply (nf_answer ts clock); [exact Hsends|exact Hfit|done]].
  all: destruct Hsends as (Hc & Ec & Ea & Hb); rewrite Eb in Hb; unfold answer, send_status.
  1: destruct Hb as [-> ->]. 2, 3: rewrite Hb.
  all: apply all_ev_bind; [done|intros _]; repeat (apply all_ev_bindR; [|intros []]);
    first [by apply wr_send|by apply wr_send_all|by apply wr_delim|by apply wr_flush|done].
Qed.

(** ** Requests *)
Lemma hd_read_lines stop ls tl (Q : res (list bytes) -> local -> fs -> Prop) l s :
  (length (l_in l) < fuel)%nat -> upto stop (lines ls) (l_in l) tl ->
  Q (Ok ls) (set_in tl l) s -> WR (read_to_type fuel stop) Q l s.
Proof using Type. intros H1 H2 H3. apply wr_from; [by apply rd_read_to_type|]. by eapply nf_read_lines. Qed.
Lemma hd_args (kvs : list (bytes * bytes)) (Q : res argmap -> local -> fs -> Prop) l s :
  args_ok kvs -> (forall a, (forall k v, a !! k = Some v <-> (k, v) ∈ kvs) -> Q (Ok a) l s) ->
  WR (or_panic (parse_args (map arg_line kvs))) Q l s.
Proof using Type.
  intros [H1 H2] HQ. destruct (c09 kvs H1 H2) as (a & -> & Ha). apply wpr_ret. by apply HQ.
Qed.

Definition hresult (w : world) (r : request) (tl : bytes) (l : local) (x : res status * rbuf)
  (l' : local) (s' : fs) : Prop :=
  exists a w', answer_in en m (l_uid l) clock w r a w' /\ rep s' w' /\ room w' /\
    sends s' (status_of x.1) a /\ fits a /\ l' = set_in tl l /\ rb_wf x.2 /\ pend x.2 = [] /\
    forall d, rp_body a = BData d -> exists o kvs, r = RGet o kvs /\ w_objs w' !! o = Some d /\
      rp_code a = 200%N /\ rp_args a = [bs "size=" ++ dec (lenN d) ++ [NL]].

Lemma hres_400 w r tl l l' e rb s : client_error (e_kind e) = true ->
  answer_of en m (l_uid l) clock w r (refusal (display e)) w -> rep s w -> room w -> rb_ok rb ->
  l' = set_in tl l -> hresult w r tl l (Er e, rb) l' s.
Proof using Type.
  intros H1 H2 H3 H4 [] ->. exists (refusal (display e)), w. split_and!; try done; [by apply i_right|]. by apply sends_error.
Qed.
Lemma hres_text w r c tl l l' t rb s : c ∈ codes ->
  answer_in en m (l_uid l) clock w r (Reply c [] (BText t)) w -> rep s w -> room w -> rb_ok rb ->
  l' = set_in tl l -> hresult w r tl l (Ok (st_failure c t), rb) l' s.
Proof using Type.
  intros H1 H2 H3 H4 [] ->. exists (Reply c [] (BText t)), w. split_and!; try done.
Qed.
(** An error of the system. *)
Lemma hres_500 w w' r tl l l' e rb s : e_kind e = IOError ->
  (forall a, trouble a -> answer_in en m (l_uid l) clock w r a w') -> rep s w' -> room w' -> rb_ok rb ->
  l' = set_in tl l -> hresult w r tl l (Er e, rb) l' s.
Proof using Type.
  intros H1 H2 H3 H4 [] ->. exists (Reply 500 [] (BText (bs "internal error: " ++ display e ++ [NL]))), w'.
  split_and!; try done; [apply H2; by eexists|]. simpl. unfold status_of_error. rewrite H1. simpl. by apply sends_fail, is_code.
Qed.
Lemma hres_io w r tl l l' x rb s : may_fail r -> rep s w -> room w -> rb_ok rb ->
  l' = set_in tl l -> hresult w r tl l (Er (err_of_io x), rb) l' s.
Proof using Type. intros. eapply hres_500; try done. intros a. by apply i_trouble. Qed.

Definition hanswers (r : request) (c : command) : Prop :=
  forall w rb tl l s, rep s w -> room w -> rb_ok rb -> (2 * length (l_in l) + 2 <= fuel)%nat ->
  given r (l_in l) tl ->
  WR (handle_command en be fuel c m rb) (hresult w r tl l) l s.

Lemma hd_version : hanswers RVersion CVersion.
Proof using Type.
  intros w rb tl l s Hr Hw [Hrb1 Hrb2] Hf Hin. cbn [handle_command].
  apply wpr_bind. unfold p_version. apply wpr_bindR.
  apply (hd_read_lines PFlush [] tl); [lia|done|].
  apply wpr_ret. apply wpr_ret. exists (Reply 200 [] (BLines [])), w. split_and!; try done.
  - apply i_right. constructor.
  - by apply (sends_lines s 200 None), is_code.
Qed.

(** *** batch *)
Definition show_as (w : world) (x : bytes * N) (y : batch_item) : Prop :=
  y = show w x \/ y = show (World ∅ ∅) x.
Lemma hd_batch w xs (Q : list batch_item -> local -> fs -> Prop) l s :
  rep s w -> Forall (fun x => is_oid x.1) xs -> (forall ys, Forall2 (show_as w) xs ys -> Q ys l s) -> WR (backend_batch be xs) Q l s.
Proof using Hlfs.
  intros Hr Hxs. revert Q. induction Hxs as [|[o n] xs Ho _ IH]; intros Q HQ; [apply wpr_ret, HQ; constructor|].
  cbn [backend_batch]. apply wpr_bind. unfold size_at_path. apply wpr_bind.
  pose proof (stat_object en lfs Hlfs s w o Hr Ho) as Hst. cbn [be_lfs].
  assert (Hgo : forall (y : option N), show_as w (o, n) (BatchItem o (default n y) (match y with Some _ => true | None => false end)) ->
    wpr good pid F (let! rest := backend_batch be xs in Ret (BatchItem o (default n y) (match y with Some _ => true | None => false end) :: rest)) Q l s).
  { intros y Hy. apply wpr_bind, IH. intros ys Hys. apply wpr_ret, HQ. by constructor. }
  apply hd_stat; [|intros x _]; apply wpr_ret.
  - destruct (w_objs w !! o) as [d|] eqn:Ed.
    + destruct Hst as [u ->]. apply (Hgo (Some (lenN d))). left. unfold show. cbn [fst snd]. rewrite Ed. done.
    + rewrite Hst. apply (Hgo None). left. unfold show. cbn [fst snd]. by rewrite Ed.
  - apply (Hgo None). right. unfold show. cbn [fst snd w_objs]. by rewrite lookup_empty.
Qed.

Lemma hd_batch_cmd kvs items : well_formed m (RBatch kvs items) -> hanswers (RBatch kvs items) CBatch.
Proof using Hlfs.
  intros [Hargs Hitems] w rb tl l s Hr Hw [Hrb1 Hrb2] Hf Hin. cbn [handle_command].
  destruct Hin as (tl1 & Hin1 & Hin2). pose proof (upto_shrink _ _ _ _ Hin1) as Hsh.
  apply wpr_bind.
  assert (Hgo : forall pr mi, (forall b : bool, is_upload m = true -> (if b then pr else mi) = if b then bs "noop" else bs "upload") ->
    (forall b : bool, is_upload m = false -> (if b then pr else mi) = if b then bs "download" else bs "noop") ->
    WR (p_batch be fuel pr mi) (fun a => WR (Ret (a, rb)) (hresult w (RBatch kvs items) tl l)) l s).
  { intros pr mi Hup Hdown. unfold p_batch, read_batch. apply wpr_bindR, wpr_bindR.
    apply (hd_read_lines PDelim (map arg_line kvs) tl1); [lia|done|].
    apply wpr_bindR, (hd_args kvs); [done|]. intros a Ha.
    apply wpr_bindR. unfold read_to_flush_wrapped, read_to_flush. apply wpr_bind.
    apply (hd_read_lines PFlush (map item_line items) tl); [cbn [l_in set_in]; lia|done|].
    apply wpr_ret. rewrite set_in_set_in.
    assert (exists ns, Forall2 (fun x n => number x.2 n) items ns) as [ns Hns].
    { clear -Hitems. induction Hitems as [|x items [_ [n Hn]] _ [ns IH]]; [by exists []|]. exists (n :: ns). by constructor. }
    assert (Hoid : Forall (fun x => is_oid x.1) items) by (eapply Forall_impl; [exact Hitems|]; by intros x []).
    assert (Hrun : (a !! bs "hash-algo" = None \/ a !! bs "hash-algo" = Some (bs "sha256")) ->
      WR (let? oids := Ret (batch_lines (map item_line items)) in
          let! its := backend_batch be oids in Ret (Ok its))
        (fun r l' s' => match r with
          | Ok a0 => WR (Ret (Ok (st_new_success (map (batch_out pr mi) a0)))) (fun a1 => WR (Ret (a1, rb)) (hresult w (RBatch kvs items) tl l)) l' s'
          | Er e => WR (Ret (Er e, rb)) (hresult w (RBatch kvs items) tl l) l' s' end) (set_in tl l) s).
    { intros Hh. apply wpr_bindR, wpr_ret. rewrite (batch_lines_items items ns) by done.
      apply wpr_bind, (hd_batch w); [done| |].
      { apply Forall_forall. intros [o n] Hin'. apply elem_of_zip_l in Hin'.
        apply elem_of_list_fmap in Hin' as (x & -> & Hx). rewrite Forall_forall in Hoid. by apply Hoid. }
      intros ys Hys. apply wpr_ret, wpr_ret, wpr_ret.
      exists (Reply 200 [] (BLines (map (batch_out pr mi) ys))), w.
      split_and!; try done.
      - eapply (i_batch _ _ _ _ _ _ _ (a !! bs "hash-algo")); [by apply key_lookup|done|].
        assert (Hout : forall w' x n, batch_out pr mi (show w' (x, n)) = batch_line_for m w' x n).
        { clear -Hup Hdown. intros w' x n. unfold batch_out, batch_line_for, show. cbn [bi_oid bi_size bi_present fst snd].
          destruct (w_objs w' !! x) as [d|].
          + rewrite bool_decide_eq_true_2 by (by eexists).
            destruct m; [rewrite (Hup true eq_refl)|rewrite (Hdown true eq_refl)]; done.
          + rewrite bool_decide_eq_false_2 by (by intros []).
            destruct m; [rewrite (Hup false eq_refl)|rewrite (Hdown false eq_refl)]; done. }
        clear -Hns Hys Hout. revert ys Hys. induction Hns as [|x n items ns Hn _ IH]; intros ys Hys.
        { apply Forall2_nil_inv_l in Hys as ->. constructor. }
        cbn [fmap list_fmap zip zip_with] in Hys. apply Forall2_cons_inv_l in Hys as (y & ys' & Hy & Hys & ->).
        cbn [map]. constructor; [|by apply IH]. exists n. split; [done|].
        destruct Hy as [-> | ->]; rewrite Hout; auto.
      - by apply (sends_lines s 200 None), is_code. }
    destruct (a !! bs "hash-algo") as [x|] eqn:Ex.
    - case_decide as Hx.
      + apply Hrun. right. congruence.
      + apply wpr_ret, wpr_ret. apply hres_400; try done. eapply a_batch_algo; [by apply Ha|done].
    - apply Hrun. by left. }
  destruct (is_upload m) eqn:Em; apply Hgo; intros b; congruence || by destruct b.
Qed.

(** *** verify-object and get-object *)
Lemma hd_verify_cmd o kvs : well_formed m (RVerify o kvs) -> hanswers (RVerify o kvs) (CVerify o).
Proof using Hlfs.
  intros (_ & Hargs & _) w rb tl l s Hr Hw Hrb Hf Hin. cbn [handle_command].
  apply wpr_bind. unfold p_verify_object. apply wpr_bindR.
  apply (hd_read_lines PFlush (map arg_line kvs) tl); [lia|done|].
  apply wpr_bindR, (hd_args kvs); [done|]. intros a Ha. apply wpr_bindR, wpr_ret.
  destruct (oid_new o) as [o'|e] eqn:Eo.
  2: { pose proof (oid_new_no _ _ Eo) as [E1 E2]. apply wpr_ret. apply hres_400; try done.
       unfold oid_new in Eo. destruct (oid_valid o); [done|]. injection Eo as <-. by apply a_verify_oid. }
  apply oid_new_iff in Eo as [-> Ho]. unfold backend_verify, parse_value_as_integer.
  apply wpr_bindR, wpr_ret. destruct (a !! bs "size") as [b|] eqn:Eb.
  2: { apply wpr_ret. apply hres_400; try done. apply a_verify_no_size; [done|]. by eapply no_key_none. }
  destruct (parse_integer b) as [n|e] eqn:En.
  2: { apply parse_number_er in En as (E1 & E2 & E3). apply wpr_ret. apply hres_400; try done. rewrite E3.
       apply a_verify_number; [done|by apply Ha|done]. }
  apply parse_number in En. apply Ha in Eb. apply wpr_bind. cbn [be_lfs].
  pose proof (stat_object en lfs Hlfs s w o Hr Ho) as Hst. apply hd_stat.
  2: { intros x [Hx _]. rewrite decide_False by done. apply wpr_ret, wpr_ret. by apply hres_io. }
  destruct (w_objs w !! o) as [d|] eqn:Ed.
  - destruct Hst as [u ->]. destruct (lenN d =? n)%N eqn:En'.
    + apply N.eqb_eq in En'. subst n. apply wpr_ret, wpr_ret. destruct Hrb.
      exists (Reply 200 [] BNone), w. split_and!; try done.
      * apply i_right. by eapply a_verify_ok.
      * by apply (sends_none s 200 None), is_code.
    + apply N.eqb_neq in En'. apply wpr_ret, wpr_ret. apply hres_text; try done; [by apply is_code|].
      apply i_right. eapply a_verify_size; done || congruence.
  - rewrite Hst. rewrite decide_True by done. apply wpr_ret, wpr_ret. apply hres_text; try done; [by apply is_code|].
    apply i_right. by eapply a_verify_none.
Qed.

Lemma hd_get_cmd o kvs : well_formed m (RGet o kvs) -> hanswers (RGet o kvs) (CGet o).
Proof using Hlfs.
  intros (_ & Hargs & _) w rb tl l s Hr Hw Hrb Hf Hin. cbn [handle_command].
  apply wpr_bind. unfold p_get_object. apply wpr_bindR.
  apply (hd_read_lines PFlush (map arg_line kvs) tl); [lia|done|].
  apply wpr_bindR, (hd_args kvs); [done|]. intros a Ha. apply wpr_bindR, wpr_ret.
  destruct (oid_new o) as [o'|e] eqn:Eo.
  2: { pose proof (oid_new_no _ _ Eo) as [E1 E2]. apply wpr_ret. apply hres_400; try done.
       unfold oid_new in Eo. destruct (oid_valid o); [done|]. injection Eo as <-. by apply a_get_bad. }
  apply oid_new_iff in Eo as [-> Ho]. apply wpr_bind. unfold backend_download. apply wpr_bindR, wpr_io_call.
  assert (Hbad : forall x, odd x -> wpr good pid F (if decide (io_kind (err_of_io x) = KNotFound)
       then Ret (Ok (st_failure 404 (bs "not found" ++ [NL]))) else Ret (Er (err_of_io x)))
     (fun a => WR (Ret (a, rb)) (hresult w (RGet o kvs) tl l)) (set_in tl l) s).
  { intros x [Hx _]. rewrite decide_False by done. apply wpr_ret, wpr_ret. by apply hres_io. }
  apply hd_open; [|intros x Hx; by apply Hbad].
  cbn [be_lfs]. pose proof (open_object en lfs Hlfs s w o Hr Ho) as Hst. destruct (w_objs w !! o) as [d|] eqn:Ed.
  - destruct Hst as (j & x & -> & Hx & Hd). cbn [res_of_io]. apply wpr_bindR, wpr_io_call, hd_fstat; [|intros y Hy; by apply Hbad].
    cbn [res_of_io fs_fstat]. apply wpr_ret. unfold fs_data, inode_at. rewrite Hx, Hd. apply wpr_ret, wpr_ret.
    destruct Hrb. exists (Reply 200 [bs "size=" ++ dec (lenN d) ++ [NL]] (BData d)), w. split_and!; try done.
    + by apply i_right, a_get.
    + split; [by apply is_code|]. split; [done|]. split; [done|]. split; [done|]. exists j, x. done.
    + by apply (Hw o).
    + intros d' [= <-]. by exists o, kvs.
  - rewrite Hst. cbn [res_of_io]. rewrite decide_True by done. apply wpr_ret, wpr_ret.
    apply hres_text; try done; [by apply is_code|]. by apply i_right, a_get_none.
Qed.

(** *** put-object *)
Lemma steady_incomplete n : steady (EUnlink (lfs ++ [bs "incomplete"; n])).
Proof using Type. intros i E. by apply app_inv_head in E. Qed.

Lemma hd_drop_temp w n d (Q : unit -> local -> fs -> Prop) l s s1 :
  rep s w -> uploading lfs s s1 n d -> stays n -> no_nul n ->
  (forall s', rep s' w -> Q tt l s') -> WR (drop_temp (lfs ++ [bs "incomplete"; n])) Q l s1.
Proof using Hlfs.
  intros. apply wr_from; [|by eapply nf_drop_temp]. unfold drop_temp. apply all_ev_bind; [|done].
  apply all_ev_call, steady_incomplete.
Qed.

Lemma steady_copy f fd got rb : wr = false -> all_ev steady (copy_to_file f fd got rb).
Proof using Type.
  intros Hwr. revert got rb. induction f as [|f IH]; intros got rb; [done|]. cbn [copy_to_file].
  apply all_ev_bind; [by apply rd_reader_read|]. intros [[d|e] rb2]; [|done]. destruct d as [|y d]; [done|].
  apply all_ev_bind; [done|]. intros [[]|e]; [apply IH|done].
Qed.

Lemma hd_start_upload w o ds tl (Q : res (upload_state * bytes) * rbuf -> local -> fs -> Prop) rb l s :
  wr = false -> rep s w -> is_oid o -> rb_ok rb ->
  (2 * length (l_in l) + 1 < fuel)%nat -> datas (l_in l) ds (Ok tt) tl ->
  (forall s1 n rb', stays n -> no_nul n -> uploading lfs s s1 n (concat ds) -> rb_ok rb' ->
     Q (Ok (UploadState o (lfs ++ [bs "incomplete"; n]), concat ds), rb') (set_in tl l) s1) ->
  WR (start_upload be fuel o rb) Q l s.
Proof using Hlfs.
  intros Hwr. intros. apply wr_from; [|by eapply (nf_start_upload en lfs umask ts clock pid fuel F Hlfs w o ds (Ok tt))].
  unfold start_upload. split; [done|]. intros [[tmp fd]|e] Hr; [|done]. destruct Hr as [sfx ->].
  apply all_ev_bind; [|intros [[got|e] rb']; [done|]].
  - by apply steady_copy.
  - apply all_ev_bind; [|done]. unfold drop_temp. apply all_ev_bind; [|done]. apply all_ev_call. cbn [be_lfs].
    rewrite <- app_assoc. apply steady_incomplete.
Qed.

Lemma hd_finish_upload w o n d (Q : res unit -> local -> fs -> Prop) l s s1 :
  rep s w -> uploading lfs s s1 n d -> stays n -> no_nul n -> is_oid o ->
  (forall s', rep s' (World (<[o := d]> (w_objs w)) (w_locks w)) -> Q (Ok tt) l s') ->
  (forall e s', e_kind e = IOError -> rep s' w -> Q (Er e) l s') ->
  (forall e s', e_kind e = IOError -> rep s' (World (<[o := d]> (w_objs w)) (w_locks w)) -> Q (Er e) l s') ->
  WR (finish_upload be (UploadState o (lfs ++ [bs "incomplete"; n]))) Q l s1.
Proof using Hlfs.
  intros Hr Hu H1 H2 Ho HQ HE0 HE1. unfold finish_upload. cbn [us_oid us_temp be_lfs]. rewrite <- object_path_eq.
  destruct (oid_parts o Ho) as (S1 & N1 & S2 & N2 & S3 & N3).
  destruct (r_obj_dir _ _ _ _ Hr o Ho) as (D1 & D2 & D3).
  set (x := take 2 o) in *. set (y := take 2 (drop 2 o)) in *.
  set (tmp := lfs ++ [bs "incomplete"; n]) in *.
  set (a := lfs ++ [bs "objects"; x]) in *. set (b := lfs ++ [bs "objects"; x; y]) in *.
  assert (Eb : b = a ++ [y]) by (unfold a, b; by rewrite <- app_assoc).
  assert (Ea : a = (lfs ++ [bs "objects"]) ++ [x]) by (unfold a; by rewrite <- app_assoc).
  assert (Ep : object_path lfs o = b ++ [o]) by (unfold b, object_path; by rewrite <- app_assoc).
  rewrite Ep, removelast_last.
  pose proof Hu as (Hn & En & z & Ez & Hz). fold tmp in Hn, En.
  assert (Ho0 : bs "objects" ∈ [bs "objects"; bs "incomplete"; bs "tmp"; bs "locks"]) by (by constructor).
  pose proof (r_dirs _ _ _ _ Hr _ Ho0) as Hobj.
  assert (Hta : tmp <> a) by (intros E; by apply app_inv_head in E).
  assert (Htb : tmp <> b) by (intros E; by apply app_inv_head in E).
  assert (Htp : tmp <> b ++ [o]) by (rewrite <- Ep; intros E; by apply app_inv_head in E).
  apply wpr_bind, wpr_call. intros or. cbn [handle_ev]. unfold faulty. destruct (o_fault or) as [ex|].
  { intros _. apply wpr_bind. eapply hd_drop_temp; [exact Hr|exact Hu|done|done|]. intros s' Hr'. apply wpr_ret. by apply HE0. }
  unfold with_l, fs_mkdir_all.
  destruct (mkdirs_ok s1 [] b) as [s2 Es2].
  { intros c c' k Hc Ebc. simpl. rewrite En. intros E. apply lookup_insert_Some in E as [[E _]|[_ E]].
    - rewrite <- E in Ebc. unfold b, tmp in Ebc. rewrite <- app_assoc in Ebc. by apply app_inv_head in Ebc.
    - destruct c' as [|w1 c' _] using rev_ind.
      { rewrite app_nil_r in Ebc. rewrite <- Ebc in E. by apply D3 in E. }
      rewrite Eb, app_assoc in Ebc. apply app_inj_tail in Ebc as [Ebc _].
      destruct c' as [|w2 c' _] using rev_ind.
      { rewrite app_nil_r in Ebc. rewrite <- Ebc in E. by apply D2 in E. }
      rewrite Ea, app_assoc in Ebc. apply app_inj_tail in Ebc as [Ebc _].
      rewrite (Hobj c c') in E by done. done. }
  rewrite Es2. cbn [fst snd]. intros _. apply mkdirs_spec in Es2 as (I2 & _ & M1 & M2).
  assert (Hb2 : nodes s2 !! b = Some NDir) by (apply (M2 b []); [by intros [_ ?]%app_eq_nil|by rewrite app_nil_r]).
  assert (Ha2 : nodes s2 !! a = Some NDir) by (apply (M2 a [y]); [by intros [_ ?]%app_eq_nil|done]).
  assert (Hq2 : forall q, q <> a -> q <> b -> nodes s2 !! q = nodes s1 !! q).
  { intros q Hqa Hqb. destruct (M1 q) as [?|(_ & _ & c & c' & Hc & Ebc & ->)]; [done|]. simpl in *.
    destruct c' as [|w1 c' _] using rev_ind; [by rewrite app_nil_r in Ebc|].
    rewrite Eb, app_assoc in Ebc. apply app_inj_tail in Ebc as [Ebc _].
    destruct c' as [|w2 c' _] using rev_ind; [by rewrite app_nil_r in Ebc|].
    rewrite Ea, app_assoc in Ebc. apply app_inj_tail in Ebc as [Ebc _].
    pose proof (uploading_dirs lfs _ _ _ _ Hu (r_dirs _ _ _ _ Hr) _ Ho0) as Hd1.
    rewrite (Hd1 c c') by done. apply (M2 c (c' ++ [x; y])); [done|].
    rewrite Eb, Ea, Ebc. by rewrite <- !app_assoc. }
  assert (Hmono : forall q, nodes s1 !! q = Some NDir -> nodes s2 !! q = Some NDir).
  { intros q Hq. destruct (M1 q) as [->|(E & _)]; [done|congruence]. }
  assert (Hd2 : lfs_dirs s2 lfs).
  { eapply dirs_mono; [exact Hmono|]. eapply uploading_dirs; [exact Hu|apply Hr]. }
  assert (Htmp2 : file_at s2 tmp = inr (tmp, length (inodes s))).
  { unfold file_at, tmp. rewrite (resolve_in lfs Hlfs); [|done|apply in_incomplete|done|done].
    rewrite node_at_cons by (by intros [_ ?]%app_eq_nil). fold tmp. rewrite Hq2 by done.
    by rewrite En, lookup_insert. }
  apply wpr_bind, wpr_call. intros or2. cbn [handle_ev]. unfold faulty, with_l. destruct (o_fault or2) as [ex|].
  { intros _. apply wpr_bind, wr_from.
    { unfold drop_temp. apply all_ev_bind; [|done]. apply all_ev_call, steady_incomplete. }
    unfold drop_temp. apply wp_bind, wp_call. intros or3 [Hor3 _]. cbn [handle_ev]. unfold faulty, with_l, fs_unlink. rewrite Hor3, Htmp2.
    cbn [fst snd]. apply wp_ret, wpr_ret. apply HE0; [done|].
    assert (Hdel : forall q, q <> a -> q <> b -> (delete tmp (nodes s2)) !! q = nodes s !! q).
    { intros q Hqa Hqb. destruct (decide (q = tmp)) as [->|Hqt]; [by rewrite lookup_delete, Hn|].
      by rewrite lookup_delete_ne, Hq2, En, lookup_insert_ne by done. }
    assert (Hmo : forall q, nodes s !! q = Some NDir -> (delete tmp (nodes s2)) !! q = Some NDir).
    { intros q Hq. rewrite lookup_delete_ne by congruence. apply Hmono. rewrite En, lookup_insert_ne by congruence. done. }
    eapply (rep_dirs en lfs s _ w o); [exact Hr|done| | |].
    - eapply (ino_le_grow s _ [z]). simpl. by rewrite I2.
    - intros q c nd. simpl. intros Hnd. destruct (decide (q ++ [c] = b)) as [E|Hnb].
      { rewrite Eb in E. apply app_inj_tail in E as [-> ->]. right. by rewrite lookup_delete_ne. }
      destruct (decide (q ++ [c] = a)) as [E|Hna].
      { rewrite Ea in E. apply app_inj_tail in E as [-> ->]. right. apply Hmo.
        apply (Hobj _ []); [by rewrite app_nil_r|by intros [_ ?]%app_eq_nil]. }
      rewrite Hdel in Hnd by done. destruct (r_tree _ _ _ _ Hr _ _ _ Hnd) as [->|H]; [by left|right]. by apply Hmo.
    - intros q. simpl. destruct (decide (q = a)) as [->|Hna]; [|destruct (decide (q = b)) as [->|Hnb]; [|left; by apply Hdel]].
      + rewrite lookup_delete_ne, Ha2 by done. destruct (nodes s !! a) as [[|k]|] eqn:E; [by left|by destruct (D2 k)|right; auto].
      + rewrite lookup_delete_ne, Hb2 by done. destruct (nodes s !! b) as [[|k]|] eqn:E; [by left|by destruct (D3 k)|right; auto]. }
  assert (Hres : forall s', (forall q, nodes s2 !! q = Some NDir -> nodes s' !! q = Some NDir) ->
    resolve s' (b ++ [o]) = inr (b ++ [o])).
  { intros s' Hs'. apply resolve_dirs.
    - rewrite <- Ep, object_path_eq. apply obj_stays; [by apply plain_stays_all|done].
    - rewrite <- Ep. unfold object_path. apply Forall_app. split; [by apply lfs_no_nul|].
      repeat first [apply Forall_nil_2 | apply Forall_cons_2; [try done|]].
      unfold no_nul. refine (bool_decide_eq_true_1 _ _). by vm_compute.
    - rewrite Eb. apply dirs_to_app. rewrite Ea. split.
      + apply dirs_to_app. split.
        * apply is_dir_to. intros p q E Hp. apply Hs'. by apply (Hd2 (bs "objects") Ho0 p q).
        * rewrite <- Ea, node_at_cons by (by intros [_ ?]%app_eq_nil). by apply Hs'.
      + rewrite <- Ea, <- Eb, node_at_cons by (by intros [_ ?]%app_eq_nil). by apply Hs'. }
  assert (Hpne : b ++ [o] <> []) by (by intros [_ ?]%app_eq_nil).
  assert (Hnd : nodes s2 !! (b ++ [o]) <> Some NDir).
  { rewrite Hq2.
    - rewrite En, lookup_insert_ne by done. by rewrite <- Ep.
    - rewrite Eb. intros E. apply (f_equal length) in E. rewrite !app_length in E. simpl in E. lia.
    - intros E. apply (f_equal length) in E. rewrite !app_length in E. simpl in E. lia. }
  set (s3 := set_nodes (fun mm => <[b ++ [o] := NFile (length (inodes s))]> (delete tmp mm)) s2).
  assert (fs_rename tmp (b ++ [o]) s2 = (IOk tt, s3)) as ->.
  { unfold fs_rename. rewrite Htmp2, (Hres s2), node_at_cons by done.
    by destruct (nodes s2 !! (b ++ [o])) as [[|]|]. }
  cbn [fst snd]. intros _.
  assert (Hn3 : nodes s3 !! (b ++ [o]) = Some (NFile (length (inodes s)))) by (simpl; by rewrite lookup_insert).
  assert (Hm3 : forall q, nodes s2 !! q = Some NDir -> nodes s3 !! q = Some NDir).
  { intros q Hq. simpl. rewrite lookup_insert_ne by congruence. rewrite lookup_delete_ne; [done|].
    intros <-. rewrite Hq2, En, lookup_insert in Hq by done. done. }
  assert (Hi3 : inodes s3 = inodes s ++ [z]) by (simpl; by rewrite I2).
  assert (Hrep : forall s4 z', nodes s4 = nodes s3 -> ino_le s s4 -> inodes s4 !! length (inodes s) = Some z' -> i_data z' = d ->
    rep s4 (World (<[o := d]> (w_objs w)) (w_locks w))).
  { intros s4 z' E4 Hle Hz4 Hd4. eapply (rep_put en lfs s s4 w o d (length (inodes s)) z'); try done; rewrite ?E4.
    - by rewrite Ep.
    - by apply Hm3.
    - by apply Hm3.
    - rewrite Ep. intros q Q1 Q2 Q3. simpl. rewrite lookup_insert_ne by done.
      destruct (decide (q = tmp)) as [->|Hqt].
      + by rewrite lookup_delete, Hn.
      + rewrite lookup_delete_ne by done. rewrite Hq2 by done. by rewrite En, lookup_insert_ne. }
  assert (Hr3 : rep s3 (World (<[o := d]> (w_objs w)) (w_locks w))).
  { apply (Hrep s3 z); [done|by eapply ino_le_grow| |done]. rewrite Hi3, lookup_app_r by lia. by rewrite Nat.sub_diag. }
  unfold fix_permissions. apply wpr_bindR, wpr_io_call, hd_stat; [|intros x' _; by apply HE1].
  unfold fs_stat. rewrite (Hres s3) by done. rewrite node_at_cons, Hn3 by done. cbn [res_of_io].
  apply wpr_io_call, wpr_call. intros or3. cbn [handle_ev]. unfold faulty. destruct (o_fault or3) as [ex|]; [intros _; by apply HE1|].
  unfold with_l, fs_chmod. rewrite (Hres s3) by done. rewrite node_at_cons, Hn3 by done. cbn [fst snd res_of_io]. intros _.
  apply HQ. apply (Hrep _ (set_mode (N.ldiff 511 umask) z)); [done| | |done].
  - eapply ino_le_trans; [by eapply ino_le_grow|]. by apply ino_le_upd.
  - apply inodes_upd_eq. rewrite Hi3, lookup_app_r by lia. by rewrite Nat.sub_diag.
Qed.

Lemma hd_put_cmd o kvs ds : wr = false -> well_formed m (RPut o kvs ds) -> hanswers (RPut o kvs ds) (CPut o).
Proof using Hlfs HH.
  intros Hwr (_ & Hargs & Ho & (b & n & Hb & Hn) & Hds) w rb tl l s Hr Hw Hrb Hf (i & Hin & Hi). cbn [handle_command].
  unfold p_put_object. rewrite (proj2 (oid_new_iff o o)) by done.
  pose proof (upto_shrink _ _ _ _ Hin) as Hl. pose proof (datas_len _ _ _ _ Hi) as Hl2.
  apply wpr_bind, wpr_bindR.
  apply (hd_read_lines PDelim (map arg_line kvs) i); [lia|done|].
  apply wpr_bindR, (hd_args kvs); [done|]. intros a Ha. apply wpr_ret.
  unfold size_from_arguments. rewrite (proj2 (Ha _ _) Hb), (proj2 (parse_number b n)) by done.
  apply wpr_bind. eapply (hd_start_upload w o ds tl); [done|done|done|done|cbn [l_in set_in]; lia|done|].
  intros s1 nm rb' Hn1 Hn2 Hu [Hrb1 Hrb2]. rewrite set_in_set_in. cbn [us_temp].
  assert (Hbad : forall er, client_error (e_kind er) = true ->
    answer_of en m (l_uid l) clock w (RPut o kvs ds) (refusal (display er)) w ->
    WR (let! _ := drop_temp (lfs ++ [bs "incomplete"; nm]) in Ret (Er er, rb')) (hresult w (RPut o kvs ds) tl l) (set_in tl l) s1).
  { intros er Her Hno. apply wpr_bind. eapply hd_drop_temp; [exact Hr|exact Hu|done|done|].
    intros s' Hr'. apply wpr_ret. by apply hres_400. }
  destruct (lenN (concat ds) <? n)%N eqn:E1.
  { apply N.ltb_lt in E1. apply Hbad; [done|]. by eapply a_put_less. }
  destruct (n <? lenN (concat ds))%N eqn:E2.
  { apply N.ltb_lt in E2. apply Hbad; [done|]. by eapply a_put_more. }
  apply N.ltb_ge in E1, E2. assert (n = lenN (concat ds)) as -> by lia.
  rewrite (proj2 (oid_new_iff _ (hex_encode (en_hash en (concat ds))))); [|split; [done|apply hex_encode_is_oid, HH]].
  case_decide as Hne.
  { apply Hbad; [done|]. eapply a_put_other; [done|done|by apply hex_of_iff|done]. }
  assert (Hroom : room (World (<[o := concat ds]> (w_objs w)) (w_locks w))).
  { intros o' d'. simpl. rewrite lookup_insert_Some. intros [[_ <-]|[_ Hd]]; [lia|by apply (Hw o')]. }
  apply wpr_bind. eapply hd_finish_upload; [exact Hr|exact Hu|done|done|done|..].
  - intros s' Hr'. apply wpr_ret. exists (Reply 200 [] BNone), (World (<[o := concat ds]> (w_objs w)) (w_locks w)).
    split_and!; try done.
    + apply i_right. eapply a_put; [done|done|]. by apply hex_of_iff.
    + by apply (sends_none s' 200 None), is_code.
  - intros e s' He Hr'. apply wpr_ret. eapply hres_500; try done. intros a'. by apply i_trouble.
  - intros e s' He Hr'. apply wpr_ret. eapply hres_500; try done. intros a'. eapply i_put; [done|done|]. by apply hex_of_iff.
Qed.

(** ** Locks *)
Definition shown (w : world) (i : bytes) (k : lock) : Prop :=
  exists p t u who, w_locks w !! i = Some (p, t, u) /\ owner en u who /\ k = Lock p t who.

Lemma hd_user_for_file f j x u (Q : bytes -> local -> fs -> Prop) l s :
  resolve s f = inr f -> f <> [] -> nodes s !! f = Some (NFile j) -> inodes s !! j = Some x -> i_uid x = u ->
  (forall who, owner en u who -> Q who l s) -> WR (user_for_file en f) Q l s.
Proof using Type.
  intros H1 H2 H3 H4 <- HQ. unfold user_for_file. apply wpr_bind, hd_stat; [|intros e _]; apply wpr_ret, HQ; [|by right].
  unfold fs_stat. rewrite H1, node_at_cons, H3 by done. unfold inode_at. rewrite H4. by left.
Qed.

Lemma hd_lock_from_id w i (Q : res (option lock) -> local -> fs -> Prop) l s :
  rep s w -> plain_name i ->
  (forall p t u who, w_locks w !! i = Some (p, t, u) -> owner en u who -> Q (Ok (Some (Lock p t who))) l s) ->
  (w_locks w !! i = None -> Q (Ok None) l s) ->
  (forall x, odd x -> Q (Er (err_of_io x)) l s) -> WR (lock_from_id en be i) Q l s.
Proof using Hlfs.
  intros Hr Hi HS HN HE. unfold lock_from_id. rewrite push_plain by done. apply wpr_bind, hd_open.
  2: { intros x Hx. rewrite decide_False by apply Hx. apply wpr_ret. by apply HE. }
  pose proof (resolve_in lfs Hlfs s (bs "locks") i (r_dirs _ _ _ _ Hr) in_locks (plain_stays _ Hi) (plain_no_nul _ Hi)) as Er.
  assert (Hne : lfs ++ [bs "locks"; i] <> []) by (by intros [_ ?]%app_eq_nil).
  unfold fs_open. rewrite Er, node_at_cons by done.
  pose proof (lock_node en lfs s w i Hr) as Hn. destruct (w_locks w !! i) as [[[p t] u]|].
  - destruct Hn as (j & x & Hj & Hx & Hd & Hu & _ & Ht). rewrite Hj.
    apply wpr_bindR, wpr_io_call, hd_read_all.
    2: { intros y Hy. cbn [res_of_io]. by apply HE. }
    cbn [fs_read_all res_of_io]. unfold fs_data, inode_at. rewrite Hx, Hd.
    apply wpr_bind. eapply hd_user_for_file; try done. intros who Hwho.
    change (record_of t p) with (lock_record t p). rewrite c33 by apply Ht. apply wpr_ret. by eapply HS.
  - rewrite Hn. cbn [io_kind_of ENOENT]. rewrite decide_True by done. apply wpr_ret. by apply HN.
Qed.

Lemma hd_lock_from_path w p (Q : res (option lock) -> local -> fs -> Prop) l s :
  rep s w ->
  (forall t u who, w_locks w !! lock_id (en_hash en) p = Some (p, t, u) -> owner en u who -> Q (Ok (Some (Lock p t who))) l s) ->
  (forall p' t u e, w_locks w !! lock_id (en_hash en) p = Some (p', t, u) -> p' <> p ->
     client_error (e_kind e) = true -> display e = clash -> Q (Er e) l s) ->
  (w_locks w !! lock_id (en_hash en) p = None -> Q (Ok None) l s) ->
  (forall x, odd x -> Q (Er (err_of_io x)) l s) -> WR (lock_from_path en be p) Q l s.
Proof using Hlfs HH.
  intros Hr HS HC HN HE. unfold lock_from_path. change (hash_for en p) with (lock_id (en_hash en) p).
  apply wpr_bind, (hd_lock_from_id w); [done|by apply lock_id_plain|..].
  - intros p' t u who E Hwho. cbn [lk_path]. destruct (decide (p' = p)) as [->|Hne].
    + rewrite decide_False by (by intros []). apply wpr_ret. by eapply HS.
    + rewrite decide_True by done. apply wpr_ret. by eapply HC.
  - intros E. apply wpr_ret. by apply HN.
  - intros x Hx. apply wpr_ret. by apply HE.
Qed.

Lemma hd_as_arguments p t who x (Q : list bytes -> local -> fs -> Prop) l s :
  en_time en t = Some x -> Q (info_of en p x who) l s -> WR (as_arguments en (Lock p t who)) Q l s.
Proof using Type.
  intros Hx HQ. unfold as_arguments, formatted_timestamp. cbn [lk_time]. rewrite Hx.
  apply wpr_bind, wpr_ret, wpr_ret. exact HQ.
Qed.
Lemma hd_as_lock_spec p t who x (Q : list bytes -> local -> fs -> Prop) l s :
  en_time en t = Some x -> Q (lines_of en m p x who) l s ->
  WR (as_lock_spec en (is_upload m) (Lock p t who)) Q l s.
Proof using Type.
  intros Hx HQ. unfold as_lock_spec, formatted_timestamp. cbn [lk_time lk_path lk_owner]. rewrite Hx.
  apply wpr_bind, wpr_ret, wpr_ret. unfold lines_of in HQ. unfold lk_id. cbn [lk_path].
  destruct m; exact HQ.
Qed.

Lemma steady_temp i : length i = 64%nat -> steady (EUnlink (lfs ++ [bs "locks"; i ++ bs ".lock"])).
Proof using Type.
  intros Hi j E. apply app_inv_head in E. injection E as E. intros Hj. apply (f_equal length) in E.
  rewrite app_length in E. simpl in E. lia.
Qed.

Lemma hd_lock_create w p (Q : res lock -> local -> fs -> Prop) l s : rep s w ->
  (w_locks w !! lock_id (en_hash en) p = None -> forall t t' who s', clock t -> clock t' -> owner en (l_uid l) who ->
   rep s' (World (w_objs w) (<[lock_id (en_hash en) p := (p, t, l_uid l)]> (w_locks w))) ->
   Q (Ok (Lock p t' who)) l s') ->
  (is_Some (w_locks w !! lock_id (en_hash en) p) -> forall s', rep s' w -> Q (Er (err_simple Conflict)) l s') ->
  (forall e s', odd e -> rep s' w -> Q (Er (err_of_io e)) l s') ->
  WR (lock_create en be p) Q l s.
Proof using Hlfs HH Hts Hclock.
  intros Hr HN HS HE. unfold lock_create. change (hash_for en p) with (lock_id (en_hash en) p).
  destruct (lock_id_plain en HH p) as (Hpl & Hlen & _).
  set (i := lock_id (en_hash en) p) in *.
  unfold lock_temp, lock_file, lock_dir. cbn [be_lfs].
  replace ((lfs ++ [bs "locks"]) ++ [i ++ bs ".lock"]) with (lfs ++ [bs "locks"; i ++ bs ".lock"]) by (by rewrite <- app_assoc).
  replace ((lfs ++ [bs "locks"]) ++ [i]) with (lfs ++ [bs "locks"; i]) by (by rewrite <- app_assoc).
  pose proof (steady_temp i Hlen) as Hsteady.
  set (tmp := lfs ++ [bs "locks"; i ++ bs ".lock"]) in *. set (f := lfs ++ [bs "locks"; i]).
  assert (Hst : stays (i ++ bs ".lock") /\ no_nul (i ++ bs ".lock")).
  { split.
    - split_and!; intros E; apply (f_equal length) in E; rewrite app_length, Hlen in E; simpl in E; lia.
    - unfold no_nul. apply not_elem_of_app. split; [by apply plain_no_nul|].
      refine (bool_decide_eq_true_1 _ _). by vm_compute. }
  destruct Hst as [Hst1 Hst2].
  assert (Htne : tmp <> []) by (by intros [_ ?]%app_eq_nil).
  assert (Hfne : f <> []) by (by intros [_ ?]%app_eq_nil).
  assert (Htf : tmp <> f).
  { intros E. apply app_inv_head in E. injection E as E. apply (f_equal length) in E. rewrite app_length in E. simpl in E. lia. }
  assert (Hrt : forall s', lfs_dirs s' lfs -> resolve s' tmp = inr tmp).
  { intros s' Hs'. by apply (resolve_in lfs Hlfs); [|apply in_locks|..]. }
  assert (Hrf : forall s', lfs_dirs s' lfs -> resolve s' f = inr f).
  { intros s' Hs'. apply (resolve_in lfs Hlfs); [done|apply in_locks|by apply plain_stays|by apply plain_no_nul]. }
  assert (Htn : nodes s !! tmp = None).
  { apply eq_None_not_Some. intros [n Hn]. apply (r_lock_only _ _ _ _ Hr) in Hn as [[[p' t'] u'] E].
    apply (r_lock _ _ _ _ Hr) in E as (_ & E & _). apply (f_equal length) in E.
    rewrite (proj1 (proj2 (lock_id_plain en HH p'))), app_length, Hlen in E. simpl in E. lia. }
  pose proof (r_dirs _ _ _ _ Hr) as Hd0.
  apply wpr_bind, hd_timestamp. intros t Ht.
  apply wpr_bind. unfold lockfile_write. apply wpr_bind, wpr_call. intros o1. cbn [handle_ev].
  unfold faulty. destruct (o_fault o1) as [e1|] eqn:Eo1.
  { intros (_ & _ & Hg). destruct (Hg e1 Eo1) as (G1 & G2 & _). rewrite decide_False by done.
    apply wpr_ret, wpr_bind, wr_from.
    { unfold lockfile_drop. apply all_ev_bind; [|done]. by apply all_ev_call. }
    unfold lockfile_drop. apply wp_bind, wp_call. intros o4 [Ho4 _]. cbn [handle_ev]. unfold faulty. rewrite Ho4.
    unfold with_l, fs_unlink, file_at. rewrite Hrt, node_at_cons, Htn by done. cbn [fst snd]. apply wp_ret, wpr_ret. by apply HE. }
  intros _. unfold with_l, fs_create_new. rewrite Hrt by done. rewrite node_at_cons, Htn by done.
  cbn [alloc fst snd]. set (j := length (inodes s)).
  apply wpr_io_call, wpr_call. intros o2. cbn [handle_ev].
  set (s0 := set_nodes <[tmp := NFile j]> _).
  assert (Hw : forall b, exists s1, fs_write j b s0 = (IOk tt, s1) /\ nodes s1 = <[tmp := NFile j]> (nodes s) /\
    inodes s1 = inodes s ++ [Inode b (l_uid l) (N.ldiff 438 (l_umask l)) pid false]).
  { intros b. eexists. split; [|split].
    - unfold fs_write, inode_at. cbn [s0 set_nodes inodes]. rewrite lookup_app_r by (unfold j; lia). unfold j.
      rewrite Nat.sub_diag. done.
    - done.
    - cbn [upd_inode inodes s0 set_nodes]. rewrite alter_app_r_alt by (unfold j; lia). unfold j. by rewrite Nat.sub_diag. }
  clearbody s0.
  (* the temporary file removed again *)
  assert (Hdrop : forall s1 y (R : unit -> local -> fs -> Prop), lfs_dirs s1 lfs -> nodes s1 = <[tmp := NFile j]> (nodes s) -> inodes s1 = inodes s ++ [y] ->
    (forall s', rep s' w -> R tt l s') -> WR (lockfile_drop tmp) R l s1).
  { intros s1 y R Hd1 En1 Ei1 HR. apply wr_from.
    { unfold lockfile_drop. apply all_ev_bind; [|done]. by apply all_ev_call. }
    unfold lockfile_drop. apply wp_bind, wp_call. intros o4 [Ho4 _]. cbn [handle_ev]. unfold faulty. rewrite Ho4.
    unfold with_l, fs_unlink, file_at. rewrite Hrt, node_at_cons, En1, lookup_insert by done. cbn [fst snd].
    apply wp_ret, HR. eapply rep_same; [exact Hr| |].
    - simpl. rewrite En1. by apply delete_insert.
    - by eapply ino_le_grow. }
  assert (Hdirs : forall s1, nodes s1 = <[tmp := NFile j]> (nodes s) -> lfs_dirs s1 lfs).
  { intros s1 En1. eapply dirs_mono; [|exact Hd0]. intros q Hq. rewrite En1, lookup_insert_ne; [done|]. intros <-. congruence. }
  destruct (o_fault o2) as [e2|] eqn:Eo2.
  { intros (_ & _ & Hg). destruct (Hg e2 Eo2) as (G1 & G2 & _).
    destruct (Hw (take (o_part o2) (lock_record t p))) as (s1 & -> & En1 & Ei1). cbn [snd res_of_io].
    apply wpr_bind. eapply (Hdrop s1); [by apply Hdirs|done|exact Ei1|]. intros s' Hr'. apply wpr_ret. by apply HE. }
  destruct (Hw (lock_record t p)) as (s1 & -> & En1 & Ei1). cbn [with_l fst snd res_of_io]. intros _.
  pose proof (Hdirs s1 En1) as Hd1.
  set (x := Inode (lock_record t p) (l_uid l) (N.ldiff 438 (l_umask l)) pid false) in *.
  apply wpr_bindR. unfold lockfile_persist. apply wpr_bind, wpr_call. intros o3. cbn [handle_ev].
  unfold faulty. destruct (o_fault o3) as [e3|] eqn:Eo3.
  { intros (_ & _ & Hg). destruct (Hg e3 Eo3) as (G1 & G2 & _). apply wpr_bind. eapply (Hdrop s1); [done|done|exact Ei1|].
    intros s' Hr'. rewrite decide_False by done. apply wpr_ret. by apply HE. }
  unfold with_l, fs_link, file_at. rewrite Hrt, node_at_cons, En1, lookup_insert by done.
  rewrite Hrf, node_at_cons, En1, lookup_insert_ne by done.
  pose proof (lock_node en lfs s w i Hr) as Hn. fold f in Hn.
  destruct (w_locks w !! i) as [[[p' t'] u']|] eqn:Ei.
  - destruct Hn as (k & z & -> & _). cbn [fst snd]. intros _. apply wpr_bind. eapply (Hdrop s1); [done|done|exact Ei1|].
    intros s' Hr'. cbn [io_kind_of EEXIST]. rewrite decide_True by done. apply wpr_ret. apply HS; [by eexists|done].
  - rewrite Hn. cbn [fst snd]. intros _. apply wpr_bind. unfold lockfile_drop.
    set (s2 := log _ _ _).
    assert (Hd2 : lfs_dirs s2 lfs).
    { eapply dirs_mono; [|exact Hd1]. intros q Hq. simpl. rewrite lookup_insert_ne; [done|].
      intros <-. rewrite En1, lookup_insert_ne, Hn in Hq by done. done. }
    assert (En2 : nodes s2 = <[f := NFile j]> (<[tmp := NFile j]> (nodes s))) by (simpl; by rewrite En1).
    assert (Ei2 : inodes s2 = inodes s ++ [x]) by done. clearbody s2.
    apply wr_from.
    { apply all_ev_bind; [|done]. by apply all_ev_call. }
    apply wp_bind, wp_call. intros o4 [Ho4 _]. cbn [handle_ev]. unfold faulty. rewrite Ho4.
    unfold with_l, fs_unlink, file_at. rewrite Hrt, node_at_cons, En2, lookup_insert_ne, lookup_insert by done. cbn [fst snd].
    apply wp_ret, wpr_ret. set (s3 := log _ _ _).
    assert (En3 : nodes s3 = <[f := NFile j]> (nodes s)).
    { simpl. rewrite En2, delete_insert_ne by done. by rewrite delete_insert. }
    assert (Ei3 : inodes s3 = inodes s ++ [x]) by done. clearbody s3.
    assert (Hxj : inodes s3 !! j = Some x).
    { rewrite Ei3, lookup_app_r by (unfold j; lia). unfold j. by rewrite Nat.sub_diag. }
    assert (Hr3 : rep s3 (World (w_objs w) (<[i := (p, t, l_uid l)]> (w_locks w)))).
    { eapply (rep_lock en lfs HH s s3 w p t (l_uid l) j x); try done; [by eapply ino_le_grow|by apply Hclock]. }
    apply wpr_bind. eapply hd_user_for_file; [by apply Hrf, Hr3|done|by rewrite En3, lookup_insert|done|done|].
    intros who Hwho. apply wpr_bind, hd_timestamp. intros t' Ht'. apply wpr_ret.
    by apply (HN eq_refl t t').
Qed.

(** *** lock *)
Lemma hd_lock_cmd kvs : well_formed m (RLock kvs) -> hanswers (RLock kvs) CLock.
Proof using Hlfs HH Hts Hclock.
  intros (_ & Hargs) w rb tl l s Hr Hw Hrb Hf Hin. cbn [handle_command].
  apply wpr_bind. unfold p_lock. apply wpr_bindR. unfold read_to_flush_wrapped, read_to_flush. apply wpr_bind.
  apply (hd_read_lines PFlush (map arg_line kvs) tl); [lia|done|].
  apply wpr_ret. apply wpr_bindR, (hd_args kvs); [done|]. intros a Ha.
  destruct (a !! bs "path") as [p|] eqn:Ep.
  2: { apply wpr_ret, wpr_ret. apply hres_400; try done. apply a_lock_bad. left. by eapply no_key_none. }
  destruct (a !! bs "refname") as [rn|] eqn:En.
  2: { apply wpr_ret, wpr_ret. apply hres_400; try done. apply a_lock_bad. right. by eapply no_key_none. }
  apply Ha in Ep, En. apply wpr_bind, (hd_lock_create w); [done|..].
  - intros Hnone t t' who s' Ht Ht' Hwho Hr'. destruct (time_text _ _ (Hclock _ Ht')) as [x Hx].
    apply wpr_bind. apply (hd_as_arguments p t' who x); [done|]. apply wpr_ret, wpr_ret. destruct Hrb.
    eexists (Reply 201 (info_of en p x who) BNone), _. split_and!; [by apply (i_lock en m (l_uid l) clock w kvs p rn t t' x who)|exact Hr'|done| |done..].
    by apply (sends_none s' 201 (Some _)), is_code.
  - intros HS s' Hr'. cbn [e_kind err_simple]. rewrite decide_True by done.
    apply wpr_bind, (hd_lock_from_path w); [done|..].
    + intros t' u' who E Hwho.
      destruct (r_lock _ _ _ _ Hr' _ _ _ _ E) as (_ & _ & Ht). destruct (time_text _ _ Ht) as [x Hx].
      apply wpr_bind. apply (hd_as_arguments p t' who x); [done|]. apply wpr_ret, wpr_ret. destruct Hrb.
      exists (Reply 409 (info_of en p x who) (BText (bs "conflict" ++ [NL]))), w. split_and!; try done.
      * by eapply i_lock_held.
      * split_and!; try done. by apply is_code.
    + intros p' t' u' e E Hne He Hd. apply wpr_ret, wpr_ret. apply hres_400; try done. rewrite Hd. by eapply a_lock_clash.
    + intros E. rewrite E in HS. by destruct HS.
    + intros y Hy. apply wpr_ret, wpr_ret. by apply hres_io.
  - intros e s' He Hr'. rewrite decide_False by done. apply wpr_ret, wpr_ret. by apply hres_io.
Qed.

(** *** unlock *)
Lemma hd_unlock_cmd i kvs : well_formed m (RUnlock i kvs) -> hanswers (RUnlock i kvs) (CUnlock i).
Proof using Hlfs HH Hclock.
  intros (_ & Hargs & _ & Hi) w rb tl l s Hr Hw Hrb Hf Hin. cbn [handle_command].
  apply wpr_bind. unfold p_unlock. apply wpr_bindR. unfold read_to_flush.
  apply (hd_read_lines PFlush (map arg_line kvs) tl); [lia|done|].
  destruct (utf8_valid i) eqn:Eu.
  2: { apply wpr_ret, wpr_ret. apply hres_400; try done. by apply a_unlock_bad. }
  apply wpr_bind, (hd_lock_from_id w); [done|done|..].
  - intros p t u who E Hwho.
    destruct (r_lock _ _ _ _ Hr _ _ _ _ E) as ((j & x & Hj & _) & Ei & Ht). destruct (time_text _ _ Ht) as [tx Hx].
    apply wpr_bind. apply (hd_as_arguments p t who tx); [done|]. apply wpr_bind. unfold lock_unlock.
    unfold lk_id. cbn [lk_path]. change (hash_for en p) with (lock_id (en_hash en) p). rewrite <- Ei.
    unfold lock_file, lock_dir. cbn [be_lfs]. rewrite <- app_assoc. cbn [app].
    apply wpr_io_call, wpr_call. intros o. cbn [handle_ev]. unfold faulty. destruct (o_fault o) as [y|] eqn:Eo.
    { intros (_ & _ & Hg). destruct (Hg y Eo) as (G1 & _). cbn [res_of_io]. change (io_kind (err_of_io y)) with (io_kind_of y).
      rewrite decide_False by done. case_decide.
      - apply wpr_ret, wpr_ret. apply hres_text; try done; [by apply is_code|]. apply i_unlock_forbidden; [done|by eexists].
      - apply wpr_ret, wpr_ret. by apply hres_io. }
    unfold with_l, fs_unlink, file_at.
    pose proof (resolve_in lfs Hlfs s (bs "locks") i (r_dirs _ _ _ _ Hr) in_locks (plain_stays _ Hi) (plain_no_nul _ Hi)) as Er.
    rewrite Er, node_at_cons by (by intros [_ ?]%app_eq_nil). rewrite Hj. cbn [fst snd res_of_io]. intros _.
    apply wpr_ret, wpr_ret. destruct Hrb. eexists (Reply 200 (info_of en p tx who) BNone), _.
    split_and!; [by eapply i_unlock| |done| |done..].
    + eapply (rep_unlock en lfs s _ w i); [exact Hr| |done|by eexists]. by apply ino_le_eq.
    + by apply (sends_none _ 200 (Some _)), is_code.
  - intros E. apply wpr_ret, wpr_ret. apply hres_text; try done; [by apply is_code|]. by apply i_right, a_unlock_none.
  - intros y Hy. apply wpr_ret, wpr_ret. by apply hres_io.
Qed.

(** *** list-lock *)
Lemma shown_id s w i k : rep s w -> shown w i k -> lk_id en k = i.
Proof using Type.
  intros Hr (p & t & u & who & E & _ & ->). destruct (r_lock _ _ _ _ Hr _ _ _ _ E) as (_ & Ei & _). by rewrite Ei.
Qed.

Lemma hd_collect w cursor is skip n (Q : list lock -> local -> fs -> Prop) l s :
  rep s w -> StronglySorted (fun a b => blt a b = true) is -> Forall (fun i => is_Some (w_locks w !! i)) is ->
  (skip = false -> Forall (fun i => below cursor i = false) is) ->
  (forall js ks, js `sublist_of` filter (fun i => below cursor i = false) is -> (length js <= n)%nat ->
     Forall2 (shown w) js ks -> Q ks l s) ->
  WR (collect_locks en be cursor is skip n) Q l s.
Proof using Hlfs HH.
  intros Hr. revert skip n Q. induction is as [|i is IH]; intros skip n Q Hs Hk Hskip HQ.
  { destruct n; apply wpr_ret; apply (HQ [] []); try done; simpl; lia. }
  destruct n as [|n].
  { apply wpr_ret. apply (HQ [] []); [apply sublist_nil_l|done|constructor]. }
  apply StronglySorted_inv in Hs as [Hs Hlt]. apply Forall_cons in Hk as [Hki Hk].
  cbn [collect_locks]. destruct (lock_key en lfs HH s w i Hr Hki) as [Hpl Has]. rewrite utf8_lossy_ascii by done.
  rewrite filter_cons in HQ.
  assert (Hpass : WR (collect_locks en be cursor is skip (S n)) Q l s).
  { apply IH; [done|done| |].
    - intros Hsk. specialize (Hskip Hsk). by apply Forall_cons in Hskip as [_ ?].
    - intros js ks H1 H2 H3. apply (HQ js ks); [|done|done]. case_decide; [by apply sublist_cons|done]. }
  apply wpr_bind, (hd_lock_from_id w); [done|done|..].
  - intros p t u who E Hwho. assert (Hsh : shown w i (Lock p t who)) by (by exists p, t, u, who).
    pose proof (shown_id s w i _ Hr Hsh) as Hid.
    change (match cursor with Some c => blt (lk_id en (Lock p t who)) c | None => false end) with (below cursor (lk_id en (Lock p t who))).
    rewrite Hid. destruct (below cursor i) eqn:Eb.
    + destruct skip; [exact Hpass|].
      exfalso. specialize (Hskip eq_refl). apply Forall_cons in Hskip as [? _]. congruence.
    + rewrite decide_True in HQ by done. rewrite andb_false_r. apply wpr_bind. apply IH; [done|done| |].
      * intros _. eapply Forall_impl; [exact Hlt|]. intros j Hj. unfold below in *. destruct cursor as [c|]; [|done].
        destruct (blt j c) eqn:Ejc; [|done]. by rewrite (blt_trans _ _ _ Hj Ejc) in Eb.
      * intros js ks H1 H2 H3. apply wpr_ret. apply (HQ (i :: js)); [by constructor|simpl; lia|by constructor].
  - intros E. rewrite E in Hki. by destruct Hki.
  - intros y Hy. exact Hpass.
Qed.

Lemma hd_lock_specs w js ks (Q : list bytes -> local -> fs -> Prop) l s : rep s w ->
  Forall2 (shown w) js ks ->
  (forall out, seen_lines en m ((fun i => (i, rec_at w i)) <$> js) out -> Q out l s) ->
  WR (lock_specs en (is_upload m) ks) Q l s.
Proof using Type.
  intros Hr Hk. revert Q. induction Hk as [|i k js ks (p & t & u & who & E & Hwho & ->) _ IH]; intros Q HQ.
  { apply wpr_ret, HQ. constructor. }
  cbn [lock_specs]. destruct (r_lock _ _ _ _ Hr _ _ _ _ E) as (_ & Ei & Ht).
  destruct (time_text _ _ Ht) as [x Hx]. apply wpr_bind.
  apply (hd_as_lock_spec p t who x); [done|]. apply wpr_bind, IH. intros out Hout. apply wpr_ret, HQ.
  cbn [fmap list_fmap]. unfold rec_at at 1. rewrite E. by eapply sl_cons.
Qed.

Lemma hd_list_items w cursor n (Q : res (list lock) -> local -> fs -> Prop) l s : rep s w ->
  (forall ids js ks, StronglySorted (fun a b => blt a b = true) ids ->
     (forall i, i ∈ ids <-> is_Some (w_locks w !! i) /\ below cursor i = false) ->
     js `sublist_of` ids -> (length js <= n)%nat -> Forall2 (shown w) js ks -> Q (Ok ks) l s) ->
  (forall x, odd x -> Q (Er (err_of_io x)) l s) ->
  WR (list_lock_items en be cursor n) Q l s.
Proof using Hlfs HH.
  intros Hr HQ HE. unfold list_lock_items, lock_dir. cbn [be_lfs]. apply wpr_bind, hd_readdir.
  2: { intros x Hx. apply wpr_ret. by apply HE. }
  unfold fs_readdir.
  destruct (resolve_dir lfs Hlfs s (bs "locks") (r_dirs _ _ _ _ Hr) in_locks) as [-> ->].
  set (names := children s (lfs ++ [bs "locks"])).
  assert (Hin : forall i, i ∈ merge_sort ble names <-> is_Some (w_locks w !! i)).
  { intros i. rewrite merge_sort_Permutation. by eapply locks_children. }
  assert (Hss : StronglySorted (fun a b => blt a b = true) (merge_sort ble names)) by apply sorted_strict, nodup_children.
  apply wpr_bind, (hd_collect w); [done|done| |done|].
  { apply Forall_forall. intros i. apply Hin. }
  intros js ks H1 H2 H3. apply wpr_ret. eapply HQ; [| |exact H1|done|done].
  - clear -Hss. induction Hss as [|a l Hl IH Hf]; [constructor|]. rewrite filter_cons. case_decide; [|done].
    constructor; [done|]. rewrite Forall_forall in Hf |- *. intros x Hx. apply elem_of_list_filter in Hx as [_ Hx]. by apply Hf.
  - intros i. rewrite elem_of_list_filter, Hin. tauto.
Qed.

Lemma hd_list_cmd kvs : well_formed m (RList kvs) -> hanswers (RList kvs) CListLock.
Proof using Hlfs HH.
  intros Hargs w rb tl l s Hr Hw Hrb Hf Hin. cbn [handle_command].
  apply wpr_bind. unfold p_list_locks. apply wpr_bindR. unfold read_to_flush_wrapped, read_to_flush. apply wpr_bind.
  apply (hd_read_lines PFlush (map arg_line kvs) tl); [lia|done|].
  apply wpr_ret. apply wpr_bindR, (hd_args kvs); [done|]. intros a Ha. apply wpr_bindR, wpr_ret.
  assert (Hlim : match match a !! bs "limit" with Some x => parse_integer x | None => Ok 100%N end with
    | Ok n => n = 0%N /\ (exists b, (bs "limit", b) ∈ kvs /\ number b 0) \/
              n <> 0%N /\ limit_of (a !! bs "limit") (N.to_nat (if (100 <? n)%N then 100 else n))
    | Er e => client_error (e_kind e) = true /\ exists b, (bs "limit", b) ∈ kvs /\ (~ exists n, number b n) /\ display e = bad_number b end).
  { destruct (a !! bs "limit") as [b|] eqn:Eb.
    - apply Ha in Eb. destruct (parse_integer b) as [n|e] eqn:En.
      + apply parse_number in En. destruct (decide (n = 0%N)) as [->|Hn]; [left; split; [done|by exists b]|right].
        split; [done|]. replace (if (100 <? n)%N then 100%N else n) with (N.min n 100); [by constructor|].
        destruct (100 <? n)%N eqn:E; [apply N.ltb_lt in E|apply N.ltb_ge in E]; lia.
      + apply parse_number_er in En as (? & ? & ?). split; [done|]. by exists b.
    - right. split; [done|]. constructor. }
  destruct (match a !! bs "limit" with Some x => parse_integer x | None => Ok 100%N end) as [n|e].
  2: { destruct Hlim as (He & b & Hb1 & Hb2 & Hd). apply wpr_ret. apply hres_400; try done. rewrite Hd. by eapply a_list_number. }
  destruct Hlim as [(-> & b & Hb1 & Hb2)|[Hn Hlim]].
  { apply wpr_ret, wpr_ret. apply hres_400; try done. by eapply a_list_zero. }
  rewrite (proj2 (N.eqb_neq n 0)) by done. set (lim := N.to_nat _) in *.
  pose proof (key_lookup a kvs (bs "limit") Ha) as Hkl. pose proof (key_lookup a kvs (bs "cursor") Ha) as Hkc.
  destruct (a !! bs "path") as [p|] eqn:Ep.
  - apply Ha in Ep. unfold p_list_for_path.
    assert (Hnone : w_locks w !! lock_id (en_hash en) p = None \/
      (exists t u c', w_locks w !! lock_id (en_hash en) p = Some (p, t, u) /\
       a !! bs "cursor" = Some c' /\ blt (lock_id (en_hash en) p) c' = true) ->
      WR (p_error 404 (bs "not found")) (fun a1 => WR (Ret (a1, rb)) (hresult w (RList kvs) tl l)) (set_in tl l) s).
    { intros H. apply wpr_ret, wpr_ret. apply hres_text; try done; [by apply is_code|]. apply i_right. by eapply a_list_path_none. }
    apply wpr_bind, (hd_lock_from_path w); [done|..].
    2: { intros p' t u e E Hne He Hd. apply wpr_ret, wpr_ret. apply hres_400; try done. rewrite Hd. by eapply a_list_path_clash. }
    2: { intros E. apply Hnone. by left. }
    2: { intros y Hy. apply wpr_ret, wpr_ret. by apply hres_io. }
    intros t u who E Hwho.
    destruct (r_lock _ _ _ _ Hr _ _ _ _ E) as (_ & _ & Ht). destruct (time_text _ _ Ht) as [x Hx].
    unfold lk_id at 1. cbn [lk_path]. change (hash_for en p) with (lock_id (en_hash en) p).
    assert (Hyes : match a !! bs "cursor" with Some c => blt (lock_id (en_hash en) p) c = false | None => True end ->
      WR (let! s0 := as_lock_spec en (is_upload m) (Lock p t who) in Ret (Ok (st_new_success s0)))
        (fun a1 => WR (Ret (a1, rb)) (hresult w (RList kvs) tl l)) (set_in tl l) s).
    { intros Hc. apply wpr_bind, (hd_as_lock_spec p t who x); [done|]. apply wpr_ret, wpr_ret. destruct Hrb.
      exists (Reply 200 [] (BLines (lines_of en m p x who))), w. split_and!; try done.
      - by eapply i_list_path.
      - by apply (sends_lines s 200 None), is_code. }
    destruct (a !! bs "cursor") as [c|] eqn:Ec; [|by apply Hyes].
    destruct (blt (lock_id (en_hash en) p) c) eqn:Eb; [|by apply Hyes].
    apply Hnone. right. by exists t, u, c.
  - apply wpr_bindR, (hd_list_items w); [done| |intros y Hy; apply wpr_ret; by apply hres_io]. intros ids js ks Hss Hids Hsub Hlen Hks.
    apply wpr_bind, (hd_lock_specs w js ks); [done|done|]. intros out Hout.
    apply wpr_ret, wpr_ret. destruct Hrb.
    set (ls := (fun i => (i, rec_at w i)) <$> ids) in *.
    set (ls' := (fun i => (i, rec_at w i)) <$> js) in *.
    match goal with |- hresult _ _ _ _ (Ok (st_success_with_data 200 ?nx _), _) _ _ =>
      replace nx with (match ls' !! lim with Some (i, _) => [bs "next-cursor=" ++ i ++ [NL]] | None => [] end) end.
    2: { unfold ls'. rewrite list_lookup_fmap. pose proof (Forall2_length _ _ _ Hks) as Hl.
         destruct (js !! lim) as [i|] eqn:Ei; cbn [fmap option_fmap option_map].
         - destruct (Forall2_lookup_l _ _ _ _ _ Hks Ei) as (k & Hk & Hsh). rewrite Hk, (shown_id s w i k) by done.
           apply lookup_lt_Some in Ei. rewrite (proj2 (Nat.eqb_eq _ _)) by lia. done.
         - apply lookup_ge_None in Ei. rewrite (lookup_ge_None_2 ks) by lia. done. }
    eexists (Reply 200 _ (BLines out)), w. split_and!; try done.
    + eapply (i_list en m (l_uid l) clock w kvs (a !! bs "limit") lim (a !! bs "cursor") ls ls' out); try done.
      * by eapply no_key_none.
      * split.
        -- unfold ls. clear -Hss. induction Hss as [|i l Hl IH Hf]; [constructor|]. cbn [fmap list_fmap]. constructor; [exact IH|].
           apply Forall_fmap. exact Hf.
        -- intros i r. unfold ls. rewrite elem_of_list_fmap. split.
           ++ intros (j & [= <- ->] & Hj). apply Hids in Hj as [[r' Hr'] Hb]. unfold rec_at. rewrite Hr'. split; [done|].
              unfold below in Hb. by destruct (a !! bs "cursor").
           ++ intros [Hi Hb]. exists i. unfold rec_at. rewrite Hi. split; [done|]. apply Hids. split; [by eexists|].
              unfold below. by destruct (a !! bs "cursor").
      * unfold ls, ls'. clear -Hsub. induction Hsub; cbn [fmap list_fmap]; [constructor|by apply sublist_skip|by apply sublist_cons].
      * unfold ls'. rewrite fmap_length. lia.
    + by apply (sends_lines s 200 (Some _)), is_code.
Qed.

End cmd.

Lemma get_same en m uid (clock : Z -> Prop) w o kvs a w' : answer_in en m uid clock w (RGet o kvs) a w' -> w' = w.
Proof.
  intros H. remember (RGet o kvs) as r eqn:E. destruct H as [r a w' H| | | | | | | | |]; try done.
  subst r. remember (RGet o kvs) as r eqn:E. by destruct H.
Qed.

(** ** Sessions *)
Section session.
Context (en : env) (lfs : path) (umask : N) (ts : option Z) (clock : Z -> Prop) (wr : bool).
Context (m : mode) (pid fuel : nat) (F : failure -> local -> fs -> Prop).
Context (HH : digest (en_hash en)) (Hlfs : Forall plain_name lfs).
Context (Hts : forall t, ts = Some t -> clock t) (Hclock : forall t, clock t -> time_ok en t).
Local Notation be := (Backend lfs umask ts).
Local Notation ok := (mild ts clock).
Local Notation good := (failing lfs ts clock wr).
Local Notation rep := (represents en lfs).
Local Notation WP := (wp pid ok F).
Local Notation WR := (wpr good pid F).
Local Notation room := (room fuel).
Local Notation hanswers := (hanswers en lfs umask ts clock wr m pid fuel F).

Definition allowed (r : request) : Prop := wr = true -> no_put r.

Lemma hd_first_packet r : well_formed m r -> allowed r ->
  exists b c, packets_of r = PData b :: tail (packets_of r) /\ b <> [] /\
    dispatch (command_words b) m = c /\ c <> CQuit /\ hanswers r c.
Proof using HH Hlfs Hts Hclock.
  assert (Hno : forall x : bytes, bool_decide (SP ∈ x) = false -> SP ∉ x) by (intros x; by apply bool_decide_eq_false).
  intros Hw Hal. destruct r as [|kvs items|o kvs ds|o kvs|o kvs|kvs|kvs|i kvs]; cbn [packets_of tail].
  - eexists _, _. split_and!; [done|done|done|by vm_compute|]. 
    apply hd_version.
  - eexists _, _. split_and!; [done|done|done|by vm_compute|]. by apply hd_batch_cmd.
  - assert (Hwr : wr = false) by (destruct (Bool.bool_dec wr true) as [E|E]; [by destruct (Hal E)|by destruct wr]).
    pose proof Hw as (-> & _ & Ho & _). eexists _, (CPut o). split_and!; [done|done| |done|by apply hd_put_cmd].
    change (bs "put-object ") with (bs "put-object" ++ [SP]).
    rewrite (words1 (bs "put-object") o) by first [by apply oid_no_sp | apply Hno; by vm_compute]. done.
  - pose proof Hw as (-> & _ & Ho). eexists _, (CVerify o). split_and!; [done|done| |done|by apply hd_verify_cmd].
    change (bs "verify-object ") with (bs "verify-object" ++ [SP]).
    rewrite (words1 (bs "verify-object") o) by (done || (apply Hno; by vm_compute)). done.
  - pose proof Hw as (-> & _ & Ho). eexists _, (CGet o). split_and!; [done|done| |done|by apply hd_get_cmd].
    change (bs "get-object ") with (bs "get-object" ++ [SP]).
    rewrite (words1 (bs "get-object") o) by (done || (apply Hno; by vm_compute)). done.
  - pose proof Hw as (-> & _). eexists _, CLock. split_and!; [done|done|by vm_compute|done|by apply hd_lock_cmd].
  - eexists _, CListLock. split_and!; [done|done|by destruct m; vm_compute|done|by apply hd_list_cmd].
  - pose proof Hw as (-> & _ & Hi & _). eexists _, (CUnlock i). split_and!; [done|done| |done|by apply hd_unlock_cmd].
    change (bs "unlock ") with (bs "unlock" ++ [SP]).
    rewrite (words1 (bs "unlock") i) by (done || (apply Hno; by vm_compute)). done.
Qed.

Lemma hd_read_packet (Q : res packet -> local -> fs -> Prop) l s : WP read_packet Q l s -> WR read_packet Q l s.
Proof using Type. apply wr_from. by apply rd_read_packet. Qed.

(** An answer to [r] broken off. *)
Definition broke (w : world) (r : request) (ps : list packet) : Prop :=
  exists o kvs d cs rest, r = RGet o kvs /\ w_objs w !! o = Some d /\ d = concat cs ++ rest /\ Forall small cs /\
    ps = PData (bs "status 200" ++ [NL]) :: pks [bs "size=" ++ dec (lenN d) ++ [NL]] ++ PDelim :: map PData cs.

Lemma hd_round r w rb tl l s (Q : next -> local -> fs -> Prop) :
  well_formed m r -> allowed r -> rep s w -> room w -> rb_ok rb -> (2 * length (l_in l) + 2 <= fuel)%nat ->
  l_in l = enc_all (packets_of r) ++ tl -> short (packets_of r) ->
  (forall a w' ps rb' s', answer_in en m (l_uid l) clock w r a w' -> reply_sent a ps -> rep s' w' -> room w' ->
     rb_ok rb' -> Q (Next rb') (add_out (enc_all ps) (set_in tl l)) s') ->
  (forall e ps s', broke w r ps -> rep s' w -> Q (Return (Er e)) (add_out (enc_all ps) (set_in tl l)) s') ->
  WR (process_one en be fuel m rb) Q l s.
Proof using HH Hlfs Hts Hclock.
  intros Hwf Hal Hr Hw Hrb Hf Hin Hs HQ HE. destruct (hd_first_packet r Hwf Hal) as (b & c & Ep & Hb & Hd & Hc & Ha).
  assert (Hin' : l_in l = enc (PData b) ++ (enc_all (tail (packets_of r)) ++ tl)).
  { rewrite Hin, Ep at 1. cbn [enc_all flat_map]. change (flat_map enc) with enc_all. by rewrite <- app_assoc. }
  unfold process_one. apply wpr_bind, hd_read_packet. eapply nf_read_enc; [apply ok_no_fault|exact Hin'| |].
  { rewrite Ep in Hs. by apply Forall_cons in Hs as [? _]. }
  cbn [pkt_data]. destruct b as [|b0 b']; [done|]. rewrite Hd. set (l1 := set_in _ l).
  assert (Hgo : WR (let! (r0, rb') := handle_command en be fuel c m rb in and_go_on rb' (answer fuel (status_of r0))) Q l1 s).
  { apply wpr_bind. eapply wpr_mono; [|apply (Ha w rb tl l1 s); [done|done|done| |apply (given_enc m); [done|by destruct (packets_of r); [|apply Forall_cons in Hs as [_ ?]]]]].
    - intros [x rb'] l' s' (a & w' & H1 & H2 & H3 & H4 & H5 & -> & H6 & H7 & H8). cbn [fst snd] in *.
      unfold and_go_on. apply wpr_bind. eapply hd_answer; [done|done| |].
      + intros ps s'' Hps E1 E2. apply wpr_ret. unfold l1. rewrite set_in_set_in.
        eapply HQ; [exact H1|done| |done|done].
        eapply rep_same; [exact H2|done|by apply ino_le_eq].
      + intros e ps s'' (d & cs & rest & Eb & Ed & Hsm & ->) E1 E2. apply wpr_ret. unfold l1. rewrite set_in_set_in.
        destruct (H8 d Eb) as (o & kvs & -> & Hd' & Hcode & Hargs).
        pose proof (get_same _ _ _ _ _ _ _ _ _ H1) as ->.
        apply HE; [|eapply rep_same; [exact H2|done|by apply ino_le_eq]].
        exists o, kvs, d, cs, rest. rewrite Hcode, Hargs. split_and!; done.
    - unfold l1. cbn [l_in set_in]. rewrite Hin' in Hf. rewrite app_length in Hf. lia. }
  destruct c; done || exact Hgo.
Qed.

Lemma hd_session reqs n w rb rest extra l s :
  Forall (well_formed m) reqs -> Forall allowed reqs -> rep s w -> room w -> rb_ok rb ->
  (2 * length (l_in l) + 2 <= fuel)%nat -> (length reqs < n)%nat ->
  l_in l = enc_all (concat (map packets_of reqs)) ++ rest -> short (concat (map packets_of reqs)) -> ending rest extra ->
  WR (process_commands en be fuel n m rb)
    (fun r l' s' => match r with
     | Ok _ => exists as_ w' ps, session_in en m (l_uid l) clock w reqs as_ w' /\
       replies_sent (as_ ++ extra) ps /\ rep s' w' /\ exists tl, l' = add_out (enc_all ps) (set_in tl l)
     | Er _ => exists k q as_ w' ps ps', reqs !! k = Some q /\ session_in en m (l_uid l) clock w (take k reqs) as_ w' /\
       replies_sent as_ ps /\ rep s' w' /\ broke w' q ps' /\ exists tl, l' = add_out (enc_all (ps ++ ps')) (set_in tl l)
     end) l s.
Proof using HH Hlfs Hts Hclock.
  revert n w rb l s. induction reqs as [|r reqs IH]; intros n w rb l s Hwf Hal Hr Hw Hrb Hf Hn Hin Hs Hend;
    (destruct n as [|n]; [simpl in Hn; lia|]); cbn [process_commands]; apply wpr_bind.
  - simpl in Hin. destruct Hend as [|w0 junk Hq].
    + unfold process_one. apply wpr_bind, hd_read_packet, nf_read_packet; [apply ok_no_fault|]. rewrite Hin.
      change (decode 65535 []) with (Er (A := packet) (err_of_io EEOF), @nil byte).
      cbn [fst snd]. apply wpr_ret. cbn. rewrite decide_True by done. apply wpr_ret. exists [], w, []. split_and!; [constructor|constructor|done|].
      exists []. by rewrite add_out_nil.
    + apply wire_inv in Hq as [-> Hq]. unfold process_one. apply wpr_bind, hd_read_packet.
      eapply nf_read_enc; [apply ok_no_fault|exact Hin|done|].
      assert (dispatch (command_words (bs "quit" ++ [NL])) m = CQuit) as E by (by destruct m).
      change (pkt_data (PData (bs "quit" ++ [NL]))) with (Some (bs "quit" ++ [NL])). 
      destruct (bs "quit" ++ [NL]) as [|b0 b] eqn:Eb; [done|]. rewrite E.
      apply wpr_bind. eapply (hd_answer _ _ _ _ _ _ _ st_success (Reply 200 [] BNone)); [|done| |].
      { by apply (sends_none s 200 None), is_code. }
      * intros ps s' Hps E1 E2. apply wpr_ret, wpr_ret. exists [], w, (ps ++ []). split_and!.
        -- constructor.
        -- by repeat constructor.
        -- eapply rep_same; [exact Hr|done|by apply ino_le_eq].
        -- exists junk. by rewrite app_nil_r.
      * intros e ps s' (d & ? & ? & ? & _). done.
  - apply Forall_cons in Hwf as [Hwf1 Hwf]. apply Forall_cons in Hal as [Hal1 Hal]. cbn [map concat] in Hin, Hs.
    rewrite enc_all_app, <- app_assoc in Hin. apply Forall_app in Hs as [Hs1 Hs].
    eapply hd_round; [done|done|exact Hr|exact Hw|done|done|exact Hin|done| |].
    + intros a w' ps rb' s' Ha Hps Hr' Hw' Hrb'. eapply wpr_mono; [|eapply (IH n w' rb'); try done].
      * intros [u|e] l' s''.
        -- intros (ans & w'' & qs & H1 & H2 & H3 & tl & ->).
           exists (a :: ans), w'', (ps ++ qs). split_and!; [|by constructor|done|].
           ++ econstructor; [done|]. exact H1.
           ++ exists tl. rewrite enc_all_app. rewrite <- add_out_app. done.
        -- intros (k & q & ans & w'' & qs & qs' & Hk & H1 & H2 & H3 & H4 & tl & ->).
           exists (S k), q, (a :: ans), w'', (ps ++ qs), qs'. split_and!; [done| |by constructor|done|done|].
           ++ econstructor; [done|]. exact H1.
           ++ exists tl. rewrite <- app_assoc, (enc_all_app ps). rewrite <- add_out_app. done.
      * cbn [l_in add_out set_in]. rewrite Hin, app_length in Hf. lia.
      * simpl in Hn. lia.
    + intros e ps s' Hb Hr'. apply wpr_ret. exists 0%nat, r, [], w, [], ps. split_and!; try done; [constructor|constructor|].
      by eexists.
Qed.

Lemma hd_create ds w (Q : res unit -> local -> fs -> Prop) l s : (forall d, d ∈ ds -> d ∈ dir_names) -> holds en lfs s w ->
  (forall s', holds en lfs s' w -> (forall d, d ∈ ds -> is_dir s' (lfs ++ [d])) ->
     (forall p, is_dir s p -> is_dir s' p) -> Q (Ok tt) l s') ->
  (forall e s', holds en lfs s' w -> Q (Er e) l s') ->
  WR (create_directories_in lfs ds) Q l s.
Proof using Type.
  revert s Q. induction ds as [|d ds IH]; intros s Q Hds Hs HQ HE; cbn [create_directories_in].
  { apply wpr_ret, HQ; [done| |done]. by intros d ?%elem_of_nil. }
  apply wpr_bindR, wpr_io_call, wpr_call. intros o. cbn [handle_ev]. unfold faulty.
  destruct (o_fault o) as [x|]; [intros _; by apply HE|].
  destruct (holds_mkdir en lfs s w d) as (s1 & E & H1 & H2 & H3); [apply Hds; by left|done|].
  unfold with_l, fs_mkdir_all. rewrite E. cbn [fst snd res_of_io]. intros _. apply IH; [intros d' ?; apply Hds; by right|done| |done].
  intros s' G1 G2 G3. apply HQ; [done| |].
  - intros d' [->|?]%elem_of_cons; [by apply G3|by apply G2].
  - intros p Hp. by apply G3, H3.
Qed.

Lemma hd_run reqs w rest extra l s :
  Forall (well_formed m) reqs -> Forall allowed reqs -> holds en lfs s w -> room w ->
  (2 * length (l_in l) + 2 <= fuel)%nat ->
  l_in l = enc_all (concat (map packets_of reqs)) ++ rest -> short (concat (map packets_of reqs)) -> ending rest extra ->
  WR (transfer_run en fuel lfs umask ts (operation m))
    (fun r l' s' => match r with
     | Ok _ => exists as_ w' ps, session_in en m (l_uid l) clock w reqs as_ w' /\
       replies_sent (as_ ++ extra) ps /\ rep s' w' /\ exists tl, l' = add_out (enc_all (capabilities ++ ps)) (set_in tl l)
     | Er _ => not_begun en lfs l w l' s' \/
       exists k q as_ w' ps ps', reqs !! k = Some q /\ session_in en m (l_uid l) clock w (take k reqs) as_ w' /\
       replies_sent as_ ps /\ rep s' w' /\ broke w' q ps' /\ exists tl, l' = add_out (enc_all (capabilities ++ ps ++ ps')) (set_in tl l)
     end) l s.
Proof using HH Hlfs Hts Hclock.
  intros Hwf Hal Hr Hw Hf Hin Hs Hend. unfold transfer_run. apply wpr_bindR. unfold create_directories.
  apply (hd_create dir_names w); [done|done| |by left]. intros s1 H1 H2 _.
  apply wpr_bindR. unfold send_capabilities. apply wpr_bindR, hd_send, hd_flush.
  rewrite mode_operation. rewrite add_out_app. rewrite pk_short.
  2: { unfold small. by vm_compute. }
  replace (enc_all [PData (bs "version=1" ++ [NL])] ++ enc PFlush) with (enc_all capabilities) by done.
  assert (Hreqs : (length reqs <= length (enc_all (concat (map packets_of reqs))))%nat).
  { clear. induction reqs as [|r reqs IH]; [simpl; lia|]. cbn [map concat]. rewrite enc_all_app, app_length.
    pose proof (req_len r). simpl. lia. }
  eapply wpr_mono; [|eapply (hd_session reqs fuel w rb_empty rest extra); try done].
  - intros [u|e] l' s'.
    + intros (ans & w' & ps & G1 & G2 & G3 & tl & ->). exists ans, w', ps.
      split_and!; try done. exists tl. rewrite enc_all_app, <- add_out_app. done.
    + intros (k & q & ans & w' & ps & ps' & G0 & G1 & G2 & G3 & G4 & tl & ->). right. exists k, q, ans, w', ps, ps'.
      split_and!; try done. exists tl. rewrite (enc_all_app capabilities), <- add_out_app. done.
  - by apply represents_of.
  - rewrite Hin, app_length in Hf. lia.
Qed.
End session.

(** ** C79 *)
Lemma c79 en lfs umask ts (clock : Z -> Prop) wr m pid os l s w reqs extra fuel :
  place en lfs ts clock -> holds en lfs s w -> asks m l reqs extra -> enough fuel l w ->
  (wr = true -> Forall no_put reqs) ->
  run_such (failing lfs ts clock wr) pid (transfer_run en fuel lfs umask ts (operation m)) os l s ->
  match run pid (transfer_run en fuel lfs umask ts (operation m)) os l s with
  | (Done (Ok _), l', s') => served_in en lfs clock m l w reqs extra l' s'
  | (Done (Er _), l', s') => not_begun en lfs l w l' s' \/ cut_off en lfs clock m l w reqs l' s'
  | (Failed _, _, _) => False
  end.
Proof.
  intros [HH Hlfs Hts Hclock] Hr (Hwf & inp & rest & Hw & Hend & Hin) [Hf Hroom] Hput Hos. apply wires_inv in Hw as [-> Hs].
  assert (Hal : Forall (allowed wr) reqs).
  { unfold allowed. destruct wr; [eapply Forall_impl; [by apply Hput|done]|]. apply Forall_forall. by intros ? _ ?. }
  pose proof (hd_run en lfs umask ts clock wr m pid fuel no_fail HH Hlfs Hts Hclock reqs w rest extra l s Hwf Hal Hr Hroom Hf Hin Hs Hend) as G.
  apply wpr_run with (os := os) in G; [|done].
  destruct (run pid (transfer_run en fuel lfs umask ts (operation m)) os l s) as [[[[u|e]|f] l'] s']; [| |done].
  - destruct G as (ans & w' & ps & H1 & H2 & H3 & tl & ->). exists ans, w', ps, (enc_all (capabilities ++ ps)). split_and!; try done.
    change (PData (bs "version=1" ++ [NL]) :: PFlush :: ps) with (capabilities ++ ps).
    apply wires_enc. apply Forall_app. split; [|by eapply replies_small]. by repeat constructor.
  - destruct G as [G|(k & q & ans & w' & ps & ps' & H0 & H1 & H2 & H3 & (o & kvs & d & cs & rest' & -> & H4 & H5 & H6 & ->) & tl & ->)]; [by left|right].
    eexists k, o, kvs, d, ans, w', ps, _, cs, rest', _. split_and!; [done|done|done|done|done|done|apply lines_sent_pks| |done].
    match goal with |- wires ?x _ => change x with (capabilities ++ ps ++ PData (bs "status 200" ++ [NL]) :: pks [bs "size=" ++ dec (lenN d) ++ [NL]] ++ PDelim :: map PData cs) end.
    apply wires_enc. apply Forall_app. split; [by repeat constructor|]. apply Forall_app. split; [by eapply replies_small|].
    constructor; [done|]. apply Forall_app. split; [eapply lines_small, lines_sent_pks|]. constructor; [done|].
    apply Forall_map. eapply Forall_impl; [exact H6|]. unfold small. simpl. intros c. lia.
Qed.
