(** One request to a server next to others. *)
From Verif Require Import Bytes ByteFacts Err FS Prog Pktline Args Local Processor Transfer Wp Rg Rgt PktFacts ReaderFacts
  Spec SpecStore SpecServer SpecTogether FsFacts ServerEv PktProofs TextProofs IoFacts ObjProofs StoreProofs GetProofs
  SeqIo SeqFs SeqCmd Session Shape RgtSound.
From stdpp Require Import relations.

Local Arguments parse_header : simpl never.
Local Opaque COPY_BUF pk MAX_PACKET_LEN.

(** ** The objects stored *)
Lemma stored_nodes (lfs : path) (m : gmap path node) (ino : list inode) : exists M : gmap bytes bytes, forall o d,
  M !! o = Some d <-> is_oid o /\ exists j x, m !! object_path lfs o = Some (NFile j) /\ ino !! j = Some x /\ i_data x = d.
Proof.
  induction m as [|p n m Hp [M HM]] using map_ind.
  { exists ∅. intros o d. rewrite lookup_empty. split; [done|]. intros (_ & j & x & Hj & _). by rewrite lookup_empty in Hj. }
  assert (Hno : forall o, p = object_path lfs o -> M !! o = None).
  { intros o ->. destruct (M !! o) eqn:E; [|done]. apply HM in E as (_ & j & x & Hj & _). congruence. }
  assert ((exists o, is_oid o /\ p = object_path lfs o /\ is_Some (match n with NFile j => ino !! j | NDir => None end)) \/
    ~ (exists o, is_oid o /\ p = object_path lfs o /\ is_Some (match n with NFile j => ino !! j | NDir => None end))) as [Hy|Hn].
  { destruct (last p) as [o|] eqn:El.
    2: { right. intros (o & _ & -> & _). unfold object_path in El. by rewrite last_app in El. }
    destruct (decide (p = object_path lfs o)) as [->|Hne].
    2: { right. intros (o' & _ & -> & _). unfold object_path in El at 1. rewrite last_app in El. by injection El as ->. }
    destruct (oid_new o) as [o'|e] eqn:Eo.
    2: { right. intros (o' & Ho' & E & _). rewrite !object_path_eq in E. apply expected_path_inj in E as ->.
         by apply (oid_new_no _ _ Eo). }
    apply oid_new_iff in Eo as [-> Ho].
    destruct (match n with NFile j => ino !! j | NDir => None end) eqn:En.
    - left. by exists o.
    - right. intros (_ & _ & _ & [x Hx]). done. }
  2: { exists M. intros o d. rewrite HM. split; intros (Ho & j & x & Hj & Hx & Hd); (split; [done|]); exists j, x; (split; [|done]).
       - rewrite lookup_insert_ne; [done|]. intros ->. congruence.
       - apply lookup_insert_Some in Hj as [[E ->]|[_ Hj]]; [|done]. destruct Hn. exists o. rewrite Hx. by split_and!. }
  destruct Hy as (o & Ho & -> & [x Hx]). destruct n as [|j]; [done|].
  exists (<[o := i_data x]> M). intros o' d. destruct (decide (o = o')) as [<-|Hne].
  - rewrite lookup_insert, lookup_insert. split.
    + intros [= <-]. split; [done|]. by exists j, x.
    + intros (_ & j' & x' & [= <-] & Hx' & <-). congruence.
  - rewrite lookup_insert_ne by done. rewrite lookup_insert_ne; [apply HM|].
    rewrite !object_path_eq. intros E. by apply expected_path_inj in E.
Qed.
Lemma stored_some lfs s : exists M, stored lfs s M.
Proof.
  destruct (stored_nodes lfs (nodes s) (inodes s)) as [M HM]. exists M. intros o d. rewrite HM. done.
Qed.

(** ** Sending an answer *)
Section send.
Context (pid fuel : nat) (ok : orc -> Prop) (F : failure -> local -> fs -> Prop).
Context (Hok : forall o, ok o -> no_fault o).
Notation WP := (wp pid ok F).

(** Copying a file that may be too long for the bound of the model. *)
Lemma nf_copy_some f j x d off (Q : res unit -> local -> fs -> Prop) l s :
  inodes s !! j = Some x -> i_data x = d ->
  (forall cs, concat cs = drop off d -> Forall small cs -> Q (Ok tt) (add_out (enc_all (map PData cs)) l) s) ->
  (forall cs rest, concat cs ++ rest = drop off d -> Forall small cs -> (f <= length (drop off d))%nat ->
     F OutOfFuel (add_out (enc_all (map PData cs)) l) s) ->
  WP (copy_out f (HFile j) off) Q l s.
Proof using Hok.
  intros Hx Hd. revert off l Q. induction f as [|f IH]; intros off l Q HQ HF; cbn [copy_out].
  { specialize (HF [] (drop off d) eq_refl). simpl in HF. rewrite add_out_nil in HF. apply HF; [constructor|lia]. }
  apply wp_bindR, wp_io_call, wp_call. intros o Ho. apply Hok in Ho. unfold no_fault in Ho.
  cbn [handle_ev]. unfold faulty. rewrite Ho. cbn [res_of_io fs_read_at]. unfold fs_data, inode_at. rewrite Hx, Hd.
  set (c := take (N.to_nat COPY_BUF) (drop off d)). destruct copy_buf_pos as [k Ek].
  assert (Hc : c = [] -> drop off d = []).
  { unfold c. rewrite Ek. by destruct (drop off d). }
  destruct c as [|y c'] eqn:Ec.
  - apply wp_ret. specialize (HQ []). simpl in HQ. rewrite add_out_nil in HQ. apply HQ; [|constructor].
    by rewrite Hc.
  - rewrite <- Ec. apply wp_bindR, (nf_send pid ok F Hok).
    assert (Ecat : c ++ drop (off + length c) d = drop off d).
    { rewrite <- drop_drop.
      assert (Ek' : drop (length c) (drop off d) = drop (N.to_nat COPY_BUF) (drop off d)).
      { unfold c. rewrite take_length.
        destruct (decide (N.to_nat COPY_BUF <= length (drop off d))%nat); [by rewrite Nat.min_l by lia|].
        rewrite !drop_ge; [done|lia|lia]. }
      rewrite Ek'. unfold c. apply take_drop. }
    destruct (pk_chunks c) as (cs0 & E0 & E1 & E2). apply IH.
    + intros cs H1 H2. rewrite add_out_app, E0, <- enc_all_app, <- map_app. apply HQ; [|by apply Forall_app].
      by rewrite concat_app, E1, H1.
    + intros cs rest H1 H2 H3. rewrite add_out_app, E0, <- enc_all_app, <- map_app. apply (HF _ rest); [|by apply Forall_app|].
      * by rewrite concat_app, E1, <- app_assoc, H1.
      * assert (0 < length c)%nat by (rewrite Ec; simpl; lia). rewrite <- Ecat, app_length. lia.
Qed.

Lemma nf_send_status st r (Q : res unit -> local -> fs -> Prop) l s : sends s st r ->
  (forall ps, reply_sent r ps -> Q (Ok tt) (add_out (enc_all ps) l) s) ->
  (forall l' ps w d, reply_sent r ps -> l_out l' ++ w = l_out l ++ enc_all ps -> rp_body r = BData d -> (fuel <= length d)%nat ->
     F OutOfFuel l' s) ->
  WP (send_status fuel st) Q l s.
Proof using Hok.
  intros (Hc & Ec & Ea & Hb) HQ HF. unfold send_status.
  destruct (code_denotes _ Hc) as [Hden Hlen].
  assert (Hsm : small (status_line (st_code st))).
  { apply status_line_small. clear -Hc. unfold codes in Hc.
    repeat (apply elem_of_cons in Hc as [->|Hc]; [done|]). by apply elem_of_nil in Hc. }
  assert (HR : forall qb, body_sent (rp_body r) qb ->
    reply_sent r (PData (status_line (st_code st)) :: pks (default [] (st_args st)) ++ qb ++ [PFlush])).
  { intros qb Hqb. exists (pad0 3 (dec (st_code st))), (pks (default [] (st_args st))), qb.
    rewrite Ec, Ea. split_and!; try done. apply lines_sent_pks. }
  assert (HQ' : forall qb, body_sent (rp_body r) qb ->
    Q (Ok tt) (add_out (enc PFlush) (add_out (enc_all qb) (add_out (enc_all (pks (default [] (st_args st))))
       (add_out (enc_all (pk (status_line (st_code st)))) l)))) s).
  { intros qb Hqb. rewrite pk_short by done. rewrite !add_out_app.
    match goal with |- Q _ (add_out ?w l) _ =>
      replace w with (enc_all (PData (status_line (st_code st)) :: pks (default [] (st_args st)) ++ qb ++ [PFlush])) end.
    - by apply HQ, HR.
    - cbn [enc_all flat_map]. change (flat_map enc) with enc_all. rewrite !enc_all_app. cbn [enc_all flat_map].
      by rewrite !app_nil_r, !app_assoc. }
  apply wp_bindR, (nf_send pid ok F Hok). apply wp_bindR, (nf_send_all pid ok F Hok).
  destruct (rp_body r) as [|ls|d|] eqn:Eb.
  - destruct Hb as [-> ->]. apply wp_bindR, wp_ret. apply (nf_flush pid ok F Hok).
    specialize (HQ' [] eq_refl). simpl in HQ'. by rewrite (add_out_nil (add_out _ _)) in HQ'.
  - rewrite Hb. apply wp_bindR, wp_bindR, (nf_delim pid ok F Hok). apply (nf_send_all pid ok F Hok). apply (nf_flush pid ok F Hok).
    specialize (HQ' (PDelim :: pks ls)). cbn [enc_all flat_map] in HQ'.
    rewrite (add_out_app (enc PDelim)). apply HQ'. exists (pks ls). split; [done|apply lines_sent_pks].
  - destruct Hb as (-> & j & x & -> & Hx & Hd). apply wp_bindR, wp_bindR, (nf_delim pid ok F Hok).
    eapply nf_copy_some; [exact Hx|exact Hd|..].
    + intros cs H1 H2. apply (nf_flush pid ok F Hok).
      specialize (HQ' (PDelim :: map PData cs)). cbn [enc_all flat_map] in HQ'.
      rewrite (add_out_app (enc PDelim)). apply HQ'. by exists cs.
    + intros cs rest H1 H2 H3. destruct (pk_chunks rest) as (cr & R0 & R1 & R2).
      eapply (HF _ _ (enc_all (map PData cr) ++ enc PFlush)); [| |reflexivity|by rewrite drop_0 in H3].
      * apply (HR (PDelim :: map PData (cs ++ cr))). exists (cs ++ cr). split; [done|].
        rewrite concat_app, R1, H1. split; [done|]. by apply Forall_app.
      * rewrite pk_short by done. cbn [l_out add_out].
        assert (Ecc : forall p q, enc_all (p :: q) = enc p ++ enc_all q) by done.
        assert (E1 : enc_all [PFlush] = enc PFlush) by (cbn [enc_all flat_map]; by rewrite app_nil_r).
        rewrite !Ecc, enc_all_app, map_app. cbn [app]. rewrite Ecc, !enc_all_app, E1. cbn [enc_all flat_map].
        by rewrite !app_nil_r, <- !app_assoc.
  - rewrite Hb. apply wp_bindR, wp_bindR, (nf_delim pid ok F Hok). apply (nf_send_all pid ok F Hok). apply (nf_flush pid ok F Hok).
    specialize (HQ' (PDelim :: pk t)). cbn [enc_all flat_map] in HQ'.
    rewrite (add_out_app (enc PDelim)). cbn [pks flat_map]. rewrite app_nil_r. apply HQ'.
    exists (pk t). split; [done|apply line_sent_pk].
Qed.
End send.
