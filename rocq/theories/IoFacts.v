(** Reading and writing when system calls may fail. *)
From Verif Require Import Bytes ByteFacts Err FS Prog Pktline Args Local Processor Wp PktFacts ReaderFacts
  Spec PktProofs.

Local Arguments parse_header : simpl never.

Lemma add_out_nil l : add_out [] l = l.
Proof. unfold add_out. rewrite app_nil_r. by destruct l. Qed.
Lemma add_out_app a b l : add_out b (add_out a l) = add_out (a ++ b) l.
Proof. unfold add_out. simpl. by rewrite app_assoc. Qed.
Lemma set_in_id l : set_in (l_in l) l = l.
Proof. by destruct l. Qed.

(** The packets a message is sent as. *)
Definition pk (m : bytes) : list packet := map PData (chunks (N.to_nat MAX_PACKET_LEN) m).
Definition pks (ms : list bytes) : list packet := flat_map pk ms.

Lemma pk_chunks m : exists cs, pk m = map PData cs /\ concat cs = m /\ Forall small cs.
Proof. eexists. split; [done|]. apply chunks_small. Qed.

Lemma enc_all_app a b : enc_all (a ++ b) = enc_all a ++ enc_all b.
Proof. apply flat_map_app. Qed.

Section wp.
Context (pid : nat) (ok : orc -> Prop) (F : failure -> local -> fs -> Prop).
Notation WP := (wp pid ok F).

Lemma any_out b (Q : iores unit -> local -> fs -> Prop) l s :
  Q (IOk tt) (add_out b l) s -> (forall e w, Q (IErr e) (add_out w l) s) -> WP (call (EOut b)) Q l s.
Proof. intros H1 H2. apply wp_call. intros o _. simpl. by destruct (o_fault o). Qed.

Lemma any_flush_call (Q : iores unit -> local -> fs -> Prop) l s :
  Q (IOk tt) l s -> (forall e, Q (IErr e) l s) -> WP (call EFlush) Q l s.
Proof. intros H1 H2. apply wp_call. intros o _. simpl. unfold faulty. by destruct (o_fault o). Qed.

Lemma any_write_one d (Q : res N -> local -> fs -> Prop) l s :
  Q (Ok (lenN d)) (add_out (enc (PData d)) l) s -> (forall e w, Q (Er e) (add_out w l) s) ->
  WP (write_one d) Q l s.
Proof.
  intros H1 H2. apply wp_bindR, wp_io_call, any_out; simpl; [|intros; apply H2].
  apply wp_bindR, wp_io_call, any_out; simpl; [|intros; rewrite add_out_app; apply H2].
  apply wp_ret. by rewrite add_out_app.
Qed.

Lemma any_write_packet p (Q : res N -> local -> fs -> Prop) l s :
  (forall n, Q (Ok n) (add_out (enc p) l) s) -> (forall e w, Q (Er e) (add_out w l) s) ->
  WP (write_packet p) Q l s.
Proof.
  intros H1 H2. destruct p as [| |d]; simpl.
  - apply wp_bindR, wp_io_call, any_out; simpl; [|intros; apply H2].
    apply wp_bindR, wp_io_call, any_flush_call; simpl; [|intros; apply H2]. apply wp_ret, H1.
  - apply wp_bindR, wp_io_call, any_out; simpl; [|intros; apply H2]. apply wp_ret, H1.
  - by apply any_write_one.
Qed.

Lemma any_write_chunks cs t (Q : iores N -> local -> fs -> Prop) l s :
  Q (IOk (t + lenN (concat cs))%N) (add_out (enc_all (map PData cs)) l) s ->
  (forall e w, Q (IErr e) (add_out w l) s) ->
  WP (write_chunks cs t) Q l s.
Proof.
  revert t l. induction cs as [|c cs IH]; intros t l H1 H2; simpl.
  - apply wp_ret. simpl in H1. rewrite add_out_nil in H1.
    change (lenN []) with 0%N in H1. by rewrite N.add_0_r in H1.
  - apply wp_bind, any_write_one.
    + apply IH; [|intros e w; rewrite add_out_app; apply H2].
      cbn [concat map enc_all flat_map] in H1. rewrite lenN_app, N.add_assoc in H1.
      by rewrite add_out_app.
    + intros. apply wp_ret, H2.
Qed.

Lemma any_send m (Q : res unit -> local -> fs -> Prop) l s :
  Q (Ok tt) (add_out (enc_all (pk m)) l) s -> (forall e w, Q (Er e) (add_out w l) s) ->
  WP (send m) Q l s.
Proof.
  intros H1 H2. unfold send. apply wp_io_call. destruct m as [|x m].
  - simpl. apply wp_ret. simpl in *. by rewrite add_out_nil in H1.
  - apply wp_bind, any_write_chunks.
    + rewrite (proj1 (chunks_small (x :: m))), N.add_0_l, N.eqb_refl. by apply wp_ret.
    + intros. apply wp_ret. simpl. apply H2.
Qed.

Lemma any_send_all ms (Q : res unit -> local -> fs -> Prop) l s :
  Q (Ok tt) (add_out (enc_all (pks ms)) l) s -> (forall e w, Q (Er e) (add_out w l) s) ->
  WP (send_all ms) Q l s.
Proof.
  revert l. induction ms as [|m ms IH]; intros l H1 H2; simpl.
  - apply wp_ret. simpl in *. by rewrite add_out_nil in H1.
  - apply wp_bindR, any_send; [|done]. apply IH.
    + simpl in H1. rewrite enc_all_app in H1. by rewrite add_out_app.
    + intros. rewrite add_out_app. apply H2.
Qed.

Lemma any_flush (Q : res unit -> local -> fs -> Prop) l s :
  Q (Ok tt) (add_out (enc PFlush) l) s -> (forall e w, Q (Er e) (add_out w l) s) -> WP flush Q l s.
Proof. intros H1 H2. apply wp_bindR, any_write_packet; [|done]. intros _. by apply wp_ret. Qed.
Lemma any_delim (Q : res unit -> local -> fs -> Prop) l s :
  Q (Ok tt) (add_out (enc PDelim) l) s -> (forall e w, Q (Er e) (add_out w l) s) -> WP delim Q l s.
Proof. intros H1 H2. apply wp_bindR, any_write_packet; [|done]. intros _. by apply wp_ret. Qed.

(** ** Reading *)

Lemma any_read n (Q : iores bytes -> local -> fs -> Prop) l s :
  (if (n <=? lenN (l_in l))%N
   then Q (IOk (take (N.to_nat n) (l_in l))) (set_in (drop (N.to_nat n) (l_in l)) l) s
   else Q (IErr EEOF) (set_in [] l) s) ->
  (forall e, Q (IErr e) l s) -> WP (call (ERead n)) Q l s.
Proof.
  intros H1 H2. apply wp_call. intros o _. simpl. unfold faulty, do_read.
  destruct (o_fault o); [done|]. by destruct (n <=? lenN (l_in l))%N.
Qed.

Lemma any_read_gen (lim : N) (p : prog (res packet)) (Q : res packet -> local -> fs -> Prop) l s :
  (p = read_packet /\ lim = 65535%N \/ p = read_one /\ lim = 65520%N) ->
  Q (decode lim (l_in l)).1 (set_in (decode lim (l_in l)).2 l) s ->
  (forall e i, (length i <= length (l_in l))%nat -> Q (Er e) (set_in i l) s) ->
  WP p Q l s.
Proof.
  intros Hp HQ HE. unfold decode in HQ.
  assert (HE' : forall e, Q (Er e) l s). { intros e. rewrite <- (set_in_id l). by apply HE. }
  assert (Hh : forall lim', lim' = lim ->
    WP read_header (fun r l' s' => match r with
    | Er e => Q (Er e) l' s'
    | Ok size => exists a b c d, take 4 (l_in l) = [a; b; c; d] /\ (4 <=? lenN (l_in l))%N = true /\
        Ok size = parse_header (a, b, c, d) /\ l' = set_in (drop 4 (l_in l)) l /\ s' = s end) l s).
  { intros lim' _. apply wp_bindR, wp_io_call, any_read; simpl; [|done].
    destruct (4 <=? lenN (l_in l))%N eqn:E4; simpl.
    - apply N.leb_le in E4. assert (H4 : (4 <= length (l_in l))%nat) by (unfold lenN in E4; lia).
      change (Pos.to_nat 4) with 4%nat.
      destruct (take_4 (l_in l) H4) as (a & b & c & d & Et). rewrite Et in HQ |- *.
      apply wp_ret. destruct (parse_header (a, b, c, d)) as [size|e] eqn:Ep.
      + cbn. by exists a, b, c, d.
      + done.
    - done. }
  assert (Hread : forall size, (4 <=? lenN (l_in l))%N = true ->
    (if (size - 4 <=? lenN (drop 4 (l_in l)))%N
     then Q (Ok (PData (take (N.to_nat (size - 4)) (drop 4 (l_in l)))))
            (set_in (drop (N.to_nat (size - 4)) (drop 4 (l_in l))) l) s
     else Q (Er (err_of_io EEOF)) (set_in [] l) s) ->
    WP (let? d := io_call (call (ERead (size - 4))) in Ret (Ok (PData d))) Q (set_in (drop 4 (l_in l)) l) s).
  { intros size _ H1. apply wp_bindR, wp_io_call, any_read.
    - simpl. by destruct (size - 4 <=? lenN (drop 4 (l_in l)))%N.
    - intros e. simpl. apply HE. rewrite drop_length. lia. }
  destruct Hp as [[-> ->]|[-> ->]]; apply wp_bindR; (eapply wp_mono; [|exact (Hh _ eq_refl)]);
    intros [size|e] l' s'; try done;
    intros (a & b & c & d & Et & E4 & Ep & -> & ->); rewrite E4, Et, <- Ep in HQ; cbn [fst snd] in HQ.
  - destruct (size =? 0)%N; [by apply wp_ret|]. destruct (size =? 1)%N; [by apply wp_ret|].
    destruct (_ || _); [by apply wp_ret|].
    symmetry in Ep. apply parse_header_lt in Ep.
    destruct (65535 <? size)%N eqn:El; [apply N.ltb_lt in El; lia|].
    apply Hread; [done|]. by destruct (size - 4 <=? lenN (drop 4 (l_in l)))%N.
  - destruct (size =? 0)%N; [by apply wp_ret|]. destruct (size =? 1)%N; [by apply wp_ret|].
    destruct (_ || _); [by apply wp_ret|]. change (MAX_PACKET_LEN + 4)%N with 65520%N.
    destruct (65520 <? size)%N eqn:El; [by apply wp_ret|].
    apply Hread; [done|]. by destruct (size - 4 <=? lenN (drop 4 (l_in l)))%N.
Qed.

Lemma any_read_packet (Q : res packet -> local -> fs -> Prop) l s :
  Q (decode 65535 (l_in l)).1 (set_in (decode 65535 (l_in l)).2 l) s ->
  (forall e i, (length i <= length (l_in l))%nat -> Q (Er e) (set_in i l) s) ->
  WP read_packet Q l s.
Proof. apply any_read_gen. by left. Qed.

Lemma any_read_one (Q : res packet -> local -> fs -> Prop) l s :
  Q (decode 65520 (l_in l)).1 (set_in (decode 65520 (l_in l)).2 l) s ->
  (forall e i, (length i <= length (l_in l))%nat -> Q (Er e) (set_in i l) s) ->
  WP read_one Q l s.
Proof. apply any_read_gen. by right. Qed.

(** Collecting lines shortens the input, or leaves it alone after a failure. *)
Lemma any_read_to_type f stop (Q : res (list bytes) -> local -> fs -> Prop) l s :
  (length (l_in l) < f)%nat ->
  (forall r i, (length i <= length (l_in l))%nat -> Q r (set_in i l) s) ->
  WP (read_to_type f stop) Q l s.
Proof.
  revert l Q. induction f as [|f IH]; intros l Q Hf HQ; [lia|]. cbn [read_to_type].
  apply wp_bind, any_read_packet.
  2: { intros e i Hi. destruct (decide _); apply wp_ret, HQ; done. }
  destruct (decode 65535 (l_in l)) as [[p|e] i] eqn:E; cbn [fst snd].
  - apply decode_shrink in E. case_decide; [apply wp_ret, HQ; lia|].
    apply wp_bindR. apply IH; [simpl; lia|]. intros r i' Hi'. simpl in Hi'.
    rewrite set_in_set_in. destruct r; [apply wp_ret|]; apply HQ; lia.
  - apply decode_shrink' in E. destruct (decide _); apply wp_ret, HQ; lia.
Qed.
End wp.

(** Short messages are one packet. *)
Lemma pk_short m : small m -> pk m = [PData m].
Proof.
  unfold small, pk, chunks, lenN. intros H. assert (E : (length m <= N.to_nat MAX_PACKET_LEN)%nat)
    by (unfold MAX_PACKET_LEN; lia). revert E. generalize (N.to_nat MAX_PACKET_LEN) as k. intros k E.
  destruct m as [|x m]; [simpl in H; lia|].
  change (length (x :: m)) with (S (length m)). cbn [chunks_aux].
  rewrite firstn_all2, skipn_all2 by done. by destruct (length m).
Qed.
Lemma pk_nil : pk [] = [].
Proof. done. Qed.

Lemma dec_aux_length f n acc : (length (dec_aux f n acc) <= f + length acc)%nat.
Proof.
  revert n acc. induction f as [|f IH]; intros n acc; simpl; [lia|].
  destruct (n / 10 =? 0)%N; simpl; [lia|]. etrans; [apply IH|]. simpl. lia.
Qed.
Lemma dec_length n k : (n < 2 ^ k)%N -> (length (dec n) <= S (N.to_nat k))%nat.
Proof.
  intros H. unfold dec. etrans; [apply dec_aux_length|]. simpl.
  assert (N.size n <= k)%N; [|rewrite <- size_nat_spec in H0; lia].
  destruct (decide (n = 0)%N) as [->|Hn]; [simpl; lia|].
  rewrite N.size_log2 by done. apply N.log2_lt_pow2 in H; [|lia]. lia.
Qed.

Lemma dval_zeros k l : dval (replicate k Byte.x30 ++ l) 0 = dval l 0.
Proof. induction k as [|k IH]; [done|]. exact IH. Qed.
Lemma status_line_inj c d : status_line c = status_line d -> c = d.
Proof.
  unfold status_line. intros H. apply app_inv_head, app_inv_tail in H. unfold pad0 in H.
  apply (f_equal (fun l => dval l 0)) in H. rewrite !dval_zeros in H.
  by rewrite !(proj1 (proj2 (dec_spec _))) in H.
Qed.
Lemma status_line_small c : (c < 1000)%N -> small (status_line c).
Proof.
  intros H. unfold small, status_line, lenN, pad0. rewrite !app_length, replicate_length.
  pose proof (dec_length c 10). simpl. split; [lia|]. enough (length (dec c) <= 11)%nat by lia. apply H0. simpl. lia.
Qed.
