(** Proofs for Props_Input.v. *)
From Verif Require Import Bytes ByteFacts Err FS Prog Pktline Args Local Processor Transfer Wp PktFacts ReaderFacts
  Spec SpecStore SpecServer SpecFrame SpecOdd SpecInput FsFacts PktProofs TextProofs IoFacts ObjProofs StoreProofs GetProofs
  SeqIo SeqFs SeqCmd Session FrameProofs OddProofs.

Local Arguments parse_header : simpl never.
Local Opaque COPY_BUF pk MAX_PACKET_LEN.

(** ** Headers *)
Lemma digit_iff c v : hdr_digit c = Some v <-> digit c v.
Proof.
  split.
  - intros H. unfold digit. destruct c; vm_compute in H; try done; injection H as <-; (left; by vm_compute) || (right; by vm_compute).
  - unfold digit. intros [H|[Hv H]].
    + pose proof (lookup_lt_Some _ _ _ H) as Hl. vm_compute (length _) in Hl.
      assert (G : v ∈ [0; 1; 2; 3; 4; 5; 6; 7; 8; 9; 10]%N).
      { rewrite !elem_of_cons. lia. }
      repeat (apply elem_of_cons in G as [->|G]; [vm_compute in H; by injection H as <-|]). by apply elem_of_nil in G.
    + pose proof (lookup_lt_Some _ _ _ H) as Hl. vm_compute (length _) in Hl.
      assert (G : v ∈ [10; 11; 12; 13; 14; 15; 16]%N).
      { rewrite !elem_of_cons. lia. }
      repeat (apply elem_of_cons in G as [->|G]; [vm_compute in H; by injection H as <-|]). by apply elem_of_nil in G.
Qed.
Lemma sum16 x y z w :
  ((shl16 x 12 + shl16 y 8 + shl16 z 4 + shl16 w 0) mod 65536 = (x * 4096 + y * 256 + z * 16 + w) mod 65536)%N.
Proof.
  unfold shl16. rewrite !N.shiftl_mul_pow2.
  change (2 ^ 12)%N with 4096%N. change (2 ^ 8)%N with 256%N. change (2 ^ 4)%N with 16%N. change (2 ^ 0)%N with 1%N.
  rewrite N.mul_1_r.
  rewrite (N.add_mod (_ + _ + _)), (N.add_mod (_ + _)), (N.add_mod (_ mod _)) by done. rewrite !N.mod_mod by done.
  rewrite <- (N.add_mod (x * 4096)), <- (N.add_mod (x * 4096 + _)), <- (N.add_mod (x * 4096 + _ + _)) by done. done.
Qed.
Lemma header_iff h v : header h v <-> exists a b c d, h = [a; b; c; d] /\ parse_header (a, b, c, d) = Ok v.
Proof.
  split.
  - intros (a & b & c & d & x & y & z & w & -> & Ha & Hb & Hc & Hd & ->). exists a, b, c, d. split; [done|].
    unfold parse_header. apply digit_iff in Ha as ->. apply digit_iff in Hb as ->. apply digit_iff in Hc as ->. apply digit_iff in Hd as ->.
    by rewrite sum16.
  - intros (a & b & c & d & -> & H). unfold parse_header in H.
    destruct (hdr_digit a) as [x|] eqn:Ha; [|done]. destruct (hdr_digit b) as [y|] eqn:Hb; [|done].
    destruct (hdr_digit c) as [z|] eqn:Hc; [|done]. destruct (hdr_digit d) as [w|] eqn:Hd; [|done].
    exists a, b, c, d, x, y, z, w. rewrite <- !digit_iff. split_and!; try done. injection H as <-. apply sum16.
Qed.
Lemma header_lt h v : header h v -> (v < 65536)%N.
Proof. intros (a & b & c & d & _ & H)%header_iff. by eapply parse_header_lt. Qed.
Lemma header_len h v : header h v -> length h = 4%nat.
Proof. by intros (a & b & c & d & -> & _)%header_iff. Qed.
Lemma header_decode lim h v tl :
  header h v ->
  decode lim (h ++ tl) =
  if (v =? 0)%N then (Ok PFlush, tl)
  else if (v =? 1)%N then (Ok PDelim, tl)
  else if ((v =? 2) || (v =? 3))%N then (Er (err_simple BadPktlineHeader), tl)
  else if (lim <? v)%N then (Er (err_simple BadPktlineHeader), tl)
  else if (v - 4 <=? lenN tl)%N
  then (Ok (PData (take (N.to_nat (v - 4)) tl)), drop (N.to_nat (v - 4)) tl)
  else (Er (err_of_io EEOF), []).
Proof.
  intros (a & b & c & d & -> & Hp)%header_iff.
  unfold decode. rewrite (proj2 (N.leb_le _ _)) by (unfold lenN; simpl; lia).
  cbn [app take drop]. rewrite Hp. done.
Qed.
Lemma four (h : bytes) : length h = 4%nat -> exists a b c d, h = [a; b; c; d].
Proof. destruct h as [|a [|b [|c [|d [|e h]]]]]; try done. by exists a, b, c, d. Qed.
Lemma header_dec h : length h = 4%nat -> (exists v, header h v) \/ forall v, ~ header h v.
Proof.
  intros (a & b & c & d & ->)%four. destruct (parse_header (a, b, c, d)) as [v|e] eqn:E.
  - left. exists v. apply header_iff. by exists a, b, c, d.
  - right. intros v (a' & b' & c' & d' & [= <- <- <- <-] & H)%header_iff. congruence.
Qed.
Lemma no_decode lim h tl : length h = 4%nat -> (forall v, ~ header h v) ->
  decode lim (h ++ tl) = (Er (err_simple BadPktlineHeader), tl).
Proof.
  intros (a & b & c & d & ->)%four H. unfold decode. rewrite (proj2 (N.leb_le _ _)) by (unfold lenN; simpl; lia).
  cbn [app take drop]. destruct (parse_header (a, b, c, d)) as [v|e] eqn:E.
  - exfalso. apply (H v). apply header_iff. by exists a, b, c, d.
  - unfold parse_header in E. destruct (hdr_digit a), (hdr_digit b), (hdr_digit c), (hdr_digit d); try discriminate; by injection E as <-.
Qed.

(** ** Packets *)
Definition small_for (lim : N) (p : packet) : Prop := (lenN (payload p) + 4 <= lim)%N.
Lemma seen_decode lim p w tl : seen p w -> (p = PFlush \/ p = PDelim) \/ small_for lim p -> decode lim (w ++ tl) = (Ok p, tl).
Proof.
  intros H Hs. destruct H as [h H|h H|h d H].
  - by rewrite (header_decode _ _ _ _ H).
  - by rewrite (header_decode _ _ _ _ H).
  - rewrite <- app_assoc, (header_decode _ _ _ _ H). destruct Hs as [[?|?]|Hs]; [done|done|]. unfold small_for in Hs. cbn [payload] in Hs.
    rewrite (proj2 (N.eqb_neq _ _)), (proj2 (N.eqb_neq _ _)), (proj2 (N.eqb_neq _ _)), (proj2 (N.eqb_neq _ _)) by lia. cbn [orb].
    rewrite (proj2 (N.ltb_ge _ _)) by lia. rewrite (proj2 (N.leb_le _ _)) by (rewrite lenN_app; lia).
    assert (N.to_nat (lenN d + 4 - 4) = length d) as -> by (unfold lenN; lia). by rewrite take_app, drop_app.
Qed.
Lemma seen_decode_any p w tl : seen p w -> decode 65535 (w ++ tl) = (Ok p, tl).
Proof.
  intros H. apply seen_decode; [done|]. destruct H as [| |h d H]; [left; by auto..|]. right. unfold small_for. cbn [payload].
  apply header_lt in H. lia.
Qed.
Lemma fragment_decode lim f : fragment lim f -> decode lim f = (Er (err_of_io EEOF), []).
Proof.
  intros [g H|h v d Hh Hv Hd].
  - unfold decode. by rewrite (proj2 (N.leb_gt _ _)) by (unfold lenN; lia).
  - rewrite (header_decode _ _ _ _ Hh).
    rewrite (proj2 (N.eqb_neq _ _)), (proj2 (N.eqb_neq _ _)), (proj2 (N.eqb_neq _ _)), (proj2 (N.eqb_neq _ _)) by lia. cbn [orb].
    rewrite (proj2 (N.ltb_ge _ _)) by lia. by rewrite (proj2 (N.leb_gt _ _)) by lia.
Qed.
Lemma no_header_decode h tl : no_header h -> decode 65535 (h ++ tl) = (Er (err_simple BadPktlineHeader), tl).
Proof.
  intros [Hl H]. destruct (header_dec h Hl) as [[v Hv]|Hno]; [|by apply no_decode].
  rewrite (header_decode _ _ _ _ Hv). by destruct (H v Hv) as [-> | ->].
Qed.
Lemma no_data_header_decode h tl : no_data_header h -> decode 65520 (h ++ tl) = (Er (err_simple BadPktlineHeader), tl).
Proof.
  intros [Hl H]. destruct (header_dec h Hl) as [[v Hv]|Hno]; [|by apply no_decode].
  rewrite (header_decode _ _ _ _ Hv). destruct (H v Hv) as [->|[->|Hb]]; [done|done|].
  rewrite (proj2 (N.eqb_neq _ _)), (proj2 (N.eqb_neq _ _)), (proj2 (N.eqb_neq _ _)), (proj2 (N.eqb_neq _ _)) by lia. cbn [orb].
  by rewrite (proj2 (N.ltb_lt _ _)) by lia.
Qed.

(** Every input begins with one of the three. *)
Lemma packet_cases lim i : (lim = 65535 \/ lim = 65520)%N ->
  fragment lim i \/
  (exists p w tl, i = w ++ tl /\ seen p w /\ ((p = PFlush \/ p = PDelim) \/ small_for lim p)) \/
  (exists h tl, i = h ++ tl /\ length h = 4%nat /\ forall v, header h v -> (v = 2 \/ v = 3 \/ lim < v)%N).
Proof.
  intros Hlim. destruct (decide (length i < 4)%nat) as [Hs|Hs]; [left; by apply fr_header|].
  rewrite <- (take_drop 4 i). set (h := take 4 i). set (r := drop 4 i).
  assert (Hh : length h = 4%nat) by (unfold h; rewrite take_length; lia).
  destruct (header_dec h Hh) as [[v Hv]|Hno].
  2: { right; right. exists h, r. split_and!; [done|done|]. intros v Hv. by destruct (Hno v). }
  assert (Hu : forall v', header h v' -> v' = v).
  { intros v' H'. apply header_iff in H' as (a & b & c & d & E & H'). apply header_iff in Hv as (a' & b' & c' & d' & E' & Hv). rewrite E in E'.
    injection E' as <- <- <- <-. congruence. }
  destruct (decide (v = 0)%N) as [->|H0]; [right; left; exists PFlush, h, r; split_and!; [done|by constructor|by auto]|].
  destruct (decide (v = 1)%N) as [->|H1]; [right; left; exists PDelim, h, r; split_and!; [done|by constructor|by auto]|].
  destruct (decide (v = 2 \/ v = 3 \/ lim < v)%N) as [Hb|Hb].
  { right; right. exists h, r. split_and!; [done|done|]. intros v' Hv'. by rewrite (Hu v' Hv'). }
  destruct (decide (lenN r < v - 4)%N) as [Hr|Hr]; [left; apply fr_data with (v := v); [done|lia|done]|].
  right; left. exists (PData (take (N.to_nat (v - 4)) r)), (h ++ take (N.to_nat (v - 4)) r), (drop (N.to_nat (v - 4)) r).
  assert (El : (lenN (take (N.to_nat (v - 4)) r) + 4 = v)%N) by (unfold lenN in *; rewrite take_length; lia).
  split_and!.
  - by rewrite <- app_assoc, take_drop.
  - constructor. by rewrite El.
  - right. unfold small_for. cbn [payload]. lia.
Qed.

(** ** Sequences of packets *)
Lemma seens_cons_inv p ps w : seens (p :: ps) w -> exists w1 w2, w = w1 ++ w2 /\ seen p w1 /\ seens ps w2.
Proof. inversion 1; subst. by eexists _, _. Qed.
Lemma seens_app a b w : seens (a ++ b) w <-> exists w1 w2, w = w1 ++ w2 /\ seens a w1 /\ seens b w2.
Proof.
  revert w. induction a as [|p a IH]; intros w; simpl.
  - split; [intros H; exists [], w; split_and!; [done|constructor|done]|]. intros (w1 & w2 & -> & H & H2). by inversion H; subst.
  - split.
    + intros (w1 & w2 & -> & Hp & H)%seens_cons_inv. apply IH in H as (w3 & w4 & -> & H3 & H4).
      exists (w1 ++ w3), w4. split_and!; [by rewrite app_assoc|by constructor|done].
    + intros (w1 & w2 & -> & H1 & H2). apply seens_cons_inv in H1 as (w3 & w4 & -> & Hp & H). rewrite <- app_assoc. constructor; [done|].
      apply IH. by exists w4, w2.
Qed.
Lemma seens_one p w : seens [p] w <-> seen p w.
Proof.
  split.
  - intros (w1 & w2 & -> & H & H2)%seens_cons_inv. inversion H2; subst. by rewrite app_nil_r.
  - intros H. rewrite <- (app_nil_r w). constructor; [done|constructor].
Qed.
Lemma seens_upto stop qs w i tl : seens qs w -> stop ∉ qs -> upto stop [] i tl -> upto stop qs (w ++ i) tl.
Proof.
  intros H Hq Hi. induction H as [|p w ps ws Hp _ IH]; [done|]. apply not_elem_of_cons in Hq as [H1 Hq].
  rewrite <- app_assoc. eapply up_more; [by apply seen_decode_any|done|by apply IH].
Qed.
Lemma seens_badto stop qs w i tl : seens qs w -> stop ∉ qs -> badto stop [] i tl -> badto stop qs (w ++ i) tl.
Proof.
  intros H Hq Hi. induction H as [|p w ps ws Hp _ IH]; [done|]. apply not_elem_of_cons in Hq as [H1 Hq].
  rewrite <- app_assoc. eapply bt_more; [by apply seen_decode_any|done|by apply IH].
Qed.
Lemma seens_datas ds w i r tl : seens (lines ds) w -> small_data ds -> datas i [] r tl -> datas (w ++ i) ds r tl.
Proof.
  revert w. induction ds as [|d ds IH]; intros w H Hs Hi; [inversion H; by subst|].
  apply Forall_cons in Hs as [H1 Hs]. apply seens_cons_inv in H as (w1 & w2 & -> & Hp & H). rewrite <- app_assoc.
  eapply da_data; [|by apply IH]. apply seen_decode; [done|]. right. unfold small_for. cbn [payload]. lia.
Qed.
Lemma seens_closed stop qs w tl : seens (qs ++ [stop]) w -> stop ∉ qs -> upto stop qs (w ++ tl) tl.
Proof.
  intros (w1 & w2 & -> & H1 & H2)%seens_app Hq. apply seens_one in H2. rewrite <- app_assoc.
  apply seens_upto; [done|done|]. apply up_stop. by apply seen_decode_any.
Qed.
Lemma seens_cut stop qs w f : seens qs w -> stop ∉ qs -> fragment 65535 f -> upto stop qs (w ++ f) [].
Proof. intros. apply seens_upto; [done|done|]. by apply up_eof, fragment_decode. Qed.
Lemma seens_bad stop qs w h tl : seens qs w -> stop ∉ qs -> no_header h -> badto stop qs (w ++ h ++ tl) tl.
Proof. intros. apply seens_badto; [done|done|]. by apply bt_bad, no_header_decode. Qed.
Lemma upto_nil stop : upto stop [] [] [].
Proof. by apply up_eof. Qed.

Lemma takes_seen sh ps w tl : shaped sh ps -> seens ps w -> takes sh (w ++ tl) tl.
Proof.
  destruct sh as [|qs|qs|qs rs|qs ds]; simpl.
  - intros -> H. by inversion H.
  - intros [-> H] Hw. by apply seens_closed.
  - intros [-> H] Hw. by apply seens_closed.
  - intros (-> & H1 & H2) Hw. change (qs ++ PDelim :: rs ++ [PFlush]) with (qs ++ [PDelim] ++ rs ++ [PFlush]) in Hw.
    rewrite app_assoc in Hw. apply seens_app in Hw as (w1 & w2 & -> & Hw1 & Hw2). rewrite <- app_assoc.
    eexists. split; by apply seens_closed.
  - intros (e & -> & H1 & He & Hds) Hw. change (qs ++ PDelim :: lines ds ++ [e]) with (qs ++ [PDelim] ++ lines ds ++ [e]) in Hw.
    rewrite app_assoc in Hw. apply seens_app in Hw as (w1 & w2 & -> & Hw1 & Hw2). rewrite <- app_assoc.
    eexists. split; [by apply seens_closed|].
    apply seens_app in Hw2 as (w3 & w4 & -> & Hw3 & Hw4). apply seens_one in Hw4. rewrite <- app_assoc. apply seens_datas; [done|done|].
    eapply da_end; [|done]. apply seen_decode; [done|by left].
Qed.

(** ** Requests at the end of the input *)
Lemma takes_cut_flush sh qs w f : shaped sh (qs ++ [PFlush]) -> (forall a ds, sh <> SData a ds) -> seens qs w -> fragment 65535 f ->
  takes sh (w ++ f) [].
Proof.
  destruct sh as [|a|a|a b|a ds]; simpl; intros Hsh Hne Hw Hf.
  - by destruct qs.
  - destruct Hsh as [E Ha]. apply app_inj_tail in E as [-> _]. by apply seens_cut.
  - destruct Hsh as [E Ha]. by apply app_inj_tail in E as [_ ?].
  - destruct Hsh as (E & Ha & Hb). change (a ++ PDelim :: b ++ [PFlush]) with (a ++ [PDelim] ++ b ++ [PFlush]) in E.
    rewrite !app_assoc in E. apply app_inj_tail in E as [-> _]. apply seens_app in Hw as (w1 & w2 & -> & H1 & H2). rewrite <- app_assoc.
    eexists. split; [by apply seens_closed|by apply seens_cut].
  - by destruct (Hne a ds).
Qed.
Lemma takes_cut_delim sh qs w f : shaped sh (qs ++ [PDelim]) -> (forall a ds, sh <> SData a ds) -> seens qs w -> fragment 65535 f ->
  takes sh (w ++ f) [].
Proof.
  destruct sh as [|a|a|a b|a ds]; simpl; intros Hsh Hne Hw Hf.
  - by destruct qs.
  - destruct Hsh as [E Ha]. by apply app_inj_tail in E as [_ ?].
  - destruct Hsh as [E Ha]. apply app_inj_tail in E as [-> _]. by apply seens_cut.
  - destruct Hsh as (E & Ha & Hb). change (a ++ PDelim :: b ++ [PFlush]) with (a ++ [PDelim] ++ b ++ [PFlush]) in E.
    rewrite !app_assoc in E. by apply app_inj_tail in E as [_ ?].
  - by destruct (Hne a ds).
Qed.
Lemma takes_cut_both sh qs w f : shaped sh (qs ++ [PDelim; PFlush]) -> match sh with SFirst _ | STwo _ _ => True | _ => False end ->
  PDelim ∉ qs -> seens qs w -> fragment 65535 f -> takes sh (w ++ f) [].
Proof.
  destruct sh as [|a|a|a b|a ds]; simpl; intros Hsh Hne Hq Hw Hf; try done.
  - destruct Hsh as [E Ha]. change [PDelim; PFlush] with ([PDelim] ++ [PFlush]) in E. rewrite app_assoc in E. by apply app_inj_tail in E as [_ ?].
  - destruct Hsh as (E & Ha & Hb).
    assert (G : forall x y : list packet, PDelim ∉ x -> PDelim ∉ y -> forall p q, x ++ PDelim :: p = y ++ PDelim :: q -> x = y /\ p = q).
    { clear. induction x as [|c x IH]; intros [|d y] Hx Hy p q E; simpl in E.
      - by injection E as ->.
      - injection E as <- E. destruct Hy. by left.
      - injection E as -> E. destruct Hx. by left.
      - apply not_elem_of_cons in Hx as [_ Hx], Hy as [_ Hy]. injection E as -> E. by destruct (IH y Hx Hy p q E) as [-> ->]. }
    destruct (G _ _ Hq Ha _ _ E) as [-> E']. destruct b as [|b0 b]; [|by destruct b].
    exists []. split; [by apply seens_cut|apply upto_nil].
Qed.

Section input.
Context (en : env) (lfs : path) (umask : N) (ts : option Z) (clock : Z -> Prop) (m : mode).
Context (pid fuel : nat) (F : failure -> local -> fs -> Prop).
Context (HH : digest (en_hash en)) (Hlfs : Forall plain_name lfs).
Context (Hts : forall t, ts = Some t -> clock t) (Hclock : forall t, clock t -> time_ok en t).
Let be := Backend lfs umask ts.
Let ok := mild ts clock.
Notation WP := (wp pid ok F).
Notation rep := (represents en lfs).
Notation room := (room fuel).
Notation outcome := (outcome en lfs clock m fuel).
Notation handled := (handled en lfs umask ts clock m pid fuel F).
Notation handles := (handles en lfs umask ts clock m pid fuel F).

Lemma inp_nf : forall o, ok o -> no_fault o.
Proof using Type. by intros o []. Qed.

(** *** Malformed headers within a request *)
Lemma nf_bad stop qs tl (Q : res (list bytes) -> local -> fs -> Prop) l s :
  (length (l_in l) < fuel)%nat -> badto stop qs (l_in l) tl ->
  Q (Er (err_simple BadPktlineHeader)) (set_in tl l) s -> WP (read_to_type fuel stop) Q l s.
Proof using Type. apply nf_read_bad. exact inp_nf. Qed.

Lemma h_bad_lines r qs : match r with RVersion | RVerify _ _ | RGet _ _ | RUnlock _ _ => True | _ => False end ->
  handled (command_for r) (badto PFlush qs) (Fixed 400 (bs "error: malformed or unknown pkt-line header")).
Proof using Type.
  intros Hc w rb tl l s Hr Hw Hrb Hf Hin.
  destruct r; try done; cbn [command_for handle_command]; apply wp_bind, wp_bindR; unfold read_to_flush;
    (eapply nf_bad; [lia|done|]); apply wp_ret; (apply outcome_error; [done|by apply is_code|done..]).
Qed.
Lemma h_bad_locks r qs : match r with RLock _ | RList _ => True | _ => False end ->
  handled (command_for r) (badto PFlush qs) (Fixed 500 (bs "internal error: parse error")).
Proof using Type.
  intros Hc w rb tl l s Hr Hw Hrb Hf Hin.
  destruct r; try done; cbn [command_for handle_command]; apply wp_bind, wp_bindR, wp_bind; unfold read_to_flush;
    (eapply nf_bad; [lia|done|]); apply wp_ret, wp_ret; (apply outcome_error; [done|by apply is_code|done..]).
Qed.
Lemma h_bad_first r qs : match r with RBatch _ _ => True | RPut o _ _ => is_oid o | _ => False end ->
  handled (command_for r) (badto PDelim qs) (Fixed 400 (bs "error: malformed or unknown pkt-line header")).
Proof using Type.
  intros Hc w rb tl l s Hr Hw Hrb Hf Hin. destruct r; try done; cbn [command_for handle_command].
  - set (x := Fixed _ _). assert (G : forall a b, WP (let! r := p_batch be fuel a b in Ret (r, rb)) (outcome w x tl l) l s); [|destruct (is_upload m); apply G].
    intros a b. apply wp_bind. unfold p_batch, read_batch. apply wp_bindR, wp_bindR. unfold read_to_delim.
    eapply nf_bad; [lia|done|]. apply wp_ret. apply outcome_error; [done|by apply is_code|done..].
  - unfold p_put_object. rewrite (proj2 (oid_new_iff o o)) by done. apply wp_bind, wp_bindR. unfold read_to_delim.
    eapply nf_bad; [lia|done|]. apply wp_ret. apply outcome_error; [done|by apply is_code|done..].
Qed.
Lemma h_bad_items kvs qs : args_ok kvs ->
  handled CBatch (fun i tl => exists i1, upto PDelim (args kvs) i i1 /\ badto PFlush qs i1 tl) (Fixed 500 (bs "internal error: parse error")).
Proof using Type.
  intros Hk w rb tl l s Hr Hw Hrb Hf (i1 & Hin1 & Hin2). pose proof (upto_shrink _ _ _ _ Hin1) as Hsh. cbn [handle_command].
  set (x := Fixed _ _). assert (G : forall a b, WP (let! r := p_batch be fuel a b in Ret (r, rb)) (outcome w x tl l) l s); [|destruct (is_upload m); apply G].
  intros a0 b0. apply wp_bind. unfold p_batch, read_batch. apply wp_bindR, wp_bindR. unfold read_to_delim.
  eapply nf_read; [lia|exact Hin1|]. rewrite map_payload_args.
  apply wp_bindR, nf_args; [done|]. intros a Ha. apply wp_bindR, wp_bind. unfold read_to_flush.
  eapply nf_bad; [cbn [l_in set_in]; lia|exact Hin2|]. apply wp_ret. rewrite set_in_set_in. apply wp_ret.
  apply outcome_error; [done|by apply is_code|done..].
Qed.
(** *** Uploads that are cut or broken *)
Lemma h_upload_error o kvs v n ds e code t : is_oid o -> args_ok kvs -> (bs "size", v) ∈ kvs -> number v n ->
  status_of_error (err_of_io (io_of_err e)) = st_failure code (t ++ [NL]) -> code ∈ codes ->
  handled (CPut o) (fun i tl => exists i1, upto PDelim (args kvs) i i1 /\ datas i1 ds (Er e) tl) (Fixed code t).
Proof using Hlfs.
  intros Ho Hargs Hv Hn He Hc w rb tl l s Hr Hw Hrb Hf (i1 & Hin & Hi). cbn [handle_command].
  unfold p_put_object. rewrite (proj2 (oid_new_iff o o)) by done.
  pose proof (upto_shrink _ _ _ _ Hin) as Hl. pose proof (datas_len _ _ _ _ Hi) as Hl2.
  apply wp_bind, wp_bindR. unfold read_to_delim. eapply nf_read; [lia|exact Hin|]. rewrite map_payload_args.
  apply wp_bindR, (nf_args); [done|]. intros a Ha. apply wp_ret.
  unfold size_from_arguments. rewrite (proj2 (Ha _ _) Hv), (proj2 (parse_number v n)) by done.
  apply wp_bind. eapply (nf_start_upload en lfs umask ts clock pid fuel F Hlfs w o ds (Er e) tl); [done|done|done|cbn [l_in set_in]; lia|done|].
  intros s1 nm rb' Hn1 Hn2 Hu Hrb'. rewrite set_in_set_in.
  eapply nf_drop_temp; [done|exact Hr|exact Hu|done|done|]. intros s' Hr'. apply wp_ret. by apply outcome_error.
Qed.

(** *** One request *)
Lemma first_cases i x i' : first m i x i' ->
  (exists p code t, decode 65535 i = (Ok p, i') /\ x = Fixed code t /\ lone p code t) \/
  (exists b ws c P i1, decode 65535 i = (Ok (PData b), i1) /\ says b ws /\ dispatch ws m = c /\ c <> CQuit /\
     handled c P x /\ P i1 i').
Proof using HH Hlfs Hts Hclock.
  assert (Hd : forall kvs, PDelim ∉ args kvs) by (intros kvs; apply lines_data; by auto).
  assert (Hup : forall kvs b ws o r, upload m b kvs -> says b ws -> named r ws -> allowed m r -> command_for r = CPut o -> dispatch ws m = CPut o).
  { intros kvs b ws o r _ _ Hn Ha <-. by apply named_dispatch. }
  intros [g x0 w tl Hm Hw|g x0 w f Hc Hw Hf|g code t w h tl Hb Hw Hh|b kvs w f Hu Hw Hf|b kvs ds w f Hu Hs Hw Hf|b kvs ds w h tl Hu Hs Hw Hh].
  - destruct (group_cases en lfs umask ts clock m pid fuel F HH Hlfs Hts Hclock g x0 Hm)
      as [(p & code & t & -> & -> & Hp)|(b & ws & c & sh & qs & -> & H1 & H2 & H3 & H4 & H5 & _)].
    + left. exists p, code, t. split_and!; [|done|done]. apply seens_one in Hw. by apply seen_decode_any.
    + right. apply seens_cons_inv in Hw as (w1 & w2 & -> & Hp & Hw). rewrite <- app_assoc.
      eexists b, ws, c, (takes sh), _. split_and!; [by apply seen_decode_any|done..|]. by eapply takes_seen.
  - destruct Hc as (Hne & Hput & Hmm).
    assert (Hg : exists e, e ≠ [] /\ means m (g ++ e) x0 /\
      forall b qs c sh, g = PData b :: qs -> shaped sh (qs ++ e) -> (forall rs ds, sh = SData rs ds -> exists o kvs ds', x0 = Does (RPut o kvs ds')) ->
        (c = CBatch -> match sh with SFirst _ | STwo _ _ => True | _ => False end) -> 
        (forall ws, says b ws -> dispatch ws m = c) -> forall w, seens qs w -> takes sh (w ++ f) []).
    { destruct Hmm as [Hmm|[Hmm|(b & qs & ws & -> & Hb & Hn & Hq & Hmm)]].
      - exists [PFlush]. split_and!; [done|done|]. intros b qs c sh -> Hsh Hsd _ _ w' Hw'. eapply takes_cut_flush; try done.
        intros a ds E. destruct (Hsd a ds E) as (o & kvs & ds' & E'). by apply (Hput o kvs ds').
      - exists [PDelim]. split_and!; [done|done|]. intros b qs c sh -> Hsh Hsd _ _ w' Hw'. eapply takes_cut_delim; try done.
        intros a ds E. destruct (Hsd a ds E) as (o & kvs & ds' & E'). by apply (Hput o kvs ds').
      - exists [PDelim; PFlush]. split_and!; [done|done|]. intros b' qs' c sh [= <- <-] Hsh _ Hcb Hdis w' Hw'.
        eapply takes_cut_both; try done. apply Hcb. rewrite <- (Hdis ws Hb). by apply (named_dispatch m (RBatch [] [])). }
    destruct Hg as (e & He & Hmg & Hg). destruct g as [|p qs]; [done|].
    destruct (group_cases en lfs umask ts clock m pid fuel F HH Hlfs Hts Hclock _ x0 Hmg)
      as [(p' & code & t & E & _ & Hp)|(b & ws & c & sh & qs' & E & H1 & H2 & H3 & H4 & H5 & H6 & H7)].
    + simpl in E. injection E as -> E. apply app_eq_nil in E as [_ ?]. done.
    + simpl in E. injection E as -> <-. right. apply seens_cons_inv in Hw as (w1 & w2 & -> & Hp & Hw). rewrite <- app_assoc.
      eexists b, ws, c, (takes sh), _. split_and!; [by apply seen_decode_any|done..|].
      eapply (Hg b qs c); try done. intros ws' H'. by rewrite <- (says_words _ _ H'), (says_words _ _ H1).
  - right. destruct Hb as [r ws b qs Hr Ha Hb Hn Hq|r ws b qs Hr Ha Hb Hn Hq|r ws b qs Hr Ha Hb Hn Hq|kvs ws b qs Hb Hn Hk Hq];
      apply seens_cons_inv in Hw as (w1 & w2 & -> & Hp & Hw); rewrite <- app_assoc.
    + eexists b, ws, _, _, _. split_and!; [by apply seen_decode_any|done|by apply named_dispatch|apply command_for_quit|by apply (h_bad_lines r qs)|].
      by apply seens_bad.
    + eexists b, ws, _, _, _. split_and!; [by apply seen_decode_any|done|by apply named_dispatch|apply command_for_quit|by apply (h_bad_locks r qs)|].
      by apply seens_bad.
    + eexists b, ws, _, _, _. split_and!; [by apply seen_decode_any|done|by apply named_dispatch|apply command_for_quit|by apply (h_bad_first r qs)|].
      by apply seens_bad.
    + eexists b, ws, CBatch, _, _. split_and!; [by apply seen_decode_any|done|by apply (named_dispatch m (RBatch [] []))|done|by apply (h_bad_items kvs qs)|].
      rewrite app_assoc in Hw. apply seens_app in Hw as (w3 & w4 & -> & H3 & H4). rewrite <- app_assoc. eexists.
      split; [by apply seens_closed|by apply seens_bad].
  - right. destruct Hu as (o & v & n & ws & Hmo & Ho & Hb & Hn & Hk & Hv & Hnum).
    apply seens_cons_inv in Hw as (w1 & w2 & -> & Hp & Hw). rewrite <- app_assoc.
    eexists b, ws, (CPut o), _, _. split_and!; [by apply seen_decode_any|done|by apply (named_dispatch m (RPut o [] []))|done| |].
    + eapply (h_upload_error o kvs v n [] (err_of_io EEOF)); try done. by apply is_code.
    + exists []. split; [by apply seens_cut|]. by apply da_err.
  - right. destruct Hu as (o & v & n & ws & Hmo & Ho & Hb & Hn & Hk & Hv & Hnum).
    apply seens_cons_inv in Hw as (w1 & w2 & -> & Hp & Hw). rewrite <- app_assoc.
    rewrite app_assoc in Hw. apply seens_app in Hw as (w3 & w4 & -> & H3 & H4). rewrite <- app_assoc.
    eexists b, ws, (CPut o), _, _. split_and!; [by apply seen_decode_any|done|by apply (named_dispatch m (RPut o [] []))|done| |].
    + eapply (h_upload_error o kvs v n ds (err_of_io EEOF)); try done. by apply is_code.
    + eexists. split; [by apply seens_closed|]. apply seens_datas; [done|done|]. by apply da_err, fragment_decode.
  - right. destruct Hu as (o & v & n & ws & Hmo & Ho & Hb & Hn & Hk & Hv & Hnum).
    apply seens_cons_inv in Hw as (w1 & w2 & -> & Hp & Hw). rewrite <- app_assoc.
    rewrite app_assoc in Hw. apply seens_app in Hw as (w3 & w4 & -> & H3 & H4). rewrite <- app_assoc.
    eexists b, ws, (CPut o), _, _. split_and!; [by apply seen_decode_any|done|by apply (named_dispatch m (RPut o [] []))|done| |].
    + eapply (h_upload_error o kvs v n ds (err_simple BadPktlineHeader)); try done. by apply is_code.
    + eexists. split; [by apply seens_closed|]. apply seens_datas; [done|done|]. by apply da_err, no_data_header_decode.
Qed.
Lemma nf_first x w rb i' l s (Q : next -> local -> fs -> Prop) :
  first m (l_in l) x i' -> rep s w -> room w -> rb_ok rb -> (2 * length (l_in l) + 2 <= fuel)%nat ->
  (forall a w' ps rb' s', reacts en m (l_uid l) clock w x a w' -> reply_sent a ps -> rep s' w' -> room w' ->
     rb_ok rb' -> Q (Next rb') (add_out (enc_all ps) (set_in i' l)) s') ->
  WP (process_one en be fuel m rb) Q l s.
Proof using HH Hlfs Hts Hclock.
  intros H Hr Hw Hrb Hf HQ.
  destruct (first_cases _ _ _ H) as [(p & code & t & E & -> & Hp)|(b & ws & c & P & i1 & E & H1 & H2 & H3 & H4 & H5)].
  - eapply (nf_lone en lfs umask ts clock m pid fuel F p code t); done.
  - eapply (nf_command en lfs umask ts clock m pid fuel F HH Hlfs Hts Hclock b ws c P x); done.
Qed.
End input.

Lemma seen_len p w : seen p w -> (4 <= length w)%nat.
Proof. intros [h H|h H|h d H]; apply header_len in H; rewrite ?app_length; lia. Qed.
Lemma means_cons m g x : means m g x -> exists p qs, g = p :: qs.
Proof. intros H. destruct H; by eexists _, _. Qed.
Lemma first_shrink m i x i' : first m i x i' -> (length i' < length i)%nat.
Proof.
  intros H. assert (G : exists p qs w r, seens (p :: qs) w /\ i = w ++ r /\ (length i' <= length r)%nat).
  { destruct H as [g x w tl Hm Hw|g x w f Hc Hw Hf|g code t w h tl Hb Hw Hh|b kvs w f Hu Hw Hf|b kvs ds w f Hu Hs Hw Hf|b kvs ds w h tl Hu Hs Hw Hh].
    - destruct (means_cons _ _ _ Hm) as (p & qs & ->). by eexists p, qs, w, tl.
    - destruct Hc as [Hne _]. destruct g as [|p qs]; [done|]. eexists p, qs, w, f. split_and!; [done|done|simpl; lia].
    - assert (exists p qs, g = p :: qs) as (p & qs & ->) by (destruct Hb; by eexists _, _).
      eexists p, qs, w, _. split_and!; [done|done|rewrite app_length; lia].
    - eexists _, _, w, _. split_and!; [done|done|simpl; lia].
    - eexists _, _, w, _. split_and!; [done|done|simpl; lia].
    - eexists _, _, w, _. split_and!; [done|done|rewrite app_length; lia]. }
  destruct G as (p & qs & w & r & Hw & -> & Hl). apply seens_cons_inv in Hw as (w1 & w2 & -> & Hp & _).
  apply seen_len in Hp. rewrite !app_length. lia.
Qed.

(** ** Sessions *)
Section session.
Context (en : env) (lfs : path) (umask : N) (ts : option Z) (clock : Z -> Prop) (m : mode).
Context (pid fuel : nat) (F : failure -> local -> fs -> Prop).
Context (HH : digest (en_hash en)) (Hlfs : Forall plain_name lfs).
Context (Hts : forall t, ts = Some t -> clock t) (Hclock : forall t, clock t -> time_ok en t).
Let be := Backend lfs umask ts.
Let ok := mild ts clock.
Notation WP := (wp pid ok F).
Notation rep := (represents en lfs).
Notation room := (room fuel).

Lemma nf_reading xs e n w rb l s : reading m (l_in l) xs e -> e <> AtSlash -> rep s w -> room w -> rb_ok rb ->
  (2 * length (l_in l) + 2 <= fuel)%nat -> (length (l_in l) < n)%nat ->
  WP (process_commands en be fuel n m rb)
    (fun r l' s' => r = result_of e /\ exists answers w' ps, reactions en m (l_uid l) clock w xs answers w' /\
       replies_sent (answers ++ last_answer e) ps /\ rep s' w' /\ exists tl, l' = add_out (enc_all ps) (set_in tl l)) l s.
Proof using HH Hlfs Hts Hclock.
  revert xs w rb l s. induction n as [|n IH]; intros xs w rb l s Hrd He Hr Hw Hrb Hf Hn; [lia|].
  cbn [process_commands]. apply wp_bind. inversion Hrd as [i e' Hov|i x i' xs' e' Hx Hrd']; subst.
  - inversion Hov as [f Hfr|b w0 tl Hb Hseen|h tl Hh|i b ws w0 tl Hm Hb Hnm Hu Hz Hsl Hseen]; subst; [| | |done].
    + unfold process_one. apply wp_bind, (nf_read_packet pid ok F (inp_nf ts clock)). rewrite (fragment_decode _ _ Hfr).
      cbn [fst snd]. apply wp_ret. cbn. rewrite decide_True by done. apply wp_ret. split; [done|]. exists [], w, [].
      split_and!; [constructor|constructor|done|]. exists []. by rewrite add_out_nil.
    + unfold process_one. apply wp_bind, (nf_read_packet pid ok F (inp_nf ts clock)).
      replace (decode 65535 (l_in l)) with (Ok (PData b), tl) by (symmetry; rewrite <- H; by apply seen_decode_any).
      cbn [fst snd pkt_data].
      assert (dispatch (command_words b) m = CQuit) as E by (rewrite (says_words _ _ Hb); by destruct m).
      destruct b as [|b0 b]; [by destruct Hb|]. rewrite E.
      apply wp_bind. eapply (nf_answer ts clock pid fuel F st_success (Reply 200 [] BNone)); [|done|].
      { by apply (sends_none s 200 None), is_code. }
      intros ps s' Hps E1 E2. apply wp_ret. split; [done|]. exists [], w, (ps ++ []). split_and!.
      * constructor.
      * by repeat constructor.
      * eapply rep_same; [exact Hr|done|by apply ino_le_eq].
      * exists tl. by rewrite app_nil_r.
    + unfold process_one. apply wp_bind, (nf_read_packet pid ok F (inp_nf ts clock)).
      replace (decode 65535 (l_in l)) with (Er (A := packet) (err_simple BadPktlineHeader), tl)
        by (symmetry; rewrite <- H; by apply no_header_decode).
      cbn [fst snd]. apply wp_ret. cbn. rewrite decide_False by done. apply wp_ret. split; [done|]. exists [], w, [].
      split_and!; [constructor|constructor|done|]. exists tl. by rewrite add_out_nil.
  - eapply (nf_first en lfs umask ts clock m pid fuel F HH Hlfs Hts Hclock x w rb i'); try done.
    pose proof (first_shrink _ _ _ _ Hx) as Hsh.
    intros a w' ps rb' s' Ha Hps Hr' Hw' Hrb'. eapply wp_mono; [|eapply (IH xs' w' rb'); try done].
    + intros y l' s'' (-> & ans & w'' & qs & H1 & H2 & H3 & tl & ->). split; [done|].
      exists (a :: ans), w'', (ps ++ qs). split_and!; [|by constructor|done|].
      * econstructor; [done|]. exact H1.
      * exists tl. rewrite enc_all_app. rewrite <- add_out_app. done.
    + cbn [l_in add_out set_in]. lia.
    + cbn [l_in add_out set_in]. lia.
Qed.

(** The same up to the unlocking of an id with a slash, whatever comes after. *)
Lemma nf_reading_until xs n w rb l s (P : bytes -> Prop) :
  reading m (l_in l) xs AtSlash -> rep s w -> room w -> rb_ok rb ->
  (2 * length (l_in l) + 2 <= fuel)%nat -> (length (l_in l) < n)%nat ->
  (forall f l' s', P (l_out l') -> F f l' s') ->
  (forall answers w' ps more, reactions en m (l_uid l) clock w xs answers w' -> replies_sent answers ps ->
     P (l_out l ++ enc_all ps ++ more)) ->
  WP (process_commands en be fuel n m rb) (fun _ l' _ => P (l_out l')) l s.
Proof using HH Hlfs Hts Hclock.
  intros Hrd Hr Hw Hrb Hf Hn HF. revert xs w rb l s Hrd Hr Hw Hrb Hf Hn.
  induction n as [|n IH]; intros xs w rb l s Hrd Hr Hw Hrb Hf Hn HP; [lia|].
  inversion Hrd as [i e' Hov|i x i' xs' e' Hx Hrd']; subst.
  - eapply wp_weaken; [..|apply wp_out_grows].
    + by intros f l' s' [more E]; apply HF; rewrite E; apply (HP [] w [] more); constructor.
    + intros r l' s' [more E]. rewrite E. apply (HP [] w [] more); constructor.
  - cbn [process_commands]. apply wp_bind.
    eapply (nf_first en lfs umask ts clock m pid fuel F HH Hlfs Hts Hclock x w rb i'); try done.
    pose proof (first_shrink _ _ _ _ Hx) as Hsh.
    intros a w' ps rb' s' Ha Hps Hr' Hw' Hrb'. eapply (IH xs' w' rb'); try done; cbn [l_in l_out l_uid add_out set_in]; [lia|lia|].
    intros ans w'' qs more H1 H2. rewrite <- !app_assoc, (app_assoc (enc_all ps)), <- enc_all_app.
    eapply HP; [by econstructor|by constructor].
Qed.

Lemma nf_run_until xs w l s (P : bytes -> Prop) :
  reading m (l_in l) xs AtSlash -> holds en lfs s w -> room w -> (2 * length (l_in l) + 2 <= fuel)%nat ->
  (forall f l' s', P (l_out l') -> F f l' s') ->
  (forall answers w' ps more, reactions en m (l_uid l) clock w xs answers w' -> replies_sent answers ps ->
     P (l_out l ++ enc_all (capabilities ++ ps) ++ more)) ->
  WP (transfer_run en fuel lfs umask ts (operation m)) (fun _ l' _ => P (l_out l')) l s.
Proof using HH Hlfs Hts Hclock.
  intros Hrd Hr Hw Hf HF HP. unfold transfer_run. apply wp_bindR. unfold create_directories.
  apply (nf_create en lfs ts clock pid F dir_names w); [done|done|]. intros s1 H1 H2 _.
  apply wp_bindR. unfold send_capabilities.
  apply wp_bindR, (nf_send pid ok F (inp_nf ts clock)), (nf_flush pid ok F (inp_nf ts clock)).
  rewrite mode_operation. rewrite add_out_app. rewrite pk_short.
  2: { unfold small. by vm_compute. }
  replace (enc_all [PData (bs "version=1" ++ [NL])] ++ enc PFlush) with (enc_all capabilities) by done.
  eapply (nf_reading_until xs fuel w rb_empty); try done.
  - by apply represents_of.
  - cbn [l_in add_out]. lia.
  - cbn [l_out l_uid add_out]. intros ans w' ps more G1 G2. rewrite <- !app_assoc, (app_assoc (enc_all capabilities)), <- enc_all_app.
    by eapply HP.
Qed.

Lemma nf_run_reading xs e w l s :
  reading m (l_in l) xs e -> e <> AtSlash -> holds en lfs s w -> room w -> (2 * length (l_in l) + 2 <= fuel)%nat ->
  WP (transfer_run en fuel lfs umask ts (operation m))
    (fun r l' s' => r = result_of e /\ exists answers w' ps, reactions en m (l_uid l) clock w xs answers w' /\
       replies_sent (answers ++ last_answer e) ps /\ rep s' w' /\
       exists tl, l' = add_out (enc_all (capabilities ++ ps)) (set_in tl l)) l s.
Proof using HH Hlfs Hts Hclock.
  intros Hrd He Hr Hw Hf. unfold transfer_run. apply wp_bindR. unfold create_directories.
  apply (nf_create en lfs ts clock pid F dir_names w); [done|done|]. intros s1 H1 H2 _.
  apply wp_bindR. unfold send_capabilities.
  apply wp_bindR, (nf_send pid ok F (inp_nf ts clock)), (nf_flush pid ok F (inp_nf ts clock)).
  rewrite mode_operation. rewrite add_out_app. rewrite pk_short.
  2: { unfold small. by vm_compute. }
  replace (enc_all [PData (bs "version=1" ++ [NL])] ++ enc PFlush) with (enc_all capabilities) by done.
  eapply wp_mono; [|eapply (nf_reading xs e fuel w rb_empty); try done].
  - intros r l' s' (-> & ans & w' & ps & G1 & G2 & G3 & tl & ->). split; [done|]. exists ans, w', ps.
    split_and!; try done. exists tl. rewrite enc_all_app, <- add_out_app. done.
  - by apply represents_of.
  - cbn [l_in add_out]. lia.
Qed.
End session.

Lemma c60 en lfs umask ts (clock : Z -> Prop) m pid os l s w xs e fuel :
  setting en lfs ts clock os -> holds en lfs s w -> reading m (l_in l) xs e -> e <> AtSlash -> enough fuel l w ->
  exists as_ w' s', coped en lfs umask ts clock m pid fuel os l s w xs e as_ w' s'.
Proof.
  intros [HH Hlfs Hts Hclock Hos] Hr Hrd He [Hf Hroom].
  pose proof (nf_run_reading en lfs umask ts clock m pid fuel no_fail HH Hlfs Hts Hclock xs e w l s Hrd He Hr Hroom Hf) as G.
  apply wp_run with (os := os) in G; [|done].
  destruct (run pid (transfer_run en fuel lfs umask ts (operation m)) os l s) as [[[a|f] l'] s'] eqn:E; [|done].
  destruct G as (-> & ans & w' & ps & H1 & H2 & H3 & tl & ->). exists ans, w', s'.
  exists (add_out (enc_all (capabilities ++ ps)) (set_in tl l)), ps, (enc_all (capabilities ++ ps)). split_and!; try done.
  change (PData (bs "version=1" ++ [NL]) :: PFlush :: ps) with (capabilities ++ ps).
  apply wires_enc. apply Forall_app. split; [|by eapply replies_small]. by repeat constructor.
Qed.

Lemma c60_slash en lfs umask ts (clock : Z -> Prop) m pid os l s w xs fuel :
  setting en lfs ts clock os -> holds en lfs s w -> reading m (l_in l) xs AtSlash -> enough fuel l w ->
  exists as_ w', coped_so_far en lfs umask ts clock m pid fuel os l s w xs as_ w'.
Proof.
  intros [HH Hlfs Hts Hclock Hos] Hr Hrd [Hf Hroom].
  set (P := fun o : bytes => exists as_ w' ps more, reactions en m (l_uid l) clock w xs as_ w' /\ replies_sent as_ ps /\
    o = l_out l ++ enc_all (capabilities ++ ps) ++ more).
  pose proof (nf_run_until en lfs umask ts clock m pid fuel (fun _ l' _ => P (l_out l')) HH Hlfs Hts Hclock xs w l s P
    Hrd Hr Hroom Hf) as G.
  apply wp_run with (os := os) in G; [|done|..|done].
  - destruct (run pid (transfer_run en fuel lfs umask ts (operation m)) os l s) as [[r l'] s'] eqn:E.
    assert (Hp : P (l_out l')) by by destruct r.
    destruct Hp as (ans & w' & ps & more & H1 & H2 & H3). exists ans, w', r, l', s', ps, (enc_all (capabilities ++ ps)), more.
    split_and!; try done.
    change (PData (bs "version=1" ++ [NL]) :: PFlush :: ps) with (capabilities ++ ps).
    apply wires_enc. apply Forall_app. split; [|by eapply replies_small]. by repeat constructor.
  - intros as_ w' ps more H1 H2. by exists as_, w', ps, more.
Qed.

(** ** Every input *)
Lemma scan stop i : stop = PFlush \/ stop = PDelim -> exists qs, stop ∉ qs /\
  ((exists w tl, i = w ++ tl /\ seens (qs ++ [stop]) w) \/
   (exists w f, i = w ++ f /\ seens qs w /\ fragment 65535 f) \/
   (exists w h tl, i = w ++ h ++ tl /\ seens qs w /\ no_header h)).
Proof.
  intros Hst. remember (length i) as n eqn:Hn. revert i Hn. induction (lt_wf n) as [n _ IH]. intros i ->.
  destruct (packet_cases 65535 i) as [Hf|[(p & w & tl & -> & Hp & _)|(h & tl & -> & Hl & Hh)]]; [by left|..].
  - exists []. split; [apply not_elem_of_nil|]. right; left. exists [], i. split_and!; [done|constructor|done].
  - destruct (decide (p = stop)) as [->|Hne].
    + exists []. split; [apply not_elem_of_nil|]. left. exists w, tl. split; [done|]. by apply seens_one.
    + destruct (IH (length tl)) with (i := tl) as (qs & Hq & H); [rewrite app_length; apply seen_len in Hp; lia|done|].
      exists (p :: qs). split; [apply not_elem_of_cons; split; congruence|].
      destruct H as [(w' & tl' & -> & H)|[(w' & f & -> & H & Hf)|(w' & h & tl' & -> & H & Hh)]].
      * left. exists (w ++ w'), tl'. split; [by rewrite app_assoc|by constructor].
      * right; left. exists (w ++ w'), f. split_and!; [by rewrite app_assoc|by constructor|done].
      * right; right. exists (w ++ w'), h, tl'. split_and!; [by rewrite <- app_assoc|by constructor|done].
  - exists []. split; [apply not_elem_of_nil|]. right; right. exists [], h, tl. split_and!; [done|constructor|]. split; [done|].
    intros v Hv. pose proof (header_lt _ _ Hv). destruct (Hh v Hv) as [?|[?|?]]; [by left|by right|lia].
Qed.
Lemma scan_data i : exists ds, small_data ds /\
  ((exists w e tl, i = w ++ tl /\ seens (lines ds ++ [e]) w /\ (e = PFlush \/ e = PDelim)) \/
   (exists w f, i = w ++ f /\ seens (lines ds) w /\ fragment 65520 f) \/
   (exists w h tl, i = w ++ h ++ tl /\ seens (lines ds) w /\ no_data_header h)).
Proof.
  remember (length i) as n eqn:Hn. revert i Hn. induction (lt_wf n) as [n _ IH]. intros i ->.
  destruct (packet_cases 65520 i) as [Hf|[(p & w & tl & -> & Hp & Hsm)|(h & tl & -> & Hl & Hh)]]; [by right|..].
  - exists []. split; [constructor|]. right; left. exists [], i. split_and!; [done|constructor|done].
  - destruct Hsm as [Hc|Hsm].
    + exists []. split; [constructor|]. left. exists w, p, tl. split_and!; [done|by apply seens_one|done].
    + destruct p as [| |d].
      1,2: exists []; split; [constructor|]; left; eexists w, _, tl; split_and!; [done|by apply seens_one|by auto].
      destruct (IH (length tl)) with (i := tl) as (ds & Hd & H); [rewrite app_length; apply seen_len in Hp; lia|done|].
      exists (d :: ds). split; [constructor; [unfold small_for in Hsm; cbn [payload] in Hsm; lia|done]|].
      destruct H as [(w' & e & tl' & -> & H & He)|[(w' & f & -> & H & Hf)|(w' & h & tl' & -> & H & Hh)]].
      * left. exists (w ++ w'), e, tl'. split_and!; [by rewrite app_assoc|by constructor|done].
      * right; left. exists (w ++ w'), f. split_and!; [by rewrite app_assoc|by constructor|done].
      * right; right. exists (w ++ w'), h, tl'. split_and!; [by rewrite <- app_assoc|by constructor|done].
  - exists []. split; [constructor|]. right; right. exists [], h, tl. split_and!; [done|constructor|done].
Qed.

(** A command with arguments up to a flush packet. *)
Definition line_command (r : request) : Prop :=
  match r with RVersion | RVerify _ _ | RGet _ _ | RLock _ | RList _ | RUnlock _ _ => True | _ => False end.
Lemma line_means m r b ws qs : line_command r -> allowed m r -> says b ws -> named r ws -> PFlush ∉ qs ->
  (forall i kvs, r = RUnlock i kvs -> utf8_valid i = true -> Byte.x00 ∉ i -> SLASH ∉ i) ->
  exists x, means m (PData b :: qs ++ [PFlush]) x /\ forall o kvs ds, x <> Does (RPut o kvs ds).
Proof.
  intros Hl Ha Hs Hn Hq Hsl.
  assert (Hsp : Forall (fun w => SP ∉ w) (verb r)).
  { destruct Hs as (_ & _ & Hs & _), Hn as (more & E & _). rewrite E in Hs. by apply Forall_app in Hs as [? _]. }
  assert (Hlines : match r with RVerify _ _ | RGet _ _ | RLock _ | RList _ => True | _ => False end ->
    (forall kvs, args_ok kvs -> exists r', well_formed m r' /\ named r' ws /\ tail (packets_of r') = args kvs ++ [PFlush] /\ line_command r') ->
    exists x, means m (PData b :: qs ++ [PFlush]) x /\ forall o kvs ds, x <> Does (RPut o kvs ds)).
  { intros Hr Hk. destruct (args_cases qs) as [(kvs & -> & Hkv)|(code & t & Hbad)].
    - destruct (Hk kvs Hkv) as (r' & H1 & H2 & H3 & H4). exists (Does r'). split; [rewrite <- H3; by eapply m_request|].
      intros o kvs' ds [= ->]. done.
    - exists (Fixed code t). split; [by eapply (m_args m r)|done]. }
  destruct r as [|k0 i0|o k0 d0|o k0|o k0|k0|k0|i k0]; try done.
  - exists (Does RVersion). split; [by eapply m_version|done].
  - simpl in Ha. apply Hlines; [done|]. intros kvs Hk. exists (RVerify o kvs). split_and!; [|done|done|done]. split_and!; [done|done|].
    by apply Forall_cons in Hsp as [_ [? _]%Forall_cons].
  - simpl in Ha. apply Hlines; [done|]. intros kvs Hk. exists (RGet o kvs). split_and!; [|done|done|done]. split_and!; [done|done|].
    by apply Forall_cons in Hsp as [_ [? _]%Forall_cons].
  - apply Hlines; [done|]. intros kvs Hk. by exists (RLock kvs).
  - apply Hlines; [done|]. intros kvs Hk. by exists (RList kvs).
  - simpl in Ha.
    destruct (utf8_valid i) eqn:Hu; [|eexists; split; [by eapply m_unlock_bytes|done]].
    destruct (decide (Byte.x00 ∈ i)) as [Hz|Hz]; [eexists; split; [by eapply m_unlock_nul|done]|].
    specialize (Hsl i k0 eq_refl Hu Hz).
    destruct (decide (i ∈ [[]; bs "."; bs ".."])) as [Hd|Hd]; [eexists; split; [by eapply m_unlock_dir|done]|].
    exists (Does (RUnlock i [])). split; [|done]. eapply m_unlock; [done| |done|done|done].
    rewrite !not_elem_of_cons in Hd. destruct Hd as (? & ? & ? & _). by split_and!.
Qed.
Lemma batch_means m b ws kvs qs : says b ws -> named (RBatch [] []) ws -> args_ok kvs -> PFlush ∉ qs ->
  exists x, means m (PData b :: args kvs ++ [PDelim] ++ qs ++ [PFlush]) x /\ forall o kvs ds, x <> Does (RPut o kvs ds).
Proof.
  intros Hs Hn Hk Hq.
  assert (Hok : forall h, key (bs "hash-algo") kvs h -> h = None \/ h = Some (bs "sha256") ->
    exists x, means m (PData b :: args kvs ++ [PDelim] ++ qs ++ [PFlush]) x /\ forall o kvs ds, x <> Does (RPut o kvs ds)).
  { intros h Hh Hh'. destruct (items_cases qs) as [(items & -> & Hi)|(code & t & Hbad)].
    - exists (Does (RBatch kvs items)). split; [|done]. by eapply (m_request m (RBatch kvs items)).
    - exists (Fixed code t). split; [by eapply m_items|done]. }
  destruct (key_cases (bs "hash-algo") kvs) as [[h Hh]|Hno]; [|apply (Hok None); [done|by left]].
  destruct (decide (h = bs "sha256")) as [->|Hne]; [apply (Hok (Some (bs "sha256"))); [done|by right]|].
  eexists. split; [by eapply m_algo|done].
Qed.

Lemma one_request m i : (exists e, over m i e) \/ exists x i', first m i x i'.
Proof.
  destruct (packet_cases 65535 i) as [Hf|[(p & w & tl & -> & Hp & _)|(h & tl & -> & Hl & Hh)]]; [by left|..].
  { left. exists AtEof. by constructor. }
  2: { left. exists AtGarbage. constructor. split; [done|].
       intros v Hv. pose proof (header_lt _ _ Hv). destruct (Hh v Hv) as [?|[?|?]]; [by left|by right|lia]. }
  destruct p as [| |b].
  1: right; eexists _, tl; eapply fi_whole; [apply (m_control m PFlush); by left|by apply seens_one].
  1: right; eexists _, tl; eapply fi_whole; [apply (m_control m PDelim); by right|by apply seens_one].
  destruct (decide (b = [])) as [->|Hb]; [right; eexists _, tl; eapply fi_whole; [apply m_nothing|by apply seens_one]|].
  pose proof (says_some b Hb) as Hs. set (ws := command_words b) in *.
  destruct (words_cases m ws) as [(r & Ha & Hn)|[(code & t & Ht)|Hq]]; [by destruct Hs as (_ & ? & _)| | |].
  2: { right. eexists _, tl. eapply fi_whole; [by eapply m_turned|by apply seens_one]. }
  2: { left. exists AtQuit. constructor 2 with (b := b); [by rewrite <- Hq|done]. }
  assert (Hsl : (exists o kvs, r = RUnlock o kvs /\ utf8_valid o = true /\ Byte.x00 ∉ o /\ SLASH ∈ o) \/
    forall o kvs, r = RUnlock o kvs -> utf8_valid o = true -> Byte.x00 ∉ o -> SLASH ∉ o).
  { destruct r as [| | | | | | |o kvs]; try (right; by intros).
    destruct (utf8_valid o) eqn:Hu; [|right; intros o' kvs' [= <- <-]; congruence].
    destruct (decide (Byte.x00 ∈ o)) as [Hz|Hz]; [right; intros o' kvs' [= <- <-] _ ?; done|].
    destruct (decide (SLASH ∈ o)) as [Hl|Hl]; [left; by exists o, kvs|right; intros o' kvs' [= <- <-] _ _; done]. }
  destruct Hsl as [(o & kvs & -> & Hu & Hz & Hsl)|Hsl].
  { left. exists AtSlash. by eapply (ov_slash m o b ws). }
  right. assert (Hl : line_command r \/ ~ line_command r) by (destruct r; simpl; by auto). destruct Hl as [Hl|Hl].
  - destruct (scan PFlush tl) as (qs & Hq & H); [by left|]. destruct (line_means m r b ws qs) as (x & Hx & Hput); try done.
    destruct H as [(w' & tl' & -> & H)|[(w' & f & -> & H & Hf)|(w' & h & tl' & -> & H & Hh)]]; rewrite app_assoc.
    + exists x, tl'. eapply fi_whole; [exact Hx|by constructor].
    + exists x, []. eapply (fi_cut m (PData b :: qs)); [|by constructor|done]. split_and!; [done|done|by left].
    + assert (Hk : match r with RLock _ | RList _ => True | _ => False end \/ ~ match r with RLock _ | RList _ => True | _ => False end)
        by (destruct r; simpl; by auto). destruct Hk as [Hk|Hk].
      * eexists _, tl'. eapply (fi_broken m (PData b :: qs)); [by eapply (br_locks m r)|by constructor|done].
      * eexists _, tl'. eapply (fi_broken m (PData b :: qs)); [|by constructor|done]. eapply (br_lines m r); try done. by destruct r.
  - assert (Hr : (exists kvs items, r = RBatch kvs items) \/ exists o kvs ds, r = RPut o kvs ds) by (destruct r; naive_solver).
    assert (Hoid : (exists o kvs ds, r = RPut o kvs ds /\ ~ is_oid o) \/ match r with RBatch _ _ => True | RPut o _ _ => is_oid o | _ => False end).
    { destruct Hr as [(kvs & items & ->)|(o & kvs & ds & ->)]; [by right|]. destruct (is_oid_dec o); [by right|left; by eexists _, _, _]. }
    destruct Hoid as [(o & kvs & ds & -> & Ho)|Hoid].
    { destruct Hn as (more & E & _). simpl in E, Ha. eexists _, tl. eapply fi_whole; [|by apply seens_one].
      eapply m_turned; [exact Hs|]. rewrite E. by apply ta_oid. }
    destruct (scan PDelim tl) as (qs & Hq & H); [by right|].
    destruct H as [H|[H|(w' & h & tl' & -> & H & Hh)]].
    3: { rewrite (app_assoc w). eexists _, tl'. eapply (fi_broken m (PData b :: qs)); [by eapply (br_first m r)|by constructor|done]. }
    + destruct H as (w1 & tl1 & -> & H). destruct (args_cases qs) as [(kvs & -> & Hkv)|(code & t & Hbad)].
      2: { eexists _, tl1. rewrite app_assoc. eapply fi_whole; [by eapply (m_args_first m r)|by constructor]. }
      destruct Hr as [(k0 & i0 & ->)|(o & k0 & d0 & ->)].
      * assert (Hn' : named (RBatch [] []) ws) by done.
        destruct (scan PFlush tl1) as (qs & Hq2 & H2); [by left|]. destruct (batch_means m b ws kvs qs) as (x & Hx & Hput); try done.
        destruct H2 as [(w2 & tl2 & -> & H2)|[(w2 & f & -> & H2 & Hf)|(w2 & h & tl2 & -> & H2 & Hh)]]; rewrite !app_assoc, <- (app_assoc w).
        -- exists x, tl2. eapply fi_whole; [exact Hx|]. constructor; [done|]. rewrite app_assoc. apply seens_app. by eexists _, _.
        -- exists x, []. eapply (fi_cut m (PData b :: args kvs ++ [PDelim] ++ qs)); [|constructor; [done|]|done].
           ++ split_and!; [done|done|]. left. cbn [app]. by rewrite <- app_assoc.
           ++ rewrite app_assoc. apply seens_app. by eexists _, _.
        -- rewrite <- app_assoc. eexists _, tl2. eapply (fi_broken m); [by eapply (br_items m kvs)|constructor; [done|]|done].
           rewrite app_assoc. apply seens_app. by eexists _, _.
      * simpl in Ha. rewrite (app_assoc w). destruct (key_cases (bs "size") kvs) as [[v Hv]|Hno].
        2: { eexists _, tl1. eapply fi_whole; [by eapply (m_put_size m o kvs)|by constructor]. }
        destruct (parse_u64 v) as [n|] eqn:En.
        2: { apply parse_u64_none in En. eexists _, tl1. eapply fi_whole; [by eapply (m_put_number m o kvs)|by constructor]. }
        apply parse_u64_some in En.
        assert (Hup : upload m b kvs) by (by exists o, v, n, ws).
        destruct (scan_data tl1) as (ds & Hd & H2).
        assert (Hwf : well_formed m (RPut o kvs ds)) by (split_and!; [done|done|done|by exists v, n|done]).
        destruct H2 as [(w2 & e & tl2 & -> & H2 & He)|[(w2 & f & -> & H2 & Hf)|(w2 & h & tl2 & -> & H2 & Hh)]].
        -- assert (Hw : seens (PData b :: args kvs ++ [PDelim] ++ lines ds ++ [e]) ((w ++ w1) ++ w2)).
           { rewrite <- app_assoc. constructor; [done|]. rewrite app_assoc. apply seens_app. by eexists _, _. }
           rewrite (app_assoc (w ++ w1)). exists (Does (RPut o kvs ds)), tl2. destruct He as [-> | ->].
           ++ eapply fi_whole; [|exact Hw]. by eapply (m_request m (RPut o kvs ds)).
           ++ eapply fi_whole; [|exact Hw]. by eapply m_put.
        -- rewrite (app_assoc (w ++ w1)). eexists _, []. eapply (fi_upload_cut m b kvs ds); [done|done| |done].
           rewrite <- app_assoc. constructor; [done|]. rewrite app_assoc. apply seens_app. by eexists _, _.
        -- rewrite (app_assoc (w ++ w1)). eexists _, tl2. eapply (fi_upload_broken m b kvs ds); [done|done| |done].
           rewrite <- app_assoc. constructor; [done|]. rewrite app_assoc. apply seens_app. by eexists _, _.
    + destruct H as (w1 & f & -> & H & Hf). rewrite app_assoc. destruct (args_cases qs) as [(kvs & -> & Hkv)|(code & t & Hbad)].
      2: { exists (Fixed code t), []. eapply (fi_cut m (PData b :: qs)); [|by constructor|done]. split_and!; [done|done|].
           right; left. by eapply (m_args_first m r). }
      destruct Hr as [(k0 & i0 & ->)|(o & k0 & d0 & ->)].
      * assert (Hn' : named (RBatch [] []) ws) by done.
        destruct (batch_means m b ws kvs []) as (x & Hx & Hput); try done; [apply not_elem_of_nil|].
        exists x, []. eapply (fi_cut m (PData b :: args kvs)); [|by constructor|done]. split_and!; [done|done|].
        right; right. by exists b, (args kvs), ws.
      * simpl in Ha. destruct (key_cases (bs "size") kvs) as [[v Hv]|Hno].
        2: { eexists _, []. eapply (fi_cut m (PData b :: args kvs)); [|by constructor|done]. split_and!; [done| |].
             2: { right; left. by eapply (m_put_size m o kvs). } done. }
        destruct (parse_u64 v) as [n|] eqn:En.
        2: { apply parse_u64_none in En. eexists _, []. eapply (fi_cut m (PData b :: args kvs)); [|by constructor|done].
             split_and!; [done| |]. 2: { right; left. by eapply (m_put_number m o kvs). } done. }
        apply parse_u64_some in En. eexists _, []. eapply (fi_upload_args m b kvs); [by exists o, v, n, ws|by constructor|done].
Qed.
Lemma c60_input m i : exists xs e, reading m i xs e.
Proof.
  remember (length i) as n eqn:Hn. revert i Hn. induction (lt_wf n) as [n _ IH]. intros i ->.
  destruct (one_request m i) as [[e He]|(x & i' & Hx)]; [exists [], e; by constructor|].
  destruct (IH (length i')) with (i := i') as (xs & e & H); [by eapply first_shrink|done|].
  exists (x :: xs), e. by econstructor.
Qed.

(** ** C61 *)
Lemma reading_means m gs w i e : Forall (fun g => exists x, means m g x) gs -> seens (concat gs) w -> over m i e ->
  exists xs, reading m (w ++ i) xs e /\ Forall2 (means m) gs xs.
Proof.
  intros H. revert w. induction H as [|g gs [x Hx] _ IH]; intros w Hw Ho.
  - inversion Hw; subst. exists []. split; [by constructor|constructor].
  - cbn [concat] in Hw. apply seens_app in Hw as (w1 & w2 & -> & H1 & H2).
    destruct (IH w2 H2 Ho) as (xs & G1 & G2). exists (x :: xs). split; [|by constructor].
    eapply rd_first; [|exact G1]. rewrite <- app_assoc. by eapply fi_whole.
Qed.
Lemma reactions_dialogue en m uid clock gs xs w as_ w' : Forall2 (means m) gs xs ->
  reactions en m uid clock w xs as_ w' -> dialogue en m uid clock w gs as_ w'.
Proof.
  intros H. revert w as_. induction H as [|g x gs xs Hx _ IH]; intros w as_ G; inversion G; subst; [constructor|].
  econstructor; [done|done|]. by apply IH.
Qed.
Lemma c61 en lfs umask ts (clock : Z -> Prop) m pid os l s w gs inp h tl fuel :
  setting en lfs ts clock os -> holds en lfs s w ->
  Forall (fun g => exists x, means m g x) gs -> seens (concat gs) inp -> no_header h -> l_in l = inp ++ h ++ tl ->
  enough fuel l w ->
  exists as_ w' s' l' ps out,
    run pid (transfer_run en fuel lfs umask ts (operation m)) os l s = (Done (Er (err_simple BadPktlineHeader)), l', s') /\
    dialogue en m (l_uid l) clock w gs as_ w' /\ represents en lfs s' w' /\ replies_sent as_ ps /\
    wires (PData (bs "version=1" ++ [NL]) :: PFlush :: ps) out /\ l_out l' = l_out l ++ out.
Proof.
  intros Hs Hh Hg Hi Hn El Hf.
  destruct (reading_means m gs inp (h ++ tl) AtGarbage Hg Hi) as (xs & Hrd & H2); [by constructor|].
  rewrite <- El in Hrd.
  destruct (c60 en lfs umask ts clock m pid os l s w xs AtGarbage fuel Hs Hh Hrd) as (as_ & w' & s' & G); [done|done|].
  destruct G as (l' & ps & out & G1 & G2 & G3 & G4 & G5 & G6). exists as_, w', s', l', ps, out.
  cbn [last_answer] in G4. rewrite app_nil_r in G4. split_and!; try done. by eapply reactions_dialogue.
Qed.
