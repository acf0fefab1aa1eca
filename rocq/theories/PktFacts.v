(** Facts about the pkt-line reader and writer. *)
From Verif Require Import Bytes ByteFacts Err FS Prog Pktline Wp.

(** ** Headers *)

Lemma hdr_digit_hexdig d : (d < 16)%N -> hdr_digit (hexdig d) = Some d.
Proof.
  revert d. apply (lt_16_cases (fun d => hdr_digit (hexdig d) = Some d)); reflexivity.
Qed.

Lemma hdr_digit_bound x v : hdr_digit x = Some v -> (v <= 16)%N.
Proof.
  unfold hdr_digit. destruct (byte_in _ _ x) eqn:E1.
  { intros [= <-]. apply byte_in_spec in E1 as [_ E1].
    change (bN Byte.x3a) with 58%N in E1. lia. }
  destruct (byte_in Byte.x61 _ x) eqn:E2; [|done].
  intros [= <-]. apply byte_in_spec in E2 as [_ E2].
  change (bN Byte.x67) with 103%N in E2. lia.
Qed.

Lemma shl16_small v k : (v * 2 ^ k < 65536)%N -> shl16 v k = (v * 2 ^ k)%N.
Proof. intros H. unfold shl16. rewrite N.shiftl_mul_pow2. by apply N.mod_small. Qed.

Lemma parse_header_digits a b c d :
  (a < 16)%N -> (b < 16)%N -> (c < 16)%N -> (d < 16)%N ->
  parse_header (hexdig a, hexdig b, hexdig c, hexdig d)
  = Ok (a * 4096 + b * 256 + c * 16 + d)%N.
Proof.
  intros. unfold parse_header. rewrite !hdr_digit_hexdig by done.
  rewrite !shl16_small; change (2 ^ 12)%N with 4096%N; change (2 ^ 8)%N with 256%N;
    change (2 ^ 4)%N with 16%N; change (2 ^ 0)%N with 1%N; try lia.
  f_equal. rewrite N.mod_small by lia. lia.
Qed.

Lemma hex04_length n : (n < 65536)%N -> length (hex04 n) = 4%nat.
Proof. intros H. by rewrite hex04_spec. Qed.

Lemma parse_header_hex04 n :
  (n < 65536)%N ->
  exists a b c d, hex04 n = [a; b; c; d] /\ parse_header (a, b, c, d) = Ok n.
Proof.
  intros H. rewrite hex04_spec by done. eexists _, _, _, _. split; [done|].
  rewrite parse_header_digits; try (apply N.mod_lt; lia); try (apply N.div_lt_upper_bound; lia).
  f_equal.
  replace (n / 4096)%N with (n / 16 / 16 / 16)%N by (rewrite !N.div_div by lia; done).
  replace (n / 256)%N with (n / 16 / 16)%N by (rewrite !N.div_div by lia; done).
  ndm n 16%N. ndm q 16%N. ndm q0 16%N. lia.
Qed.

(** ** Encoding of a packet *)

Definition enc (p : packet) : bytes :=
  match p with
  | PFlush => bs "0000"
  | PDelim => bs "0001"
  | PData d => hex04 (lenN d + 4) ++ d
  end.
Definition enc_all (ps : list packet) : bytes := flat_map enc ps.

Definition pkt_len (p : packet) : N := match p with PData d => lenN d | _ => 0 end.

(** ** Reading as a function of the input *)

(** One packet off the front of the input; [lim] is the largest size field
    accepted. *)
Definition decode (lim : N) (i : bytes) : res packet * bytes :=
  if (4 <=? lenN i)%N then
    match take 4 i with
    | [a; b; c; d] =>
        match parse_header (a, b, c, d) with
        | Er e => (Er e, drop 4 i)
        | Ok size =>
            if (size =? 0)%N then (Ok PFlush, drop 4 i)
            else if (size =? 1)%N then (Ok PDelim, drop 4 i)
            else if ((size =? 2) || (size =? 3))%N
                 then (Er (err_simple BadPktlineHeader), drop 4 i)
            else if (lim <? size)%N then (Er (err_simple BadPktlineHeader), drop 4 i)
            else
              let r := drop 4 i in
              if (size - 4 <=? lenN r)%N
              then (Ok (PData (take (N.to_nat (size - 4)) r)), drop (N.to_nat (size - 4)) r)
              else (Er (err_of_io EEOF), [])
        end
    | _ => (Er (err_simple BadPktlineHeader), [])
    end
  else (Er (err_of_io EEOF), []).

Lemma take_4 {A} (l : list A) : (4 <= length l)%nat -> exists a b c d, take 4 l = [a; b; c; d].
Proof.
  destruct l as [|a [|b [|c [|d l]]]]; simpl; try lia. intros _. by exists a, b, c, d.
Qed.

Lemma parse_header_lt h n : parse_header h = Ok n -> (n < 65536)%N.
Proof.
  destruct h as [[[a b] c] d]. unfold parse_header.
  destruct (hdr_digit a), (hdr_digit b), (hdr_digit c), (hdr_digit d); try done.
  intros [= <-]. apply N.mod_lt. lia.
Qed.

Section wp.
Context (pid : nat) (F : failure -> local -> fs -> Prop).
Notation WP := (wp pid no_fault F).

Lemma handle_read o n l s :
  no_fault o -> handle_ev pid (ERead n) o l s = (let '(r, l') := do_read n l in (r, l', s)).
Proof. unfold no_fault. intros H. simpl. unfold faulty. by rewrite H. Qed.

Lemma handle_out o b l s :
  no_fault o -> handle_ev pid (EOut b) o l s = (IOk tt, add_out b l, s).
Proof. unfold no_fault. intros H. simpl. by rewrite H. Qed.

Lemma handle_flush o l s :
  no_fault o -> handle_ev pid EFlush o l s = (IOk tt, l, s).
Proof. unfold no_fault. intros H. simpl. unfold faulty. by rewrite H. Qed.

Lemma set_in_set_in a b l : set_in a (set_in b l) = set_in a l.
Proof. done. Qed.

Lemma wp_read_gen (lim : N) (p : prog (res packet)) (Q : res packet -> local -> fs -> Prop) l s :
  (p = read_packet /\ lim = 65535%N \/ p = read_one /\ lim = 65520%N) ->
  Q (decode lim (l_in l)).1 (set_in (decode lim (l_in l)).2 l) s ->
  WP p Q l s.
Proof.
  intros Hp HQ. unfold decode in HQ.
  assert (Hh : WP read_header (fun r l' s' =>
    if (4 <=? lenN (l_in l))%N then
      exists a b c d, take 4 (l_in l) = [a; b; c; d] /\ r = parse_header (a, b, c, d)
        /\ l' = set_in (drop 4 (l_in l)) l /\ s' = s
    else r = Er (err_of_io EEOF) /\ l' = set_in [] l /\ s' = s) l s).
  { apply wp_bindR, wp_io_call, wp_call. intros o Ho. rewrite handle_read by done.
    unfold do_read. destruct (4 <=? lenN (l_in l))%N eqn:E; simpl; [|done].
    apply N.leb_le in E. unfold lenN in E.
    destruct (take_4 (l_in l)) as (a & b & c & d & Ht); [lia|].
    change (Pos.to_nat 4) with 4%nat. rewrite Ht. simpl. apply wp_ret. eauto 10. }
  assert (Hbody : forall (r : res N) l' s',
    (if (4 <=? lenN (l_in l))%N then
      exists a b c d, take 4 (l_in l) = [a; b; c; d] /\ r = parse_header (a, b, c, d)
        /\ l' = set_in (drop 4 (l_in l)) l /\ s' = s
     else r = Er (err_of_io EEOF) /\ l' = set_in [] l /\ s' = s) ->
    match r with
    | Er e => Q (Er e) l' s'
    | Ok size =>
        WP (if (size =? 0)%N then Ret (Ok PFlush)
        else if (size =? 1)%N then Ret (Ok PDelim)
        else if ((size =? 2) || (size =? 3))%N then Ret (Er (err_simple BadPktlineHeader))
        else if (lim <? size)%N then Ret (Er (err_simple BadPktlineHeader))
        else let? d := io_call (call (ERead (size - 4))) in Ret (Ok (PData d))) Q l' s'
    end).
  { intros r l' s'. destruct (4 <=? lenN (l_in l))%N eqn:E.
    - intros (a & b & c & d & Ht & -> & -> & ->). rewrite Ht in HQ.
      destruct (parse_header (a, b, c, d)) as [size|e]; [|done].
      destruct (size =? 0)%N; [done|]. destruct (size =? 1)%N; [done|].
      destruct ((size =? 2) || (size =? 3))%N; [done|].
      destruct (lim <? size)%N; [done|].
      apply wp_bindR, wp_io_call, wp_call. intros o Ho. rewrite handle_read by done.
      unfold do_read. simpl.
      destruct (size - 4 <=? lenN (drop 4 (l_in l)))%N; done.
    - intros (-> & -> & ->). done. }
  destruct Hp as [[-> ->]|[-> ->]].
  - apply wp_bindR. eapply wp_mono; [|exact Hh]. intros r l' s' Hr.
    specialize (Hbody r l' s' Hr). destruct r as [size|e]; [|done].
    destruct (size =? 0)%N; [done|]. destruct (size =? 1)%N; [done|].
    destruct ((size =? 2) || (size =? 3))%N; [done|].
    destruct (65535 <? size)%N eqn:El; [|done].
    apply N.ltb_lt in El.
    destruct (4 <=? lenN (l_in l))%N; [|naive_solver].
    destruct Hr as (a & b & c & d & _ & Hr & _). symmetry in Hr.
    apply parse_header_lt in Hr. lia.
  - apply wp_bindR. eapply wp_mono; [|exact Hh]. intros r l' s' Hr.
    exact (Hbody r l' s' Hr).
Qed.

Lemma wp_read_packet (Q : res packet -> local -> fs -> Prop) l s :
  Q (decode 65535 (l_in l)).1 (set_in (decode 65535 (l_in l)).2 l) s -> WP read_packet Q l s.
Proof. apply wp_read_gen. by left. Qed.

Lemma wp_read_one (Q : res packet -> local -> fs -> Prop) l s :
  Q (decode 65520 (l_in l)).1 (set_in (decode 65520 (l_in l)).2 l) s -> WP read_one Q l s.
Proof. apply wp_read_gen. by right. Qed.

Lemma wp_out b (Q : iores unit -> local -> fs -> Prop) l s :
  Q (IOk tt) (add_out b l) s -> WP (call (EOut b)) Q l s.
Proof. intros H. apply wp_call. intros o Ho. by rewrite handle_out. Qed.

Lemma wp_flush (Q : iores unit -> local -> fs -> Prop) l s :
  Q (IOk tt) l s -> WP (call EFlush) Q l s.
Proof. intros H. apply wp_call. intros o Ho. by rewrite handle_flush. Qed.

(** ** Writing *)

Lemma wp_write_one d (Q : res N -> local -> fs -> Prop) l s :
  Q (Ok (lenN d)) (add_out (enc (PData d)) l) s -> WP (write_one d) Q l s.
Proof.
  intros H. apply wp_bindR, wp_io_call, wp_out, wp_bindR, wp_io_call, wp_out, wp_ret.
  unfold add_out in *. simpl in *. by rewrite <- app_assoc.
Qed.

Lemma wp_write_packet p (Q : res N -> local -> fs -> Prop) l s :
  (forall n, Q (Ok n) (add_out (enc p) l) s) -> WP (write_packet p) Q l s.
Proof.
  intros H. destruct p as [| |d]; simpl.
  - apply wp_bindR, wp_io_call, wp_out, wp_bindR, wp_io_call, wp_flush, wp_ret, H.
  - apply wp_bindR, wp_io_call, wp_out, wp_ret, H.
  - apply wp_write_one, H.
Qed.

End wp.

Lemma enc_hex04 (d : bytes) : (lenN d <= 65531)%N -> exists a b c e,
  hex04 (lenN d + 4) = [a; b; c; e] /\ parse_header (a, b, c, e) = Ok (lenN d + 4)%N.
Proof. intros H. apply parse_header_hex04. lia. Qed.

Lemma decode_enc lim p tl :
  (pkt_len p + 4 <= lim)%N -> (lim <= 65535)%N -> decode lim (enc p ++ tl) = (Ok p, tl).
Proof.
  intros H Hl. unfold decode. destruct p as [| |d]; simpl in H.
  - replace (4 <=? lenN (enc PFlush ++ tl))%N with true; [done|].
    symmetry. apply N.leb_le. rewrite lenN_app. unfold enc. simpl. unfold lenN. simpl. lia.
  - replace (4 <=? lenN (enc PDelim ++ tl))%N with true; [done|].
    symmetry. apply N.leb_le. rewrite lenN_app. unfold enc. simpl. unfold lenN. simpl. lia.
  - destruct (enc_hex04 d) as (a & b & c & e & Hx & Hp); [lia|].
    unfold enc. rewrite Hx.
    replace (4 <=? _)%N with true.
    2: { symmetry. apply N.leb_le. unfold lenN. simpl. lia. }
    cbn [app take drop]. rewrite Hp.
    destruct (lenN d + 4 =? 0)%N eqn:E0; [apply N.eqb_eq in E0; lia|].
    destruct (lenN d + 4 =? 1)%N eqn:E1; [apply N.eqb_eq in E1; lia|].
    destruct (lenN d + 4 =? 2)%N eqn:E2; [apply N.eqb_eq in E2; lia|].
    destruct (lenN d + 4 =? 3)%N eqn:E3; [apply N.eqb_eq in E3; lia|]. cbn [orb].
    destruct (lim <? lenN d + 4)%N eqn:E4; [apply N.ltb_lt in E4; lia|].
    rewrite N.add_sub. rewrite drop_0.
    destruct (lenN d <=? lenN (d ++ tl))%N eqn:E5.
    2: { apply N.leb_gt in E5. rewrite lenN_app in E5. lia. }
    unfold lenN. rewrite Nat2N.id, take_app, drop_app. done.
Qed.
