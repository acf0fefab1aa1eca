(** Facts about the byte-string functions of Bytes.v. *)
From Verif Require Import Bytes.

Global Arguments N.div : simpl never.
Global Arguments N.modulo : simpl never.
Global Arguments N.mul : simpl never.
Global Arguments N.add : simpl never.
Global Arguments N.sub : simpl never.
Global Arguments N.pow : simpl never.
Global Arguments N.of_nat : simpl never.

(** Replaces [n / k] and [n mod k] by variables with their defining equation. *)
Ltac ndm n k :=
  let H := fresh in let H' := fresh in
  pose proof (N.div_mod n k ltac:(lia)) as H;
  pose proof (N.mod_lt n k ltac:(lia)) as H';
  revert H H';
  let q := fresh "q" in let r := fresh "r" in
  generalize (N.div n k) as q; generalize (N.modulo n k) as r;
  intros r q H H'.

Lemma bN_bound b : (bN b < 256)%N.
Proof. pose proof (Byte.to_N_bounded b). unfold bN. lia. Qed.

Lemma bN_inj a b : bN a = bN b -> a = b.
Proof.
  unfold bN. intros H.
  pose proof (Byte.of_to_N a) as Ha. pose proof (Byte.of_to_N b) as Hb.
  rewrite H in Ha. rewrite Ha in Hb. by injection Hb.
Qed.

Lemma of_N_lt n : (n < 256)%N -> exists b, Byte.of_N n = Some b /\ bN b = n.
Proof.
  intros H. destruct (Byte.of_N n) as [b|] eqn:E.
  - exists b. split; [done|]. unfold bN. by apply Byte.to_of_N.
  - apply Byte.of_N_None_iff in E. lia.
Qed.

Lemma lenN_app {A} (a b : list A) : lenN (a ++ b) = (lenN a + lenN b)%N.
Proof. unfold lenN. rewrite app_length. lia. Qed.

Lemma byte_in_spec lo hi b : byte_in lo hi b = true <-> (bN lo <= bN b <= bN hi)%N.
Proof. unfold byte_in. rewrite andb_true_iff, !N.leb_le. done. Qed.

Lemma is_digit_spec b : is_digit b = true <-> (48 <= bN b <= 57)%N.
Proof. apply byte_in_spec. Qed.

(** ** Decimal digits *)

Lemma digit_char_bN d : (d < 10)%N -> bN (digit_char d) = (48 + d)%N.
Proof.
  intros H. unfold digit_char. destruct (of_N_lt (48 + d)) as (b & -> & Hb); [lia|done].
Qed.

Lemma digit_char_is_digit d : (d < 10)%N -> is_digit (digit_char d) = true.
Proof. intros H. apply is_digit_spec. rewrite digit_char_bN by done. lia. Qed.

(** Value of a digit string, most significant first. *)
Definition dval (l : bytes) (acc : N) : N :=
  fold_left (fun a b => (a * 10 + (bN b - 48))%N) l acc.

Lemma dval_app a b acc : dval (a ++ b) acc = dval b (dval a acc).
Proof. apply fold_left_app. Qed.

Lemma dval_mono l acc : (acc <= dval l acc)%N.
Proof.
  revert acc. induction l as [|b l IH]; simpl; intros acc; [lia|].
  etrans; [|apply IH]. lia.
Qed.

Lemma parse_digits_spec bound l acc :
  (acc <= bound)%N ->
  parse_digits bound acc l =
  if forallb is_digit l && (dval l acc <=? bound)%N then Some (dval l acc) else None.
Proof.
  revert acc. induction l as [|b l IH]; simpl; intros acc H.
  - rewrite (proj2 (N.leb_le _ _) H). done.
  - destruct (is_digit b) eqn:E; simpl; [|done].
    destruct (acc * 10 + (bN b - 48) <=? bound)%N eqn:E2.
    + apply IH. by apply N.leb_le.
    + apply N.leb_gt in E2. destruct (forallb is_digit l); simpl; [|done].
      replace (dval l _ <=? bound)%N with false; [done|].
      symmetry. apply N.leb_gt. eapply N.lt_le_trans; [exact E2|]. apply dval_mono.
Qed.

Lemma dec_aux_app f n acc : dec_aux f n acc = dec_aux f n [] ++ acc.
Proof.
  revert n acc. induction f as [|f IH]; intros n acc; simpl; [done|].
  destruct (n / 10 =? 0)%N; [done|].
  rewrite IH. rewrite (IH _ [_]). by rewrite <- app_assoc.
Qed.

Lemma dec_aux_spec f n :
  (0 < f)%nat -> (n < 10 ^ N.of_nat f)%N ->
  forallb is_digit (dec_aux f n []) = true /\ dval (dec_aux f n []) 0 = n
  /\ dec_aux f n [] <> [].
Proof.
  revert n. induction f as [|f IH]; intros n Hf Hn; [lia|]. simpl.
  assert (Hm : (n mod 10 < 10)%N) by (apply N.mod_lt; lia).
  destruct (n / 10 =? 0)%N eqn:E.
  - apply N.eqb_eq in E. simpl. rewrite digit_char_is_digit by done. split; [done|].
    split; [|done]. rewrite digit_char_bN by done.
    pose proof (N.div_mod n 10). lia.
  - apply N.eqb_neq in E.
    rewrite dec_aux_app.
    rewrite Nat2N.inj_succ, N.pow_succ_r' in Hn.
    assert (Hd : (n / 10 < 10 ^ N.of_nat f)%N).
    { apply N.div_lt_upper_bound; [lia|exact Hn]. }
    destruct f as [|f'].
    { simpl in Hd. apply N.lt_1_r in Hd. congruence. }
    destruct (IH (n / 10)%N) as (H1 & H2 & H3); [lia|done|].
    split.
    { rewrite forallb_app, H1. simpl. by rewrite digit_char_is_digit. }
    split.
    { rewrite dval_app, H2. unfold dval. simpl. rewrite digit_char_bN by done.
      clear. ndm n 10%N. lia. }
    { intros H0. apply app_eq_nil in H0 as [_ ?]. done. }
Qed.

Lemma size_nat_spec n : N.of_nat (N.size_nat n) = N.size n.
Proof.
  destruct n as [|p]; [done|]. unfold N.size, N.size_nat.
  induction p as [p IH|p IH|]; simpl; try done; rewrite Nat2N.inj_succ, IH; lia.
Qed.

Lemma lt_pow_size b n : (2 <= b)%N -> (n < b ^ N.of_nat (S (N.size_nat n)))%N.
Proof.
  intros Hb. rewrite Nat2N.inj_succ, size_nat_spec.
  apply N.lt_le_trans with (2 ^ N.size n)%N; [apply N.size_gt|].
  etrans; [by apply (N.pow_le_mono_l 2 b)|]. apply N.pow_le_mono_r; lia.
Qed.

Lemma dec_spec n :
  forallb is_digit (dec n) = true /\ dval (dec n) 0 = n /\ dec n <> [].
Proof. apply dec_aux_spec; [lia|]. by apply lt_pow_size. Qed.

Lemma dec_length_pos n : (0 < length (dec n))%nat.
Proof. destruct (dec_spec n) as (_ & _ & H). by destruct (dec n); simpl; [|lia]. Qed.

Lemma dec_digits n b : b ∈ dec n -> is_digit b = true.
Proof.
  destruct (dec_spec n) as (H & _ & _). rewrite forallb_forall in H.
  intros Hb. apply H. by apply elem_of_list_In.
Qed.

Lemma parse_digits_dec bound n :
  parse_digits bound 0 (dec n) = if (n <=? bound)%N then Some n else None.
Proof.
  rewrite parse_digits_spec by lia. destruct (dec_spec n) as (-> & -> & _). done.
Qed.

Lemma not_digit_neq b c : is_digit b = true -> is_digit c = false -> b <> c.
Proof. congruence. Qed.

Lemma parse_unsigned_dec bound n :
  parse_unsigned bound (dec n) = if (n <=? bound)%N then Some n else None.
Proof.
  pose proof (dec_digits n) as Hd. pose proof (parse_digits_dec bound n) as Hp.
  destruct (dec_spec n) as (_ & _ & Hne). unfold parse_unsigned.
  destruct (dec n) as [|b l]; [done|].
  rewrite decide_False; [done|]. apply not_digit_neq; [|done]. apply Hd. left.
Qed.

Lemma parse_u64_dec n : (n < 2 ^ 64)%N -> parse_u64 (dec n) = Some n.
Proof.
  intros H. unfold parse_u64. rewrite parse_unsigned_dec.
  rewrite (proj2 (N.leb_le _ _)); [done|].
  change (2 ^ 64)%N with 18446744073709551616%N in H. unfold u64_max. lia.
Qed.

Lemma parse_i64_decZ z :
  (- 2 ^ 63 <= z < 2 ^ 63)%Z -> parse_i64 (decZ z) = Some z.
Proof.
  change (2 ^ 63)%Z with 9223372036854775808%Z. intros H.
  unfold decZ. destruct (z <? 0)%Z eqn:E.
  - apply Z.ltb_lt in E. unfold parse_i64.
    rewrite decide_False by done. rewrite decide_True by done.
    destruct (dec_spec (Z.to_N (- z))) as (_ & _ & Hne).
    pose proof (parse_digits_dec i64_min_abs (Z.to_N (- z))) as Hp.
    destruct (dec (Z.to_N (- z))) as [|b l]; [done|].
    rewrite Hp. rewrite (proj2 (N.leb_le _ _)) by (unfold i64_min_abs; lia).
    simpl. f_equal. lia.
  - apply Z.ltb_ge in E.
    pose proof (dec_digits (Z.to_N z)) as Hd.
    pose proof (parse_digits_dec i64_max (Z.to_N z)) as Hp.
    destruct (dec_spec (Z.to_N z)) as (_ & _ & Hne). unfold parse_i64.
    destruct (dec (Z.to_N z)) as [|b l]; [done|].
    assert (is_digit b = true) by (apply Hd; left).
    rewrite decide_False by (by apply not_digit_neq).
    rewrite decide_False by (by apply not_digit_neq).
    rewrite Hp. rewrite (proj2 (N.leb_le _ _)) by (unfold i64_max; lia).
    simpl. f_equal. lia.
Qed.

(** ** Hexadecimal *)

Lemma lt_16_cases (P : N -> Prop) :
  P 0%N -> P 1%N -> P 2%N -> P 3%N -> P 4%N -> P 5%N -> P 6%N -> P 7%N ->
  P 8%N -> P 9%N -> P 10%N -> P 11%N -> P 12%N -> P 13%N -> P 14%N -> P 15%N ->
  forall d, (d < 16)%N -> P d.
Proof.
  intros. assert (Hd : (d = 0 \/ d = 1 \/ d = 2 \/ d = 3 \/ d = 4 \/ d = 5 \/ d = 6 \/ d = 7
    \/ d = 8 \/ d = 9 \/ d = 10 \/ d = 11 \/ d = 12 \/ d = 13 \/ d = 14 \/ d = 15)%N) by lia.
  repeat (destruct Hd as [->|Hd]; [done|]). by subst.
Qed.

Lemma hex_aux_unfold f n acc :
  hex_aux (S f) n acc =
  if (n / 16 =? 0)%N then hexdig (n mod 16) :: acc else hex_aux f (n / 16) (hexdig (n mod 16) :: acc).
Proof. done. Qed.

Lemma hex_aux_fuel f1 f2 n acc :
  (0 < f1)%nat -> (0 < f2)%nat -> (n < 16 ^ N.of_nat f1)%N -> (n < 16 ^ N.of_nat f2)%N ->
  hex_aux f1 n acc = hex_aux f2 n acc.
Proof.
  revert f2 n acc. induction f1 as [|f1 IH]; intros f2 n acc H1 H2 L1 L2; [lia|].
  destruct f2 as [|f2]; [lia|]. rewrite !hex_aux_unfold.
  destruct (n / 16 =? 0)%N eqn:E; [done|]. apply N.eqb_neq in E.
  rewrite Nat2N.inj_succ, N.pow_succ_r' in L1, L2.
  assert (M1 : (n / 16 < 16 ^ N.of_nat f1)%N) by (apply N.div_lt_upper_bound; [lia|exact L1]).
  assert (M2 : (n / 16 < 16 ^ N.of_nat f2)%N) by (apply N.div_lt_upper_bound; [lia|exact L2]).
  apply IH; try done.
  - destruct f1; [|lia]. apply N.lt_1_r in M1. done.
  - destruct f2; [|lia]. apply N.lt_1_r in M2. done.
Qed.

Lemma hex04_spec n :
  (n < 65536)%N ->
  hex04 n = [hexdig (n / 4096); hexdig (n / 256 mod 16); hexdig (n / 16 mod 16); hexdig (n mod 16)].
Proof.
  intros H. unfold hex04.
  rewrite (hex_aux_fuel _ 4 n []); [|lia|lia|by apply lt_pow_size|done].
  rewrite !hex_aux_unfold.
  rewrite !N.div_div by lia.
  change (16 * 16)%N with 256%N. change (256 * 16)%N with 4096%N.
  destruct (n / 16 =? 0)%N eqn:E1; [apply N.eqb_eq in E1|apply N.eqb_neq in E1].
  { assert (Hn : (n < 16)%N) by (by apply N.div_small_iff).
    rewrite (N.div_small n 4096), (N.div_small n 256), E1 by lia. done. }
  destruct (n / 256 =? 0)%N eqn:E2; [apply N.eqb_eq in E2|apply N.eqb_neq in E2].
  { assert (Hn : (n < 256)%N) by (by apply N.div_small_iff).
    rewrite (N.div_small n 4096), E2 by lia. done. }
  destruct (n / 4096 =? 0)%N eqn:E3; [apply N.eqb_eq in E3|apply N.eqb_neq in E3].
  { rewrite E3. done. }
  rewrite (N.mod_small (n / 4096) 16); [|apply N.div_lt_upper_bound; lia].
  change (hex_aux 0 _ ?x) with x.
  destruct (_ =? _)%N; done.
Qed.

Lemma hexdig_bN d :
  (d < 16)%N -> bN (hexdig d) = (if d <? 10 then 48 + d else 87 + d)%N.
Proof.
  revert d. apply (lt_16_cases (fun d => bN (hexdig d) = (if d <? 10 then 48 + d else 87 + d)%N));
    reflexivity.
Qed.

Lemma hexdig_inj c d : (c < 16)%N -> (d < 16)%N -> hexdig c = hexdig d -> c = d.
Proof.
  intros Hc Hd H. apply (f_equal bN) in H. rewrite !hexdig_bN in H by done.
  destruct (c <? 10)%N eqn:E1; destruct (d <? 10)%N eqn:E2;
    rewrite ?N.ltb_lt, ?N.ltb_ge in *; lia.
Qed.

Lemma hex_encode_cons b l :
  hex_encode (b :: l) = hexdig (bN b / 16) :: hexdig (bN b mod 16) :: hex_encode l.
Proof. done. Qed.

Lemma hex_encode_length l : length (hex_encode l) = (2 * length l)%nat.
Proof. induction l as [|b l IH]; [done|]. rewrite hex_encode_cons. simpl. lia. Qed.

Lemma hex_nibbles b : (bN b / 16 < 16)%N /\ (bN b mod 16 < 16)%N.
Proof.
  pose proof (bN_bound b). split; [|apply N.mod_lt; lia].
  apply N.div_lt_upper_bound; lia.
Qed.

Lemma hex_encode_inj a b : hex_encode a = hex_encode b -> a = b.
Proof.
  revert b. induction a as [|x a IH]; intros [|y b]; try done.
  rewrite !hex_encode_cons. intros [= H1 H2 H3].
  destruct (hex_nibbles x), (hex_nibbles y).
  apply hexdig_inj in H1; [|done..]. apply hexdig_inj in H2; [|done..].
  f_equal; [|by apply IH]. apply bN_inj.
  rewrite (N.div_mod (bN x) 16), (N.div_mod (bN y) 16) by lia. by rewrite H1, H2.
Qed.

(** ** Splitting *)

Lemma split_on_not_nil c l : split_on c l <> [].
Proof. destruct l as [|b l]; simpl; [done|]. case_decide; [done|]. by destruct (split_on c l). Qed.

Lemma split_on_none c l : c ∉ l -> split_on c l = [l].
Proof.
  induction l as [|b l IH]; intros H; simpl; [done|].
  apply not_elem_of_cons in H as [H1 H2]. rewrite decide_False by done.
  by rewrite IH.
Qed.

Lemma split_on_app c a b : c ∉ a -> split_on c (a ++ c :: b) = a :: split_on c b.
Proof.
  induction a as [|x a IH]; intros H; simpl.
  - by rewrite decide_True.
  - apply not_elem_of_cons in H as [H1 H2]. rewrite decide_False by done.
    by rewrite IH.
Qed.

Lemma split_on_pieces c l w : w ∈ split_on c l -> c ∉ w.
Proof.
  revert w. induction l as [|b l IH]; simpl; intros w.
  - rewrite elem_of_list_singleton. intros ->. apply not_elem_of_nil.
  - case_decide as E.
    + rewrite elem_of_cons. intros [->|H]; [apply not_elem_of_nil|by apply IH].
    + destruct (split_on c l) as [|w' ws] eqn:Es; [by destruct (split_on_not_nil c l)|].
      rewrite elem_of_cons. intros [->|H].
      * apply not_elem_of_cons. split; [done|]. apply IH. left.
      * apply IH. by right.
Qed.

(** Joining pieces with a separator. *)
Fixpoint join (c : byte) (ws : list bytes) : bytes :=
  match ws with
  | [] => []
  | [w] => w
  | w :: ws' => w ++ c :: join c ws'
  end.

Lemma join_split c l : join c (split_on c l) = l.
Proof.
  induction l as [|b l IH]; simpl; [done|].
  case_decide as E.
  - subst. destruct (split_on c l) as [|w ws] eqn:Es; [by destruct (split_on_not_nil c l)|].
    simpl in *. by rewrite IH.
  - destruct (split_on c l) as [|w ws] eqn:Es; [by destruct (split_on_not_nil c l)|].
    destruct ws; simpl in *; by rewrite <- IH.
Qed.

Lemma split_join c ws : ws <> [] -> Forall (fun w => c ∉ w) ws -> split_on c (join c ws) = ws.
Proof.
  intros Hne Hall. induction Hall as [|w ws Hw Hall IH]; [done|].
  destruct ws as [|w' ws]; simpl.
  - by apply split_on_none.
  - rewrite split_on_app by done. f_equal. by apply IH.
Qed.

(** [splitn] with at least two pieces splits at the first separator. *)
Lemma splitn_S_some n c a b :
  c ∉ a -> splitn (S (S n)) c (a ++ c :: b) = a :: splitn (S n) c b.
Proof.
  intros H. cbn [splitn].
  assert (G : forall acc,
    (fix go (acc l : bytes) : list bytes :=
       match l with
       | [] => [acc]
       | x :: l' => if decide (x = c) then acc :: splitn (S n) c l' else go (acc ++ [x]) l'
       end) acc (a ++ c :: b) = (acc ++ a) :: splitn (S n) c b).
  { induction a as [|x a IH]; intros acc.
    - simpl. rewrite decide_True by done. by rewrite app_nil_r.
    - apply not_elem_of_cons in H as [H1 H2].
      simpl. rewrite decide_False by done. rewrite IH by done. by rewrite <- app_assoc. }
  apply G.
Qed.

Lemma splitn_S_none n c a : c ∉ a -> splitn (S (S n)) c a = [a].
Proof.
  intros H. cbn [splitn].
  assert (G : forall acc,
    (fix go (acc l : bytes) : list bytes :=
       match l with
       | [] => [acc]
       | x :: l' => if decide (x = c) then acc :: splitn (S n) c l' else go (acc ++ [x]) l'
       end) acc a = [acc ++ a]).
  { induction a as [|x a IH]; intros acc.
    - simpl. by rewrite app_nil_r.
    - apply not_elem_of_cons in H as [H1 H2].
      simpl. rewrite decide_False by done. rewrite IH by done. by rewrite <- app_assoc. }
  apply G.
Qed.

Lemma split_first (c : byte) (l : bytes) : c ∉ l \/ exists a b, l = a ++ c :: b /\ c ∉ a.
Proof.
  induction l as [|x l IH]; [left; apply not_elem_of_nil|].
  destruct (decide (x = c)) as [->|E].
  - right. exists [], l. split; [done|apply not_elem_of_nil].
  - destruct IH as [H|(a & b & -> & H)].
    + left. by apply not_elem_of_cons.
    + right. exists (x :: a), b. split; [done|]. by apply not_elem_of_cons.
Qed.

Lemma position_app c a b : c ∉ a -> position c (a ++ c :: b) = Some (length a).
Proof.
  induction a as [|x a IH]; intros H; simpl.
  - by rewrite decide_True.
  - apply not_elem_of_cons in H as [H1 H2]. rewrite decide_False by done. by rewrite IH.
Qed.

Lemma position_none c l : c ∉ l -> position c l = None.
Proof.
  induction l as [|x l IH]; intros H; simpl; [done|].
  apply not_elem_of_cons in H as [H1 H2]. rewrite decide_False by done. by rewrite IH.
Qed.

Lemma last_is_snoc c l b : last_is c (l ++ [b]) = bool_decide (b = c).
Proof. unfold last_is. by rewrite last_snoc. Qed.

Lemma last_is_true c l : last_is c l = true <-> exists l', l = l' ++ [c].
Proof.
  destruct l as [|x l _] using rev_ind.
  - split; [done|]. by intros ([|??] & ?).
  - rewrite last_is_snoc, bool_decide_eq_true. split.
    + intros ->. by exists l.
    + intros (l' & H). by apply app_inj_tail in H as [_ ->].
Qed.

(** ** Order of byte strings *)

Lemma blt_irrefl a : blt a a = false.
Proof. induction a as [|x a IH]; simpl; [done|]. rewrite N.ltb_irrefl, IH. by rewrite andb_false_r. Qed.

Lemma blt_trans a b c : blt a b = true -> blt b c = true -> blt a c = true.
Proof.
  revert b c. induction a as [|x a IH]; intros [|y b] [|z c]; simpl; try done.
  rewrite !orb_true_iff, !andb_true_iff, !N.ltb_lt, !N.eqb_eq.
  intros [H1|[H1 H1']] [H2|[H2 H2']].
  - left. lia.
  - left. lia.
  - left. lia.
  - right. split; [lia|]. eauto.
Qed.

Lemma blt_total a b : blt a b = false -> blt b a = false -> a = b.
Proof.
  revert b. induction a as [|x a IH]; intros [|y b]; simpl; try done.
  rewrite !orb_false_iff, !andb_false_iff, !N.ltb_ge, !N.eqb_neq.
  intros [H1 H2] [H3 H4]. assert (bN x = bN y) as E by lia.
  apply bN_inj in E as ->. f_equal. apply IH; naive_solver.
Qed.

Lemma blt_asym a b : blt a b = true -> blt b a = false.
Proof.
  intros H. destruct (blt b a) eqn:E; [|done].
  pose proof (blt_trans _ _ _ H E) as Hx. by rewrite blt_irrefl in Hx.
Qed.

(** ** UTF-8 *)

Definition ascii (b : byte) : bool := byte_in Byte.x00 Byte.x7f b.

Lemma utf8_lossy_ascii l : forallb ascii l = true -> utf8_lossy l = l.
Proof.
  unfold utf8_lossy. intros H.
  assert (G : forall n, (length l < n)%nat -> utf8_lossy_aux n l = l); [|apply G; lia].
  revert H. induction l as [|b l IH]; intros H [|n] Hn; simpl in *; try done; try lia.
  apply andb_true_iff in H as [H1 H2]. unfold ascii in H1. rewrite H1. simpl.
  rewrite ?drop_0, ?take_0. simpl. rewrite IH; [done..|lia].
Qed.

Lemma utf8_valid_ascii l : forallb ascii l = true -> utf8_valid l = true.
Proof.
  unfold utf8_valid. intros H.
  assert (G : forall n, (length l < n)%nat -> utf8_valid_aux n l = true); [|apply G; lia].
  revert H. induction l as [|b l IH]; intros H [|n] Hn; simpl in *; try done; try lia.
  apply andb_true_iff in H as [H1 H2]. unfold ascii in H1. rewrite H1. simpl.
  rewrite drop_0. apply IH; [done|lia].
Qed.
