(** Proofs about the formats of text (SpecWords.v). *)
From Verif Require Import Bytes ByteFacts Err FS Prog Pktline Args Local Spec TextProofs LossyFacts SpecWords.

(** ** UTF-8, in numbers *)

Definition mid (y : N) : Prop := (128 <= y < 192)%N.
Definition two (x y : N) : Prop := (194 <= x < 224)%N /\ mid y.
Definition three (x y : N) : Prop :=
  (224 <= x < 240)%N /\ mid y /\ (x = 224 -> 160 <= y)%N /\ (x = 237 -> y < 160)%N.
Definition four (x y : N) : Prop :=
  (240 <= x < 245)%N /\ mid y /\ (x = 240 -> 144 <= y)%N /\ (x = 244 -> y < 144)%N.

Ltac nums := unfold two, three, four, mid in *.

Lemma utf8_iff w :
  (exists c, utf8 c w) <->
  match w with
  | [x] => (x < 128)%N
  | [x; y] => two x y
  | [x; y; z] => three x y /\ mid z
  | [x; y; z; t] => four x y /\ mid z /\ mid t
  | _ => False
  end.
Proof.
  split.
  - intros (c & H). inversion H; subst; nums; lia.
  - intros H. destruct w as [|x [|y [|z [|t [|? ?]]]]]; try done.
    + eexists. by apply u_1.
    + nums. eexists. replace [x; y] with [192 + (x - 192); 128 + (y - 128)]%N by (repeat f_equal; lia).
      apply u_2; lia.
    + nums. eexists.
      replace [x; y; z] with [224 + (x - 224); 128 + (y - 128); 128 + (z - 128)]%N by (repeat f_equal; lia).
      apply u_3; lia.
    + nums. eexists.
      replace [x; y; z; t] with [240 + (x - 240); 128 + (y - 128); 128 + (z - 128); 128 + (t - 128)]%N
        by (repeat f_equal; lia).
      apply u_4; lia.
Qed.

Lemma char_iff w :
  char_of w <->
  match w with
  | [x] => (bN x < 128)%N
  | [x; y] => two (bN x) (bN y)
  | [x; y; z] => three (bN x) (bN y) /\ mid (bN z)
  | [x; y; z; t] => four (bN x) (bN y) /\ mid (bN z) /\ mid (bN t)
  | _ => False
  end.
Proof.
  unfold char_of. rewrite utf8_iff. by destruct w as [|x [|y [|z [|t [|? ?]]]]].
Qed.

Lemma unfinished_iff w :
  unfinished w <->
  match w with
  | [] => True
  | [x] => (194 <= bN x < 245)%N
  | [x; y] => three (bN x) (bN y) \/ four (bN x) (bN y)
  | [x; y; z] => four (bN x) (bN y) /\ mid (bN z)
  | _ => False
  end.
Proof.
  split.
  - intros (c & v & H & Hv).
    assert (G : exists c, utf8 c (map bN w ++ v)) by eauto. apply utf8_iff in G.
    destruct w as [|x [|y [|z [|t w]]]], v as [|a [|b [|d [|e [|? ?]]]]]; simpl in G; try done;
      nums; try lia; destruct w; simpl in *; try done.
  - intros H. destruct w as [|x [|y [|z [|t w]]]]; try done.
    + exists 0%N, [0%N]. split; [by apply u_1|done].
    + assert (G : exists v, v <> [] /\ exists c, utf8 c (bN x :: v)).
      { destruct (decide (bN x < 224)%N); [exists [128%N]|destruct (decide (bN x < 240)%N)].
        - split; [done|]. apply utf8_iff. nums. lia.
        - destruct (decide (bN x = 224)%N); [exists [160; 128]%N|exists [128; 128]%N];
            (split; [done|]; apply utf8_iff; nums; lia).
        - destruct (decide (bN x = 240)%N); [exists [144; 128; 128]%N|exists [128; 128; 128]%N];
            (split; [done|]; apply utf8_iff; nums; lia). }
      destruct G as (v & Hv & c & Hc). exists c, v. done.
    + destruct H as [H|H].
      * assert (G : exists c, utf8 c [bN x; bN y; 128%N]) by (apply utf8_iff; nums; lia).
        destruct G as [c Hc]. exists c, [128%N]. done.
      * assert (G : exists c, utf8 c [bN x; bN y; 128; 128]%N) by (apply utf8_iff; nums; lia).
        destruct G as [c Hc]. exists c, [128; 128]%N. done.
    + assert (G : exists c, utf8 c [bN x; bN y; bN z; 128%N]) by (apply utf8_iff; nums; lia).
      destruct G as [c Hc]. exists c, [128%N]. done.
Qed.

(** ** What [utf8_next] finds *)

Lemma byte_in_false lo hi b : byte_in lo hi b = false <-> ~ (bN lo <= bN b <= bN hi)%N.
Proof. rewrite <- byte_in_spec. by destruct (byte_in lo hi b). Qed.

Ltac consts :=
  repeat match goal with
  | H : context [bN ?c] |- _ =>
      is_constructor c; let v := eval vm_compute in (bN c) in change (bN c) with v in *
  end.

Ltac split_bytes :=
  unfold cont in *;
  repeat match goal with
  | |- context [if ?t then _ else _] =>
      lazymatch t with
      | byte_in _ _ _ =>
          let E := fresh "E" in destruct t eqn:E;
          [apply byte_in_spec in E|apply byte_in_false in E]
      | decide (?b = ?c) =>
          let E := fresh "E" in destruct t as [E|E];
          [apply (f_equal bN) in E
          |assert (bN b <> bN c) by (intros ?; apply E; by apply bN_inj)]
      end; consts; try (exfalso; lia)
  end.

(** The head of [l] is a character of [n] bytes, or not: then [n] bytes are what
    is to be replaced. *)
Definition found (l : bytes) (r : bool * nat) : Prop :=
  (r.2 <= length l)%nat /\ (0 < r.2)%nat /\
  if r.1 then char_of (take r.2 l)
  else (unfinished (take r.2 l) /\
        forall x, l !! r.2 = Some x -> ~ unfinished (take (S r.2) l) /\ ~ char_of (take (S r.2) l)) \/
       (r.2 = 1%nat /\ ~ unfinished (take 1 l) /\ ~ char_of (take 1 l)).

Lemma next_found b l : found (b :: l) (utf8_next (b :: l)).
Proof.
  pose proof (bN_bound b) as Hb.
  unfold found. destruct l as [|c [|d [|e l]]];
    simpl; unfold utf8_tail2, utf8_tail3, utf8_tail4; split_bytes; simpl;
    (split; [lia|]; split; [lia|]);
    rewrite ?take_0, ?char_iff, ?unfinished_iff; nums;
    try lia.
  all: first
    [left; split; [lia|]; intros x Hx; first [discriminate Hx|clear Hx];
     rewrite ?char_iff, ?unfinished_iff; nums; lia
    |right; rewrite ?char_iff; nums; lia].
Qed.

Lemma next_char w l : char_of w -> utf8_next (w ++ l) = (true, length w).
Proof.
  intros H. apply char_iff in H. nums.
  destruct w as [|x [|y [|z [|t [|? ?]]]]]; try done;
    simpl; unfold utf8_tail2, utf8_tail3, utf8_tail4; split_bytes; try done; exfalso; lia.
Qed.

Lemma next_part w l :
  w <> [] -> unfinished w ->
  (forall x l', l = x :: l' -> ~ unfinished (w ++ [x]) /\ ~ char_of (w ++ [x])) ->
  utf8_next (w ++ l) = (false, length w).
Proof.
  intros Hw H Hm. apply unfinished_iff in H.
  assert (M : match l with [] => True | x :: _ => ~ unfinished (w ++ [x]) /\ ~ char_of (w ++ [x]) end)
    by (destruct l; [done|by eapply Hm]).
  clear Hm. destruct w as [|x [|y [|z [|t w]]]]; try done; destruct l as [|u l]; simpl in M;
    rewrite ?char_iff, ?unfinished_iff in M; nums;
    simpl; unfold utf8_tail2, utf8_tail3, utf8_tail4; split_bytes; try done; exfalso; lia.
Qed.

Lemma next_byte b l : ~ unfinished [b] -> ~ char_of [b] -> utf8_next (b :: l) = (false, 1%nat).
Proof.
  rewrite unfinished_iff, char_iff. intros H1 H2. pose proof (bN_bound b).
  simpl; unfold utf8_tail2, utf8_tail3, utf8_tail4; split_bytes; try done; exfalso; lia.
Qed.

Lemma char_length w : char_of w -> (0 < length w)%nat.
Proof. rewrite char_iff. destruct w; [done|simpl; lia]. Qed.

(** ** Valid text *)

Lemma valid_aux_iff f l : (length l < f)%nat -> utf8_valid_aux f l = true <-> utf8_text l.
Proof.
  revert l. induction f as [|f IH]; intros l Hf; [lia|]. split.
  - destruct l as [|b l]; [intros _; constructor|].
    pose proof (next_found b l) as HF. cbn [utf8_valid_aux].
    destruct (utf8_next (b :: l)) as [ok n]. destruct HF as (H1 & H2 & H3). simpl in H1, H2, H3.
    destruct ok; [|done]. intros H. simpl in H.
    rewrite <- (take_drop n (b :: l)). constructor; [done|]. apply IH; [|done].
    rewrite drop_length. simpl in *. lia.
  - intros H. inversion H as [|w l0 Hw Hl]; subst; [done|].
    pose proof (next_char w l0 Hw) as HN. pose proof (char_length w Hw) as HL.
    rewrite app_length in Hf.
    destruct (w ++ l0) as [|b l] eqn:E; [done|]. cbn [utf8_valid_aux]. rewrite HN, <- E, drop_app.
    simpl. apply IH; [lia|done].
Qed.

Lemma valid_iff l : utf8_valid l = true <-> utf8_text l.
Proof. apply valid_aux_iff. lia. Qed.

(** ** Repaired text *)

Lemma lossy_aux_iff f l v : (length l < f)%nat -> repaired l v <-> v = utf8_lossy_aux f l.
Proof.
  revert l v. induction f as [|f IH]; intros l v Hf; [lia|]. split.
  - intros H. inversion H as [|w l0 v0 Hw Hl|w l0 v0 Hn Hu Hm Hl|b l0 v0 Hu Hc Hl]; subst; [done|..].
    + pose proof (next_char w l0 Hw) as HN. pose proof (char_length w Hw) as HL.
      rewrite app_length in Hf.
      destruct (w ++ l0) as [|b l] eqn:E; [destruct w; [simpl in HL; lia|done]|].
      cbn [utf8_lossy_aux]. rewrite HN, <- E, drop_app, take_app. f_equal. apply IH; [lia|done].
    + pose proof (next_part w l0 Hn Hu Hm) as HN. rewrite app_length in Hf.
      assert (HL : (0 < length w)%nat) by (destruct w; [done|simpl; lia]).
      destruct (w ++ l0) as [|b l] eqn:E; [by destruct w|].
      cbn [utf8_lossy_aux]. rewrite HN, <- E, drop_app. f_equal. apply IH; [lia|done].
    + pose proof (next_byte b l0 Hu Hc) as HN. simpl in Hf.
      cbn [utf8_lossy_aux]. rewrite HN. f_equal. simpl. rewrite drop_0. apply IH; [lia|done].
  - intros ->. destruct l as [|b l]; [constructor|].
    pose proof (next_found b l) as HF. cbn [utf8_lossy_aux].
    destruct (utf8_next (b :: l)) as [ok n]. destruct HF as (H1 & H2 & H3). cbn [fst snd] in H1, H2, H3.
    assert (HD : repaired (drop n (b :: l)) (utf8_lossy_aux f (drop n (b :: l)))).
    { apply IH; [|done]. rewrite drop_length. simpl in *. lia. }
    destruct ok.
    + rewrite <- (take_drop n (b :: l)) at 1. by apply rp_char.
    + destruct H3 as [(H3 & H4)|(-> & H3 & H4)].
      * rewrite <- (take_drop n (b :: l)) at 1. apply rp_part; [|done| |done].
        { destruct n; [lia|done]. }
        intros x l' E.
        assert (Hx : (b :: l) !! n = Some x).
        { rewrite <- (Nat.add_0_r n), <- lookup_drop, E. done. }
        rewrite <- (take_S_r _ _ _ Hx). by eapply H4.
      * apply rp_byte; [done|done|]. simpl in HD. by rewrite drop_0 in HD.
Qed.

Lemma lossy_iff l v : repaired l v <-> v = utf8_lossy l.
Proof. apply lossy_aux_iff. lia. Qed.

Lemma replacement_char : char_of replacement.
Proof. apply char_iff. nums. vm_compute. intuition congruence. Qed.

Lemma repaired_valid l v : repaired l v -> utf8_text v.
Proof.
  induction 1; [constructor|by constructor|..]; (constructor; [apply replacement_char|done]).
Qed.

Lemma text_repaired l : utf8_text l -> repaired l l.
Proof. induction 1; [constructor|by constructor]. Qed.

(** ** Numbers *)

Lemma dec_aux_fuel f1 f2 n acc :
  (0 < f1)%nat -> (0 < f2)%nat -> (n < 10 ^ N.of_nat f1)%N -> (n < 10 ^ N.of_nat f2)%N ->
  dec_aux f1 n acc = dec_aux f2 n acc.
Proof.
  revert f2 n acc. induction f1 as [|f1 IH]; intros f2 n acc H1 H2 L1 L2; [lia|].
  destruct f2 as [|f2]; [lia|]. cbn [dec_aux].
  destruct (n / 10 =? 0)%N eqn:E; [done|]. apply N.eqb_neq in E.
  rewrite Nat2N.inj_succ, N.pow_succ_r' in L1, L2.
  assert (M1 : (n / 10 < 10 ^ N.of_nat f1)%N) by (apply N.div_lt_upper_bound; [lia|exact L1]).
  assert (M2 : (n / 10 < 10 ^ N.of_nat f2)%N) by (apply N.div_lt_upper_bound; [lia|exact L2]).
  apply IH; try done.
  - destruct f1; [|lia]. apply N.lt_1_r in M1. done.
  - destruct f2; [|lia]. apply N.lt_1_r in M2. done.
Qed.

Lemma dec_small n : (n < 10)%N -> dec n = [digit_char n].
Proof.
  intros H. unfold dec. cbn [dec_aux]. rewrite N.div_small, N.mod_small by done. done.
Qed.

Lemma dec_more u v : (0 < u)%N -> (v < 10)%N -> dec (10 * u + v) = dec u ++ [digit_char v].
Proof.
  intros Hu Hv. unfold dec at 1. cbn [dec_aux].
  replace ((10 * u + v) / 10)%N with u by (apply (N.div_unique _ _ _ v); lia).
  replace ((10 * u + v) mod 10)%N with v by (apply (N.mod_unique _ _ u); lia).
  rewrite (proj2 (N.eqb_neq u 0)) by lia. rewrite dec_aux_app. f_equal.
  assert (HP : (10 * u + v < 10 ^ N.of_nat (S (N.size_nat (10 * u + v))))%N) by (by apply lt_pow_size).
  rewrite Nat2N.inj_succ, N.pow_succ_r' in HP.
  assert (HU : (u < 10 ^ N.of_nat (N.size_nat (10 * u + v)))%N) by lia.
  unfold dec. apply dec_aux_fuel; [|lia|done|by apply lt_pow_size].
  destruct (N.size_nat _); [|lia]. simpl in HU. lia.
Qed.

Lemma digit_lookup v c : bs "0123456789" !! N.to_nat v = Some c <-> (v < 10)%N /\ c = digit_char v.
Proof.
  split.
  - intros H. assert (Hv : (v < 10)%N).
    { apply lookup_lt_Some in H. change (length (bs "0123456789")) with 10%nat in H. lia. }
    split; [done|].
    assert (Hd : (v = 0 \/ v = 1 \/ v = 2 \/ v = 3 \/ v = 4 \/ v = 5 \/ v = 6 \/ v = 7 \/ v = 8 \/ v = 9)%N) by lia.
    repeat (destruct Hd as [->|Hd]; [by injection H as <-|]). subst. by injection H as <-.
  - intros [Hv ->].
    assert (Hd : (v = 0 \/ v = 1 \/ v = 2 \/ v = 3 \/ v = 4 \/ v = 5 \/ v = 6 \/ v = 7 \/ v = 8 \/ v = 9)%N) by lia.
    repeat (destruct Hd as [->|Hd]; [done|]). by subst.
Qed.

Lemma denotes_head_nonzero l n : denotes l n -> head l <> Some Byte.x30 -> (0 < n)%N.
Proof.
  induction 1 as [c v H|l u c v H IH Hc]; intros Hh.
  - apply digit_lookup in H as [Hv ->]. destruct (decide (v = 0)%N) as [->|]; [done|lia].
  - assert (head l <> Some Byte.x30).
    { intros E. apply Hh. destruct l; [done|]. by simpl in *. }
    pose proof (IH H0). lia.
Qed.

Lemma decimal_iff l n : decimal l n <-> l = dec n.
Proof.
  split.
  - intros [H Hz]. destruct (decide (head l = Some Byte.x30)) as [E|E].
    { pose proof (Hz E) as ->. apply denotes_dval in H as (_ & _ & <-). done. }
    clear Hz. induction H as [c v H|l u c v H IH Hc].
    + apply digit_lookup in H as [Hv ->]. by rewrite dec_small.
    + apply digit_lookup in Hc as [Hv ->].
      assert (E' : head l <> Some Byte.x30).
      { intros E'. apply E. destruct l; [done|]. by simpl in *. }
      rewrite dec_more; [by rewrite IH|by eapply denotes_head_nonzero|done].
  - intros ->. split.
    + apply denotes_dval. destruct (dec_spec n) as (? & ? & ?). done.
    + induction n as [n IH] using (well_founded_induction N.lt_wf_0). intros Hh.
      destruct (decide (n < 10)%N) as [Hs|Hs].
      { rewrite dec_small in * by done. by injection Hh as ->. }
      pose proof (N.div_mod n 10 ltac:(lia)) as Hd. pose proof (N.mod_lt n 10 ltac:(lia)) as Hm.
      assert (Hp : (0 < n / 10)%N) by (apply N.div_str_pos; lia).
      rewrite Hd, dec_more in Hh by done.
      assert (Hz : dec (n / 10) = bs "0").
      { apply IH; [apply N.div_lt; lia|]. pose proof (dec_length_pos (n / 10)).
        destruct (dec (n / 10)); [simpl in *; lia|done]. }
      exfalso. destruct (dec_spec (n / 10)) as (_ & Hv & _). rewrite Hz in Hv.
      change (dval (bs "0") 0) with 0%N in Hv. lia.
Qed.

Lemma decimal_signed_iff l z : decimal_signed l z <-> l = decZ z.
Proof.
  unfold decimal_signed, decZ. destruct (z <? 0)%Z eqn:E; [apply Z.ltb_lt in E|apply Z.ltb_ge in E].
  - split.
    + intros [(n & _ & ->)|(d & n & -> & H & Hn & ->)]; [lia|].
      apply decimal_iff in H as ->. rewrite Z.opp_involutive, N2Z.id. done.
    + intros ->. right. exists (dec (Z.to_N (- z))), (Z.to_N (- z)).
      split; [done|]. split; [by apply decimal_iff|]. lia.
  - split.
    + intros [(n & H & ->)|(d & n & -> & H & Hn & ->)]; [|lia].
      apply decimal_iff in H as ->. by rewrite N2Z.id.
    + intros ->. left. exists (Z.to_N z). split; [by apply decimal_iff|lia].
Qed.

Lemma hex_digit_iff c v : hex_digit c v <-> (v < 16)%N /\ c = hexdig v.
Proof.
  unfold hex_digit. split.
  - intros H. assert (Hv : (v < 16)%N).
    { apply lookup_lt_Some in H. change (length (bs "0123456789abcdef")) with 16%nat in H. lia. }
    split; [done|]. revert H. revert Hv. revert v.
    apply (lt_16_cases (fun v => bs "0123456789abcdef" !! N.to_nat v = Some c -> c = hexdig v));
      intros H; by injection H as <-.
  - intros [Hv ->]. revert v Hv.
    by apply (lt_16_cases (fun v => bs "0123456789abcdef" !! N.to_nat v = Some (hexdig v))).
Qed.

Lemma two_digits b x y c d :
  hex_digit c x -> hex_digit d y -> bN b = (16 * x + y)%N ->
  c = hexdig (bN b / 16) /\ d = hexdig (bN b mod 16).
Proof.
  rewrite !hex_digit_iff. intros [Hx ->] [Hy ->] ->.
  rewrite <- (N.div_unique (16 * x + y) 16 x y) by lia.
  rewrite <- (N.mod_unique (16 * x + y) 16 x y) by lia. done.
Qed.

Lemma digits_of b :
  hex_digit (hexdig (bN b / 16)) (bN b / 16) /\ hex_digit (hexdig (bN b mod 16)) (bN b mod 16) /\
  bN b = (16 * (bN b / 16) + bN b mod 16)%N.
Proof.
  destruct (hex_nibbles b) as [H1 H2]. rewrite !hex_digit_iff. repeat split; try done.
  apply N.div_mod. lia.
Qed.

Lemma hex_text_iff l w : hex_text l w <-> w = hex_encode l.
Proof.
  split.
  - induction 1 as [|b x y c d l w Hc Hd Hb H IH]; [done|].
    destruct (two_digits _ _ _ _ _ Hc Hd Hb) as [-> ->]. by rewrite hex_encode_cons, IH.
  - intros ->. induction l as [|b l IH]; [constructor|]. rewrite hex_encode_cons.
    destruct (digits_of b) as (H1 & H2 & H3). by eapply ht_cons.
Qed.

(** ** Quoted byte strings *)

Lemma debug_letter b : letter (debug_byte b) b.
Proof.
  unfold debug_byte.
  case_decide as E1; [subst; apply l_nl|]. case_decide as E2; [subst; apply l_cr|].
  case_decide as E3; [subst; apply l_tab|]. case_decide as E4; [subst; apply l_back|].
  case_decide as E5; [subst; apply l_quote|]. case_decide as E6; [subst; apply l_nul|].
  destruct (byte_in Byte.x20 Byte.x7e b) eqn:E.
  - apply byte_in_spec in E. consts. apply l_plain; [lia|done|done].
  - destruct (digits_of b) as (H1 & H2 & H3). by eapply l_hex.
Qed.

Lemma debug_literal l : literal (debug_bytes l) l.
Proof.
  exists (flat_map debug_byte l). split; [done|].
  induction l as [|b l IH]; [constructor|]. simpl. apply ls_cons; [apply debug_letter|done].
Qed.

(** A literal has one meaning. *)
Lemma hex_digit_fun c x y : hex_digit c x -> hex_digit c y -> x = y.
Proof. rewrite !hex_digit_iff. intros [Hx ->] [Hy H]. by apply hexdig_inj in H. Qed.

Lemma letter_starts w v ws vs b c :
  letter w b -> letter v c -> w ++ ws = v ++ vs -> w = v /\ b = c /\ ws = vs.
Proof.
  intros H1 H2 E. destruct H1, H2; simpl in E; try discriminate E; injection E; intros; subst; try done.
  match goal with
  | A : hex_digit ?c ?x, A' : hex_digit ?c ?x', B : hex_digit ?d ?y, B' : hex_digit ?d ?y' |- _ =>
      pose proof (hex_digit_fun _ _ _ A A'); pose proof (hex_digit_fun _ _ _ B B')
  end. subst. split; [done|]. split; [|done]. apply bN_inj. congruence.
Qed.

Lemma letters_fun w l m : letters w l -> letters w m -> l = m.
Proof.
  intros H. revert m. induction H as [|w b ws l Hb H IH]; intros m Hm.
  - inversion Hm as [|w b ws l Hb H E]; [done|]. subst. exfalso. inversion Hb; subst; done.
  - inversion Hm as [E|w' b' ws' l' Hb' H' E]; subst.
    { exfalso. inversion Hb; subst; done. }
    destruct (letter_starts _ _ _ _ _ _ Hb' Hb E) as (-> & -> & ->). f_equal. by apply IH.
Qed.

Lemma literal_fun t l m : literal t l -> literal t m -> l = m.
Proof.
  intros (w & -> & H) (w' & E & H'). apply app_inv_head in E. apply app_inv_tail in E as ->.
  by eapply letters_fun.
Qed.

(** ** Order and pieces *)

Lemma before_cons x a b : before a b -> before (x :: a) (x :: b).
Proof.
  intros [(y & l & ->)|(p & y & z & l & m & -> & -> & H)].
  - left. by exists y, l.
  - right. by exists (x :: p), y, z, l, m.
Qed.

Lemma blt_iff a b : blt a b = true <-> before a b.
Proof.
  split.
  - revert b. induction a as [|x a IH]; intros [|y b]; simpl; intros H; try done.
    + left. by exists y, b.
    + apply orb_true_iff in H as [H|H].
      * apply N.ltb_lt in H. right. by exists [], x, y, a, b.
      * apply andb_true_iff in H as [H1 H2]. apply N.eqb_eq, bN_inj in H1 as ->.
        apply before_cons. by apply IH.
  - intros [(y & l & ->)|(p & x & y & l & m & -> & -> & H)].
    + induction a as [|x a IH]; simpl; [done|]. rewrite IH, N.eqb_refl. simpl. by rewrite orb_true_r.
    + induction p as [|z p IH]; simpl.
      * by rewrite (proj2 (N.ltb_lt _ _) H).
      * rewrite IH, N.eqb_refl. simpl. by rewrite orb_true_r.
Qed.

Lemma pieces_iff c l ws : pieces c l ws <-> ws = split_on c l.
Proof.
  split.
  - induction 1 as [w Hw|w l ws Hw H IH]; [by rewrite split_on_none|].
    by rewrite split_on_app, IH.
  - intros ->. remember (length l) as n eqn:Hn. revert l Hn.
    induction n as [n IH] using (well_founded_induction lt_wf); intros l ->.
    destruct (split_first c l) as [H|(a & b & -> & H)].
    + rewrite split_on_none by done. by constructor.
    + rewrite split_on_app by done. constructor; [done|]. eapply IH; [|done].
      rewrite app_length. simpl. lia.
Qed.

Lemma pieces_upto_iff c n l ws : (0 < n)%nat -> pieces_upto c n l ws <-> ws = splitn n c l.
Proof.
  intros Hn. split.
  - intros H. induction H as [w|n w H Hw|n w l ws Hw H IH].
    + done.
    + destruct n as [|[|n]]; [lia|lia|]. by rewrite splitn_S_none.
    + rewrite splitn_S_some by done. f_equal. apply IH. lia.
  - intros ->. revert l. induction n as [|n IH]; intros l; [lia|].
    destruct n as [|n]; [constructor|].
    destruct (split_first c l) as [H|(a & b & -> & H)].
    + rewrite splitn_S_none by done. constructor; [lia|done].
    + rewrite splitn_S_some by done. constructor; [done|]. apply IH. lia.
Qed.

(** ** Numbers in text that need not be UTF-8 *)

Lemma digits_ascii l : forallb is_digit l = true -> forallb ascii l = true.
Proof.
  induction l as [|b l IH]; simpl; [done|]. intros H. apply andb_true_iff in H as [H1 H2].
  rewrite IH by done. apply is_digit_spec in H1. rewrite andb_true_r. apply byte_in_spec. consts.
  change (bN Byte.x00) with 0%N. change (bN Byte.x7f) with 127%N. lia.
Qed.

Lemma parse_digits_ascii bound l n : parse_digits bound 0 l = Some n -> forallb ascii l = true.
Proof.
  rewrite parse_digits_spec by lia. destruct (forallb is_digit l) eqn:E; [|done].
  intros _. by apply digits_ascii.
Qed.

Lemma parse_u64_ascii l n : parse_u64 l = Some n -> forallb ascii l = true.
Proof.
  unfold parse_u64, parse_unsigned. destruct l as [|b l]; [done|]. case_decide as E.
  - subst. destruct l as [|c l]; [done|]. intros H. apply parse_digits_ascii in H.
    change (forallb ascii (PLUS :: c :: l)) with (forallb ascii (c :: l)). done.
  - apply parse_digits_ascii.
Qed.

Lemma parse_i64_ascii l z : parse_i64 l = Some z -> forallb ascii l = true.
Proof.
  unfold parse_i64. destruct l as [|b l]; [done|]. case_decide as E.
  - subst. destruct l as [|c l]; [done|]. intros (n & H & _)%fmap_Some. apply parse_digits_ascii in H.
    change (forallb ascii (PLUS :: c :: l)) with (forallb ascii (c :: l)). done.
  - case_decide as E'.
    + subst. destruct l as [|c l]; [done|]. intros (n & H & _)%fmap_Some. apply parse_digits_ascii in H.
      change (forallb ascii (MINUS :: c :: l)) with (forallb ascii (c :: l)). done.
    + intros (n & H & _)%fmap_Some. by apply parse_digits_ascii in H.
Qed.

Lemma lossy_u64 l : parse_u64 (utf8_lossy l) = parse_u64 l.
Proof.
  destruct (parse_u64 l) as [n|] eqn:E.
  - rewrite utf8_lossy_ascii; [done|]. by eapply parse_u64_ascii.
  - destruct (parse_u64 (utf8_lossy l)) as [n|] eqn:E'; [|done].
    pose proof (parse_u64_ascii _ _ E') as H. unfold utf8_lossy in H.
    apply lossy_aux_same in H; [|lia]. unfold utf8_lossy in E'. rewrite H in E'. congruence.
Qed.

Lemma valid_i64 l : utf8_valid l = false -> parse_i64 l = None.
Proof.
  intros H. destruct (parse_i64 l) as [z|] eqn:E; [|done].
  apply parse_i64_ascii, utf8_valid_ascii in E. congruence.
Qed.
