(** core.sharedRepository and permission bits. *)
From Verif Require Import Bytes ByteFacts Err FS Prog Local Transfer Wp Spec SpecPerm.

Lemma perm_bits_ldiff u : perm_bits (N.ldiff 511 u) u.
Proof.
  intros b. rewrite N.ldiff_spec. f_equal. change 511%N with (N.ones 9).
  destruct (b <? 9)%N eqn:E.
  - apply N.ltb_lt in E. by apply N.ones_spec_low.
  - apply N.ltb_ge in E. by apply N.ones_spec_high.
Qed.

Lemma octal_digit b : is_octal b = true ->
  (digit_value b < 8)%N /\ digit_value b = (bN b - 48)%N /\ is_space b = false /\ b <> Byte.x2d /\ b <> PLUS /\
  lower b = b /\ b <> Byte.x78 /\ (b <> Byte.x30 -> 1 <= digit_value b)%N.
Proof. destruct b; intros H; try (by vm_compute in H); by vm_compute. Qed.

Lemma octal_digits_leading l : forall acc v, octal_digits acc l = Some v ->
  forallb is_octal l = true /\ leading 8 acc l = (v, []).
Proof.
  induction l as [|b l IH]; intros acc v H; [by injection H as ->|].
  cbn [octal_digits] in H. destruct (is_octal b) eqn:Eb; [|done].
  destruct (octal_digit b Eb) as (Hlt & Hv & _).
  case_match; [|done]. apply IH in H as [Hf Hl]. cbn [forallb leading]. rewrite Eb, Hf. split; [done|].
  apply N.ltb_lt in Hlt. by rewrite Hlt, Hv.
Qed.

(** Read in decimal, the same digits give a number of at most as many digits. *)
Lemma octal_digits_decimal l : forall acc acc' v, octal_digits acc l = Some v -> (1 <= acc)%N -> (1 <= acc')%N ->
  exists d, leading 10 acc' l = (d, []) /\ (1 <= d /\ d + 1 <= (acc' + 1) * 10 ^ N.of_nat (length l))%N /\
            (acc * 8 ^ N.of_nat (length l) <= v)%N.
Proof.
  induction l as [|b l IH]; intros acc acc' v H Ha Ha'.
  { injection H as ->. exists acc'. cbn [leading length]. rewrite N.pow_0_r. split_and!; [done|lia|lia|lia]. }
  cbn [octal_digits] in H. destruct (is_octal b) eqn:Eb; [|done].
  destruct (octal_digit b Eb) as (Hlt & Hv & _).
  destruct (acc * 8 + (bN b - 48) <=? 65535)%N eqn:E; [|done].
  apply (IH _ (acc' * 10 + digit_value b)%N) in H as (d & Hd & [H1 H2] & H3); [|lia|lia].
  exists d. cbn [leading length]. rewrite (proj2 (N.ltb_lt (digit_value b) 10)) by lia.
  rewrite !Nat2N.inj_succ, !N.pow_succ_r by lia. split_and!; [done|lia| |].
  - etrans; [exact H2|]. rewrite N.mul_assoc. apply N.mul_le_mono_r. lia.
  - etrans; [|exact H3]. rewrite N.mul_assoc. apply N.mul_le_mono_r. lia.
Qed.

Lemma octal_digits_bound l : forall acc v, octal_digits acc l = Some v -> (acc <= 65535)%N -> (v <= 65535)%N.
Proof.
  induction l as [|b l IH]; intros acc v H Ha; [by injection H as <-|]. cbn [octal_digits] in H.
  destruct (is_octal b); [|done]. destruct (_ <=? 65535)%N eqn:E; [|done]. apply N.leb_le in E. by apply (IH _ _ H).
Qed.

Lemma magnitude_octal b l v : octal_digits 0 (b :: l) = Some v ->
  exists d, magnitude (b :: l) = Some (d, []) /\ (d < 2 ^ 31)%N /\ (d =? 0)%N = (v =? 0)%N.
Proof.
  intros H. assert (Hb : (v <= 65535)%N) by (by apply (octal_digits_bound _ _ _ H)).
  destruct (octal_digits_leading _ _ _ H) as [Hf Hl].
  assert (Eb : is_octal b = true) by (cbn [forallb] in Hf; by apply andb_true_iff in Hf as [? _]).
  destruct (octal_digit b Eb) as (Hlt & Hv & _ & _ & _ & _ & _ & Hnz).
  destruct (decide (b = Byte.x30)) as [->|Hb0].
  - exists v. split; [|split; [lia|done]]. unfold magnitude.
    destruct l as [|x [|y l]]; [rewrite decide_True by done; cbv beta iota zeta; by rewrite Hl..|].
    assert (Ex : is_octal x = true).
    { cbn [forallb] in Hf. apply andb_true_iff in Hf as [_ Hf]. by apply andb_true_iff in Hf as [? _]. }
    destruct (octal_digit x Ex) as (_ & _ & _ & _ & _ & Hlx & Hx & _).
    rewrite decide_False by (rewrite Hlx; by intros [_ ?]). rewrite decide_True by done.
    cbv beta iota zeta. by rewrite Hl.
  - cbn [octal_digits] in H. rewrite Eb in H. rewrite <- Hv in H. cbn [N.mul] in H. rewrite N.add_0_l in H.
    destruct (digit_value b <=? 65535)%N eqn:E; [|done].
    destruct (octal_digits_decimal l _ (digit_value b) _ H (Hnz Hb0) (Hnz Hb0)) as (d & Hd & [H1 H2] & H3).
    exists d. assert (Hlen : (length l <= 5)%nat).
    { destruct (decide (length l <= 5)%nat) as [|Hn]; [done|exfalso].
      assert (8 ^ 6 <= 8 ^ N.of_nat (length l))%N by (apply N.pow_le_mono_r; lia).
      assert (1 * 8 ^ N.of_nat (length l) <= digit_value b * 8 ^ N.of_nat (length l))%N by (apply N.mul_le_mono_r; auto).
      change (8 ^ 6)%N with 262144%N in *. lia. }
    assert (10 ^ N.of_nat (length l) <= 10 ^ 5)%N by (apply N.pow_le_mono_r; lia).
    assert (8 ^ 0 <= 8 ^ N.of_nat (length l))%N by (apply N.pow_le_mono_r; lia).
    change (10 ^ 5)%N with 100000%N in *. change (8 ^ 0)%N with 1%N in *. change (2 ^ 31)%N with 2147483648%N.
    split; [|split].
    + unfold magnitude.
      assert (Hm : match b :: l with
        | z :: x :: (_ :: _) as t => if decide (z = Byte.x30 /\ lower x = Byte.x78) then (16%N, t)
                                     else if decide (z = Byte.x30) then (8%N, b :: l) else (10%N, b :: l)
        | z :: _ => if decide (z = Byte.x30) then (8%N, b :: l) else (10%N, b :: l)
        | [] => (10%N, b :: l) end = (10%N, b :: l)).
      { destruct l as [|x [|y l]]; rewrite ?(decide_False (P := _ /\ _)) by (by intros [? _]); by rewrite decide_False. }
      rewrite Hm. cbn [leading]. rewrite (proj2 (N.ltb_lt (digit_value b) 10)) by lia.
      cbn [N.mul]. by rewrite N.add_0_l, Hd.
    + assert ((digit_value b + 1) * 10 ^ N.of_nat (length l) <= 8 * 100000)%N by (apply N.mul_le_mono; lia). lia.
    + rewrite (proj2 (N.eqb_neq d 0)) by lia. symmetry. apply N.eqb_neq.
      assert (1 * 1 <= digit_value b * 8 ^ N.of_nat (length l))%N by (apply N.mul_le_mono; auto). lia.
Qed.

Lemma octal_bool s m : parse_octal s = Some m -> bool_value s = Some (negb (m =? 0)%N).
Proof.
  intros H.
  assert (Hs : exists pre l, s = pre ++ l /\ (pre = [] \/ pre = [PLUS]) /\ l <> [] /\ octal_digits 0 l = Some m).
  { unfold parse_octal in H. destruct s as [|b s]; [done|]. case_decide as Hb.
    - subst b. destruct s as [|c s]; [done|]. exists [PLUS], (c :: s). auto.
    - exists [], (b :: s). auto. }
  destruct Hs as (pre & l & -> & Hpre & Hne & Ho). destruct l as [|b l]; [done|].
  destruct (magnitude_octal b l m Ho) as (d & Hm & Hd & Hz).
  assert (Eb : is_octal b = true).
  { apply octal_digits_leading in Ho as [Hf _]. cbn [forallb] in Hf. by apply andb_true_iff in Hf as [? _]. }
  destruct (octal_digit b Eb) as (_ & _ & Hsp & Hb1 & Hb2 & Hlow & _).
  assert (Hi : int_value (pre ++ b :: l) = Some (Z.of_N d)).
  { assert (Hz1 : int_value (pre ++ b :: l) =
      match magnitude (b :: l) with
      | Some (n, []) => if ((-(2 ^ 31) <=? 1 * Z.of_N n * 1) && (1 * Z.of_N n * 1 <? 2 ^ 31))%Z then Some (1 * Z.of_N n * 1)%Z else None
      | Some (n, rest) => int_value (pre ++ b :: l)
      | None => None end).
    { rewrite Hm. unfold int_value. cbv zeta. destruct Hpre as [->| ->].
      - cbn [app skip_spaces]. rewrite Hsp, decide_False, decide_False by done. by rewrite Hm.
      - change (skip_spaces ([PLUS] ++ b :: l)) with (PLUS :: b :: l). cbv beta iota.
        rewrite decide_False by done. rewrite decide_True by done. by rewrite Hm. }
    rewrite Hz1, Hm. change (2 ^ 31)%N with 2147483648%N in Hd. change (2 ^ 31)%Z with 2147483648%Z.
    rewrite (proj2 (Z.leb_le _ _)), (proj2 (Z.ltb_lt _ _)) by lia. cbn [andb]. f_equal. lia. }
  unfold bool_value. rewrite Hi.
  assert (Hw : forall w, hd_error w <> Some b -> hd_error w <> Some PLUS -> w <> [] -> is_word (pre ++ b :: l) w = false).
  { intros w H1 H2 _. apply bool_decide_eq_false. intros Hw. destruct Hpre as [->| ->]; subst w.
    - cbn in H1. by rewrite Hlow in H1.
    - by cbn in H2. }
  assert (He : is_word (pre ++ b :: l) [] = false).
  { apply bool_decide_eq_false. by destruct Hpre as [->| ->]. }
  assert (Hl : forall c : byte, is_octal c = false -> c <> b) by (intros c Hc ->; congruence).
  rewrite He, !Hw; try done; try (intros [=?]; by eapply Hl; [|eassumption]).
  cbn [orb option_map]. f_equal. rewrite <- Hz. by destruct d.
Qed.

Lemma octal_mode_parse s m : octal_mode s = Some m -> parse_octal s = Some m.
Proof.
  unfold octal_mode. destruct s as [|z [|a [|b [|c [|]]]]]; try done. intros H.
  case_bool_decide as Hz; [|done]. subst z. cbn [andb] in H.
  destruct (forallb is_octal [a; b; c]) eqn:E; [|done]. injection H as <-.
  cbn [forallb] in E. apply andb_true_iff in E as [Ea E]. apply andb_true_iff in E as [Eb Ec]. apply andb_true_iff in Ec as [Ec _].
  destruct (octal_digit a Ea) as (? & Ha & _), (octal_digit b Eb) as (? & Hb & _), (octal_digit c Ec) as (? & Hc & _).
  unfold parse_octal. rewrite decide_False by done. cbn [octal_digits].
  change (is_octal Byte.x30) with true. rewrite Ea, Eb, Ec.
  change (bN Byte.x30 - 48)%N with 0%N. cbn [N.mul N.add].
  repeat (rewrite (proj2 (N.leb_le _ _)) by lia). f_equal. lia.
Qed.

Lemma shared_perms_libgit2 v : shared_perms (libgit2 v) = Ok
  match documented v with
  | ByUmask => None | ByGroup => Some 432%N | ByAll => Some 436%N
  | ByMode m => if (m =? 0)%N then None else Some 432%N
  end.
Proof.
  destruct v as [| |t]; [done|done|]. unfold documented.
  destruct (decide (t = bs "group")) as [->|H1]; [by vm_compute|].
  destruct (decide (t = bs "umask")) as [->|H2]; [by vm_compute|].
  destruct (decide (t ∈ [bs "all"; bs "world"; bs "everybody"])) as [H3|H3].
  { apply elem_of_cons in H3 as [->|H3]; [by vm_compute|].
    apply elem_of_cons in H3 as [->|H3]; [by vm_compute|].
    apply elem_of_list_singleton in H3 as ->. by vm_compute. }
  destruct (octal_mode t) as [m|] eqn:Eo.
  - unfold shared_perms, libgit2. cbn [cf_bool cf_str]. rewrite (octal_bool _ _ (octal_mode_parse _ _ Eo)).
    assert (Hn : forall w, t <> w -> beq t w = false) by (intros w Hw; by apply bool_decide_eq_false).
    rewrite (Hn (bs "group")), (Hn (bs "umask")); [|exact H2|exact H1]. by destruct (m =? 0)%N.
  - unfold shared_perms, libgit2. cbn [cf_bool cf_str].
    assert (Hn : forall w, t <> w -> beq t w = false) by (intros w Hw; by apply bool_decide_eq_false).
    rewrite (Hn (bs "group")), (Hn (bs "umask")), (Hn (bs "all")), (Hn (bs "world")), (Hn (bs "everybody"));
      [|intros ->; apply H3; by repeat constructor..|exact H2|exact H1].
    destruct (bool_value t) as [[|]|] eqn:Eb; [done|done|]. cbn [orb].
    destruct (parse_octal t) as [m|] eqn:Ep; [|done]. apply octal_bool in Ep. congruence.
Qed.

Lemma run_set_permissions v pid os l s :
  let u := match documented v with
           | ByMode m => umask_for (if (m =? 0)%N then ByUmask else ByGroup) (l_umask l)
           | x => umask_for x (l_umask l)
           end in
  run pid (set_permissions (GOk (libgit2 v))) os l s = (Done (Ok u), set_umask u l, s).
Proof.
  intros u. unfold set_permissions. rewrite shared_perms_libgit2.
  unfold u. destruct (documented v) as [| | |m]; [| | |destruct (m =? 0)%N]; by destruct l.
Qed.
