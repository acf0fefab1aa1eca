(** Proofs about arguments, integers, object ids and lock records. *)
From Verif Require Import Bytes ByteFacts Err FS Prog Pktline Args Local PktFacts Spec.
From Verif Require Import PktProofs.

(** ** C09, C10 *)

Lemma parse_item_line k v : EQ ∉ k -> parse_item (arg_line (k, v)) = Some (Ok (k, v)).
Proof.
  intros Hk. unfold arg_line, parse_item. simpl fst; simpl snd.
  change (bs "=") with [EQ]. cbn [app]. rewrite position_app by done.
  assert (El : length (k ++ EQ :: v ++ [NL]) = (length k + S (length v + 1))%nat).
  { rewrite app_length. simpl. by rewrite app_length. }
  rewrite El. replace (length k + S (length v + 1) - 1)%nat with (length k + S (length v))%nat by lia.
  assert (Hl : (k ++ EQ :: v ++ [NL]) !! (length k + S (length v))%nat = Some NL).
  { rewrite lookup_app_r by lia. replace (length k + S (length v) - length k)%nat
      with (S (length v)) by lia. simpl. rewrite lookup_app_r by done. by rewrite Nat.sub_diag. }
  rewrite Hl. rewrite decide_False by naive_solver.
  rewrite (proj2 (Nat.leb_le _ _)) by lia. unfold slice.
  rewrite Nat.sub_0_r, drop_0, take_app. do 3 f_equal.
  replace (length k + S (length v) - (length k + 1))%nat with (length v) by lia.
  replace (k ++ EQ :: v ++ [NL]) with ((k ++ [EQ]) ++ v ++ [NL]) by (by rewrite <- app_assoc).
  rewrite drop_app_ge by (rewrite app_length; simpl; lia).
  rewrite app_length. simpl. rewrite Nat.sub_diag, drop_0. by rewrite take_app.
Qed.

Lemma arg_line_shape i :
  (exists kv, EQ ∉ kv.1 /\ i = arg_line kv) <->
  (exists e, parse_item i = Some (Ok e)).
Proof.
  split.
  - intros ([k v] & Hk & ->). rewrite parse_item_line by done. by eexists.
  - intros [e He]. unfold parse_item in He.
    destruct (split_first EQ i) as [H|(k & w & -> & Hk)].
    { by rewrite position_none in He. }
    rewrite position_app in He by done.
    destruct w as [|x w _] using rev_ind.
    { rewrite app_length in He. simpl in He.
      rewrite lookup_app_r in He by lia.
      replace (length k + 1 - 1 - length k)%nat with 0%nat in He by lia. simpl in He. done. }
    replace (k ++ EQ :: w ++ [x]) with ((k ++ EQ :: w) ++ [x]) in He by (by rewrite <- app_assoc).
    rewrite app_length in He. simpl length in He.
    replace (length (k ++ EQ :: w) + 1 - 1)%nat with (length (k ++ EQ :: w)) in He by lia.
    rewrite lookup_app_r in He by done. rewrite Nat.sub_diag in He. cbn [lookup list_lookup] in He.
    case_decide as Hx; [done|]. subst x.
    exists (k, w). split; [done|]. unfold arg_line. done.
Qed.

Lemma parse_item_total i : parse_item i <> None.
Proof.
  unfold parse_item. destruct (split_first EQ i) as [H|(k & w & -> & Hk)].
  { by rewrite position_none. }
  rewrite position_app by done.
  assert (El : length (k ++ EQ :: w) = (length k + S (length w))%nat) by (by rewrite app_length).
  rewrite El. replace (length k + S (length w) - 1)%nat with (length k + length w)%nat by lia.
  rewrite lookup_app_r by lia. replace (length k + length w - length k)%nat
    with (length w) by lia.
  destruct w as [|x w]; [done|].
  destruct ((EQ :: x :: w) !! length (x :: w)) as [b|] eqn:E.
  2: { apply lookup_ge_None in E. simpl in E. lia. }
  case_decide; [done|]. rewrite (proj2 (Nat.leb_le _ _)) by (simpl; lia). done.
Qed.

Lemma parse_args_from_total m items : parse_args_from m items <> None.
Proof.
  revert m. induction items as [|i items IH]; intros m; simpl; [done|].
  pose proof (parse_item_total i). destruct (parse_item i) as [[[k v]|e]|]; try done.
  destruct (m !! k); [done|]. apply IH.
Qed.

Lemma parse_args_from_lines m kvs :
  Forall (fun kv => EQ ∉ kv.1) kvs -> NoDup kvs.*1 -> Forall (fun kv => m !! kv.1 = None) kvs ->
  parse_args_from m (map arg_line kvs) = Some (Ok (list_to_map kvs ∪ m)).
Proof.
  revert m. induction kvs as [|[k v] kvs IH]; intros m Hk Hn Hm; simpl.
  - by rewrite (left_id_L ∅ (∪)).
  - apply Forall_cons in Hk as [Hk1 Hk]. apply NoDup_cons in Hn as [Hn1 Hn].
    apply Forall_cons in Hm as [Hm1 Hm]. simpl in *.
    rewrite parse_item_line by done. rewrite Hm1.
    rewrite IH; [|done|done|].
    + rewrite <- insert_union_r by (by apply not_elem_of_list_to_map_1).
      by rewrite insert_union_l.
    + apply Forall_forall. intros [k' v'] H. simpl. rewrite lookup_insert_ne.
      * rewrite Forall_forall in Hm. by apply (Hm (k', v')).
      * intros ->. apply Hn1. by apply (elem_of_list_fmap_1 fst _ (k', v')).
Qed.

Lemma parse_args_from_inv m items m' :
  parse_args_from m items = Some (Ok m') ->
  exists kvs, items = map arg_line kvs /\ Forall (fun kv => EQ ∉ kv.1) kvs /\
    NoDup kvs.*1 /\ Forall (fun kv => m !! kv.1 = None) kvs.
Proof.
  revert m. induction items as [|i items IH]; intros m; simpl.
  - intros _. exists []. repeat split; constructor.
  - destruct (parse_item i) as [[[k v]|e]|] eqn:E; try done.
    destruct (m !! k) eqn:Em; [done|]. intros H.
    assert (exists kv, EQ ∉ kv.1 /\ i = arg_line kv) as ([k0 v0] & Hk0 & ->).
    { apply arg_line_shape. by eexists. }
    simpl in Hk0. rewrite parse_item_line in E by done. injection E as -> ->.
    apply IH in H as (kvs & -> & H1 & H2 & H3). exists ((k, v) :: kvs).
    split_and!; [done|by constructor|..].
    + simpl. constructor; [|done]. intros Hin. apply elem_of_list_fmap in Hin as ([k' v'] & -> & Hin).
      rewrite Forall_forall in H3. specialize (H3 _ Hin). simpl in H3.
      by rewrite lookup_insert in H3.
    + constructor; [done|]. eapply Forall_impl; [exact H3|]. intros [k' v']. simpl.
      intros H. by apply lookup_insert_None in H as [? _].
Qed.

Lemma parse_args_iff items m :
  parse_args items = Some (Ok m) <->
  exists kvs, items = map arg_line kvs /\ Forall (fun kv => EQ ∉ kv.1) kvs /\
    NoDup kvs.*1 /\ m = list_to_map kvs.
Proof.
  unfold parse_args. split.
  - intros H. destruct (parse_args_from_inv _ _ _ H) as (kvs & -> & H1 & H2 & H3).
    exists kvs. split_and!; try done. rewrite parse_args_from_lines in H by done.
    injection H as <-. by rewrite (right_id_L ∅ (∪)).
  - intros (kvs & -> & H1 & H2 & ->). rewrite parse_args_from_lines; [|done|done|].
    + by rewrite (right_id_L ∅ (∪)).
    + apply Forall_forall. intros. apply lookup_empty.
Qed.

Lemma c09 kvs :
  Forall (fun kv => EQ ∉ kv.1) kvs -> NoDup kvs.*1 ->
  exists m, parse_args (map arg_line kvs) = Some (Ok m) /\
    forall k v, m !! k = Some v <-> (k, v) ∈ kvs.
Proof.
  intros H1 H2. exists (list_to_map kvs). split.
  - apply parse_args_iff. by exists kvs.
  - intros k v. symmetry. by apply elem_of_list_to_map.
Qed.

Lemma c10 items :
  (exists r, parse_args items = Some r) /\
  ((exists m, parse_args items = Some (Ok m)) <->
   exists kvs, items = map arg_line kvs /\ Forall (fun kv => EQ ∉ kv.1) kvs /\ NoDup kvs.*1).
Proof.
  split.
  - destruct (parse_args items) eqn:E; [by eexists|]. by destruct (parse_args_from_total ∅ items).
  - split.
    + intros [m H]. apply parse_args_iff in H as (kvs & ? & ? & ? & ?). by exists kvs.
    + intros (kvs & H1 & H2 & H3). exists (list_to_map kvs). apply parse_args_iff. by exists kvs.
Qed.

(** ** C11 *)

Lemma digit_lookup c v : bs "0123456789" !! N.to_nat v = Some c <-> is_digit c = true /\ v = (bN c - 48)%N.
Proof.
  split.
  - intros H. assert (Hv : (v < 10)%N) by (apply lookup_lt_Some in H; cbn in H; lia).
    assert (G : (v = 0 \/ v = 1 \/ v = 2 \/ v = 3 \/ v = 4 \/ v = 5 \/ v = 6 \/ v = 7 \/ v = 8 \/ v = 9)%N)
      by lia.
    destruct G as [->|[->|[->|[->|[->|[->|[->|[->|[->| ->]]]]]]]]]; by injection H as <-.
  - intros [Hc ->]. destruct c; try done.
Qed.

Lemma denotes_dval l n : denotes l n <-> l <> [] /\ forallb is_digit l = true /\ dval l 0 = n.
Proof.
  split.
  - induction 1 as [c v H|l u c v Hl (IH1 & IH2 & IH3) H]; apply digit_lookup in H as [Hc ->].
    + split_and!; [done|simpl; by rewrite Hc|]. unfold dval. simpl. lia.
    + split_and!; [by destruct l|rewrite forallb_app, IH2; simpl; by rewrite Hc|].
      rewrite dval_app, IH3. unfold dval. simpl. lia.
  - intros (Hne & Hd & <-). induction l as [|c l IH] using rev_ind; [done|].
    rewrite forallb_app in Hd. apply andb_true_iff in Hd as [Hd Hc]. simpl in Hc.
    rewrite andb_true_r in Hc. destruct l as [|x l].
    + simpl. unfold dval. simpl. replace (0 * 10 + (bN c - 48))%N with (bN c - 48)%N by lia.
      constructor. by apply digit_lookup.
    + rewrite dval_app. unfold dval at 1. cbn [fold_left].
      rewrite (N.mul_comm _ 10). constructor; [by apply IH|]. by apply digit_lookup.
Qed.

Lemma parse_digits_denotes bound l n :
  l <> [] -> (parse_digits bound 0 l = Some n <-> denotes l n /\ (n <= bound)%N).
Proof.
  intros Hl. rewrite parse_digits_spec by lia. rewrite denotes_dval.
  destruct (forallb is_digit l) eqn:E1; simpl.
  - destruct (dval l 0 <=? bound)%N eqn:E2.
    + apply N.leb_le in E2. naive_solver.
    + apply N.leb_gt in E2. split; [done|]. intros [(_ & _ & <-) ?]. lia.
  - naive_solver.
Qed.

Lemma denotes_no_sign l n c : denotes (c :: l) n -> c <> PLUS /\ c <> MINUS.
Proof.
  intros H. apply denotes_dval in H as (_ & H & _). simpl in H. apply andb_true_iff in H as [H _].
  split; intros ->; done.
Qed.

Lemma parse_unsigned_iff bound b n :
  parse_unsigned bound b = Some n <-> unsigned_text b n /\ (n <= bound)%N.
Proof.
  unfold parse_unsigned, unsigned_text. destruct b as [|c b].
  { split; [done|]. intros [(ds & [<-|H] & Hd) _]; [|done]. by apply denotes_dval in Hd as [? _]. }
  case_decide as Hc.
  - subst c. destruct b as [|x b].
    + split; [done|]. intros [(ds & [<-|H] & Hd) _].
      * by apply denotes_no_sign in Hd as [? _].
      * injection H as <-. by apply denotes_dval in Hd as [? _].
    + rewrite parse_digits_denotes by done. split.
      * intros [H1 H2]. split; [|done]. exists (x :: b). split; [by right|done].
      * intros [(ds & [<-|H] & Hd) Hn].
        -- by apply denotes_no_sign in Hd as [? _].
        -- injection H as <-. done.
  - rewrite parse_digits_denotes by done. split.
    + intros [H1 H2]. split; [|done]. exists (c :: b). split; [by left|done].
    + intros [(ds & [<-|H] & Hd) Hn]; [done|]. injection H as -> _. done.
Qed.

Lemma c11 b n : parse_integer b = Ok n <-> unsigned_text b n /\ (n < 2 ^ 64)%N.
Proof.
  unfold parse_integer. pose proof (parse_unsigned_iff u64_max b n) as H.
  change (2 ^ 64)%N with 18446744073709551616%N. unfold u64_max in H.
  unfold parse_u64, u64_max. destruct (parse_unsigned _ b) as [m|].
  - split.
    + intros [= ->]. apply proj1 in H. destruct (H eq_refl). split; [done|lia].
    + intros [H1 H2]. f_equal. assert (Some m = Some n) by (apply H; split; [done|lia]). congruence.
  - split; [done|]. intros [H1 H2]. assert (None = Some n) by (apply H; split; [done|lia]). done.
Qed.

Lemma c11_print n : (n < 2 ^ 64)%N -> parse_integer (dec n) = Ok n.
Proof. intros H. unfold parse_integer. by rewrite parse_u64_dec. Qed.

(** ** C12 *)

Lemma hex_lower_digit c : hex_lower c = true <-> exists v, hex_digit c v.
Proof.
  assert (G : hex_lower c = existsb (fun v => bool_decide (bs "0123456789abcdef" !! v = Some c)) (seq 0 16)).
  { by destruct c; vm_compute. }
  rewrite G, existsb_exists. unfold hex_digit. split.
  - intros (v & _ & H). apply bool_decide_eq_true in H. exists (N.of_nat v). by rewrite Nat2N.id.
  - intros (v & H). exists (N.to_nat v). split; [|by apply bool_decide_eq_true].
    apply in_seq. apply lookup_lt_Some in H. cbn in H. lia.
Qed.

Lemma oid_valid_iff b : oid_valid b = true <-> is_oid b.
Proof.
  unfold oid_valid, is_oid. rewrite andb_true_iff, Nat.eqb_eq, forallb_forall, Forall_forall.
  setoid_rewrite hex_lower_digit. setoid_rewrite elem_of_list_In. done.
Qed.

Lemma oid_new_iff b o : oid_new b = Ok o <-> o = b /\ is_oid b.
Proof.
  unfold oid_new. destruct (oid_valid b) eqn:E.
  - apply oid_valid_iff in E. split; [intros [= <-]|intros [-> _]]; done.
  - split; [done|]. intros [-> H]. apply oid_valid_iff in H. congruence.
Qed.

Lemma hex_digit_plain c v : hex_digit c v -> c <> SLASH /\ c <> Byte.x00 /\ c <> Byte.x2e.
Proof.
  intros H. assert (G : hex_lower c = true) by (apply hex_lower_digit; by eexists).
  split_and!; intros ->; done.
Qed.

Lemma hex_plain_name l : l <> [] -> Forall (fun c => exists v, hex_digit c v) l -> plain_name l.
Proof.
  intros Hne H. rewrite Forall_forall in H.
  assert (Hc : forall c, c ∈ l -> c <> SLASH /\ c <> Byte.x00 /\ c <> Byte.x2e).
  { intros c Hc. destruct (H c Hc) as [v Hv]. by eapply hex_digit_plain. }
  unfold plain_name. split_and!; [done|..].
  - intros ->. destruct (Hc Byte.x2e) as (_ & _ & []); [by left|done].
  - intros ->. destruct (Hc Byte.x2e) as (_ & _ & []); [by left|done].
  - intros Hin. by destruct (Hc _ Hin).
  - intros Hin. by destruct (Hc _ Hin) as (_ & ? & _).
Qed.

Lemma c12_path lfs o : is_oid o ->
  exists a b, expected_path lfs o = lfs ++ [bs "objects"; a; b; o] /\
    plain_name a /\ plain_name b /\ plain_name o.
Proof.
  intros [Hl Ho]. exists (slice 0 2 o), (slice 2 4 o). split; [done|]. unfold slice.
  split_and!; apply hex_plain_name.
  - intros H. apply (f_equal length) in H. rewrite take_length, drop_length, Hl in H. done.
  - by apply Forall_take, Forall_drop.
  - intros H. apply (f_equal length) in H. rewrite take_length, drop_length, Hl in H. done.
  - by apply Forall_take, Forall_drop.
  - intros ->. done.
  - done.
Qed.

Lemma expected_path_inj lfs o o' : expected_path lfs o = expected_path lfs o' -> o = o'.
Proof. unfold expected_path. intros H. apply app_inv_head in H. by injection H. Qed.

(** ** C33 *)

Lemma parse_i64_iff b z :
  parse_i64 b = Some z <-> signed_text b z /\ (- 2 ^ 63 <= z < 2 ^ 63)%Z.
Proof.
  change (2 ^ 63)%Z with 9223372036854775808%Z.
  unfold parse_i64, signed_text. destruct b as [|c b].
  { split; [done|]. intros [[(n & (ds & [<-|H] & Hd) & _)|(ds & n & H & _)] _]; try done.
    by apply denotes_dval in Hd as [? _]. }
  assert (HP : c <> MINUS -> (Z.of_N <$> parse_unsigned i64_max (c :: b) = Some z <->
    ((exists n, unsigned_text (c :: b) n /\ z = Z.of_N n) \/
     (exists ds n, c :: b = bs "-" ++ ds /\ denotes ds n /\ z = (- Z.of_N n)%Z)) /\
    (-9223372036854775808 <= z < 9223372036854775808)%Z)).
  { intros Hc. rewrite fmap_Some. setoid_rewrite parse_unsigned_iff. unfold i64_max.
    split.
    - intros (n & [H1 H2] & ->). split; [left; by exists n|]. lia.
    - intros [[(n & H1 & ->)|(ds & n & H & _)] H2].
      + exists n. split; [split; [done|lia]|done].
      + injection H as -> _. done. }
  case_decide as Hp.
  - rewrite <- HP by (subst; done). unfold parse_unsigned. rewrite decide_True by done.
    by destruct b.
  - case_decide as Hm.
    + subst c. destruct b as [|x b].
      * split; [done|]. intros [[(n & (ds & [<-|H] & Hd) & _)|(ds & n & H & Hd & _)] _]; try done.
        -- by apply denotes_no_sign in Hd as [_ ?].
        -- injection H as <-. by apply denotes_dval in Hd as [? _].
      * rewrite fmap_Some. setoid_rewrite parse_digits_denotes; [|done]. unfold i64_min_abs. split.
        -- intros (n & [H1 H2] & ->). split; [|lia]. right. by exists (x :: b), n.
        -- intros [[(n & (ds & [<-|H] & Hd) & _)|(ds & n & H & Hd & ->)] Hz].
           ++ by apply denotes_no_sign in Hd as [_ ?].
           ++ done.
           ++ injection H as <-. exists n. split; [split; [done|lia]|done].
    + rewrite <- HP by done. unfold parse_unsigned. by rewrite decide_False.
Qed.

Lemma parse_i64_decZ_signed z : (- 2 ^ 63 <= z < 2 ^ 63)%Z -> signed_text (decZ z) z.
Proof. intros H. by apply parse_i64_iff, parse_i64_decZ. Qed.

Lemma signed_no_colon b z : signed_text b z -> COLON ∉ b.
Proof.
  assert (G : forall ds n, denotes ds n -> COLON ∉ ds).
  { intros ds n H. apply denotes_dval in H as (_ & H & _). rewrite forallb_forall in H.
    intros Hc. apply elem_of_list_In in Hc. by apply H in Hc. }
  intros [(n & (ds & [-> | ->] & Hd) & _)|(ds & n & -> & Hd & _)].
  - by eapply G.
  - apply not_elem_of_cons. split; [done|by eapply G].
  - apply not_elem_of_cons. split; [done|by eapply G].
Qed.

Lemma lock_parse_iff d t p :
  lock_parse d = Some (t, p) <->
  exists ts, d = bs "v1:" ++ ts ++ bs ":" ++ p /\ signed_text ts t /\ (- 2 ^ 63 <= t < 2 ^ 63)%Z.
Proof.
  unfold lock_parse. split.
  - destruct (split_first COLON d) as [H|(v & d1 & -> & Hv)].
    { by rewrite splitn_S_none. }
    rewrite splitn_S_some by done.
    destruct (split_first COLON d1) as [H|(ts & d2 & -> & Hts)].
    { by rewrite splitn_S_none. }
    rewrite splitn_S_some by done. cbn [splitn].
    case_decide as E; [|done]. subst v. destruct (parse_i64 ts) as [z|] eqn:Ez; [|done].
    intros [= -> ->]. exists ts. apply parse_i64_iff in Ez as [E1 E2]. done.
  - intros (ts & -> & Hts & Ht). change (bs "v1:" ++ ts ++ bs ":" ++ p)
      with (bs "v1" ++ COLON :: (ts ++ COLON :: p)).
    rewrite splitn_S_some by (apply (bool_decide_unpack _); by vm_compute).
    rewrite splitn_S_some by (by eapply signed_no_colon). cbn [splitn].
    rewrite decide_True by done.
    by rewrite (proj2 (parse_i64_iff ts t)).
Qed.

Lemma c33 t p : (- 2 ^ 63 <= t < 2 ^ 63)%Z -> lock_parse (lock_record t p) = Some (t, p).
Proof.
  intros H. apply lock_parse_iff. exists (decZ t). split_and!; [done| |lia|lia].
  by apply parse_i64_decZ_signed.
Qed.
