From Verif Require Import Bytes ByteFacts Err GitAt Regex SpecGit.

(** ** Matching *)

Lemma rmatch_le m r i j : rmatch m r i j -> (i <= length m)%nat -> (i <= j <= length m)%nat.
Proof.
  induction 1 as [| |neg cs i c H _| | | | |]; intros Hi; try lia.
  apply lookup_lt_Some in H. lia.
Qed.

Lemma rmatch_star_progress m a i k :
  rmatch m (RStar a) i k -> (i <= length m)%nat ->
  i = k \/ exists j, (i < j)%nat /\ rmatch m a i j /\ rmatch m (RStar a) j k.
Proof.
  remember (RStar a) as r eqn:E. induction 1 as [| | | | | | |a' i j k H1 _ H2 IH]; try done.
  - by left.
  - injection E as ->. intros Hi. pose proof (rmatch_le _ _ _ _ H1 Hi) as [Hij Hj].
    destruct (decide (i = j)) as [->|Hne].
    + destruct (IH eq_refl Hj) as [->|?]; [by left|by right].
    + right. exists j. split; [lia|]. done.
Qed.

Lemma iter_ends_sub n f X x : x ∈ X -> x ∈ iter_ends n f X.
Proof.
  revert X. induction n as [|n IH]; intros X H; simpl; [done|].
  apply IH. apply elem_of_remove_dups, elem_of_app. by left.
Qed.

Lemma iter_ends_step n f X x y :
  x ∈ X -> y ∈ iter_ends n f (f x) -> y ∈ iter_ends (S n) f X.
Proof.
  intros Hx Hy. simpl.
  assert (G : forall n X Y, (forall z, z ∈ X -> z ∈ Y) -> forall z, z ∈ iter_ends n f X -> z ∈ iter_ends n f Y).
  { clear. induction n as [|n IH]; intros X Y HXY z; simpl; [apply HXY|].
    apply IH. intros w. rewrite !elem_of_remove_dups, !elem_of_app, !elem_of_list_bind.
    naive_solver. }
  eapply G; [|exact Hy]. intros z Hz. apply elem_of_remove_dups, elem_of_app. right.
  apply elem_of_list_bind. by exists x.
Qed.

Lemma iter_ends_sound n f (R : nat -> nat -> Prop) X y :
  (forall x y, y ∈ f x -> R x y) -> y ∈ iter_ends n f X -> exists x, x ∈ X /\ rtc R x y.
Proof.
  intros HR. revert X. induction n as [|n IH]; intros X; simpl.
  - intros H. by exists y.
  - intros H. apply IH in H as (x & Hx & Hr).
    apply elem_of_remove_dups, elem_of_app in Hx as [Hx|Hx]; [by exists x|].
    apply elem_of_list_bind in Hx as (z & Hz & Hx'). exists z. split; [done|].
    eapply rtc_l; [by apply HR|done].
Qed.

Lemma ends_spec m r i j : (i <= length m)%nat -> (j ∈ ends m r i <-> rmatch m r i j).
Proof.
  revert i j. induction r as [| |neg cs|a IHa b IHb|a IHa b IHb|a IHa]; intros i j Hi; simpl.
  - rewrite elem_of_list_singleton. split; [intros ->; constructor|by inversion 1].
  - destruct i as [|i].
    + rewrite elem_of_list_singleton. split; [intros ->; constructor|by inversion 1].
    + split; [by intros ?%elem_of_nil|inversion 1].
  - split.
    + destruct (m !! i) as [c|] eqn:E; [|by intros ?%elem_of_nil].
      destruct (Bool.eqb _ _) eqn:Eb; [|by intros ?%elem_of_nil].
      rewrite elem_of_list_singleton. intros ->. apply (rm_class _ _ _ _ c); [done|].
      apply eqb_prop in Eb. destruct neg; simpl in Eb.
      * apply bool_decide_eq_false in Eb. done.
      * apply bool_decide_eq_true in Eb. done.
    + inversion 1 as [| |? ? ? c Hc Hin| | | | |]; subst. rewrite Hc.
      destruct (Bool.eqb _ _) eqn:Eb; [by apply elem_of_list_singleton|].
      apply eqb_false_iff in Eb. destruct neg; simpl in Eb.
      * destruct Eb. apply bool_decide_eq_false. intros Hx. by apply Hin in Hx.
      * destruct Eb. apply bool_decide_eq_true. by apply Hin.
  - rewrite elem_of_list_bind. split.
    + intros (k & Hb & Ha). apply IHa in Ha; [|done].
      pose proof (rmatch_le _ _ _ _ Ha Hi) as [_ Hk]. apply IHb in Hb; [|done].
      by econstructor.
    + inversion 1 as [| | |? ? ? k ? Ha Hb| | | |]; subst. exists k.
      pose proof (rmatch_le _ _ _ _ Ha Hi) as [_ Hk]. split; [by apply IHb|by apply IHa].
  - rewrite elem_of_app. rewrite IHa, IHb by done. split.
    + intros [?|?]; [by apply rm_alt_l|by apply rm_alt_r].
    + inversion 1; subst; [by left|by right].
  - split.
    + intros H. change (j ∈ iter_ends (S (length m)) (ends m a) [i]) in H.
      assert (G : forall n X, (forall x, x ∈ X -> (x <= length m)%nat /\ rmatch m (RStar a) i x) ->
        forall y, y ∈ iter_ends n (ends m a) X -> rmatch m (RStar a) i y).
      { clear H. induction n as [|n IH]; intros X HX y; simpl; [intros Hy; by apply HX|].
        apply IH. intros x Hx. apply elem_of_remove_dups, elem_of_app in Hx as [Hx|Hx]; [by apply HX|].
        apply elem_of_list_bind in Hx as (z & Hz & Hx'). apply HX in Hx' as [Hz' Hs].
        apply IHa in Hz; [|done]. pose proof (rmatch_le _ _ _ _ Hz Hz'). split; [lia|].
        clear - Hs Hz. remember (RStar a) as r eqn:E.
        induction Hs; try done; injection E as ->.
        - eapply rm_star_S; [exact Hz|constructor].
        - eapply rm_star_S; [done|]. by apply IHHs2. }
      eapply G; [|exact H]. intros x ->%elem_of_list_singleton. split; [done|constructor].
    + intros H. change (j ∈ iter_ends (S (length m)) (ends m a) [i]).
      assert (G : forall n i, (length m - i < n)%nat -> (i <= length m)%nat ->
         rmatch m (RStar a) i j -> forall X, i ∈ X -> j ∈ iter_ends n (ends m a) X).
      { clear H i Hi. induction n as [|n IH]; intros i Hn Hi H X HX; [lia|].
        destruct (rmatch_star_progress _ _ _ _ H Hi) as [->|(k & Hk & Ha & Hs)].
        - by apply iter_ends_sub.
        - eapply iter_ends_step; [exact HX|]. pose proof (rmatch_le _ _ _ _ Ha Hi).
          apply (IH k); [lia|lia|done|]. by apply IHa. }
      apply (G (S (length m)) i); [lia|done|done|]. by apply elem_of_list_singleton.
Qed.

Lemma search_spec r m :
  search r m = true <-> exists i j, (i <= length m)%nat /\ rmatch m r i j.
Proof.
  unfold search. rewrite existsb_exists. split.
  - intros (i & Hi & H). apply in_seq in Hi. exists i.
    destruct (ends m r i) as [|j l] eqn:E; [done|]. exists j. split; [lia|].
    apply ends_spec; [lia|]. rewrite E. by left.
  - intros (i & j & Hi & H). exists i. split; [apply in_seq; lia|].
    apply ends_spec in H; [|done]. destruct (ends m r i); [by apply elem_of_nil in H|done].
Qed.

(** ** Parsing: more fuel changes nothing *)

Lemma parse_mono f :
  (forall p x, parse_seq f p = Some x -> parse_seq (S f) p = Some x) /\
  (forall p x, parse_alt f p = Some x -> parse_alt (S f) p = Some x).
Proof.
  induction f as [|f [IHs IHa]]; [done|].
  assert (Hs : forall p x, parse_seq (S f) p = Some x -> parse_seq (S (S f)) p = Some x).
  { intros p x.
    assert (Hatom : forall r rest y,
      match star_of r rest with
      | None => None
      | Some (r', rest') => match parse_seq f rest' with
                            | Some (q, rest'') => Some (RSeq r' q, rest'')
                            | None => None end end = Some y ->
      match star_of r rest with
      | None => None
      | Some (r', rest') => match parse_seq (S f) rest' with
                            | Some (q, rest'') => Some (RSeq r' q, rest'')
                            | None => None end end = Some y).
    { intros r rest y. destruct (star_of r rest) as [[r' rest']|]; [|done].
      destruct (parse_seq f rest') as [[q rest'']|] eqn:E; [|done].
      by rewrite (IHs _ _ E). }
    remember (S f) as f' eqn:Ef.
    cbn [parse_seq]. rewrite Ef at 1. cbn [parse_seq].
    destruct p as [|b p']; [done|].
    repeat case_decide; try done.
    - destruct p' as [|c p'']; [done|]. repeat case_decide; try (by apply Hatom).
      destruct (punct c); [by apply Hatom|done].
    - by apply Hatom.
    - destruct p' as [|c p'']; [done|]. case_decide.
      + destruct (class_body p'') as [[[|? ?] rest]|]; try done. by apply Hatom.
      + destruct (class_body (c :: p'')) as [[[|? ?] rest]|]; try done. by apply Hatom.
    - assert (Hg : forall q,
        match parse_alt f q with
        | Some (r, c :: rest) =>
            if decide (c = ")"%byte)
            then match star_of r rest with
                 | Some (r', rest') =>
                     match parse_seq f rest' with
                     | Some (q0, rest'') => Some (RSeq r' q0, rest'')
                     | None => None end
                 | None => None end
            else None
        | _ => None end = Some x ->
        match parse_alt f' q with
        | Some (r, c :: rest) =>
            if decide (c = ")"%byte)
            then match star_of r rest with
                 | Some (r', rest') =>
                     match parse_seq f' rest' with
                     | Some (q0, rest'') => Some (RSeq r' q0, rest'')
                     | None => None end
                 | None => None end
            else None
        | _ => None end = Some x).
      { intros q. destruct (parse_alt f q) as [[r [|c rest]]|] eqn:E; try done.
        rewrite (IHa _ _ E). case_decide; [|done]. apply Hatom. }
      destruct p' as [|c [|d p'']]; [by apply Hg..|].
      repeat case_decide; try done; by apply Hg.
    - destruct (special b); [done|]. by apply Hatom. }
  split; [exact Hs|].
  intros p x. remember (S f) as f' eqn:Ef. cbn [parse_alt]. rewrite Ef at 1. cbn [parse_alt].
  destruct (parse_seq f p) as [[r rest]|] eqn:E; [|done].
  rewrite (IHs _ _ E). destruct rest as [|b rest']; [done|].
  case_decide; [|done]. destruct (parse_alt f rest') as [[q rest'']|] eqn:E2; [|done].
  by rewrite (IHa _ _ E2).
Qed.

Lemma parse_seq_mono f g p x : (f <= g)%nat -> parse_seq f p = Some x -> parse_seq g p = Some x.
Proof. induction 1; [done|]. intros. by apply parse_mono, IHle. Qed.

Lemma parse_seq_not_alt f p r rest : parse_seq f p = Some (r, rest) -> forall a b, r <> RAlt a b.
Proof.
  destruct f as [|f]; [done|]. cbn [parse_seq].
  assert (Hatom : forall r0 rest0,
      match star_of r0 rest0 with
      | None => None
      | Some (r', rest') => match parse_seq f rest' with
                            | Some (q, rest'') => Some (RSeq r' q, rest'')
                            | None => None end end = Some (r, rest) -> forall a b, r <> RAlt a b).
  { intros r0 rest0. destruct (star_of r0 rest0) as [[r' rest']|]; [|done].
    destruct (parse_seq f rest') as [[q rest'']|]; [|done]. by intros [= <- <-]. }
  destruct p as [|b p']; [by intros [= <- <-]|].
  repeat case_decide; try (by intros [= <- <-]); try (by apply Hatom).
  - destruct p' as [|c p'']; [done|]. repeat case_decide; try (by apply Hatom).
    destruct (punct c); [by apply Hatom|done].
  - destruct p' as [|c p'']; [done|]. case_decide.
    + destruct (class_body p'') as [[[|? ?] ?]|]; try done. by apply Hatom.
    + destruct (class_body (c :: p'')) as [[[|? ?] ?]|]; try done. by apply Hatom.
  - destruct p' as [|c [|d p'']]; repeat case_decide; try done;
      match goal with |- context [parse_alt f ?q] =>
        destruct (parse_alt f q) as [[? [|? ?]]|]; try done end;
      repeat case_decide; try done; by apply Hatom.
  - destruct (special b); [done|]. by apply Hatom.
Qed.

Lemma parse_seq_no_quantifier f p x :
  parse_seq f p = Some x -> match p with c :: _ => c ∉ bs "*+?{" | [] => True end.
Proof.
  destruct f as [|f]; [done|]. destruct p as [|b p']; [done|].
  intros H Hin. revert H. change (bs "*+?{") with [Byte.x2a; Byte.x2b; Byte.x3f; Byte.x7b] in Hin.
  rewrite !elem_of_cons, elem_of_nil in Hin.
  destruct Hin as [->|[->|[->|[->|[]]]]]; done.
Qed.

Lemma parse_summary p r :
  parse_regex p = Some r -> (forall a b, r <> RAlt a b) ->
  parse_regex (summary_prefix ++ p) =
    Some (RSeq RStart (RSeq (RStar (RClass true [NL])) r)).
Proof.
  intros Hp Hr. unfold parse_regex in *.
  assert (Hl : length (summary_prefix ++ p) = (7 + length p)%nat) by done.
  rewrite Hl. replace (2 * (7 + length p) + 4)%nat with (S (S (S (2 * length p + 15)))) by lia.
  replace (2 * length p + 4)%nat with (S (2 * length p + 3)) in Hp by lia.
  set (f := (2 * length p + 15)%nat).
  assert (Hs : parse_seq f p = Some (r, [])).
  { cbn [parse_alt] in Hp. destruct (parse_seq (2 * length p + 3) p) as [[r0 [|b rest]]|] eqn:E;
      [|..|done].
    - injection Hp as ->. eapply parse_seq_mono; [|exact E]. unfold f. lia.
    - case_decide as Hb.
      + destruct (parse_alt _ rest) as [[q [|? ?]]|]; try done. injection Hp as <-. by destruct (Hr r0 q).
      + done. }
  pose proof (parse_seq_no_quantifier _ _ _ Hs) as Hq.
  assert (Hstar : star_of (RClass true [NL]) (bs "*" ++ p) = Some (RStar (RClass true [NL]), p)).
  { cbn. destruct p as [|c p']; [done|]. rewrite bool_decide_eq_false_2; [done|]. exact Hq. }
  assert (H2 : parse_seq (S f) (bs "[^" ++ [NL] ++ bs "]*" ++ p) =
               Some (RSeq (RStar (RClass true [NL])) r, [])).
  { change (bs "[^" ++ [NL] ++ bs "]*" ++ p) with (bs "[^" ++ [NL] ++ bs "]" ++ bs "*" ++ p).
    set (q := bs "*" ++ p) in *. 
    assert (Hcb : class_body ([NL] ++ bs "]" ++ q) = Some ([NL], q)) by done.
    cbn [parse_seq]. change (bs "[^" ++ [NL] ++ bs "]" ++ q) with
      (Byte.x5b :: Byte.x5e :: [NL] ++ bs "]" ++ q). cbv iota beta.
    rewrite !decide_False by done. rewrite !decide_True by done. rewrite Hcb. rewrite Hstar.
    rewrite Hs. done. }
  assert (H3 : parse_seq (S (S f)) (summary_prefix ++ p) =
               Some (RSeq RStart (RSeq (RStar (RClass true [NL])) r), [])).
  { change (summary_prefix ++ p) with (BSL :: Byte.x41 :: bs "[^" ++ [NL] ++ bs "]*" ++ p).
    set (q := bs "[^" ++ [NL] ++ bs "]*" ++ p) in *.
    assert (Hst : star_of RStart q = Some (RStart, q)) by done.
    remember (S f) as f1. cbn [parse_seq]. rewrite !decide_False by done.
    rewrite !decide_True by done. rewrite Hst, H2. done. }
  remember (S (S f)) as f2. cbn [parse_alt]. rewrite H3. done.
Qed.

(** ** What the summary pattern means *)

Lemma rmatch_start_inv m i j : rmatch m RStart i j -> i = 0%nat /\ j = 0%nat.
Proof. by inversion 1. Qed.

Lemma rmatch_seq m a b i k :
  rmatch m (RSeq a b) i k <-> exists j, rmatch m a i j /\ rmatch m b j k.
Proof.
  split; [inversion 1; subst; by eexists|]. intros (j & H1 & H2). by econstructor.
Qed.

Lemma rmatch_alt m a b i k : rmatch m (RAlt a b) i k <-> rmatch m a i k \/ rmatch m b i k.
Proof. split; [inversion 1; subst; auto|]. intros [?|?]; [by apply rm_alt_l|by apply rm_alt_r]. Qed.

Lemma rmatch_star_class m neg cs i j :
  (i <= length m)%nat ->
  rmatch m (RStar (RClass neg cs)) i j <->
  (i <= j <= length m)%nat /\ (forall k c, (i <= k < j)%nat -> m !! k = Some c -> (c ∈ cs <-> neg = false)).
Proof.
  intros Hi. split.
  - intros H. pose proof (rmatch_le _ _ _ _ H Hi) as Hle. split; [done|].
    remember (RStar (RClass neg cs)) as r eqn:E. revert Hi Hle.
    induction H as [| | | | | | |a i j k H1 _ H2 IH]; try done; injection E as ->.
    + intros. lia.
    + inversion H1 as [| |? ? ? c Hc Hin| | | | |]; subst. intros Hi Hk k' c' Hk' Hc'.
      destruct (decide (k' = i)) as [->|Hne].
      * rewrite Hc in Hc'. by injection Hc' as <-.
      * assert (HS : (S i <= length m)%nat) by (apply lookup_lt_Some in Hc; lia).
        pose proof (rmatch_le _ _ _ _ H2 HS) as Hle2. apply (IH eq_refl HS Hle2 k'); [lia|done].
  - intros [Hj Hall]. remember (j - i)%nat as n eqn:En. revert i Hi Hj Hall En.
    induction n as [|n IH]; intros i Hi Hj Hall En.
    + replace i with j by lia. constructor.
    + destruct (m !! i) as [c|] eqn:Hc.
      2: { apply lookup_ge_None in Hc. lia. }
      apply (rm_star_S _ _ _ (S i)).
      * apply (rm_class _ _ _ _ c); [done|]. apply (Hall i); [lia|done].
      * apply IH; [lia|lia| |lia]. intros k c' Hk. apply Hall. lia.
Qed.

(** [i] is in the first line of [m]. *)
Definition first_line (m : bytes) (i : nat) : Prop := NL ∉ take i m.

Lemma summary_match m r i j :
  rmatch m (RSeq RStart (RSeq (RStar (RClass true [NL])) r)) i j <->
  i = 0%nat /\ exists k, (k <= length m)%nat /\ first_line m k /\ rmatch m r k j.
Proof.
  rewrite rmatch_seq. setoid_rewrite rmatch_seq. split.
  - intros (j1 & [-> ->]%rmatch_start_inv & k & Hs & Hr). split; [done|].
    apply rmatch_star_class in Hs as [Hk Hall]; [|lia]. exists k. split_and!; [lia| |done].
    unfold first_line. intros Hin. apply elem_of_list_lookup in Hin as (x & Hx).
    apply lookup_take_Some in Hx as [Hx Hlt].
    destruct (Hall x NL) as [Hn _]; [lia|done|]. discriminate Hn. by left.
  - intros (-> & k & Hk & Hf & Hr). exists 0%nat. split; [constructor|]. exists k. split; [|done].
    apply rmatch_star_class; [lia|]. split; [lia|]. intros x c Hx Hc. split; [|done].
    intros ->%elem_of_list_singleton. destruct Hf. apply elem_of_list_lookup. exists x.
    apply lookup_take_Some. split; [done|lia].
Qed.

Lemma summary_search m r :
  search (RSeq RStart (RSeq (RStar (RClass true [NL])) r)) m = true <->
  exists i j, (i <= length m)%nat /\ first_line m i /\ rmatch m r i j.
Proof.
  rewrite search_spec. setoid_rewrite summary_match. split.
  - intros (i & j & Hi & -> & k & Hk & Hf & Hr). by exists k, j.
  - intros (i & j & Hi & Hf & Hr). exists 0%nat, j. split; [lia|]. split; [done|]. by exists i.
Qed.

(** ** The fixup pattern *)

Fixpoint lit (l : bytes) : rgx :=
  match l with [] => REps | b :: l' => RSeq (RClass false [b]) (lit l') end.

Lemma rmatch_class1 m b i j : rmatch m (RClass false [b]) i j <-> j = S i /\ m !! i = Some b.
Proof.
  split.
  - inversion 1 as [| |? ? ? c Hc Hin| | | | |]; subst. split; [done|].
    assert (c ∈ [b]) as ->%elem_of_list_singleton by (by apply Hin). done.
  - intros [-> H]. apply (rm_class _ _ _ _ b); [done|]. split; [done|].
    intros _. by apply elem_of_list_singleton.
Qed.

Lemma rmatch_lit m l i j :
  (i <= length m)%nat ->
  rmatch m (lit l) i j <-> j = (i + length l)%nat /\ exists rest, drop i m = l ++ rest.
Proof.
  revert i j. induction l as [|b l IH]; intros i j Hi; simpl.
  - split.
    + inversion 1; subst. split; [lia|]. by eexists.
    + intros [-> _]. rewrite Nat.add_0_r. constructor.
  - rewrite rmatch_seq. split.
    + intros (k & [-> Hc]%rmatch_class1 & H).
      assert (i < length m)%nat by (by apply lookup_lt_Some in Hc).
      apply IH in H as [-> (rest & Hr)]; [|lia]. split; [lia|]. exists rest.
      rewrite (drop_S _ _ _ Hc). by rewrite Hr.
    + intros [-> (rest & Hr)]. exists (S i).
      assert (Hc : m !! i = Some b).
      { rewrite <- (Nat.add_0_r i), <- lookup_drop, Hr. done. }
      split; [by apply rmatch_class1|]. assert (i < length m)%nat by (by apply lookup_lt_Some in Hc).
      apply IH; [lia|]. split; [lia|]. exists rest.
      rewrite (drop_S _ _ _ Hc) in Hr. by injection Hr.
Qed.

Definition fixup_rgx : rgx :=
  RSeq RStart (RSeq (RStar (RClass false spaces))
    (RSeq (RAlt (lit (bs "fixup")) (lit (bs "squash"))) (lit (bs "!")))).

Lemma fixup_parse : parse_regex fixup_text = Some fixup_rgx.
Proof. by vm_compute. Qed.
Lemma fixup_parse_summary :
  parse_regex (summary_prefix ++ fixup_text) =
  Some (RSeq RStart (RSeq (RStar (RClass true [NL])) fixup_rgx)).
Proof. by vm_compute. Qed.

Lemma fixup_match m : (exists j, rmatch m fixup_rgx 0 j) <-> is_fixup m.
Proof.
  unfold fixup_rgx, is_fixup. split.
  - intros (j & H). apply rmatch_seq in H as (? & [_ ->]%rmatch_start_inv & H).
    apply rmatch_seq in H as (k & Hs & H). apply rmatch_star_class in Hs as [Hk Hall]; [|lia].
    apply rmatch_seq in H as (k2 & H1 & H2).
    assert (Hws : Forall (fun c => c ∈ spaces) (take k m)).
    { apply Forall_lookup. intros x c Hx. apply lookup_take_Some in Hx as [Hx Hlt].
      by apply (Hall x c); [lia|..]. }
    assert (G : forall w, rmatch m (lit w) k k2 -> exists rest, m = take k m ++ w ++ bs "!" ++ rest).
    { intros w Hw. pose proof (rmatch_le _ _ _ _ Hw ltac:(lia)) as Hk2.
      apply rmatch_lit in Hw as [-> (rest & Hr)]; [|lia].
      apply rmatch_lit in H2 as [_ (rest2 & Hr2)]; [|lia].
      exists rest2. rewrite <- Hr2, <- drop_drop, Hr, drop_app, <- Hr. by rewrite take_drop. }
    apply rmatch_alt in H1 as [H1|H1].
    + destruct (G _ H1) as (rest & Hm). exists (take k m), rest. split; [done|by left].
    + destruct (G _ H1) as (rest & Hm). exists (take k m), rest. split; [done|by right].
  - intros (ws & rest & Hws & Hm).
    assert (G : exists w, (w = bs "fixup" \/ w = bs "squash") /\ m = ws ++ w ++ bs "!" ++ rest).
    { destruct Hm as [-> | ->]; eexists; split; [by left|done|by right|done]. }
    destruct G as (w & Hw & Hm'). clear Hm. exists (length ws + length w + 1)%nat.
    assert (Hlen : length m = (length ws + (length w + (1 + length rest)))%nat).
    { rewrite Hm', !app_length. done. }
    apply rmatch_seq. exists 0%nat. split; [constructor|].
    apply rmatch_seq. exists (length ws). split.
    { apply rmatch_star_class; [lia|]. split; [lia|]. intros k c Hk Hc.
      rewrite Hm', lookup_app_l in Hc by lia. split; [done|]. intros _.
      rewrite Forall_lookup in Hws. by eapply Hws. }
    apply rmatch_seq. exists (length ws + length w)%nat. split.
    + assert (Hl : rmatch m (lit w) (length ws) (length ws + length w)%nat).
      { apply rmatch_lit; [lia|]. split; [done|]. exists (bs "!" ++ rest).
        rewrite Hm', drop_app. done. }
      destruct Hw as [-> | ->]; [by apply rm_alt_l|by apply rm_alt_r].
    + apply rmatch_lit; [lia|]. split; [done|]. exists rest.
      rewrite Hm', <- drop_drop, drop_app, drop_app. done.
Qed.

Lemma fixup_search m : search fixup_rgx m = true <-> is_fixup m.
Proof.
  rewrite search_spec, <- fixup_match. split.
  - intros (i & j & Hi & H). unfold fixup_rgx in H.
    apply rmatch_seq in H as H'. destruct H' as (? & [-> ->]%rmatch_start_inv & _). by exists j.
  - intros (j & H). exists 0%nat, j. split; [lia|done].
Qed.

Lemma fixup_search_summary m :
  search (RSeq RStart (RSeq (RStar (RClass true [NL])) fixup_rgx)) m = true <-> is_fixup m.
Proof.
  rewrite summary_search, <- fixup_match. split.
  - intros (i & j & Hi & _ & H). unfold fixup_rgx in H.
    apply rmatch_seq in H as H'. destruct H' as (? & [-> ->]%rmatch_start_inv & _). by exists j.
  - intros (j & H). exists 0%nat, j. split_and!; [lia| |done]. apply not_elem_of_nil.
Qed.
