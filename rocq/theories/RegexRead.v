(** Proofs for C44: the reader of patterns follows the grammar of SpecRegex.v. *)
From Verif Require Import Bytes Err GitAt Regex SpecGit RegexFacts SpecRegex.

Scheme item_ind' := Induction for item Sort Prop
  with items_ind' := Induction for items Sort Prop
  with alts_ind' := Induction for alts Sort Prop.
Combined Scheme pattern_ind from item_ind', items_ind', alts_ind'.

Lemma class_body_sound p cs rest :
  class_body p = Some (cs, rest) -> p = cs ++ bs "]" ++ rest /\ Forall (fun b => b ∉ bs "]\[-^") cs.
Proof.
  revert cs rest. induction p as [|b p' IH]; intros cs rest H; [done|]. cbn [class_body] in H.
  case_decide as Hb.
  - injection H as <- <-. by subst b.
  - case_bool_decide as Hn; [done|]. destruct (class_body p') as [[cs' rest']|]; [|done].
    injection H as <- <-. destruct (IH _ _ eq_refl) as [-> Hf]. split; [done|]. constructor; [|done].
    intros Hin. change (bs "]\[-^") with (Byte.x5d :: bs "\[-^") in Hin.
    by apply elem_of_cons in Hin as [->|Hin].
Qed.

Lemma class_body_complete cs rest :
  Forall (fun b => b ∉ bs "]\[-^") cs -> class_body (cs ++ bs "]" ++ rest) = Some (cs, rest).
Proof.
  induction 1 as [|b cs Hb _ IH]; [done|]. cbn [app class_body].
  change (bs "]\[-^") with (Byte.x5d :: bs "\[-^") in Hb. apply not_elem_of_cons in Hb as [Hb1 Hb2].
  rewrite decide_False by done. rewrite bool_decide_eq_false_2 by done. by rewrite IH.
Qed.

Lemma punct_spec b : punct b = true <-> ascii b /\ ~ letter_or_digit b.
Proof.
  assert (H : forall b, punct b =
    bool_decide (ascii b) && negb (bool_decide (letter_or_digit b))).
  { intros x. unfold ascii, letter_or_digit. destruct x; vm_compute; reflexivity. }
  rewrite H, andb_true_iff, negb_true_iff, bool_decide_eq_true, bool_decide_eq_false. done.
Qed.

Lemma special_spec b : special b = false <-> plain b.
Proof. unfold special, plain. by rewrite bool_decide_eq_false. Qed.

(** Where a sequence or a list of alternatives may end. *)
Definition seq_end (rest : bytes) : Prop :=
  match rest with [] => True | b :: _ => b = Byte.x7c \/ b = Byte.x29 end.
Definition alt_end (rest : bytes) : Prop :=
  match rest with [] => True | b :: _ => b = Byte.x29 end.

Lemma star_of_sound r p r' rest :
  star_of r p = Some (r', rest) ->
  (r' = r /\ p = rest) \/ (r' = RStar r /\ p = bs "*" ++ rest).
Proof.
  destruct p as [|b p']; cbn [star_of]; [intros [= <- <-]; by left|].
  case_decide as Hb.
  - subst b. intros H. right. destruct p' as [|c p'']; [by injection H as <- <-|].
    case_bool_decide; [done|]. by injection H as <- <-.
  - case_bool_decide; [done|]. intros [= <- <-]. by left.
Qed.

Lemma parse_sound f :
  (forall p r rest, parse_seq f p = Some (r, rest) ->
     exists t, p = t ++ rest /\ items t r /\ seq_end rest) /\
  (forall p r rest, parse_alt f p = Some (r, rest) ->
     exists t, p = t ++ rest /\ alts t r /\ alt_end rest).
Proof.
  induction f as [|f [IHs IHa]]; [done|]. split; intros p r rest.
  - assert (Hatom : forall t r0 w, item t r0 ->
      match star_of r0 w with
      | None => None
      | Some (r', rest') => match parse_seq f rest' with
                            | Some (q, rest'') => Some (RSeq r' q, rest'')
                            | None => None end end = Some (r, rest) ->
      exists t', t ++ w = t' ++ rest /\ items t' r /\ seq_end rest).
    { intros t r0 w Ht. destruct (star_of r0 w) as [[r' w']|] eqn:Es; [|done].
      destruct (parse_seq f w') as [[q w'']|] eqn:Ep; [|done]. intros [= <- <-].
      destruct (IHs _ _ _ Ep) as (u & -> & Hu & He).
      destruct (star_of_sound _ _ _ _ Es) as [[-> ->]|[-> ->]].
      - exists (t ++ u). split_and!; [by rewrite (assoc_L (++))|by apply its_one|done].
      - exists (t ++ bs "*" ++ u).
        split_and!; [by rewrite <- !(assoc_L (++))|by apply its_star|done]. }
    cbn [parse_seq]. destruct p as [|b p'].
    { intros [= <- <-]. exists []. split_and!; [done|constructor|done]. }
    case_decide as H1. { intros [= <- <-]. exists []. split_and!; [done|constructor|by left]. }
    case_decide as H2. { intros [= <- <-]. exists []. split_and!; [done|constructor|by right]. }
    case_decide as H3.
    { subst b. destruct p' as [|c p'']; [done|].
      case_decide as H4. { subst c. by apply (Hatom (bs "\A")), it_start. }
      case_decide as H5. { subst c. by apply (Hatom (bs "\s")), it_space. }
      destruct (punct c) eqn:Ec; [|done]. apply punct_spec in Ec as [??].
      by apply (Hatom (bs "\" ++ [c])), it_escape. }
    case_decide as H4. { subst b. by apply (Hatom (bs ".")), it_dot. }
    case_decide as H5.
    { subst b. destruct p' as [|c p'']; [done|]. case_decide as H6.
      - subst c. destruct (class_body p'') as [[cs w]|] eqn:Ec; [|done].
        destruct (class_body_sound _ _ _ Ec) as [-> Hf]. destruct cs as [|c cs]; [done|].
        assert (Hk : members (c :: cs)) by done.
        intros Hm. destruct (Hatom _ _ _ (it_not_class _ Hk) Hm)
          as (t' & Et & Hr). exists t'. split; [|done]. rewrite <- Et. by rewrite <- !(assoc_L (++)).
      - remember (c :: p'') as p'. destruct (class_body p') as [[cs w]|] eqn:Ec; [|done].
        destruct (class_body_sound _ _ _ Ec) as [-> Hf]. destruct cs as [|c' cs]; [done|].
        assert (Hk : members (c' :: cs)) by done.
        intros Hm. destruct (Hatom _ _ _ (it_class _ Hk) Hm)
          as (t' & Et & Hr). exists t'. split; [|done]. rewrite <- Et. by rewrite <- !(assoc_L (++)). }
    case_decide as H6.
    { subst b.
      assert (Hg : forall pre q, (forall t r0, alts t r0 -> item (pre ++ t ++ bs ")") r0) ->
        match parse_alt f q with
        | Some (r0, c :: w) =>
            if decide (c = Byte.x29)
            then match star_of r0 w with
                 | None => None
                 | Some (r', rest') =>
                     match parse_seq f rest' with
                     | Some (q0, rest'') => Some (RSeq r' q0, rest'')
                     | None => None end end
            else None
        | _ => None end = Some (r, rest) ->
        exists t', pre ++ q = t' ++ rest /\ items t' r /\ seq_end rest).
      { intros pre q Hpre. destruct (parse_alt f q) as [[r0 [|c w]]|] eqn:Ea; [done| |done].
        case_decide as Hc; [|done]. subst c. intros Hm.
        destruct (IHa _ _ _ Ea) as (t & -> & Ht & _).
        destruct (Hatom _ _ _ (Hpre _ _ Ht) Hm) as (t' & Et & Hr). exists t'. split; [|done].
        rewrite <- Et. by rewrite <- !(assoc_L (++)). }
      destruct p' as [|c [|d p'']]; [by apply (Hg (bs "(")); intros; apply it_group..|].
      case_decide as H7.
      - subst c. case_decide as H8; [|done]. subst d.
        by apply (Hg (bs "(?:")); intros; apply it_bare_group.
      - by apply (Hg (bs "(")); intros; apply it_group. }
    destruct (special b) eqn:Eb; [done|]. apply special_spec in Eb.
    by apply (Hatom [b]), it_plain.
  - cbn [parse_alt]. destruct (parse_seq f p) as [[r0 w]|] eqn:Es; [|done].
    destruct (IHs _ _ _ Es) as (t & -> & Ht & He).
    destruct w as [|b w'].
    { intros [= <- <-]. exists t. split_and!; [done|by apply al_one|done]. }
    case_decide as Hb.
    + subst b. destruct (parse_alt f w') as [[q w'']|] eqn:Ea; [|done]. intros [= <- <-].
      destruct (IHa _ _ _ Ea) as (u & -> & Hu & He'). exists (t ++ bs "|" ++ u).
      split_and!; [by rewrite <- !(assoc_L (++))|by apply al_more|done].
    + intros [= <- <-]. exists t. split_and!; [done|by apply al_one|].
      destruct He; done.
Qed.

(** How a piece of text does not begin. *)
Definition no_quantifier (p : bytes) : Prop :=
  match p with [] => True | b :: _ => b ∉ bs "*+?{" end.

Lemma item_head t r : item t r -> exists b u, t = b :: u /\ b ∉ bs "*+?{" /\ b <> Byte.x7c /\ b <> Byte.x29.
Proof.
  destruct 1 as [b Hb| | | | |cs _|cs _|t r _|t r _]; try (eexists _, _; split; [done|]; split_and!; [by vm_compute..|done|done]).
  all: try (eexists _, _; split; [reflexivity|]; split_and!; [|done..];
    change (bs "*+?{") with [Byte.x2a; Byte.x2b; Byte.x3f; Byte.x7b];
    rewrite !not_elem_of_cons; split_and!; try done; apply not_elem_of_nil).
  exists b, []. unfold plain in Hb.
  change (bs "^$.|?*+()[{\") with [Byte.x5e; Byte.x24; Byte.x2e; Byte.x7c; Byte.x3f; Byte.x2a; Byte.x2b; Byte.x28; Byte.x29; Byte.x5b; Byte.x7b; Byte.x5c] in Hb.
  change (bs "*+?{") with [Byte.x2a; Byte.x2b; Byte.x3f; Byte.x7b].
  rewrite !not_elem_of_cons in *. naive_solver.
Qed.

Lemma items_head t r rest : items t r -> seq_end rest -> no_quantifier (t ++ rest).
Proof.
  destruct 1 as [|t r u s Ht _|t r u s Ht _]; intros He.
  - destruct rest as [|b rest]; [done|]. cbn.
    change (bs "*+?{") with [Byte.x2a; Byte.x2b; Byte.x3f; Byte.x7b].
    rewrite !not_elem_of_cons. destruct He as [->| ->]; split_and!; try done; apply not_elem_of_nil.
  - destruct (item_head _ _ Ht) as (b & w & -> & Hb & _). done.
  - destruct (item_head _ _ Ht) as (b & w & -> & Hb & _). done.
Qed.

Lemma star_of_one r p : no_quantifier p -> star_of r p = Some (r, p).
Proof.
  destruct p as [|b p]; [done|]. cbn [no_quantifier star_of].
  change (bs "*+?{") with (Byte.x2a :: bs "+?{"). intros [Hb Hn]%not_elem_of_cons.
  by rewrite decide_False, bool_decide_eq_false_2 by done.
Qed.
Lemma star_of_star r p : no_quantifier p -> star_of r (bs "*" ++ p) = Some (RStar r, p).
Proof.
  destruct p as [|b p]; [done|]. cbn [no_quantifier]. intros Hn. change (bs "*" ++ b :: p) with (Byte.x2a :: b :: p).
  cbn [star_of]. rewrite decide_True by done. by rewrite bool_decide_eq_false_2.
Qed.

Definition then_seq (f : nat) (r : rgx) (w : bytes) : option (rgx * bytes) :=
  match star_of r w with
  | None => None
  | Some (r', rest') => match parse_seq f rest' with
                        | Some (q, rest'') => Some (RSeq r' q, rest'')
                        | None => None end end.

Ltac lens Hf :=
  repeat match type of Hf with
  | context [length (bs ?s)] =>
      let n := eval vm_compute in (length (bs s)) in change (length (bs s)) with n in Hf
  end.

Lemma parse_complete :
  (forall t r, item t r -> forall f w, (2 * length t <= f)%nat ->
     parse_seq (S f) (t ++ w) = then_seq f r w) /\
  (forall t r, items t r -> forall f rest, (2 * length t + 1 <= f)%nat -> seq_end rest ->
     parse_seq f (t ++ rest) = Some (r, rest)) /\
  (forall t r, alts t r -> forall f rest, (2 * length t + 2 <= f)%nat -> alt_end rest ->
     parse_alt f (t ++ rest) = Some (r, rest)).
Proof.
  apply pattern_ind.
  - intros b Hb f w _. pose proof Hb as Hs. apply special_spec in Hs. unfold plain in Hb.
    change (bs "^$.|?*+()[{\") with [Byte.x5e; Byte.x24; Byte.x2e; Byte.x7c; Byte.x3f; Byte.x2a; Byte.x2b; Byte.x28; Byte.x29; Byte.x5b; Byte.x7b; Byte.x5c] in Hb.
    rewrite !not_elem_of_cons in Hb. destruct_and! Hb.
    cbn [app parse_seq]. rewrite !decide_False by done. by rewrite Hs.
  - done.
  - intros b Ha Hl f w _. assert (Hp : punct b = true) by (apply punct_spec; done).
    change ((bs "\" ++ [b]) ++ w) with (BSL :: b :: w). cbn [parse_seq].
    rewrite !(decide_False (P := BSL = _)) by done. rewrite decide_True by done.
    rewrite decide_False by (intros ->; done). rewrite decide_False by (intros ->; done). by rewrite Hp.
  - done.
  - done.
  - intros cs [Hne Hf] f w _. destruct cs as [|c cs]; [done|].
    pose proof (class_body_complete _ w Hf) as Hc.
    replace ((bs "[" ++ (c :: cs) ++ bs "]") ++ w) with (Byte.x5b :: (c :: cs) ++ bs "]" ++ w)
      by (by rewrite <- !(assoc_L (++))).
    inversion Hf as [|? ? Hh _]; subst.
    assert (c <> Byte.x5e). { intros ->. apply Hh. vm_compute. repeat constructor. }
    cbn [parse_seq]. rewrite !(decide_False (P := Byte.x5b = _)) by done.
    rewrite decide_True by done. cbn [app]. rewrite decide_False by done.
    cbn [app] in Hc. rewrite Hc. done.
  - intros cs [Hne Hf] f w _. destruct cs as [|c cs]; [done|].
    pose proof (class_body_complete _ w Hf) as Hc.
    replace ((bs "[^" ++ (c :: cs) ++ bs "]") ++ w) with (Byte.x5b :: Byte.x5e :: (c :: cs) ++ bs "]" ++ w)
      by (by rewrite <- !(assoc_L (++))).
    cbn [parse_seq]. rewrite !(decide_False (P := Byte.x5b = _)) by done.
    rewrite !decide_True by done. rewrite Hc. done.
  - intros t r Ht IH f w Hf.
    rewrite !app_length in Hf. lens Hf.
    assert (Hh : match t ++ bs ")" ++ w with
                 | c :: d :: p'' => c <> Byte.x3f | _ => True end).
    { assert (Hi : exists u s x, items u s /\ t = u ++ x /\ seq_end (x ++ bs ")" ++ w)).
      { destruct Ht as [t r Hi|t r u s Hi _].
        - exists t, r, []. rewrite (right_id_L [] (++)). split_and!; [done..|by right].
        - exists t, r, (bs "|" ++ u). split_and!; [done..|by left]. }
      destruct Hi as (u & s & x & Hi & -> & Hx). pose proof (items_head _ _ _ Hi Hx) as Hq.
      rewrite <- (assoc_L (++)). destruct (u ++ x ++ bs ")" ++ w) as [|c [|d l]]; [done..|].
      cbn in Hq. intros ->. apply Hq. vm_compute. repeat constructor. }
    replace ((bs "(" ++ t ++ bs ")") ++ w) with (Byte.x28 :: t ++ bs ")" ++ w) by (by rewrite <- !(assoc_L (++))).
    cbn [parse_seq]. rewrite !(decide_False (P := Byte.x28 = _)) by done. rewrite decide_True by done.
    assert (Hq : match t ++ bs ")" ++ w with
                 | c :: d :: p'' => if decide (c = Byte.x3f) then if decide (d = COLON) then Some p'' else None
                                    else Some (t ++ bs ")" ++ w)
                 | _ => Some (t ++ bs ")" ++ w) end = Some (t ++ bs ")" ++ w)).
    { destruct (t ++ bs ")" ++ w) as [|c [|d l]]; [done..|]. by rewrite decide_False. }
    rewrite Hq. rewrite (IH f (bs ")" ++ w)); [|lia|done]. done.
  - intros t r Ht IH f w Hf.
    rewrite !app_length in Hf. lens Hf.
    replace ((bs "(?:" ++ t ++ bs ")") ++ w) with (Byte.x28 :: Byte.x3f :: COLON :: t ++ bs ")" ++ w)
      by (by rewrite <- !(assoc_L (++))).
    cbn [parse_seq]. rewrite !(decide_False (P := Byte.x28 = _)) by done. rewrite !decide_True by done.
    rewrite (IH f (bs ")" ++ w)); [|lia|done]. done.
  - intros [|f] rest Hf He; [cbn in Hf; lia|]. destruct rest as [|b rest]; [done|].
    cbn [app parse_seq]. destruct He as [->| ->]; done.
  - intros t r u s Ht IHt Hu IHu [|f] rest Hf He; [lia|].
    rewrite app_length in Hf.
    destruct (item_head _ _ Ht) as (b & t' & Et & _).
    assert (1 <= length t)%nat by (rewrite Et; cbn; lia).
    rewrite <- (assoc_L (++)), IHt by lia. unfold then_seq.
    rewrite star_of_one by (by eapply items_head). rewrite (IHu f rest); [done|lia|done].
  - intros t r u s Ht IHt Hu IHu [|f] rest Hf He; [lia|].
    rewrite !app_length in Hf. lens Hf.
    destruct (item_head _ _ Ht) as (b & t' & Et & _).
    assert (1 <= length t)%nat by (rewrite Et; cbn; lia).
    rewrite <- !(assoc_L (++)), IHt by lia. unfold then_seq.
    rewrite star_of_star by (by eapply items_head). rewrite (IHu f rest); [done|lia|done].
  - intros t r Ht IH [|f] rest Hf He; [lia|]. cbn [parse_alt].
    rewrite (IH f rest); [|lia|by destruct rest; [|right]].
    destruct rest as [|b rest]; [done|]. cbn in He. subst b. done.
  - intros t r u s Ht IHt Hu IHu [|f] rest Hf He; [lia|]. rewrite !app_length in Hf. lens Hf.
    cbn [parse_alt]. rewrite <- !(assoc_L (++)).
    rewrite (IHt f (bs "|" ++ u ++ rest)); [|lia|by left].
    change (bs "|" ++ u ++ rest) with (Byte.x7c :: u ++ rest). cbv iota beta.
    rewrite decide_True by done. rewrite (IHu f rest); [done|lia|done].
Qed.

Lemma read_pattern t r : parse_regex t = Some r <-> alts t r.
Proof.
  unfold parse_regex. split.
  - destruct (parse_alt _ t) as [[r' [|b rest]]|] eqn:E; [|done..]. intros [= ->].
    destruct (proj2 (parse_sound _) _ _ _ E) as (u & -> & Hu & _). by rewrite (right_id_L [] (++)).
  - intros Ht. pose proof (proj2 (proj2 parse_complete) _ _ Ht (2 * length t + 4)%nat []) as H.
    rewrite (right_id_L [] (++)) in H. rewrite H; [done|lia|done].
Qed.

(** ** Every pattern behind the prefix of --summary *)

Definition wrap (r : rgx) : rgx := RSeq RStart (RSeq (RStar (RClass true [NL])) r).

Lemma items_prefix t r : items t r -> items (summary_prefix ++ t) (wrap r).
Proof.
  intros Ht. change (summary_prefix ++ t) with (bs "\A" ++ (bs "[^" ++ [NL] ++ bs "]") ++ bs "*" ++ t).
  apply its_one; [apply it_start|]. apply its_star; [|done]. apply it_not_class. split; [done|].
  constructor; [|done]. change (bs "]\[-^") with [Byte.x5d; Byte.x5c; Byte.x5b; Byte.x2d; Byte.x5e].
  rewrite !not_elem_of_cons. split_and!; try done. apply not_elem_of_nil.
Qed.

Lemma parse_prefix f t x :
  parse_seq (S (S f)) (summary_prefix ++ t) = Some x ->
  exists r rest, parse_seq f t = Some (r, rest) /\ x = (wrap r, rest).
Proof.
  change (summary_prefix ++ t) with ((bs "\A" : bytes) ++ ((bs "[^" ++ [NL] ++ bs "]") ++ bs "*" ++ t)).
  assert (Hk : item (bs "[^" ++ [NL] ++ bs "]") (RClass true [NL])).
  { apply it_not_class. split; [done|].
    constructor; [|done]. change (bs "]\[-^") with [Byte.x5d; Byte.x5c; Byte.x5b; Byte.x2d; Byte.x5e].
    rewrite !not_elem_of_cons. split_and!; try done. apply not_elem_of_nil. }
  remember (S f) as f1.
  change (parse_seq (S f1) ((bs "\A" : bytes) ++ ((bs "[^" ++ [NL] ++ bs "]") ++ bs "*" ++ t)))
    with (then_seq f1 RStart ((bs "[^" ++ [NL] ++ bs "]") ++ bs "*" ++ t)).
  unfold then_seq at 1. rewrite star_of_one.
  2: { cbn. change (bs "*+?{") with [Byte.x2a; Byte.x2b; Byte.x3f; Byte.x7b].
       rewrite !not_elem_of_cons. split_and!; try done. apply not_elem_of_nil. }
  subst f1.
  change (parse_seq (S f) ((bs "[^" ++ [NL] ++ bs "]") ++ bs "*" ++ t))
    with (then_seq f (RClass true [NL]) (bs "*" ++ t)).
  unfold then_seq. destruct (star_of _ _) as [[r' w]|] eqn:Es; [|done].
  apply star_of_sound in Es as Ew.
  assert (r' = RStar (RClass true [NL]) /\ w = t) as [-> ->].
  { destruct Ew as [[-> <-]|[-> Ew]]; [|split; [done|]; by injection Ew].
    exfalso. change (bs "*" ++ t) with (Byte.x2a :: t) in Es. cbn [star_of] in Es.
    rewrite decide_True in Es by done. destruct t; [done|]. case_bool_decide; done. }
  destruct (parse_seq f t) as [[q rest]|] eqn:Ep; [|done]. intros [= <-]. by exists q, rest.
Qed.

Lemma read_summary t r' :
  parse_regex (summary_prefix ++ t) = Some r' <->
  (exists r, items t r /\ r' = wrap r) \/
  (exists ta a tb b, t = ta ++ bs "|" ++ tb /\ items ta a /\ alts tb b /\ r' = RAlt (wrap a) b).
Proof.
  split.
  - unfold parse_regex. replace (2 * length (summary_prefix ++ t) + 4)%nat
      with (S (S (S (2 * length t + 15)))) by (rewrite app_length; cbn; lia).
    set (f := (2 * length t + 15)%nat). remember (S (S f)) as f2 eqn:Ef.
    cbn [parse_alt]. destruct (parse_seq f2 (summary_prefix ++ t)) as [x|] eqn:E; [|done].
    subst f2. apply parse_prefix in E as (r & rest & E & ->).
    apply (proj1 (parse_sound _)) in E as (ta & -> & Hta & _).
    destruct rest as [|b rest].
    + intros [= <-]. left. exists r. by rewrite (right_id_L [] (++)).
    + case_decide as Hb; [|done]. subst b.
      destruct (parse_alt _ rest) as [[s [|? ?]]|] eqn:Ea; [|done..]. intros [= <-].
      apply (proj2 (parse_sound _)) in Ea as (u & -> & Hu & _).
      right. exists ta, r, u, s. by rewrite (right_id_L [] (++)).
  - intros [(r & Ht & ->)|(ta & a & tb & b & -> & Ha & Hb & ->)]; apply read_pattern.
    + by apply al_one, items_prefix.
    + rewrite (assoc_L (++)). by apply al_more; [apply items_prefix|].
Qed.

Lemma alts_fun t r s : alts t r -> alts t s -> r = s.
Proof. rewrite <- !read_pattern. congruence. Qed.

Lemma has_match_wrap r m : has_match (wrap r) m <-> has_match_in_first_line r m.
Proof.
  unfold has_match. rewrite <- search_spec. unfold wrap. by rewrite summary_search.
Qed.

Lemma has_match_alt a b m : has_match (RAlt a b) m <-> has_match a m \/ has_match b m.
Proof.
  unfold has_match. setoid_rewrite rmatch_alt. naive_solver.
Qed.

Lemma found_summary t r' m :
  parse_regex (summary_prefix ++ t) = Some r' -> (has_match r' m <-> found_with_summary m t).
Proof.
  intros Hr. split.
  - apply read_summary in Hr as [(r & Ht & ->)|(ta & a & tb & b & -> & Ha & Hb & ->)].
    + rewrite has_match_wrap. by apply fs_only.
    + rewrite has_match_alt, has_match_wrap. intros [H|H]; [by eapply fs_first|by eapply fs_rest].
  - intros H.
    assert (G : forall r2, parse_regex (summary_prefix ++ t) = Some r2 -> r2 = r') by congruence.
    destruct H as [t r Ht H|t r u s Ht Hu H|t r u s Ht Hu H].
    + rewrite <- (G (wrap r)); [by rewrite has_match_wrap|]. apply read_summary. left. by exists r.
    + rewrite <- (G (RAlt (wrap r) s)).
      * rewrite has_match_alt, has_match_wrap. by left.
      * apply read_summary. right. by exists t, r, u, s.
    + rewrite <- (G (RAlt (wrap r) s)).
      * rewrite has_match_alt, has_match_wrap. by right.
      * apply read_summary. right. by exists t, r, u, s.
Qed.

Lemma found_is_pattern m t : found_with_summary m t -> exists r, parse_regex (summary_prefix ++ t) = Some r.
Proof.
  destruct 1 as [t r Ht _|t r u s Ht Hu _|t r u s Ht Hu _].
  - exists (wrap r). apply read_summary. left. by exists r.
  - exists (RAlt (wrap r) s). apply read_summary. right. by exists t, r, u, s.
  - exists (RAlt (wrap r) s). apply read_summary. right. by exists t, r, u, s.
Qed.

Lemma summary_is_pattern t :
  (exists r', parse_regex (summary_prefix ++ t) = Some r') <-> exists r, alts t r.
Proof.
  split.
  - intros [r' H]. apply read_summary in H as [(r & Ht & _)|(ta & a & tb & b & -> & Ha & Hb & _)].
    + exists r. by apply al_one.
    + exists (RAlt a b). by apply al_more.
  - intros [r Ht]. destruct Ht as [t r Ht|t r u s Ht Hu].
    + exists (wrap r). apply read_summary. left. by exists r.
    + exists (RAlt (wrap r) s). apply read_summary. right. by exists t, r, u, s.
Qed.
