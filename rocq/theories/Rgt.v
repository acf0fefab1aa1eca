(** Reasoning about one process of a system at the moments of a schedule: between
    its steps the others change the state by [R]; [V k s l] says that after [k]
    choices of the schedule the state is [s] and the private state of the process
    is [l]; [J] must hold of its output at every moment, [F] of a
    panic or the end of the bound of the model.  Its own calls do not fail. *)
From Verif Require Import Bytes Err FS Prog Wp Rg.

Section rgt.
Context (pid : nat) (ok : orc -> Prop) (R : fs -> fs -> Prop) (I : fs -> Prop).
Context (V : nat -> fs -> local -> Prop) (J : bytes -> nat -> Prop) (F : failure -> Prop).

Fixpoint rgt {A} (p : prog A) (Q : A -> local -> nat -> fs -> Prop) (l : local) (t : nat) (s : fs) : Prop :=
  match p with
  | Ret a => Q a l t s
  | Fail f => F f /\ J (l_out l) t
  | Vis e k => J (l_out l) t /\
      forall t1 s1 o, (t <= t1)%nat -> V t1 s1 l -> R s s1 -> I s1 -> ok o ->
      let '(r, l', s2) := handle_ev pid e o l s1 in
      V (S t1) s2 l' -> I s2 -> rgt (k r) Q l' (S t1) s2
  end.

Lemma rgt_mono {A} (p : prog A) (Q Q' : A -> local -> nat -> fs -> Prop) l t s :
  (forall a l t s, Q a l t s -> Q' a l t s) -> rgt p Q l t s -> rgt p Q' l t s.
Proof.
  intros HQ. revert l t s. induction p as [a|f|e k IH]; simpl; intros l t s; eauto.
  intros [HJ H]. split; [done|]. intros t1 s1 o Ht Hv Hr Hi Ho. specialize (H t1 s1 o Ht Hv Hr Hi Ho).
  destruct (handle_ev pid e o l s1) as [[r l'] s2]. eauto.
Qed.

Lemma rgt_bind {A B} (p : prog A) (f : A -> prog B) (Q : B -> local -> nat -> fs -> Prop) l t s :
  rgt p (fun a => rgt (f a) Q) l t s -> rgt (bind p f) Q l t s.
Proof.
  revert l t s. induction p as [a|x|e k IH]; simpl; intros l t s; eauto.
  intros [HJ H]. split; [done|]. intros t1 s1 o Ht Hv Hr Hi Ho. specialize (H t1 s1 o Ht Hv Hr Hi Ho).
  destruct (handle_ev pid e o l s1) as [[r l'] s2]. eauto.
Qed.

Lemma rgt_bindR {A B} (p : prog (res A)) (f : A -> prog (res B)) (Q : res B -> local -> nat -> fs -> Prop) l t s :
  rgt p (fun r l t s => match r with Ok a => rgt (f a) Q l t s | Er e => Q (Er e) l t s end) l t s ->
  rgt (bindR p f) Q l t s.
Proof.
  intros H. apply rgt_bind. eapply rgt_mono; [|exact H].
  intros [a|e] l' t' s' H'; done.
Qed.

Lemma rgt_io_call {A} (p : prog (iores A)) (Q : res A -> local -> nat -> fs -> Prop) l t s :
  rgt p (fun r l t s => Q (res_of_io r) l t s) l t s -> rgt (io_call p) Q l t s.
Proof. intros H. by apply rgt_bind. Qed.

Lemma rgt_ret {A} (a : A) (Q : A -> local -> nat -> fs -> Prop) l t s : Q a l t s -> rgt (Ret a) Q l t s.
Proof. done. Qed.

Lemma rgt_call (e : ev) (Q : resp e -> local -> nat -> fs -> Prop) l t s :
  J (l_out l) t ->
  (forall t1 s1 o, (t <= t1)%nat -> V t1 s1 l -> R s s1 -> I s1 -> ok o ->
   let '(r, l', s2) := handle_ev pid e o l s1 in V (S t1) s2 l' -> I s2 -> Q r l' (S t1) s2) ->
  rgt (call e) Q l t s.
Proof. done. Qed.

(** What is known of the state besides. *)
Lemma rgt_rg {A} (G : fs -> fs -> Prop) (Ri : fs -> fs -> Prop) (Ii : fs -> Prop) (p : prog A)
  (Q1 : A -> local -> fs -> Prop) (Q2 : A -> local -> nat -> fs -> Prop) l t s :
  (forall s s', R s s' -> Ri s s') -> (forall s, I s -> Ii s) ->
  rg pid Ri G Ii p Q1 l s -> rgt p Q2 l t s -> rgt p (fun a l t s => Q1 a l s /\ Q2 a l t s) l t s.
Proof.
  intros HR HI. revert l t s. induction p as [a|f|e k IH]; intros l t s H1 H2; simpl; [by split|done|].
  destruct H2 as [HJ H2]. split; [done|]. intros t1 s1 o Ht Hv Hr Hi Ho.
  pose proof (H1 s1 o (HR _ _ Hr) (HI _ Hi)) as H3. specialize (H2 t1 s1 o Ht Hv Hr Hi Ho).
  destruct (handle_ev pid e o l s1) as [[r l'] s2]. destruct H3 as (_ & _ & H3). intros. apply IH; [done|]. by apply H2.
Qed.

(** ** Programs that do not depend on what others change *)
Context (J_mono : forall w t t', (t <= t')%nat -> J w t -> J w t').
Context (J_prefix : forall w w' t, J (w ++ w') t -> J w t).
Context (ok_some : exists o, ok o).

Lemma out_grows e o l s : exists w, l_out (handle_ev pid e o l s).1.2 = l_out l ++ w.
Proof using Type.
  assert (G : exists w, l_out l = l_out l ++ w) by (exists []; by rewrite app_nil_r).
  destruct e; cbn [handle_ev]; unfold faulty, with_l; destruct (o_fault o); try done; cbn [fst snd l_out add_out];
    try (by eexists).
  unfold do_read. by destruct (n <=? lenN (l_in l))%N.
Qed.

(** What has been written is a beginning of what will be. *)
Lemma wp_grows {A} (T : bytes -> Prop) (p : prog A) (Q : A -> local -> fs -> Prop) (Fw : failure -> local -> fs -> Prop) l s :
  (forall w w', T (w ++ w') -> T w) ->
  (forall a l s, Q a l s -> T (l_out l)) -> (forall f l s, Fw f l s -> T (l_out l)) ->
  wp pid ok Fw p Q l s -> T (l_out l).
Proof using ok_some.
  intros HT HQ HF. revert l s. induction p as [a|f|e k IH]; intros l s H; [by eapply HQ|by eapply HF|].
  destruct ok_some as [o Ho]. specialize (H o Ho). pose proof (out_grows e o l s) as [w Hw].
  destruct (handle_ev pid e o l s) as [[r l'] s']. simpl in Hw. apply IH in H. rewrite Hw in H. by eapply HT.
Qed.

Lemma rgt_lift {A} (E : ev -> Prop) (P : fs -> Prop) (p : prog A) (Q : A -> local -> Prop) l t s sx :
  (forall e o l s1 s2, E e -> ok o -> P s1 -> P s2 ->
     (handle_ev pid e o l s1).1 = (handle_ev pid e o l s2).1 /\ P (handle_ev pid e o l s1).2) ->
  (forall s s', R s s' -> I s' -> P s -> P s') ->
  all_ev E p -> P s -> P sx ->
  wp pid ok (fun f l' _ => F f /\ J (l_out l') t) p (fun a l' _ => Q a l' /\ J (l_out l') t) l sx ->
  rgt p (fun a l' t' s' => Q a l' /\ (t <= t')%nat /\ J (l_out l') t' /\ P s') l t s.
Proof using J_mono J_prefix ok_some.
  intros HE HP Hp Hs Hx Hw.
  cut (forall t0, (t <= t0)%nat -> rgt p (fun a l' t' s' => Q a l' /\ (t <= t')%nat /\ J (l_out l') t' /\ P s') l t0 s).
  { intros G. by apply G. }
  revert l s sx Hp Hs Hx Hw. induction p as [a|f|e k IH]; intros l s sx Hp Hs Hx Hw t0 Ht0; simpl.
  - destruct Hw as [Hw1 Hw2]. split_and!; try done. by eapply J_mono.
  - destruct Hw as [Hw1 Hw2]. split; [done|]. by eapply J_mono.
  - split.
    { apply (J_mono _ t); [done|]. revert Hw. apply (wp_grows (fun w => J w t)); [intros w w'; apply J_prefix|by intros ??? []|by intros ??? []]. }
    intros t1 s1 o Ht1 Hv Hr Hi Ho. destruct Hp as [He Hk].
    pose proof (HP _ _ Hr Hi Hs) as Hs1. pose proof (handle_resp_ok pid e o l s1) as Hrok.
    destruct (HE e o l s1 sx He Ho Hs1 Hx) as [E1 E2]. destruct (HE e o l sx s1 He Ho Hx Hs1) as [_ E3].
    pose proof (Hw o Ho) as Hw'.
    destruct (handle_ev pid e o l s1) as [[r l'] s2]. destruct (handle_ev pid e o l sx) as [[r' l''] sx2]. simpl in *.
    injection E1 as <- <-. intros _ Hi2. apply (IH r l' s2 sx2); try done; [by apply Hk|lia].
Qed.
End rgt.

Global Arguments rgt : simpl never.
