(** Weakest preconditions for one process running alone, for every oracle that
    satisfies [ok]. *)
From Verif Require Import Bytes Err FS Prog.

Section wp.
Context (pid : nat) (ok : orc -> Prop) (F : failure -> local -> fs -> Prop).

Fixpoint wp {A} (p : prog A) (Q : A -> local -> fs -> Prop) (l : local) (s : fs) : Prop :=
  match p with
  | Ret a => Q a l s
  | Fail f => F f l s
  | Vis e k =>
      forall o, ok o ->
      let '(r, l', s') := handle_ev pid e o l s in wp (k r) Q l' s'
  end.

Lemma wp_ret {A} (a : A) (Q : A -> local -> fs -> Prop) l s : Q a l s -> wp (Ret a) Q l s.
Proof. done. Qed.

Lemma wp_mono {A} (p : prog A) (Q Q' : A -> local -> fs -> Prop) l s :
  (forall a l s, Q a l s -> Q' a l s) -> wp p Q l s -> wp p Q' l s.
Proof.
  intros HQ. revert l s. induction p as [a|f|e k IH]; simpl; intros l s; eauto.
  intros H o Ho. specialize (H o Ho). destruct (handle_ev pid e o l s) as [[r l'] s'].
  eauto.
Qed.

Lemma wp_bind {A B} (p : prog A) (f : A -> prog B) (Q : B -> local -> fs -> Prop) l s :
  wp p (fun a => wp (f a) Q) l s -> wp (bind p f) Q l s.
Proof.
  revert l s. induction p as [a|x|e k IH]; simpl; intros l s; eauto.
  intros H o Ho. specialize (H o Ho). destruct (handle_ev pid e o l s) as [[r l'] s'].
  eauto.
Qed.

Lemma wp_bind_inv {A B} (p : prog A) (f : A -> prog B) (Q : B -> local -> fs -> Prop) l s :
  wp (bind p f) Q l s -> wp p (fun a => wp (f a) Q) l s.
Proof.
  revert l s. induction p as [a|x|e k IH]; simpl; intros l s; eauto.
  intros H o Ho. specialize (H o Ho). destruct (handle_ev pid e o l s) as [[r l'] s'].
  eauto.
Qed.

Lemma wp_bindR {A B} (p : prog (res A)) (f : A -> prog (res B)) (Q : res B -> local -> fs -> Prop) l s :
  wp p (fun r l s => match r with Ok a => wp (f a) Q l s | Er e => Q (Er e) l s end) l s ->
  wp (bindR p f) Q l s.
Proof.
  intros H. apply wp_bind. eapply wp_mono; [|exact H].
  intros [a|e] l' s' H'; done.
Qed.

Lemma wp_call (e : ev) (Q : resp e -> local -> fs -> Prop) l s :
  (forall o, ok o -> let '(r, l', s') := handle_ev pid e o l s in Q r l' s') ->
  wp (call e) Q l s.
Proof. done. Qed.

Lemma wp_io_call {A} (p : prog (iores A)) (Q : res A -> local -> fs -> Prop) l s :
  wp p (fun r l s => Q (res_of_io r) l s) l s -> wp (io_call p) Q l s.
Proof. intros H. by apply wp_bind. Qed.

Lemma wp_run {A} (p : prog A) (Q : A -> local -> fs -> Prop) l s :
  wp p Q l s -> forall os, (forall n, ok (os n)) ->
  match run pid p os l s with
  | (Done a, l', s') => Q a l' s'
  | (Failed f, l', s') => F f l' s'
  end.
Proof.
  revert l s. induction p as [a|x|e k IH]; simpl; intros l s H os Hos; [done..|].
  specialize (H (os 0) (Hos 0)).
  destruct (handle_ev pid e (os 0) l s) as [[r l'] s'].
  apply IH; [done|]. intros n. apply Hos.
Qed.

End wp.

(** Conversely, what holds of all runs holds of [wp]. *)
Lemma run_wp pid (ok : orc -> Prop) {A} (p : prog A) F (Q : A -> local -> fs -> Prop) l s :
  (exists o, ok o) ->
  (forall os, (forall n, ok (os n)) ->
   match run pid p os l s with
   | (Done a, l', s') => Q a l' s'
   | (Failed f, l', s') => F f l' s'
   end) -> wp pid ok F p Q l s.
Proof.
  intros [o0 Ho0]. revert l s. induction p as [a|x|e k IH]; simpl; intros l s H.
  - by apply (H (fun _ => o0)).
  - by apply (H (fun _ => o0)).
  - intros o Ho. destruct (handle_ev pid e o l s) as [[r l'] s'] eqn:E.
    apply IH. intros os Hos.
    specialize (H (fun n => match n with O => o | S n => os n end)). simpl in H.
    rewrite E in H. apply H. intros [|n]; done.
Qed.

Definition no_fault (o : orc) : Prop := o_fault o = None.
Definition any_orc (o : orc) : Prop := True.
Definition no_fail (f : failure) (l : local) (s : fs) : Prop := False.

(** [run] and the oracles it leaves unused. *)
Fixpoint rest {A} (pid : nat) (p : prog A) (os : orcs) (l : local) (s : fs) : orcs :=
  match p with
  | Vis e k => let '(r, l', s') := handle_ev pid e (os 0) l s in
               rest pid (k r) (shift os) l' s'
  | _ => os
  end.

Lemma run_bind {A B} pid (p : prog A) (f : A -> prog B) os l s :
  run pid (bind p f) os l s =
  match run pid p os l s with
  | (Done a, l', s') => run pid (f a) (rest pid p os l s) l' s'
  | (Failed x, l', s') => (Failed x, l', s')
  end.
Proof.
  revert os l s. induction p as [a|x|e k IH]; intros os l s; simpl; [done..|].
  destruct (handle_ev pid e (os 0) l s) as [[r l'] s']. apply IH.
Qed.

Lemma rest_ok {A} pid (p : prog A) (ok : orc -> Prop) os l s :
  (forall n, ok (os n)) -> forall n, ok (rest pid p os l s n).
Proof.
  revert os l s. induction p as [a|x|e k IH]; intros os l s H n; simpl; [done..|].
  destruct (handle_ev pid e (os 0) l s) as [[r l'] s']. apply IH. intros m. apply H.
Qed.

(** Output only grows. *)
Lemma handle_grows pid e o l s : exists more, l_out (handle_ev pid e o l s).1.2 = l_out l ++ more.
Proof.
  assert (G : exists more, l_out l = l_out l ++ more) by (exists []; by rewrite app_nil_r).
  destruct e; cbn [handle_ev]; unfold faulty, with_l; try destruct (o_fault o); cbn [fst snd]; try exact G; try by eexists.
  - unfold do_read. by destruct (_ <=? _)%N.
Qed.
Lemma wp_weaken pid ok (F F' : failure -> local -> fs -> Prop) {A} (p : prog A) (Q Q' : A -> local -> fs -> Prop) l s :
  (forall f l s, F f l s -> F' f l s) -> (forall a l s, Q a l s -> Q' a l s) -> wp pid ok F p Q l s -> wp pid ok F' p Q' l s.
Proof.
  intros HF HQ. revert l s. induction p as [a|f|e k IH]; intros l s H; [by apply HQ|by apply HF|].
  intros o Ho. specialize (H o Ho). destruct (handle_ev pid e o l s) as [[r l'] s']. by apply IH.
Qed.
Lemma wp_out_grows pid ok {A} (p : prog A) l s :
  wp pid ok (fun _ l' _ => exists more, l_out l' = l_out l ++ more) p (fun _ l' _ => exists more, l_out l' = l_out l ++ more) l s.
Proof.
  assert (G : forall l0 s0, (exists more, l_out l0 = l_out l ++ more) ->
    wp pid ok (fun _ l' _ => exists more, l_out l' = l_out l ++ more) p (fun _ l' _ => exists more, l_out l' = l_out l ++ more) l0 s0).
  { induction p as [a|f|e k IH]; simpl; intros l0 s0 H0; [done..|].
    intros o Ho.
    pose proof (handle_grows pid e o l0 s0) as [more E]. destruct (handle_ev pid e o l0 s0) as [[r l'] s'].
    apply IH. cbn in E. destruct H0 as [m0 E0]. exists (m0 ++ more). by rewrite E, E0, app_assoc. }
  apply G. exists []. by rewrite app_nil_r.
Qed.

Global Arguments wp : simpl never.
Global Arguments bind : simpl never.
Global Arguments bindR : simpl never.
Global Arguments io_call : simpl never.
