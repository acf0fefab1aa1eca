(** Weakest preconditions for one process running alone, for the runs in which
    every call with its oracle and its result is [good]. *)
From Verif Require Import Bytes Err FS Prog Wp Rg SpecFrame.

Section wpr.
Context (good : forall e, orc -> resp e -> Prop).
Context (pid : nat) (F : failure -> local -> fs -> Prop).

Fixpoint wpr {A} (p : prog A) (Q : A -> local -> fs -> Prop) (l : local) (s : fs) : Prop :=
  match p with
  | Ret a => Q a l s
  | Fail f => F f l s
  | Vis e k =>
      forall o, let '(r, l', s') := handle_ev pid e o l s in good e o r -> wpr (k r) Q l' s'
  end.

Lemma wpr_ret {A} (a : A) (Q : A -> local -> fs -> Prop) l s : Q a l s -> wpr (Ret a) Q l s.
Proof. done. Qed.
Lemma wpr_vis {A} e (k : resp e -> prog A) (Q : A -> local -> fs -> Prop) l s :
  (forall o, let '(r, l', s') := handle_ev pid e o l s in good e o r -> wpr (k r) Q l' s') -> wpr (Vis e k) Q l s.
Proof. done. Qed.
Lemma wpr_call e (Q : resp e -> local -> fs -> Prop) l s :
  (forall o, let '(r, l', s') := handle_ev pid e o l s in good e o r -> Q r l' s') -> wpr (call e) Q l s.
Proof. done. Qed.
Lemma wpr_mono {A} (p : prog A) (Q Q' : A -> local -> fs -> Prop) l s :
  (forall a l s, Q a l s -> Q' a l s) -> wpr p Q l s -> wpr p Q' l s.
Proof.
  intros HQ. revert l s. induction p as [a|f|e k IH]; simpl; intros l s; eauto.
  intros H o. specialize (H o). destruct (handle_ev pid e o l s) as [[r l'] s']. eauto.
Qed.
Lemma wpr_bind {A B} (p : prog A) (f : A -> prog B) (Q : B -> local -> fs -> Prop) l s :
  wpr p (fun a => wpr (f a) Q) l s -> wpr (bind p f) Q l s.
Proof.
  revert l s. induction p as [a|x|e k IH]; intros l s; unfold bind; fold (@bind A B); [done|done|].
  intros H o. specialize (H o). destruct (handle_ev pid e o l s) as [[r l'] s']. intros Hg. by apply IH, H.
Qed.
Lemma wpr_bindR {A B} (p : prog (res A)) (f : A -> prog (res B)) (Q : res B -> local -> fs -> Prop) l s :
  wpr p (fun r l s => match r with Ok a => wpr (f a) Q l s | Er e => Q (Er e) l s end) l s ->
  wpr (bindR p f) Q l s.
Proof.
  intros H. apply wpr_bind. eapply wpr_mono; [|exact H].
  intros [a|e] l' s' H'; done.
Qed.

(** What holds for all oracles, and for calls that do not fail in good runs. *)
Lemma wpr_any {A} (p : prog A) (Q : A -> local -> fs -> Prop) l s : wp pid any_orc F p Q l s -> wpr p Q l s.
Proof.
  revert l s. induction p as [a|f|e k IH]; intros l s H; [done|done|].
  intros o. specialize (H o Logic.I). destruct (handle_ev pid e o l s) as [[r l'] s']. intros _. by apply IH.
Qed.
Lemma wpr_no_fault {A} (E : ev -> Prop) (p : prog A) (Q : A -> local -> fs -> Prop) l s :
  (forall e o l s, E e -> good e o (handle_ev pid e o l s).1.1 -> no_fault o) ->
  all_ev E p -> wp pid no_fault F p Q l s -> wpr p Q l s.
Proof.
  intros HE. revert l s. induction p as [a|f|e k IH]; intros l s Hp H; [done|done|]. destruct Hp as [He Hk].
  intros o. specialize (H o). pose proof (HE e o l s He) as Hg. pose proof (handle_resp_ok pid e o l s) as Hr.
  destruct (handle_ev pid e o l s) as [[r l'] s']. intros Hg'. apply IH; [by apply Hk|]. apply H. by apply Hg.
Qed.

Lemma wpr_run {A} (p : prog A) (Q : A -> local -> fs -> Prop) os l s :
  wpr p Q l s -> run_such good pid p os l s ->
  match run pid p os l s with
  | (Done a, l', s') => Q a l' s'
  | (Failed f, l', s') => F f l' s'
  end.
Proof.
  revert os l s. induction p as [a|x|e k IH]; intros os l s H Ho; [done..|].
  specialize (H (os 0)). cbn [run run_such] in *. destruct (handle_ev pid e (os 0) l s) as [[r l'] s'].
  destruct Ho as [Hg Ho]. apply IH; [by apply H|done].
Qed.
End wpr.

(** Two facts about one run. *)
Lemma wpr_conj {A} good pid F (p : prog A) (Q R : A -> local -> fs -> Prop) l s :
  wpr good pid F p Q l s -> wpr good pid (fun _ _ _ => True) p R l s -> wpr good pid F p (fun a l s => Q a l s /\ R a l s) l s.
Proof.
  revert l s. induction p as [a|f|e k IH]; intros l s H1 H2; [by split|done|].
  intros o. specialize (H1 o). specialize (H2 o). destruct (handle_ev pid e o l s) as [[r l'] s'].
  intros Hg. apply IH; [by apply H1|by apply H2].
Qed.

Lemma such_mono {A} (P P' : forall e, orc -> resp e -> Prop) pid (p : prog A) os l s :
  (forall e o r, P e o r -> P' e o r) -> run_such P pid p os l s -> run_such P' pid p os l s.
Proof.
  intros HP. revert os l s. induction p as [a|x|e k IH]; intros os l s Ho; [done..|]. cbn [run_such] in *.
  destruct (handle_ev pid e (os 0) l s) as [[r l'] s']. destruct Ho. split; auto.
Qed.
Lemma reads_well_ff {A} pid (p : prog A) os l s : fault_free os -> run_such reads_well pid p os l s.
Proof.
  revert os l s. induction p as [a|x|e k IH]; intros os l s Ho; [done..|]. cbn [run_such].
  destruct (handle_ev pid e (os 0) l s) as [[r l'] s']. split; [destruct e; [apply Ho|done..]|].
  apply IH. intros n. apply Ho.
Qed.

Global Arguments wpr : simpl never.
