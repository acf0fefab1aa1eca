(** Watching the calls of a program, whatever the system answers. *)
From Verif Require Import Bytes Err FS Prog Wp Rg Total.

Section mon.
(** A watcher: its state, which calls it allows, which answers it expects, and how
    its state changes. *)
Context {S : Type} (may : S -> ev -> Prop) (ans : S -> forall e, resp e -> Prop) (next : S -> forall e, resp e -> S).

Fixpoint mon {A} (w : S) (p : prog A) (Q : S -> A -> Prop) : Prop :=
  match p with
  | Ret a => Q w a
  | Fail _ => True
  | Vis e k => may w e /\ forall r, ans w e r -> mon (next w e r) (k r) Q
  end.

Lemma mon_mono {A} w (p : prog A) (P Q : S -> A -> Prop) :
  (forall w a, P w a -> Q w a) -> mon w p P -> mon w p Q.
Proof using Type.
  intros H. revert w. induction p as [a|f|e k IH]; intros w; [apply H|done|]. intros [H1 H2]. split; [done|].
  intros r Hr. by apply IH, H2.
Qed.
Lemma mon_bind {A B} w (p : prog A) (f : A -> prog B) Q :
  mon w p (fun w a => mon w (f a) Q) -> mon w (bind p f) Q.
Proof using Type.
  revert w. induction p as [a|x|e k IH]; intros w; [done|done|]. intros [H1 H2]. split; [done|].
  intros r Hr. by apply IH, H2.
Qed.
Lemma mon_bindR {A B} w (p : prog (res A)) (f : A -> prog (res B)) (Q : S -> res B -> Prop) :
  mon w p (fun w r => match r with Ok a => mon w (f a) Q | Er e => Q w (Er e) end) -> mon w (bindR p f) Q.
Proof using Type. intros H. apply mon_bind. eapply mon_mono; [|exact H]. intros w' [a|e] Ha; exact Ha. Qed.
Lemma mon_io_call {A} w (p : prog (iores A)) (Q : S -> res A -> Prop) :
  mon w p (fun w r => Q w (res_of_io r)) -> mon w (io_call p) Q.
Proof using Type. intros H. by apply mon_bind. Qed.
Lemma mon_vis {A} w e k (Q : S -> A -> Prop) :
  may w e -> (forall r, ans w e r -> mon (next w e r) (k r) Q) -> mon w (Vis e k) Q.
Proof using Type. intros H1 H2. exact (conj H1 H2). Qed.
Lemma mon_call w e (Q : S -> resp e -> Prop) :
  may w e -> (forall r, ans w e r -> Q (next w e r) r) -> mon w (call e) Q.
Proof using Type. intros H1 H2. exact (conj H1 H2). Qed.
Lemma mon_ret {A} w (a : A) (Q : S -> A -> Prop) : Q w a -> mon w (Ret a) Q.
Proof using Type. done. Qed.

(** Calls the watcher ignores in the state [w]. *)
Definition ignored (w : S) (e : ev) : Prop := may w e /\ forall r, ans w e r -> resp_ok e r /\ next w e r = w.
Lemma mon_ignored {A} w (p : prog A) (P : A -> Prop) (Q : S -> A -> Prop) :
  all_ev (ignored w) p -> leaves P p -> (forall a, P a -> Q w a) -> mon w p Q.
Proof using Type.
  intros H1 H2 HQ. induction p as [a|f|e k IH]; [by apply HQ|done|]. destruct H1 as [[H4 H5] H3].
  apply mon_vis; [done|]. intros r Hr. destruct (H5 r Hr) as [Hr' ->]. apply IH; [by apply H3|apply H2].
Qed.
Lemma mon_ignored_all {A} w (p : prog A) (Q : S -> A -> Prop) :
  all_ev (ignored w) p -> (forall a, Q w a) -> mon w p Q.
Proof using Type. intros H1 HQ. apply (mon_ignored w p (fun _ => True)); [done|by apply leaves_all|auto]. Qed.
Lemma mon_leaves {A} w (p : prog A) (P : A -> Prop) (Q : S -> A -> Prop) :
  leaves P p -> mon w p (fun w a => P a -> Q w a) -> mon w p Q.
Proof using Type.
  revert w. induction p as [a|f|e k IH]; intros w H1 H2; [by apply H2|done|]. destruct H2 as [H2 H3].
  apply mon_vis; [done|]. intros r Hr. apply IH; [apply H1|by apply H3].
Qed.
End mon.
Global Arguments mon : simpl never.

Ltac mon_step :=
  match goal with
  | |- mon _ _ _ _ (bind _ _) _ => apply mon_bind
  | |- mon _ _ _ _ (bindR _ _) _ => apply mon_bindR
  | |- mon _ _ _ _ (io_call _) _ => apply mon_io_call
  | |- mon _ _ _ _ (Ret _) _ => apply mon_ret; cbv beta iota
  | |- mon _ _ _ _ (Fail _) _ => exact I
  | |- mon _ _ _ _ (match ?x with _ => _ end) _ => destruct x
  | |- mon _ _ _ _ (let _ := _ in _) _ => cbv zeta
  | |- mon _ _ _ _ (if ?x then _ else _) _ => destruct x
  end.
Ltac mo := repeat (cbv beta iota; mon_step).
