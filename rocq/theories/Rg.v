(** Rely-guarantee reasoning about many processes: each step of a process keeps
    the invariant [I] and is one of its guaranteed changes [G]; between its steps
    the others may change the state by [R].  Faults are arbitrary. *)
From Verif Require Import Bytes Err FS Prog Wp.
From stdpp Require Import relations.

Section rg.
Context (pid : nat) (R G : fs -> fs -> Prop) (I : fs -> Prop).

Fixpoint rg {A} (p : prog A) (Q : A -> local -> fs -> Prop) (l : local) (s : fs) : Prop :=
  match p with
  | Ret a => Q a l s
  | Fail _ => True
  | Vis e k =>
      forall s1 o, R s s1 -> I s1 ->
      let '(r, l', s2) := handle_ev pid e o l s1 in
      I s2 /\ G s1 s2 /\ rg (k r) Q l' s2
  end.

Lemma rg_mono {A} (p : prog A) (Q Q' : A -> local -> fs -> Prop) l s :
  (forall a l s, Q a l s -> Q' a l s) -> rg p Q l s -> rg p Q' l s.
Proof.
  intros HQ. revert l s. induction p as [a|f|e k IH]; simpl; intros l s; eauto.
  intros H s1 o Hr Hi. specialize (H s1 o Hr Hi).
  destruct (handle_ev pid e o l s1) as [[r l'] s2]. naive_solver.
Qed.

Lemma rg_bind {A B} (p : prog A) (f : A -> prog B) (Q : B -> local -> fs -> Prop) l s :
  rg p (fun a => rg (f a) Q) l s -> rg (bind p f) Q l s.
Proof.
  revert l s. induction p as [a|x|e k IH]; simpl; intros l s; eauto.
  intros H s1 o Hr Hi. specialize (H s1 o Hr Hi).
  destruct (handle_ev pid e o l s1) as [[r l'] s2]. naive_solver.
Qed.

Lemma rg_bindR {A B} (p : prog (res A)) (f : A -> prog (res B)) (Q : res B -> local -> fs -> Prop) l s :
  rg p (fun r l s => match r with Ok a => rg (f a) Q l s | Er e => Q (Er e) l s end) l s ->
  rg (bindR p f) Q l s.
Proof.
  intros H. apply rg_bind. eapply rg_mono; [|exact H].
  intros [a|e] l' s' H'; done.
Qed.

Lemma rg_call (e : ev) (Q : resp e -> local -> fs -> Prop) l s :
  (forall s1 o, R s s1 -> I s1 ->
   let '(r, l', s2) := handle_ev pid e o l s1 in I s2 /\ G s1 s2 /\ Q r l' s2) ->
  rg (call e) Q l s.
Proof. done. Qed.

Lemma rg_ret {A} (a : A) (Q : A -> local -> fs -> Prop) l s : Q a l s -> rg (Ret a) Q l s.
Proof. done. Qed.

Lemma rg_vis {A} (e : ev) (k : resp e -> prog A) (Q : A -> local -> fs -> Prop) l s :
  (forall s1 o, R s s1 -> I s1 ->
   let '(r, l', s2) := handle_ev pid e o l s1 in I s2 /\ G s1 s2 /\ rg (k r) Q l' s2) ->
  rg (Vis e k) Q l s.
Proof. done. Qed.

Lemma rg_io_call {A} (p : prog (iores A)) (Q : res A -> local -> fs -> Prop) l s :
  rg p (fun r l s => Q (res_of_io r) l s) l s -> rg (io_call p) Q l s.
Proof. intros H. by apply rg_bind. Qed.

End rg.

Global Arguments rg : simpl never.

(** ** Systems *)
Section sound.
Context (R G : nat -> fs -> fs -> Prop) (I : fs -> Prop).
Context {A : Type} (Q : nat -> A -> local -> fs -> Prop).
Hypothesis (R_refl : forall i s, R i s s) (R_trans : forall i a b c, R i a b -> R i b c -> R i a c).
Hypothesis (G_R : forall i j s s', i <> j -> I s -> I s' -> G j s s' -> R i s s').

Definition proc_ok (i : nat) (p : proc A) (s : fs) : Prop :=
  exists s0, R i s0 s /\ rg i (R i) (G i) I (pr_prog p) (Q i) (pr_local p) s0.

Definition sys_ok (y : sys A) : Prop :=
  I (shared y) /\ forall i p, procs y !! i = Some p -> proc_ok i p (shared y).

(** One process moved. *)
Definition moved (s s' : fs) : Prop := I s /\ I s' /\ exists i, G i s s'.

Lemma sys_step_sound y c : sys_ok y ->
  sys_ok (sys_step y c) /\ rtc moved (shared y) (shared (sys_step y c)).
Proof.
  intros [HI Hp]. unfold sys_step. destruct c as [i a]. simpl.
  destruct (procs y !! i) as [p|] eqn:Ei; [|done].
  destruct p as [q l dead]. unfold proc_step. simpl. destruct dead.
  { rewrite list_insert_id by done. by destruct y. }
  destruct a as [o|].
  2: { simpl. split; [|done]. split; [done|]. intros j p'. simpl.
       rewrite list_lookup_insert_Some. intros [(-> & <- & _)|[_ H]].
       - destruct (Hp _ _ Ei) as (s0 & H1 & H2). by exists s0.
       - by apply Hp. }
  destruct q as [a|f|e k]; simpl.
  - rewrite list_insert_id by done. by destruct y.
  - rewrite list_insert_id by done. by destruct y.
  - destruct (Hp _ _ Ei) as (s0 & H1 & H2). simpl in H2.
    pose proof (H2 (shared y) o H1 HI) as H3.
    destruct (handle_ev i e o l (shared y)) as [[r l'] s2]. destruct H3 as (HI2 & HG & H3).
    simpl. split.
    + split; [done|]. intros j p'. simpl.
      rewrite list_lookup_insert_Some. intros [(-> & <- & _)|[Hne H]].
      * exists s2. split; [apply R_refl|done].
      * destruct (Hp _ _ H) as (s0' & H1' & H2'). exists s0'. split; [|done].
        eapply R_trans; [done|]. by apply (G_R j i).
    + apply rtc_once. split_and!; try done. by exists i.
Qed.

Lemma sys_run_sound cs y : sys_ok y ->
  sys_ok (sys_run cs y) /\ rtc moved (shared y) (shared (sys_run cs y)).
Proof.
  revert y. induction cs as [|c cs IH]; intros y H; simpl; [done|].
  destruct (sys_step_sound y c H) as [H1 H2]. destruct (IH _ H1) as [H3 H4].
  split; [done|]. by etrans.
Qed.
End sound.

(** ** One process, killed at any point *)
Lemma run_crash_sound {A} pid (I : fs -> Prop) (Q : A -> local -> fs -> Prop) (p : prog A) n os l s :
  I s -> rg pid eq (fun _ _ => True) I p Q l s -> I (run_crash n pid p os l s).2.
Proof.
  revert n os l s. induction p as [a|f|e k IH]; intros n os l s HI H; destruct n as [|n]; try done.
  simpl. pose proof (H s (os 0%nat) eq_refl HI) as H'.
  destruct (handle_ev pid e (os 0%nat) l s) as [[r l'] s']. destruct H' as (HI' & _ & H').
  by apply IH.
Qed.

Lemma run_sound {A} pid (I : fs -> Prop) (Q : A -> local -> fs -> Prop) (p : prog A) os l s :
  I s -> rg pid eq (fun _ _ => True) I p Q l s ->
  match run pid p os l s with
  | (Done a, l', s') => I s' /\ Q a l' s'
  | (Failed _, _, s') => I s'
  end.
Proof.
  revert os l s. induction p as [a|f|e k IH]; intros os l s HI H; try done.
  simpl. pose proof (H s (os 0%nat) eq_refl HI) as H'.
  destruct (handle_ev pid e (os 0%nat) l s) as [[r l'] s']. destruct H' as (HI' & _ & H').
  by apply IH.
Qed.

(** ** Programs all of whose calls are of one kind *)

(** What a call can return whatever the state: the name of a temporary file is
    in the directory asked for. *)
Definition resp_ok (e : ev) : resp e -> Prop :=
  match e return resp e -> Prop with
  | EMktemp d pre => fun r => match r with
                              | IOk (p, _) => exists sfx, p = d ++ [pre ++ sfx]
                              | IErr _ => True
                              end
  | _ => fun _ => True
  end.

Fixpoint all_ev (P : ev -> Prop) {A} (p : prog A) : Prop :=
  match p with
  | Vis e k => P e /\ forall r, resp_ok e r -> all_ev P (k r)
  | _ => True
  end.

Lemma all_ev_bind P {A B} (p : prog A) (f : A -> prog B) :
  all_ev P p -> (forall a, all_ev P (f a)) -> all_ev P (bind p f).
Proof. intros Hp Hf. induction p as [a|x|e k IH]; [apply Hf|done|]. destruct Hp as [H1 H2]. split; [done|]. intros r Hr. apply IH. by apply H2. Qed.
Lemma all_ev_bindR P {A B} (p : prog (res A)) (f : A -> prog (res B)) :
  all_ev P p -> (forall a, all_ev P (f a)) -> all_ev P (bindR p f).
Proof. intros Hp Hf. apply all_ev_bind; [done|]. intros [a|e]; [apply Hf|done]. Qed.
Lemma all_ev_io_call P {A} (p : prog (iores A)) : all_ev P p -> all_ev P (io_call p).
Proof. intros Hp. by apply all_ev_bind. Qed.
Lemma all_ev_call (P : ev -> Prop) e : P e -> all_ev P (call e).
Proof. done. Qed.
Lemma all_ev_mono (P P' : ev -> Prop) {A} (p : prog A) :
  (forall e, P e -> P' e) -> all_ev P p -> all_ev P' p.
Proof. intros H. induction p as [a|x|e k IH]; simpl; [done..|]. naive_solver. Qed.

Lemma handle_resp_ok pid e o l s : resp_ok e (handle_ev pid e o l s).1.1.
Proof.
  destruct e; try done. simpl. unfold faulty, with_l. destruct (o_fault o); [done|].
  unfold fs_mktemp. destruct (resolve s dir) as [x|d]; [done|].
  destruct (node_at s d) as [[|j]|]; try done. simpl.
  unfold free_name. destruct (nodes s !! (d ++ [prefix ++ o_sfx o])).
  - exists (o_sfx o ++ replicate (S (max_name s)) Byte.x78). by rewrite <- app_assoc.
  - by eexists.
Qed.

Global Arguments all_ev : simpl never.
