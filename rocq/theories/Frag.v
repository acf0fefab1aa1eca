(** A byte stream that arrives in fragments: [Read::read_exact] of the standard
    library over a transport whose [read] returns at most one fragment. *)
From Verif Require Import Bytes ByteFacts Err FS Prog.

(** One [read(2)] into a buffer of [n] > 0 bytes. *)
Definition frag_read (n : nat) (frs : list bytes) : bytes * list bytes :=
  match frs with
  | [] => ([], [])
  | f :: frs' => if (length f <=? n)%nat then (f, frs') else (take n f, drop n f :: frs')
  end.

(** [read_exact]: reads until the buffer is full; a read of no bytes is the end
    of the stream. *)
Fixpoint read_exact (fuel : nat) (n : nat) (frs : list bytes) : option bytes * list bytes :=
  match n with
  | O => (Some [], frs)
  | _ =>
      match fuel with
      | O => (None, frs)
      | S fuel' =>
          match frag_read n frs with
          | ([], frs') => (None, frs')
          | (d, frs') =>
              let '(r, frs'') := read_exact fuel' (n - length d) frs' in
              (match r with Some e => Some (d ++ e) | None => None end, frs'')
          end
      end
  end.

(** One call of a process whose standard input is [frs]; [l_in] is not used. *)
Definition handle_frag (pid : nat) (e : ev) (o : orc) (frs : list bytes) (l : local) (s : fs)
  : resp e * list bytes * local * fs :=
  match e return resp e * list bytes * local * fs with
  | ERead n =>
      match o_fault o with
      | Some x => (IErr x, frs, l, s)
      | None =>
          let '(r, frs') := read_exact (S (length (concat frs))) (N.to_nat n) frs in
          (match r with Some d => IOk d | None => IErr EEOF end, frs', l, s)
      end
  | e => let '(r, l', s') := handle_ev pid e o l s in (r, frs, l', s')
  end.

Fixpoint run_frag {A} (pid : nat) (p : prog A) (os : orcs) (frs : list bytes) (l : local) (s : fs)
  : outcome A * list bytes * local * fs :=
  match p with
  | Ret a => (Done a, frs, l, s)
  | Fail f => (Failed f, frs, l, s)
  | Vis e k =>
      let '(r, frs', l', s') := handle_frag pid e (os 0) frs l s in
      run_frag pid (k r) (shift os) frs' l' s'
  end.

Lemma frag_read_spec n frs :
  (0 < n)%nat -> Forall (fun f => f <> []) frs ->
  let '(d, frs') := frag_read n frs in
  d ++ concat frs' = concat frs /\ Forall (fun f => f <> []) frs' /\
  (length d <= n)%nat /\ (d = [] -> frs = []).
Proof.
  intros Hn H. destruct H as [|f frs Hf H]; simpl; [repeat split; try done; lia|].
  destruct (length f <=? n)%nat eqn:E.
  - apply Nat.leb_le in E. repeat split; try done. 
  - apply Nat.leb_gt in E. repeat split.
    + simpl. by rewrite app_assoc, take_drop.
    + constructor; [|done]. intros H0. apply (f_equal length) in H0.
      rewrite drop_length in H0. simpl in H0. lia.
    + rewrite take_length. lia.
    + intros H0. apply (f_equal length) in H0. rewrite take_length in H0. simpl in H0. lia.
Qed.

Lemma read_exact_spec fuel n frs :
  (length (concat frs) < fuel)%nat -> Forall (fun f => f <> []) frs ->
  exists frs', Forall (fun f => f <> []) frs' /\
  read_exact fuel n frs =
    (if (n <=? length (concat frs))%nat then Some (take n (concat frs)) else None, frs') /\
  concat frs' = if (n <=? length (concat frs))%nat then drop n (concat frs) else [].
Proof.
  revert n frs. induction fuel as [|fuel IH]; intros n frs Hl Hf; [lia|].
  destruct n as [|n]; [by exists frs|]. cbn [read_exact].
  pose proof (frag_read_spec (S n) frs ltac:(lia) Hf) as HR.
  destruct (frag_read (S n) frs) as [d frs'] eqn:E. destruct HR as (Hc & Hf' & Hd & Hz).
  destruct d as [|x d].
  - rewrite (Hz eq_refl) in *. simpl in *. injection E as <-. exists [].
    repeat split; done.
  - destruct (IH (S n - length (x :: d))%nat frs') as (frs'' & H1 & H2 & H3); [|done|].
    { rewrite <- Hc, app_length in Hl. simpl in Hl. lia. }
    rewrite H2. exists frs''. split; [done|].
    rewrite <- Hc, app_length.
    destruct (S n - length (x :: d) <=? length (concat frs'))%nat eqn:E1.
    + apply Nat.leb_le in E1. rewrite (proj2 (Nat.leb_le _ _)) by lia.
      split.
      * f_equal. f_equal. rewrite take_app_ge by done. done.
      * rewrite H3. rewrite drop_app_ge by done. done.
    + apply Nat.leb_gt in E1. rewrite (proj2 (Nat.leb_gt _ _)) by lia. done.
Qed.

Global Arguments read_exact : simpl never.


Lemma set_in_id l : set_in (l_in l) l = l.
Proof. by destruct l. Qed.

Lemma handle_not_read pid e o l s b :
  (forall n, e <> ERead n) ->
  handle_ev pid e o (set_in b l) s =
  let '(r, l', s') := handle_ev pid e o l s in (r, set_in b l', s').
Proof.
  intros H. destruct e; try (by destruct (H n)); simpl; unfold faulty, with_l;
    try (destruct (o_fault o)); try done;
    repeat match goal with |- context [let '(_, _) := ?x in _] => destruct x end; done.
Qed.

Lemma handle_frag_spec pid e o frs l s :
  Forall (fun f => f <> []) frs ->
  let '(r, frs', l', s') := handle_frag pid e o frs l s in
  Forall (fun f => f <> []) frs' /\
  handle_ev pid e o (set_in (concat frs) l) s = (r, set_in (concat frs') l', s').
Proof.
  intros Hf. unfold handle_frag.
  destruct e;
  try (rewrite handle_not_read by done;
       destruct (handle_ev _ _ _ l s) as [[r l'] s']; done).
  simpl. unfold faulty. destruct (o_fault o); [done|].
  destruct (read_exact_spec (S (length (concat frs))) (N.to_nat n) frs) as (frs' & H1 & H2 & H3);
    [lia|done|].
  rewrite H2. split; [done|]. unfold do_read. simpl l_in.
  destruct (N.to_nat n <=? length (concat frs))%nat eqn:E.
  - apply Nat.leb_le in E. rewrite (proj2 (N.leb_le _ _)) by (unfold lenN; lia).
    by rewrite H3.
  - apply Nat.leb_gt in E. rewrite (proj2 (N.leb_gt _ _)) by (unfold lenN; lia).
    by rewrite H3.
Qed.

Lemma run_frag_spec {A} pid (p : prog A) os frs l s :
  Forall (fun f => f <> []) frs ->
  let '(r, frs', l', s') := run_frag pid p os frs l s in
  run pid p os (set_in (concat frs) l) s = (r, set_in (concat frs') l', s').
Proof.
  revert os frs l s. induction p as [a|f|e k IH]; intros os frs l s Hf; simpl; [done..|].
  pose proof (handle_frag_spec pid e (os 0) frs l s Hf) as H.
  destruct (handle_frag pid e (os 0) frs l s) as [[[r frs'] l'] s'] eqn:E.
  destruct H as [H1 H2]. rewrite H2.
  apply (IH r (shift os) frs' l' s' H1).
Qed.
