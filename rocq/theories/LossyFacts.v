(** The name [String::from_utf8_lossy] makes of a proper file name is one too. *)
From Verif Require Import Bytes ByteFacts Spec SpecServer.

Lemma utf8_next_pos b l : (1 <= (utf8_next (b :: l)).2)%nat.
Proof.
  unfold utf8_next, utf8_tail2, utf8_tail3, utf8_tail4.
  repeat (match goal with |- context [if ?x then _ else _] => destruct x | |- context [match ?x with [] => _ | _ :: _ => _ end] => destruct x end; simpl; try lia).
Qed.

Lemma lossy_aux_without b f l : b ∉ [Byte.xef; Byte.xbf; Byte.xbd] -> b ∉ l -> b ∉ utf8_lossy_aux f l.
Proof.
  intros Hb. revert l. induction f as [|f IH]; intros l H; cbn [utf8_lossy_aux]; [apply not_elem_of_nil|]. destruct l as [|x l]; [apply not_elem_of_nil|].
  destruct (utf8_next (x :: l)) as [ok n]. rewrite elem_of_app. intros [H1|H1].
  - destruct ok; [|done]. apply H. rewrite <- (take_drop n (x :: l)), elem_of_app. by left.
  - revert H1. apply IH. intros H2. apply H. rewrite <- (take_drop n (x :: l)), elem_of_app. by right.
Qed.

Lemma lossy_aux_same f l : (length l < f)%nat -> forallb ascii (utf8_lossy_aux f l) = true -> utf8_lossy_aux f l = l.
Proof.
  revert l. induction f as [|f IH]; intros l Hf Ha; [lia|]. cbn [utf8_lossy_aux] in *. destruct l as [|x l]; [done|].
  pose proof (utf8_next_pos x l) as Hn. destruct (utf8_next (x :: l)) as [ok n]. simpl in Hn.
  rewrite forallb_app in Ha. apply andb_true_iff in Ha as [H1 H2]. destruct ok; [|by vm_compute in H1].
  rewrite IH; [apply take_drop| |done]. rewrite drop_length. cbn [length] in *. lia.
Qed.

Lemma lossy_plain c : plain_name c -> plain_name (utf8_lossy c).
Proof.
  intros (H1 & H2 & H3 & H4 & H5). unfold utf8_lossy.
  assert (G : forall x, forallb ascii x = true -> c <> x -> utf8_lossy_aux (S (length c)) c <> x).
  { intros x Hx Hc E. apply Hc. rewrite <- E. symmetry. apply lossy_aux_same; [lia|]. by rewrite E. }
  split_and!.
  - by apply G.
  - by apply G.
  - by apply G.
  - apply lossy_aux_without; [|done]. refine (bool_decide_eq_true_1 _ _). by vm_compute.
  - apply lossy_aux_without; [|done]. refine (bool_decide_eq_true_1 _ _). by vm_compute.
Qed.
