(** Store integrity, persistence, crash atomicity and downloads. *)
From Verif Require Import Bytes Err FS Prog Pktline Args Local Processor Transfer Wp Rg
  ByteFacts PktFacts FsFacts Spec SpecStore ServerEv PktProofs TextProofs IoFacts ObjProofs.
From stdpp Require Import relations.

Lemma plain_stays c : plain_name c -> stays c.
Proof. intros (H1 & H2 & H3 & _). done. Qed.
Lemma plain_stays_all p : Forall plain_name p -> Forall stays p.
Proof. intros H. eapply Forall_impl; [exact H|]. apply plain_stays. Qed.

Lemma object_path_eq lfs o : object_path lfs o = expected_path lfs o.
Proof. done. Qed.

Definition any_oid (i : nat) (o : bytes) : Prop := True.

(** ** C17 *)
Lemma c17_sound H lfs cs ps s0 :
  digest H -> Forall plain_name lfs -> Forall (fun p => is_server H lfs (pr_prog p)) ps ->
  sane s0 -> store_ok H lfs s0 ->
  Inv H lfs (length (inodes s0)) (shared (sys_run cs (Sys ps s0))) /\
  rtc (moved (Guar lfs (length (inodes s0)) any_oid) (Inv H lfs (length (inodes s0)))) s0
    (shared (sys_run cs (Sys ps s0))).
Proof.
  intros HH Hl Hps Hs Ho.
  destruct (servers_sound H lfs (length (inodes s0)) any_oid (fun _ _ _ _ => True) cs ps s0) as [[H1 _] H2].
  - by apply store_inv.
  - intros i p Hp. apply rg_server; [by apply plain_stays_all|done|done|].
    rewrite Forall_lookup in Hps. by eapply Hps.
  - done.
Qed.

Lemma c17 H lfs cs ps s0 :
  digest H -> Forall plain_name lfs -> Forall (fun p => is_server H lfs (pr_prog p)) ps ->
  sane s0 -> store_ok H lfs s0 -> store_ok H lfs (shared (sys_run cs (Sys ps s0))).
Proof.
  intros HH Hl Hps Hs Ho.
  destruct (c17_sound H lfs cs ps s0) as [H1 _]; try done.
  by eapply inv_store.
Qed.

(** ** C20 *)
Lemma c20 H lfs cs ps s0 o d :
  digest H -> Forall plain_name lfs -> Forall (fun p => is_server H lfs (pr_prog p)) ps ->
  sane s0 -> store_ok H lfs s0 -> is_oid o -> has_file s0 (object_path lfs o) d ->
  exists d', has_file (shared (sys_run cs (Sys ps s0))) (object_path lfs o) d' /\
    (d' = d \/ (d' <> d /\ H d' = H d)).
Proof.
  intros HH Hl Hps Hs Ho Hio Hf.
  destruct (c17_sound H lfs cs ps s0) as [H1 H2]; try done.
  pose proof Hf as (j & x & Hj & Hx & Hd).
  destruct (moved_objects H lfs (length (inodes s0)) any_oid _ _ o H2 Hio) as [j' Hj']; [by exists j|].
  destruct (inv_obj _ _ _ _ H1 o j' Hio Hj') as (x' & Hx' & E & _).
  exists (i_data x'). split; [by exists j', x'|].
  destruct (decide (i_data x' = d)) as [?|Hne]; [by left|right]. split; [done|].
  apply hex_encode_inj. rewrite E. symmetry. symmetry. apply hex_of_iff. by apply Ho.
Qed.

(** ** C37 *)
Lemma rg_weaken {A} pid (R R' G : fs -> fs -> Prop) (I : fs -> Prop) (p : prog A) (Q : A -> local -> fs -> Prop) l s :
  (forall s s', R' s s' -> R s s') -> rg pid R G I p Q l s -> rg pid R' G I p Q l s.
Proof.
  intros HR. revert l s. induction p as [a|f|e k IH]; intros l s H; [done|done|].
  apply rg_vis. intros s1 o Hr Hi. pose proof (H s1 o (HR _ _ Hr) Hi) as H'.
  destruct (handle_ev pid e o l s1) as [[r l'] s2]. naive_solver.
Qed.

Lemma run_crash_moves {A} pid (G : fs -> fs -> Prop) (I : fs -> Prop) (Q : A -> local -> fs -> Prop)
  (p : prog A) n os l s :
  I s -> rg pid eq G I p Q l s ->
  rtc (fun a b => I a /\ I b /\ G a b) s (run_crash n pid p os l s).2 /\ I (run_crash n pid p os l s).2.
Proof.
  revert n os l s. induction p as [a|f|e k IH]; intros n os l s HI H; destruct n as [|n]; try done.
  simpl. pose proof (H s (os 0) eq_refl HI) as H'.
  destruct (handle_ev pid e (os 0) l s) as [[r l'] s']. destruct H' as (HI' & HG & H').
  destruct (IH r n (Prog.shift os) l' s' HI' H') as [H1 H2]. split; [|done].
  eapply rtc_l; [|exact H1]. done.
Qed.

(** What a process that may only store [o0] has done. *)
Lemma moves_store H lfs W n0 pid s s' :
  rtc (fun a b => Inv H lfs n0 a /\ Inv H lfs n0 b /\ Guar lfs n0 W pid a b) s s' ->
  n0 = length (inodes s) ->
  (forall j x, inodes s !! j = Some x -> exists x', inodes s' !! j = Some x' /\ i_data x' = i_data x) /\
  (forall o j, ~ W pid o -> nodes s' !! expected_path lfs o = Some (NFile j) <->
                            nodes s !! expected_path lfs o = Some (NFile j)) /\
  (forall o, (forall j, nodes s' !! expected_path lfs o = Some (NFile j) <->
                        nodes s !! expected_path lfs o = Some (NFile j)) \/
             exists j, nodes s' !! expected_path lfs o = Some (NFile j)).
Proof.
  intros Hr Hn. assert (Hn0 : (n0 <= length (inodes s))%nat) by lia.
  cut (forall t, rtc (fun a b => Inv H lfs n0 a /\ Inv H lfs n0 b /\ Guar lfs n0 W pid a b) s t ->
    (forall j x, (j < n0)%nat -> inodes s !! j = Some x -> exists x', inodes t !! j = Some x' /\ i_data x' = i_data x) /\
    (forall o j, ~ W pid o -> nodes t !! expected_path lfs o = Some (NFile j) <->
                            nodes s !! expected_path lfs o = Some (NFile j)) /\
  (forall o, (forall j, nodes t !! expected_path lfs o = Some (NFile j) <->
                        nodes s !! expected_path lfs o = Some (NFile j)) \/
             exists j, nodes t !! expected_path lfs o = Some (NFile j))).
  { intros Hc. destruct (Hc s' Hr) as (H1 & H2 & H3). split_and!; [|done|done].
    intros j x Hx. apply H1; [|done]. apply lookup_lt_Some in Hx. lia. }
  intros t Ht. pattern t. eapply (rtc_ind_r _ s); [| |exact Ht].
  { split_and!; [eauto|done|by left]. }
  intros a b Ha (HIa & HIb & HG) (IH1 & IH2 & IH3). split_and!.
  - intros j x Hj Hx. destruct (IH1 j x Hj Hx) as (x' & Hx' & E).
    destruct (gu_ino _ _ _ _ _ _ HG j x' Hx') as (x2 & Hx2 & _ & _ & _ & [E2|(E2 & _)]); [|lia].
    exists x2. split; [done|congruence].
  - intros o j Hw. rewrite <- IH2 by done.
    destruct (gu_obj _ _ _ _ _ _ HG o) as [->|[[-> ->]|[? _]]]; [done|done|done].
  - intros o. destruct (gu_obj _ _ _ _ _ _ HG o) as [->|[[E1 E2]|(_ & _ & E)]]; [done| |by right].
    destruct (IH3 o) as [E3|[j E3]]; [|congruence]. left. intros j. rewrite <- E3, E1, E2. done.
Qed.

Lemma c37 H lfs en umask ts fuel o0 rb n pid os l s :
  digest H -> Forall plain_name lfs -> en_hash en = H -> sane s -> store_ok H lfs s ->
  let s' := (run_crash n pid (p_put_object en (Backend lfs umask ts) fuel o0 rb) os l s).2 in
  (forall o d, is_oid o -> o <> o0 -> has_file s' (object_path lfs o) d <-> has_file s (object_path lfs o) d) /\
  ((forall d, has_file s' (object_path lfs o0) d <-> has_file s (object_path lfs o0) d) \/
   exists d, has_file s' (object_path lfs o0) d /\ hex_of (H d) o0).
Proof.
  intros HH Hl Hen Hs Ho. simpl.
  set (W := fun (i : nat) (o : bytes) => is_oid o /\ o = o0).
  set (n0 := length (inodes s)).
  assert (HI : Inv H lfs n0 s) by (by apply store_inv).
  destruct (run_crash_moves pid (Guar lfs n0 W pid) (Inv H lfs n0) (fun _ _ _ => True)
    (p_put_object en (Backend lfs umask ts) fuel o0 rb) n os l s) as [Hm HI'].
  { done. }
  { eapply rg_weaken; [|apply (rg_put_object H lfs n0 W)].
    - intros a b ->. apply rely_refl.
    - by apply plain_stays_all.
    - done.
    - done.
    - done. }
  set (s' := (run_crash n pid _ os l s).2) in *. clearbody s'.
  destruct (moves_store H lfs W n0 pid s s' Hm eq_refl) as (H1 & H2 & H3).
  assert (Hsame : forall o, (forall j, nodes s' !! expected_path lfs o = Some (NFile j) <->
                       nodes s !! expected_path lfs o = Some (NFile j)) ->
    forall d, has_file s' (object_path lfs o) d <-> has_file s (object_path lfs o) d).
  { intros o Hnd d. split.
    - intros (j & x & Hj & Hx & Hd). apply Hnd in Hj.
      pose proof (Hs _ _ Hj) as Hlt. destruct (inodes s !! j) as [y|] eqn:Ey; [|apply lookup_ge_None in Ey; lia].
      exists j, y. split_and!; [done|done|]. destruct (H1 j y Ey) as (x' & Hx' & E). congruence.
    - intros (j & y & Hj & Hy & Hd). destruct (H1 j y Hy) as (x' & Hx' & E).
      exists j, x'. split_and!; [by apply Hnd|done|congruence]. }
  split.
  - intros o d Hio Hne. apply Hsame. intros j. apply H2. by intros [_ ?].
  - destruct (oid_valid o0) eqn:Hio.
    + apply oid_valid_iff in Hio. destruct (H3 o0) as [Heq|[j Hj]]; [left; by apply Hsame|right].
      destruct (inv_obj _ _ _ _ HI' o0 j Hio Hj) as (x & Hx & E & _).
      exists (i_data x). split; [by exists j, x|]. by apply hex_of_iff.
    + left. apply Hsame. intros j. apply H2. intros [Hv _]. apply oid_valid_iff in Hv. congruence.
Qed.
