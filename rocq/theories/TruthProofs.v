(** What a server says of objects is so: proofs for Props_Truth.v. *)
From Verif Require Import Bytes ByteFacts Err FS Prog Pktline Args Local Processor Transfer Wp Rg
  Spec SpecStore SpecServer SpecFrame SpecTalk SpecPerm SpecInput SpecTogether SpecStart SpecRound SpecTruth FsFacts PktFacts PktProofs IoFacts TextProofs ObjProofs StoreProofs SeqIo SeqFs SeqCmd Session
  SessionFacts GetProofs TogetherProofs TogetherFacts FaultFacts OddProofs RoundFacts RoundProofs RoundMain.
From Verif Require SpecOdd.
From Verif Require Import Shape.
From stdpp Require Import relations.
From Coq Require Import Eqdep_dec.

(** Equal calls have equal answers. *)
Lemma handle_eq : EqDecision handle.
Proof. solve_decision. Defined.
Lemma ev_eq : EqDecision ev.
Proof. pose proof handle_eq. solve_decision. Defined.
Lemma call_inj e (r r' : resp e) : existT e r = existT e r' -> r = r'.
Proof. apply inj_pair2_eq_dec. intros a b. destruct (ev_eq a b); auto. Qed.
Lemma call_eq e r e' r' : existT e r = existT e' r' :> done_call -> exists E : e = e', eq_rect e resp r e' E = r'.
Proof. intros E. pose proof (f_equal (@projT1 ev resp) E) as E1. cbn in E1. subst e'. exists eq_refl. cbn. by apply call_inj. Qed.

(** ** Histories *)
Section history.
Context {A : Type}.
Implicit Types (y : sys A) (cs : list choice) (tr : list done_call).

Lemma step_other y c i p : c_pid c <> i -> procs y !! i = Some p -> procs (sys_step y c) !! i = Some p.
Proof using Type.
  intros Hne Hp. unfold sys_step. destruct (procs y !! c_pid c) as [q|]; [|done].
  destruct (proc_step _ _ _ _) as [q' s']. cbn [procs]. by rewrite list_lookup_insert_ne.
Qed.

(** What one choice does to the process, and what is recorded. *)
Lemma step_made y c i p : procs y !! i = Some p ->
  made i y c = [] /\ (exists d, procs (sys_step y c) !! i = Some (Proc (pr_prog p) (pr_local p) d) /\ (pr_dead p = true -> d = true)) \/
  exists o e k, c = Choice i (AGo o) /\ pr_dead p = false /\ pr_prog p = Vis e k /\
    let h := handle_ev i e o (pr_local p) (shared y) in
    made i y c = [existT e h.1.1] /\ procs (sys_step y c) !! i = Some (Proc (k h.1.1) h.1.2 false) /\
    shared (sys_step y c) = h.2.
Proof using Type.
  destruct p as [q l d]. intros Hp. destruct c as [j a]. destruct (decide (j = i)) as [->|Hne].
  2: { left. split.
       - unfold made. cbn [c_act c_pid]. destruct a; [|done]. by rewrite decide_False.
       - exists d. split; [by apply step_other|done]. }
  pose proof (lookup_lt_Some _ _ _ Hp) as Hl.
  unfold made, sys_step. cbn [c_act c_pid]. rewrite Hp. unfold proc_step. cbn [pr_dead pr_prog pr_local].
  destruct a as [o|].
  - rewrite decide_True by done. destruct q as [x|f|e k].
    + left. split; [done|]. exists d. destruct d; cbn [procs]; rewrite list_lookup_insert by done; done.
    + left. split; [done|]. exists d. destruct d; cbn [procs]; rewrite list_lookup_insert by done; done.
    + destruct d; [left; split; [done|]; exists true; cbn [procs]; by rewrite list_lookup_insert by done|].
      right. exists o, e, k. split_and!; try done; destruct (handle_ev i e o l (shared y)) as [[r l'] s']; cbn [procs shared fst snd]; [|done].
      by rewrite list_lookup_insert by done.
  - left. split; [done|]. exists true. destruct d; cbn [procs]; rewrite list_lookup_insert by done; done.
Qed.

(** A history is the calls of the program. *)
Lemma history_calls i cs : forall y p, procs y !! i = Some p -> calls (pr_prog p) (history i cs y) None.
Proof using Type.
  induction cs as [|c cs IH]; intros y p Hp; cbn [history].
  - destruct (pr_prog p); simpl; auto.
  - destruct (step_made y c i p Hp) as [(-> & d & Hd & _)|(o & e & k & -> & Hd & Hq & H)].
    + apply (IH _ _ Hd).
    + cbn beta zeta in H. destruct H as (-> & H2 & _). rewrite Hq. cbn [app calls]. eexists. split; [done|]. split; [|apply (IH _ _ H2)].
      pose proof (handle_resp_ok i e o (pr_local p) (shared y)) as G. destruct e; try done.
Qed.

Lemma history_exact i cs : forall y, exact (history i cs y).
Proof using Type.
  induction cs as [|c cs IH]; intros y n b Hin; cbn [history] in Hin; [by apply elem_of_nil in Hin|].
  apply elem_of_app in Hin as [Hin|Hin]; [|by eapply IH]. clear IH.
  unfold made in Hin. destruct (c_act c) as [o|]; [|by apply elem_of_nil in Hin].
  destruct (decide _) as [Hpid|?]; [|by apply elem_of_nil in Hin].
  destruct (procs y !! i) as [[[x|f|e k] l []]|]; try by apply elem_of_nil in Hin.
  apply elem_of_list_singleton in Hin.
  pose proof (f_equal (@projT1 ev resp) Hin) as E. cbn in E. subst e.
  apply call_inj in Hin. cbn in Hin. unfold faulty in Hin. destruct (o_fault o); [done|].
  unfold do_read in Hin. destruct (n <=? lenN (l_in l))%N eqn:El; [|done]. cbn in Hin. injection Hin as ->.
  apply N.leb_le in El. unfold lenN in *. rewrite take_length. lia.
Qed.

(** Each call is made at a moment. *)
Lemma history_at i cs : forall y tr1 d tr2, history i cs y = tr1 ++ d :: tr2 ->
  exists cs1 o cs2 e k l, cs = cs1 ++ Choice i (AGo o) :: cs2 /\ history i cs1 y = tr1 /\
    let y1 := sys_run cs1 y in
    procs y1 !! i = Some (Proc (Vis e k) l false) /\ d = existT e (handle_ev i e o l (shared y1)).1.1 /\
    shared (sys_step y1 (Choice i (AGo o))) = (handle_ev i e o l (shared y1)).2 /\
    history i cs2 (sys_step y1 (Choice i (AGo o))) = tr2.
Proof using Type.
  induction cs as [|c cs IH]; intros y tr1 d tr2 E; cbn [history] in E; [by destruct tr1|].
  destruct (procs y !! i) as [p|] eqn:Hp.
  2: { assert (made i y c = []) as Em.
       { unfold made. rewrite Hp. destruct (c_act c); [|done]. by destruct (decide _). }
       rewrite Em in E. destruct (IH _ _ _ _ E) as (cs1 & o & cs2 & e & k & l & -> & H1 & H2).
       exists (c :: cs1), o, cs2, e, k, l. split; [done|]. split; [cbn [history]; by rewrite Em|done]. }
  destruct (step_made y c i p Hp) as [(Em & d' & Hd & _)|(o & e & k & -> & Hd & Hq & H)].
  - rewrite Em in E. destruct (IH _ _ _ _ E) as (cs1 & o & cs2 & e & k & l & -> & H1 & H2).
    exists (c :: cs1), o, cs2, e, k, l. split; [done|]. split; [cbn [history]; by rewrite Em|done].
  - cbn beta zeta in H. destruct H as (Em & H1 & H2). rewrite Em in E. destruct tr1 as [|d1 tr1]; cbn [app] in E.
    + injection E as E1 E2. exists [], o, cs, e, k, (pr_local p). split; [done|]. split; [done|]. cbn beta zeta. unfold sys_run. cbn [fold_left].
      split_and!; try done. rewrite Hp. destruct p as [q l d0]. cbn in *. by subst.
    + injection E as E1 E2. destruct (IH _ _ _ _ E2) as (cs1 & o' & cs2 & e' & k' & l' & -> & G1 & G2).
      exists (Choice i (AGo o) :: cs1), o', cs2, e', k', l'. split; [done|]. split; [|done].
      cbn [history]. rewrite Em. cbn [app]. by rewrite G1, E1.
Qed.

Lemma sys_run_app cs cs' y : sys_run (cs ++ cs') y = sys_run cs' (sys_run cs y).
Proof using Type. unfold sys_run. by rewrite fold_left_app. Qed.
Lemma history_app i cs cs' : forall y, history i (cs ++ cs') y = history i cs y ++ history i cs' (sys_run cs y).
Proof using Type.
  induction cs as [|c cs IH]; intros y; [done|]. cbn [app history]. rewrite IH. by rewrite app_assoc.
Qed.
End history.

(** ** Systems of servers *)
Section truth.
Context (H : bytes -> bytes) (lfs : path) (n0 : nat).
Context (HH : digest H) (Hlfs : Forall plain_name lfs).
Local Notation Rel := (Rely H lfs n0 any_oid).
Local Notation Gua := (Guar lfs n0 any_oid).
Local Notation INV := (Inv H lfs n0).
Implicit Types y : sys (Z * bytes).
Local Notation Hst := (plain_stays_all lfs Hlfs).

Definition good (y : sys (Z * bytes)) : Prop :=
  sys_ok Rel Gua INV (fun _ _ _ _ => True) y /\ shape lfs (shared y) /\
  forall j p, procs y !! j = Some p -> all_ev (shapely lfs) (pr_prog p).

Lemma good_step y c : good y -> good (sys_step y c).
Proof using Hlfs.
  intros (Hs & Hsh & Hev). split.
  { by apply (sys_step_sound Rel Gua INV (fun _ _ _ _ => True) (rely_refl H lfs n0 any_oid) (rely_trans H lfs n0 any_oid) (guar_rely H lfs n0 any_oid)). }
  destruct c as [j a]. unfold sys_step. cbn [c_pid c_act]. destruct (procs y !! j) as [[q l d]|] eqn:Ej; [|done].
  unfold proc_step. cbn [pr_dead pr_prog pr_local].
  assert (Hsame : forall d', shape lfs (shared (Sys (<[j := Proc q l d']> (procs y)) (shared y))) /\
    forall j' p, procs (Sys (<[j := Proc q l d']> (procs y)) (shared y)) !! j' = Some p -> all_ev (shapely lfs) (pr_prog p)).
  { intros d'. cbn [shared procs]. split; [done|]. intros j' p. rewrite list_lookup_insert_Some.
    intros [(-> & <- & _)|[_ G]]; [|by eapply Hev]. by apply (Hev j' (Proc q l d)). }
  destruct d; [apply Hsame|]. destruct a as [o|]; [|apply Hsame]. destruct q as [x|f|e k]; [apply Hsame|apply Hsame|].
  pose proof (Hev _ _ Ej) as [He Hk]. cbn [pr_prog] in He, Hk.
  destruct (shapely_ok lfs Hst j e o l (shared y) He Hsh) as [Hsh' _].
  pose proof (handle_resp_ok j e o l (shared y)) as Hrok.
  destruct (handle_ev j e o l (shared y)) as [[r l'] s']. cbn [fst snd shared procs] in *. split; [done|].
  intros j' p. rewrite list_lookup_insert_Some. intros [(-> & <- & _)|[_ G]]; [by apply Hk|by eapply Hev].
Qed.
Lemma good_run cs : forall y, good y -> good (sys_run cs y).
Proof using Hlfs. induction cs as [|c cs IH]; intros y Hy; [done|]. apply IH. by apply good_step. Qed.

Lemma good_moved cs y : good y -> rtc (moved Gua INV) (shared y) (shared (sys_run cs y)).
Proof using Type.
  intros [Hs _]. by destruct (sys_run_sound Rel Gua INV (fun _ _ _ _ => True) (rely_refl H lfs n0 any_oid) (rely_trans H lfs n0 any_oid) (guar_rely H lfs n0 any_oid) cs y Hs).
Qed.
Lemma good_inv y : good y -> INV (shared y).
Proof using Type. by intros [[G _] _]. Qed.

Lemma frozen_stays cs y j d : good y -> frozen lfs n0 j d (shared y) -> frozen lfs n0 j d (shared (sys_run cs y)).
Proof using Type.
  intros Hy. pose proof (good_moved cs y Hy) as Hm. revert Hm. generalize (shared (sys_run cs y)). generalize (shared y).
  intros s s' Hm. induction Hm as [|a b c (Ia & Ib & i & HG) _ IH]; [done|]. intros Hf. apply IH.
  by apply (stable_frozen H lfs n0 any_oid (S i) j d i a b ltac:(lia) Ia Ib HG).
Qed.
Lemma object_stays cs y o d : good y -> is_oid o -> has_file (shared y) (object_path lfs o) d -> kept H lfs (shared (sys_run cs y)) o d.
Proof using Hlfs.
  intros Hy Ho (j & x & Hj & Hx & Hd). pose proof (good_run cs y Hy) as Hy'. rewrite object_path_eq in Hj.
  destruct (moved_objects H lfs n0 any_oid _ _ o (good_moved cs y Hy) Ho) as [j' Hj']; [by exists j|].
  destruct (inv_obj _ _ _ _ (good_inv _ Hy') o j' Ho Hj') as (x' & Hx' & E & _).
  destruct (inv_obj _ _ _ _ (good_inv _ Hy) o j Ho Hj) as (x2 & Hx2 & E2 & _). assert (x2 = x) as -> by congruence. subst d.
  split; [by apply hex_of_iff|]. exists (i_data x'). split; [exists j', x'; by rewrite object_path_eq|].
  destruct (decide (i_data x' = i_data x)) as [?|Hne]; [by left|right]. split; [done|].
  apply hex_encode_inj. congruence.
Qed.
(** Other bytes with the same name. *)
Lemma kept_same s o d d' : kept H lfs s o d -> hex_of (H d') o -> kept H lfs s o d'.
Proof using Type.
  intros (H1 & d2 & H2 & H3) H4. split; [done|]. exists d2. split; [done|].
  destruct (decide (d2 = d')) as [?|Hne]; [by left|right]. split; [done|].
  apply hex_of_iff in H1, H4. assert (H d = H d') as E by (apply hex_encode_inj; congruence).
  destruct H3 as [->|[_ H3]]; congruence.
Qed.

(** ** Calls that show an object *)
Section calls.
Context (i : nat) (o : bytes) (Ho : is_oid o).
Local Notation f := (object_path lfs o).
Lemma f_stays : Forall stays f.
Proof using Hlfs Ho. rewrite object_path_eq. apply obj_stays; [apply Hst|done]. Qed.
Lemma f_cons : f <> [].
Proof using Type. apply object_path_cons. Qed.

Lemma stat_shows or l s n u : shape lfs s -> INV s -> (handle_ev i (EStat f) or l s).1.1 = IOk (n, u) ->
  exists d, has_file s f d /\ lenN d = n.
Proof using Hlfs Ho.
  intros Hsh HI. cbn. unfold faulty. destruct (o_fault or); [done|]. cbn. unfold fs_stat.
  destruct (resolve s f) as [x|q] eqn:Er0; [done|]. apply resolve_stays in Er0 as ->; [|apply f_stays].
  rewrite node_at_cons by apply f_cons. destruct (nodes s !! f) as [[|j]|] eqn:En; [| |done].
  - by destruct (sh_obj _ _ Hsh o Ho) as [G _].
  - intros [= <- _]. pose proof En as En'. rewrite object_path_eq in En'. destruct (inv_obj _ _ _ _ HI o j Ho En') as (x & Hx & _).
    exists (i_data x). split; [by exists j, x|]. unfold fs_data, inode_at. by rewrite Hx.
Qed.
Lemma open_shows or l s h : shape lfs s -> INV s -> (handle_ev i (EOpen f) or l s).1.1 = IOk h ->
  exists j d, h = HFile j /\ has_file s f d /\ frozen lfs n0 j d s.
Proof using Hlfs Ho.
  intros Hsh HI. cbn. unfold faulty. destruct (o_fault or); [done|]. cbn. unfold fs_open.
  destruct (resolve s f) as [x|q] eqn:Er0; [done|]. apply resolve_stays in Er0 as ->; [|apply f_stays].
  rewrite node_at_cons by apply f_cons. destruct (nodes s !! f) as [[|j]|] eqn:En; [| |done].
  - by destruct (sh_obj _ _ Hsh o Ho) as [G _].
  - intros [= <-]. pose proof En as En'. rewrite object_path_eq in En'.
    destruct (object_frozen H lfs n0 s o j HI Ho En') as (d & Hf & _). exists j, d. split_and!; [done| |done].
    destruct Hf as (x & Hx & Hd & _). by exists j, x.
Qed.
Lemma rename_shows or l s a : (handle_ev i (ERename a f) or l s).1.1 = IOk tt ->
  exists j, nodes (handle_ev i (ERename a f) or l s).2 !! f = Some (NFile j).
Proof using Hlfs Ho.
  cbn. unfold faulty. destruct (o_fault or); [done|]. cbn. unfold fs_rename.
  destruct (file_at s a) as [x|[qa j]]; [done|].
  destruct (resolve s f) as [x|q] eqn:Er0; [done|]. apply resolve_stays in Er0 as ->; [|apply f_stays].
  destruct (node_at s f) as [[|j']|]; [done| |]; cbn; intros _; exists j; apply lookup_insert.
Qed.
End calls.

(** Reading a file nobody writes to. *)
Lemma fstat_shows i or l s j d n : frozen lfs n0 j d s -> (handle_ev i (EFstat (HFile j)) or l s).1.1 = IOk n -> n = lenN d.
Proof using Type.
  intros (x & Hx & Hd & _). cbn. unfold faulty. destruct (o_fault or); [done|]. cbn. intros [= <-].
  unfold fs_data, inode_at. by rewrite Hx, Hd.
Qed.
Lemma read_shows i or l s j d off n c : frozen lfs n0 j d s -> (handle_ev i (EReadAt (HFile j) off n) or l s).1.1 = IOk c ->
  c = take (N.to_nat n) (drop off d).
Proof using Type.
  intros (x & Hx & Hd & _). cbn. unfold faulty. destruct (o_fault or); [done|]. cbn. intros [= <-].
  unfold fs_data, inode_at. by rewrite Hx, Hd.
Qed.

(** ** Deeds of a history *)
Lemma deeds_cons tr d ds : deeds tr = d :: ds -> exists t1 t2, tr = t1 ++ d :: t2 /\ deeds t2 = ds.
Proof using Type.
  unfold deeds. induction tr as [|e tr IH]; cbn [List.filter]; [done|]. destruct (is_deed e).
  - intros [= -> E]. by exists [], tr.
  - intros E. destruct (IH E) as (t1 & t2 & -> & H2). by exists (e :: t1), t2.
Qed.
Lemma deeds_app a b : deeds (a ++ b) = deeds a ++ deeds b.
Proof using Type. apply List.filter_app. Qed.

(** What the next deed was, and what is left of the schedule. *)
Lemma next_deed i cs y tr d ds rest : good y -> history i cs y = tr ++ rest -> deeds tr = d :: ds ->
  exists cs1 o cs2 l e tr', let y1 := sys_run cs1 y in let y2 := sys_step y1 (Choice i (AGo o)) in
    cs = cs1 ++ Choice i (AGo o) :: cs2 /\ d = existT e (handle_ev i e o l (shared y1)).1.1 /\
    shared y2 = (handle_ev i e o l (shared y1)).2 /\
    good y1 /\ good y2 /\ history i cs2 y2 = tr' ++ rest /\ deeds tr' = ds /\ sys_run cs y = sys_run cs2 y2.
Proof using Hlfs.
  intros Hy Hh Hd. apply deeds_cons in Hd as (t1 & t2 & -> & Hd). rewrite <- app_assoc in Hh. cbn [app] in Hh.
  destruct (history_at _ _ _ _ _ _ Hh) as (cs1 & o & cs2 & e & k & l & -> & H1 & H2). cbn beta zeta in H2.
  destruct H2 as (H2 & H3 & H4 & H5). exists cs1, o, cs2, l, e, t2. cbn beta zeta.
  pose proof (good_run cs1 y Hy) as Hy1. split_and!; try done; [by apply good_step|]. by rewrite sys_run_app.
Qed.

Lemma fetched i j d ds off d' : fetches (HFile j) off ds d' -> forall cs y tr rest, good y -> history i cs y = tr ++ rest -> deeds tr = ds ->
  frozen lfs n0 j d (shared y) -> d' = drop off d.
Proof using Hlfs.
  induction 1 as [off n Hn|off n c ds d' Hc Hf IH]; intros cs y tr rest Hy Hh Hd Hfr;
    destruct (next_deed i cs y tr _ _ rest Hy Hh Hd) as (cs1 & o & cs2 & l & e & tr' & G); cbn beta zeta in G;
    destruct G as (-> & G1 & G2 & G3 & G4 & G5 & G6 & _);
    apply call_eq in G1 as [E G1]; subst e; cbn [eq_rect] in G1;
    pose proof (frozen_stays cs1 y j d Hy Hfr) as Hfr1;
    pose proof (read_shows i o l _ j d off n _ Hfr1 (eq_sym G1)) as Ec.
  - destruct (drop off d) as [|b t] eqn:Ed; [done|]. destruct (N.to_nat n) eqn:En; [lia|done].
  - assert (Hfr2 : frozen lfs n0 j d (shared (sys_step (sys_run cs1 y) (Choice i (AGo o))))).
    { apply (frozen_stays [Choice i (AGo o)] _ j d G3 Hfr1). }
    rewrite (IH cs2 _ tr' rest G4 G5 G6 Hfr2). rewrite <- (take_drop (N.to_nat n) (drop off d)), <- Ec. f_equal.
    rewrite drop_drop. assert (Hl : (length c <= N.to_nat n)%nat) by (rewrite Ec, take_length; lia).
    destruct (decide (length c = N.to_nat n)) as [->|Hne]; [done|].
    assert (length (drop off d) <= length c)%nat.
    { rewrite Ec, take_length in Hne. rewrite Ec, take_length. lia. }
    rewrite drop_length in H0. rewrite !drop_ge by lia. done.
Qed.
End truth.

(** ** Words *)
Lemma says_one b ws ws' : SpecOdd.says b ws -> SpecOdd.says b ws' -> ws' = ws.
Proof. intros H1 H2. apply says_words in H1, H2. congruence. Qed.
Lemma named_one r r' ws : SpecOdd.named r ws -> SpecOdd.named r' ws -> SpecOdd.verb r = SpecOdd.verb r'.
Proof.
  intros (m1 & -> & H1) (m2 & E & H2).
  destruct r, r'; cbn [SpecOdd.verb app] in *; try done; injection E as E; try (exfalso; by vm_compute in E); congruence.
Qed.
Lemma sep_one {A} (c : A) a b x y : c ∉ a -> c ∉ b -> a ++ c :: x = b ++ c :: y -> a = b /\ x = y.
Proof.
  revert b. induction a as [|u a IH]; intros [|v b] Ha Hb E; cbn in E.
  - by injection E.
  - injection E as -> _. destruct Hb. left.
  - injection E as -> _. destruct Ha. left.
  - injection E as -> E. destruct (IH b) as [-> ->]; [..|done]; [| |done]; intros G; [apply Ha|apply Hb]; by right.
Qed.
Lemma dec_sp n : SP ∉ dec n.
Proof. intros Hin. by apply dec_digits in Hin. Qed.
Lemma line_one m o o' k n w r : is_oid o -> is_oid o' -> state_line m o k r = o' ++ [SP] ++ dec n ++ [SP] ++ w ++ [NL] ->
  w = there m -> o = o' /\ exists u, r = IOk (n, u).
Proof.
  intros [Ho _] [Ho' _] E ->. unfold state_line in E.
  assert (G : forall k' w', o ++ [SP] ++ dec k' ++ [SP] ++ w' ++ [NL] = o' ++ [SP] ++ dec n ++ [SP] ++ there m ++ [NL] ->
    o = o' /\ k' = n /\ w' = there m).
  { intros k' w' E'. apply app_inj_1 in E' as [-> E']; [|congruence]. injection E' as E'.
    apply sep_one in E' as [E1 E2]; [|apply dec_sp..]. apply dec_inj in E1 as ->. by apply app_inv_tail in E2 as ->. }
  destruct r as [[k' u]|x]; apply G in E as (-> & E1 & E2).
  - subst. split; [done|]. by exists u.
  - exfalso. destruct m; by vm_compute in E2.
Qed.

(** ** Rounds *)
Section rounds.
Context (en : env) (lfs : path) (n0 : nat).
Context (HH : digest (en_hash en)) (Hlfs : Forall plain_name lfs).
Local Notation H := (en_hash en).
Context (i : nat).
Local Notation good := (good H lfs n0).
Local Notation end_ cs y := (shared (sys_run cs y)).

Lemma later cs y tr d ds rest : good y -> history i cs y = tr ++ rest -> deeds tr = d :: ds ->
  forall (e : ev) (r : resp e), d = existT e r ->
  exists y1 o l cs2 tr', good y1 /\ r = (handle_ev i e o l (shared y1)).1.1 /\
    shared (sys_step y1 (Choice i (AGo o))) = (handle_ev i e o l (shared y1)).2 /\
    sys_run cs y = sys_run (Choice i (AGo o) :: cs2) y1 /\
    history i cs2 (sys_step y1 (Choice i (AGo o))) = tr' ++ rest /\ deeds tr' = ds.
Proof using Hlfs.
  intros Hy Hh Hd e r ->. destruct (next_deed H lfs n0 Hlfs i cs y tr _ _ rest Hy Hh Hd) as (cs1 & o & cs2 & l & e' & tr' & G).
  cbn beta zeta in G. destruct G as (-> & G1 & G2 & G3 & G4 & G5 & G6 & G7). apply call_eq in G1 as [E G1]. subst e'. cbn [eq_rect] in G1.
  exists (sys_run cs1 y), o, l, cs2, tr'. split_and!; try done.
Qed.

Lemma stat_kept cs y tr ds rest o n u : good y -> history i cs y = tr ++ rest -> is_oid o ->
  deeds tr = existT (EStat (object_path lfs o)) (IOk (n, u)) :: ds -> exists d, lenN d = n /\ kept H lfs (end_ cs y) o d.
Proof using Hlfs.
  intros Hy Hh Ho Hd. destruct (later cs y tr _ _ rest Hy Hh Hd _ _ eq_refl) as (y1 & or & l & cs2 & tr' & G1 & G2 & _ & -> & _).
  pose proof G1 as (_ & Hsh & _). destruct (stat_shows H lfs n0 Hlfs i o Ho or l _ n u Hsh (good_inv _ _ _ _ G1) (eq_sym G2)) as (d & Hf & Hn).
  exists d. split; [done|]. by apply (object_stays H lfs n0 Hlfs).
Qed.
Lemma checks_kept m items ds ls : checks lfs m items ds ls -> Forall (fun x => is_oid x.1) items ->
  forall cs y tr rest, good y -> history i cs y = tr ++ rest -> deeds tr = ds ->
  forall o n, is_oid o -> o ++ [SP] ++ dec n ++ [SP] ++ there m ++ [NL] ∈ ls -> exists d, lenN d = n /\ kept H lfs (end_ cs y) o d.
Proof using Hlfs.
  induction 1 as [|o v n r items ds ls Hn Hc IH]; intros Hall cs y tr rest Hy Hh Hd o' n' Ho' Hin; [by apply elem_of_nil in Hin|].
  apply Forall_cons in Hall as [Ho Hall]. cbn [fst] in Ho.
  destruct (later cs y tr _ _ rest Hy Hh Hd _ _ eq_refl) as (y1 & or & l & cs2 & tr' & G1 & G2 & _ & Ee & G4 & G5).
  apply elem_of_cons in Hin as [Hin|Hin].
  - symmetry in Hin. apply line_one in Hin as [-> [u ->]]; try done. by eapply stat_kept.
  - rewrite Ee. apply (IH Hall cs2 _ tr' rest); try done. by apply good_step.
Qed.
Lemma get_kept cs y tr ds rest o h n d : good y -> history i cs y = tr ++ rest -> is_oid o -> fetches h 0 ds d ->
  deeds tr = existT (EOpen (object_path lfs o)) (IOk h) :: existT (EFstat h) (IOk n) :: ds ->
  n = lenN d /\ kept H lfs (end_ cs y) o d.
Proof using Hlfs.
  intros Hy Hh Ho Hf Hd. destruct (later cs y tr _ _ rest Hy Hh Hd _ _ eq_refl) as (y1 & or & l & cs2 & tr' & G1 & G2 & _ & -> & G4 & G5).
  pose proof G1 as (_ & Hsh & _). destruct (open_shows H lfs n0 Hlfs i o Ho or l _ h Hsh (good_inv _ _ _ _ G1) (eq_sym G2)) as (j & d0 & -> & Hfile & Hfr).
  assert (Hg2 : good (sys_step y1 (Choice i (AGo or)))) by (by apply good_step).
  pose proof (frozen_stays H lfs n0 [Choice i (AGo or)] y1 j d0 G1 Hfr) as Hfr2. unfold sys_run in Hfr2. cbn [fold_left] in Hfr2.
  destruct (next_deed H lfs n0 Hlfs i cs2 _ tr' _ _ rest Hg2 G4 G5) as (cs3 & or3 & cs4 & l3 & e3 & tr3 & K).
  cbn beta zeta in K. destruct K as (-> & K1 & K2 & K3 & K4 & K5 & K6 & K7). apply call_eq in K1 as [E K1]. subst e3. cbn [eq_rect] in K1.
  pose proof (frozen_stays H lfs n0 cs3 _ j d0 Hg2 Hfr2) as Hfr3.
  pose proof (fstat_shows lfs n0 i or3 l3 _ j d0 n Hfr3 (eq_sym K1)) as ->.
  pose proof (frozen_stays H lfs n0 [Choice i (AGo or3)] _ j d0 K3 Hfr3) as Hfr4. unfold sys_run in Hfr4 at 1. cbn [fold_left] in Hfr4.
  pose proof (fetched H lfs n0 Hlfs i j d0 ds 0 d Hf cs4 _ tr3 rest K4 K5 K6 Hfr4) as ->. rewrite drop_0.
  split; [done|]. by apply (object_stays H lfs n0 Hlfs).
Qed.
Lemma put_kept cs y tr rest o n u tmp d fd old ws ds' : good y -> history i cs y = tr ++ rest -> is_oid o ->
  concat ws = old ++ d -> finishing en lfs u o n tmp (old ++ d) ds' (Reply 200 [] BNone) ->
  deeds tr = existT (EMktemp (lfs ++ [bs "incomplete"]) o) (IOk (tmp, fd)) :: written fd ws ++ ds' ->
  n = lenN (old ++ d) /\ kept H lfs (end_ cs y) o (old ++ d).
Proof using Hlfs.
  intros Hy Hh Ho Hw Hf Hd. inversion Hf as [| | | | | | |y' p Hn Hx Hp]; subst. split; [done|].
  assert (Hin : exists t1 t2, tr = t1 ++ existT (ERename tmp (object_path lfs o)) (IOk tt) :: t2).
  { assert (G : existT (ERename tmp (object_path lfs o)) (IOk tt) ∈ deeds tr).
    { rewrite Hd. right. apply elem_of_app. right. right. left. }
    unfold deeds in G. apply elem_of_list_In, filter_In in G as [G _]. apply elem_of_list_In, elem_of_list_split in G. done. }
  destruct Hin as (t1 & t2 & ->). rewrite <- app_assoc in Hh. cbn [app] in Hh.
  destruct (history_at _ _ _ _ _ _ Hh) as (cs1 & or & cs2 & e & k & l & -> & _ & G). cbn beta zeta in G. destruct G as (_ & G1 & G2 & _).
  apply call_eq in G1 as [E G1]. subst e. cbn [eq_rect] in G1. rewrite sys_run_app.
  destruct (rename_shows lfs Hlfs i o Ho or l (shared (sys_run cs1 y)) tmp) as [j Hj]; [by rewrite <- G1|].
  rewrite <- G2 in Hj. set (y2 := sys_step (sys_run cs1 y) (Choice i (AGo or))) in *.
  assert (Hg : good y2) by (apply good_step; [done|by apply good_run]).
  pose proof Hj as Hj'. rewrite object_path_eq in Hj'. destruct (inv_obj _ _ _ _ (good_inv _ _ _ _ Hg) o j Ho Hj') as (x & Hx2 & _).
  eapply (kept_same H lfs _ o (i_data x)); [|done].
  apply (object_stays H lfs n0 Hlfs cs2 y2 o (i_data x) Hg Ho). by exists j, x.
Qed.

(** An answer with status 200. *)
Lemma responds_200 m is ds a b ws is' : responds en lfs m is ds a -> is = Got (PData b) :: is' -> SpecOdd.says b ws -> rp_code a = 200%N ->
  exists r, SpecOdd.named r ws /\
    (r = RVersion \/ (exists x, r = RUnlock x []) \/
     (plain_request r \/ lock_request r) /\
       (exists kvs, part PFlush is' (args kvs) /\ acts en lfs m (with_args kvs r) ds a) \/
     r = RBatch [] [] /\ exists kvs items, acts en lfs m (RBatch kvs items) ds a).
Proof using Type.
  intros H5 -> Hs Hc. inversion H5; subst; try done;
    repeat match goal with G : SpecOdd.says b ?w |- _ => tryif constr_eq w ws then fail else (apply (says_one _ _ _ Hs) in G; subst w) end;
    repeat match goal with
    | G : SpecOdd.turned_away _ _ _ _ |- _ => by inversion G; subst
    | G : SpecOdd.bad_args _ _ _ |- _ => by inversion G; subst
    | G : SpecOdd.bad_items _ _ _ |- _ => by inversion G; subst
    | G : rp_code (unreadable ?x) = _ |- _ => by destruct x
    end.
  - eexists. split; [done|]. by left.
  - eexists. split; [done|]. right. left. by eexists.
  - eexists. split; [done|]. right. right. left. split; [done|]. by eexists.
  - eexists. split; [done|]. do 3 right. split; [done|]. by eexists _, _.
Qed.

Lemma round_true cs y tr rest u m old new : good y -> history i cs y = tr ++ rest ->
  round en lfs u m old tr new -> true_round en lfs u m (end_ cs y) old tr new.
Proof using Hlfs.
  intros Hy Hh (is & a & ps & H1 & H2 & H3 & H4 & H5). exists is, a, ps. split_and!; try done.
  intros b ws is' -> Hs Hc. destruct H5 as [[H5 _]|[-> H5]].
  - destruct (responds_200 _ _ _ _ _ _ _ H5 eq_refl Hs Hc) as (r & Hn & Hr).
    split_and!; [intros o Ho|intros o Ho|intros o Ho|intros Ho]; pose proof (named_one _ _ _ Hn Ho) as E; cbn [SpecOdd.verb] in E;
      destruct Hr as [->|[[x ->]|[(Hp & kvs & Ha & Hb)|(-> & kvs & items & Hb)]]]; try (exfalso; by vm_compute in E);
      try (destruct r; cbn [SpecOdd.verb] in E; try (exfalso; by vm_compute in E); try (exfalso; by destruct Hp)).
    + injection E as ->. cbn [with_args] in Hb. inversion Hb; subst; try done.
      destruct (stat_kept cs y tr [] rest o n u0 Hy Hh) as (d & <- & Hk); [done|done|]. by exists kvs, v, d.
    + injection E as ->. cbn [with_args] in Hb. inversion Hb; subst; try done; [by case_decide..|].
      destruct (get_kept cs y tr ds rest o h n d Hy Hh) as [-> Hk]; [done..|]. by exists d.
    + inversion Hb; subst; try done. exists ls. split; [done|]. intros o n Hoid Hin. by eapply checks_kept.
  - inversion H5; subst; try done;
    repeat match goal with G : SpecOdd.says b ?w |- _ => tryif constr_eq w ws then fail else (apply (says_one _ _ _ Hs) in G; subst w) end;
    repeat match goal with
    | G : SpecOdd.bad_args _ _ _ |- _ => by inversion G; subst
    | G : rp_code (unreadable ?x) = _ |- _ => by destruct x
    end.
    match goal with G : SpecOdd.named (RPut _ _ _) _ |- _ => rename G into Hn end.
    split_and!; [intros o' Ho|intros o' Ho|intros o' Ho|intros Ho]; pose proof (named_one _ _ _ Hn Ho) as E; cbn [SpecOdd.verb] in E; try (exfalso; by vm_compute in E).
    injection E as <-.
    match goal with G : storing _ _ _ _ _ _ _ _ _ _ |- _ => rename G into Hst end.
    inversion Hst as [| | |ds0 e tmp fd cs' ds' a' He Hcs Hf]; subst; try done.
    assert (a = Reply 200 [] BNone) as -> by (by inversion Hf; subst).
    destruct (put_kept cs y tr rest o n u tmp (concat ds0) fd old cs' ds' Hy Hh) as [-> Hk]; [done..|].
    by exists kvs, v, is1, ds0, e.
Qed.
End rounds.

(** ** Sessions *)
Lemma history_split {A} i cs (y : sys A) t1 t2 : history i cs y = t1 ++ t2 ->
  exists cs1 cs2, cs = cs1 ++ cs2 /\ history i cs1 y = t1 /\ history i cs2 (sys_run cs1 y) = t2.
Proof.
  intros E. destruct t2 as [|d t2].
  - rewrite app_nil_r in E. exists cs, []. by rewrite app_nil_r.
  - destruct (history_at _ _ _ _ _ _ E) as (cs1 & o & cs2 & e & k & l & -> & H1 & H2). cbn beta zeta in H2.
    destruct H2 as (H2 & H3 & H4 & H5). exists cs1, (Choice i (AGo o) :: cs2). split_and!; [done|done|].
    pose proof (history_app i cs1 (Choice i (AGo o) :: cs2) y) as G. rewrite H1, E in G. by apply app_inv_head in G.
Qed.

(** What is written without a failure is in the output. *)
Lemma step_output i e o l s : l_out (handle_ev i e o l s).1.2 = l_out l ++ words (existT e (handle_ev i e o l s).1.1) \/
  failed_write (existT e (handle_ev i e o l s).1.1).
Proof.
  destruct e; unfold handle_ev, faulty, with_l; try (destruct (o_fault o)); simpl; unfold words; simpl; rewrite ?app_nil_r; auto.
  - left. unfold do_read. by destruct (n <=? lenN (l_in l))%N.
  - right. by eexists.
Qed.
Lemma grows i e o l s : exists w, l_out (handle_ev i e o l s).1.2 = l_out l ++ w.
Proof.
  destruct e; unfold handle_ev, faulty, with_l; try (destruct (o_fault o)); simpl; try (exists []; by rewrite app_nil_r); try by eexists.
  unfold do_read. destruct (n <=? lenN (l_in l))%N; exists []; by rewrite app_nil_r.
Qed.
Lemma out_grows {A} i cs : forall (y : sys A) p, procs y !! i = Some p ->
  exists p', procs (sys_run cs y) !! i = Some p' /\ l_out (pr_local p) `prefix_of` l_out (pr_local p').
Proof.
  induction cs as [|c cs IH]; intros y p Hp; [by exists p|].
  change (sys_run (c :: cs) y) with (sys_run cs (sys_step y c)).
  destruct (step_made y c i p Hp) as [(_ & d & Hd & _)|(o & e & k & -> & Hd & Hq & H)].
  - destruct (IH _ _ Hd) as (p' & H1 & H2). by exists p'.
  - cbn beta zeta in H. destruct H as (_ & H2 & _). destruct (IH _ _ H2) as (p' & G1 & G2). exists p'. split; [done|].
    cbn [pr_local] in G2. destruct (grows i e o (pr_local p) (shared y)) as [w E]. rewrite E in G2. etrans; [|exact G2]. by exists w.
Qed.
Lemma out_spoken {A} i cs : forall (y : sys A) p, procs y !! i = Some p -> sent_well (history i cs y) ->
  exists p', procs (sys_run cs y) !! i = Some p' /\ l_out (pr_local p') = l_out (pr_local p) ++ spoken (history i cs y).
Proof.
  induction cs as [|c cs IH]; intros y p Hp Hw; [exists p; by rewrite app_nil_r|].
  change (sys_run (c :: cs) y) with (sys_run cs (sys_step y c)). cbn [history] in *.
  apply Forall_app in Hw as [Hw1 Hw2].
  destruct (step_made y c i p Hp) as [(-> & d & Hd & _)|(o & e & k & -> & Hd & Hq & H)].
  - destruct (IH _ _ Hd Hw2) as (p' & H1 & H2). by exists p'.
  - cbn beta zeta in H. destruct H as (Em & H2 & _). destruct (IH _ _ H2 Hw2) as (p' & G1 & G2). exists p'. split; [done|].
    rewrite G2. cbn [pr_local]. rewrite Em in *. apply Forall_cons in Hw1 as [Hw1 _].
    destruct (step_output i e o (pr_local p) (shared y)) as [->|G]; [|done]. unfold spoken. cbn [app map concat]. by rewrite app_assoc.
Qed.

Section session.
Context (en : env) (lfs : path) (ps : list (proc (Z * bytes))) (s0 : fs).
Context (Hsv : servers (en_hash en) lfs ps s0).
Local Notation H := (en_hash en).
Local Notation n0 := (length (inodes s0)).

Lemma good_start : good H lfs n0 (Sys ps s0).
Proof using Hsv.
  destruct Hsv as [HH Hlfs [W S T O L] Hst Hall]. split; [|split].
  - split; [by apply store_inv|]. intros j p Hp. exists s0. split; [apply rely_refl|].
    apply rg_server; [by apply plain_stays_all|done|done|]. rewrite Forall_lookup in Hall. by eapply Hall.
  - by constructor.
  - intros j p Hp. apply (sv_server H lfs HH). rewrite Forall_lookup in Hall. by eapply Hall.
Qed.

Lemma rounds_true i u m s old body new : rounds en lfs u m old body new ->
  forall cs y rest, good H lfs n0 y -> history i cs y = body ++ rest -> s = shared (sys_run cs y) ->
  true_rounds en lfs u m s old body new.
Proof using Hsv.
  destruct Hsv as [HH Hlfs _ _ _].
  induction 1 as [|old tr mid tr' new Hr _ IH]; intros cs y rest Hy Hh ->; [constructor|].
  rewrite <- app_assoc in Hh. econstructor.
  - by eapply (round_true en lfs n0 Hlfs i).
  - destruct (history_split _ _ _ _ _ Hh) as (cs1 & cs2 & -> & H1 & H2).
    eapply (IH cs2 (sys_run cs1 y)); [by apply good_run|exact H2|]. by rewrite sys_run_app.
Qed.

Lemma rounds_sent u m old body new : rounds en lfs u m old body new -> sent_well body.
Proof using Type. induction 1 as [|old tr mid tr' new (is & a & qs & _ & _ & _ & Hw & _) _ IH]; [constructor|]. by apply Forall_app. Qed.

Lemma c96 fuel v m l i cs : ps !! i = Some (Proc (transfer_main en fuel lfs (GOk (libgit2 v)) (operation m)) l false) ->
  let tr := history i cs (Sys ps s0) in
  let y := sys_run cs (Sys ps s0) in
  (forall e r, existT e r ∈ tr -> introduces lfs e) \/
  exists um u body rest new p, tr = um ++ announced lfs ++ body ++ rest /\ masks (asked v) um u /\
    true_rounds en lfs u m (shared y) [] body new /\ (flushed ∉ rest \/ farewell rest) /\
    procs y !! i = Some p /\ (l_out l ++ bs "000eversion=1" ++ [NL] ++ bs "0000" ++ spoken body) `prefix_of` l_out (pr_local p).
Proof using Hsv.
  intros Hi tr y. pose proof good_start as Hg. pose proof Hsv as [HH _ _ _ _].
  destruct (c_session en fuel lfs v m tr None HH) as [[G _]|(um & u & body & rest & new & E & Hm & Hr & Hf & _)].
  - apply history_exact.
  - by apply (history_calls i cs (Sys ps s0) _ Hi).
  - left. exact G.
  - right. unfold tr in E.
    assert (Hw : sent_well (um ++ announced lfs ++ body) /\ spoken (um ++ announced lfs) = bs "000eversion=1" ++ [NL] ++ bs "0000").
    { assert (sent_well um /\ spoken um = []) as [Hw Hs].
      { unfold masks in Hm. destruct (asked v) as [n|]; [destruct Hm as (_ & r & ->)|destruct Hm as (r & ->)]; split; try done; repeat constructor; by intros []. }
      split; [|unfold spoken in *; rewrite map_app, concat_app, Hs; done]. apply Forall_app. split; [done|]. apply Forall_app.
      split; [|by eapply rounds_sent]. repeat constructor; by intros []. }
    destruct Hw as [Hw Hs].
    pose proof E as E1. replace (um ++ announced lfs ++ body ++ rest) with ((um ++ announced lfs ++ body) ++ rest) in E1 by (by rewrite <- !app_assoc).
    pose proof E as E2. rewrite app_assoc in E2.
    destruct (history_split _ _ _ _ _ E1) as (cs1 & cs2 & Ec & H1 & H2).
    destruct (out_spoken i cs1 (Sys ps s0) _ Hi) as (p1 & Hp1 & Ho1); [by rewrite H1|].
    destruct (out_grows i cs2 (sys_run cs1 (Sys ps s0)) p1 Hp1) as (p & Hp & Ho).
    exists um, u, body, rest, new, p. split; [done|]. split; [done|]. split; [|split; [done|split]].
    + destruct (history_split _ _ _ _ _ E2) as (cs3 & cs4 & Ec4 & H3 & H4).
      eapply (rounds_true i u m _ [] body new Hr cs4 (sys_run cs3 (Sys ps s0)) rest); [|exact H4|].
      * destruct Hsv as [_ Hlfs _ _ _]. by apply good_run.
      * unfold y. by rewrite Ec4, sys_run_app.
    + unfold y. by rewrite Ec, sys_run_app.
    + rewrite Ho1, H1 in Ho. cbn [pr_local] in Ho. unfold spoken in Ho. rewrite app_assoc, map_app, concat_app in Ho.
      fold (spoken (um ++ announced lfs)) in Ho. rewrite Hs, <- !app_assoc in Ho. done.
Qed.
End session.
