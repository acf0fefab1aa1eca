(** Timed reasoning about one server is sound next to any other servers. *)
From Verif Require Import Bytes Err FS Prog Pktline Args Local Processor Transfer Wp Rg Rgt
  Spec SpecStore SpecServer FsFacts ServerEv TextProofs ObjProofs StoreProofs SeqFs Shape.
From stdpp Require Import relations.

Section sound.
Context (H : bytes -> bytes) (lfs : path) (n0 : nat) (W : nat -> bytes -> Prop).
Context (Hlfs : Forall stays lfs) (HH : digest H).
Context (ps : list (proc (Z * bytes))) (s0 : fs) (cs : list choice) (i : nat).
Context (ok : orc -> Prop) (Hok : forall o, Choice i (AGo o) ∈ cs -> ok o).
Context (J : bytes -> nat -> Prop) (F : failure -> Prop) (Q : Z * bytes -> local -> nat -> fs -> Prop).
Context (QJ : forall a l t s, Q a l t s -> J (l_out l) t).
Local Notation y0 := (Sys ps s0).

(** What the others do, and what is always true. *)
Definition rel (s s' : fs) : Prop := Rely H lfs n0 W i s s' /\ dirs s s'.
Definition always (s : fs) : Prop := Inv H lfs n0 s /\ shape lfs s.
(** The server and the state after [k] choices. *)
Definition at_ (k : nat) (s : fs) (l : local) : Prop :=
  (k <= length cs)%nat /\ shared (sys_run (take k cs) y0) = s /\
  exists p, procs (sys_run (take k cs) y0) !! i = Some p /\ pr_local p = l.

Lemma rel_refl s : rel s s.
Proof using Type. split; [apply rely_refl|apply dirs_refl]. Qed.
Lemma rel_trans a b c : rel a b -> rel b c -> rel a c.
Proof using Type. intros [H1 H2] [H3 H4]. split; [by eapply rely_trans|by eapply dirs_trans]. Qed.

Definition fine (n : nat) (y : sys (Z * bytes)) : Prop :=
  sys_ok (Rely H lfs n0 W) (Guar lfs n0 W) (Inv H lfs n0) (fun _ _ _ _ => True) y /\
  shape lfs (shared y) /\
  (forall j p, procs y !! j = Some p -> all_ev (shapely lfs) (pr_prog p)) /\
  exists p t s, procs y !! i = Some p /\ (t <= n)%nat /\ rel s (shared y) /\
    rgt i ok rel always at_ J F (pr_prog p) Q (pr_local p) t s.

Lemma fine_step n c : cs !! n = Some c -> fine n (sys_run (take n cs) y0) -> fine (S n) (sys_run (take (S n) cs) y0).
Proof using Hlfs Hok.
  intros Hc. rewrite (take_S_r _ _ _ Hc).
  assert (Hn : (n < length cs)%nat) by (by apply lookup_lt_Some in Hc).
  unfold sys_run at 2. rewrite fold_left_app. fold (sys_run (take n cs) y0). cbn [fold_left].
  set (y := sys_run (take n cs) y0). intros (Hs & Hsh & Hev & p & t & s & Hp & Ht & Hr & Hg).
  destruct (sys_step_sound (Rely H lfs n0 W) (Guar lfs n0 W) (Inv H lfs n0) (fun _ _ _ _ => True)
    (rely_refl H lfs n0 W) (rely_trans H lfs n0 W) (guar_rely H lfs n0 W) y c Hs) as [Hs' _].
  assert (Enext : sys_run (take (S n) cs) y0 = sys_step y c).
  { rewrite (take_S_r _ _ _ Hc). unfold sys_run. by rewrite fold_left_app. }
  split; [done|]. clear Hs'.
  assert (Hstay : forall y', shared y' = shared y -> (forall j p', procs y' !! j = Some p' ->
     exists p0, procs y !! j = Some p0 /\ pr_prog p' = pr_prog p0 /\ pr_local p' = pr_local p0) ->
     is_Some (procs y' !! i) ->
     shape lfs (shared y') /\ (forall j p', procs y' !! j = Some p' -> all_ev (shapely lfs) (pr_prog p')) /\
     exists p t s, procs y' !! i = Some p /\ (t <= S n)%nat /\ rel s (shared y') /\
       rgt i ok rel always at_ J F (pr_prog p) Q (pr_local p) t s).
  { intros y' E1 E2 [p' Hp']. rewrite E1. split_and!; [done| |].
    - intros j q Hq. destruct (E2 j q Hq) as (q0 & Hq0 & -> & _). by eapply Hev.
    - destruct (E2 i p' Hp') as (q0 & Hq0 & E3 & E4). rewrite Hp in Hq0. injection Hq0 as <-.
      exists p', t, s. rewrite E3, E4. split_and!; [done|lia|done|done]. }
  destruct c as [j a]. unfold sys_step in *. cbn [c_pid c_act] in *.
  destruct (procs y !! j) as [[q l dead]|] eqn:Ej.
  2: { apply Hstay; [done| |by eexists]. intros j' p' Hp'. by exists p'. }
  unfold proc_step in *. cbn [pr_dead pr_prog pr_local] in *. destruct dead.
  { apply Hstay; [done| |]; cbn [procs]; rewrite list_insert_id by done; [intros j' p' Hp'; by exists p'|by eexists]. }
  destruct a as [o|].
  2: { apply Hstay; [done| |]; cbn [procs].
       - intros j' p'. rewrite list_lookup_insert_Some. intros [(-> & <- & _)|[_ Hq]]; [|by exists p'].
         by eexists.
       - apply lookup_lt_is_Some_2. rewrite insert_length. by apply lookup_lt_Some in Hp. }
  destruct q as [x|f|e k].
  { apply Hstay; [done| |]; cbn [procs]; rewrite list_insert_id by done; [intros j' p' Hp'; by exists p'|by eexists]. }
  { apply Hstay; [done| |]; cbn [procs]; rewrite list_insert_id by done; [intros j' p' Hp'; by exists p'|by eexists]. }
  pose proof (Hev _ _ Ej) as [He Hk]. cbn [pr_prog] in He, Hk.
  destruct (shapely_ok lfs Hlfs j e o l (shared y) He Hsh) as [Hsh' Hdir].
  pose proof (handle_resp_ok j e o l (shared y)) as Hrok.
  destruct Hs as [HI Hpr]. destruct (Hpr _ _ Ej) as (sj & Hrj & Hgj). cbn [pr_prog pr_local] in Hgj.
  pose proof (Hgj (shared y) o Hrj HI) as Hstep.
  assert (Hp0 : procs y !! i = Some p) by done.
  destruct (decide (j = i)) as [->|Hne].
  - rewrite Ej in Hp. injection Hp as <-. destruct Hg as [_ Hg]. 
    assert (Hat : at_ n (shared y) l).
    { split; [lia|]. split; [done|]. by eexists. }
    assert (Ho : ok o) by (apply Hok; by eapply elem_of_list_lookup_2).
    specialize (Hg n (shared y) o Ht Hat Hr (conj HI Hsh) Ho). cbn [pr_local] in Hg.
    destruct (handle_ev i e o l (shared y)) as [[r l'] s2]. cbn [fst snd] in *. destruct Hstep as (HI2 & HG & _).
    cbn [shared procs]. split; [done|]. split.
    + intros j' p'. rewrite list_lookup_insert_Some. intros [(-> & <- & _)|[_ Hq]]; [by apply Hk|by eapply Hev].
    + eexists _, (S n), s2. split; [apply list_lookup_insert; by apply lookup_lt_Some in Ej|].
      split; [lia|]. split; [apply rel_refl|]. apply Hg; [|done].
      split; [lia|]. rewrite Enext. split; [done|]. eexists. split; [apply list_lookup_insert; by apply lookup_lt_Some in Ej|done].
  - destruct (handle_ev j e o l (shared y)) as [[r l'] s2]. cbn [fst snd] in *. destruct Hstep as (HI2 & HG & _).
    cbn [shared procs]. split; [done|]. split.
    + intros j' p'. rewrite list_lookup_insert_Some. intros [(-> & <- & _)|[_ Hq]]; [by apply Hk|by eapply Hev].
    + exists p, t, s. rewrite list_lookup_insert_ne by done. split; [done|]. split; [lia|]. split; [|done].
      eapply rel_trans; [exact Hr|]. split; [|done]. by apply (guar_rely H lfs n0 W i j).
Qed.

Lemma rgt_sound p : Inv H lfs n0 s0 -> shape lfs s0 ->
  (forall j p, ps !! j = Some p -> rg j (Rely H lfs n0 W j) (Guar lfs n0 W j) (Inv H lfs n0) (pr_prog p)
     (fun _ _ _ => True) (pr_local p) s0) ->
  (forall j p, ps !! j = Some p -> all_ev (shapely lfs) (pr_prog p)) ->
  ps !! i = Some p -> rgt i ok rel always at_ J F (pr_prog p) Q (pr_local p) 0 s0 ->
  exists q t, procs (sys_run cs y0) !! i = Some q /\ (t <= length cs)%nat /\ J (l_out (pr_local q)) t /\
    (forall x, pr_prog q = Ret x -> exists s, Q x (pr_local q) t s) /\ (forall f, pr_prog q = Fail f -> F f).
Proof using Hlfs Hok QJ.
  intros HI Hsh Hrg Hev Hp Hg.
  assert (Hall : forall n, (n <= length cs)%nat -> fine n (sys_run (take n cs) y0)).
  { induction n as [|n IH]; intros Hn.
    - cbn [take]. unfold sys_run. cbn [fold_left]. split; [|split_and!].
      + split; [done|]. intros j q Hq. exists s0. split; [apply rely_refl|]. by apply Hrg.
      + done.
      + done.
      + exists p, 0%nat, s0. split_and!; [done|lia|apply rel_refl|done].
    - destruct (lookup_lt_is_Some_2 cs n) as [c Hc]; [lia|]. apply (fine_step n c); [done|]. apply IH. lia. }
  specialize (Hall (length cs) ltac:(lia)). rewrite take_ge in Hall by lia.
  destruct Hall as (_ & _ & _ & q & t & s & Hq & Ht & Hr & G). exists q, t. split; [done|]. split; [done|].
  destruct (pr_prog q) as [x|f|e k].
  - split; [by eapply QJ|]. split; [|done]. intros x' [= <-]. by exists s.
  - destruct G as [G1 G2]. split; [done|]. split; [done|]. by intros f' [= <-].
  - destruct G as [G _]. by split.
Qed.
End sound.
