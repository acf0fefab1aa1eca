(** The theorems about locks read off from the history of a run. *)
From Verif Require Import Bytes Err FS Prog Pktline Args Local Processor Transfer Wp Rg
  ByteFacts PktFacts FsFacts Spec SpecStore SpecServer SpecLock LockProofs LockSeq LockLive.
From stdpp Require Import relations.

Local Arguments acts : simpl never.

Lemma acts_app i h1 h2 : acts i (h1 ++ h2) = acts i h1 ++ acts i h2.
Proof. induction h1 as [|[j e] h1 IH]; [done|]. simpl. rewrite !acts_cons, IH. by case_decide. Qed.

(** An event of process [i] sits somewhere in the whole history. *)
Lemma acts_split i h g1 e g2 : acts i h = g1 ++ e :: g2 ->
  exists h1 h2, h = h1 ++ (i, e) :: h2 /\ acts i h1 = g1 /\ acts i h2 = g2.
Proof.
  revert g1. induction h as [|[j x] h IH]; intros g1; [by destruct g1|]. rewrite acts_cons. case_decide as Hj.
  - subst j. destruct g1 as [|y g1]; simpl.
    + intros [= -> <-]. by exists [], h.
    + intros [= -> E]. destruct (IH g1 E) as (h1 & h2 & -> & <- & <-). exists ((i, y) :: h1), h2.
      rewrite acts_cons, decide_True by done. done.
  - intros E. destruct (IH g1 E) as (h1 & h2 & -> & <- & <-). exists ((j, x) :: h1), h2.
    rewrite acts_cons, decide_False by done. done.
Qed.
Lemma acts_in i e h : (i, e) ∈ h -> e ∈ acts i h.
Proof.
  induction h as [|[j x] h IH]; [by intros ?%elem_of_nil|]. rewrite acts_cons. intros [Hx|Hx]%elem_of_cons.
  - injection Hx as <- <-. rewrite decide_True by done. by left.
  - case_decide; [right|]; by apply IH.
Qed.

(** Positions counted from the start. *)
Lemma log_split s n i e : log_at s n i e -> exists h1 h2, hist s = h1 ++ (i, e) :: h2 /\ length h2 = n.
Proof.
  unfold log_at. intros Hn. apply elem_of_list_split_length in Hn as (l1 & l2 & E & ->).
  exists (rev l2), (rev l1). split; [|by rewrite rev_length].
  rewrite <- (rev_involutive (hist s)), E, rev_app_distr. simpl. by rewrite <- app_assoc.
Qed.
Lemma log_of s h1 i e h2 : hist s = h1 ++ (i, e) :: h2 -> log_at s (length h2) i e.
Proof.
  intros E. unfold log_at. rewrite E, rev_app_distr. simpl. rewrite <- app_assoc. simpl.
  apply list_lookup_middle. by rewrite rev_length.
Qed.
Lemma log_inj s n i e j f : log_at s n i e -> log_at s n j f -> i = j /\ e = f.
Proof. unfold log_at. intros ->. by intros [= -> ->]. Qed.
Lemma log_below s h1 h2 n i e : hist s = h1 ++ h2 -> (n < length h2)%nat -> log_at s n i e -> (i, e) ∈ h2.
Proof.
  unfold log_at. intros -> Hn. rewrite rev_app_distr, lookup_app_l by (by rewrite rev_length).
  intros Hx%elem_of_list_lookup_2. by apply elem_of_list_In, in_rev, elem_of_list_In.
Qed.
Lemma log_between s h1 h2 h3 n i e : hist s = h1 ++ h2 ++ h3 -> (length h3 <= n < length h2 + length h3)%nat ->
  log_at s n i e -> (i, e) ∈ h2.
Proof.
  intros E Hn Hx. unfold log_at in Hx. rewrite E, app_assoc, !rev_app_distr in Hx.
  rewrite lookup_app_r in Hx by (rewrite rev_length; lia). rewrite rev_length in Hx.
  rewrite lookup_app_l in Hx by (rewrite rev_length; lia).
  apply elem_of_list_lookup_2 in Hx. by apply elem_of_list_In, in_rev, elem_of_list_In.
Qed.
Lemma log_in s h1 h2 h3 i e : hist s = h1 ++ h2 ++ h3 -> (i, e) ∈ h2 ->
  exists n, (length h3 <= n < length h2 + length h3)%nat /\ log_at s n i e.
Proof.
  intros E Hx. apply elem_of_list_split in Hx as (k1 & k2 & ->). exists (length (k2 ++ h3)). split.
  - rewrite !app_length. simpl. lia.
  - apply (log_of s (h1 ++ k1)). rewrite E, <- !app_assoc. done.
Qed.

Lemma described_inj H p q a : described H p a -> described H q a -> p = q.
Proof.
  intros (x & u & ->) (y & v & E). injection E as _ E _ _. by apply app_inj_tail in E as [-> _].
Qed.

Section log.
Context (H : bytes -> bytes) (lfs : path) (HH : digest H) (Hlfs : Forall plain_name lfs).
Context (cs : list choice) (ps : list (proc (Z * bytes))) (s0 : fs).
Context (Hps : Forall (fun p => is_server H lfs (pr_prog p)) ps) (Hs0 : sane s0) (Hh0 : hist s0 = []).
Local Notation s := (shared (sys_run cs (Sys ps s0))).
Local Notation f p := (lock_path lfs (lock_id H p)).

Lemma linv_init : LInv H lfs s0 (partial_records H lfs s0) s0.
Proof using Hs0 Hh0.
  split.
  - split; rewrite ?Hh0.
    + by intros c [|? ?].
    + by intros c [|? ?].
    + done.
    + by intros c [|? ?].
  - intros i. rewrite Hh0. by intros [|? ?].
  - intros HK c j x Hc Hx. apply HK. by exists j, x.
  - intros c j x Hc Hx Hj. apply Hs0 in Hc. lia.
  - exact Hs0.
  - done.
Qed.
Lemma linv : LInv H lfs s0 (partial_records H lfs s0) s.
Proof using Hps Hs0 Hh0 HH Hlfs.
  apply lservers; [apply linv_init|]. intros i p Hp. exists (fun _ _ _ => True).
  apply rg_server_l; [apply (lfs_st lfs Hlfs)|done|]. rewrite Forall_lookup in Hps. by apply (Hps i).
Qed.

Lemma granted n i a : log_at s n i (OAnswer 201 a) -> exists p m, described H p a /\ (m < n)%nat /\
  log_at s m i (OLink (f p)) /\ no_answer_between s i m n.
Proof using Hps Hs0 Hh0 HH Hlfs.
  intros Hn. destruct (log_split _ _ _ _ Hn) as (h1 & h2 & E & <-).
  pose proof (li_own _ _ _ _ _ linv i (acts i h1) 201%N a (acts i h2)) as Hw.
  rewrite E, acts_app, acts_cons, decide_True in Hw by done. destruct (Hw eq_refl) as [(p & Hd & g1 & g2 & Eg & Hg) _]; [done|].
  apply acts_split in Eg as (k1 & k2 & -> & <- & <-). exists p, (length k2). split_and!; [done| | |].
  - rewrite app_length. simpl. lia.
  - apply (log_of _ (h1 ++ (i, OAnswer 201 a) :: k1)). by rewrite E, <- app_assoc.
  - intros k c b Hk Hl. rewrite Forall_forall in Hg. cut (is_answer (OAnswer c b) = false); [done|]. apply Hg, acts_in.
    apply (log_between s (h1 ++ [(i, OAnswer 201 a)]) k1 ((i, OLink (f p)) :: k2) k i (OAnswer c b)); [|simpl; rewrite app_length in Hk; simpl in Hk; lia|done].
    by rewrite E, <- app_assoc.
Qed.

Lemma links_apart p m1 i1 m2 i2 : (m1 < m2)%nat -> log_at s m1 i1 (OLink (f p)) -> log_at s m2 i2 (OLink (f p)) ->
  exists k j, (m1 < k < m2)%nat /\ log_at s k j (OUnlink (f p)).
Proof using Hps Hs0 Hh0 HH Hlfs.
  intros Hlt H1 H2. destruct (log_split _ _ _ _ H2) as (h1 & h2 & E & <-).
  assert (Hin : exists k1 k2, h2 = k1 ++ (i1, OLink (f p)) :: k2 /\ length k2 = m1).
  { destruct (log_split _ _ _ _ H1) as (g1 & g2 & E2 & Hl). rewrite E in E2.
    assert (exists k, g1 = h1 ++ (i2, OLink (f p)) :: k) as [k ->].
    { clear -E2 Hl Hlt. revert g1 E2. induction h1 as [|x h1 IH]; intros g1 E2.
      - destruct g1 as [|y g1]; [injection E2 as _ E2; rewrite E2 in Hlt; lia|]. injection E2 as <- E2. by exists g1.
      - destruct g1 as [|y g1].
        + injection E2 as _ E2. apply (f_equal length) in E2. rewrite app_length in E2. simpl in E2. lia.
        + injection E2 as <- E2. destruct (IH g1 E2) as [k ->]. by exists k. }
    rewrite <- app_assoc in E2. apply app_inv_head in E2. injection E2 as ->. by exists k, g2. }
  destruct Hin as (k1 & k2 & -> & <-).
  destruct (hi_alt _ _ _ (li_hist _ _ _ _ _ linv) _ h1 i2 k1 i1 k2 E) as [j Hj].
  destruct (log_in s (h1 ++ [(i2, OLink (f p))]) k1 ((i1, OLink (f p)) :: k2) j (OUnlink (f p))) as (k & Hk & Hl); [by rewrite E, <- app_assoc|done|].
  exists k, j. split; [|done]. rewrite app_length. simpl in *. lia.
Qed.

Lemma c24 p n1 i1 a1 n2 i2 a2 : n1 <> n2 -> log_at s n1 i1 (OAnswer 201 a1) -> log_at s n2 i2 (OAnswer 201 a2) ->
  described H p a1 -> described H p a2 ->
  exists m1 m2, log_at s m1 i1 (OLink (f p)) /\ (m1 < n1)%nat /\ no_answer_between s i1 m1 n1 /\
    log_at s m2 i2 (OLink (f p)) /\ (m2 < n2)%nat /\ no_answer_between s i2 m2 n2 /\
    exists k j, log_at s k j (OUnlink (f p)) /\ (m1 < k < m2 \/ m2 < k < m1)%nat.
Proof using Hps Hs0 Hh0 HH Hlfs.
  intros Hne H1 H2 D1 D2. destruct (granted _ _ _ H1) as (p1 & m1 & E1 & L1 & G1 & N1).
  destruct (granted _ _ _ H2) as (p2 & m2 & E2 & L2 & G2 & N2).
  rewrite (described_inj _ _ _ _ E1 D1) in G1. rewrite (described_inj _ _ _ _ E2 D2) in G2.
  exists m1, m2. split_and!; try done.
  destruct (decide (m1 < m2)%nat) as [Hlt|Hge].
  - destruct (links_apart p m1 i1 m2 i2 Hlt G1 G2) as (k & j & Hk & Hl). exists k, j. auto.
  - destruct (decide (m2 < m1)%nat) as [Hlt|Hge'].
    + destruct (links_apart p m2 i2 m1 i1 Hlt G2 G1) as (k & j & Hk & Hl). exists k, j. auto.
    + assert (m1 = m2) as -> by lia. destruct (log_inj _ _ _ _ _ _ G1 G2) as [-> _]. exfalso.
      destruct (decide (n1 < n2)%nat).
      * by apply (N2 n1 201%N a1); [lia|].
      * by apply (N1 n2 201%N a2); [lia|].
Qed.

Lemma kept p m i : log_at s m i (OLink (f p)) -> (forall k j, (m < k)%nat -> ~ log_at s k j (OUnlink (f p))) ->
  nodes s !! f p <> None.
Proof using Hps Hs0 Hh0 HH Hlfs.
  intros Hm Hno. destruct (log_split _ _ _ _ Hm) as (h1 & h2 & E & <-).
  apply (hi_last _ _ _ (li_hist _ _ _ _ _ linv) _ h1 i h2 E). intros k Hk.
  destruct (log_in s [] h1 ((i, OLink (f p)) :: h2) k (OUnlink (f p)) E Hk) as (n & Hn & Hl).
  apply (Hno n k); [simpl in Hn; lia|done].
Qed.
Lemma kept_old p : nodes s0 !! f p <> None -> (forall k j, ~ log_at s k j (OUnlink (f p))) -> nodes s !! f p <> None.
Proof using Hps Hs0 Hh0 HH Hlfs.
  intros Hp Hno. apply (hi_old _ _ _ (li_hist _ _ _ _ _ linv) _ Hp). intros k Hk.
  destruct (log_in s [] (hist s) [] k (OUnlink (f p))) as (n & _ & Hl); [by rewrite app_nil_r|done|]. by apply (Hno n k).
Qed.
Lemma first_after p n i : nodes s0 !! f p <> None -> log_at s n i (OLink (f p)) ->
  exists k j, (k < n)%nat /\ log_at s k j (OUnlink (f p)).
Proof using Hps Hs0 Hh0 HH Hlfs.
  intros Hp Hm. destruct (log_split _ _ _ _ Hm) as (h1 & h2 & E & <-).
  destruct (hi_first _ _ _ (li_hist _ _ _ _ _ linv) _ h1 i h2 Hp E) as [j Hj].
  destruct (log_in s (h1 ++ [(i, OLink (f p))]) h2 [] j (OUnlink (f p))) as (k & Hk & Hl); [by rewrite E, app_nil_r, <- app_assoc|done|].
  exists k, j. split; [simpl in Hk; lia|done].
Qed.

Lemma unlocked n i a x rest : log_at s n i (OAnswer 200 a) -> a = (bs "id=" ++ x) :: rest ->
  exists p m, described H p a /\ (m < n)%nat /\ log_at s m i (OUnlink (f p)) /\ no_event_between s i m n.
Proof using Hps Hs0 Hh0 HH Hlfs.
  intros Hn Ha. destruct (log_split _ _ _ _ Hn) as (h1 & h2 & E & <-).
  pose proof (li_own _ _ _ _ _ linv i (acts i h1) 200%N a (acts i h2)) as Hw.
  rewrite E, acts_app, acts_cons, decide_True in Hw by done.
  destruct (Hw eq_refl) as [_ Hu]. destruct (Hu eq_refl x rest Ha) as (p & Hd & g2 & Eg).
  apply (acts_split i h2 [] _ g2) in Eg as (k1 & k2 & -> & E1 & E2). exists p, (length k2). split_and!; [done| | |].
  - rewrite app_length. simpl. lia.
  - apply (log_of _ (h1 ++ (i, OAnswer 200 a) :: k1)). by rewrite E, <- app_assoc.
  - intros k e Hk Hl. cut (e ∈ acts i k1); [by rewrite E1; intros ?%elem_of_nil|]. apply acts_in.
    apply (log_between s (h1 ++ [(i, OAnswer 200 a)]) k1 ((i, OUnlink (f p)) :: k2) k i e); [|simpl; rewrite app_length in Hk; simpl in Hk; lia|done].
    by rewrite E, <- app_assoc.
Qed.

Lemma records : partial_records H lfs s0 -> partial_records H lfs s.
Proof using Hps Hs0 Hh0 HH Hlfs. intros HK c d (j & x & Hj & Hx & <-). by apply (li_rec _ _ _ _ _ linv HK c j x). Qed.
End log.

(** ** One server at a time, dying at any moment *)
Section crash.
Context (H : bytes -> bytes) (lfs : path) (HH : digest H) (Hlfs : Forall plain_name lfs).
Lemma crash_records p n pid os l s : is_server H lfs p -> sane s -> complete_records H lfs s ->
  sane (run_crash n pid p os l s).2 /\ complete_records H lfs (run_crash n pid p os l s).2.
Proof using HH Hlfs.
  intros Hp Hs Hc. assert (HI : SInv H lfs s).
  { split; [done|]. intros q j x Hj Hx. apply (Hc q). by exists j, x. }
  pose proof (run_crash_sound pid _ _ _ n os _ _ HI (rgs_server H lfs Hlfs HH pid p l s Hp)) as [H1 H2].
  split; [done|]. intros q d (j & x & Hj & Hx & <-). by apply (H2 q j x).
Qed.

(** A session without faults ends in [unreachable!] only with a leftover file. *)
Lemma session_panic p pid os l s : is_server H lfs p -> sane s -> fault_free os ->
  (run pid p os l s).1.1 = Failed PUnreachable -> Cleaned H lfs s (run pid p os l s).2.
Proof using HH Hlfs.
  intros Hp Hs Hos. pose proof (wpl_server H lfs Hlfs HH pid s p l s Hp) as Hw.
  assert (HL : Live H lfs s s) by (split; [done|apply no_new_refl]).
  specialize (Hw HL). pose proof (wp_run pid _ _ _ _ _ _ Hw os Hos) as Hr. clear Hw.
  destruct (run pid p os l s) as [[[a|f] l'] s']; simpl; [done|]. intros [= ->]. by apply Hr.
Qed.
Lemma session_clean p pid os l s a : is_server H lfs p -> sane s -> fault_free os ->
  (run pid p os l s).1.1 = Done a -> no_new H lfs s (run pid p os l s).2.
Proof using HH Hlfs.
  intros Hp Hs Hos. pose proof (wpl_server H lfs Hlfs HH pid s p l s Hp) as Hw.
  assert (HL : Live H lfs s s) by (split; [done|apply no_new_refl]).
  specialize (Hw HL). pose proof (wp_run pid _ _ _ _ _ _ Hw os Hos) as Hr. clear Hw.
  destruct (run pid p os l s) as [[[b|f] l'] s']; simpl; [|done]. intros _. apply Hr.
Qed.
End crash.
