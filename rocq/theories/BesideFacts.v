(** What follows about locks from answers that are right at moments. *)
From Verif Require Import Bytes ByteFacts Err FS Prog Pktline Args Local Processor Transfer Wp Rg
  Spec SpecStore SpecServer SpecSecret SpecLock SpecTogether SpecBeside FsFacts PktFacts PktProofs IoFacts TextProofs ObjProofs StoreProofs SeqIo SeqFs SeqCmd Session
  SessionFacts SessionProps Shape TogetherProofs TogetherFacts.
From stdpp Require Import relations sorting.

Ltac same_path := repeat match goal with
  | H1 : (?k, ?v) ∈ ?kvs, H2 : (?k, ?v') ∈ ?kvs, Hw : args_ok ?kvs |- _ =>
      assert_fails (constr_eq v v'); let E := fresh in pose proof (key_fun kvs k (Some v) (Some v') Hw H1 H2) as E; injection E as <-; clear H2 end.

Section stands.
Context (en : env) (m : mode) (lfs : path) (y0 : sys (Z * bytes)) (cs : list choice) (i : nat).
Context (HH : digest (en_hash en)).
Context (K : nat) (p : bytes) (t : Z) (u : N) (j : nat) (x : bytes).
Context (Hst : stands (en_hash en) lfs y0 cs K p t u j) (Ht : (- 2 ^ 63 <= t < 2 ^ 63)%Z) (Hx : en_time en t = Some x).
Context (inp out : bytes).
Context (Hafter : forall k s, moment y0 cs i k s inp out -> (K <= k)%nat).
Local Notation f := (lock_path lfs (lock_id (en_hash en) p)).
Local Notation who := (user_name en u).

Lemma stands_at k s : moment y0 cs i k s inp out -> nodes s !! f = Some (NFile j) /\
  exists z, inodes s !! j = Some z /\ i_data z = record_of t p /\ i_uid z = u.
Proof using Hst Hafter. intros Hm. pose proof (Hafter _ _ Hm) as Hk. destruct Hm as (Hl & <- & _). by apply Hst. Qed.

Lemma record_is t' p' : record_text (record_of t p) t' p' -> t' = t /\ p' = p.
Proof using Ht. intros Hr. apply lock_parse_iff in Hr. change (record_of t p) with (lock_record t p) in Hr. rewrite c33 in Hr by done. by injection Hr. Qed.
Lemma record_has : record_text (record_of t p) t p.
Proof using Ht. apply lock_parse_iff. by apply (c33 t p). Qed.

Lemma stands_reads k y k' : reads en y0 cs i inp out k f y k' -> y = Lock_of p t who.
Proof using Hst Hafter Ht.
  destruct 1 as [k1 s1 _ Hm Hn|k1 s1 k2 s2 k3 j' d _ _ _ Hm1 Hn Hm2 (z & Hz & Ed) Hno|k1 s1 k2 s2 k3 s3 j' d t' p' who' _ _ _ Hm1 Hn Hm2 (z & Hz & Ed) Hrec Hm3 Hw].
  - destruct (stands_at _ _ Hm) as [E _]. congruence.
  - destruct (stands_at _ _ Hm1) as [E1 _]. assert (j' = j) as -> by congruence.
    destruct (stands_at _ _ Hm2) as (_ & z' & Hz' & E2 & _). assert (z' = z) as -> by congruence.
    destruct Hno. exists t, p. rewrite <- Ed, E2. exact record_has.
  - destruct (stands_at _ _ Hm1) as [E1 _]. assert (j' = j) as -> by congruence.
    destruct (stands_at _ _ Hm2) as (_ & z' & Hz' & E2 & _). assert (z' = z) as -> by congruence.
    rewrite <- Ed, E2 in Hrec. apply record_is in Hrec as [-> ->].
    destruct (stands_at _ _ Hm3) as (E3 & z3 & Hz3 & _ & Eu).
    destruct Hw as [j3 z4 Hn3 Hz4|Hn3]; [|congruence].
    assert (j3 = j) as -> by congruence. assert (z4 = z3) as -> by congruence. by rewrite Eu.
Qed.

(** Two answers for all worlds. *)
Definition w_free : world := World ∅ ∅.
Definition w_held : world := World ∅ {[ lock_id (en_hash en) p := (p, t, u) ]}.

Lemma visits_has k fs xs k' : visits en lfs y0 cs i inp out k fs xs k' -> lock_id (en_hash en) p ∈ fs ->
  (p, t, who) ∈ locks_found xs.
Proof using Hst Hafter Ht HH.
  induction 1 as [|k k1 k2 f' fs y xs Hr Hv IH]; intros Hin; [by apply elem_of_nil in Hin|].
  unfold locks_found. cbn [omap list_omap]. apply elem_of_cons in Hin as [<-|Hin].
  - rewrite utf8_lossy_ascii in Hr by (by apply lock_id_plain). apply stands_reads in Hr as ->. by left.
  - specialize (IH Hin). unfold locks_found in IH. destruct y; [done|done|by right].
Qed.
Lemma lines_have ls o : list_lines en m ls o -> (p, t, who) ∈ ls -> exists b a, o = b ++ lines_of en m p x who ++ a.
Proof using Hx.
  induction 1 as [|p' t' who' x' ls o Hx' Hl IH]; intros Hin; [by apply elem_of_nil in Hin|].
  apply elem_of_cons in Hin as [E|Hin].
  - injection E as <- <- <-. assert (x' = x) as -> by congruence. by exists [], o.
  - destruct (IH Hin) as (b & a & ->). exists (lines_of en m p' x' who' ++ b), a. by rewrite <- app_assoc.
Qed.

Lemma unlock_held kvs a w' : answer_of en m 0 (fun _ => False) w_held (RUnlock (lock_id (en_hash en) p) kvs) a w' ->
  w_locks w' !! lock_id (en_hash en) p = None.
Proof using HH.
  inversion 1; subst.
  - match goal with H : utf8_valid _ = false |- _ => by rewrite lock_id_utf8 in H end.
  - done.
  - cbn [w_locks]. apply lookup_delete.
Qed.
Lemma free_from c ls : locks_from w_free c ls -> ls = [].
Proof using Type. intros [_ H]. destruct ls as [|[z1 z2] ls]; [done|]. destruct (proj1 (H z1 z2)) as [G _]; [by left|cbn in G; by rewrite lookup_empty in G]. Qed.
Lemma limit_fine kvs lim n a w w' : args_ok kvs -> key (bs "limit") kvs lim -> limit_of lim n ->
  answer_of en m 0 (fun _ => False) w (RList kvs) a w' -> rp_code a <> 400%N \/ a = refusal clash.
Proof using Type.
  intros Hw Hk Hl Ha. inversion Ha; subst; try (left; done); try (right; done).
  - match goal with H : (_, ?v) ∈ kvs |- _ => pose proof (key_fun kvs _ (Some v) lim Hw H Hk) as <- end. inversion Hl; subst.
    match goal with H : ~ _ |- _ => destruct H; by eexists end.
  - match goal with H : (_, ?v) ∈ kvs |- _ => pose proof (key_fun kvs _ (Some v) lim Hw H Hk) as <- end. inversion Hl; subst.
    match goal with H : number _ 0, H' : number _ _ |- _ => by pose proof (number_fun _ _ _ H H') end.
Qed.

Lemma stands_tells k r a k' : well_formed m r -> lock_right en m lfs y0 cs i inp out k r a k' -> tells en m p x who r a.
Proof using All.
  intros Hw Hr. destruct r as [|kvs items|o kvs ds|o kvs|o kvs|kvs|kvs|id kvs]; try done; unfold tells.
  - intros b Hp Hb. destruct Hw as [_ Hw].
    inversion Hr; subst; try (right; done); same_path.
    + match goal with H : forall w, answer_of _ _ _ _ w _ _ w |- _ => specialize (H w_free) end.
      match goal with H : answer_of _ _ _ _ _ _ _ _ |- _ => inversion H; subst end; try done.
      exfalso. match goal with H : _ \/ _ |- _ => destruct H as [H|H]; by eapply args_no end.
    + match goal with H : moment _ _ _ ?k ?s _ _, H' : nodes ?s !! f = None |- _ => destruct (stands_at _ _ H); congruence end.
    + left. match goal with H : reads _ _ _ _ _ _ _ _ _ _ |- _ => apply stands_reads in H; injection H as -> -> end. congruence.
    + match goal with H : reads _ _ _ _ _ _ _ _ _ _ |- _ => apply stands_reads in H as -> end.
      match goal with H : unusable _ _ _ |- _ => by inversion H end.
  - change (args_ok kvs) in Hw. intros lim n Hlim Hn Hc. split; intros Hp.
    + inversion Hr; subst; same_path.
      * match goal with H : forall w, answer_of _ _ _ _ w _ _ w |- _ => pose proof (H w_free) as A1; pose proof (H w_held) as A2 end.
        exfalso. inversion A1; subst; try (by match goal with H : w_locks w_free !! _ = Some _ |- _ => apply lookup_empty_Some in H end);
          try (by eapply args_no); [by destruct (limit_fine _ _ _ _ _ _ Hw Hlim Hn A1)..|].
        match goal with H : _ \/ _ |- _ => clear H end.
        inversion A2; subst; try (by eapply args_no). same_path.
        match goal with H : _ \/ _ |- _ => destruct H as [H|(? & ? & ? & _ & -> & _)] end.
        { match goal with H : w_locks w_held !! _ = None |- _ => unfold w_held in H; cbn [w_locks] in H; by rewrite lookup_singleton in H end. }
        by eapply args_no.
      * match goal with H : reads _ _ _ _ _ _ _ _ _ _ |- _ => apply stands_reads in H; injection H as -> -> end. congruence.
      * match goal with H : reads _ _ _ _ _ _ _ _ _ _ |- _ => apply stands_reads in H as -> end.
        match goal with H : key (bs "cursor") kvs ?c |- _ => pose proof (key_fun kvs _ c None Hw H Hc) as -> end.
        match goal with H : _ \/ _ |- _ => destruct H as [H|(? & ? & ? & _ & H & _)]; done end.
      * match goal with H : reads _ _ _ _ _ _ _ _ _ _ |- _ => apply stands_reads in H as -> end.
        match goal with H : unusable _ _ _ |- _ => by inversion H end.
      * exfalso. by eapply args_no.
    + inversion Hr; subst; try (exfalso; by eapply args_no).
      * match goal with H : forall w, answer_of _ _ _ _ w _ _ w |- _ => pose proof (H w_free) as A1; pose proof (H w_held) as A2 end.
        exfalso.
        assert (B1 : rp_body a = BLines []).
        { clear A2 Hr H2. inversion A1; subst; try (exfalso; by eapply args_no); [exfalso; by destruct (limit_fine _ _ _ _ _ _ Hw Hlim Hn A1)..|].
          match goal with H : locks_from w_free _ _ |- _ => apply free_from in H as -> end.
          match goal with H : locks_lines _ _ _ _ |- _ => rewrite take_nil in H; by inversion H end. }
        assert (B2 : exists b bs, rp_body a = BLines (b :: bs)); [|destruct B2 as (? & ? & B2); congruence].
        { clear A1 Hr H2 B1. inversion A2; subst; try (exfalso; by eapply args_no); [exfalso; by destruct (limit_fine _ _ _ _ _ _ Hw Hlim Hn A2)..|].
          match goal with H : key (bs "cursor") kvs ?c |- _ => pose proof (key_fun kvs _ c None Hw H Hc) as ->; clear H end.
          match goal with H : locks_from w_held _ ?l |- _ => assert (G : (lock_id (en_hash en) p, (p, t, u)) ∈ l) by (apply (proj2 H); split; [apply lookup_singleton|done]) end.
          match goal with H : locks_lines _ _ (take _ ?l) _ |- _ => destruct l as [|[? [[? ?] ?]] l]; [by apply elem_of_nil in G|]; cbn [take] in H; inversion H end.
          by eexists _, _. }
      * eexists _, _. split; [done|]. intros E.
        match goal with H : key (bs "cursor") kvs ?c |- _ => pose proof (key_fun kvs _ c None Hw H Hc) as -> end.
        match goal with H : key (bs "limit") kvs ?c |- _ => pose proof (key_fun kvs _ c lim Hw H Hlim) as -> end.
        match goal with H : list_lines _ _ _ _ |- _ => apply (lines_have _ _ H) end.
        match goal with H : limit_of lim ?n0 |- _ => assert (En : n0 = n) by (by eapply limit_fun); clear H; subst n0 end.
        assert (Ec : from_cursor en None (locks_found xs) = locks_found xs) by (by destruct (locks_found xs)).
        rewrite Ec in *. set (ls := locks_found xs) in *.
        assert (later = []) as ->.
        { match goal with H : later = [] \/ _ |- _ => destruct H as [H|H]; [done|] end.
          destruct (lookup_lt_is_Some_2 ls n) as [[[? ?] ?] El]; [lia|]. by rewrite El in E. }
        match goal with H : visits _ _ _ _ _ _ _ _ _ _ _ |- _ => eapply visits_has; [exact H|] end.
        match goal with H : forall f, f ∈ names ++ [] <-> _ |- _ => specialize (H (lock_id (en_hash en) p)); rewrite app_nil_r in H; apply H end.
        match goal with H : moment _ _ _ _ _ _ _ |- _ => destruct (stands_at _ _ H) as [-> _]; by eexists end.
  - intros ->. destruct Hw as (_ & Hw & _). 
    inversion Hr; subst.
    + match goal with H : forall w, answer_of _ _ _ _ w _ _ w |- _ => specialize (H w_held) end.
      match goal with H : answer_of _ _ _ _ _ _ _ _ |- _ => apply unlock_held in H; cbn in H; by rewrite lookup_singleton in H end.
    + match goal with H : reads _ _ _ _ _ _ _ _ _ _ |- _ => apply stands_reads in H; injection H as -> -> _ end.
      match goal with H : moment _ _ _ _ ?s _ _, H' : nodes ?s !! f = None |- _ => destruct (stands_at _ _ H); congruence end.
    + match goal with H : reads _ _ _ _ _ _ _ _ _ _ |- _ => apply stands_reads in H; injection H as -> -> _ end.
      match goal with H : moment _ _ _ _ ?s _ _, H' : nodes ?s !! f = None |- _ => destruct (stands_at _ _ H); congruence end.
    + match goal with H : reads _ _ _ _ _ _ _ _ _ _ |- _ => by apply stands_reads in H end.
    + match goal with H : reads _ _ _ _ _ _ _ _ _ _ |- _ => by apply stands_reads in H end.
Unshelve. all: exact [].
Qed.
End stands.

(** ** What was told, one request *)
Section told.
Context (en : env) (m : mode) (lfs : path) (y0 : sys (Z * bytes)) (cs : list choice) (i : nat).
Local Notation right := (right en m lfs y0 cs i).
Local Notation told := (told en m lfs y0 cs i).

Lemma told_inp inp0 caps asked as_ k inp w : told inp0 caps asked as_ k inp w ->
  exists wn, wires (concat (map packets_of asked)) wn /\ inp0 = wn ++ inp.
Proof using Type.
  induction 1 as [|rs as_ k inp out r' a k' wr wa ps Ht (wn & H1 & H2) Hr Hright Hs Hw]; [exists []; split; [constructor|done]|].
  exists (wn ++ wr). split; [|by rewrite <- app_assoc]. rewrite map_app, concat_app. simpl. rewrite app_nil_r.
  apply wires_inv in H1 as [-> H1], Hr as [-> Hr]. rewrite <- enc_all_app. apply wires_enc. by apply Forall_app.
Qed.

Lemma told_split inp0 caps asked as_ k inp w n r a : told inp0 caps asked as_ k inp w -> asked !! n = Some r -> as_ !! n = Some a ->
  exists as1 k1 inp1 out1 wr k2, told inp0 caps (take n asked) as1 k1 (wr ++ inp1) out1 /\ wires (packets_of r) wr /\
    right inp1 out1 k1 r a k2 /\ (k2 <= k)%nat.
Proof using Type.
  induction 1 as [|rs as_ k inp out r' a' k' wr wa ps Ht IH Hr Hright Hs Hw]; intros Hn Ha; [done|].
  pose proof (told_length _ _ _ _ _ _ _ _ _ _ _ _ _ Ht) as Hlen.
  apply lookup_app_Some in Hn as [Hn|[Hge Hn]].
  - rewrite lookup_app_l in Ha by (apply lookup_lt_Some in Hn; lia).
    destruct (IH Hn Ha) as (as1 & k1 & inp1 & out1 & wr1 & k2 & H1 & H2 & H3 & H4).
    exists as1, k1, inp1, out1, wr1, k2. rewrite take_app_le by (apply lookup_lt_Some in Hn; lia). split_and!; try done.
    apply right_le in Hright. lia.
  - destruct (n - length rs)%nat as [|z] eqn:En; [|done]. injection Hn as ->. assert (n = length rs) as -> by lia.
    rewrite lookup_app_r, Hlen, Nat.sub_diag in Ha by lia. injection Ha as ->.
    exists as_, k, inp, out, wr, k'. by rewrite take_app.
Qed.

(** A request not read at moment [K] is worked on after it. *)
Lemma unread_moment inp0 inp out r K n reqs wn : unread y0 cs i inp0 reqs K n ->
  reqs !! n = Some r -> wires (concat (map packets_of (take (S n) reqs))) wn -> inp0 = wn ++ inp ->
  forall k s, moment y0 cs i k s inp out -> (K <= k)%nat.
Proof using Type.
  intros (p & w & Hp & Hw & Hlen) Hn Hwn ->.
  assert (Hlt : (length inp < length (l_in (pr_local p)))%nat).
  { rewrite (take_S_r _ _ _ Hn), map_app, concat_app in Hwn. cbn [map concat] in Hwn. rewrite app_nil_r in Hwn.
    apply wires_inv in Hwn as [-> _], Hw as [-> _]. rewrite enc_all_app, !app_length in Hlen.
    assert (0 < length (enc_all (packets_of r)))%nat; [|lia].
    assert (Ecc : forall p q, enc_all (p :: q) = enc p ++ enc_all q) by done.
    assert (Hpos : forall x, (0 < length (enc (PData x)))%nat).
    { intros x. simpl. unfold hex04, pad0. rewrite !app_length, replicate_length. simpl. lia. }
    destruct r; cbn [packets_of]; rewrite Ecc, app_length; match goal with |- (0 < length (enc (PData ?x)) + _)%nat => specialize (Hpos x) end; lia. }
  intros k1 s (_ & _ & p1 & Hp1 & E & _). destruct (decide (K <= k1)%nat) as [?|Hk]; [done|].
  rewrite (run_take y0 cs k1 K ltac:(lia)) in Hp. pose proof (run_in _ _ _ _ _ Hp1 Hp). rewrite E in *. lia.
Qed.
End told.

(** The output only grows. *)
Lemma out_grows pid e o l s : l_out l `prefix_of` l_out (handle_ev pid e o l s).1.2.
Proof.
  destruct e; unfold handle_ev, faulty; try (destruct (o_fault o)); simpl; try done; try (by apply prefix_app_r).
  unfold do_read. by destruct (n <=? lenN (l_in l))%N.
Qed.

Lemma step_out {A} (y : sys A) c j p p' : procs y !! j = Some p -> procs (sys_step y c) !! j = Some p' ->
  l_out (pr_local p) `prefix_of` l_out (pr_local p').
Proof.
  intros Hp Hp'. unfold sys_step in Hp'. destruct (procs y !! c_pid c) as [q|] eqn:Eq;
    [|by rewrite Hp in Hp'; injection Hp' as ->].
  destruct (proc_step (c_pid c) (c_act c) q (shared y)) as [q' s'] eqn:Es. cbn [procs] in Hp'.
  apply list_lookup_insert_Some in Hp' as [(E & E2 & _)|[_ E]]; [|rewrite Hp in E; by injection E as ->]. subst p'.
  assert (p = q) as -> by congruence. clear -Es.
  unfold proc_step in Es. destruct (pr_dead q); [by injection Es as <- _|]. destruct (c_act c) as [o|]; [|by injection Es as <- _].
  destruct (pr_prog q) as [a|f|e k] eqn:Ep; [by injection Es as <- _..|].
  pose proof (out_grows (c_pid c) e o (pr_local q) (shared y)) as G.
  destruct (handle_ev (c_pid c) e o (pr_local q) (shared y)) as [[r l'] s2]. by injection Es as <- _.
Qed.

Lemma run_out {A} cs : forall (y : sys A) j p p', procs y !! j = Some p -> procs (sys_run cs y) !! j = Some p' ->
  l_out (pr_local p) `prefix_of` l_out (pr_local p').
Proof.
  induction cs as [|c cs IH]; intros y j p p' Hp Hp'.
  - unfold sys_run in Hp'. simpl in Hp'. rewrite Hp in Hp'. by injection Hp' as ->.
  - destruct (step_procs y c j p Hp) as [q Hq]. change (sys_run (c :: cs) y) with (sys_run cs (sys_step y c)) in Hp'.
    etrans; [by eapply step_out|by eapply IH].
Qed.

(** A moment when few answers have been written is before one with more. *)
Lemma before_answer y0 cs i k s inp out K q n ps : moment y0 cs i k s inp out ->
  wires ps out -> (ends ps <= n)%nat -> procs (sys_run (take K cs) y0) !! i = Some q -> answered (l_out (pr_local q)) n ->
  (k < K)%nat.
Proof.
  intros (_ & _ & p & Hp & _ & Eo) Hw Hn Hq (qs & wq & G1 & G2 & G3). destruct (decide (k < K)%nat) as [?|Hk]; [done|]. exfalso.
  rewrite (run_take y0 cs K k ltac:(lia)) in Hp. pose proof (run_out _ _ _ _ _ Hq Hp) as G. rewrite Eo in G.
  apply wires_inv in Hw as [-> Hw], G1 as [-> G1].
  assert (enc_all qs `prefix_of` enc_all ps) as [z Ez] by (by etrans). symmetry in Ez.
  destruct (enc_prefix _ _ _ G1 Hw Ez) as [rs ->]. rewrite ends_app in Hn. unfold ends in Hn at 1. lia.
Qed.

(** What is there and later is not has been removed at some step. *)
Lemma removed {A} (P : A -> Prop) `{forall x, Decision (P x)} (f : nat -> A) a b : (a <= b)%nat -> P (f a) -> ~ P (f b) ->
  exists k, (a <= k < b)%nat /\ P (f k) /\ ~ P (f (S k)).
Proof.
  intros Hab Ha. induction Hab as [|b Hab IH]; intros Hb; [done|].
  destruct (decide (P (f b))) as [Hp|Hp]; [exists b; split_and!; [lia|lia|done|done]|].
  destruct (IH Hp) as (k & ? & ? & ?). exists k. split_and!; [lia|lia|done|done].
Qed.

(** A lock that was granted got its name at a moment when it was free. *)
Lemma granted en m lfs y0 cs i inp out k kvs p a k' :
  well_formed m (RLock kvs) -> (bs "path", p) ∈ kvs -> rp_code a = 201%N ->
  right en m lfs y0 cs i inp out k (RLock kvs) a k' ->
  exists k3 s3 s3', moment y0 cs i k3 s3 inp out /\ nodes s3 !! lock_path lfs (lock_id (en_hash en) p) = None /\
    moment y0 cs i (S k3) s3' inp out /\ is_Some (nodes s3' !! lock_path lfs (lock_id (en_hash en) p)).
Proof.
  intros [_ Hw] Hp Hc Hr. inversion Hr as [k1 M M' r' a' Hab| |r' a' k2 Hl]; subst; [done|].
  inversion Hl; subst; same_path; try done.
  - match goal with H : forall w, answer_of _ _ _ _ w _ _ w |- _ => specialize (H (World ∅ {[ lock_id (en_hash en) p := (p, 0%Z, 0%N) ]})) end.
    match goal with H : answer_of _ _ _ _ _ _ _ _ |- _ => inversion H; subst end; try done.
  - match goal with H : nodes ?s3 !! lock_path _ _ = None, G : moment _ _ _ ?k3 ?s3 _ _, G' : nodes ?s4 !! lock_path _ _ = Some _ |- _ =>
      exists k3, s3, s4; split_and!; [done|done|done|by eexists] end.
  - match goal with H : trouble _ |- _ => by destruct H as [? ->] end.
  - match goal with H : unusable _ _ _ |- _ => by inversion H; subst end.
Qed.
