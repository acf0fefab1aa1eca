(** What follows from answers that are right at a moment: objects that are there
    stay, so what one server stored every later request to every server finds. *)
From Verif Require Import Bytes ByteFacts Err FS Prog Pktline Args Local Processor Transfer Wp Rg
  Spec SpecStore SpecServer SpecTogether FsFacts PktFacts PktProofs IoFacts TextProofs ObjProofs StoreProofs SeqIo SeqFs SeqCmd Session
  SessionFacts Shape TogetherProofs.
From stdpp Require Import relations.

(** ** Packets of a beginning *)
Lemma enc_prefix ps qs w : Forall (fun p => lenN (payload p) <= 65531)%N ps -> Forall (fun p => lenN (payload p) <= 65531)%N qs ->
  enc_all ps ++ w = enc_all qs -> exists rs, qs = ps ++ rs.
Proof.
  intros Hps. revert qs. induction Hps as [|p ps Hp _ IH]; intros qs Hqs E; [by exists qs|].
  assert (Ecc : forall p q, enc_all (p :: q) = enc p ++ enc_all q) by done.
  destruct Hqs as [|q qs Hq Hqs].
  - rewrite Ecc in E. apply (f_equal length) in E. rewrite !app_length in E. simpl in E.
    pose proof (decode_enc 65535 p []) as G. rewrite app_nil_r in G.
    destruct (enc p) as [|? ?] eqn:Ee; [|simpl in E; lia].
    destruct p; simpl in Ee; [done|done|].
    apply (f_equal length) in Ee. rewrite app_length in Ee. unfold hex04, pad0 in Ee. rewrite app_length, replicate_length in Ee. simpl in Ee. lia.
  - rewrite !Ecc, <- app_assoc in E.
    pose proof (decode_enc 65535 p (enc_all ps ++ w)) as G1. pose proof (decode_enc 65535 q (enc_all qs)) as G2.
    assert (Hl : forall r, (lenN (payload r) <= 65531)%N -> (pkt_len r + 4 <= 65535)%N) by (intros [| |d]; simpl; lia).
    rewrite E, G2 in G1 by (done || by apply Hl). specialize (G1 (Hl _ Hp) ltac:(done)). injection G1 as -> E'.
    destruct (IH qs) as [rs ->]; [done|done|]. by exists rs.
Qed.

Definition ends (ps : list packet) : nat := length (filter (fun p => p = PFlush) ps).
Lemma ends_app a b : ends (a ++ b) = (ends a + ends b)%nat.
Proof. unfold ends. by rewrite filter_app, app_length. Qed.
Lemma ends_data cs : ends (map PData cs) = 0%nat.
Proof. unfold ends. induction cs as [|c cs IH]; [done|]. cbn [map]. by rewrite filter_cons_False. Qed.
Lemma ends_lines ls qs : lines_sent ls qs -> ends qs = 0%nat.
Proof.
  induction 1 as [|l ls ps qs (cs & -> & _) _ IH]; [done|]. by rewrite ends_app, ends_data, IH.
Qed.
Lemma ends_reply a qs : reply_sent a qs -> ends qs = 1%nat.
Proof.
  intros (code & qa & qb & _ & _ & Ha & Hb & ->). change (PData ?b :: ?l) with ([PData b] ++ l).
  rewrite !ends_app, (ends_lines _ _ Ha). assert (ends qb = 0%nat) as ->; [|done].
  destruct (rp_body a) as [|ls|d|t]; simpl in Hb.
  - by subst qb.
  - destruct Hb as (qs & -> & H). change (PDelim :: qs) with ([PDelim] ++ qs). by rewrite ends_app, (ends_lines _ _ H).
  - destruct Hb as (cs & -> & _). change (PDelim :: ?l) with ([PDelim] ++ l). by rewrite ends_app, ends_data.
  - destruct Hb as (qs & -> & (cs & -> & _)). change (PDelim :: ?l) with ([PDelim] ++ l). by rewrite ends_app, ends_data.
Qed.

(** ** Answers that do not look at the clock *)
Lemma no_clock en m w r a w' : answer_of en m 0 (fun _ => False) w r a w' -> answer_of en m 0 (eq 0%Z) w r a w'.
Proof. intros []; try done; econstructor; eauto. Qed.

Lemma same_answer en m w r a1 w1 a2 w2 : well_formed m r ->
  answer_of en m 0 (fun _ => False) w r a1 w1 -> answer_of en m 0 (fun _ => False) w r a2 w2 -> a1 = a2 /\ w1 = w2.
Proof. intros Hw H1 H2. eapply (answer_fun en m 0 0%Z); [done|by apply no_clock..]. Qed.

(** ** What was told *)
Section told.
Context (en : env) (m : mode) (lfs : path) (y0 : sys (Z * bytes)) (cs : list choice) (i : nat).
Local Notation right := (right en m lfs y0 cs i).
Local Notation told := (told en m lfs y0 cs i).
Local Notation seen := (seen m lfs y0 cs i).

Lemma seen_le inp out k os ns ls k' : seen inp out k os ns ls k' -> (k <= k')%nat.
Proof using Type. induction 1; lia. Qed.
Lemma reads_le inp out k f x k' : reads en y0 cs i inp out k f x k' -> (k <= k')%nat.
Proof using Type. destruct 1; lia. Qed.
Lemma visits_le inp out k fs xs k' : visits en lfs y0 cs i inp out k fs xs k' -> (k <= k')%nat.
Proof using Type. induction 1 as [|? ? ? ? ? ? ? H]; [done|]. apply reads_le in H. lia. Qed.
Lemma lock_right_le inp out k r a k' : lock_right en m lfs y0 cs i inp out k r a k' -> (k <= k')%nat.
Proof using Type.
  destruct 1; repeat match goal with H : reads _ _ _ _ _ _ _ _ _ _ |- _ => apply reads_le in H | H : visits _ _ _ _ _ _ _ _ _ _ _ |- _ => apply visits_le in H end; lia.
Qed.
Lemma lock_right_about inp out k r a k' : lock_right en m lfs y0 cs i inp out k r a k' -> ~ about_objects r.
Proof using Type. destruct 1; [done|by intros []..]. Qed.
Lemma right_le inp out k r a k' : right inp out k r a k' -> (k <= k')%nat.
Proof using Type.
  intros [k1 M M' r' a' _ H1 H2 H3 H4|kvs items ns h ls k2 H1 H2 H3 H4|r' a' k2 H]; [lia|by eapply seen_le|by eapply lock_right_le].
Qed.

Lemma told_length inp0 caps asked as_ k inp w : told inp0 caps asked as_ k inp w -> length as_ = length asked.
Proof using Type. induction 1; rewrite ?app_length; simpl; congruence. Qed.

Lemma told_at inp0 caps asked as_ k inp w n r : told inp0 caps asked as_ k inp w -> asked !! n = Some r ->
  exists a k1 k2 inp1 out1 wn, as_ !! n = Some a /\ right inp1 out1 k1 r a k2 /\ (k2 <= k)%nat /\
    wires (concat (map packets_of (take (S n) asked))) wn /\ inp0 = wn ++ inp1.
Proof using Type.
  intros Ht. assert (G : exists wn, wires (concat (map packets_of asked)) wn /\ inp0 = wn ++ inp).
  { induction Ht as [|rs as_ k inp out r' a k' wr wa ps Ht (wn & H1 & H2) Hr Hright Hs Hw]; [exists []; split; [constructor|done]|].
    exists (wn ++ wr). split; [|by rewrite <- app_assoc]. rewrite map_app, concat_app. simpl. rewrite app_nil_r.
    apply wires_inv in H1 as [-> H1], Hr as [-> Hr]. rewrite <- enc_all_app. apply wires_enc. by apply Forall_app. }
  revert G. induction Ht as [|rs as_ k inp out r' a k' wr wa ps Ht IH Hr Hright Hs Hw]; intros G Hn; [done|].
  pose proof (told_length _ _ _ _ _ _ _ Ht) as Hlen.
  apply lookup_app_Some in Hn as [Hn|[Hge Hn]].
  - destruct G as (wn & G1 & G2). destruct IH as (b & k1 & k2 & inp1 & out1 & w1 & H1 & H2 & H3 & H4 & H5); [|done|].
    { rewrite map_app, concat_app in G1. cbn [map concat] in G1. rewrite app_nil_r in G1. apply wires_inv in G1 as [-> G1]. apply Forall_app in G1 as [G1 _].
      apply wires_inv in Hr as [-> Hr].
      exists (enc_all (concat (map packets_of rs))). split; [by apply wires_enc|].
      rewrite G2, enc_all_app, <- app_assoc. done. }
    exists b, k1, k2, inp1, out1, w1. split_and!; try done.
    + by apply lookup_app_l_Some.
    + apply right_le in Hright. lia.
    + rewrite take_app_le; [done|]. apply lookup_lt_Some in Hn. lia.
  - destruct (n - length rs)%nat as [|x] eqn:En; [|done]. injection Hn as ->. destruct G as (wn & G1 & G2).
    assert (n = length rs) as -> by lia.
    exists a, k, k', inp, out, wn. split_and!; try done.
    + rewrite lookup_app_r by lia. by rewrite Hlen, Nat.sub_diag.
    + rewrite take_ge; [done|]. rewrite app_length. simpl. lia.
Qed.

(** The moments of the lines of a batch. *)
Lemma seen_moments inp out k os ns ls k' : seen inp out k os ns ls k' ->
  exists ks, length ls = length os /\ length ks = length os /\ Forall (le k) ks /\
    (forall a b x y, (a < b)%nat -> ks !! a = Some x -> ks !! b = Some y -> (x <= y)%nat) /\
    forall a o n k line, os !! a = Some o -> ns !! a = Some n -> ks !! a = Some k -> ls !! a = Some line ->
      exists M, now lfs y0 cs i k M inp out /\ line = batch_line_for m (only M) o n.
Proof using Type.
  induction 1 as [|k k1 k2 M o n os ns ls H1 H2 H3 (ks & IH1 & IH2 & IH3 & IH4 & IH5)].
  - exists []. split_and!; done || constructor.
  - exists (k1 :: ks). split_and!.
    + simpl. by rewrite IH1.
    + simpl. by rewrite IH2.
    + constructor; [done|]. eapply Forall_impl; [exact IH3|]. intros x Hx. simpl in *. lia.
    + intros [|a] [|b] x y Hab Hx Hy; simpl in *; try lia.
      * injection Hx as <-. rewrite Forall_lookup in IH3. apply IH3 in Hy. lia.
      * eapply (IH4 a b); [lia|done..].
    + intros [|a] o' n' k' line Ho Hn Hk Hl; simpl in *; [|by eapply IH5].
      injection Ho as <-. injection Hn as <-. injection Hk as <-. injection Hl as <-. by exists M.
Qed.

Lemma right_batch_moments inp out k kvs items h a k' : well_formed m (RBatch kvs items) ->
  key (bs "hash-algo") kvs h -> h = None \/ h = Some (bs "sha256") ->
  right inp out k (RBatch kvs items) a k' ->
  exists ls ks, a = Reply 200 [] (BLines ls) /\ length ls = length items /\ length ks = length items /\
    (forall a b x y, (a < b)%nat -> ks !! a = Some x -> ks !! b = Some y -> (x <= y)%nat) /\
    forall a o b k line, items !! a = Some (o, b) -> ks !! a = Some k -> ls !! a = Some line ->
      exists M n, number b n /\ now lfs y0 cs i k M inp out /\ line = batch_line_for m (only M) o n.
Proof using Type.
  intros Hw Hh Hsha Hr. inversion Hr as [k1 M M' r' a' _ H1 H2 H3 H4|? ? ns h' ls k2 H1 H2 H3 H4|r' a' k2 G]; subst; [| |by destruct (lock_right_about _ _ _ _ _ _ G)].
  - assert (exists ns, Forall2 (fun x n => number x.2 n) items ns) as [ns Hns].
    { destruct Hw as [_ Hw]. clear -Hw. induction Hw as [|x xs [_ [n Hn]] _ [ns IH]]; [by exists []|]. exists (n :: ns). by constructor. }
    destruct (same_answer en m (only M) _ _ _ _ _ Hw H3 (a_batch en m 0 _ (only M) kvs items ns h Hh Hsha Hns)) as [-> _].
    pose proof (Forall2_length _ _ _ Hns) as Hl.
    exists (zip_with (batch_line_for m (only M)) items.*1 ns), (replicate (length items) k1). split_and!; [done|by rewrite zip_with_length, fmap_length, Hl, Nat.min_id|by rewrite replicate_length| |].
    + intros x y u v _ Hu Hv. apply lookup_replicate in Hu as [-> _], Hv as [-> _]. done.
    + intros x o b k2 line Ho Hk Hline. apply lookup_replicate in Hk as [-> _].
      destruct (Forall2_lookup_l _ _ _ _ _ Hns Ho) as (n & Hn & Hbn). exists M, n. split_and!; [done|done|].
      rewrite lookup_zip_with, list_lookup_fmap, Ho in Hline. cbn [fmap option_fmap option_map fst mbind option_bind] in Hline. rewrite Hn in Hline. cbn [mbind option_bind] in Hline.
      by injection Hline as <-.
  - destruct (seen_moments _ _ _ _ _ _ _ H4) as (ks & G1 & G2 & _ & G3 & G4). rewrite fmap_length in G1, G2.
    exists ls, ks. split_and!; [done..|]. intros x o b k2 line Ho Hk Hline.
    destruct (Forall2_lookup_l _ _ _ _ _ H3 Ho) as (n & Hn & Hbn).
    destruct (G4 x o n k2 line) as (M & HM & E); [by rewrite list_lookup_fmap, Ho|done..|]. by exists M, n.
Qed.

(** The output has as many complete answers. *)
Lemma told_out inp0 caps asked as_ k inp w ps0 : wires ps0 caps -> told inp0 caps asked as_ k inp w ->
  exists ps, wires (ps0 ++ ps) w /\ ends ps = length asked.
Proof using Type.
  intros H0. induction 1 as [|rs as_ k inp out r a k' wr wa ps Ht (qs & IH & Hl) Hr Hright Hs Hw].
  - exists []. by rewrite app_nil_r.
  - exists (qs ++ ps). split.
    + apply wires_inv in IH as [-> IH], Hw as [-> Hw]. rewrite app_assoc, <- enc_all_app. apply wires_enc. by apply Forall_app.
    + rewrite ends_app, Hl, (ends_reply _ _ Hs), app_length. simpl. lia.
Qed.

Lemma caps_ends : ends capabilities = 1%nat.
Proof using Type. done. Qed.

(** Enough complete answers seen: the request is among those told. *)
Lemma answered_told inp0 reqs extra out n N all : so_far en m lfs y0 cs i inp0 reqs extra out N all -> answered out n ->
  (n <= length reqs)%nat -> exists caps asked later as_ k inp w, told inp0 caps asked as_ k inp w /\ reqs = asked ++ later /\
    (k <= N)%nat /\ (n <= length asked)%nat.
Proof using Type.
  intros (caps & asked & later & as_ & k & inp & w & ps & we & H1 & H2 & H3 & H4 & H5 & H6 & H7 & _) (qs & wq & G1 & G2 & G3) Hn.
  exists caps, asked, later, as_, k, inp, w. split_and!; try done.
  destruct H5 as [->|[-> _]]; [|by rewrite H2, app_nil_r in Hn].
  inversion H6; subst. rewrite app_nil_r in H7. destruct (told_out _ _ _ _ _ _ _ _ H1 H3) as (ps & Hw & Hl).
  apply wires_inv in Hw as [-> Hw], G1 as [-> G1].
  assert (enc_all qs `prefix_of` enc_all (capabilities ++ ps)) as [z Hz] by (by etrans).
  symmetry in Hz. destruct (enc_prefix _ _ _ G1 Hw Hz) as [rs E]. unfold capabilities in E.
  assert (ends (capabilities ++ ps) = S (length asked)) as E' by (by rewrite ends_app, Hl).
  unfold capabilities in E'. rewrite E, ends_app in E'. unfold ends in E' at 1. lia.
Qed.
End told.

Lemma run_take {A} (y : sys A) cs K k : (K <= k)%nat ->
  sys_run (take k cs) y = sys_run (take (k - K) (drop K cs)) (sys_run (take K cs) y).
Proof.
  intros Hk. unfold sys_run. rewrite <- fold_left_app. f_equal. replace k with (K + (k - K))%nat at 1 by lia. symmetry. apply take_take_drop.
Qed.

(** ** What is stored stays *)
Section facts.
Context (H : bytes -> bytes) (lfs : path) (ps : list (proc (Z * bytes))) (s0 : fs) (cs : list choice).
Context (HH : digest H) (Hlfs : Forall plain_name lfs).
Context (Hps : Forall (fun p => is_server H lfs (pr_prog p)) ps).
Context (Hs0 : sane s0) (Hst : store_ok H lfs s0).
Local Notation y0 := (Sys ps s0).
Local Notation state k := (shared (sys_run (take k cs) y0)).

Lemma stays_stored K k o d : (K <= k)%nat -> is_oid o -> has_file (state K) (object_path lfs o) d ->
  exists d', has_file (state k) (object_path lfs o) d' /\ same_object H d d'.
Proof using HH Hlfs Hps Hs0 Hst.
  intros Hk Ho Hf. set (n0 := length (inodes s0)).
  destruct (servers_sound H lfs n0 any_oid (fun _ _ _ _ => True) (take K cs) ps s0) as [HK _].
  { by apply store_inv. }
  { intros j p Hp. apply rg_server; [by apply plain_stays_all|done|done|]. rewrite Forall_lookup in Hps. by eapply Hps. }
  pose proof (run_take y0 cs K k Hk) as Ek.
  destruct (sys_run_sound (Rely H lfs n0 any_oid) (Guar lfs n0 any_oid) (Inv H lfs n0) (fun _ _ _ _ => True)
    (rely_refl H lfs n0 any_oid) (rely_trans H lfs n0 any_oid) (guar_rely H lfs n0 any_oid)
    (take (k - K) (drop K cs)) (sys_run (take K cs) y0) HK) as [[Hk' _] Hm]. rewrite <- Ek in Hk', Hm.
  pose proof Hf as (j & x & Hj & Hx & Hd). rewrite object_path_eq in Hj.
  destruct (moved_objects H lfs n0 any_oid _ _ o Hm Ho) as [j' Hj']; [by exists j|].
  destruct (inv_obj _ _ _ _ Hk' o j' Ho Hj') as (x' & Hx' & E & _).
  exists (i_data x'). split; [exists j', x'; by rewrite object_path_eq|].
  destruct (decide (i_data x' = d)) as [?|Hne]; [by left|right]. split; [done|].
  destruct HK as [HK _]. destruct (inv_obj _ _ _ _ HK o j Ho Hj) as (x2 & Hx2 & E2 & _).
  assert (x2 = x) as -> by congruence. apply hex_encode_inj. rewrite E, <- E2. by subst d.
Qed.

Lemma stays_now K k M i inp out o d : (K <= k)%nat -> is_oid o -> has_file (state K) (object_path lfs o) d ->
  now lfs y0 cs i k M inp out -> exists d', M !! o = Some d' /\ same_object H d d'.
Proof using HH Hlfs Hps Hs0 Hst.
  intros Hk Ho Hf (_ & HM & _). destruct (stays_stored K k o d Hk Ho Hf) as (d' & Hd' & Hs). exists d'. split; [|done]. by apply HM.
Qed.

End facts.

(** The input only shrinks. *)
Lemma in_shrinks pid e o l s : (length (l_in (handle_ev pid e o l s).1.2) <= length (l_in l))%nat.
Proof.
  destruct e; unfold handle_ev, faulty; try (destruct (o_fault o)); simpl; try lia.
  unfold do_read. destruct (n <=? lenN (l_in l))%N; simpl; [rewrite drop_length|]; lia.
Qed.

Lemma step_in {A} (y : sys A) c j p p' : procs y !! j = Some p -> procs (sys_step y c) !! j = Some p' ->
  (length (l_in (pr_local p')) <= length (l_in (pr_local p)))%nat.
Proof.
  intros Hp Hp'. unfold sys_step in Hp'. destruct (procs y !! c_pid c) as [q|] eqn:Eq;
    [|by rewrite Hp in Hp'; injection Hp' as ->].
  destruct (proc_step (c_pid c) (c_act c) q (shared y)) as [q' s'] eqn:Es. cbn [procs] in Hp'.
  apply list_lookup_insert_Some in Hp' as [(E & E2 & _)|[_ E]]; [|rewrite Hp in E; by injection E as ->]. subst p'.
  assert (p = q) as -> by congruence. clear -Es.
  unfold proc_step in Es. destruct (pr_dead q); [by injection Es as <- _|]. destruct (c_act c) as [o|]; [|by injection Es as <- _].
  destruct (pr_prog q) as [a|f|e k] eqn:Ep; [by injection Es as <- _..|].
  pose proof (in_shrinks (c_pid c) e o (pr_local q) (shared y)) as G.
  destruct (handle_ev (c_pid c) e o (pr_local q) (shared y)) as [[r l'] s2]. by injection Es as <- _.
Qed.

Lemma step_procs {A} (y : sys A) c j p : procs y !! j = Some p -> is_Some (procs (sys_step y c) !! j).
Proof.
  intros Hp. unfold sys_step. destruct (procs y !! c_pid c) as [q|] eqn:Eq; [|by exists p].
  destruct (proc_step (c_pid c) (c_act c) q (shared y)) as [q' s'] eqn:Es. cbn [procs].
  apply lookup_lt_is_Some. rewrite insert_length. by eapply lookup_lt_Some.
Qed.

Lemma run_in {A} cs : forall (y : sys A) j p p', procs y !! j = Some p -> procs (sys_run cs y) !! j = Some p' ->
  (length (l_in (pr_local p')) <= length (l_in (pr_local p)))%nat.
Proof.
  induction cs as [|c cs IH]; intros y j p p' Hp Hp'.
  - unfold sys_run in Hp'. simpl in Hp'. rewrite Hp in Hp'. by injection Hp' as ->.
  - destruct (step_procs y c j p Hp) as [q Hq]. change (sys_run (c :: cs) y) with (sys_run cs (sys_step y c)) in Hp'.
    pose proof (step_in y c j p q Hp Hq). pose proof (IH _ _ _ _ Hq Hp'). lia.
Qed.

(** ** One server's upload, another server's requests *)
Section across.
Context (lfs : path) (ps : list (proc (Z * bytes))) (s0 : fs) (cs : list choice).
Context (en : env) (m : mode).
Context (HH : digest (en_hash en)) (Hlfs : Forall plain_name lfs).
Context (Hps : Forall (fun p => is_server (en_hash en) lfs (pr_prog p)) ps).
Context (Hs0 : sane s0) (Hst : store_ok (en_hash en) lfs s0).
Local Notation y0 := (Sys ps s0).
Local Notation state k := (shared (sys_run (take k cs) y0)).

(** A right answer to a good upload: the object is there. *)
Lemma put_there i inp out k o kvs ds b a k' : well_formed m (RPut o kvs ds) ->
  (bs "size", b) ∈ kvs -> number b (lenN (concat ds)) -> hex_of (en_hash en (concat ds)) o ->
  right en m lfs y0 cs i inp out k (RPut o kvs ds) a k' ->
  exists k1, (k1 <= k')%nat /\ has_file (state k1) (object_path lfs o) (concat ds).
Proof using Type.
  intros Hw Hb Hn Hh Hr. inversion Hr as [k1 M M' r' a' _ H1 H2 H3 H4| |r' a' k2 G]; subst; [|by destruct (lock_right_about _ _ _ _ _ _ _ _ _ _ _ _ G)].
  destruct (same_answer en m (only M) _ _ _ _ _ Hw H3 (a_put en m 0 _ (only M) o kvs ds b Hb Hn Hh)) as [-> E].
  injection E as ->. destruct Hw as (_ & _ & Ho & _).
  destruct H4 as [E|H4].
  - exists k1. split; [lia|]. destruct H2 as (_ & HM & _). eapply (HM o). rewrite <- E. apply lookup_insert.
  - exists (S k1). split; [done|]. destruct H4 as (_ & HM & _). eapply (HM o). apply lookup_insert.
Qed.

(** Lines of a batch after the object is there. *)
Lemma seen_it j inp out k k0 o d os ns ls k' : (forall k1 M, now lfs y0 cs j k1 M inp out -> (k0 <= k1)%nat) -> is_oid o -> has_file (state k0) (object_path lfs o) d ->
  seen m lfs y0 cs j inp out k os ns ls k' -> forall q, os !! q = Some o ->
  exists d', same_object (en_hash en) d d' /\
    ls !! q = Some (o ++ [SP] ++ dec (lenN d') ++ [SP] ++ match m with Upload => bs "noop" | Download => bs "download" end ++ [NL]).
Proof using HH Hlfs Hps Hs0 Hst.
  intros Hk Ho Hf Hs. induction Hs as [|k k1 k2 M o1 n os ns ls H1 H2 H3 IH]; intros q Hq; [done|].
  destruct q as [|q]; [|simpl in *; by apply IH].
  simpl in Hq. injection Hq as ->.
  destruct (stays_now (en_hash en) lfs ps s0 cs HH Hlfs Hps Hs0 Hst k0 k1 M j inp out o d (Hk _ _ H2) Ho Hf H2) as (d' & Hd' & Hsame).
  exists d'. split; [done|]. cbn [lookup list_lookup]. unfold batch_line_for. cbn [only w_objs]. by rewrite Hd'.
Qed.

(** A request that is answered after the object is there. *)
Lemma knows_it j inp out k r a k' k0 o d : well_formed m r -> (forall k1 M, now lfs y0 cs j k1 M inp out -> (k0 <= k1)%nat) -> is_oid o -> has_file (state k0) (object_path lfs o) d ->
  right en m lfs y0 cs j inp out k r a k' -> knows en m o d r a.
Proof using HH Hlfs Hps Hs0 Hst.
  intros Hw Hk Ho Hf Hr. destruct Hr as [k1 M M' r' a' _ H1 H2 H3 H4|kvs items ns h ls k2 H1 H2 H3 H4|r' a' k2 G];
    [| |apply lock_right_about in G; by destruct r'; try done; destruct (G I)].
  - destruct (stays_now (en_hash en) lfs ps s0 cs HH Hlfs Hps Hs0 Hst k0 k1 M j inp out o d (Hk _ _ H2) Ho Hf H2) as (d' & Hd' & Hs).
    destruct r' as [|kvs items|o' kvs ds|o' kvs|o' kvs|kvs|kvs|id kvs]; unfold knows; try done.
    + intros ls -> q b Hq. inversion H3 as [|kvs' items' ns h E1 E2 E3 |  |  |  |  |  |  |  |  |  |  |  |  |  |  |  |  |  |  |  |  |  |  |  |  |  |  | ]; subst.
      exists d'. split; [done|]. destruct (Forall2_lookup_l _ _ _ _ _ E3 Hq) as (n & Hn & _).
      rewrite lookup_zip_with, list_lookup_fmap, Hq. cbn [fmap option_fmap option_map fst mbind option_bind]. rewrite Hn. cbn [mbind option_bind].
      unfold batch_line_for. cbn [only w_objs]. by rewrite Hd'.
    + intros -> b n Hb Hn. exists d'. split; [done|].
      destruct (n =? lenN d')%N eqn:En.
      * apply N.eqb_eq in En as ->. by destruct (same_answer en m (only M) _ _ _ _ _ Hw H3 (a_verify_ok en m 0 _ (only M) o kvs b d' Ho Hb Hd' Hn)).
      * apply N.eqb_neq in En. by destruct (same_answer en m (only M) _ _ _ _ _ Hw H3 (a_verify_size en m 0 _ (only M) o kvs b n d' Ho Hb Hd' Hn En)).
    + intros ->. exists d'. split; [done|].
      by destruct (same_answer en m (only M) _ _ _ _ _ Hw H3 (a_get en m 0 _ (only M) o kvs d' Ho Hd')).
  - intros ls' E q b Hq. injection E as <-. eapply seen_it; [exact Hk|done|done|exact H4|]. by rewrite list_lookup_fmap, Hq.
Qed.

(** A request not read at moment [K] is answered after it. *)
Lemma unread_after j inp inp0 out r K n reqs wn : unread y0 cs j inp0 reqs K n ->
  reqs !! n = Some r -> wires (concat (map packets_of (take (S n) reqs))) wn -> inp0 = wn ++ inp ->
  forall k1 M, now lfs y0 cs j k1 M inp out -> (K <= k1)%nat.
Proof using Type.
  intros (p & w & Hp & Hw & Hlen) Hn Hwn ->.
  assert (Hlt : (length inp < length (l_in (pr_local p)))%nat).
  { rewrite (take_S_r _ _ _ Hn), map_app, concat_app in Hwn. cbn [map concat] in Hwn. rewrite app_nil_r in Hwn.
    apply wires_inv in Hwn as [-> _], Hw as [-> _]. rewrite enc_all_app, !app_length in Hlen.
    assert (0 < length (enc_all (packets_of r)))%nat; [|lia].
    assert (Ecc : forall p q, enc_all (p :: q) = enc p ++ enc_all q) by done.
    assert (Hpos : forall x, (0 < length (enc (PData x)))%nat).
    { intros x. simpl. unfold hex04, pad0. rewrite !app_length, replicate_length. simpl. lia. }
    destruct r; cbn [packets_of]; rewrite Ecc, app_length; match goal with |- (0 < length (enc (PData ?x)) + _)%nat => specialize (Hpos x) end; lia. }
  intros k1 M (_ & _ & p1 & Hp1 & E & _). destruct (decide (K <= k1)%nat) as [?|Hk]; [done|].
  rewrite (run_take y0 cs k1 K ltac:(lia)) in Hp. pose proof (run_in _ _ _ _ _ Hp1 Hp). rewrite E in *. lia.
Qed.
End across.

(** A good upload answered by moment [K] is stored from then on. *)
Lemma upload_stays lfs ps s0 en fuel cfg cs i l dead reqs extra K q n o kvs ds b :
  digest (en_hash en) -> Forall plain_name lfs -> ordinary lfs s0 -> store_ok (en_hash en) lfs s0 ->
  Forall (fun p => is_server (en_hash en) lfs (pr_prog p)) ps ->
  ps !! i = Some (Proc (transfer_main en fuel lfs cfg (operation Upload)) l dead) -> readable cfg ->
  (forall c, Choice i (AGo c) ∈ take K cs -> o_fault c = None /\ Byte.x00 ∉ o_sfx c) ->
  asks Upload l reqs extra -> l_out l = [] -> (2 * length (l_in l) + 2 <= fuel)%nat ->
  procs (sys_run (take K cs) (Sys ps s0)) !! i = Some q -> answered (l_out (pr_local q)) (S n) ->
  reqs !! n = Some (RPut o kvs ds) ->
  (bs "size", b) ∈ kvs -> number b (lenN (concat ds)) -> hex_of (en_hash en (concat ds)) o ->
  is_oid o /\ exists k0, (k0 <= K)%nat /\ has_file (shared (sys_run (take k0 cs) (Sys ps s0))) (object_path lfs o) (concat ds).
Proof.
  intros HH Hlfs Hs0 Hst Hps Hi Hcfg Hc Hasks Hout Hfuel Hq Hans Hn Hb Hnum Hh.
  destruct (c74 en Upload lfs fuel cfg ps s0 (take K cs) i l dead reqs extra HH Hlfs Hs0 Hst Hps Hi Hcfg Hc Hasks Hout Hfuel)
    as (q' & Hq' & Hsf & _). assert (q' = q) as -> by congruence.
  destruct Hasks as [Hwf _]. pose proof (Forall_lookup_1 _ _ _ _ Hwf Hn) as Hr.
  split; [by destruct Hr as (_ & _ & ? & _)|].
  destruct (answered_told en Upload lfs (Sys ps s0) (take K cs) i _ _ _ _ (S n) _ _ Hsf Hans) as (caps & asked & later & as_ & k & inp & w & Ht & E & Hk & Hle).
  { apply lookup_lt_Some in Hn. lia. }
  assert (Hn' : asked !! n = Some (RPut o kvs ds)) by (rewrite E, lookup_app_l in Hn by lia; done).
  destruct (told_at en Upload lfs (Sys ps s0) (take K cs) i _ _ _ _ _ _ _ n _ Ht Hn') as (a & k1 & k2 & inp1 & out1 & wn & _ & Hright & Hk2 & _).
  destruct (put_there lfs ps s0 (take K cs) en Upload i inp1 out1 k1 o kvs ds b a k2 Hr Hb Hnum Hh Hright) as (k3 & Hk3 & Hf).
  rewrite take_take in Hf. exists (k3 `min` K). split; [lia|done].
Qed.

(** ** Going on to the end *)
Section ends.
Context (f : nat -> choice) (i : nat).
Context (Hlive : forall n, f n <> Choice i ACrash).
Context (Hagain : forall n, exists n' o, (n <= n')%nat /\ f n' = Choice i (AGo o)).

Lemma first_S n : first (S n) f = first n f ++ [f n].
Proof using Type. unfold first. rewrite seq_S, map_app. done. Qed.

Lemma other_step {A} (y : sys A) c : c_pid c <> i -> procs (sys_step y c) !! i = procs y !! i.
Proof using Type.
  intros Hne. unfold sys_step. destruct (procs y !! c_pid c) as [p|]; [|done].
  destruct (proc_step (c_pid c) (c_act c) p (shared y)) as [p' s']. cbn [procs]. by rewrite list_lookup_insert_ne.
Qed.

Lemma next_turn {A} (y0 : sys A) n p : procs (sys_run (first n f) y0) !! i = Some p ->
  exists n' o, f n' = Choice i (AGo o) /\ procs (sys_run (first n' f) y0) !! i = Some p.
Proof using Hagain Hlive.
  intros Hp. destruct (Hagain n) as (n' & o & Hle & Hn'). remember (n' - n)%nat as d eqn:Ed.
  revert n Hp Hle Ed. induction d as [|d IH]; intros n Hp Hle Ed.
  - assert (n = n') as -> by lia. by exists n', o.
  - destruct (decide (c_pid (f n) = i)) as [E|Hne].
    + destruct (f n) as [j [o'|]] eqn:Ef; cbn [c_pid] in E; subst j; [by exists n, o'|]. by destruct (Hlive n).
    + apply (IH (S n)); [|lia|lia]. rewrite first_S. unfold sys_run. rewrite fold_left_app. cbn [fold_left].
      by rewrite other_step.
Qed.

Lemma comes_to_end {A} (y0 : sys A) (p : prog A) : forall n l, procs (sys_run (first n f) y0) !! i = Some (Proc p l false) ->
  exists n' p' l', procs (sys_run (first n' f) y0) !! i = Some (Proc p' l' false) /\ match p' with Vis _ _ => False | _ => True end.
Proof using Hagain Hlive.
  induction p as [a|x|e k IH]; intros n l Hp.
  - by exists n, (Ret a), l.
  - by exists n, (Fail x), l.
  - destruct (next_turn y0 n _ Hp) as (n1 & o & Hf & Hp1).
    destruct (handle_ev i e o l (shared (sys_run (first n1 f) y0))) as [[r l'] s'] eqn:Eh.
    apply (IH r (S n1) l'). rewrite first_S. unfold sys_run in *. rewrite fold_left_app. cbn [fold_left].
    set (y := fold_left sys_step (first n1 f) y0) in *. rewrite Hf. unfold sys_step. cbn [c_pid c_act]. rewrite Hp1. cbn [proc_step pr_dead pr_prog pr_local].
    rewrite Eh. cbn [procs]. apply list_lookup_insert. by eapply lookup_lt_Some.
Qed.
End ends.
