(** Proofs for Props_Push.v. *)
From Verif Require Import Bytes Err FS Prog Pktline Args Local Processor Transfer Spec SpecStore SpecServer SpecTogether SpecPush
  PktFacts PktProofs IoFacts TextProofs GetProofs ObjProofs StoreProofs SeqIo SeqCmd Session SessionFacts TogetherProofs TogetherFacts.

Lemma answered_le out n n' : (n' <= n)%nat -> answered out n -> answered out n'.
Proof. intros Hle (ps & w & H1 & H2 & H3). exists ps, w. split_and!; [done..|lia]. Qed.

(** All requests are answered: all are among those told of. *)
Lemma all_answered en m lfs y0 cs i inp0 reqs extra out N all :
  so_far en m lfs y0 cs i inp0 reqs extra out N all -> answered out (length reqs) -> (N <= length cs)%nat ->
  so_far_such en m lfs y0 cs i inp0 reqs extra out (fun asked as_ => asked = reqs /\
    exists caps k inp w, told en m lfs y0 cs i inp0 caps reqs as_ k inp w /\ (k <= N)%nat).
Proof.
  intros (caps & asked & later & as_ & k & inp & w & ps & we & H1 & H2 & H3 & H4 & H5 & H6 & H7 & _) (qs & wq & G1 & G2 & G3) HN.
  assert (later = []) as ->.
  { destruct H5 as [->|[-> _]]; [|done].
    inversion H6; subst. rewrite app_nil_r in H7. destruct (told_out _ _ _ _ _ _ _ _ _ _ _ _ _ _ H1 H3) as (ps & Hw & Hl).
    apply wires_inv in Hw as [-> Hw], G1 as [-> G1].
    assert (enc_all qs `prefix_of` enc_all (capabilities ++ ps)) as [z Hz] by (by etrans).
    symmetry in Hz. destruct (enc_prefix _ _ _ G1 Hw Hz) as [rs E]. unfold capabilities in E.
    assert (ends (capabilities ++ ps) = S (length asked)) as E' by (by rewrite ends_app, Hl).
    unfold capabilities in E'. rewrite E, ends_app in E'. unfold ends in E' at 1. rewrite app_length in G3.
    apply nil_length_inv. lia. }
  rewrite app_nil_r in H2. subst asked.
  exists caps, reqs, [], as_, k, inp, w, ps, we. split_and!; try done.
  - by rewrite app_nil_r.
  - lia.
  - by exists caps, k, inp, w.
Qed.

Section push.
Context (en : env) (fuel : nat) (lfs : path) (ps : list (proc (Z * bytes))) (s0 : fs) (cs : list choice).
Context (i : nat) (l : local) (reqs : list request) (extra : list reply) (K : nat) (q : proc (Z * bytes)).
Context (Hs : servers (en_hash en) lfs ps s0) (Hc : asker en fuel Upload lfs ps (take K cs) i l reqs extra).
Context (Hq : procs (sys_run (take K cs) (Sys ps s0)) !! i = Some q) (Ha : answered (l_out (pr_local q)) (length reqs)).
Local Notation state k := (shared (sys_run (take k cs) (Sys ps s0))).

Lemma c102_push : so_far_such en Upload lfs (Sys ps s0) (take K cs) i (l_in l) reqs extra (l_out (pr_local q)) (fun asked as_ =>
  asked = reqs /\ served (en_hash en) reqs as_ /\
  (obeys (en_hash en) reqs as_ -> forall n kvs items o b k, reqs !! n = Some (RBatch kvs items) -> fair_batch kvs ->
    (o, b) ∈ items -> (K <= k)%nat -> exists d, has_file (state k) (object_path lfs o) d /\ hex_of (en_hash en d) o)).
Proof using Hs Hc Hq Ha.
  destruct Hs as [H1 H2 H3 H4 H5]. pose proof Hc as [(cfg & dead & G1 & G2 & G3) G4 G6 G7].
  destruct (c74 en Upload lfs fuel cfg ps s0 (take K cs) i l dead reqs extra H1 H2 H3 H4 H5 G1 G2 G7 G4 G6 G3) as (q' & Hq' & Hsf & _).
  assert (q' = q) as -> by congruence.
  apply all_answered in Hsf; [|done|done].
  destruct Hsf as (caps & asked & later & as_ & k0 & inp & w & ps' & we & F1 & F2 & F3 & F4 & F5 & F6 & F7 & -> & caps' & k1 & inp' & w' & Ht & Hk1).
  exists caps, reqs, later, as_, k0, inp, w, ps', we. do 8 (split; [done|]).
  pose proof G4 as [Hwf _].
  assert (Hat : forall n r, reqs !! n = Some r -> exists a k1 k2 inp1 out1, as_ !! n = Some a /\ well_formed Upload r /\
    right en Upload lfs (Sys ps s0) (take K cs) i inp1 out1 k1 r a k2).
  { intros n r Hr. destruct (told_at en Upload lfs (Sys ps s0) (take K cs) i _ _ _ _ _ _ _ n r Ht Hr) as (a & x1 & x2 & inp1 & out1 & wn & E1 & E2 & _).
    exists a, x1, x2, inp1, out1. split_and!; [done|by eapply Forall_lookup_1|done]. }
  assert (Hbat : forall n kvs items, reqs !! n = Some (RBatch kvs items) -> fair_batch kvs ->
    exists ls ks inp1 out1, as_ !! n = Some (Reply 200 [] (BLines ls)) /\ length ls = length items /\ length ks = length items /\
      forall a o b k line, items !! a = Some (o, b) -> ks !! a = Some k -> ls !! a = Some line ->
      exists M n, number b n /\ now lfs (Sys ps s0) (take K cs) i k M inp1 out1 /\ line = batch_line_for Upload (only M) o n).
  { intros n kvs items Hn (h & Hh & Hsha). destruct (Hat _ _ Hn) as (a & x1 & x2 & inp1 & out1 & E1 & E2 & E3).
    destruct (right_batch_moments en Upload lfs (Sys ps s0) (take K cs) i inp1 out1 x1 kvs items h a x2 E2 Hh Hsha E3) as (ls & ks & -> & E4 & E5 & _ & E6).
    by exists ls, ks, inp1, out1. }
  split.
  - split_and!.
    + pose proof (told_length en Upload lfs (Sys ps s0) (take K cs) i _ _ _ _ _ _ _ Ht) as Hlen. lia.
    + intros n kvs items Hn Hf. destruct (Hbat _ _ _ Hn Hf) as (ls & ks & inp1 & out1 & E1 & E2 & E3 & E4).
      exists ls. split; [done|]. apply Forall2_same_length_lookup_2; [done|].
      intros a [o b] line Hi Hl. destruct (lookup_lt_is_Some_2 ks a) as [k Hk]; [apply lookup_lt_Some in Hi; lia|].
      destruct (E4 a o b k line Hi Hk Hl) as (M & z & _ & _ & ->). unfold batch_line_for. cbn [fst].
      destruct (w_objs (only M) !! o) as [d|]; [left; by exists (lenN d)|right; by exists z].
    + intros n o r Hr (kvs & ds & b & -> & Hb & Hnum & Hh). destruct (Hat _ _ Hr) as (a & x1 & x2 & inp1 & out1 & E1 & E2 & E3).
      rewrite E1. f_equal. inversion E3 as [k2 M M' r' a' _ D1 D2 D3 D4| |r' a' k2 G]; subst;
        [|by destruct (lock_right_about _ _ _ _ _ _ _ _ _ _ _ _ G)].
      by destruct (same_answer en Upload (only M) _ _ _ _ _ E2 D3 (a_put en Upload 0 _ (only M) o kvs ds b Hb Hnum Hh)) as [-> _].
  - intros Ho n kvs items o b k Hn Hf Hin Hk. apply elem_of_list_lookup in Hin as [a Hi].
    destruct (Hbat _ _ _ Hn Hf) as (ls & ks & inp1 & out1 & E1 & E2 & E3 & E4).
    destruct (lookup_lt_is_Some_2 ks a) as [k2 Hk2]; [apply lookup_lt_Some in Hi; lia|].
    destruct (lookup_lt_is_Some_2 ls a) as [line Hl]; [apply lookup_lt_Some in Hi; lia|].
    destruct (E4 a o b k2 line Hi Hk2 Hl) as (M & z & _ & Hnow & Eline).
    assert (Hwb : well_formed Upload (RBatch kvs items)) by by eapply Forall_lookup_1.
    assert (Hoid : is_oid o).
    { destruct Hwb as [_ Hwb]. apply (Forall_lookup_1 _ _ _ _ Hwb) in Hi. by destruct Hi. }
    assert (exists k3 d, (k3 <= K)%nat /\ has_file (state k3) (object_path lfs o) d) as (k3 & d & Hk3 & Hd).
    { unfold batch_line_for in Eline. destruct (w_objs (only M) !! o) as [d|] eqn:EM.
      - destruct Hnow as (Hle & HM & _). cbn [only w_objs] in EM. apply HM in EM as [_ EM]. rewrite take_take in EM.
        exists (k2 `min` K)%nat, d. split; [lia|done].
      - destruct (Ho n kvs items ls a o b line Hn E1 Hi Hl) as (n' & r & _ & Hr & kvs' & ds & b' & -> & Hb' & Hnum & Hh); [by exists z|].
        destruct (upload_stays lfs ps s0 en fuel cfg cs i l dead reqs extra K q n' o kvs' ds b' H1 H2 H3 H4 H5 G1 G2 G7 G4 G6 G3 Hq) as (_ & k3 & Hk3 & Hd);
          [|done..|by exists k3, (concat ds)].
        eapply answered_le; [|exact Ha]. apply lookup_lt_Some in Hr. lia. }
    destruct (stays_stored (en_hash en) lfs ps s0 cs H1 H2 H5 (o_sane _ _ H3) H4 k3 k o d) as (d' & Hd' & _); [lia|done|done|].
    exists d'. split; [done|]. exact (c17 (en_hash en) lfs (take k cs) ps s0 H1 H2 H5 (o_sane _ _ H3) H4 o d' Hoid Hd').
Qed.
End push.

Lemma c102_fetch en fuel lfs ps s0 cs K o d m j l reqs extra q :
  servers (en_hash en) lfs ps s0 -> is_oid o -> has_file (shared (sys_run (take K cs) (Sys ps s0))) (object_path lfs o) d ->
  asker en fuel m lfs ps cs j l reqs extra -> procs (sys_run cs (Sys ps s0)) !! j = Some q ->
  so_far_such en m lfs (Sys ps s0) cs j (l_in l) reqs extra (l_out (pr_local q)) (fun asked as_ =>
    forall n r a, asked !! n = Some r -> as_ !! n = Some a -> unread (Sys ps s0) cs j (l_in l) reqs K n -> knows en m o d r a).
Proof.
  intros [H1 H2 H3 H4 H5] Ho Hf Hc Hq. pose proof Hc as [(cfg & dead & G1 & G2 & G3) G4 G6 G7].
  destruct (c74 en m lfs fuel cfg ps s0 cs j l dead reqs extra H1 H2 H3 H4 H5 G1 G2 G7 G4 G6 G3) as (q2 & Hq2 & Hsf & _).
  assert (q2 = q) as -> by congruence.
  destruct Hsf as (caps & asked & later & as_ & k & inp & w & more & we & F1 & F2 & F3 & F4 & F5 & F6 & F7 & _).
  exists caps, asked, later, as_, k, inp, w, more, we. split_and!; [done..|].
  intros n r a Hr Ha Hun.
  destruct (told_at en m lfs (Sys ps s0) cs j _ _ _ _ _ _ _ n r F3 Hr) as (a2 & k1 & k2 & inp1 & out1 & wn & Ha2 & Hright & Hk2 & Hwn & Hinp).
  assert (a2 = a) as -> by congruence. subst reqs.
  assert (Hr' : (asked ++ later) !! n = Some r) by by apply lookup_app_l_Some.
  destruct G4 as [Hwf _]. pose proof (Forall_lookup_1 _ _ _ _ Hwf Hr') as Hw.
  eapply (knows_it lfs ps s0 cs en m H1 H2 H5 (o_sane _ _ H3) H4 j inp1 out1 k1 r a k2 K o d Hw); [|done|done|done].
  intros k3 M HM. eapply (unread_after lfs ps s0 cs j inp1 (l_in l) out1 r K n (asked ++ later) wn Hun Hr'); [|done|exact HM].
  rewrite take_app_le; [done|]. apply lookup_lt_Some in Hr. lia.
Qed.
