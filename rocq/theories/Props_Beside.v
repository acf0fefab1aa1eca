(** Properties of a server's answers about locks while other servers work on the same
    repository. *)
From Verif Require Import Bytes Err FS Prog Pktline Args Local Processor Transfer Sha256 Rfc3339
  Spec SpecStore SpecServer SpecSecret SpecLock SpecTogether PktFacts PktProofs IoFacts TextProofs GetProofs ObjProofs StoreProofs SeqIo SeqCmd
  TogetherProofs TogetherFacts SpecBeside BesideFacts Transcripts Props_Store Props_Server Props_Lock Props_Together.

(** ** Values for the examples *)
Definition two_users : env := Env sha256 rfc3339 (fun u => Some (if (u =? 1001)%N then bs "bob" else bs "alice")) 1000.
Definition served (m : mode) (u : N) (reqs : list request) : proc (Z * bytes) :=
  Proc (transfer_main two_users 1000 lfs_dir no_config (operation m)) (Local (l_in (input_of reqs)) [] 18 u) false.
Definition list_a : request := RList [(bs "path", bs "a")].
(** One server lists the lock on "a".  Alice locks and unlocks "a", then Bob locks it. *)
Definition alice_and_bob : list (proc (Z * bytes)) :=
  [served Upload 1000 [list_a]; served Upload 1000 [lock_a; RUnlock (id_of (bs "a")) []]; served Upload 1001 [lock_a]].
Definition at_one : choice := Choice 2 (AGo (Orc None 0 (bs "AAAAAAAAAAAA") 60)).
Definition swapped : list choice := goes 1 30 ++ goes 0 16 ++ goes 1 60 ++ replicate 50 at_one ++ goes 0 30.

Lemma served_servers ps : Forall (fun p => exists m u reqs, p = served m u reqs) ps -> servers sha256 lfs_dir ps fs0.
Proof.
  intros H. split.
  - exact sha256_ok.
  - repeat constructor; try done; by (refine (bool_decide_eq_true_1 _ _); vm_compute).
  - exact fs0_ordinary.
  - apply fs0_ok.
  - eapply Forall_impl; [exact H|]. intros p (m & u & reqs & ->). by eexists two_users, 1000%nat, no_config, _.
Qed.
Lemma served_asker ps m cs i u reqs : ps !! i = Some (served m u reqs) ->
  forallb (wf_b m) reqs = true -> forallb (fun p => lenN (payload p) <=? 65531)%N (concat (map packets_of reqs)) = true ->
  (2 * lenN (l_in (input_of reqs)) + 2 <=? 1000)%N = true ->
  Forall (fun c => exists t, c_act c = AGo (Orc None 0 (bs "AAAAAAAAAAAA") t)) cs ->
  asker two_users 1000 m lfs_dir ps cs i (Local (l_in (input_of reqs)) [] 18 u) reqs [].
Proof.
  intros Hi H1 H2 H3 H5. split; [|by apply asks_of|done|].
  - exists no_config, false. split_and!; [done| |].
    + eexists. split; [done|]. by intros e [= <-].
    + apply N.leb_le in H3. unfold lenN in H3. cbn [l_in] in *. lia.
  - intros o Ho. rewrite Forall_forall in H5. apply H5 in Ho as [t [= ->]]. split; [done|]. by (refine (bool_decide_eq_true_1 _ _); vm_compute).
Qed.
Lemma swapped_calls : Forall (fun c => exists t, c_act c = AGo (Orc None 0 (bs "AAAAAAAAAAAA") t)) swapped.
Proof. unfold swapped, goes. repeat (apply Forall_app; split); apply Forall_replicate; by eexists. Qed.

(** ** C74 *)

(** The theorem is in Props_Together.v.  Here server 0 asks for the lock on "a" while
    Alice and Bob are at work. *)
Example C74_case :
  servers sha256 lfs_dir alice_and_bob fs0 /\
  asker two_users 1000 Upload lfs_dir alice_and_bob swapped 0 (Local (l_in (input_of [list_a])) [] 18 1000) [list_a] [] /\
  out_of (sys_run swapped (Sys alice_and_bob fs0)) 0 = Some (bs "000eversion=1
0000000fstatus 200
0001004alock c9eac6694eb5c5074c7ded2bd29424e7d2d4e4f1a45b15ba44bdeeeb272fdf5d
004cpath c9eac6694eb5c5074c7ded2bd29424e7d2d4e4f1a45b15ba44bdeeeb272fdf5d a
0069locked-at c9eac6694eb5c5074c7ded2bd29424e7d2d4e4f1a45b15ba44bdeeeb272fdf5d 1970-01-01T00:00:00+00:00
0053ownername c9eac6694eb5c5074c7ded2bd29424e7d2d4e4f1a45b15ba44bdeeeb272fdf5d bob
0052owner c9eac6694eb5c5074c7ded2bd29424e7d2d4e4f1a45b15ba44bdeeeb272fdf5d theirs
0000").
Proof.
  split_and!.
  - apply served_servers. repeat constructor; by eexists _, _, _.
  - apply served_asker; [done|by vm_compute..|exact swapped_calls].
  - by vm_compute.
Qed.

(** The answers of the other two. *)
Example C74_others :
  asker two_users 1000 Upload lfs_dir alice_and_bob swapped 2 (Local (l_in (input_of [lock_a])) [] 18 1001) [lock_a] [] /\
  out_of (sys_run swapped (Sys alice_and_bob fs0)) 2 = Some (bs "000eversion=1
0000000fstatus 201
0048id=c9eac6694eb5c5074c7ded2bd29424e7d2d4e4f1a45b15ba44bdeeeb272fdf5d
000bpath=a
0028locked-at=1970-01-01T00:01:00+00:00
0012ownername=bob
0000").
Proof.
  split.
  - apply served_asker; [done|by vm_compute..|exact swapped_calls].
  - by vm_compute.
Qed.

(** ** C75 *)

(** What a server tells about a lock need not have been so at any moment: here the
    time is that of Alice's lock and the owner that of Bob's. *)
Theorem C75_lock_snapshot_refuted : exists en fuel m lfs ps s0 cs i l kvs p x who q w caps ans,
  servers (en_hash en) lfs ps s0 /\ asker en fuel m lfs ps cs i l [RList kvs] [] /\ (bs "path", p) ∈ kvs /\
  procs (sys_run cs (Sys ps s0)) !! i = Some q /\ pr_prog q = Ret (0%Z, []) /\
  wires [PData (bs "version=1" ++ [NL]); PFlush] caps /\
  reply_sent (Reply 200 [] (BLines (lines_of en m p x who))) ans /\ wires ans w /\ l_out (pr_local q) = caps ++ w /\
  forall k s j d t, s = shared (sys_run (take k cs) (Sys ps s0)) ->
    nodes s !! lock_path lfs (lock_id (en_hash en) p) = Some (NFile j) -> holds_text s j d -> record_text d t p ->
    en_time en t = Some x -> ~ whose en s (lock_path lfs (lock_id (en_hash en) p)) who.
Proof.
  set (x := bs "1970-01-01T00:00:00+00:00"). set (p := bs "a"). set (who := bs "bob").
  set (ls := lines_of two_users Upload p x who).
  set (ans := [PData (bs "status 200" ++ [NL]); PDelim] ++ map PData ls ++ [PFlush]).
  exists two_users, 1000%nat, Upload, lfs_dir, alice_and_bob, fs0, swapped, 0%nat, (Local (l_in (input_of [list_a])) [] 18 1000), [(bs "path", p)], p, x, who.
  destruct (procs (sys_run swapped (Sys alice_and_bob fs0)) !! 0%nat) as [q|] eqn:Eq; [|by vm_compute in Eq].
  exists q, (enc_all ans), (enc_all [PData (bs "version=1" ++ [NL]); PFlush]), ans.
  split_and!.
  - apply served_servers. repeat constructor; by eexists _, _, _.
  - apply served_asker; [done|by vm_compute..|exact swapped_calls].
  - by left.
  - reflexivity.
  - vm_compute in Eq. injection Eq as <-. reflexivity.
  - apply wires_enc. repeat constructor; by vm_compute.
  - exists (bs "200"), [], (PDelim :: map PData ls). split_and!; [apply (denotes_dec 200)|done|constructor| |done].
    exists (map PData ls). split; [done|].
    assert (G : forall y ys zs, (1 <=? lenN y)%N = true -> (lenN y <=? 65516)%N = true -> lines_sent ys zs -> lines_sent (y :: ys) (PData y :: zs)).
    { intros y ys zs H1 H2 H3. apply N.leb_le in H1, H2. apply (ls_cons y ys [PData y] zs); [|done].
      exists [y]. split_and!; [done|by rewrite concat_cons, app_nil_r|by repeat constructor|done]. }
    unfold ls, lines_of. cbn [app map]. repeat (apply G; [by vm_compute|by vm_compute|]). constructor.
  - apply wires_enc. repeat constructor; by vm_compute.
  - vm_compute in Eq. injection Eq as <-. by vm_compute.
  - intros k s j d t Es Hn Hd Hrec Ht Hwho.
    set (f := lock_path lfs_dir (lock_id (en_hash two_users) p)) in *.
    set (fine := fun s => match file_at s f with
      | Some (d, u) => (u =? 1000)%N || match lock_parse d with Some (t, _) => negb (bool_decide (rfc3339 t = Some x)) | None => true end
      | None => true end).
    assert (Hall : forallb (fun k => fine (shared (sys_run (take k swapped) (Sys alice_and_bob fs0)))) (seq 0 187) = true) by (vm_compute; reflexivity).
    assert (Hfine : fine s = true).
    { rewrite forallb_forall in Hall. subst s. destruct (decide (k < 187)%nat) as [Hk|Hk]; [apply Hall, in_seq; lia|].
      rewrite take_ge by (cbn; lia). rewrite <- (take_ge swapped 186) by (cbn; lia). apply Hall, in_seq. lia. }
    clear Hall Es. destruct Hd as (y & Hy & Ed). unfold fine, file_at in Hfine. rewrite Hn, Hy in Hfine. cbn [fmap option_fmap option_map] in Hfine.
    inversion Hwho as [j' y' Hn' Hy' Ewho|].
    assert (j' = j) as -> by congruence. assert (y' = y) as -> by congruence.
    subst d. apply lock_parse_iff in Hrec. rewrite Hrec in Hfine. change (en_time two_users t) with (rfc3339 t) in Ht. rewrite Ht in Hfine.
    rewrite bool_decide_eq_true_2, orb_false_r in Hfine by done. apply N.eqb_eq in Hfine.
    unfold user_name in Ewho. rewrite Hfine in Ewho. by vm_compute in Ewho.
Qed.
Print Assumptions C75_lock_snapshot_refuted.

(** What holds is C74_right_at_moments: the record was the text of the lock file, and
    then the owner was that of what had its name. *)

(** ** C76 *)

(** A server that is not killed and gets its turn again and again ends, whatever
    requests it is sent and whatever the others do: with success after all its
    answers, or giving up for one of the reasons listed. *)
Theorem C76_always_ends en fuel m lfs ps s0 f i l reqs extra :
  servers (en_hash en) lfs ps s0 -> (forall n, asker en fuel m lfs ps (first n f) i l reqs extra) ->
  (forall p, ps !! i = Some p -> pr_dead p = false) -> (forall n, f n <> Choice i ACrash) ->
  (forall n, exists n' o, (n <= n')%nat /\ f n' = Choice i (AGo o)) ->
  exists n q, procs (sys_run (first n f) (Sys ps s0)) !! i = Some q /\
    so_far en m lfs (Sys ps s0) (first n f) i (l_in l) reqs extra (l_out (pr_local q)) n (pr_prog q = Ret (0%Z, [])) /\
    (pr_prog q = Ret (0%Z, []) \/ exists why, pr_prog q = Fail why /\ gives_up en lfs (Sys ps s0) (first n f) i fuel reqs why).
Proof.
  intros Hs Hc Hd Hlive Hagain.
  destruct (as_program _ _ _ _ _ _ _ _ _ _ (Hc 0%nat)) as (cfg & dead & Hp & _).
  assert (dead = false) as -> by (by specialize (Hd _ Hp)).
  destruct (comes_to_end f i Hlive Hagain (Sys ps s0) (transfer_main en fuel lfs cfg (operation m)) 0 l Hp) as (n & p & l' & Hn & Hp').
  destruct (C74_right_at_moments en fuel m lfs ps s0 (first n f) i l reqs extra Hs (Hc n)) as (q & Hq & Hsf & Hr & Hf).
  rewrite Hn in Hq. injection Hq as <-. cbn [pr_prog pr_local] in *.
  assert (Hlen : length (first n f) = n) by (unfold first; by rewrite map_length, seq_length).
  rewrite Hlen in Hsf. exists n, (Proc p l' false). split_and!; [done|done|].
  destruct p as [x|x|e k]; [left; by rewrite (Hr x eq_refl)|right; exists x; split; [done|by apply Hf]|done].
Qed.
Print Assumptions C76_always_ends.

(** Three servers take turns for ever: Alice gets the lock, and Bob finds something in
    the way that is gone when looked for. *)
Example C76_case : let f := fun n => go (n `mod` 3)%nat in
  servers sha256 lfs_dir alice_and_bob fs0 /\
  (forall n, asker two_users 1000 Upload lfs_dir alice_and_bob (first n f) 2 (Local (l_in (input_of [lock_a])) [] 18 1001) [lock_a] []) /\
  (forall p, alice_and_bob !! 2%nat = Some p -> pr_dead p = false) /\ (forall n, f n <> Choice 2 ACrash) /\
  (forall n, exists n' o, (n <= n')%nat /\ f n' = Choice 2 (AGo o)) /\
  pr_prog <$> procs (sys_run (first 200 f) (Sys alice_and_bob fs0)) !! 2%nat = Some (Fail PUnreachable) /\
  pr_prog <$> procs (sys_run (first 200 f) (Sys alice_and_bob fs0)) !! 1%nat = Some (Ret (0%Z, [])).
Proof.
  intros f. split_and!.
  - apply served_servers. repeat constructor; by eexists _, _, _.
  - intros n. apply served_asker; [done|by vm_compute..|].
    apply Forall_forall. intros c Hc. unfold first in Hc. apply elem_of_list_fmap in Hc as (x & -> & _). by exists 0%Z.
  - by intros p [= <-].
  - done.
  - intros n. exists (2 + n * 3)%nat, quiet_orc. split; [lia|]. unfold f. by rewrite Nat.mod_add.
  - by vm_compute.
  - by vm_compute.
Qed.

(** ** C77 *)

(** Two grants of one path as the clients see it: if server [i] has written the answer
    that grants the lock by moment [K] and server [j] reads its request later and grants
    it too, then the lock was removed at a step after server [i] read its request. *)
Theorem C77_one_lock en fuel fuel' lfs ps s0 cs i l reqs extra q j l' reqs' extra' q' m m' K qK :
  servers (en_hash en) lfs ps s0 ->
  asker en fuel m lfs ps cs i l reqs extra -> procs (sys_run cs (Sys ps s0)) !! i = Some q ->
  asker en fuel' m' lfs ps cs j l' reqs' extra' -> procs (sys_run cs (Sys ps s0)) !! j = Some q' ->
  procs (sys_run (take K cs) (Sys ps s0)) !! i = Some qK ->
  so_far_such en m lfs (Sys ps s0) cs i (l_in l) reqs extra (l_out (pr_local q)) (fun asked as_ =>
    so_far_such en m' lfs (Sys ps s0) cs j (l_in l') reqs' extra' (l_out (pr_local q')) (fun asked' as_' =>
      forall n kvs p a n' kvs' a',
        asked !! n = Some (RLock kvs) -> as_ !! n = Some a -> (bs "path", p) ∈ kvs -> rp_code a = 201%N ->
        asked' !! n' = Some (RLock kvs') -> as_' !! n' = Some a' -> (bs "path", p) ∈ kvs' -> rp_code a' = 201%N ->
        answered (l_out (pr_local qK)) (S n) -> unread (Sys ps s0) cs j (l_in l') reqs' K n' ->
        exists k, (k < length cs)%nat /\ (forall k0, unread (Sys ps s0) cs i (l_in l) reqs k0 n -> (k0 <= k)%nat) /\
          is_Some (nodes (shared (sys_run (take k cs) (Sys ps s0))) !! lock_path lfs (lock_id (en_hash en) p)) /\
          nodes (shared (sys_run (take (S k) cs) (Sys ps s0))) !! lock_path lfs (lock_id (en_hash en) p) = None)).
Proof.
  intros Hs Hi Hq Hj Hq' HqK.
  destruct (C74_right_at_moments en fuel m lfs ps s0 cs i l reqs extra Hs Hi) as (q2 & Hq2 & Hsf & _). assert (q2 = q) as -> by congruence.
  destruct (C74_right_at_moments en fuel' m' lfs ps s0 cs j l' reqs' extra' Hs Hj) as (q3 & Hq3 & Hsf' & _). assert (q3 = q') as -> by congruence.
  destruct Hsf as (caps & asked & later & as_ & k & inp & w & more & we & F1 & F2 & F3 & F4 & F5 & F6 & F7 & _).
  exists caps, asked, later, as_, k, inp, w, more, we. split_and!; [done..|].
  destruct Hsf' as (caps' & asked' & later' & as_' & k' & inp' & w' & more' & we' & G1 & G2 & G3 & G4 & G5 & G6 & G7 & _).
  exists caps', asked', later', as_', k', inp', w', more', we'. split_and!; [done..|].
  intros n kvs p a n' kvs' a' Hn Ha Hp Hc Hn' Ha' Hp' Hc' Hans Hun. subst reqs reqs'.
  pose proof (lookup_app_l_Some _ later _ _ Hn) as Hr. pose proof (lookup_app_l_Some _ later' _ _ Hn') as Hr'.
  pose proof (as_asks _ _ _ _ _ _ _ _ _ _ Hi) as [Hwf _]. pose proof (Forall_lookup_1 _ _ _ _ Hwf Hr) as Hw.
  pose proof (as_asks _ _ _ _ _ _ _ _ _ _ Hj) as [Hwf' _]. pose proof (Forall_lookup_1 _ _ _ _ Hwf' Hr') as Hw'.
  destruct (told_split en m lfs _ cs i _ _ _ _ _ _ _ n _ a F3 Hn Ha) as (as1 & k1 & inp1 & out1 & wr & k2 & T1 & T2 & T3 & T4).
  destruct (told_at en m' lfs _ cs j _ _ _ _ _ _ _ n' _ G3 Hn') as (a2 & k1' & k2' & inp1' & out1' & wn' & Ha2 & Hright' & _ & Hwn' & Hinp').
  assert (a2 = a') as -> by congruence.
  destruct (granted _ _ _ _ _ _ _ _ _ _ _ _ _ Hw Hp Hc T3) as (x & sx & sx' & Hx & Nx & HSx & NSx).
  destruct (granted _ _ _ _ _ _ _ _ _ _ _ _ _ Hw' Hp' Hc' Hright') as (z & sz & sz' & Hz & Nz & HSz & NSz).
  destruct (told_out en m lfs _ cs i _ _ _ _ _ _ _ _ F1 T1) as (pk & Hpk & Hends).
  assert (Hx2 : (S x < K)%nat).
  { eapply before_answer; [exact HSx|exact Hpk| |exact HqK|exact Hans].
    rewrite ends_app, Hends, take_length. change (ends [_; _]) with 1%nat. lia. }
  assert (Hz2 : (K <= z)%nat).
  { eapply (unread_moment (Sys ps s0) cs j (l_in l') inp1' out1' (RLock kvs') K n' (asked' ++ later')); [exact Hun|exact Hr'| |exact Hinp'|exact Hz].
    rewrite take_app_le; [done|]. apply lookup_lt_Some in Hn'. lia. }
  destruct Hz as (Hzl & <- & _). destruct HSx as (_ & <- & _).
  destruct (removed (fun s => is_Some (nodes s !! lock_path lfs (lock_id (en_hash en) p))) (fun k => shared (sys_run (take k cs) (Sys ps s0))) (S x) z)
    as (y & Hy & Py & Py'); [lia|done|rewrite Nz; by intros [? ?]|].
  exists y. split_and!; [lia| |done|by apply eq_None_not_Some].
  intros k0 Hk0. enough (k0 <= x)%nat by lia.
  destruct (told_inp en m lfs _ cs i _ _ _ _ _ _ _ T1) as (wn & Hwn & Hinp).
  eapply (unread_moment (Sys ps s0) cs i (l_in l) inp1 out1 (RLock kvs) k0 n (asked ++ later) (wn ++ wr)); [exact Hk0|exact Hr| |by rewrite <- app_assoc|exact Hx].
  rewrite take_app_le by (apply lookup_lt_Some in Hn; lia). rewrite (take_S_r _ _ _ Hn), map_app, concat_app. cbn [map concat]. rewrite app_nil_r.
  apply wires_inv in Hwn as [-> Hwn], T2 as [-> T2]. rewrite <- enc_all_app. apply wires_enc. by apply Forall_app.
Qed.
Print Assumptions C77_one_lock.

(** Alice locks and unlocks "a", then Bob locks it. *)
Definition in_turn : list choice := goes 1 90 ++ replicate 50 at_one.
Lemma in_turn_calls : Forall (fun c => exists t, c_act c = AGo (Orc None 0 (bs "AAAAAAAAAAAA") t)) in_turn.
Proof. unfold in_turn, goes. repeat (apply Forall_app; split); apply Forall_replicate; by eexists. Qed.

Definition granted_to (o x : bytes) : list packet :=
  [PData (bs "status 201" ++ [NL]); PData (bs "id=" ++ id_of (bs "a") ++ [NL]); PData (bs "path=a" ++ [NL]);
   PData (bs "locked-at=" ++ x ++ [NL]); PData (bs "ownername=" ++ o ++ [NL]); PFlush].
Example C77_case :
  let K := 60%nat in let ans := [PData (bs "version=1" ++ [NL]); PFlush] ++ granted_to (bs "alice") (bs "1970-01-01T00:00:00+00:00") in
  exists qK w,
  servers sha256 lfs_dir alice_and_bob fs0 /\
  asker two_users 1000 Upload lfs_dir alice_and_bob in_turn 1 (Local (l_in (input_of [lock_a; RUnlock (id_of (bs "a")) []])) [] 18 1000) [lock_a; RUnlock (id_of (bs "a")) []] [] /\
  asker two_users 1000 Upload lfs_dir alice_and_bob in_turn 2 (Local (l_in (input_of [lock_a])) [] 18 1001) [lock_a] [] /\
  procs (sys_run (take K in_turn) (Sys alice_and_bob fs0)) !! 1%nat = Some qK /\
  l_out (pr_local qK) = enc_all ans ++ w /\ answered (l_out (pr_local qK)) 1 /\
  unread (Sys alice_and_bob fs0) in_turn 2 (l_in (input_of [lock_a])) [lock_a] K 0 /\
  out_of (sys_run in_turn (Sys alice_and_bob fs0)) 2 =
    Some (enc_all ([PData (bs "version=1" ++ [NL]); PFlush] ++ granted_to (bs "bob") (bs "1970-01-01T00:01:00+00:00"))).
Proof.
  intros K ans. set (y := sys_run (take K in_turn) (Sys alice_and_bob fs0)).
  set (n := length (enc_all ans)).
  assert (E1 : take n ∘ l_out ∘ pr_local <$> procs y !! 1%nat = Some (enc_all ans)) by (vm_compute; reflexivity).
  assert (E2 : (fun p => length (l_in (pr_local p))) <$> procs y !! 2%nat = Some (length (l_in (input_of [lock_a])))) by (vm_compute; reflexivity).
  apply fmap_Some in E1 as (q & Eq & E1). apply fmap_Some in E2 as (q2 & Eq2 & E2). cbn [compose] in E1.
  exists q, (drop n (l_out (pr_local q))).
  split_and!.
  - apply served_servers. repeat constructor; by eexists _, _, _.
  - apply served_asker; [done|by vm_compute..|exact in_turn_calls].
  - apply served_asker; [done|by vm_compute..|exact in_turn_calls].
  - exact Eq.
  - rewrite E1. symmetry. apply take_drop.
  - exists ans, (enc_all ans). split_and!; [|exists (drop n (l_out (pr_local q))); rewrite E1; symmetry; apply take_drop|apply Nat.ltb_lt; vm_compute; reflexivity].
    apply wires_enc. repeat constructor; by vm_compute.
  - exists q2, []. split_and!; [exact Eq2|constructor|]. rewrite <- E2. done.
  - by vm_compute.
Qed.

(** ** C78 *)

(** As long as a lock stands every server tells of it: whoever asks for it gets 409 with
    its owner and time, and it is in every list. *)
Theorem C78_standing_lock_seen en fuel lfs ps s0 cs K p t u jj x m j l reqs extra q :
  servers (en_hash en) lfs ps s0 -> asker en fuel m lfs ps cs j l reqs extra ->
  procs (sys_run cs (Sys ps s0)) !! j = Some q ->
  stands (en_hash en) lfs (Sys ps s0) cs K p t u jj -> (- 2 ^ 63 <= t < 2 ^ 63)%Z -> en_time en t = Some x ->
  so_far_such en m lfs (Sys ps s0) cs j (l_in l) reqs extra (l_out (pr_local q)) (fun asked as_ =>
    forall n r a, asked !! n = Some r -> as_ !! n = Some a -> unread (Sys ps s0) cs j (l_in l) reqs K n ->
      tells en m p x (user_name en u) r a).
Proof.
  intros Hs Hj Hq Hst Ht Hx.
  destruct (C74_right_at_moments en fuel m lfs ps s0 cs j l reqs extra Hs Hj) as (q2 & Hq2 & Hsf & _). assert (q2 = q) as -> by congruence.
  destruct Hsf as (caps & asked & later & as_ & k & inp & w & more & we & F1 & F2 & F3 & F4 & F5 & F6 & F7 & _).
  exists caps, asked, later, as_, k, inp, w, more, we. split_and!; [done..|].
  intros n r a Hn Ha Hun. subst reqs.
  pose proof (lookup_app_l_Some _ later _ _ Hn) as Hr.
  pose proof (as_asks _ _ _ _ _ _ _ _ _ _ Hj) as [Hwf _]. pose proof (Forall_lookup_1 _ _ _ _ Hwf Hr) as Hw.
  destruct (told_at en m lfs _ cs j _ _ _ _ _ _ _ n _ F3 Hn) as (a2 & k1 & k2 & inp1 & out1 & wn & Ha2 & Hright & _ & Hwn & Hinp).
  assert (a2 = a) as -> by congruence.
  inversion Hright as [k3 M M' r' a' Hab| |r' a' k3 Hl]; subst; [by destruct r|done|].
  eapply stands_tells; [exact (sv_digest _ _ _ _ Hs)|exact Hst|exact Ht|exact Hx| |exact Hw|exact Hl].
  eapply (unread_moment (Sys ps s0) cs j (l_in l) inp1 out1 r K n (asked ++ later)); [exact Hun|exact Hr| |exact Hinp].
  rewrite take_app_le; [done|]. apply lookup_lt_Some in Hn. lia.
Qed.
Print Assumptions C78_standing_lock_seen.

(** Alice locks "a"; then Bob asks for it and another server lists all locks. *)
Definition standing : list (proc (Z * bytes)) :=
  [served Download 1000 [RList []]; served Upload 1000 [lock_a]; served Upload 1001 [lock_a; RList [(bs "path", bs "a")]]].
Definition bob_then_list : list choice := goes 1 60 ++ replicate 70 at_one ++ goes 0 40.
Example C78_case :
  servers sha256 lfs_dir standing fs0 /\
  asker two_users 1000 Upload lfs_dir standing bob_then_list 2 (Local (l_in (input_of [lock_a; RList [(bs "path", bs "a")]])) [] 18 1001) [lock_a; RList [(bs "path", bs "a")]] [] /\
  asker two_users 1000 Download lfs_dir standing bob_then_list 0 (Local (l_in (input_of [RList []])) [] 18 1000) [RList []] [] /\
  (exists j, stands sha256 lfs_dir (Sys standing fs0) bob_then_list 60 (bs "a") 0 1000 j) /\
  unread (Sys standing fs0) bob_then_list 2 (l_in (input_of [lock_a; RList [(bs "path", bs "a")]])) [lock_a; RList [(bs "path", bs "a")]] 60 0 /\
  out_of (sys_run bob_then_list (Sys standing fs0)) 2 = Some (bs "000eversion=1
0000000fstatus 409
0048id=c9eac6694eb5c5074c7ded2bd29424e7d2d4e4f1a45b15ba44bdeeeb272fdf5d
000bpath=a
0028locked-at=1970-01-01T00:00:00+00:00
0014ownername=alice
0001000dconflict
0000000fstatus 200
0001004alock c9eac6694eb5c5074c7ded2bd29424e7d2d4e4f1a45b15ba44bdeeeb272fdf5d
004cpath c9eac6694eb5c5074c7ded2bd29424e7d2d4e4f1a45b15ba44bdeeeb272fdf5d a
0069locked-at c9eac6694eb5c5074c7ded2bd29424e7d2d4e4f1a45b15ba44bdeeeb272fdf5d 1970-01-01T00:00:00+00:00
0055ownername c9eac6694eb5c5074c7ded2bd29424e7d2d4e4f1a45b15ba44bdeeeb272fdf5d alice
0050owner c9eac6694eb5c5074c7ded2bd29424e7d2d4e4f1a45b15ba44bdeeeb272fdf5d ours
0000") /\
  out_of (sys_run bob_then_list (Sys standing fs0)) 0 = Some (bs "000eversion=1
0000000fstatus 200
0001004alock c9eac6694eb5c5074c7ded2bd29424e7d2d4e4f1a45b15ba44bdeeeb272fdf5d
004cpath c9eac6694eb5c5074c7ded2bd29424e7d2d4e4f1a45b15ba44bdeeeb272fdf5d a
0069locked-at c9eac6694eb5c5074c7ded2bd29424e7d2d4e4f1a45b15ba44bdeeeb272fdf5d 1970-01-01T00:00:00+00:00
0055ownername c9eac6694eb5c5074c7ded2bd29424e7d2d4e4f1a45b15ba44bdeeeb272fdf5d alice
0000").
Proof.
  assert (Hc : Forall (fun c => exists t, c_act c = AGo (Orc None 0 (bs "AAAAAAAAAAAA") t)) bob_then_list).
  { unfold bob_then_list, goes. repeat (apply Forall_app; split); apply Forall_replicate; by eexists. }
  split_and!.
  - apply served_servers. repeat constructor; by eexists _, _, _.
  - apply served_asker; [done|by vm_compute..|exact Hc].
  - apply served_asker; [done|by vm_compute..|exact Hc].
  - set (f := lock_path lfs_dir (lock_id sha256 (bs "a"))).
    set (at_ := fun k => shared (sys_run (take k bob_then_list) (Sys standing fs0))).
    set (j := match nodes (at_ 60%nat) !! f with Some (NFile j) => j | _ => 0%nat end).
    assert (Hall : forallb (fun k => match nodes (at_ k) !! f with Some (NFile j') => (j' =? j)%nat | _ => false end &&
      match inodes (at_ k) !! j with Some x => bool_decide (i_data x = record_of 0 (bs "a")) && (i_uid x =? 1000)%N | None => false end) (seq 60 111) = true) by (vm_compute; reflexivity).
    exists j. intros k H1 H2. rewrite forallb_forall in Hall. specialize (Hall k). rewrite in_seq in Hall.
    assert (El : length bob_then_list = 170%nat) by done. specialize (Hall ltac:(lia)). change (shared _) with (at_ k).
    apply andb_true_iff in Hall as [G1 G2].
    assert (G0 : nodes (at_ k) !! f = Some (NFile j)).
    { destruct (nodes (at_ k) !! f) as [[|j']|]; [done| |done]. apply Nat.eqb_eq in G1 as ->. reflexivity. }
    split; [exact G0|].
    destruct (inodes (at_ k) !! j) as [x|]; [|done]. exists x. split; [reflexivity|].
    apply andb_true_iff in G2 as [G2 G3]. apply bool_decide_eq_true_1 in G2. apply N.eqb_eq in G3. split; [exact G2|exact G3].
  - set (y := sys_run (take 60 bob_then_list) (Sys standing fs0)).
    assert (E2 : (fun p => length (l_in (pr_local p))) <$> procs y !! 2%nat = Some (length (l_in (input_of [lock_a; RList [(bs "path", bs "a")]])))) by (vm_compute; reflexivity).
    apply fmap_Some in E2 as (q2 & Eq2 & E2). exists q2, []. split_and!; [exact Eq2|constructor|]. rewrite <- E2. done.
  - by vm_compute.
  - by vm_compute.
Qed.
