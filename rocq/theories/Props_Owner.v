(** Whose locks can be removed: C107. *)
From Verif Require Import Bytes Err FS Prog Pktline Args Local Processor Transfer Sha256 Rfc3339
  Spec SpecStore SpecServer SpecSecret SpecLock SpecTogether PktFacts PktProofs IoFacts TextProofs GetProofs ObjProofs StoreProofs SeqIo SeqCmd
  TogetherProofs TogetherFacts SpecBeside BesideFacts Transcripts Props_Store Props_Server Props_Lock Props_Together Props_Beside.

(** ** C107 *)

(** A user, with this number, for whom a server runs. *)
Definition user_env (u : N) : env := Env sha256 rfc3339 (fun u => Some (if (u =? 1001)%N then bs "bob" else bs "alice")) u.
Definition runs_for (u : N) (reqs : list request) : proc (Z * bytes) :=
  Proc (transfer_main (user_env u) 1000 lfs_dir no_config (operation Upload)) (Local (l_in (input_of reqs)) [] 18 u) false.
(** Alice locks "a".  Bob asks for the lock on "a", and then for its removal, with
    nothing that says that it is someone else's. *)
Definition bob_after_alice : list (proc (Z * bytes)) := [runs_for 1000 [lock_a]; runs_for 1001 [list_a; unlock_a]].
Definition bob_later : list choice := goes 0 60 ++ goes 1 80.
Lemma runs_asker ps cs i u reqs : ps !! i = Some (runs_for u reqs) ->
  forallb (wf_b Upload) reqs = true -> forallb (fun p => lenN (payload p) <=? 65531)%N (concat (map packets_of reqs)) = true ->
  (2 * lenN (l_in (input_of reqs)) + 2 <=? 1000)%N = true ->
  Forall (fun c => exists t, c_act c = AGo (Orc None 0 (bs "AAAAAAAAAAAA") t)) cs ->
  asker (user_env u) 1000 Upload lfs_dir ps cs i (Local (l_in (input_of reqs)) [] 18 u) reqs [].
Proof.
  intros Hi H1 H2 H3 H5. split; [|by apply asks_of|done|].
  - exists no_config, false. split_and!; [done| |].
    + eexists. split; [done|]. by intros e [= <-].
    + apply N.leb_le in H3. unfold lenN in H3. cbn [l_in] in *. lia.
  - intros o Ho. rewrite Forall_forall in H5. apply H5 in Ho as [t [= ->]]. split; [done|]. by (refine (bool_decide_eq_true_1 _ _); vm_compute).
Qed.

(** A lock is removed for a user who is not its owner and who did not ask for that: Bob's
    server says that the lock is Alice's, and not Bob's, and then removes it. *)
Theorem C107_only_owner_refuted :
  exists ps cs, servers sha256 lfs_dir ps fs0 /\
    asker (user_env 1000) 1000 Upload lfs_dir ps cs 0 (Local (l_in (input_of [lock_a])) [] 18 1000) [lock_a] [] /\
    asker (user_env 1001) 1000 Upload lfs_dir ps cs 1 (Local (l_in (input_of [list_a; unlock_a])) [] 18 1001) [list_a; unlock_a] [] /\
    is_Some (nodes (shared (sys_run (take 60 cs) (Sys ps fs0))) !! file_a) /\
    nodes (shared (sys_run cs (Sys ps fs0))) !! file_a = None /\
    out_of (sys_run cs (Sys ps fs0)) 0 = Some (bs "000eversion=1
0000000fstatus 201
0048id=c9eac6694eb5c5074c7ded2bd29424e7d2d4e4f1a45b15ba44bdeeeb272fdf5d
000bpath=a
0028locked-at=1970-01-01T00:00:00+00:00
0014ownername=alice
0000") /\
    out_of (sys_run cs (Sys ps fs0)) 1 = Some (bs "000eversion=1
0000000fstatus 200
0001004alock c9eac6694eb5c5074c7ded2bd29424e7d2d4e4f1a45b15ba44bdeeeb272fdf5d
004cpath c9eac6694eb5c5074c7ded2bd29424e7d2d4e4f1a45b15ba44bdeeeb272fdf5d a
0069locked-at c9eac6694eb5c5074c7ded2bd29424e7d2d4e4f1a45b15ba44bdeeeb272fdf5d 1970-01-01T00:00:00+00:00
0055ownername c9eac6694eb5c5074c7ded2bd29424e7d2d4e4f1a45b15ba44bdeeeb272fdf5d alice
0052owner c9eac6694eb5c5074c7ded2bd29424e7d2d4e4f1a45b15ba44bdeeeb272fdf5d theirs
0000000fstatus 200
0048id=c9eac6694eb5c5074c7ded2bd29424e7d2d4e4f1a45b15ba44bdeeeb272fdf5d
000bpath=a
0028locked-at=1970-01-01T00:00:00+00:00
0014ownername=alice
0000").
Proof.
  assert (Hc : Forall (fun c => exists t, c_act c = AGo (Orc None 0 (bs "AAAAAAAAAAAA") t)) bob_later).
  { unfold bob_later, goes. repeat (apply Forall_app; split); apply Forall_replicate; by eexists. }
  exists bob_after_alice, bob_later. split_and!; [|by apply runs_asker; [..|exact Hc]|by apply runs_asker; [..|exact Hc]|..].
  - split; [exact sha256_ok| |exact fs0_ordinary|apply fs0_ok|].
    + repeat constructor; try done; by (refine (bool_decide_eq_true_1 _ _); vm_compute).
    + unfold bob_after_alice. constructor; [by exists (user_env 1000), 1000%nat, no_config, (operation Upload)|].
      constructor; [by exists (user_env 1001), 1000%nat, no_config, (operation Upload)|]. constructor.
  - vm_compute. by eexists.
  - by vm_compute.
  - by vm_compute.
  - by vm_compute.
Qed.
Print Assumptions C107_only_owner_refuted.

(** What is done instead: the file system alone decides.  For a server on its own, of
    whatever user, and whatever the arguments of the request are, the lock is removed,
    and the answer is about its owner [u]. *)
Theorem C107_whoever_partial en lfs umask ts (clock : Z -> Prop) pid os l s w extra fuel id kvs p t u :
  setting en lfs ts clock os -> holds en lfs s w -> asks Upload l [RUnlock id kvs] extra -> enough fuel l w ->
  utf8_valid id = true -> w_locks w !! id = Some (p, t, u) ->
  exists x w1 s1, en_time en t = Some x /\
    SpecServer.served en lfs umask ts clock Upload pid fuel os l s w [RUnlock id kvs] [Reply 200 (lock_info en p x u) BNone] extra w1 s1 /\
    w_objs w1 = w_objs w /\ w_locks w1 = delete id (w_locks w).
Proof.
  intros Hset Hh Ha He Hu Hl.
  destruct (C25_unlock en lfs umask ts clock pid os l s w [RUnlock id kvs] extra fuel 0 id kvs Hset Hh Ha He eq_refl Hu)
    as (as_ & w1 & s1 & wi & a & wi' & Hs & H1 & H2 & H3 & H4).
  inversion H1; subst. inversion H3; subst. rewrite Hl in H4. destruct H4 as (-> & x & Hx & ->).
  exists x, (World (w_objs wi) (delete id (w_locks wi))), s1. split_and!; [done| |done|done].
  destruct as_ as [|a' [|]]; try done. injection H2 as ->. exact Hs.
Qed.
Print Assumptions C107_whoever_partial.

(** The lock on "a" in [w_demo] is of the user 1000; the server is that of 1001, and its
    client sends an argument that says not to force it. *)
Definition not_mine : request := RUnlock (id_of (bs "a")) [(bs "force", bs "false")].
Example C107_case :
  let l := Local (l_in (input_of [not_mine])) [] 18 1001 in
  setting test_env lfs_dir (Some noon) (eq noon) quiet /\ holds test_env lfs_dir fs_demo w_demo /\
  asks Upload l [not_mine] [] /\ enough 4000 l w_demo /\ utf8_valid (id_of (bs "a")) = true /\
  w_locks w_demo !! id_of (bs "a") = Some (bs "a", noon, 1000%N).
Proof.
  destruct C13_case as (H1 & _ & _ & _ & H2 & _). cbn zeta.
  split_and!; [done|done| |apply enough_of; by vm_compute|by vm_compute|by vm_compute].
  by apply (asks_of Upload [not_mine]).
Qed.
