(** Properties of the answers about locks when anything at all may be in the
    directory of locks: C84, C85, C86. *)
From Verif Require Import Bytes Err FS Prog Pktline Args Local Processor Transfer Sha256 Rfc3339
  Spec SpecStore SpecServer SpecLockDir PktFacts PktProofs TextProofs ObjProofs SeqCmd Session SessionFacts SessionProps Faults
  Transcripts Props_Store Props_Server LockDirProofs ClutterProofs.
From stdpp Require Import sorting.

(** C84.  Whatever the directory of locks contains, every request about locks is
    answered as [does] tells, up to the first at which the server panics, if there
    is one; and so is the directory changed. *)
Theorem C84_any_lock_directory en lfs umask ts (clock : Z -> Prop) m pid os l s D reqs extra fuel :
  setting en lfs ts clock os -> contains lfs s D -> asks m l reqs extra -> Forall about_locks reqs ->
  (2 * length (l_in l) + 2 <= fuel)%nat ->
  exists as_ f D' s', handled en lfs umask ts clock m pid fuel os l s D reqs as_ extra f D' s'.
Proof. exact (c84 en lfs umask ts clock m pid os l s D reqs extra fuel). Qed.
Print Assumptions C84_any_lock_directory.

(** This covers every file system with the directories of the server. *)
Theorem C84_every_state lfs s : lfs_dirs s lfs -> sane s -> Forall plain_name (children s (lfs ++ [bs "locks"])) ->
  exists D, contains lfs s D.
Proof. intros H1 H2 H3. exists (entries lfs s). by apply entries_ok. Qed.
Print Assumptions C84_every_state.

(** C85.  Damaged and foreign files and directories change no answer: beside the
    locks of [w], entries that are no locks and have no lock's or draft's name leave
    all answers those of the abstract server, and stay as they are. *)
Theorem C85_clutter en lfs umask ts (clock : Z -> Prop) m pid os l s w J D reqs extra fuel :
  setting en lfs ts clock os -> contains lfs s D -> locks_ok en w -> clutter en J -> locks_and w J D ->
  asks m l reqs extra -> Forall about_locks reqs -> Forall (keeps_off J) reqs ->
  (2 * length (l_in l) + 2 <= fuel)%nat ->
  exists as_ w' D' l' s' ps out,
    run pid (transfer_run en fuel lfs umask ts (operation m)) os l s = (Done (Ok tt), l', s') /\
    session_of en m (l_uid l) clock w reqs as_ w' /\ contains lfs s' D' /\ locks_and w' J D' /\
    replies_sent (as_ ++ extra) ps /\
    wires (PData (bs "version=1" ++ [NL]) :: PFlush :: ps) out /\ l_out l' = l_out l ++ out.
Proof. exact (c85 en lfs umask ts clock m pid os l s w J D reqs extra fuel). Qed.
Print Assumptions C85_clutter.

(** C86.  Whatever else is in the directory, a listing of at most a hundred entries
    shows every lock that stands: nothing hides a lock. *)
Theorem C86_nothing_hides_a_lock en lfs umask ts (clock : Z -> Prop) m pid os l s D kvs extra fuel :
  setting en lfs ts clock os -> contains lfs s D -> asks m l [RList kvs] extra ->
  no_key (bs "path") kvs -> no_key (bs "cursor") kvs -> no_key (bs "limit") kvs ->
  (2 * length (l_in l) + 2 <= fuel)%nat -> (size D <= 100)%nat ->
  (forall i d u t p, D !! i = Some (File d u) -> says d t p -> is_Some (en_time en t)) ->
  exists out s', handled en lfs umask ts clock m pid fuel os l s D [RList kvs] [Reply 200 [] (BLines out)] extra None D s' /\
    forall p d u t, D !! lock_id (en_hash en) p = Some (File d u) -> says d t p ->
      exists x pre post, en_time en t = Some x /\ out = pre ++ lock_lines en m p x u ++ post.
Proof. exact (c86 en lfs umask ts clock m pid os l s D kvs extra fuel). Qed.
Print Assumptions C86_nothing_hides_a_lock.

(** ** Examples *)

(** The repository of [fs_demo], where "a" and "c" are locked, with more in the
    directory of locks. *)
Definition add_file (x : bytes * bytes) (s : fs) : fs :=
  FS (<[lfs_dir ++ [bs "locks"; x.1] := NFile (length (inodes s))]> (nodes s)) (inodes s ++ [Inode x.2 1000 420 7 false]) (hist s).
Definition add_dir (i : bytes) (s : fs) : fs := FS (<[lfs_dir ++ [bs "locks"; i] := NDir]> (nodes s)) (inodes s) (hist s).

Definition all_nodes (s : fs) (f : path -> node -> bool) : bool := forallb (fun x => f x.1 x.2) (map_to_list (nodes s)).
Definition plain_b (c : bytes) : bool :=
  bool_decide (c <> []) && bool_decide (c <> bs ".") && bool_decide (c <> bs "..") &&
  bool_decide (SLASH ∉ c) && bool_decide (Byte.x00 ∉ c).
Definition described_b (s : fs) : bool :=
  forallb (dir_b s) [[bs "repo"]; [bs "repo"; bs ".git"]; lfs_dir] &&
  forallb (fun d => dir_b s (lfs_dir ++ [d])) dir_names &&
  all_nodes s (fun _ n => match n with NFile j => (j <? length (inodes s))%nat | NDir => true end) &&
  forallb plain_b (children s (lfs_dir ++ [bs "locks"])).
Lemma described_of s : described_b s = true -> contains lfs_dir s (entries lfs_dir s).
Proof.
  unfold described_b. rewrite !andb_true_iff. intros [[[H1 H2] H3] H4]. apply entries_ok.
  - rewrite !forallb_forall in H1, H2.
    assert (G : forall p, dir_b s p = true -> nodes s !! p = Some NDir).
    { intros p. unfold dir_b. by destruct (nodes s !! p) as [[]|]. }
    intros d Hd a b E Ha. destruct (decide (b = [])) as [->|Hb].
    + rewrite app_nil_r in E. subst a. by apply G, H2, elem_of_list_In.
    + destruct b as [|y b _] using rev_ind; [done|]. rewrite app_assoc in E. apply app_inj_tail in E as [E _].
      apply G, H1. unfold lfs_dir in E |- *. destruct a as [|a1 [|a2 [|a3 [|a4 a]]]]; simpl in E; simplify_eq; simpl; auto.
  - unfold all_nodes in H3. rewrite forallb_forall in H3. intros p j Hj. apply elem_of_map_to_list, elem_of_list_In in Hj.
    apply H3 in Hj. by apply Nat.ltb_lt in Hj.
  - rewrite forallb_forall in H4. apply Forall_forall. intros c Hc. apply elem_of_list_In, H4 in Hc. unfold plain_b in Hc.
    rewrite !andb_true_iff, !bool_decide_eq_true in Hc. unfold plain_name. tauto.
Qed.

Definition messy : fs :=
  add_file (bs "README", bs "hello") (add_dir (bs "sub") (add_file (id_of (bs "b") ++ bs ".lock", record_of noon (bs "b"))
    (add_file (id_of (bs "d"), bs "garbage") (add_file ([Byte.xff], record_of noon (bs "x")) fs_demo)))).
Definition in_mess : list request :=
  [lock_of (bs "d"); RList [(bs "path", bs "d")]; RUnlock (bs "sub") []; RUnlock (bs "README") [];
   RUnlock (id_of (bs "b") ++ bs ".lock") []; lock_of (bs "b"); lock_of (bs "e")].

(** A file under the id of "d" that is no lock makes every request about "d" fail;
    a directory is an internal error; a draft of "b" that a dead server left
    behind can be seen but not removed, and the request to lock "b" ends the
    server, without an answer to it and to the next, but the draft is gone: when
    the same is asked again, "b" is granted. *)
Example C84_case :
  contains lfs_dir messy (entries lfs_dir messy) /\ asks Upload (input_of in_mess) in_mess [] /\ Forall about_locks in_mess /\
  (2 * length (l_in (input_of in_mess)) + 2 <= 4000)%nat /\
  under (entries lfs_dir messy) (bs "sub") (Useless trouble) /\
  (serve Upload in_mess messy).1.1 = Failed PUnreachable /\
  output (serve Upload in_mess messy) = bs "000eversion=1
0000000fstatus 400
0001002derror: corrupt data: invalid parsed lock
0000000fstatus 400
0001002derror: corrupt data: invalid parsed lock
0000000fstatus 500
00010043internal error: fatal: I/O error: Is a directory (os error 21)
0000000fstatus 400
0001002derror: corrupt data: invalid parsed lock
0000000fstatus 404
0001000enot found
0000" /\
  let s' := final_fs (serve Upload in_mess messy) in
  nodes s' !! (lfs_dir ++ [bs "locks"; id_of (bs "b") ++ bs ".lock"]) = None /\
  output (serve Upload [lock_of (bs "b")] s') = bs "000eversion=1
0000000fstatus 201
0048id=73b6a671c66efeb43a35cd79a0057df1a2c0ea8a5141e341101728e3179b5f04
000bpath=b
0028locked-at=2001-09-17T00:00:00+00:00
0018ownername=test user
0000".
Proof.
  split_and!; [by apply described_of; vm_compute|by apply asks_of; vm_compute| | | |by vm_compute|by vm_compute|split; by vm_compute].
  - repeat constructor.
  - apply Nat.leb_le. by vm_compute.
  - constructor. by vm_compute.
Qed.

(** "a" and "c" are locked, and beside their records there are a directory and
    a file of notes. *)
Definition junk : lockdir := {[ bs "README" := File (bs "hello") 1000; bs "sub" := Folder ]}.
Definition cluttered : fs := add_file (bs "README", bs "hello") (add_dir (bs "sub") fs_demo).
Definition beside : list request := [RList [(bs "path", bs "a")]; RUnlock (id_of (bs "a")) []; lock_of (bs "b"); RList [(bs "limit", bs "1")]].
Lemma junk_clutter : clutter test_env junk.
Proof.
  intros i e Hi. unfold junk in Hi. rewrite lookup_insert_Some, lookup_singleton_Some in Hi. split.
  - assert (L : (length i < 64)%nat) by (destruct Hi as [[<- _]|[_ [<- _]]]; apply Nat.ltb_lt; by vm_compute).
    intros p. pose proof (lock_id_plain test_env sha256_ok p) as (_ & Lp & _).
    split; intros ->; [|unfold draft in L; rewrite app_length in L]; simpl in *; lia.
  - intros d u -> t p. rewrite says_iff. destruct Hi as [[_ [= <- <-]]|[_ [_ ?]]]; [by vm_compute|done].
Qed.
Local Instance entry_eq_dec : EqDecision entry.
Proof. solve_decision. Defined.
Lemma two_and o ia ic pa ta ua pc tc uc J :
  locks_and (World o {[ ia := (pa, ta, ua); ic := (pc, tc, uc) ]}) J
    (<[ia := File (record_of ta pa) ua]> (<[ic := File (record_of tc pc) uc]> J)).
Proof.
  intros i. cbn [w_locks]. destruct (decide (i = ia)) as [->|Ha]; [by rewrite !lookup_insert|]. 
  rewrite lookup_insert_ne by done. rewrite (lookup_insert_ne {[ ic := (pc, tc, uc) ]}) by done.
  destruct (decide (i = ic)) as [->|Hc]; [rewrite lookup_insert; by rewrite lookup_singleton|].
  rewrite lookup_insert_ne by done. by rewrite lookup_singleton_ne.
Qed.
Lemma cluttered_and : locks_and w_demo junk (entries lfs_dir cluttered).
Proof.
  assert (E : entries lfs_dir cluttered = <[id_of (bs "a") := File (record_of noon (bs "a")) 1000]> (<[id_of (bs "c") := File (record_of noon (bs "c")) 1000]> junk)).
  { refine (bool_decide_eq_true_1 _ _). vm_compute. reflexivity. }
  rewrite E. exact (two_and _ _ _ _ _ _ _ _ _ _).
Qed.
Lemma demo_locks_ok : locks_ok test_env w_demo.
Proof.
  intros i p t u. unfold w_demo. cbn [w_locks]. rewrite lookup_insert_Some, lookup_singleton_Some.
  assert (T : time_ok test_env noon) by (by apply (set_clock _ _ _ _ _ demo_setting)).
  intros [[<- [= <- <- <-]]|[_ [<- [= <- <- <-]]]]; (split; [reflexivity|exact T]).
Qed.

Example C85_case :
  contains lfs_dir cluttered (entries lfs_dir cluttered) /\ locks_ok test_env w_demo /\ clutter test_env junk /\
  locks_and w_demo junk (entries lfs_dir cluttered) /\ asks Upload (input_of beside) beside [] /\
  Forall about_locks beside /\ Forall (keeps_off junk) beside /\ (2 * length (l_in (input_of beside)) + 2 <= 4000)%nat /\
  output (serve Upload beside cluttered) = output (serve Upload beside fs_demo).
Proof.
  split_and!; [by apply described_of; vm_compute|exact demo_locks_ok|exact junk_clutter|exact cluttered_and|by apply asks_of; vm_compute|..].
  - repeat constructor.
  - repeat constructor.
  - apply Nat.leb_le. by vm_compute.
  - by vm_compute.
Qed.

(** In [messy] a listing shows "a" and "c", whatever else is there. *)
Example C86_case :
  contains lfs_dir messy (entries lfs_dir messy) /\ asks Upload (input_of [RList []]) [RList []] [] /\
  size (entries lfs_dir messy) = 7%nat /\
  (forall i d u t p, entries lfs_dir messy !! i = Some (File d u) -> says d t p -> is_Some (en_time test_env t)) /\
  entries lfs_dir messy !! lock_id (en_hash test_env) (bs "c") = Some (File (record_of noon (bs "c")) 1000) /\
  says (record_of noon (bs "c")) noon (bs "c").
Proof.
  split_and!; [by apply described_of; vm_compute|by apply asks_of; vm_compute|by vm_compute| |by vm_compute|].
  - intros i d u t p Hi Hs. apply says_iff in Hs.
    assert (B : forallb (fun x => match x.2 with File d _ => match lock_parse d with Some (t, _) =>
        match en_time test_env t with Some _ => true | None => false end | None => true end | Folder => true end)
      (map_to_list (entries lfs_dir messy)) = true) by by vm_compute.
    rewrite forallb_forall in B. apply elem_of_map_to_list, elem_of_list_In in Hi. apply B in Hi. cbn [snd] in Hi. rewrite Hs in Hi.
    by destruct (en_time test_env t).
  - apply says_iff. by vm_compute.
Qed.
