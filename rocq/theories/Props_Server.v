(** Properties of one server process working alone on its repository: its answers
    and its effects are those of the abstract server of SpecServer.v. *)
From Verif Require Import Bytes Err FS Prog Pktline Args Local Processor Transfer Sha256 Rfc3339
  Spec SpecStore SpecServer PktFacts PktProofs TextProofs ObjProofs SeqCmd Session SessionFacts SessionProps Faults
  Transcripts Props_Store.
From stdpp Require Import sorting.

(** ** Values for the examples *)
Definition zero_oid : bytes := bs "0000000000000000000000000000000000000000000000000000000000000000".
Definition lock_of (p : bytes) : request := RLock [(bs "path", p); (bs "refname", bs "refs/heads/main")].
Definition id_of (p : bytes) : bytes := lock_id sha256 p.
Definition noon : Z := 1000684800.

(** A session that creates an object and three locks and removes one of them. *)
Definition demo : list request :=
  [RVersion;
   RPut abc_oid [(bs "size", bs "3")] [bs "a"; bs "bc"];
   RPut abc_oid [(bs "size", bs "4")] [bs "abc"];
   RVerify abc_oid [(bs "size", bs "3")];
   RBatch [(bs "transfer", bs "ssh")] [(abc_oid, bs "7"); (zero_oid, bs "7")];
   lock_of (bs "a"); lock_of (bs "a"); lock_of (bs "b"); lock_of (bs "c");
   RList [(bs "path", bs "a")];
   RUnlock (id_of (bs "b")) []; RUnlock (id_of (bs "b")) []].
Definition input_of (reqs : list request) : local := stdin2 (enc_all (concat (map packets_of reqs))).
Definition serve (m : mode) (reqs : list request) (s : fs) : outcome (res unit) * local * fs :=
  run 0 (transfer_run test_env 4000 lfs_dir 63 (Some noon) (operation m)) quiet (input_of reqs) s.

(** The repository after that session, and what it holds. *)
Definition fs_demo : fs := final_fs (serve Upload demo fs0).
Definition w_demo : world :=
  World {[ abc_oid := bs "abc" ]} {[ id_of (bs "a") := (bs "a", noon, 1000%N); id_of (bs "c") := (bs "c", noon, 1000%N) ]}.

Lemma demo_setting : setting test_env lfs_dir (Some noon) (eq noon) quiet.
Proof.
  split.
  - exact sha256_ok.
  - repeat constructor; try done; refine (bool_decide_eq_true_1 _ _); by vm_compute.
  - by intros t [= <-].
  - intros t <-. split; [done|]. eexists. by vm_compute.
  - intros n. split_and!; [done| |done]. refine (bool_decide_eq_true_1 _ _); by vm_compute.
Qed.

Lemma fs0_holds : holds test_env lfs_dir fs0 (World ∅ ∅).
Proof.
  assert (G : forall p n, nodes fs0 !! p = Some n -> n = NDir /\ (length p <= 2)%nat).
  { intros p n H. unfold fs0 in H. simpl in H. rewrite lookup_insert_Some, lookup_singleton_Some in H.
    destruct H as [[<- <-]|[_ [<- <-]]]; split; simpl; done || lia. }
  split.
  - intros d a b j _ _ _ H. by apply G in H as [? _].
  - intros p j H. by apply G in H as [? _].
  - intros p c n H. unfold fs0 in H. simpl in H. rewrite lookup_insert_Some, lookup_singleton_Some in H.
    destruct H as [[E <-]|[_ [E <-]]].
    + destruct p as [|? [|? ?]]; [by left|done|]. done.
    + destruct p as [|? [|? [|? ?]]]; try done. injection E as <- <-. right. by vm_compute.
  - intros o d _. simpl. split; [by rewrite lookup_empty|]. intros (j & x & H & _). by apply G in H as [? _].
  - intros o d. simpl. by rewrite lookup_empty.
  - intros o _. split_and!; intros *; intros H; apply G in H as [? H]; try done. unfold object_path in H.
    rewrite app_length in H. simpl in H. lia.
  - intros i p t u. simpl. by rewrite lookup_empty.
  - intros i n H. apply G in H as [_ H]. simpl in H. lia.
Qed.

(** What can be asked in the examples. *)
Definition number_b (b : bytes) : bool := match parse_integer b with Ok _ => true | _ => false end.
Lemma number_of b : number_b b = true -> exists n, number b n.
Proof. unfold number_b. destruct (parse_integer b) as [n|] eqn:E; [|done]. exists n. by apply parse_number. Qed.
Definition args_b (kvs : list (bytes * bytes)) : bool :=
  bool_decide (Forall (fun kv => EQ ∉ kv.1) kvs) && bool_decide (NoDup kvs.*1).
Lemma args_of kvs : args_b kvs = true -> args_ok kvs.
Proof. unfold args_b. rewrite andb_true_iff, !bool_decide_eq_true. done. Qed.
Definition wf_b (m : mode) (r : request) : bool :=
  match r with
  | RVersion => true
  | RBatch kvs items => args_b kvs && forallb (fun x => oid_valid x.1 && number_b x.2) items
  | RPut o kvs ds => match m with Upload => true | _ => false end && args_b kvs && oid_valid o &&
      existsb (fun kv => bool_decide (kv.1 = bs "size") && number_b kv.2) kvs && forallb (fun d => lenN d <=? 65516)%N ds
  | RVerify o kvs => match m with Upload => true | _ => false end && args_b kvs && bool_decide (SP ∉ o)
  | RGet o kvs => match m with Download => true | _ => false end && args_b kvs && bool_decide (SP ∉ o)
  | RLock kvs => match m with Upload => true | _ => false end && args_b kvs
  | RList kvs => args_b kvs
  | RUnlock i kvs => match m with Upload => true | _ => false end && args_b kvs && bool_decide (SP ∉ i) &&
      bool_decide (i <> []) && bool_decide (i <> bs ".") && bool_decide (i <> bs "..") &&
      bool_decide (SLASH ∉ i) && bool_decide (Byte.x00 ∉ i)
  end.
Lemma wf_of m r : wf_b m r = true -> well_formed m r.
Proof.
  destruct r; simpl; rewrite ?andb_true_iff, ?bool_decide_eq_true; try done.
  - intros [H1 H2]. split; [by apply args_of|]. rewrite forallb_forall in H2. apply Forall_forall. intros x Hx.
    apply elem_of_list_In, H2 in Hx. apply andb_true_iff in Hx as [? ?]. split; [by apply oid_valid_iff|by apply number_of].
  - intros [[[[H1 H2] H3] H4] H5]. split_and!.
    + by destruct m.
    + by apply args_of.
    + by apply oid_valid_iff.
    + apply existsb_exists in H4 as ([k v] & H & Hv). apply andb_true_iff in Hv as [Hk Hv].
      apply bool_decide_eq_true in Hk. simpl in Hk. subst k. destruct (number_of _ Hv) as [n Hn]. exists v, n.
      split; [by apply elem_of_list_In|done].
    + rewrite forallb_forall in H5. apply Forall_forall. intros x Hx. apply elem_of_list_In, H5 in Hx. by apply N.leb_le in Hx.
  - intros [[H1 H2] H3]. split_and!; [by destruct m|by apply args_of|done].
  - intros [[H1 H2] H3]. split_and!; [by destruct m|by apply args_of|done].
  - intros [H1 H2]. split; [by destruct m|by apply args_of].
  - by apply args_of.
  - intros [[[[[[[H1 H2] H3] H4] H5] H6] H7] H8]. split_and!; [by destruct m|by apply args_of|done|]. by split_and!.
Qed.
Lemma asks_of m reqs : forallb (wf_b m) reqs = true ->
  forallb (fun p => lenN (payload p) <=? 65531)%N (concat (map packets_of reqs)) = true -> asks m (input_of reqs) reqs [].
Proof.
  intros H1 H2. rewrite forallb_forall in H1. rewrite forallb_forall in H2. split.
  - apply Forall_forall. intros r Hr. by apply wf_of, H1, elem_of_list_In.
  - exists (enc_all (concat (map packets_of reqs))), []. split_and!; [|constructor|by rewrite app_nil_r].
    apply wires_enc, Forall_forall. intros p Hp. by apply N.leb_le, H2, elem_of_list_In.
Qed.
Lemma enough_of fuel l w : (2 * lenN (l_in l) + 2 <=? N.of_nat fuel)%N = true ->
  map_fold (fun _ (d : bytes) b => (lenN d <? N.of_nat fuel)%N && b) true (w_objs w) = true -> enough fuel l w.
Proof.
  intros H1 H2. split; [apply N.leb_le in H1; unfold lenN in H1; lia|].
  revert H2. apply (map_fold_ind (fun b (m : gmap bytes bytes) => b = true -> forall o d, m !! o = Some d -> (length d < fuel)%nat)).
  - intros _ o d. by rewrite lookup_empty.
  - intros i x m r _ IH [Hx Hr]%andb_true_iff o d. rewrite lookup_insert_Some. intros [[_ <-]|[_ Hd]]; [|by eapply IH].
    apply N.ltb_lt in Hx. unfold lenN in Hx. lia.
Qed.

Definition demo_nodes : list (path * node) := map_to_list (nodes fs_demo).
Lemma each_node (f : path -> node -> bool) : forallb (fun x => f x.1 x.2) demo_nodes = true ->
  forall p n, nodes fs_demo !! p = Some n -> f p n = true.
Proof.
  rewrite forallb_forall. intros H p n Hp. apply elem_of_map_to_list, elem_of_list_In in Hp. by apply (H (p, n)).
Qed.

Definition file_at (s : fs) (p : path) : option (bytes * N) :=
  match nodes s !! p with Some (NFile j) => (fun x => (i_data x, i_uid x)) <$> inodes s !! j | _ => None end.
Lemma file_at_owned s p d u : file_at s p = Some (d, u) -> owned_file s p d u.
Proof.
  unfold file_at. destruct (nodes s !! p) as [[|j]|] eqn:E; try done. destruct (inodes s !! j) as [x|] eqn:E'; [|done].
  intros [= <- <-]. by exists j, x.
Qed.

Lemma owned_has s p d u : owned_file s p d u -> has_file s p d.
Proof. intros (j & x & ? & ? & ? & _). by exists j, x. Qed.

Definition dir_b (s : fs) (p : path) : bool := match nodes s !! p with Some NDir => true | _ => false end.
Definition file_b (c : bytes) (s : fs) (p : path) (n : node) : bool :=
  match n with
  | NFile j => bool_decide (j < length (inodes s))%nat &&
      (bool_decide (p !! 3%nat = Some (bs "locks")) && bool_decide (length p = 5%nat) ||
       bool_decide (p = object_path lfs_dir abc_oid) && bool_decide (i_data <$> inodes s !! j = Some c))
  | NDir => bool_decide (length p < 7)%nat
  end.
Definition tree_b (s : fs) (p : path) (n : node) : bool := match removelast p with [] => true | q => dir_b s q end.
Definition lock_b (w : world) (p : path) (n : node) : bool :=
  negb (bool_decide (p !! 3%nat = Some (bs "locks")) && bool_decide (length p = 5%nat)) ||
  bool_decide (is_Some (p !! 4%nat ≫= fun i => w_locks w !! i)).

Lemma holds_check c s w :
  (forall p n, nodes s !! p = Some n -> file_b c s p n = true) ->
  (forall p n, nodes s !! p = Some n -> tree_b s p n = true) ->
  (forall p n, nodes s !! p = Some n -> lock_b w p n = true) ->
  w_objs w = {[ abc_oid := c ]} -> owned_file s (object_path lfs_dir abc_oid) c 1000 ->
  (forall i p t u, w_locks w !! i = Some (p, t, u) ->
    owned_file s (lfs_dir ++ [bs "locks"; i]) (record_of t p) u /\ i = lock_id (en_hash test_env) p /\ time_ok test_env t) ->
  holds test_env lfs_dir s w.
Proof.
  intros Hfile Htree Hlock Ew Habc Hl. 
  assert (Hf : forall p j, nodes s !! p = Some (NFile j) -> (j < length (inodes s))%nat /\
    (p !! 3%nat = Some (bs "locks") /\ length p = 5%nat \/
     p = object_path lfs_dir abc_oid /\ i_data <$> inodes s !! j = Some c)).
  { intros p j H. apply Hfile in H. unfold file_b in H.
    by rewrite !andb_true_iff, orb_true_iff, !andb_true_iff, !bool_decide_eq_true in H. }
  split.
  - intros d a b j Hd E Ha H. apply Hf in H as [_ H].
    apply (f_equal length) in E. rewrite !app_length in E. simpl in E.
    destruct H as [[_ H]|[-> _]]; [lia|]. unfold object_path in E. rewrite app_length in E. simpl in E. lia.
  - intros p j H. by apply Hf in H as [H _].
  - intros p b n H. apply Htree in H. unfold tree_b in H. rewrite removelast_last in H. destruct p; [by left|right].
    unfold dir_b in H. by destruct (nodes s !! _) as [[]|].
  - intros o d Ho. rewrite Ew, lookup_singleton_Some. split.
    + intros [<- <-]. destruct Habc as (j & x & ? & ? & ? & _). by exists j, x.
    + intros (j & x & H & Hx & <-). apply Hf in H as [_ [[H _]|[E H]]]; [done|].
      rewrite Hx in H. injection H as ->. split; [|done].
      unfold object_path in E. apply app_inj_1 in E as [_ E]; [|done]. by injection E as ?.
  - intros o d. rewrite Ew, lookup_singleton_Some. intros [<- _]. by apply oid_valid_iff.
  - intros o Ho. split_and!.
    + intros H. apply Hfile, bool_decide_eq_true in H. unfold object_path in H. rewrite app_length in H. simpl in H. lia.
    + intros j H. apply Hf in H as [_ [[H _]|[E _]]]; [done|]. by apply (f_equal length) in E.
    + intros j H. apply Hf in H as [_ [[H _]|[E _]]]; [done|]. by apply (f_equal length) in E.
  - exact Hl.
  - intros i n H. apply Hlock in H. unfold lock_b in H. rewrite orb_true_iff, negb_true_iff in H. destruct H as [H|H]; [done|].
    by apply bool_decide_eq_true in H.
Qed.

Lemma demo_holds : holds test_env lfs_dir fs_demo w_demo.
Proof.
  apply (holds_check (bs "abc")).
  - apply each_node. by vm_compute.
  - apply each_node. by vm_compute.
  - apply each_node. by vm_compute.
  - reflexivity.
  - apply file_at_owned. by vm_compute.
  - assert (Ht : time_ok test_env noon) by (split; [done|eexists; by vm_compute]).
    assert (Ha : owned_file fs_demo (lfs_dir ++ [bs "locks"; id_of (bs "a")]) (record_of noon (bs "a")) 1000)
      by (apply file_at_owned; by vm_compute).
    assert (Hc : owned_file fs_demo (lfs_dir ++ [bs "locks"; id_of (bs "c")]) (record_of noon (bs "c")) 1000)
      by (apply file_at_owned; by vm_compute).
    intros i p t u. unfold w_demo. cbn [w_locks]. rewrite lookup_insert_Some, lookup_singleton_Some.
    intros [[<- [= <- <- <-]]|[_ [<- [= <- <- <-]]]]; (split; [assumption|split; [reflexivity|assumption]]).
Qed.

(** A session on that repository: follow the pages of the lock list, ask for
    objects, and try locks. *)
Definition demo2 : list request :=
  [RList (list_args (bs "1") None); RList (list_args (bs "1") (Some (id_of (bs "a"))))].
Definition demo3 : list request :=
  [RVerify abc_oid [(bs "size", bs "3")]; RVerify abc_oid [(bs "size", bs "4")]; RVerify zero_oid [(bs "size", bs "4")];
   RBatch [] [(zero_oid, bs "+7"); (abc_oid, bs "1")];
   lock_of (bs "a"); lock_of (bs "b"); RUnlock (id_of (bs "a")) []; RUnlock (bs "nonsense") [];
   RList [(bs "path", bs "b")]; RUnlock (id_of (bs "b")) []].

(** ** C13 *)

(** The server answers every sequence of well-formed requests like the abstract
    server, and ends in a state that represents the abstract server's. *)
Theorem C13_refines_abstract_server en lfs umask ts (clock : Z -> Prop) m pid os l s w reqs extra fuel :
  setting en lfs ts clock os -> holds en lfs s w -> asks m l reqs extra -> enough fuel l w ->
  exists as_ w' s', served en lfs umask ts clock m pid fuel os l s w reqs as_ extra w' s'.
Proof. exact (c13 en lfs umask ts clock m pid os l s w reqs extra fuel). Qed.
Print Assumptions C13_refines_abstract_server.

(** With a clock that stands still the abstract server is a function, so its
    answers are the only ones. *)
Theorem C13_abstract_server_function en m uid t0 w reqs a1 w1 a2 w2 :
  Forall (well_formed m) reqs ->
  session_of en m uid (eq t0) w reqs a1 w1 -> session_of en m uid (eq t0) w reqs a2 w2 -> a1 = a2 /\ w1 = w2.
Proof. exact (session_fun en m uid t0 w reqs a1 w1 a2 w2). Qed.
Print Assumptions C13_abstract_server_function.

Example C13_case :
  setting test_env lfs_dir (Some noon) (eq noon) quiet /\
  holds test_env lfs_dir fs0 (World ∅ ∅) /\ asks Upload (input_of demo) demo [] /\
  enough 4000 (input_of demo) (World ∅ ∅) /\
  holds test_env lfs_dir fs_demo w_demo /\ asks Upload (input_of demo3) demo3 [] /\
  enough 4000 (input_of demo3) w_demo /\
  output (serve Upload demo3 fs_demo) = bs "000eversion=1
0000000fstatus 200
0000000fstatus 409
0001002emismatched size or cryptographic collision0000000fstatus 404
0001000dnot found0000000fstatus 200
0001004e0000000000000000000000000000000000000000000000000000000000000000 7 upload
004cba7816bf8f01cfea414140de5dae2223b00361a396177a9cb410ff61f20015ad 3 noop
0000000fstatus 409
0048id=c9eac6694eb5c5074c7ded2bd29424e7d2d4e4f1a45b15ba44bdeeeb272fdf5d
000bpath=a
0028locked-at=2001-09-17T00:00:00+00:00
0018ownername=test user
0001000dconflict
0000000fstatus 201
0048id=73b6a671c66efeb43a35cd79a0057df1a2c0ea8a5141e341101728e3179b5f04
000bpath=b
0028locked-at=2001-09-17T00:00:00+00:00
0018ownername=test user
0000000fstatus 200
0048id=c9eac6694eb5c5074c7ded2bd29424e7d2d4e4f1a45b15ba44bdeeeb272fdf5d
000bpath=a
0028locked-at=2001-09-17T00:00:00+00:00
0018ownername=test user
0000000fstatus 404
0001000enot found
0000000fstatus 200
0001004alock 73b6a671c66efeb43a35cd79a0057df1a2c0ea8a5141e341101728e3179b5f04
004cpath 73b6a671c66efeb43a35cd79a0057df1a2c0ea8a5141e341101728e3179b5f04 b
0069locked-at 73b6a671c66efeb43a35cd79a0057df1a2c0ea8a5141e341101728e3179b5f04 2001-09-17T00:00:00+00:00
0059ownername 73b6a671c66efeb43a35cd79a0057df1a2c0ea8a5141e341101728e3179b5f04 test user
0050owner 73b6a671c66efeb43a35cd79a0057df1a2c0ea8a5141e341101728e3179b5f04 ours
0000000fstatus 200
0048id=73b6a671c66efeb43a35cd79a0057df1a2c0ea8a5141e341101728e3179b5f04
000bpath=b
0028locked-at=2001-09-17T00:00:00+00:00
0018ownername=test user
0000".
Proof.
  split_and!; [exact demo_setting|exact fs0_holds| | |exact demo_holds| | |by vm_compute];
  first [apply asks_of; by vm_compute|apply enough_of; by vm_compute].
Qed.

(** ** C18 *)

(** An upload is accepted exactly if size and hash are right; after that, whatever
    else is uploaded, every download in every later session gets those bytes and
    every verification with that size succeeds, unless two contents with the same
    hash have turned up. *)
Theorem C18_upload_download en lfs umask ts (clock : Z -> Prop) pid os l s w reqs extra fuel i o kvs ds b :
  setting en lfs ts clock os -> holds en lfs s w -> asks Upload l reqs extra -> enough fuel l w ->
  reqs !! i = Some (RPut o kvs ds) -> (bs "size", b) ∈ kvs ->
  exists as_ w1 s1 a, served en lfs umask ts clock Upload pid fuel os l s w reqs as_ extra w1 s1 /\ as_ !! i = Some a /\
    (rp_code a = 200%N <-> number b (lenN (concat ds)) /\ hex_of (en_hash en (concat ds)) o) /\
    (rp_code a = 200%N ->
     forall umask' ts' clock' m' pid' os' l' reqs' extra' fuel',
     setting en lfs ts' clock' os' -> asks m' l' reqs' extra' -> enough fuel' l' w1 ->
     exists as' w2 s2, served en lfs umask' ts' clock' m' pid' fuel' os' l' s1 w1 reqs' as' extra' w2 s2 /\
       (forall j kvs', reqs' !! j = Some (RGet o kvs') ->
          exists d, (d = concat ds \/ (d <> concat ds /\ en_hash en d = en_hash en (concat ds))) /\
            as' !! j = Some (Reply 200 [bs "size=" ++ dec (lenN d) ++ [NL]] (BData d))) /\
       (forall j kvs' b', reqs' !! j = Some (RVerify o kvs') -> (bs "size", b') ∈ kvs' ->
          number b' (lenN (concat ds)) -> exists a', as' !! j = Some a' /\
            (rp_code a' = 200%N \/ exists d, d <> concat ds /\ en_hash en d = en_hash en (concat ds)))).
Proof. exact (c18 en lfs umask ts clock pid os l s w reqs extra fuel i o kvs ds b). Qed.
Print Assumptions C18_upload_download.

Definition download : list request := [RGet abc_oid []; RGet zero_oid []].
Example C18_case :
  asks Upload (input_of demo) demo [] /\ enough 4000 (input_of demo) (World ∅ ∅) /\
  demo !! 1%nat = Some (RPut abc_oid [(bs "size", bs "3")] [bs "a"; bs "bc"]) /\
  (bs "size", bs "3") ∈ [(bs "size", bs "3")] /\ number (bs "3") (lenN (concat [bs "a"; bs "bc"])) /\
  hex_of (sha256 (concat [bs "a"; bs "bc"])) abc_oid /\
  asks Download (input_of download) download [] /\ enough 4000 (input_of download) w_demo /\
  output (serve Download download fs_demo) = bs "000eversion=1
0000000fstatus 200
000bsize=3
00010007abc0000000fstatus 404
0001000enot found
0000".
Proof.
  split_and!; [apply asks_of; by vm_compute|apply enough_of; by vm_compute|done|by left|by apply parse_number| |
    apply asks_of; by vm_compute|apply enough_of; by vm_compute|by vm_compute].
  apply ObjProofs.hex_of_iff. by vm_compute.
Qed.

(** ** C21 *)

(** At any point of a session, with [wi] the abstract state at that point. *)
Theorem C21_verify_object en lfs umask ts (clock : Z -> Prop) pid os l s w reqs extra fuel i o kvs b n :
  setting en lfs ts clock os -> holds en lfs s w -> asks Upload l reqs extra -> enough fuel l w ->
  reqs !! i = Some (RVerify o kvs) -> is_oid o -> (bs "size", b) ∈ kvs -> number b n ->
  exists as_ w1 s1 wi a, served en lfs umask ts clock Upload pid fuel os l s w reqs as_ extra w1 s1 /\
    session_of en Upload (l_uid l) clock w (take i reqs) (take i as_) wi /\ as_ !! i = Some a /\
    (rp_code a = 200%N <-> exists d, w_objs wi !! o = Some d /\ lenN d = n) /\
    (rp_code a = 409%N <-> exists d, w_objs wi !! o = Some d /\ lenN d <> n) /\
    (rp_code a = 404%N <-> w_objs wi !! o = None) /\
    session_of en Upload (l_uid l) clock wi (drop (S i) reqs) (drop (S i) as_) w1.
Proof. exact (c21 en lfs umask ts clock pid os l s w reqs extra fuel i o kvs b n). Qed.
Print Assumptions C21_verify_object.

(** [demo3] verifies with the right size, a wrong size and a missing object; its
    answers are in [C13_case]. *)
Example C21_case :
  demo3 !! 0%nat = Some (RVerify abc_oid [(bs "size", bs "3")]) /\
  demo3 !! 1%nat = Some (RVerify abc_oid [(bs "size", bs "4")]) /\
  demo3 !! 2%nat = Some (RVerify zero_oid [(bs "size", bs "4")]) /\
  is_oid abc_oid /\ is_oid zero_oid /\ number (bs "3") 3 /\ number (bs "4") 4 /\
  w_objs w_demo !! abc_oid = Some (bs "abc") /\ w_objs w_demo !! zero_oid = None.
Proof. split_and!; try done; first [by apply oid_valid_iff|by apply parse_number]. Qed.

(** ** C22 *)
Theorem C22_batch en lfs umask ts (clock : Z -> Prop) m pid os l s w reqs extra fuel i kvs items :
  setting en lfs ts clock os -> holds en lfs s w -> asks m l reqs extra -> enough fuel l w ->
  reqs !! i = Some (RBatch kvs items) -> no_key (bs "hash-algo") kvs \/ (bs "hash-algo", bs "sha256") ∈ kvs ->
  exists as_ w1 s1 wi ls, served en lfs umask ts clock m pid fuel os l s w reqs as_ extra w1 s1 /\
    session_of en m (l_uid l) clock w (take i reqs) (take i as_) wi /\ as_ !! i = Some (Reply 200 [] (BLines ls)) /\
    Forall2 (fun x line => exists size, match w_objs wi !! x.1 with
      | Some d => denotes size (lenN d) /\ line = x.1 ++ bs " " ++ size ++ bs " " ++
          match m with Upload => bs "noop" | Download => bs "download" end ++ [NL]
      | None => (exists n, number x.2 n /\ denotes size n) /\ line = x.1 ++ bs " " ++ size ++ bs " " ++
          match m with Upload => bs "upload" | Download => bs "noop" end ++ [NL]
      end) items ls /\
    session_of en m (l_uid l) clock wi (drop (S i) reqs) (drop (S i) as_) w1.
Proof. exact (c22 en lfs umask ts clock m pid os l s w reqs extra fuel i kvs items). Qed.
Print Assumptions C22_batch.

Definition batch : list request := [RBatch [(bs "hash-algo", bs "sha256")] [(zero_oid, bs "7"); (abc_oid, bs "1")]].
Example C22_case :
  asks Download (input_of batch) batch [] /\ enough 4000 (input_of batch) w_demo /\
  batch !! 0%nat = Some (RBatch [(bs "hash-algo", bs "sha256")] [(zero_oid, bs "7"); (abc_oid, bs "1")]) /\
  (bs "hash-algo", bs "sha256") ∈ [(bs "hash-algo", bs "sha256")] /\
  output (serve Download batch fs_demo) = bs "000eversion=1
0000000fstatus 200
0001004c0000000000000000000000000000000000000000000000000000000000000000 7 noop
0050ba7816bf8f01cfea414140de5dae2223b00361a396177a9cb410ff61f20015ad 3 download
0000".
Proof. split_and!; [apply asks_of; by vm_compute|apply enough_of; by vm_compute|done|by left|by vm_compute]. Qed.

(** ** C25 *)

(** Locking.  A table entry for another path under the same id is a collision of
    the hash function. *)
Theorem C25_lock en lfs umask ts (clock : Z -> Prop) pid os l s w reqs extra fuel i kvs p r :
  setting en lfs ts clock os -> holds en lfs s w -> asks Upload l reqs extra -> enough fuel l w ->
  reqs !! i = Some (RLock kvs) -> (bs "path", p) ∈ kvs -> (bs "refname", r) ∈ kvs ->
  exists as_ w1 s1 wi a wi', served en lfs umask ts clock Upload pid fuel os l s w reqs as_ extra w1 s1 /\
    session_of en Upload (l_uid l) clock w (take i reqs) (take i as_) wi /\ as_ !! i = Some a /\
    session_of en Upload (l_uid l) clock wi' (drop (S i) reqs) (drop (S i) as_) w1 /\
    match w_locks wi !! lock_id (en_hash en) p with
    | None => exists t t' x, clock t /\ clock t' /\ en_time en t' = Some x /\
        a = Reply 201 (lock_info en p x (l_uid l)) BNone /\
        wi' = World (w_objs wi) (<[lock_id (en_hash en) p := (p, t, l_uid l)]> (w_locks wi))
    | Some (p', t, u) => wi' = wi /\
        (p' = p -> exists x, en_time en t = Some x /\ a = Reply 409 (lock_info en p x u) (BText (bs "conflict" ++ [NL]))) /\
        (p' <> p -> en_hash en (bs "v1:" ++ p') = en_hash en (bs "v1:" ++ p))
    end.
Proof. exact (c25_lock en lfs umask ts clock pid os l s w reqs extra fuel i kvs p r). Qed.
Print Assumptions C25_lock.

Theorem C25_unlock en lfs umask ts (clock : Z -> Prop) pid os l s w reqs extra fuel i id kvs :
  setting en lfs ts clock os -> holds en lfs s w -> asks Upload l reqs extra -> enough fuel l w ->
  reqs !! i = Some (RUnlock id kvs) -> utf8_valid id = true ->
  exists as_ w1 s1 wi a wi', served en lfs umask ts clock Upload pid fuel os l s w reqs as_ extra w1 s1 /\
    session_of en Upload (l_uid l) clock w (take i reqs) (take i as_) wi /\ as_ !! i = Some a /\
    session_of en Upload (l_uid l) clock wi' (drop (S i) reqs) (drop (S i) as_) w1 /\
    match w_locks wi !! id with
    | None => a = not_found /\ wi' = wi
    | Some (p, t, u) => wi' = World (w_objs wi) (delete id (w_locks wi)) /\
        exists x, en_time en t = Some x /\ a = Reply 200 (lock_info en p x u) BNone
    end.
Proof. exact (c25_unlock en lfs umask ts clock pid os l s w reqs extra fuel i id kvs). Qed.
Print Assumptions C25_unlock.

(** [demo3] has a held path, a free one, an unlock and an unknown id; its answers
    are in [C13_case]. *)
Example C25_case :
  demo3 !! 4%nat = Some (lock_of (bs "a")) /\ w_locks w_demo !! id_of (bs "a") = Some (bs "a", noon, 1000%N) /\
  demo3 !! 5%nat = Some (lock_of (bs "b")) /\ w_locks w_demo !! id_of (bs "b") = None /\
  demo3 !! 6%nat = Some (RUnlock (id_of (bs "a")) []) /\ utf8_valid (id_of (bs "a")) = true /\
  demo3 !! 7%nat = Some (RUnlock (bs "nonsense") []) /\ utf8_valid (bs "nonsense") = true /\
  w_locks w_demo !! bs "nonsense" = None.
Proof. split_and!; by vm_compute. Qed.

(** ** C26 *)

(** The clock is read once for the record and again for the answer. *)
Definition moving : orcs := fun n => Orc None 0 (bs "AAAAAAAAAAAA") (Z.of_nat n).
Definition lock_and_list : list request := [lock_of (bs "a"); RList [(bs "path", bs "a")]].
Theorem C26_locked_at_refuted :
  (forall n, mild None (fun t => 0 <= t)%Z (moving n)) /\
  exists x y l' s', x <> y /\
  run 0 (transfer_run test_env 4000 lfs_dir 63 None (operation Upload)) moving (input_of lock_and_list) fs0 = (Done (Ok tt), l', s') /\
  wires ([PData (bs "version=1" ++ [NL]); PFlush] ++
         PData (bs "status 201" ++ [NL]) :: lines (lock_info test_env (bs "a") x 1000) ++ [PFlush] ++
         [PData (bs "status 200" ++ [NL]); PDelim] ++ lines (lock_lines test_env Upload (bs "a") y 1000) ++ [PFlush])
    (l_out l').
Proof.
  split.
  { intros n. split_and!; [done| |]; [refine (bool_decide_eq_true_1 _ _); by vm_compute|]. intros _. simpl. lia. }
  set (r := run _ _ _ _ _). exists (bs "1970-01-01T00:00:21+00:00"), (bs "1970-01-01T00:00:15+00:00"), r.1.2, r.2.
  split_and!; [done| |].
  - assert (r.1.1 = Done (Ok tt)) by by vm_compute. destruct r as [[a l'] s']. simpl in *. by subst.
  - assert (r.1.2.(l_out) = enc_all ([PData (bs "version=1" ++ [NL]); PFlush] ++
         PData (bs "status 201" ++ [NL]) :: lines (lock_info test_env (bs "a") (bs "1970-01-01T00:00:21+00:00") 1000) ++ [PFlush] ++
         [PData (bs "status 200" ++ [NL]); PDelim] ++
         lines (lock_lines test_env Upload (bs "a") (bs "1970-01-01T00:00:15+00:00") 1000) ++ [PFlush])) as -> by by vm_compute.
    apply wires_enc. rewrite !Forall_app. repeat constructor; by vm_compute.
Qed.
Print Assumptions C26_locked_at_refuted.

(** The reported time [x] and the recorded one [y] are both readings of the clock,
    so they are equal when the clock stands still; and all later answers about the
    lock, until it is unlocked, show [y]. *)
Theorem C26_locked_at_partial en lfs umask ts (clock : Z -> Prop) pid os l s w reqs extra fuel i kvs p r :
  setting en lfs ts clock os -> holds en lfs s w -> asks Upload l reqs extra -> enough fuel l w ->
  reqs !! i = Some (RLock kvs) -> (bs "path", p) ∈ kvs -> (bs "refname", r) ∈ kvs ->
  exists as_ w1 s1, served en lfs umask ts clock Upload pid fuel os l s w reqs as_ extra w1 s1 /\
    forall a, as_ !! i = Some a -> rp_code a = 201%N ->
    exists x y t t', a = Reply 201 (lock_info en p x (l_uid l)) BNone /\
      clock t /\ en_time en t = Some y /\ clock t' /\ en_time en t' = Some x /\
      forall j, (i < j)%nat -> (forall kvs', RUnlock (lock_id (en_hash en) p) kvs' ∉ drop (S i) (take j reqs)) ->
      (forall kvs' r', reqs !! j = Some (RLock kvs') -> (bs "path", p) ∈ kvs' -> (bs "refname", r') ∈ kvs' ->
         as_ !! j = Some (Reply 409 (lock_info en p y (l_uid l)) (BText (bs "conflict" ++ [NL])))) /\
      (reqs !! j = Some (RList [(bs "path", p)]) ->
         as_ !! j = Some (Reply 200 [] (BLines (lock_lines en Upload p y (l_uid l))))) /\
      (forall kvs', reqs !! j = Some (RUnlock (lock_id (en_hash en) p) kvs') ->
         as_ !! j = Some (Reply 200 (lock_info en p y (l_uid l)) BNone)).
Proof. exact (c26 en lfs umask ts clock pid os l s w reqs extra fuel i kvs p r). Qed.
Print Assumptions C26_locked_at_partial.

(** [demo3] locks "b" (answered 201 in [C13_case]), lists it and unlocks it. *)
Example C26_case :
  demo3 !! 5%nat = Some (lock_of (bs "b")) /\ demo3 !! 8%nat = Some (RList [(bs "path", bs "b")]) /\
  demo3 !! 9%nat = Some (RUnlock (id_of (bs "b")) []) /\
  forall kvs', RUnlock (id_of (bs "b")) kvs' ∉ drop 6 (take 9 demo3).
Proof.
  split_and!; [reflexivity..|].
  assert (G : forallb (fun r => match r with RUnlock i _ => negb (bool_decide (i = id_of (bs "b"))) | _ => true end)
    (drop 6 (take 9 demo3)) = true) by by vm_compute.
  rewrite forallb_forall in G. intros kvs' H. apply elem_of_list_In, G in H. by rewrite bool_decide_eq_true_2 in H.
Qed.

(** ** C28 *)

(** The id is used as a file name, so it can lead to an object with the contents of
    a lock record. *)
Definition fake : bytes := bs "v1:0:a".
Definition fake_oid : bytes := hex_encode (sha256 fake).
Definition fake_id : bytes := bs "../objects/" ++ take 2 fake_oid ++ bs "/" ++ take 2 (drop 2 fake_oid) ++ bs "/" ++ fake_oid.
Theorem C28_unlock_refuted :
  has_file fs_demo (lfs_dir ++ [bs "locks"; id_of (bs "a")]) (record_of noon (bs "a")) /\
  exists id l' s', id <> id_of (bs "a") /\ Forall (fun c => c <> bs "locks") (split_on SLASH id) /\
  run 0 (transfer_run test_env 4000 lfs_dir 63 (Some noon) (operation Upload)) quiet
    (input_of [RPut fake_oid [(bs "size", bs "6")] [fake]; RUnlock id []]) fs_demo = (Done (Ok tt), l', s') /\
  nodes s' !! (lfs_dir ++ [bs "locks"; id_of (bs "a")]) = None /\
  exists x, l_out l' = bs "000eversion=1
0000000fstatus 200
0000000fstatus 200
0048id=" ++ id_of (bs "a") ++ x.
Proof.
  split.
  { apply (owned_has _ _ _ 1000), file_at_owned. by vm_compute. }
  exists fake_id. set (r := run _ _ _ _ _). exists r.1.2, r.2. split_and!.
  - intros E. by vm_compute in E.
  - apply Forall_forall. intros c Hc E. subst c. by apply (bool_decide_eq_true_2 _) in Hc; vm_compute in Hc.
  - assert (r.1.1 = Done (Ok tt)) by by vm_compute. destruct r as [[a l'] s']. simpl in *. by subst.
  - by vm_compute.
  - exists (drop 123 (l_out r.1.2)). by vm_compute.
Qed.
Print Assumptions C28_unlock_refuted.

(** Whatever the id and whatever fails: at most the file of one lock is removed,
    with status 200 exactly that of the id and path in the answer. *)
Theorem C28_unlock_one_lock_partial en be fuel pid os l s id out l' s' :
  Forall plain_name (be_lfs be) -> digest (en_hash en) ->
  run pid (p_unlock en be fuel id) os l s = (out, l', s') ->
  inodes s' = inodes s /\
  ((exists st p x u, out = Done (Ok st) /\ st_code st = 200%N /\
      st_args st = Some [bs "id=" ++ lock_id (en_hash en) p ++ [NL]; bs "path=" ++ p ++ [NL];
        bs "locked-at=" ++ x ++ [NL]; bs "ownername=" ++ u ++ [NL]] /\
      nodes s' = delete (be_lfs be ++ [bs "locks"; lock_id (en_hash en) p]) (nodes s)) \/
   (nodes s' = nodes s /\ forall st, out = Done (Ok st) -> st_code st <> 200%N)).
Proof. exact (c28_any en be fuel pid os l s id out l' s'). Qed.
Print Assumptions C28_unlock_one_lock_partial.

Example C28_case :
  let r := run 0 (p_unlock test_env (Backend lfs_dir 63 (Some noon)) 100 (bs "../locks/" ++ id_of (bs "a"))) quiet
             (stdin2 (bs "0000")) fs_demo in
  match r.1.1 with Done (Ok st) => st_code st = 200%N | _ => False end /\
  nodes r.2 !! (lfs_dir ++ [bs "locks"; id_of (bs "a")]) = None.
Proof. split; by vm_compute. Qed.

(** ** C30 *)

(** A client that follows next-cursor until there is none has seen, page after
    page, all locks in the order of their ids. *)
Theorem C30_listing_complete en lfs umask ts (clock : Z -> Prop) m pid os l s w reqs extra fuel b n :
  setting en lfs ts clock os -> holds en lfs s w -> asks m l reqs extra -> enough fuel l w ->
  number b n -> n <> 0%N ->
  exists as_ w' s', served en lfs umask ts clock m pid fuel os l s w reqs as_ extra w' s' /\
    (follows b None reqs as_ -> exists pgs, locks_from w None (concat pgs) /\
       shows en m (N.to_nat (N.min n 100)) as_ pgs).
Proof. exact (c30 en lfs umask ts clock m pid os l s w reqs extra fuel b n). Qed.
Print Assumptions C30_listing_complete.

(** And the end is reached after at most one request more than there are locks. *)
Theorem C30_listing_ends en lfs ts (clock : Z -> Prop) m os s w b n :
  setting en lfs ts clock os -> holds en lfs s w -> number b n -> n <> 0%N ->
  exists reqs, Forall (well_formed m) reqs /\ (length reqs <= S (size (w_locks w)))%nat /\
    forall umask pid l extra fuel, asks m l reqs extra -> enough fuel l w ->
    exists as_ w' s', served en lfs umask ts clock m pid fuel os l s w reqs as_ extra w' s' /\ follows b None reqs as_.
Proof. exact (c30_end en lfs ts clock m os s w b n). Qed.
Print Assumptions C30_listing_ends.

Definition pages : bytes := bs "000eversion=1
0000000fstatus 200
0051next-cursor=c9eac6694eb5c5074c7ded2bd29424e7d2d4e4f1a45b15ba44bdeeeb272fdf5d
0001004alock 9fb1da1b1b39374af2e737d1f8d3d6f8590892b31778af9513e578fba8fbaccb
004cpath 9fb1da1b1b39374af2e737d1f8d3d6f8590892b31778af9513e578fba8fbaccb c
0069locked-at 9fb1da1b1b39374af2e737d1f8d3d6f8590892b31778af9513e578fba8fbaccb 2001-09-17T00:00:00+00:00
0059ownername 9fb1da1b1b39374af2e737d1f8d3d6f8590892b31778af9513e578fba8fbaccb test user
0050owner 9fb1da1b1b39374af2e737d1f8d3d6f8590892b31778af9513e578fba8fbaccb ours
004alock c9eac6694eb5c5074c7ded2bd29424e7d2d4e4f1a45b15ba44bdeeeb272fdf5d
004cpath c9eac6694eb5c5074c7ded2bd29424e7d2d4e4f1a45b15ba44bdeeeb272fdf5d a
0069locked-at c9eac6694eb5c5074c7ded2bd29424e7d2d4e4f1a45b15ba44bdeeeb272fdf5d 2001-09-17T00:00:00+00:00
0059ownername c9eac6694eb5c5074c7ded2bd29424e7d2d4e4f1a45b15ba44bdeeeb272fdf5d test user
0050owner c9eac6694eb5c5074c7ded2bd29424e7d2d4e4f1a45b15ba44bdeeeb272fdf5d ours
0000000fstatus 200
0001004alock c9eac6694eb5c5074c7ded2bd29424e7d2d4e4f1a45b15ba44bdeeeb272fdf5d
004cpath c9eac6694eb5c5074c7ded2bd29424e7d2d4e4f1a45b15ba44bdeeeb272fdf5d a
0069locked-at c9eac6694eb5c5074c7ded2bd29424e7d2d4e4f1a45b15ba44bdeeeb272fdf5d 2001-09-17T00:00:00+00:00
0059ownername c9eac6694eb5c5074c7ded2bd29424e7d2d4e4f1a45b15ba44bdeeeb272fdf5d test user
0050owner c9eac6694eb5c5074c7ded2bd29424e7d2d4e4f1a45b15ba44bdeeeb272fdf5d ours
0000".
Example C30_case :
  asks Upload (input_of demo2) demo2 [] /\ enough 4000 (input_of demo2) w_demo /\ number (bs "1") 1 /\
  size (w_locks w_demo) = 2%nat /\ output (serve Upload demo2 fs_demo) = pages.
Proof.
  split_and!; [apply asks_of; by vm_compute|apply enough_of; by vm_compute|by apply parse_number|by vm_compute|by vm_compute].
Qed.

(** ** C31 *)

(** With limit 1 and two locks the first page has both. *)
Theorem C31_limit_refuted :
  demo2 !! 0%nat = Some (RList [(bs "limit", bs "1")]) /\
  exists l' s' x y, 
  run 0 (transfer_run test_env 4000 lfs_dir 63 (Some noon) (operation Upload)) quiet (input_of demo2) fs_demo = (Done (Ok tt), l', s') /\
  wires ([PData (bs "version=1" ++ [NL]); PFlush] ++
         [PData (bs "status 200" ++ [NL]); PData (bs "next-cursor=" ++ id_of (bs "a") ++ [NL]); PDelim] ++
           lines (lock_lines test_env Upload (bs "c") x 1000) ++ lines (lock_lines test_env Upload (bs "a") y 1000) ++ [PFlush] ++
         [PData (bs "status 200" ++ [NL]); PDelim] ++ lines (lock_lines test_env Upload (bs "a") y 1000) ++ [PFlush])
    (l_out l').
Proof.
  split; [done|]. set (r := run _ _ _ _ _). set (x := bs "2001-09-17T00:00:00+00:00"). exists r.1.2, r.2, x, x. split.
  - assert (r.1.1 = Done (Ok tt)) by by vm_compute. destruct r as [[a l'] s']. simpl in *. by subst.
  - match goal with |- wires ?ps _ => assert (r.1.2.(l_out) = enc_all ps) as -> by by vm_compute end.
    apply wires_enc. rewrite !Forall_app. repeat constructor; by vm_compute.
Qed.
Print Assumptions C31_limit_refuted.

(** True variant: there is a division of the locks into pages of at most [limit]
    locks without a lock on two of them, and each answer is its page and the first
    lock of the next one.  The next-cursor is that lock. *)
Theorem C31_pages_partial en lfs umask ts (clock : Z -> Prop) m pid os l s w reqs extra fuel b n :
  setting en lfs ts clock os -> holds en lfs s w -> asks m l reqs extra -> enough fuel l w ->
  number b n -> n <> 0%N ->
  exists as_ w' s', served en lfs umask ts clock m pid fuel os l s w reqs as_ extra w' s' /\
    (follows b None reqs as_ -> exists pgs, NoDup (concat pgs) /\
       Forall (fun ls => length ls <= N.to_nat (N.min n 100))%nat pgs /\
       shows en m (N.to_nat (N.min n 100)) as_ pgs).
Proof. exact (c31 en lfs umask ts clock m pid os l s w reqs extra fuel b n). Qed.
Print Assumptions C31_pages_partial.

Example C31_case :
  asks Upload (input_of demo2) demo2 [] /\ enough 4000 (input_of demo2) w_demo /\ number (bs "1") 1.
Proof. split_and!; [apply asks_of; by vm_compute|apply enough_of; by vm_compute|by apply parse_number]. Qed.
