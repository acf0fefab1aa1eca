(** Properties of a server in a repository with damaged objects: C90, C91, C92.  The
    theorems are about one server, whose calls succeed; the worlds [w] may hold
    anything as their objects. *)
From Verif Require Import Bytes Err FS Prog Pktline Args Local Processor Transfer Sha256 Rfc3339
  Spec SpecStore SpecServer SpecDamage TextProofs ObjProofs SeqCmd Session SessionFacts SessionProps DamageProofs
  Transcripts Props_Store Props_Server Props_Together.

(** The object "abc" with other contents in the repository of the examples. *)
Definition abc_inode (s : fs) : nat := match nodes s !! object_path lfs_dir abc_oid with Some (NFile j) => j | _ => 0 end.
Definition with_abc (c : bytes) : fs :=
  FS (nodes fs_demo) (<[abc_inode fs_demo := Inode c 1000 292 0 false]> (inodes fs_demo)) (hist fs_demo).
Definition w_with (c : bytes) : world := World {[ abc_oid := c ]} (w_locks w_demo).
Definition short : fs := with_abc (bs "ab").
Definition wrong : fs := with_abc (bs "abd").
Lemma nodes_FS a b c : nodes (FS a b c) = a. Proof. done. Qed.
Lemma with_abc_holds c : owned_file (with_abc c) (object_path lfs_dir abc_oid) c 1000 ->
  forallb (fun x => file_b c (with_abc c) x.1 x.2) demo_nodes = true -> forallb (fun x => tree_b (with_abc c) x.1 x.2) demo_nodes = true ->
  forallb (fun x => lock_b (w_with c) x.1 x.2) demo_nodes = true ->
  owned_file (with_abc c) (lfs_dir ++ [bs "locks"; id_of (bs "a")]) (record_of noon (bs "a")) 1000 ->
  owned_file (with_abc c) (lfs_dir ++ [bs "locks"; id_of (bs "c")]) (record_of noon (bs "c")) 1000 ->
  holds test_env lfs_dir (with_abc c) (w_with c).
Proof.
  intros Ho Hf Ht Hk Ha Hc. apply (holds_check c).
  - intros p n H. unfold with_abc in H. rewrite nodes_FS in H. exact (each_node (file_b c (with_abc c)) Hf p n H).
  - intros p n H. unfold with_abc in H. rewrite nodes_FS in H. exact (each_node (tree_b (with_abc c)) Ht p n H).
  - intros p n H. unfold with_abc in H. rewrite nodes_FS in H. exact (each_node (lock_b (w_with c)) Hk p n H).
  - reflexivity.
  - exact Ho.
  - pose proof (set_clock _ _ _ _ _ demo_setting noon eq_refl) as T.
    clear Hf Ht Hk Ho. intros i p t u. unfold w_with, w_demo. cbn [w_locks]. rewrite lookup_insert_Some, lookup_singleton_Some.
    intros [[<- [= <- <- <-]]|[_ [<- [= <- <- <-]]]].
    + split; [exact Ha|]. split; [reflexivity|exact T].
    + split; [exact Hc|]. split; [reflexivity|exact T].
Qed.
Lemma short_holds : holds test_env lfs_dir short (w_with (bs "ab")).
Proof. unfold short. apply (with_abc_holds (bs "ab")); [apply file_at_owned; by vm_compute|vm_compute; reflexivity..|apply file_at_owned; by vm_compute|apply file_at_owned; by vm_compute]. Qed.
Lemma wrong_holds : holds test_env lfs_dir wrong (w_with (bs "abd")).
Proof. unfold wrong. apply (with_abc_holds (bs "abd")); [apply file_at_owned; by vm_compute|vm_compute; reflexivity..|apply file_at_owned; by vm_compute|apply file_at_owned; by vm_compute]. Qed.
Lemma not_abc c : hex_encode (sha256 c) <> abc_oid -> damaged test_env (w_with c) abc_oid.
Proof. intros H. exists c. split; [apply lookup_singleton|]. intros G%hex_of_iff. by apply H. Qed.

(** ** C90 *)

(** Refuted: damage goes unnoticed.  What is stored is given out with 200, and a client
    that would upload the object again is told that there is nothing to do.  If only the
    length is right, verify-object is content too. *)
Definition in_doubt : list request := [RBatch [] [(abc_oid, bs "3")]; RVerify abc_oid [(bs "size", bs "3")]].
Theorem C90_noticed_refuted : exists en lfs s w o,
  holds en lfs s w /\ damaged en w o /\
  output (serve Download [RGet o []] s) = bs "000eversion=1
0000000fstatus 200
000bsize=3
00010007abd0000" /\
  output (serve Upload in_doubt s) = bs "000eversion=1
0000000fstatus 200
0001004cba7816bf8f01cfea414140de5dae2223b00361a396177a9cb410ff61f20015ad 3 noop
0000000fstatus 200
0000".
Proof.
  exists test_env, lfs_dir, wrong, (w_with (bs "abd")), abc_oid.
  split_and!; [exact wrong_holds|apply not_abc; by vm_compute|vm_compute; reflexivity|vm_compute; reflexivity].
Qed.
Print Assumptions C90_noticed_refuted.

(** Proved instead: verify-object notices every object of a wrong length. *)
Theorem C90_wrong_length_partial en lfs umask ts clock pid os l s o d w before kvs b n after extra fuel :
  setting en lfs ts clock os -> holds en lfs s w -> asks Upload l (before ++ RVerify o kvs :: after) extra -> enough fuel l w ->
  w_objs w !! o = Some d -> Forall (fun r => o ∉ names r) before ->
  is_oid o -> (bs "size", b) ∈ kvs -> number b n -> lenN d <> n ->
  exists as1 as2 w1 s1, served en lfs umask ts clock Upload pid fuel os l s w (before ++ RVerify o kvs :: after)
      (as1 ++ Reply 409 [] (BText (bs "mismatched size or cryptographic collision")) :: as2) extra w1 s1 /\ length as1 = length before.
Proof.
  intros H1 H2 H3 H4 Hw Hn Ho Hb Hnum Hne.
  destruct (c90 en lfs umask ts clock Upload pid os l s o d w before (RVerify o kvs) after extra fuel H1 H2 H3 H4 Hw Hn)
    as (as1 & a & as2 & w1 & s1 & wi & wj & Hs & Hlen & Hd & Ha).
  assert (Hwf : well_formed Upload (RVerify o kvs)).
  { destruct H3 as [Hwf _]. rewrite Forall_forall in Hwf. apply Hwf, elem_of_app. right. by left. }
  destruct Hwf as (_ & Hk & _).
  pose proof (verify_length _ _ _ _ _ _ _ _ _ _ _ _ Hk Ho Hb Hnum Hd Hne Ha) as ->. by exists as1, as2, w1, s1.
Qed.
Print Assumptions C90_wrong_length_partial.

Definition checks : list request := [RList [(bs "path", bs "a")]; RVerify abc_oid [(bs "size", bs "3")]].
Example C90_case :
  setting test_env lfs_dir (Some noon) (eq noon) quiet /\ holds test_env lfs_dir short (w_with (bs "ab")) /\
  asks Upload (input_of checks) checks [] /\ enough 4000 (input_of checks) (w_with (bs "ab")) /\
  Forall (fun r => abc_oid ∉ names r) (take 1 checks) /\ is_oid abc_oid /\ number (bs "3") 3 /\
  damaged test_env (w_with (bs "ab")) abc_oid.
Proof.
  split_and!; [exact demo_setting|exact short_holds|apply asks_of; by vm_compute|apply enough_of; by vm_compute| |by apply oid_valid_iff|by apply parse_number|].
  - apply Forall_singleton. by intros ?%elem_of_nil.
  - apply not_abc. by vm_compute.
Qed.

(** ** C91 *)

(** The objects [D] may be damaged, missing or there without reason: requests that do
    not name them are answered as if [w0] were stored, where the [D] are what they should
    be, and the [D] stay as they are. *)
Theorem C91_damage_stays_local en lfs umask ts (clock : Z -> Prop) m pid os l s (D : bytes -> Prop) w w0 reqs extra fuel :
  setting en lfs ts clock os -> holds en lfs s w -> asks m l reqs extra -> enough fuel l w ->
  same_but D w w0 -> Forall (fun r => Forall (fun o => ~ D o) (names r)) reqs ->
  exists as_ w1 s1 w2, served en lfs umask ts clock m pid fuel os l s w reqs as_ extra w1 s1 /\
    session_of en m (l_uid l) clock w0 reqs as_ w2 /\ same_but D w1 w2 /\ forall o, D o -> w_objs w1 !! o = w_objs w !! o.
Proof. exact (c91 en lfs umask ts clock m pid os l s D w w0 reqs extra fuel). Qed.
Print Assumptions C91_damage_stays_local.

Lemma with_same c : same_but (eq abc_oid) (w_with c) w_demo.
Proof.
  split; [done|]. intros o Ho. unfold w_with, w_demo. cbn [w_objs]. by rewrite !lookup_singleton_ne.
Qed.
Definition others : list request :=
  [upload_of (bs "de"); RBatch [] [(zero_oid, bs "7")]; lock_of (bs "b"); RUnlock (id_of (bs "a")) []; RList []].
Lemma others_elsewhere : Forall (fun r => Forall (fun o => ~ abc_oid = o) (names r)) others.
Proof.
  assert (H1 : abc_oid <> zero_oid) by (refine (bool_decide_eq_true_1 _ _); by vm_compute).
  assert (H2 : abc_oid <> hd [] (names (upload_of (bs "de")))) by (refine (bool_decide_eq_true_1 _ _); by vm_compute).
  repeat constructor; done.
Qed.
Example C91_case :
  setting test_env lfs_dir (Some noon) (eq noon) quiet /\ holds test_env lfs_dir wrong (w_with (bs "abd")) /\
  asks Upload (input_of others) others [] /\ enough 4000 (input_of others) (w_with (bs "abd")) /\
  same_but (eq abc_oid) (w_with (bs "abd")) w_demo /\ damaged test_env (w_with (bs "abd")) abc_oid /\
  Forall (fun r => Forall (fun o => ~ abc_oid = o) (names r)) others.
Proof.
  split_and!; [exact demo_setting|exact wrong_holds|apply asks_of; by vm_compute|apply enough_of; by vm_compute|apply with_same| |exact others_elsewhere].
  apply not_abc. by vm_compute.
Qed.

(** ** C92 *)

(** An upload of the right contents repairs whatever was there in place of the object
    [o]: it is answered 200, and all answers and the final state are those of a server
    that started with [w0], where [o] was what it should be, or missing. *)
Theorem C92_upload_repairs en lfs umask ts (clock : Z -> Prop) pid os l s o w w0 before kvs ds b after extra fuel :
  setting en lfs ts clock os -> holds en lfs s w -> asks Upload l (before ++ RPut o kvs ds :: after) extra -> enough fuel l w ->
  same_but (eq o) w w0 -> Forall (fun r => o ∉ names r) before ->
  (bs "size", b) ∈ kvs -> number b (lenN (concat ds)) -> hex_of (en_hash en (concat ds)) o ->
  exists as1 as2 w1 s1, served en lfs umask ts clock Upload pid fuel os l s w (before ++ RPut o kvs ds :: after) (as1 ++ Reply 200 [] BNone :: as2) extra w1 s1 /\
    length as1 = length before /\
    session_of en Upload (l_uid l) clock w0 (before ++ RPut o kvs ds :: after) (as1 ++ Reply 200 [] BNone :: as2) w1.
Proof. exact (c92 en lfs umask ts clock pid os l s o w w0 before kvs ds b after extra fuel). Qed.
Print Assumptions C92_upload_repairs.

Definition repair : list request :=
  [RList [(bs "path", bs "a")]; RPut abc_oid [(bs "size", bs "3")] [bs "a"; bs "bc"]; RVerify abc_oid [(bs "size", bs "3")]].
Example C92_case :
  setting test_env lfs_dir (Some noon) (eq noon) quiet /\ holds test_env lfs_dir short (w_with (bs "ab")) /\
  asks Upload (input_of repair) repair [] /\ enough 4000 (input_of repair) (w_with (bs "ab")) /\
  same_but (eq abc_oid) (w_with (bs "ab")) w_demo /\ damaged test_env (w_with (bs "ab")) abc_oid /\
  Forall (fun r => abc_oid ∉ names r) (take 1 repair) /\
  number (bs "3") (lenN (concat [bs "a"; bs "bc"])) /\ hex_of (sha256 (concat [bs "a"; bs "bc"])) abc_oid /\
  output (serve Download [RGet abc_oid []] (final_fs (serve Upload repair short))) = bs "000eversion=1
0000000fstatus 200
000bsize=3
00010007abc0000".
Proof.
  split_and!; [exact demo_setting|exact short_holds|apply asks_of; by vm_compute|apply enough_of; by vm_compute|apply with_same| | |by apply parse_number| |vm_compute; reflexivity].
  - apply not_abc. by vm_compute.
  - apply Forall_singleton. by intros ?%elem_of_nil.
  - apply hex_of_iff. by vm_compute.
Qed.
