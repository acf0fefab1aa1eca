(** Properties of a server's answers while other servers work on the same
    repository. *)
From Verif Require Import Bytes Err FS Prog Pktline Args Local Processor Transfer Sha256 Rfc3339
  Spec SpecStore SpecServer SpecTogether PktFacts PktProofs IoFacts TextProofs GetProofs ObjProofs StoreProofs SeqIo SeqCmd TogetherProofs TogetherFacts Transcripts Props_Store Props_Server.

(** ** Values for the examples *)
Definition serving (m : mode) (reqs : list request) : proc (Z * bytes) :=
  Proc (transfer_main test_env 1000 lfs_dir no_config (operation m)) (input_of reqs) false.
Definition goes (i n : nat) : list choice := replicate n (go i).
Definition oid_of (d : bytes) : bytes := hex_encode (sha256 d).
Definition upload_of (d : bytes) : request := RPut (oid_of d) [(bs "size", dec (lenN d))] [d].
Definition out_of (y : sys (Z * bytes)) (i : nat) : option bytes := l_out ∘ pr_local <$> procs y !! i.

Lemma fs0_ordinary : ordinary lfs_dir fs0.
Proof.
  assert (G : forall p n, nodes fs0 !! p = Some n -> n = NDir /\ (length p <= 2)%nat).
  { intros p n H. unfold fs0 in H. simpl in H. rewrite lookup_insert_Some, lookup_singleton_Some in H.
    destruct H as [[<- <-]|[_ [<- <-]]]; split; simpl; done || lia. }
  split.
  - intros d a b j _ _ _ H. by apply G in H as [? _].
  - by apply fs0_ok.
  - intros p c n H. unfold fs0 in H. simpl in H. rewrite lookup_insert_Some, lookup_singleton_Some in H.
    destruct H as [[E <-]|[_ [E <-]]].
    + destruct p as [|? [|? ?]]; [by left|done|]. done.
    + destruct p as [|? [|? [|? ?]]]; try done. injection E as <- <-. right. by vm_compute.
  - intros o _. split_and!; [|intros j..]; intros H; apply G in H as [? H]; try done. cbn in H. lia.
  - intros c n H. apply G in H as [_ H]. cbn in H. lia.
Qed.

Lemma servers_of ps : Forall (fun p => exists m reqs, p = serving m reqs) ps -> servers sha256 lfs_dir ps fs0.
Proof.
  intros H. split.
  - exact sha256_ok.
  - repeat constructor; try done; by (refine (bool_decide_eq_true_1 _ _); vm_compute).
  - exact fs0_ordinary.
  - apply fs0_ok.
  - eapply Forall_impl; [exact H|]. intros p (m & reqs & ->). by eexists test_env, 1000%nat, no_config, _.
Qed.

Lemma asker_of ps m cs i reqs : ps !! i = Some (serving m reqs) ->
  forallb (wf_b m) reqs = true -> forallb (fun p => lenN (payload p) <=? 65531)%N (concat (map packets_of reqs)) = true ->
  (2 * lenN (l_in (input_of reqs)) + 2 <=? 1000)%N = true ->
  Forall (fun c => c_act c = AGo quiet_orc) cs ->
  asker test_env 1000 m lfs_dir ps cs i (input_of reqs) reqs [].
Proof.
  intros Hi H1 H2 H3 H5. split; [|by apply asks_of|done|].
  - exists no_config, false. split_and!; [done| |].
    + eexists. split; [done|]. by intros e [= <-].
    + apply N.leb_le in H3. unfold lenN in H3. lia.
  - intros o Ho. rewrite Forall_forall in H5. apply H5 in Ho as [= ->]. split; [done|]. by (refine (bool_decide_eq_true_1 _ _); vm_compute).
Qed.

Lemma client_of ps m cs i reqs : ps !! i = Some (serving m reqs) ->
  forallb (wf_b m) reqs = true -> forallb (fun p => lenN (payload p) <=? 65531)%N (concat (map packets_of reqs)) = true ->
  (2 * lenN (l_in (input_of reqs)) + 2 <=? 1000)%N = true -> Forall about_objects reqs ->
  Forall (fun c => c_act c = AGo quiet_orc) cs ->
  client test_env 1000 m lfs_dir ps cs i (input_of reqs) reqs [].
Proof.
  intros Hi H1 H2 H3 H4 H5. split; [|by apply asks_of|done|done|].
  - exists no_config, false. split_and!; [done| |].
    + eexists. split; [done|]. by intros e [= <-].
    + apply N.leb_le in H3. unfold lenN in H3. lia.
  - intros o Ho. rewrite Forall_forall in H5. apply H5 in Ho as [= ->]. split; [done|]. by (refine (bool_decide_eq_true_1 _ _); vm_compute).
Qed.

(** ** C67 *)

(** A server's answers about objects are right at moments between request and
    answer, whatever the other servers do, fail or die at any time. *)
Theorem C67_right_at_a_moment en fuel m lfs ps s0 cs i l reqs extra :
  servers (en_hash en) lfs ps s0 -> client en fuel m lfs ps cs i l reqs extra ->
  exists q, procs (sys_run cs (Sys ps s0)) !! i = Some q /\
    so_far en m lfs (Sys ps s0) cs i (l_in l) reqs extra (l_out (pr_local q)) (length cs) (pr_prog q = Ret (0%Z, [])) /\
    (forall x, pr_prog q = Ret x -> x = (0%Z, [])) /\
    (forall f, pr_prog q = Fail f -> too_long lfs (Sys ps s0) cs fuel f).
Proof.
  intros [H1 H2 H3 H4 H5] [(cfg & dead & G1 & G2 & G3) G4 G5 G6 G7].
  by eapply c67.
Qed.
Print Assumptions C67_right_at_a_moment.

(** The same request twice: another server stores the object between them. *)
Definition get_twice : list (proc (Z * bytes)) :=
  [serving Download [RGet abc_oid []; RGet abc_oid []]; serving Upload [upload_of (bs "abc")]].
Definition between : list choice := goes 0 20 ++ goes 1 40 ++ goes 0 40.
Example C67_case :
  servers sha256 lfs_dir get_twice fs0 /\
  client test_env 1000 Download lfs_dir get_twice between 0 (input_of [RGet abc_oid []; RGet abc_oid []]) [RGet abc_oid []; RGet abc_oid []] [] /\
  out_of (sys_run between (Sys get_twice fs0)) 0 = Some (bs "000eversion=1
0000000fstatus 404
0001000enot found
0000000fstatus 200
000bsize=3
00010007abc0000").
Proof.
  split_and!.
  - apply servers_of. repeat constructor; by eexists _, _.
  - apply client_of; [done|by vm_compute..| |]; repeat constructor.
  - by vm_compute.
Qed.

(** ** C68 *)

(** The answer to a batch is not a picture of one moment: here its first line says
    that the first object is missing and its second that the second object is there,
    which is so at no moment. *)
Definition de_oid : bytes := oid_of (bs "de").
Definition both : request := RBatch [] [(abc_oid, bs "3"); (de_oid, bs "2")].
Definition batch_and_puts : list (proc (Z * bytes)) :=
  [serving Upload [both]; serving Upload [upload_of (bs "abc"); upload_of (bs "de")]].
Definition amid : list choice := goes 0 19 ++ goes 1 80 ++ goes 0 50.

Definition has_b (s : fs) (p : path) (d : bytes) : bool :=
  match nodes s !! p with
  | Some (NFile j) => match inodes s !! j with Some x => bool_decide (i_data x = d) | None => false end
  | _ => false
  end.
Lemma has_of s p d : has_b s p d = true -> has_file s p d.
Proof.
  unfold has_b. destruct (nodes s !! p) as [[|j]|] eqn:Ep; [done| |done]. destruct (inodes s !! j) as [x|] eqn:Ex; [|done].
  rewrite bool_decide_eq_true. intros <-. by exists j, x.
Qed.

Lemma line_there a b w o n : batch_line_for Upload w o n = a ++ bs " " ++ b ++ bs " noop" ++ [NL] -> is_Some (w_objs w !! o).
Proof.
  unfold batch_line_for. destruct (w_objs w !! o) as [d|]; [by exists d|]. intros E.
  apply (f_equal (fun l => reverse l !! 1%nat)) in E. rewrite !reverse_app in E. by vm_compute in E.
Qed.
Lemma line_missing a b w o n : batch_line_for Upload w o n = a ++ bs " " ++ b ++ bs " upload" ++ [NL] -> w_objs w !! o = None.
Proof.
  unfold batch_line_for. destruct (w_objs w !! o) as [d|]; [|done]. intros E.
  apply (f_equal (fun l => reverse l !! 1%nat)) in E. rewrite !reverse_app in E. by vm_compute in E.
Qed.

Theorem C68_batch_snapshot_refuted : exists en fuel m lfs ps s0 cs i l kvs items ns q w caps ans ls,
  servers (en_hash en) lfs ps s0 /\ client en fuel m lfs ps cs i l [RBatch kvs items] [] /\
  Forall2 (fun x n => number x.2 n) items ns /\
  procs (sys_run cs (Sys ps s0)) !! i = Some q /\ pr_prog q = Ret (0%Z, []) /\
  wires [PData (bs "version=1" ++ [NL]); PFlush] caps /\
  reply_sent (Reply 200 [] (BLines ls)) ans /\ wires ans w /\ l_out (pr_local q) = caps ++ w /\
  forall k M, stored lfs (shared (sys_run (take k cs) (Sys ps s0))) M ->
    ls <> zip_with (batch_line_for m (only M)) items.*1 ns.
Proof.
  set (la := abc_oid ++ bs " 3 upload" ++ [NL]). set (lb := de_oid ++ bs " 2 noop" ++ [NL]).
  set (ans := [PData (bs "status 200" ++ [NL]); PDelim; PData la; PData lb; PFlush]).
  assert (Hs : servers sha256 lfs_dir batch_and_puts fs0).
  { apply servers_of. repeat constructor; by eexists _, _. }
  exists test_env, 1000%nat, Upload, lfs_dir, batch_and_puts, fs0, amid, 0%nat, (input_of [both]), [], [(abc_oid, bs "3"); (de_oid, bs "2")], [3%N; 2%N].
  destruct (procs (sys_run amid (Sys batch_and_puts fs0)) !! 0%nat) as [q|] eqn:Eq; [|by vm_compute in Eq].
  exists q, (enc_all ans), (enc_all [PData (bs "version=1" ++ [NL]); PFlush]), ans, [la; lb].
  split_and!.
  - exact Hs.
  - apply client_of; [done|by vm_compute..| |]; repeat constructor.
  - repeat constructor; apply parse_number; by vm_compute.
  - reflexivity.
  - vm_compute in Eq. injection Eq as <-. reflexivity.
  - apply wires_enc. repeat constructor; by vm_compute.
  - exists (bs "200"), [], [PDelim; PData la; PData lb]. split_and!; [apply (denotes_dec 200)|done|constructor| |done].
    exists [PData la; PData lb]. split; [done|].
    assert (G : forall x, (1 <=? lenN x)%N = true -> (lenN x <=? 65516)%N = true -> line_sent x [PData x]).
    { intros x H1 H2. apply N.leb_le in H1, H2. exists [x]. split_and!; [done|by rewrite concat_cons, app_nil_r|by repeat constructor|done]. }
    apply (ls_cons la [lb] [PData la] [PData lb]); [apply G; by vm_compute|].
    apply (ls_cons lb [] [PData lb] []); [apply G; by vm_compute|constructor].
  - apply wires_enc. repeat constructor; by vm_compute.
  - vm_compute in Eq. injection Eq as <-. by vm_compute.
  - intros k M HM E. cbn [zip_with fmap list_fmap fst] in E. injection E as Ea Eb.
    assert (Ha : M !! abc_oid = None) by (apply (line_missing abc_oid (bs "3") (only M) _ 3); symmetry; exact Ea).
    assert (Hb : is_Some (M !! de_oid)) by (apply (line_there de_oid (bs "2") (only M) _ 2); symmetry; exact Eb).
    destruct Hb as [d Hb]. destruct Hs as [H1 H2 H3 H4 H5].
    destruct (decide (k <= 49)%nat) as [Hk|Hk].
    + apply HM in Hb as [Ho Hb].
      destruct (stays_stored sha256 lfs_dir batch_and_puts fs0 amid H1 H2 H5 (o_sane _ _ H3) H4 k 49 de_oid d Hk Ho Hb) as (d' & (j & x & Hj & _) & _).
      by vm_compute in Hj.
    + assert (Ho : is_oid abc_oid) by by apply oid_valid_iff.
      destruct (stays_stored sha256 lfs_dir batch_and_puts fs0 amid H1 H2 H5 (o_sane _ _ H3) H4 49 k abc_oid (bs "abc")) as (d' & Hd' & _);
        [lia|done|apply has_of; vm_compute; reflexivity|].
      pose proof (proj2 (HM abc_oid d') (conj Ho Hd')) as G. rewrite Ha in G. discriminate G.
Qed.
Print Assumptions C68_batch_snapshot_refuted.

(** Each line of a batch is right at its own moment, after the request was read and
    before anything of the answer was written, and these moments are in the order of
    the lines. *)
Theorem C68_batch_lines_partial en fuel m lfs ps s0 cs i l kvs items extra h q :
  servers (en_hash en) lfs ps s0 -> client en fuel m lfs ps cs i l [RBatch kvs items] extra ->
  key (bs "hash-algo") kvs h -> h = None \/ h = Some (bs "sha256") ->
  procs (sys_run cs (Sys ps s0)) !! i = Some q -> pr_prog q = Ret (0%Z, []) ->
  exists caps ans w more we ls ks inp,
    wires [PData (bs "version=1" ++ [NL]); PFlush] caps /\
    reply_sent (Reply 200 [] (BLines ls)) ans /\ wires ans w /\ replies_sent extra more /\ wires more we /\
    l_out (pr_local q) = caps ++ w ++ we /\
    length ls = length items /\ length ks = length items /\
    (forall a b x y, (a < b)%nat -> ks !! a = Some x -> ks !! b = Some y -> (x <= y)%nat) /\
    forall a o b k line, items !! a = Some (o, b) -> ks !! a = Some k -> ls !! a = Some line ->
      exists M n, number b n /\ now lfs (Sys ps s0) cs i k M inp caps /\ line = batch_line_for m (only M) o n.
Proof.
  intros Hs Hc Hh Hsha Hq Hend.
  destruct (C67_right_at_a_moment en fuel m lfs ps s0 cs i l _ extra Hs Hc) as (q' & Hq' & Hsf & _).
  assert (q' = q) as -> by congruence. pose proof (cl_asks _ _ _ _ _ _ _ _ _ _ Hc) as [Hwf _]. apply Forall_cons in Hwf as [Hwf _].
  destruct Hsf as (caps & asked & later & as_ & k & inp & w & more & we & H1 & H2 & H3 & H4 & H5 & H6 & H7 & H8).
  destruct (H8 Hend) as (-> & Hmore & Hout). rewrite app_nil_r in H2. subst asked.
  inversion H3 as [|rs as' k0 inp' out r a k' wr wa ans Ht Hr Hright Hans Hwa E1 E2]; [subst..].
  apply (app_inj_tail rs []) in E1 as [-> ->]. inversion Ht as [|rs' ? ? ? ? ? ? ? ? ? ? E3]; [|by destruct rs']. subst.
  destruct (right_batch_moments en m lfs (Sys ps s0) cs i inp out 0 kvs items h a k Hwf Hh Hsha Hright)
    as (ls & ks & -> & G1 & G2 & G3 & G4).
  exists out, ans, wa, more, we, ls, ks, inp. split_and!; try done. by rewrite Hout, app_assoc.
Qed.
Print Assumptions C68_batch_lines_partial.

Example C68_case :
  servers sha256 lfs_dir batch_and_puts fs0 /\ client test_env 1000 Upload lfs_dir batch_and_puts amid 0 (input_of [both]) [both] [] /\
  key (bs "hash-algo") [] None /\
  exists q, procs (sys_run amid (Sys batch_and_puts fs0)) !! 0%nat = Some q /\ pr_prog q = Ret (0%Z, []).
Proof.
  split_and!.
  - apply servers_of. repeat constructor; by eexists _, _.
  - apply client_of; [done|by vm_compute..| |]; repeat constructor.
  - apply not_elem_of_nil.
  - destruct (procs (sys_run amid (Sys batch_and_puts fs0)) !! 0%nat) as [q|] eqn:Eq; [|by vm_compute in Eq].
    exists q. split; [reflexivity|]. vm_compute in Eq. injection Eq as <-. reflexivity.
Qed.

(** ** C74 *)

(** Answers about locks are right at moments too: each thing an answer is made of was
    so at a moment between the request and the answer, and these moments come one
    after another.  A server gives up only for one of the reasons listed. *)
Theorem C74_right_at_moments en fuel m lfs ps s0 cs i l reqs extra :
  servers (en_hash en) lfs ps s0 -> asker en fuel m lfs ps cs i l reqs extra ->
  exists q, procs (sys_run cs (Sys ps s0)) !! i = Some q /\
    so_far en m lfs (Sys ps s0) cs i (l_in l) reqs extra (l_out (pr_local q)) (length cs) (pr_prog q = Ret (0%Z, [])) /\
    (forall x, pr_prog q = Ret x -> x = (0%Z, [])) /\
    (forall f, pr_prog q = Fail f -> gives_up en lfs (Sys ps s0) cs i fuel reqs f).
Proof.
  intros [H1 H2 H3 H4 H5] [(cfg & dead & G1 & G2 & G3) G4 G5 G6].
  by eapply c74.
Qed.
Print Assumptions C74_right_at_moments.

(** ** C69 *)

(** Once a server has answered a good upload, the object is stored for good. *)
Theorem C69_acknowledged_uploads en fuel lfs ps s0 cs i l reqs extra K q n o kvs ds b k :
  servers (en_hash en) lfs ps s0 -> asker en fuel Upload lfs ps (take K cs) i l reqs extra ->
  procs (sys_run (take K cs) (Sys ps s0)) !! i = Some q -> answered (l_out (pr_local q)) (S n) ->
  reqs !! n = Some (RPut o kvs ds) -> (bs "size", b) ∈ kvs -> number b (lenN (concat ds)) -> hex_of (en_hash en (concat ds)) o ->
  (K <= k)%nat -> exists d, has_file (shared (sys_run (take k cs) (Sys ps s0))) (object_path lfs o) d /\
    same_object (en_hash en) (concat ds) d.
Proof.
  intros [H1 H2 H3 H4 H5] [(cfg & dead & G1 & G2 & G3) G4 G6 G7] Hq Ha Hn Hb Hnum Hh Hk.
  destruct (upload_stays lfs ps s0 en fuel cfg cs i l dead reqs extra K q n o kvs ds b) as (Ho & k0 & Hk0 & Hf); [done..|].
  eapply (stays_stored (en_hash en) lfs ps s0 cs H1 H2 H5 (o_sane _ _ H3) H4 k0 k); [lia|done|done].
Qed.
Print Assumptions C69_acknowledged_uploads.

(** From then on every server knows it: whatever request it has not yet read, its
    answer is that of a repository with the object. *)
Theorem C69_seen_by_all en fuel fuel' lfs ps s0 cs i l reqs extra K q n o kvs ds b m j l' reqs' extra' q' :
  servers (en_hash en) lfs ps s0 -> asker en fuel Upload lfs ps (take K cs) i l reqs extra ->
  procs (sys_run (take K cs) (Sys ps s0)) !! i = Some q -> answered (l_out (pr_local q)) (S n) ->
  reqs !! n = Some (RPut o kvs ds) -> (bs "size", b) ∈ kvs -> number b (lenN (concat ds)) -> hex_of (en_hash en (concat ds)) o ->
  asker en fuel' m lfs ps cs j l' reqs' extra' ->
  procs (sys_run cs (Sys ps s0)) !! j = Some q' ->
  so_far_such en m lfs (Sys ps s0) cs j (l_in l') reqs' extra' (l_out (pr_local q')) (fun asked as_ =>
    forall n' r a, asked !! n' = Some r -> as_ !! n' = Some a -> unread (Sys ps s0) cs j (l_in l') reqs' K n' ->
      knows en m o (concat ds) r a).
Proof.
  intros Hs [(cfg & dead & G1 & G2 & G3) G4 G6 G7] Hq Ha Hn Hb Hnum Hh Hc Hq'.
  destruct (C74_right_at_moments en fuel' m lfs ps s0 cs j l' reqs' extra' Hs Hc) as (q2 & Hq2 & Hsf & _).
  assert (q2 = q') as -> by congruence. destruct Hs as [H1 H2 H3 H4 H5].
  destruct (upload_stays lfs ps s0 en fuel cfg cs i l dead reqs extra K q n o kvs ds b) as (Ho & k0 & Hk0 & Hf); [done..|].
  destruct Hsf as (caps & asked & later & as_ & k & inp & w & more & we & F1 & F2 & F3 & F4 & F5 & F6 & F7 & _).
  exists caps, asked, later, as_, k, inp, w, more, we. split_and!; [done..|].
  intros n' r a Hr Ha' Hun.
  destruct (told_at en m lfs (Sys ps s0) cs j _ _ _ _ _ _ _ n' r F3 Hr) as (a2 & k1 & k2 & inp1 & out1 & wn & Ha2 & Hright & Hk2 & Hwn & Hinp).
  assert (a2 = a) as -> by congruence. subst reqs'.
  assert (Hr' : (asked ++ later) !! n' = Some r) by by apply lookup_app_l_Some.
  pose proof (as_asks _ _ _ _ _ _ _ _ _ _ Hc) as [Hwf _]. pose proof (Forall_lookup_1 _ _ _ _ Hwf Hr') as Hw.
  eapply (knows_it lfs ps s0 cs en m H1 H2 H5 (o_sane _ _ H3) H4 j inp1 out1 k1 r a k2 k0 o (concat ds) Hw); [|done|done|done].
  intros k3 M HM. enough (K <= k3)%nat by lia.
  eapply (unread_after lfs ps s0 cs j inp1 (l_in l') out1 r K n' (asked ++ later) wn Hun Hr'); [|done|exact HM].
  rewrite take_app_le; [done|]. apply lookup_lt_Some in Hr. lia.
Qed.
Print Assumptions C69_seen_by_all.

(** The download of [get_twice] that comes after the upload. *)
Example C69_case :
  let K := 60%nat in exists q q0,
  asker test_env 1000 Upload lfs_dir get_twice (take K between) 1 (input_of [upload_of (bs "abc")]) [upload_of (bs "abc")] [] /\
  procs (sys_run (take K between) (Sys get_twice fs0)) !! 1%nat = Some q /\ answered (l_out (pr_local q)) 1 /\
  hex_of (sha256 (concat [bs "abc"])) abc_oid /\ number (bs "3") (lenN (concat [bs "abc"])) /\
  procs (sys_run (take K between) (Sys get_twice fs0)) !! 0%nat = Some q0 /\
  unread (Sys get_twice fs0) between 0 (l_in (input_of [RGet abc_oid []; RGet abc_oid []])) [RGet abc_oid []; RGet abc_oid []] K 1.
Proof.
  intros K. set (y := sys_run (take K between) (Sys get_twice fs0)).
  set (ans := [PData (bs "version=1" ++ [NL]); PFlush; PData (bs "status 200" ++ [NL]); PFlush]).
  assert (E1 : l_out ∘ pr_local <$> procs y !! 1%nat = Some (enc_all ans)) by (vm_compute; reflexivity).
  assert (E0 : (fun p => length (l_in (pr_local p))) <$> procs y !! 0%nat = Some 84%nat) by (vm_compute; reflexivity).
  apply fmap_Some in E1 as (q & Eq & E1). apply fmap_Some in E0 as (q0 & Eq0 & E0). simpl in E1.
  exists q, q0. split_and!.
  - apply asker_of; [done|by vm_compute..|]; repeat constructor.
  - exact Eq.
  - exists ans, (enc_all ans). rewrite <- E1. split_and!; [|reflexivity|apply Nat.ltb_lt; vm_compute; reflexivity].
    apply wires_enc. repeat constructor; by vm_compute.
  - apply hex_of_iff. by vm_compute.
  - apply parse_number. by vm_compute.
  - exact Eq0.
  - exists q0, (enc_all (concat (map packets_of (take 1 [RGet abc_oid []; RGet abc_oid []])))). split_and!.
    + exact Eq0.
    + apply wires_enc. repeat constructor; by vm_compute.
    + rewrite <- E0. apply Nat.leb_le. by vm_compute.
Qed.

(** ** C70 *)

(** A server that is not killed and gets its turn again and again answers all its
    requests and ends with success, whatever the others do: none of them can make
    it wait. *)
Theorem C70_always_ends en fuel m lfs ps s0 f i l reqs extra :
  servers (en_hash en) lfs ps s0 -> (forall n, client en fuel m lfs ps (first n f) i l reqs extra) ->
  (forall p, ps !! i = Some p -> pr_dead p = false) -> (forall n, f n <> Choice i ACrash) ->
  (forall n, exists n' o, (n <= n')%nat /\ f n' = Choice i (AGo o)) ->
  (forall n o d, has_file (shared (sys_run (first n f) (Sys ps s0))) (object_path lfs o) d -> (length d < fuel)%nat) ->
  exists n q, procs (sys_run (first n f) (Sys ps s0)) !! i = Some q /\ pr_prog q = Ret (0%Z, []) /\
    so_far en m lfs (Sys ps s0) (first n f) i (l_in l) reqs extra (l_out (pr_local q)) n True.
Proof.
  intros Hs Hc Hd Hlive Hagain Hshort.
  destruct (cl_program _ _ _ _ _ _ _ _ _ _ (Hc 0%nat)) as (cfg & dead & Hp & _).
  assert (dead = false) as -> by (by specialize (Hd _ Hp)).
  destruct (comes_to_end f i Hlive Hagain (Sys ps s0) (transfer_main en fuel lfs cfg (operation m)) 0 l Hp) as (n & p & l' & Hn & Hp').
  destruct (C67_right_at_a_moment en fuel m lfs ps s0 (first n f) i l reqs extra Hs (Hc n)) as (q & Hq & Hsf & Hr & Hf).
  rewrite Hn in Hq. injection Hq as <-. cbn [pr_prog pr_local] in *.
  assert (Hlen : length (first n f) = n) by (unfold first; by rewrite map_length, seq_length).
  rewrite Hlen in Hsf.
  destruct p as [x|x|e k]; [| |done].
  - rewrite (Hr x eq_refl) in *. exists n, (Proc (Ret (0%Z, [])) l' false). split_and!; [done|done|].
    destruct Hsf as (caps & asked & later & as_ & k & inp & w & more & we & F1 & F2 & F3 & F4 & F5 & F6 & F7 & F8).
    exists caps, asked, later, as_, k, inp, w, more, we. split_and!; try done. intros _. by apply F8.
  - destruct (Hf x eq_refl) as (_ & k & o & d & Hfile & Hlong). 
    assert (E : exists k', take k (first n f) = first k' f).
    { exists (k `min` n)%nat. unfold first. rewrite firstn_map. f_equal.
      generalize 0%nat as a. clear. revert n. induction k as [|k IH]; intros [|n] a; try done. cbn. by rewrite IH. }
    destruct E as [k' E]. rewrite E in Hfile. specialize (Hshort _ _ _ Hfile). lia.
Qed.
Print Assumptions C70_always_ends.

Definition quiet_now (y : sys (Z * bytes)) : bool :=
  forallb (fun p => match pr_prog p with Ret _ => true | _ => false end) (procs y).
Lemma quiet_stays g n0 n y0 : quiet_now (sys_run (first n0 (fun n => go (g n))) y0) = true -> (n0 <= n)%nat ->
  sys_run (first n (fun n => go (g n))) y0 = sys_run (first n0 (fun n => go (g n))) y0.
Proof.
  intros Hq. induction 1 as [|n Hle IH]; [done|]. rewrite first_S. unfold sys_run in *. rewrite fold_left_app. cbn [fold_left]. rewrite IH.
  set (y := fold_left sys_step (first n0 _) y0) in *. unfold sys_step, go. cbn [c_pid c_act].
  destruct (procs y !! g n) as [p|] eqn:Ep; [|done].
  unfold quiet_now in Hq. rewrite forallb_forall in Hq. specialize (Hq p (proj1 (elem_of_list_In _ _) (elem_of_list_lookup_2 _ _ _ Ep))).
  destruct p as [[x|x|e k] l dead]; cbn [pr_prog] in Hq; try done. unfold proc_step. cbn [pr_dead pr_prog pr_local].
  destruct dead; rewrite list_insert_id by done; by destruct y.
Qed.
Definition below (n : N) (s : fs) : bool := forallb (fun x => lenN (i_data x) <? n)%N (inodes s).
Lemma below_all n s p d : below n s = true -> has_file s p d -> (length d < N.to_nat n)%nat.
Proof.
  intros Hb (j & x & _ & Hx & <-). unfold below in Hb. rewrite forallb_forall in Hb.
  specialize (Hb x (proj1 (elem_of_list_In _ _) (elem_of_list_lookup_2 _ _ _ Hx))). apply N.ltb_lt in Hb. unfold lenN in Hb. lia.
Qed.

(** Two servers take turns for ever. *)
Example C70_case : let f := fun n => go (n `mod` 2)%nat in
  servers sha256 lfs_dir get_twice fs0 /\
  (forall n, client test_env 1000 Download lfs_dir get_twice (first n f) 0 (input_of [RGet abc_oid []; RGet abc_oid []]) [RGet abc_oid []; RGet abc_oid []] []) /\
  (forall p, get_twice !! 0%nat = Some p -> pr_dead p = false) /\ (forall n, f n <> Choice 0 ACrash) /\
  (forall n, exists n' o, (n <= n')%nat /\ f n' = Choice 0 (AGo o)) /\
  (forall n o d, has_file (shared (sys_run (first n f) (Sys get_twice fs0))) (object_path lfs_dir o) d -> (length d < 1000)%nat).
Proof.
  intros f. split_and!.
  - apply servers_of. repeat constructor; by eexists _, _.
  - intros n. apply client_of; [done|by vm_compute..|repeat constructor|].
    apply Forall_forall. intros c Hc. unfold first in Hc. apply elem_of_list_fmap in Hc as (x & -> & _). done.
  - by intros p [= <-].
  - done.
  - intros n. exists (n * 2)%nat, quiet_orc. split; [lia|]. unfold f. by rewrite Nat.mod_mul.
  - intros n o d. apply (below_all 1000).
    assert (Hall : forallb (fun n => below 1000 (shared (sys_run (first n f) (Sys get_twice fs0)))) (seq 0 160) = true) by (vm_compute; reflexivity).
    destruct (decide (n < 160)%nat) as [Hn|Hn].
    + rewrite forallb_forall in Hall. apply Hall, in_seq. lia.
    + unfold f. rewrite (quiet_stays (fun n => n `mod` 2)%nat 159 n); [|vm_compute; reflexivity|lia].
      rewrite forallb_forall in Hall. apply Hall, in_seq. lia.
Qed.
