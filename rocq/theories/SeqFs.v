(** File-system steps of a server that runs alone, in terms of the abstract
    server. *)
From Verif Require Import Bytes ByteFacts Err FS Prog Pktline Args Local Processor Transfer
  Spec SpecStore SpecServer FsFacts TextProofs ObjProofs StoreProofs.

(** Inodes keep contents and owner. *)
Definition ino_le (s s' : fs) : Prop :=
  forall j x, inodes s !! j = Some x ->
  exists x', inodes s' !! j = Some x' /\ i_data x' = i_data x /\ i_uid x' = i_uid x.

Lemma ino_le_refl s : ino_le s s.
Proof. intros j x H. by exists x. Qed.
Lemma ino_le_trans a b c : ino_le a b -> ino_le b c -> ino_le a c.
Proof.
  intros H1 H2 j x Hx. destruct (H1 j x Hx) as (y & Hy & E1 & E2).
  destruct (H2 j y Hy) as (z & Hz & E3 & E4). exists z. split_and!; congruence.
Qed.
Lemma ino_le_eq s s' : inodes s' = inodes s -> ino_le s s'.
Proof. intros E j x H. exists x. by rewrite E. Qed.
Lemma ino_le_grow s s' l : inodes s' = inodes s ++ l -> ino_le s s'.
Proof. intros E j x H. exists x. rewrite E. split; [|done]. by apply lookup_app_l_Some. Qed.
Lemma ino_le_upd s i f : (forall x, i_data (f x) = i_data x) -> (forall x, i_uid (f x) = i_uid x) ->
  ino_le s (upd_inode i f s).
Proof.
  intros H1 H2 j x H. destruct (decide (i = j)) as [->|Hj].
  - exists (f x). split; [by apply inodes_upd_eq|done].
  - exists x. by rewrite inodes_upd_ne.
Qed.
Lemma ino_le_length s s' : ino_le s s' -> (length (inodes s) <= length (inodes s'))%nat.
Proof.
  intros H. destruct (length (inodes s)) as [|n] eqn:E; [lia|].
  destruct (lookup_lt_is_Some_2 (inodes s) n) as [x Hx]; [lia|].
  destruct (H n x Hx) as (x' & Hx' & _). apply lookup_lt_Some in Hx'. lia.
Qed.

Lemma is_dir_to s p : is_dir s p -> dirs_to s p.
Proof. intros H a b E. destruct a as [|c a]; [done|]. by apply (H _ b). Qed.
Lemma node_at_cons s p : p <> [] -> node_at s p = nodes s !! p.
Proof. by destruct p. Qed.

Lemma hex_no_nul l : Forall (fun c => exists v, hex_digit c v) l -> no_nul l.
Proof.
  intros H Hin. rewrite Forall_forall in H. destruct (H _ Hin) as [v Hv].
  apply hex_digit_plain in Hv. naive_solver.
Qed.

Lemma walk_app s cur a b :
  walk s cur (a ++ b) = match walk s cur a with inl e => inl e | inr c => walk s c b end.
Proof.
  revert cur. induction a as [|c a IH]; intros cur; simpl; [done|].
  destruct (node_at s cur) as [[|i]|]; try done. repeat case_decide; apply IH.
Qed.

Lemma walk_step s cur c cs : stays c -> node_at s cur = Some NDir ->
  walk s cur (c :: cs) = walk s (cur ++ [c]) cs.
Proof.
  intros (H1 & H2 & H3) H. simpl. rewrite H. rewrite decide_False by naive_solver. by rewrite decide_False.
Qed.

Local Ltac all_done := repeat first [apply Forall_nil_2 | apply Forall_cons_2; [try done|]].

Section fs.
Context (en : env) (lfs : path).
Context (HH : digest (en_hash en)) (Hlfs : Forall plain_name lfs).
Local Notation rep := (represents en lfs).
Local Notation dir d := (lfs ++ [bs d]).

Lemma lfs_stays : Forall stays lfs.
Proof using Hlfs. by apply plain_stays_all. Qed.
Lemma lfs_no_nul : Forall no_nul lfs.
Proof using Hlfs. eapply Forall_impl; [exact Hlfs|]. intros c Hc. unfold plain_name in Hc. naive_solver. Qed.

(** Entries of the directories of the server. *)
Lemma resolve_in s d n : lfs_dirs s lfs -> d ∈ [bs "objects"; bs "incomplete"; bs "tmp"; bs "locks"] ->
  stays n -> no_nul n -> resolve s (lfs ++ [d; n]) = inr (lfs ++ [d; n]).
Proof using Hlfs.
  intros Hr Hd H1 H2. replace (lfs ++ [d; n]) with ((lfs ++ [d]) ++ [n]) by (by rewrite <- app_assoc).
  assert (stays d /\ no_nul d) as [H3 H4].
  { repeat (apply elem_of_cons in Hd as [->|Hd]; [split; [done|]; unfold no_nul; refine (bool_decide_eq_true_1 _ _); by vm_compute|]).
    by apply elem_of_nil in Hd. }
  apply resolve_dirs.
  - rewrite <- app_assoc. apply Forall_app. split; [apply lfs_stays|]. by all_done.
  - rewrite <- app_assoc. apply Forall_app. split; [apply lfs_no_nul|]. by all_done.
  - apply is_dir_to. by apply Hr.
Qed.

Lemma resolve_dir s d : lfs_dirs s lfs -> d ∈ [bs "objects"; bs "incomplete"; bs "tmp"; bs "locks"] ->
  resolve s (lfs ++ [d]) = inr (lfs ++ [d]) /\ node_at s (lfs ++ [d]) = Some NDir.
Proof using Hlfs.
  intros Hr Hd. pose proof (Hr d Hd) as Hi.
  assert (stays d /\ no_nul d) as [H3 H4].
  { repeat (apply elem_of_cons in Hd as [->|Hd]; [split; [done|]; unfold no_nul; refine (bool_decide_eq_true_1 _ _); by vm_compute|]).
    by apply elem_of_nil in Hd. }
  split.
  - apply resolve_dirs.
    + apply Forall_app. split; [apply lfs_stays|]. by all_done.
    + apply Forall_app. split; [apply lfs_no_nul|]. by all_done.
    + apply is_dir_to in Hi. intros a b ->. apply (Hi a (b ++ [d])). by rewrite app_assoc.
  - apply is_dir_to in Hi. apply (Hi _ []). by rewrite app_nil_r.
Qed.

Lemma dirs_mono s s' : (forall q, nodes s !! q = Some NDir -> nodes s' !! q = Some NDir) ->
  lfs_dirs s lfs -> lfs_dirs s' lfs.
Proof using Type. intros H Hd c Hc a b E Hn. apply H. by apply (Hd c Hc a b). Qed.

(** Two components of an id. *)
Lemma oid_parts o : is_oid o ->
  stays (take 2 o) /\ no_nul (take 2 o) /\ stays (take 2 (drop 2 o)) /\ no_nul (take 2 (drop 2 o)) /\
  stays o /\ no_nul o.
Proof using Type.
  intros [Hl Hf].
  assert (Ht : forall n, Forall (fun c => exists v, hex_digit c v) (take 2 (drop n o)))
    by (intros n; by apply Forall_take, Forall_drop).
  assert (Hn : forall n, (n + 2 <= 64)%nat -> take 2 (drop n o) <> []).
  { intros n Hn E. apply (f_equal length) in E. rewrite take_length, drop_length, Hl in E. cbn [length] in E. lia. }
  pose proof (Ht 0%nat) as H0. pose proof (Ht 2%nat) as H2. rewrite drop_0 in H0.
  pose proof (Hn 0%nat ltac:(lia)) as N0. pose proof (Hn 2%nat ltac:(lia)) as N2. rewrite drop_0 in N0.
  split_and!; try (by apply plain_stays, hex_plain_name); try (by apply hex_no_nul).
  - apply plain_stays, hex_plain_name; [|done]. by intros ->.
Qed.

(** Looking an object up. *)
Lemma look_at s c o : lfs_dirs s lfs -> sane s -> tree s ->
  (nodes s !! object_path lfs o <> Some NDir /\
   (forall j, nodes s !! (lfs ++ [bs "objects"; take 2 o]) <> Some (NFile j)) /\
   (forall j, nodes s !! (lfs ++ [bs "objects"; take 2 o; take 2 (drop 2 o)]) <> Some (NFile j))) ->
  (forall d, c = Some d <-> has_file s (object_path lfs o) d) -> is_oid o ->
  match c with
  | Some d => resolve s (object_path lfs o) = inr (object_path lfs o) /\
              exists j x, nodes s !! object_path lfs o = Some (NFile j) /\ inodes s !! j = Some x /\ i_data x = d
  | None => resolve s (object_path lfs o) = inl ENOENT \/
            resolve s (object_path lfs o) = inr (object_path lfs o) /\ nodes s !! object_path lfs o = None
  end.
Proof using Hlfs.
  intros Hdirs Hsane Htree (D1 & D2 & D3) Hiff Ho. destruct (oid_parts o Ho) as (S1 & N1 & S2 & N2 & S3 & N3).
  set (x := take 2 o) in *. set (y := take 2 (drop 2 o)) in *.
  assert (Hw : resolve s (object_path lfs o) = walk s (dir "objects") [x; y; o]).
  { destruct (resolve_dir s (bs "objects") Hdirs) as [E1 E2]; [by constructor|].
    unfold resolve in E1 |- *.
    assert (Hall : Forall no_nul (lfs ++ [bs "objects"; x; y; o])).
    { apply Forall_app. split; [apply lfs_no_nul|]. all_done.
      unfold no_nul. refine (bool_decide_eq_true_1 _ _). by vm_compute. }
    unfold object_path. fold x y. rewrite has_nul_false by done.
    destruct (has_nul (dir "objects")); [done|].
    replace (lfs ++ [bs "objects"; x; y; o]) with (dir "objects" ++ [x; y; o]) by (by rewrite <- app_assoc).
    by rewrite walk_app, E1. }
  assert (Hobj : node_at s (dir "objects") = Some NDir).
  { by apply (resolve_dir s); [|constructor]. }
  rewrite walk_step in Hw by done.
  assert (E1 : (dir "objects" ++ [x]) = lfs ++ [bs "objects"; x]) by (by rewrite <- app_assoc).
  assert (E2 : (lfs ++ [bs "objects"; x]) ++ [y] = lfs ++ [bs "objects"; x; y]) by (by rewrite <- app_assoc).
  assert (E3 : (lfs ++ [bs "objects"; x; y]) ++ [o] = object_path lfs o) by (by unfold object_path; rewrite <- app_assoc).
  rewrite E1 in Hw.
  fold x y in D2, D3.
  assert (Hne : forall z : path, lfs ++ bs "objects" :: z <> []) by (by intros z [_ ?]%app_eq_nil).
  assert (Hup : forall n, nodes s !! object_path lfs o = Some n ->
    nodes s !! (lfs ++ [bs "objects"; x; y]) = Some NDir /\ nodes s !! (lfs ++ [bs "objects"; x]) = Some NDir).
  { intros n Hn. rewrite <- E3 in Hn. destruct (Htree _ _ _ Hn) as [E|Hy]; [by apply Hne in E|].
    split; [done|]. rewrite <- E2 in Hy. destruct (Htree _ _ _ Hy) as [E|Hx]; [by apply Hne in E|done]. }
  destruct c as [d|] eqn:Eo.
  - destruct (proj1 (Hiff d) eq_refl) as (j & z & Hj & Hz & Hd). destruct (Hup _ Hj) as [Hy Hx].
    split; [|by exists j, z]. rewrite Hw. rewrite walk_step by (done || by rewrite node_at_cons).
    rewrite E2, walk_step by (done || by rewrite node_at_cons). by rewrite E3.
  - assert (Hnone : nodes s !! object_path lfs o = None).
    { destruct (nodes s !! object_path lfs o) as [[|j]|] eqn:Ej; [done| |done].
      destruct (lookup_lt_is_Some_2 (inodes s) j) as [z Hz]; [by eapply Hsane|].
      assert (has_file s (object_path lfs o) (i_data z)) as Hf by (by exists j, z).
      apply Hiff in Hf. congruence. }
    destruct (nodes s !! (lfs ++ [bs "objects"; x])) as [[|j]|] eqn:Ex; [|by destruct (D2 j)|].
    + rewrite walk_step in Hw by (done || by rewrite node_at_cons). rewrite E2 in Hw.
      destruct (nodes s !! (lfs ++ [bs "objects"; x; y])) as [[|j]|] eqn:Ey; [|by destruct (D3 j)|].
      * rewrite walk_step in Hw by (done || by rewrite node_at_cons). rewrite E3 in Hw. by right.
      * left. rewrite Hw. simpl. by rewrite node_at_cons, Ey.
    + left. rewrite Hw. simpl. by rewrite node_at_cons, Ex.
Qed.

Lemma look_object s w o : rep s w -> is_oid o ->
  match w_objs w !! o with
  | Some d => resolve s (object_path lfs o) = inr (object_path lfs o) /\
              exists j x, nodes s !! object_path lfs o = Some (NFile j) /\ inodes s !! j = Some x /\ i_data x = d
  | None => resolve s (object_path lfs o) = inl ENOENT \/
            resolve s (object_path lfs o) = inr (object_path lfs o) /\ nodes s !! object_path lfs o = None
  end.
Proof using Hlfs.
  intros Hr Ho. apply look_at; try apply Hr; try done. intros d. by apply (r_obj _ _ _ _ Hr).
Qed.

(** ** States that represent the same or a changed server *)

Lemma rep_same s s' w : rep s w -> nodes s' = nodes s -> ino_le s s' -> rep s' w.
Proof using Type.
  intros Hr En Hi. destruct Hr as [H1 H2 H3 H4 H5 H6 H7 H8].
  split; try (unfold lfs_dirs, is_dir, sane, tree in *; rewrite En); try done.
  - intros p j Hj. pose proof (ino_le_length _ _ Hi). specialize (H2 p j Hj). lia.
  - intros o d Ho. rewrite (H4 o d Ho). unfold has_file. rewrite En. split.
    + intros (j & x & Hj & Hx & Hd). destruct (Hi _ _ Hx) as (x' & Hx' & E & _). exists j, x'.
      split_and!; congruence.
    + intros (j & x & Hj & Hx & Hd). destruct (lookup_lt_is_Some_2 (inodes s) j (H2 _ _ Hj)) as [z Hz].
      destruct (Hi _ _ Hz) as (x' & Hx' & E & _). exists j, z. split_and!; congruence.
  - intros i p t u Hl. destruct (H7 _ _ _ _ Hl) as ((j & x & Hj & Hx & Hd & Hu) & Hr).
    split; [|done]. destruct (Hi _ _ Hx) as (x' & Hx' & E1 & E2). exists j, x'. rewrite En. split_and!; congruence.
Qed.

Lemma lock_obj_ne c o : lfs ++ [bs "locks"; c] <> object_path lfs o.
Proof using Type. intros E. by apply app_inv_head in E. Qed.

(** A new object. *)
Lemma rep_put s s' w o d j x : rep s w -> is_oid o -> ino_le s s' ->
  nodes s' !! object_path lfs o = Some (NFile j) -> inodes s' !! j = Some x -> i_data x = d ->
  let a := lfs ++ [bs "objects"; take 2 o] in
  let b := lfs ++ [bs "objects"; take 2 o; take 2 (drop 2 o)] in
  nodes s' !! a = Some NDir -> nodes s' !! b = Some NDir ->
  (forall q, q <> object_path lfs o -> q <> a -> q <> b -> nodes s' !! q = nodes s !! q) ->
  rep s' (World (<[o := d]> (w_objs w)) (w_locks w)).
Proof using Type.
  intros Hr Ho Hi Hj Hx Hd a b Ha Hb Hq.
  assert (Hab : forall q, nodes s !! q = Some NDir -> nodes s' !! q = Some NDir).
  { intros q E. destruct (decide (q = object_path lfs o)) as [->|Hne].
    - by destruct (r_obj_dir _ _ _ _ Hr o Ho).
    - destruct (decide (q = a)) as [->|]; [done|]. destruct (decide (q = b)) as [->|]; [done|].
      by rewrite Hq. }
  assert (Hfile : forall q k, q <> object_path lfs o -> nodes s' !! q = Some (NFile k) -> nodes s !! q = Some (NFile k)).
  { intros q k Hne E. rewrite Hq in E; [done|done|congruence|congruence]. }
  assert (Hfile' : forall q k, q <> object_path lfs o -> nodes s !! q = Some (NFile k) -> nodes s' !! q = Some (NFile k)).
  { destruct (r_obj_dir _ _ _ _ Hr o Ho) as (D1 & D2 & D3).
    intros q k Hne E. rewrite Hq; [done|done| |]; intros ->.
    - by apply (D2 k).
    - by apply (D3 k). }
  assert (Eb : b = a ++ [take 2 (drop 2 o)]) by (unfold a, b; by rewrite <- app_assoc).
  assert (Ea : a = dir "objects" ++ [take 2 o]) by (unfold a; by rewrite <- app_assoc).
  assert (Ep : object_path lfs o = b ++ [o]) by (unfold b, object_path; by rewrite <- app_assoc).
  assert (Hinj : forall o', object_path lfs o' = object_path lfs o -> o' = o).
  { intros o' E. rewrite !object_path_eq in E. by apply expected_path_inj in E. }
  split; simpl.
  - intros c Hc p q E Hne. apply Hab. by apply (r_dirs _ _ _ _ Hr c Hc p q).
  - intros p k Hk. destruct (decide (p = object_path lfs o)) as [->|Hne].
    + rewrite Hj in Hk. injection Hk as <-. by apply lookup_lt_Some in Hx.
    + apply Hfile in Hk; [|done]. apply (r_sane _ _ _ _ Hr) in Hk. pose proof (ino_le_length _ _ Hi). lia.
  - intros p c n Hn. destruct (decide (p ++ [c] = object_path lfs o)) as [E|Hne].
    { rewrite Ep in E. apply app_inj_tail in E as [-> ->]. by right. }
    destruct (decide (p ++ [c] = b)) as [E|Hnb].
    { rewrite Eb in E. apply app_inj_tail in E as [-> ->]. by right. }
    destruct (decide (p ++ [c] = a)) as [E|Hna].
    { rewrite Ea in E. apply app_inj_tail in E as [-> ->]. right. apply Hab.
      apply (r_dirs _ _ _ _ Hr (bs "objects")) with (b := []); [by constructor|by rewrite app_nil_r|by intros [_ ?]%app_eq_nil]. }
    rewrite Hq in Hn by done. destruct (r_tree _ _ _ _ Hr _ _ _ Hn) as [->|H]; [by left|right]. by apply Hab.
  - intros o' d' Ho'. destruct (decide (o' = o)) as [->|Hne].
    + rewrite lookup_insert. split.
      * intros [= <-]. by exists j, x.
      * intros (k & z & Hk & Hz & Hzd). congruence.
    + rewrite lookup_insert_ne by done. rewrite (r_obj _ _ _ _ Hr o' d' Ho').
      assert (Hp : object_path lfs o' <> object_path lfs o) by (intros E; by apply Hinj in E).
      split.
      * intros (k & z & Hk & Hz & Hzd). destruct (Hi _ _ Hz) as (z' & Hz' & E & _).
        exists k, z'. split_and!; [by apply Hfile'|done|congruence].
      * intros (k & z & Hk & Hz & Hzd). apply Hfile in Hk; [|done].
        destruct (lookup_lt_is_Some_2 (inodes s) k (r_sane _ _ _ _ Hr _ _ Hk)) as [z0 Hz0].
        destruct (Hi _ _ Hz0) as (z' & Hz' & E & _). exists k, z0. split_and!; congruence.
  - intros o' d'. destruct (decide (o' = o)) as [->|Hne]; [done|].
    rewrite lookup_insert_ne by done. apply (r_obj_keys _ _ _ _ Hr).
  - intros o' Ho'. destruct (r_obj_dir _ _ _ _ Hr o' Ho') as (D1 & D2 & D3).
    assert (Hl : length (object_path lfs o') = (length lfs + 4)%nat) by (by unfold object_path; rewrite app_length).
    assert (Hla : length a = (length lfs + 2)%nat) by (unfold a; by rewrite app_length).
    assert (Hlb : length b = (length lfs + 3)%nat) by (unfold b; by rewrite app_length).
    split_and!.
    + destruct (decide (o' = o)) as [->|Hne]; [by rewrite Hj|].
      rewrite Hq; [done|by intros E; apply Hinj in E|..]; intros E; apply (f_equal length) in E; rewrite Hl in E; lia.
    + intros k E. apply Hfile in E; [by apply D2 in E|].
      intros E'. apply (f_equal length) in E'. unfold object_path in E'. rewrite !app_length in E'. simpl in E'. lia.
    + intros k E. apply Hfile in E; [by apply D3 in E|].
      intros E'. apply (f_equal length) in E'. unfold object_path in E'. rewrite !app_length in E'. simpl in E'. lia.
  - intros i p t u Hl. destruct (r_lock _ _ _ _ Hr _ _ _ _ Hl) as ((k & z & Hk & Hz & Hzd & Hu) & HR).
    split; [|done]. destruct (Hi _ _ Hz) as (z' & Hz' & E1 & E2). exists k, z'.
    split_and!; try congruence. apply Hfile'; [apply lock_obj_ne|done].
  - intros i n Hn. apply (r_lock_only _ _ _ _ Hr i n). rewrite Hq in Hn; [done|apply lock_obj_ne|..];
      intros E; by apply app_inv_head in E.
Qed.

(** A new lock. *)
Lemma rep_lock s s' w p t u j x : rep s w -> ino_le s s' ->
  nodes s' = <[lfs ++ [bs "locks"; lock_id (en_hash en) p] := NFile j]> (nodes s) ->
  w_locks w !! lock_id (en_hash en) p = None ->
  inodes s' !! j = Some x -> i_data x = record_of t p -> i_uid x = u -> time_ok en t ->
  rep s' (World (w_objs w) (<[lock_id (en_hash en) p := (p, t, u)]> (w_locks w))).
Proof using HH.
  intros Hr Hi En Hw Hx Hd Hu Ht. set (i := lock_id (en_hash en) p) in *.
  set (f := lfs ++ [bs "locks"; i]) in *.
  assert (Hf : nodes s !! f = None).
  { apply eq_None_not_Some. intros [n Hn]. apply (r_lock_only _ _ _ _ Hr) in Hn as [? E]. congruence. }
  assert (Hlf : length f = (length lfs + 2)%nat) by (unfold f; by rewrite app_length).
  assert (Hfo : forall o, object_path lfs o <> f) by (intros o E; by apply (lock_obj_ne i o)).
  assert (Hne : forall q n, nodes s !! q = Some n -> nodes s' !! q = Some n).
  { intros q n Hq. rewrite En, lookup_insert_ne; [done|]. intros <-. congruence. }
  split; simpl.
  - intros c Hc a b E Hn. apply Hne. by apply (r_dirs _ _ _ _ Hr c Hc a b).
  - intros q k. rewrite En, lookup_insert_Some. intros [[<- [= <-]]|[_ Hk]].
    + by apply lookup_lt_Some in Hx.
    + apply (r_sane _ _ _ _ Hr) in Hk. pose proof (ino_le_length _ _ Hi). lia.
  - intros q c n. rewrite En at 1. rewrite lookup_insert_Some. intros [[E _]|[_ Hn]].
    + unfold f in E. change [bs "locks"; i] with ([bs "locks"] ++ [i]) in E. rewrite app_assoc in E.
      apply app_inj_tail in E as [<- <-]. right. apply Hne.
      apply (r_dirs _ _ _ _ Hr (bs "locks")) with (b := []); [|by rewrite app_nil_r|by intros [_ ?]%app_eq_nil].
      do 3 (apply elem_of_cons; right). by constructor.
    + destruct (r_tree _ _ _ _ Hr _ _ _ Hn) as [->|H]; [by left|right]. by apply Hne.
  - intros o d Ho. rewrite (r_obj _ _ _ _ Hr o d Ho). unfold has_file.
    rewrite En, lookup_insert_ne by (intros E; by apply (Hfo o)). split.
    + intros (k & z & Hk & Hz & Hzd). destruct (Hi _ _ Hz) as (z' & Hz' & E & _). exists k, z'. split_and!; congruence.
    + intros (k & z & Hk & Hz & Hzd). destruct (lookup_lt_is_Some_2 (inodes s) k (r_sane _ _ _ _ Hr _ _ Hk)) as [z0 Hz0].
      destruct (Hi _ _ Hz0) as (z' & Hz' & E & _). exists k, z0. split_and!; congruence.
  - apply (r_obj_keys _ _ _ _ Hr).
  - intros o Ho. destruct (r_obj_dir _ _ _ _ Hr o Ho) as (D1 & D2 & D3). rewrite En. split_and!.
    + rewrite lookup_insert_ne; [done|]. intros E. by apply (Hfo o).
    + intros k. rewrite lookup_insert_ne; [apply D2|]. intros E. unfold f in E. by apply app_inv_head in E.
    + intros k. rewrite lookup_insert_ne; [apply D3|]. intros E. unfold f in E. by apply app_inv_head in E.
  - intros i' p' t' u'. rewrite lookup_insert_Some. intros [[<- [= <- <- <-]]|[Hni Hl]].
    + split; [|done]. exists j, x. rewrite En, lookup_insert. done.
    + destruct (r_lock _ _ _ _ Hr _ _ _ _ Hl) as ((k & z & Hk & Hz & Hzd & Hzu) & HR).
      split; [|done]. destruct (Hi _ _ Hz) as (z' & Hz' & E1 & E2). exists k, z'.
      split_and!; try congruence. by apply Hne.
  - intros i' n. rewrite En, lookup_insert_Some. intros [[E _]|[E Hn]].
    + unfold f in E. apply app_inv_head in E. injection E as <-. rewrite lookup_insert. by eexists.
    + assert (i <> i') by (intros <-; done). rewrite lookup_insert_ne by done. by apply (r_lock_only _ _ _ _ Hr i' n).
Qed.

(** A lock less. *)
Lemma rep_unlock s s' w i : rep s w -> ino_le s s' ->
  nodes s' = delete (lfs ++ [bs "locks"; i]) (nodes s) -> is_Some (w_locks w !! i) ->
  rep s' (World (w_objs w) (delete i (w_locks w))).
Proof using Type.
  intros Hr Hi En [[[p0 t0] u0] Hw]. set (f := lfs ++ [bs "locks"; i]) in *.
  destruct (r_lock _ _ _ _ Hr _ _ _ _ Hw) as ((jf & xf & Hjf & _) & _).
  fold f in Hjf.
  assert (Hfo : forall o, object_path lfs o <> f) by (intros o E; by apply (lock_obj_ne i o)).
  assert (Hne : forall q, nodes s !! q = Some NDir -> nodes s' !! q = Some NDir).
  { intros q Hq. rewrite En, lookup_delete_ne; [done|]. intros <-. congruence. }
  split; simpl.
  - intros c Hc a b E Hn. apply Hne. by apply (r_dirs _ _ _ _ Hr c Hc a b).
  - intros q k. rewrite En, lookup_delete_Some. intros [_ Hk].
    apply (r_sane _ _ _ _ Hr) in Hk. pose proof (ino_le_length _ _ Hi). lia.
  - intros q c n. rewrite En at 1. rewrite lookup_delete_Some. intros [_ Hn].
    destruct (r_tree _ _ _ _ Hr _ _ _ Hn) as [->|H]; [by left|right]. by apply Hne.
  - intros o d Ho. rewrite (r_obj _ _ _ _ Hr o d Ho). unfold has_file.
    rewrite En, lookup_delete_ne by (intros E; by apply (Hfo o)). split.
    + intros (k & z & Hk & Hz & Hzd). destruct (Hi _ _ Hz) as (z' & Hz' & E & _). exists k, z'. split_and!; congruence.
    + intros (k & z & Hk & Hz & Hzd). destruct (lookup_lt_is_Some_2 (inodes s) k (r_sane _ _ _ _ Hr _ _ Hk)) as [z0 Hz0].
      destruct (Hi _ _ Hz0) as (z' & Hz' & E & _). exists k, z0. split_and!; congruence.
  - apply (r_obj_keys _ _ _ _ Hr).
  - intros o Ho. destruct (r_obj_dir _ _ _ _ Hr o Ho) as (D1 & D2 & D3). rewrite En. split_and!.
    + intros E. apply lookup_delete_Some in E as [_ E]. done.
    + intros k E. apply lookup_delete_Some in E as [_ E]. by apply D2 in E.
    + intros k E. apply lookup_delete_Some in E as [_ E]. by apply D3 in E.
  - intros i' p' t' u'. rewrite lookup_delete_Some. intros [Hni Hl].
    destruct (r_lock _ _ _ _ Hr _ _ _ _ Hl) as ((k & z & Hk & Hz & Hzd & Hzu) & HR).
    split; [|done]. destruct (Hi _ _ Hz) as (z' & Hz' & E1 & E2). exists k, z'.
    split_and!; try congruence. rewrite En, lookup_delete_ne; [done|].
    intros E. unfold f in E. apply app_inv_head in E. congruence.
  - intros i' n. rewrite En, lookup_delete_Some. intros [E Hn].
    assert (i <> i') by (intros <-; done). rewrite lookup_delete_ne by done. by apply (r_lock_only _ _ _ _ Hr i' n).
Qed.

(** [mkdir -p] succeeds unless a file is in the way. *)
Lemma mkdirs_ok s cur comps :
  (forall a b k, a <> [] -> comps = a ++ b -> nodes s !! (cur ++ a) <> Some (NFile k)) ->
  exists s', fs_mkdirs s cur comps = inr s'.
Proof using Type.
  revert s cur. induction comps as [|c comps IH]; intros s cur H; simpl; [by eexists|].
  destruct (nodes s !! (cur ++ [c])) as [[|k]|] eqn:E.
  - apply IH. intros a b k Ha ->. rewrite <- app_assoc. apply (H (c :: a) b); done.
  - by destruct (H [c] comps k).
  - apply IH. intros a b k Ha ->. simpl. rewrite lookup_insert_ne.
    + rewrite <- app_assoc. apply (H (c :: a) b); done.
    + intros E'. apply (f_equal length) in E'. rewrite !app_length in E'. destruct a; [done|]. simpl in E'. lia.
Qed.
End fs.
