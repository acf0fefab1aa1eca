(** Facts about the file-system model. *)
From Verif Require Import Bytes Err FS Prog.

(** A component path resolution keeps. *)
Definition stays (c : name) : Prop := c <> [] /\ c <> bs "." /\ c <> bs "..".

Lemma walk_stays s cur comps q :
  Forall stays comps -> walk s cur comps = inr q -> q = cur ++ comps.
Proof.
  intros H. revert cur. induction H as [|c comps (H1 & H2 & H3) _ IH]; intros cur; simpl.
  { intros [= <-]. by rewrite app_nil_r. }
  destruct (node_at s cur) as [[|i]|]; try done.
  rewrite decide_False by naive_solver. rewrite decide_False by done.
  intros E. apply IH in E. by rewrite E, <- app_assoc.
Qed.

Lemma resolve_stays s p q : Forall stays p -> resolve s p = inr q -> q = p.
Proof. unfold resolve. destruct (has_nul p); [done|]. intros H E. by apply walk_stays in E. Qed.

Lemma node_at_app s p c : node_at s (p ++ [c]) = nodes s !! (p ++ [c]).
Proof. by destruct p. Qed.

Lemma file_at_stays s p c q i :
  Forall stays (p ++ [c]) -> file_at s (p ++ [c]) = inr (q, i) ->
  q = p ++ [c] /\ nodes s !! (p ++ [c]) = Some (NFile i).
Proof.
  intros Hp. unfold file_at. destruct (resolve s (p ++ [c])) as [e|r] eqn:E; [done|].
  apply resolve_stays in E; [|done]. subst r. rewrite node_at_app.
  destruct (nodes s !! (p ++ [c])) as [[|j]|]; [done| |done]. by intros [= -> ->].
Qed.

(** All directories from the root down to [p] exist. *)
Definition dirs_to (s : fs) (p : path) : Prop :=
  forall a b, p = a ++ b -> node_at s a = Some NDir.

Lemma dirs_to_app s p c :
  dirs_to s (p ++ [c]) <-> dirs_to s p /\ node_at s (p ++ [c]) = Some NDir.
Proof.
  split.
  - intros H. split.
    + intros a b ->. apply (H a (b ++ [c])). by rewrite app_assoc.
    + apply (H _ []). by rewrite app_nil_r.
  - intros [H1 H2] a b E. destruct b as [|x b _] using rev_ind.
    + rewrite app_nil_r in E. by subst a.
    + rewrite app_assoc in E. apply app_inj_tail in E as [-> ->]. by apply (H1 a b).
Qed.

Definition no_nul (c : name) : Prop := Byte.x00 ∉ c.

Lemma has_nul_false p : Forall no_nul p -> has_nul p = false.
Proof.
  intros H. unfold has_nul. apply not_true_iff_false. rewrite existsb_exists.
  intros (c & Hc & Hb). rewrite existsb_exists in Hb. destruct Hb as (b & Hb & E).
  apply bool_decide_eq_true in E as ->. rewrite Forall_forall in H.
  apply elem_of_list_In in Hc. apply (H c Hc). by apply elem_of_list_In.
Qed.

Lemma walk_dirs s cur comps c :
  Forall stays (comps ++ [c]) ->
  (forall a b, comps = a ++ b -> node_at s (cur ++ a) = Some NDir) ->
  walk s cur (comps ++ [c]) = inr (cur ++ comps ++ [c]).
Proof.
  revert cur. induction comps as [|d comps IH]; intros cur Hs Hd; simpl.
  - apply Forall_singleton in Hs as (H1 & H2 & H3).
    rewrite <- (app_nil_r cur), (Hd [] [] eq_refl). rewrite app_nil_r.
    rewrite decide_False by naive_solver. by rewrite decide_False.
  - apply Forall_cons in Hs as [(H1 & H2 & H3) Hs].
    pose proof (Hd [] (d :: comps) eq_refl) as Hc. rewrite app_nil_r in Hc. rewrite Hc.
    rewrite decide_False by naive_solver. rewrite decide_False by done.
    rewrite IH; [by rewrite <- app_assoc|done|].
    intros a b ->. rewrite <- app_assoc. by apply (Hd (d :: a) b).
Qed.

Lemma resolve_dirs s p c :
  Forall stays (p ++ [c]) -> Forall no_nul (p ++ [c]) -> dirs_to s p ->
  resolve s (p ++ [c]) = inr (p ++ [c]).
Proof.
  intros H1 H2 H3. unfold resolve. rewrite has_nul_false by done.
  apply (walk_dirs s [] p c H1). intros a b ->. by apply (H3 a b).
Qed.

(** [mkdir -p] only adds directories on the way. *)
Lemma mkdirs_spec s cur comps s' :
  fs_mkdirs s cur comps = inr s' ->
  inodes s' = inodes s /\ hist s' = hist s /\
  (forall q, nodes s' !! q = nodes s !! q \/
     (nodes s !! q = None /\ nodes s' !! q = Some NDir /\
      exists a b, a <> [] /\ comps = a ++ b /\ q = cur ++ a)) /\
  (forall a b, a <> [] -> comps = a ++ b -> nodes s' !! (cur ++ a) = Some NDir).
Proof.
  revert s cur. induction comps as [|c comps IH]; intros s cur; simpl.
  { intros [= <-]. split_and!; [done|done|by left|]. intros a b Ha E. by destruct a. }
  assert (Hall : forall s1, fs_mkdirs s1 (cur ++ [c]) comps = inr s' ->
    nodes s1 !! (cur ++ [c]) = Some NDir ->
    (forall a b, a <> [] -> c :: comps = a ++ b -> nodes s' !! (cur ++ a) = Some NDir)).
  { intros s1 H1 H2 a b Ha E. destruct (IH _ _ H1) as (_ & _ & H3 & H4).
    destruct a as [|c' a]; [done|]. simpl in E. injection E as <- E.
    destruct (decide (a = [])) as [->|Hne].
    - destruct (H3 (cur ++ [c])) as [H5|(H5 & _)]; congruence.
    - replace (cur ++ c :: a) with ((cur ++ [c]) ++ a) by (by rewrite <- app_assoc).
      by apply (H4 a b). }
  destruct (nodes s !! (cur ++ [c])) as [[|i]|] eqn:E; [|done|].
  - intros H. pose proof (Hall _ H E) as Ha.
    destruct (IH _ _ H) as (H1 & H2 & H3 & _). split_and!; try done.
    intros q. destruct (H3 q) as [?|(H4 & H5 & a & b & Hne & -> & ->)]; [by left|].
    right. split_and!; try done. exists (c :: a), b. split_and!; try done. by rewrite <- app_assoc.
  - intros H. assert (E' : nodes (set_nodes <[cur ++ [c] := NDir]> s) !! (cur ++ [c]) = Some NDir).
    { simpl. by rewrite lookup_insert. }
    pose proof (Hall _ H E') as Ha.
    destruct (IH _ _ H) as (H1 & H2 & H3 & _). split_and!; try done.
    intros q. destruct (H3 q) as [H4|(H4 & H5 & a & b & Hne & -> & ->)].
    + simpl in H4. destruct (decide (q = cur ++ [c])) as [->|Hq].
      * right. rewrite lookup_insert in H4. split_and!; try done. by exists [c], comps.
      * left. by rewrite lookup_insert_ne in H4.
    + right. simpl in H4. apply lookup_insert_None in H4 as [H4 _]. split_and!; try done.
      exists (c :: a), b. split_and!; try done. by rewrite <- app_assoc.
Qed.

(** A temporary file gets a new name and a new inode. *)
Lemma max_name_le s p n c : nodes s !! (p ++ [c]) = Some n -> (length c <= max_name s)%nat.
Proof.
  intros H. unfold max_name. apply elem_of_map_to_list in H. revert H.
  induction (map_to_list (nodes s)) as [|[q m] l IH]; simpl; [by intros ?%elem_of_nil|].
  intros [[= <- <-]|H]%elem_of_cons.
  - rewrite last_snoc. simpl. lia.
  - specialize (IH H). lia.
Qed.

Lemma free_name_free s d w : nodes s !! (d ++ [free_name s d w]) = None.
Proof.
  unfold free_name. destruct (nodes s !! (d ++ [w])) eqn:E; [|done].
  apply eq_None_not_Some. intros [n' E']. apply max_name_le in E'.
  rewrite app_length, replicate_length in E'. lia.
Qed.

(** ** Inodes *)
Lemma inodes_upd_eq i f s x : inodes s !! i = Some x -> inodes (upd_inode i f s) !! i = Some (f x).
Proof. intros H. simpl. by rewrite list_lookup_alter, H. Qed.
Lemma inodes_upd_ne i j f s : i <> j -> inodes (upd_inode i f s) !! j = inodes s !! j.
Proof. intros H. simpl. by rewrite list_lookup_alter_ne. Qed.
