(** Directories under any number of servers: none disappears, and no file or
    directory comes to be in the way of an object. *)
From Verif Require Import Bytes ByteFacts Err FS Prog Pktline Args Local Processor Transfer Wp Rg
  PktFacts FsFacts Spec SpecStore SpecServer ServerEv PktProofs TextProofs ObjProofs StoreProofs SeqIo SeqFs.
From stdpp Require Import relations.

Local Arguments N.ldiff : simpl never.

(** Directories stay. *)
Definition dirs (s s' : fs) : Prop := forall q, nodes s !! q = Some NDir -> nodes s' !! q = Some NDir.
Lemma dirs_refl s : dirs s s.
Proof. by intros q. Qed.
Lemma dirs_trans a b c : dirs a b -> dirs b c -> dirs a c.
Proof. unfold dirs. auto. Qed.

Section shape.
Context (H : bytes -> bytes) (lfs : path).
Context (Hlfs : Forall stays lfs) (HH : digest H).
Local Notation inc := (lfs ++ [bs "incomplete"]).
Local Notation lockdir := (lfs ++ [bs "locks"]).
Local Notation obj o := (expected_path lfs o).

Record shape (s : fs) : Prop := Shape {
  sh_way : forall d a b j, d ∈ dir_names -> lfs ++ [d] = a ++ b -> a <> [] -> nodes s !! a <> Some (NFile j);
  sh_sane : sane s;
  sh_tree : tree s;
  sh_obj : forall o, is_oid o ->
    nodes s !! object_path lfs o <> Some NDir /\
    (forall j, nodes s !! (lfs ++ [bs "objects"; take 2 o]) <> Some (NFile j)) /\
    (forall j, nodes s !! (lfs ++ [bs "objects"; take 2 o; take 2 (drop 2 o)]) <> Some (NFile j));
  sh_lock : forall c n, nodes s !! (lfs ++ [bs "locks"; c]) = Some n -> plain_name c /\ n <> NDir }.

(** Where servers put files. *)
Definition spot (q : path) : Prop :=
  (exists d c, q = lfs ++ [d; c] /\ d <> bs "objects" /\ (d = bs "locks" -> plain_name c)) \/ exists o, q = object_path lfs o.

Lemma spot_way q d a b : spot q -> lfs ++ [d] = a ++ b -> q <> a.
Proof using Type.
  intros Hq E ->. apply (f_equal length) in E. rewrite !app_length in E.
  destruct Hq as [(d' & c & -> & _)|(o & ->)]; unfold object_path in E; rewrite app_length in E; simpl in E; lia.
Qed.
Lemma spot_dir1 q x : spot q -> q <> lfs ++ [bs "objects"; x].
Proof using Type.
  intros [(d & c & -> & Hd & _)|(o & ->)] E; unfold object_path in *; apply app_inv_head in E; congruence.
Qed.
Lemma spot_dir2 q x y : spot q -> q <> lfs ++ [bs "objects"; x; y].
Proof using Type.
  intros [(d & c & -> & Hd & _)|(o & ->)] E; unfold object_path in *; apply app_inv_head in E; congruence.
Qed.

(** The changes servers make to the entries. *)
Lemma shape_change s s' : shape s -> tree s' ->
  (forall q j, nodes s' !! q = Some (NFile j) -> (j < length (inodes s'))%nat) ->
  (forall q, nodes s' !! q = nodes s !! q \/
     (nodes s !! q <> Some NDir /\ nodes s' !! q = None) \/
     (nodes s !! q = None /\ nodes s' !! q = Some NDir /\ (length q <= length lfs + 3)%nat /\ forall c, q <> lfs ++ [bs "locks"; c]) \/
     (nodes s !! q <> Some NDir /\ spot q /\ exists j, nodes s' !! q = Some (NFile j))) ->
  shape s' /\ dirs s s'.
Proof using Type.
  intros [W S T O L] Ht Hs Hn. split.
  - split; try done.
    + intros d a b j Hd E Ha Hj. destruct (Hn a) as [E'|[[_ E']|[(_ & E' & _)|(_ & Hsp & _)]]]; try congruence.
      * rewrite E' in Hj. by eapply W.
      * by eapply spot_way.
    + intros o Ho. destruct (O o Ho) as (O1 & O2 & O3). split_and!.
      * intros Hj. destruct (Hn (object_path lfs o)) as [E'|[[_ E']|[(_ & _ & E' & _)|(_ & _ & j & E')]]]; try congruence.
        unfold object_path in E'. rewrite app_length in E'. simpl in E'. lia.
      * intros j Hj. match type of Hj with _ !! ?p = _ => destruct (Hn p) as [E'|[[_ E']|[(_ & E' & _)|(_ & Hsp & _)]]] end; try congruence.
        by eapply spot_dir1.
      * intros j Hj. match type of Hj with _ !! ?p = _ => destruct (Hn p) as [E'|[[_ E']|[(_ & E' & _)|(_ & Hsp & _)]]] end; try congruence.
        by eapply spot_dir2.
    + intros c n Hc. destruct (Hn (lfs ++ [bs "locks"; c])) as [E'|[[_ E']|[(_ & _ & _ & E')|(_ & Hsp & j & E')]]].
      * apply L. by rewrite <- E'.
      * congruence.
      * by destruct (E' c).
      * split; [|congruence]. destruct Hsp as [(d & c' & E & _ & Hp)|(o & E)]; unfold object_path in *; apply app_inv_head in E; [|done].
        injection E as <- <-. by apply Hp.
  - intros q Hq. destruct (Hn q) as [E'|[[E' _]|[(E' & _)|(E' & _)]]]; congruence.
Qed.

Lemma shape_same s s' : nodes s' = nodes s -> (length (inodes s) <= length (inodes s'))%nat -> shape s -> shape s' /\ dirs s s'.
Proof using Type.
  intros En El Hs. apply shape_change; [done|..].
  - intros p c n. rewrite En. apply Hs.
  - intros q j. rewrite En. intros Hj. apply (sh_sane _ Hs) in Hj. lia.
  - intros q. left. by rewrite En.
Qed.

(** ** One call *)
Definition lockname (p : path) : Prop := exists c, plain_name c /\ p = lockdir ++ [c].
Lemma lockname_stays p : lockname p -> Forall stays p.
Proof using Hlfs. intros (c & Hc & ->). apply (lockpath_stays lfs Hlfs). exists c. split; [by apply plain_stays|done]. Qed.
Definition shapely (e : ev) : Prop :=
  match e with
  | EMkdir p => (length p <= length lfs + 3)%nat /\ forall c, ~ (lfs ++ [bs "locks"; c]) `prefix_of` p
  | EMktemp d _ => d = inc
  | ERename a b => exists o, is_oid o /\ b = obj o
  | ELink _ b => lockname b
  | ECreate p => lockname p
  | _ => True
  end.
Lemma quiet_shapely e : quiet e -> shapely e.
Proof using Type. by destruct e. Qed.

(** The parent of a resolved path is a directory. *)
Lemma walk_parent s cur c comps q : Forall stays (c :: comps) -> walk s cur (c :: comps) = inr q ->
  node_at s (removelast q) = Some NDir.
Proof using Type.
  intros Hs. revert cur c Hs. induction comps as [|c' comps IH]; intros cur c Hs E.
  - apply Forall_cons in Hs as [(H1 & H2 & H3) _]. simpl in E.
    destruct (node_at s cur) as [[|j]|] eqn:En; try done.
    rewrite decide_False in E by naive_solver. rewrite decide_False in E by done. injection E as <-.
    by rewrite removelast_last.
  - apply Forall_cons in Hs as [(H1 & H2 & H3) Hs]. cbn [walk] in E.
    destruct (node_at s cur) as [[|j]|] eqn:En; try done.
    rewrite decide_False in E by naive_solver. rewrite decide_False in E by done. by eapply IH.
Qed.
Lemma resolve_parent s p c q : Forall stays (p ++ [c]) -> resolve s (p ++ [c]) = inr q ->
  q = p ++ [c] /\ node_at s p = Some NDir.
Proof using Type.
  intros Hs E. pose proof (resolve_stays _ _ _ Hs E) as ->. split; [done|]. unfold resolve in E.
  destruct (has_nul _); [done|]. destruct (p ++ [c]) as [|x r] eqn:Ep; [by destruct p|].
  apply walk_parent in E; [|done]. rewrite <- Ep, removelast_last in E. done.
Qed.

(** A new file in a directory. *)
Lemma tree_insert s p c j m : tree s -> node_at s p = Some NDir -> nodes s !! (p ++ [c]) <> Some NDir ->
  (forall q, m !! q = nodes s !! q \/ (nodes s !! q <> Some NDir /\ m !! q = None)) ->
  forall i h, tree (FS (<[p ++ [c] := NFile j]> m) i h).
Proof using Type.
  intros Ht Hp Hn Hm i h q d n Hq. simpl in *.
  assert (G : forall r, nodes s !! r = Some NDir -> <[p ++ [c] := NFile j]> m !! r = Some NDir).
  { intros r Hr. rewrite lookup_insert_ne by congruence. destruct (Hm r) as [E|[E _]]; congruence. }
  apply lookup_insert_Some in Hq as [[E _]|[_ Hq]].
  - apply app_inj_tail in E as [-> ->]. destruct q as [|x q]; [by left|]. right. apply G. done.
  - destruct (Hm (q ++ [d])) as [E|[_ E]]; [|congruence]. rewrite E in Hq.
    destruct (Ht _ _ _ Hq) as [?|?]; [by left|right; by apply G].
Qed.
Lemma tree_delete s q i h : tree s -> nodes s !! q <> Some NDir -> tree (FS (delete q (nodes s)) i h).
Proof using Type.
  intros Ht Hn p c n Hp. simpl in *. apply lookup_delete_Some in Hp as [_ Hp].
  destruct (Ht _ _ _ Hp) as [?|?]; [by left|right]. rewrite lookup_delete_ne by congruence. done.
Qed.

Lemma shapely_ok pid e o l s : shapely e -> shape s ->
  shape (handle_ev pid e o l s).2 /\ dirs s (handle_ev pid e o l s).2.
Proof using Hlfs.
  intros He Hs.
  assert (Hsame : shape s /\ dirs s s) by (split; [done|apply dirs_refl]).
  destruct e; cbn [handle_ev]; unfold faulty, with_l; try (destruct (o_fault o); [done|]); try done; cbn [fst snd].
  - by destruct (do_read n l).
  - (* mkdir *) unfold fs_mkdir_all. destruct (fs_mkdirs s [] p) as [x|s'] eqn:E; [done|]. simpl in He |- *.
    apply mkdirs_spec in E as (I & _ & M1 & M2). apply shape_change; [done|..].
    + intros q c n Hn. destruct (M1 (q ++ [c])) as [E|(_ & _ & a & b & _ & E1 & E2)].
      * rewrite E in Hn. destruct (sh_tree _ Hs _ _ _ Hn) as [?|Hq]; [by left|]. right.
        destruct (M1 q) as [E'|(_ & E' & _)]; congruence.
      * destruct (decide (q = [])) as [->|Hq]; [by left|]. right. simpl in E2. subst a.
        rewrite <- (app_nil_l q). apply (M2 q ([c] ++ b)); [done|]. by rewrite app_assoc.
    + intros q j Hj. rewrite I. destruct (M1 q) as [E'|(_ & E' & _)]; [|congruence]. rewrite E' in Hj. by eapply sh_sane.
    + intros q. destruct (M1 q) as [E'|(E1 & E2 & a & b & _ & E & ->)]; [by left|]. right. right. left. destruct He as [He1 He2]. split_and!; try done.
      * apply (f_equal length) in E. rewrite app_length in E. simpl. lia.
      * intros c Ec. apply (He2 c). exists b. rewrite E. by rewrite <- Ec.
  - (* mktemp *) simpl in He. subst dir. unfold fs_mktemp. destruct (resolve s inc) as [x|d] eqn:E; [done|].
    apply resolve_stays in E as ->; [|by apply inc_stays].
    destruct (node_at s inc) as [[|j]|] eqn:En; try done. simpl.
    pose proof (free_name_free s inc (prefix ++ o_sfx o)) as Hfree. set (c := free_name _ _ _) in *.
    apply shape_change; [done|..].
    + apply (tree_insert s inc c); [apply Hs|done|congruence|by left].
    + intros q j Hj. simpl in *. rewrite app_length. simpl.
      apply lookup_insert_Some in Hj as [[_ [= <-]]|[_ Hj]]; [lia|]. apply (sh_sane _ Hs) in Hj. lia.
    + intros q. simpl. destruct (decide (q = inc ++ [c])) as [->|Hne].
      * right. right. right. rewrite lookup_insert. split_and!; [congruence| |by eexists]. left.
        exists (bs "incomplete"), c. rewrite <- app_assoc. by split_and!.
      * left. by rewrite lookup_insert_ne.
  - (* write *) assert (G : forall b', shape (fs_write i b' s).2 /\ dirs s (fs_write i b' s).2).
    { intros b'. unfold fs_write. destruct (inode_at s i); [|done]. apply shape_same; [done| |done]. simpl. by rewrite alter_length. }
    destruct (o_fault o); [apply G|]. apply (G b).
  - (* rename *) destruct He as (ob & Ho & ->). unfold fs_rename.
    destruct (file_at s a) as [x|[qa i]] eqn:Ea; [done|].
    destruct (resolve s (obj ob)) as [x|qb] eqn:Eb; [done|].
    pose proof (obj_stays lfs Hlfs ob Ho) as Hst. rewrite <- object_path_eq in *. 
    assert (Ep : object_path lfs ob = (lfs ++ [bs "objects"; take 2 ob; take 2 (drop 2 ob)]) ++ [ob]) by (unfold object_path; by rewrite <- app_assoc).
    rewrite Ep in Hst, Eb. apply resolve_parent in Eb as [-> Hpar]; [|done].
    unfold file_at in Ea. destruct (resolve s a) as [x|qa'] eqn:Era; [done|].
    destruct (node_at s qa') as [[|j]|] eqn:Eqa; try done. injection Ea as -> ->.
    assert (Hqa : nodes s !! qa = Some (NFile i)) by (by destruct qa).
    rewrite <- Ep. rewrite (node_at_cons _ (object_path lfs ob)) by (unfold object_path; by destruct lfs).
    assert (G : nodes s !! object_path lfs ob <> Some NDir ->
      shape (set_nodes (fun m => <[object_path lfs ob := NFile i]> (delete qa m)) s) /\
      dirs s (set_nodes (fun m => <[object_path lfs ob := NFile i]> (delete qa m)) s)).
    { intros Hd. apply shape_change; [done|..].
      - rewrite Ep in *. apply (tree_insert s _ ob); [apply Hs|done|done|].
        intros q. destruct (decide (q = qa)) as [->|Hne]; [right|left; by rewrite lookup_delete_ne].
        rewrite lookup_delete. split; [congruence|done].
      - intros q j Hj. simpl in *. apply lookup_insert_Some in Hj as [[_ [= <-]]|[_ Hj]]; [by eapply sh_sane|].
        apply lookup_delete_Some in Hj as [_ Hj]. by eapply sh_sane.
      - intros q. simpl. destruct (decide (q = object_path lfs ob)) as [->|Hne].
        + right. right. right. rewrite lookup_insert. split_and!; [done| |by eexists]. right. by exists ob.
        + rewrite lookup_insert_ne by done. destruct (decide (q = qa)) as [->|Hne']; [right; left|left; by rewrite lookup_delete_ne].
          rewrite lookup_delete. split; [congruence|done]. }
    destruct (nodes s !! object_path lfs ob) as [[|k]|]; [done|by apply G|by apply G].
  - (* unlink *) unfold fs_unlink, file_at. destruct (resolve s p) as [x|q]; [done|].
    destruct (node_at s q) as [[|j]|] eqn:En; try done.
    assert (Hq : nodes s !! q = Some (NFile j)) by (by destruct q).
    simpl. apply shape_change; [done|..].
    + apply tree_delete; [apply Hs|congruence].
    + intros r k. simpl. rewrite lookup_delete_Some. intros [_ Hr]. by eapply sh_sane.
    + intros r. simpl. destruct (decide (r = q)) as [->|Hne]; [right; left|left; by rewrite lookup_delete_ne].
      rewrite lookup_delete. split; [congruence|done].
  - (* link *) simpl in He. unfold fs_link, file_at. destruct (resolve s a) as [x|qa]; [done|].
    destruct (node_at s qa) as [[|j]|] eqn:En; try done.
    assert (Hq : nodes s !! qa = Some (NFile j)) by (by destruct qa).
    destruct (resolve s b) as [x|qb] eqn:Eb; [done|].
    pose proof (lockname_stays _ He) as Hst. destruct He as (c & Hc & ->).
    apply resolve_parent in Eb as [-> Hpar]; [|done]. rewrite node_at_app.
    destruct (nodes s !! (lockdir ++ [c])) eqn:Ec; [done|]. simpl. apply shape_change; [done|..].
    + apply (tree_insert s lockdir c); [apply Hs|done|congruence|by left].
    + intros r k Hk. simpl in *. apply lookup_insert_Some in Hk as [[_ [= <-]]|[_ Hk]]; by eapply sh_sane.
    + intros r. simpl. destruct (decide (r = lockdir ++ [c])) as [->|Hne]; [|left; by rewrite lookup_insert_ne].
      right. right. right. rewrite lookup_insert. split_and!; [congruence| |by eexists]. left.
      exists (bs "locks"), c. rewrite <- app_assoc. by split_and!.
  - (* create *) simpl in He. unfold fs_create_new. destruct (resolve s p) as [x|q] eqn:Eb; [done|].
    pose proof (lockname_stays _ He) as Hst. destruct He as (c & Hc & ->).
    apply resolve_parent in Eb as [-> Hpar]; [|done]. rewrite node_at_app.
    destruct (nodes s !! (lockdir ++ [c])) eqn:Ec; [done|]. simpl. apply shape_change; [done|..].
    + apply (tree_insert s lockdir c); [apply Hs|done|congruence|by left].
    + intros r k Hk. simpl in *. rewrite app_length. simpl.
      apply lookup_insert_Some in Hk as [[_ [= <-]]|[_ Hk]]; [lia|]. apply (sh_sane _ Hs) in Hk. lia.
    + intros r. simpl. destruct (decide (r = lockdir ++ [c])) as [->|Hne]; [|left; by rewrite lookup_insert_ne].
      right. right. right. rewrite lookup_insert. split_and!; [congruence| |by eexists]. left.
      exists (bs "locks"), c. rewrite <- app_assoc. by split_and!.
  - (* chmod *) unfold fs_chmod. destruct (resolve s p) as [x|q]; [done|].
    destruct (node_at s q) as [[|j]|]; try done. apply shape_same; [done| |done]. simpl. by rewrite alter_length.
  - (* note *) by apply shape_same.
Qed.

(** ** Every call of a server *)
Lemma sv_copy_to_file f fd got rb : all_ev shapely (copy_to_file f fd got rb).
Proof using Type.
  revert got rb. induction f as [|f IH]; intros got rb; simpl; ev. apply ev_reader_read, quiet_shapely.
Qed.

(** Programs all of whose results are of one kind. *)
Fixpoint all_res {A} (P : A -> Prop) (p : prog A) : Prop :=
  match p with
  | Ret a => P a
  | Fail _ => True
  | Vis e k => forall r, all_res P (k r)
  end.
Lemma all_res_bind {A B} (P : B -> Prop) (p : prog A) (f : A -> prog B) :
  (forall a, all_res P (f a)) -> all_res P (bind p f).
Proof using Type. intros Hf. induction p as [a|x|e k IH]; [apply Hf|done|]. intros r. apply IH. Qed.
Lemma all_ev_bind_res (E : ev -> Prop) {A B} (P : A -> Prop) (p : prog A) (f : A -> prog B) :
  all_ev E p -> all_res P p -> (forall a, P a -> all_ev E (f a)) -> all_ev E (bind p f).
Proof using Type.
  intros Hp Hr Hf. induction p as [a|x|e k IH]; [by apply Hf|done|]. destruct Hp as [H1 H2]. split; [done|].
  intros r Hr'. apply IH; [by apply H2|apply Hr].
Qed.

Lemma sv_start be fuel o rb : be_lfs be = lfs -> all_ev shapely (start_upload be fuel o rb).
Proof using Type.
  intros Hbe. unfold start_upload, drop_temp. rewrite Hbe. ev; apply sv_copy_to_file.
Qed.
Lemma res_start be fuel o rb : all_res (fun x => match x.1 with Ok (st, _) => us_oid st = o | Er _ => True end) (start_upload be fuel o rb).
Proof using Type.
  unfold start_upload, drop_temp. apply all_res_bind. intros [[tmp fd]|e]; [|done].
  apply all_res_bind. intros [[got|e] rb']; [done|]. apply all_res_bind. intros []. done.
Qed.
Lemma sv_finish be st : be_lfs be = lfs -> is_oid (us_oid st) -> all_ev shapely (finish_upload be st).
Proof using Type.
  intros Hbe Ho. unfold finish_upload, fix_permissions, drop_temp. rewrite Hbe. ev.
  - simpl. rewrite <- object_path_eq. unfold object_path.
    match goal with |- context [removelast (lfs ++ [?a; ?b; ?c; ?d])] =>
      replace (lfs ++ [a; b; c; d]) with ((lfs ++ [a; b; c]) ++ [d]) by (by rewrite <- app_assoc) end.
    rewrite removelast_last, app_length. split; [simpl; lia|]. intros c [k E].
    rewrite <- app_assoc in E. apply app_inv_head in E. done.
  - by exists (us_oid st).
Qed.

Lemma sv_put en be fuel o rb : be_lfs be = lfs -> all_ev shapely (p_put_object en be fuel o rb).
Proof using Type.
  intros Hbe. unfold p_put_object. destruct (oid_new o) as [o'|e] eqn:Eo; [|ev]. apply oid_new_iff in Eo as [-> Ho].
  unfold read_to_delim. apply all_ev_bind; [ev; apply ev_read_to_type, quiet_shapely|].
  intros [n|e]; [|done]. eapply all_ev_bind_res; [by apply sv_start|apply res_start|].
  intros [[[st got]|e] rb'] Hst; [|done]. simpl in Hst. unfold drop_temp. ev. apply sv_finish; [done|by rewrite Hst].
Qed.

Lemma hash_plain en p x : en_hash en = H -> SLASH ∉ x -> Byte.x00 ∉ x -> plain_name (hash_for en p ++ x).
Proof using HH.
  intros Hen H1 H2. destruct (hex_encode_is_oid (H (bs "v1:" ++ p))) as [H3 H4]; [apply HH|]. unfold hash_for. rewrite Hen.
  assert (G : plain_name (hex_encode (H (bs "v1:" ++ p)))).
  { apply hex_plain_name; [|done]. by intros E; rewrite E in H3. }
  destruct G as (_ & _ & _ & G1 & G2). split_and!; try (by apply not_elem_of_app);
    intros E; apply (f_equal length) in E; rewrite app_length, H3 in E; simpl in E; lia.
Qed.
Lemma lock_file_name en be p : be_lfs be = lfs -> en_hash en = H -> lockname (lock_file be (hash_for en p)).
Proof using HH.
  intros Hbe Hen. unfold lock_file, lock_dir. rewrite Hbe. exists (hash_for en p). split; [|done].
  rewrite <- (app_nil_r (hash_for en p)). by apply hash_plain; [|apply not_elem_of_nil..].
Qed.
Lemma lock_temp_name en be p : be_lfs be = lfs -> en_hash en = H -> lockname (lock_temp be (hash_for en p)).
Proof using HH.
  intros Hbe Hen. unfold lock_temp, lock_dir. rewrite Hbe. exists (hash_for en p ++ bs ".lock"). split; [|done].
  apply hash_plain; [done|refine (bool_decide_eq_true_1 _ _); by vm_compute..].
Qed.

Lemma sv_lock en be fuel : be_lfs be = lfs -> en_hash en = H -> all_ev shapely (p_lock en be fuel).
Proof using HH.
  intros Hbe Hen. unfold p_lock, lock_create, lockfile_write, lockfile_persist, lockfile_drop.
  ev; try (by apply lock_temp_name); try (by apply lock_file_name);
    first [apply ev_user_for_file | apply ev_timestamp | apply ev_as_arguments | apply ev_lock_from_path | apply ev_read_wrapped];
    apply quiet_shapely.
Qed.
Lemma sv_unlock en be fuel id : all_ev shapely (p_unlock en be fuel id).
Proof using Type.
  unfold p_unlock, lock_unlock, lk_id, read_to_flush.
  ev; first [apply ev_as_arguments | apply ev_read_to_type | apply ev_lock_from_id | apply ev_error]; apply quiet_shapely.
Qed.

Lemma sv_handle en be fuel c m rb : be_lfs be = lfs -> en_hash en = H -> all_ev shapely (handle_command en be fuel c m rb).
Proof using HH.
  intros Hbe Hen. unfold handle_command, p_upload_batch, p_download_batch.
  destruct c; ev; first [by apply sv_put | by apply sv_lock | by apply sv_unlock |
    first [apply ev_version|apply ev_batch|apply ev_verify_object|apply ev_get_object|apply ev_list_locks|apply ev_error];
    apply quiet_shapely].
Qed.

Lemma sv_process_one en be fuel m rb : be_lfs be = lfs -> en_hash en = H -> all_ev shapely (process_one en be fuel m rb).
Proof using HH.
  intros Hbe Hen. unfold process_one, and_go_on.
  ev; first [by apply sv_handle | first [apply ev_read_packet | apply ev_answer | apply ev_answer_error]; apply quiet_shapely].
Qed.
Lemma sv_process_commands en be fuel n m rb : be_lfs be = lfs -> en_hash en = H ->
  all_ev shapely (process_commands en be fuel n m rb).
Proof using HH.
  intros Hbe Hen. revert rb. induction n as [|n IH]; intros rb; simpl; [done|].
  apply all_ev_bind; [by apply sv_process_one|]. intros [rb'|r]; [apply IH|done].
Qed.

Lemma sv_server p : is_server H lfs p -> all_ev shapely p.
Proof using HH.
  intros (en & fuel & cfg & op & Hen & ->). unfold transfer_main, transfer_main_internal, transfer_run.
  apply all_ev_bind; [|done]. apply all_ev_bindR; [apply ev_set_permissions, quiet_shapely|]. intros um.
  apply all_ev_bindR.
  { unfold create_directories. induction dir_names as [|d ds IH]; simpl; ev. simpl. rewrite app_length. split; [simpl; lia|].
    intros c E. apply prefix_length in E. rewrite !app_length in E. simpl in E. lia. }
  intros u. apply all_ev_bindR; [apply ev_send_capabilities, quiet_shapely|]. intros u'.
  destruct (mode_of op); [by apply sv_process_commands|done].
Qed.
End shape.
