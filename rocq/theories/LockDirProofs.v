(** Requests about locks in any directory of locks. *)
From Verif Require Import Bytes ByteFacts Err FS Prog Pktline Args Local Processor Transfer Wp PktFacts ReaderFacts
  Spec SpecStore SpecServer SpecLockDir PktProofs TextProofs IoFacts FsFacts ObjProofs StoreProofs GetProofs LossyFacts SeqIo SeqFs SeqCmd Session.
From stdpp Require Import sorting.

Local Arguments parse_header : simpl never.
Local Opaque COPY_BUF pk MAX_PACKET_LEN.

(** ** The directory *)
Section dir.
Context (lfs : path).
Notation at_ i := (lfs ++ [bs "locks"; i]).

Lemma at_inj i j : at_ i = at_ j -> i = j.
Proof using Type. intros E. apply app_inv_head in E. by injection E. Qed.

Lemma contains_node s D i : contains lfs s D ->
  match D !! i with
  | Some Folder => nodes s !! at_ i = Some NDir
  | Some (File d u) => exists j x, nodes s !! at_ i = Some (NFile j) /\ inodes s !! j = Some x /\ i_data x = d /\ i_uid x = u
  | None => nodes s !! at_ i = None
  end.
Proof using Type.
  intros [H1 H2 H3 H4 H5]. destruct (D !! i) as [[|d u]|] eqn:E.
  - by apply H4.
  - by apply H5.
  - destruct (nodes s !! at_ i) as [[|j]|] eqn:En; [| |done].
    + apply H4 in En. congruence.
    + destruct (lookup_lt_is_Some_2 (inodes s) j (H2 _ _ En)) as [x Hx].
      assert (owned_file s (at_ i) (i_data x) (i_uid x)) as Ho by (by exists j, x). apply H5 in Ho. congruence.
Qed.

Lemma owned_le s s' p d u : sane s -> ino_le s s' -> nodes s' !! p = nodes s !! p ->
  owned_file s p d u <-> owned_file s' p d u.
Proof using Type.
  intros Hs Hi En. unfold owned_file. rewrite En. split.
  - intros (j & x & Hj & Hx & Hd & Hu). destruct (Hi _ _ Hx) as (x' & Hx' & E1 & E2). exists j, x'. split_and!; congruence.
  - intros (j & x & Hj & Hx & Hd & Hu). destruct (lookup_lt_is_Some_2 (inodes s) j (Hs _ _ Hj)) as [z Hz].
    destruct (Hi _ _ Hz) as (x' & Hx' & E1 & E2). exists j, z. split_and!; congruence.
Qed.

Lemma contains_same s s' D : contains lfs s D -> nodes s' = nodes s -> ino_le s s' -> contains lfs s' D.
Proof using Type.
  intros [H1 H2 H3 H4 H5] En Hi. split.
  - unfold lfs_dirs, is_dir in *. by rewrite En.
  - intros p j Hj. rewrite En in Hj. pose proof (ino_le_length _ _ Hi). specialize (H2 p j Hj). lia.
  - done.
  - intros i. by rewrite En.
  - intros i d u. rewrite H5. apply owned_le; [done|done|by rewrite En].
Qed.

Lemma contains_add s s' D i j x : contains lfs s D -> D !! i = None -> plain_name i ->
  nodes s' = <[at_ i := NFile j]> (nodes s) -> ino_le s s' -> inodes s' !! j = Some x ->
  contains lfs s' (<[i := File (i_data x) (i_uid x)]> D).
Proof using Type.
  intros Hc Hn Hp En Hi Hx. pose proof (contains_node s D i Hc) as Hni. rewrite Hn in Hni.
  destruct Hc as [H1 H2 H3 H4 H5]. split.
  - eapply dirs_mono; [|exact H1]. intros q Hq. rewrite En, lookup_insert_ne; [done|]. intros <-. congruence.
  - intros p k Hk. rewrite En in Hk. apply lookup_insert_Some in Hk as [[_ [= <-]]|[_ Hk]].
    + by apply lookup_lt_Some in Hx.
    + pose proof (ino_le_length _ _ Hi). specialize (H2 p k Hk). lia.
  - intros k [e He]. apply lookup_insert_Some in He as [[<- _]|[_ He]]; [done|]. apply H3. by eexists.
  - intros k. destruct (decide (i = k)) as [<-|Hk].
    + rewrite lookup_insert, En, lookup_insert. done.
    + rewrite lookup_insert_ne, En, lookup_insert_ne by (done || by intros ?%at_inj). apply H4.
  - intros k d u. destruct (decide (i = k)) as [<-|Hk].
    + rewrite lookup_insert. unfold owned_file. rewrite En, lookup_insert. split.
      * intros [= <- <-]. by exists j, x.
      * intros (j' & x' & [= <-] & Hx' & <- & <-). rewrite Hx in Hx'. by injection Hx' as ->.
    + rewrite lookup_insert_ne, H5 by done. apply owned_le; [done|done|].
      by rewrite En, lookup_insert_ne by (by intros ?%at_inj).
Qed.

Lemma contains_del s s' D i j : contains lfs s D -> nodes s !! at_ i = Some (NFile j) ->
  nodes s' = delete (at_ i) (nodes s) -> ino_le s s' -> contains lfs s' (delete i D).
Proof using Type.
  intros [H1 H2 H3 H4 H5] Hj En Hi. split.
  - eapply dirs_mono; [|exact H1]. intros q Hq. rewrite En, lookup_delete_ne; [done|]. intros <-. congruence.
  - intros p k Hk. rewrite En in Hk. apply lookup_delete_Some in Hk as [_ Hk].
    pose proof (ino_le_length _ _ Hi). specialize (H2 p k Hk). lia.
  - intros k [e He]. apply lookup_delete_Some in He as [_ He]. apply H3. by eexists.
  - intros k. destruct (decide (i = k)) as [<-|Hk].
    + by rewrite lookup_delete, En, lookup_delete.
    + rewrite lookup_delete_ne, En, lookup_delete_ne by (done || by intros ?%at_inj). apply H4.
  - intros k d u. destruct (decide (i = k)) as [<-|Hk].
    + rewrite lookup_delete. unfold owned_file. rewrite En, lookup_delete. split; [done|]. by intros (? & ? & ? & _).
    + rewrite lookup_delete_ne, H5 by done. apply owned_le; [done|done|].
      by rewrite En, lookup_delete_ne by (by intros ?%at_inj).
Qed.
End dir.

Lemma says_iff d t p : says d t p <-> lock_parse d = Some (t, p).
Proof. symmetry. apply lock_parse_iff. Qed.

Lemma under_some D i : exists x, under D i x.
Proof.
  destruct (D !! i) as [[|d u]|] eqn:E.
  - eexists. by apply u_folder.
  - destruct (lock_parse d) as [[t p]|] eqn:El.
    + eexists. eapply u_held; [done|]. by apply says_iff.
    + eexists. eapply u_bad; [done|]. intros t p Hs. apply says_iff in Hs. congruence.
  - eexists. by apply u_none.
Qed.

Section cmd.
Context (en : env) (lfs : path) (umask : N) (ts : option Z) (clock : Z -> Prop).
Context (m : mode) (pid fuel : nat) (F : failure -> local -> fs -> Prop).
Context (HH : digest (en_hash en)) (Hlfs : Forall plain_name lfs).
Context (Hts : forall t, ts = Some t -> clock t) (Hclock : forall t, clock t -> time_ok en t).
Notation be := (Backend lfs umask ts).
Notation ok := (mild ts clock).
Notation WP := (wp pid ok F).
Notation has := (contains lfs).
Notation id p := (lock_id (en_hash en) p).
Notation does := (does en m).

(** An error and the complaint it becomes. *)
Definition complains (e : error) (a : reply) : Prop :=
  (forall s, sends s (status_of_error e) a) /\ match rp_body a with BData _ => False | _ => True end.
Definition taken_for (x : thing) (r : res (option lock)) : Prop :=
  match x, r with
  | Nothing, Ok None => True
  | Held p t u, Ok (Some l) => l = Lock p t (user_name en u)
  | Useless a, Er e => complains e a
  | _, _ => False
  end.

Lemma complain_trouble : complains (err_of_io EISDIR) trouble.
Proof using Type. split; [|done]. intros s. apply (sends_fail s 500), is_code. done. Qed.
Lemma complain_bad : complains (err_msg CorruptData (bs "invalid parsed lock")) (refusal (bs "corrupt data: invalid parsed lock")).
Proof using Type. split; [|done]. intros s. apply (sends_error s). done. Qed.

Lemma ld_from_id D i (Q : res (option lock) -> local -> fs -> Prop) l s :
  has s D -> plain_name i -> (forall x r, under D i x -> taken_for x r -> Q r l s) -> WP (lock_from_id en be i) Q l s.
Proof using Hlfs.
  intros Hr Hi HQ. unfold lock_from_id. rewrite push_plain by done. apply wp_bind, nf_open.
  pose proof (resolve_in lfs Hlfs s (bs "locks") i (c_dirs _ _ _ Hr) in_locks (plain_stays _ Hi) (plain_no_nul _ Hi)) as Hres.
  assert (Hne : lfs ++ [bs "locks"; i] <> []) by (by intros [_ ?]%app_eq_nil).
  unfold fs_open. rewrite Hres, node_at_cons by done.
  pose proof (contains_node lfs s D i Hr) as Hn. destruct (D !! i) as [[|d u]|] eqn:E.
  - rewrite Hn. apply wp_bindR, wp_io_call, nf_read_all. cbn [fs_read_all res_of_io].
    eapply HQ; [by apply u_folder|]. apply complain_trouble.
  - destruct Hn as (j & x & Hj & Hx & Hd & Hu). rewrite Hj.
    apply wp_bindR, wp_io_call, nf_read_all. cbn [fs_read_all res_of_io]. unfold fs_data, inode_at. rewrite Hx, Hd.
    apply wp_bind. unfold user_for_file. apply wp_bind, nf_stat, wp_ret.
    unfold fs_stat. rewrite Hres, node_at_cons, Hj by done. unfold inode_at. rewrite Hx, Hu.
    destruct (lock_parse d) as [[t p]|] eqn:El; apply wp_ret.
    + eapply HQ; [eapply u_held; [done|by apply says_iff]|done].
    + eapply HQ; [eapply u_bad; [done|]|apply complain_bad]. intros t p Hs%says_iff. congruence.
  - rewrite Hn. cbn [io_kind_of ENOENT]. rewrite decide_True by done. apply wp_ret. eapply HQ; [by apply u_none|done].
Qed.

(** What [from_path] makes of it. *)
Definition path_for (p : bytes) (x : thing) (r : res (option lock)) : Prop :=
  match x, r with
  | Nothing, Ok None => True
  | Held p' t u, Ok (Some l) => p' = p /\ l = Lock p t (user_name en u)
  | Held p' t u, Er e => p' <> p /\ complains e (refusal clash)
  | Useless a, Er e => complains e a
  | _, _ => False
  end.

Lemma ld_from_path D p (Q : res (option lock) -> local -> fs -> Prop) l s :
  has s D -> (forall x r, under D (id p) x -> path_for p x r -> Q r l s) -> WP (lock_from_path en be p) Q l s.
Proof using Hlfs HH.
  intros Hr HQ. unfold lock_from_path. change (hash_for en p) with (id p).
  apply wp_bind, (ld_from_id D); [done|apply (lock_id_plain en HH)|]. intros x r Hx Ht.
  destruct x as [|a|p' t u], r as [[k|]|e]; try done.
  - apply wp_ret. by eapply HQ.
  - apply wp_ret. by eapply HQ.
  - cbn [taken_for] in Ht. subst k. cbn [lk_path]. destruct (decide (p' = p)) as [->|Hne].
    + rewrite decide_False by (by intros []). apply wp_ret. by eapply HQ.
    + rewrite decide_True by done. apply wp_ret. eapply HQ; [exact Hx|]. split; [done|]. split; [|done].
      intros s'. apply (sends_error s'). done.
Qed.

(** ** Outcomes *)
Definition wresult (D : lockdir) (r : request) (tl : bytes) (l : local) (x : res status * rbuf) (l' : local) (s' : fs) : Prop :=
  exists a D', does (l_uid l) clock D r (Answered a D') /\ has s' D' /\ sends s' (status_of x.1) a /\
    match rp_body a with BData _ => False | _ => True end /\
    l' = set_in tl l /\ rb_wf x.2 /\ pend x.2 = [].
Definition may_panic (D : lockdir) (r : request) (tl : bytes) (l : local) : Prop :=
  forall f D' s', does (l_uid l) clock D r (Panics f D') -> has s' D' -> F f (set_in tl l) s'.

Definition handles (r : request) (c : command) : Prop :=
  forall D rb tl l s, has s D -> rb_ok rb -> (2 * length (l_in l) + 2 <= fuel)%nat -> given r (l_in l) tl ->
  may_panic D r tl l ->
  WP (handle_command en be fuel c m rb) (wresult D r tl l) l s.

Lemma res_er D r tl l l' e a rb s D' : complains e a ->
  does (l_uid l) clock D r (Answered a D') -> has s D' -> rb_ok rb ->
  l' = set_in tl l -> wresult D r tl l (Er e, rb) l' s.
Proof using Type. intros [H1 H2] H3 H4 [] ->. exists a, D'. split_and!; try done. Qed.
Lemma complain_400 e : client_error (e_kind e) = true -> complains e (refusal (display e)).
Proof using Type. intros H. split; [|done]. intros s. by apply sends_error. Qed.
Lemma res_text D r c tl l l' t rb s : c ∈ codes ->
  does (l_uid l) clock D r (Answered (Reply c [] (BText t)) D) -> has s D -> rb_ok rb ->
  l' = set_in tl l -> wresult D r tl l (Ok (st_failure c t), rb) l' s.
Proof using Type. intros H1 H2 H3 [] ->. exists (Reply c [] (BText t)), D. by split_and!. Qed.

Lemma ld_version : handles RVersion CVersion.
Proof using Type.
  intros D rb tl l s Hr Hrb Hf Hin Hp. cbn [handle_command]. apply wp_bind. unfold p_version, read_to_flush. apply wp_bindR.
  apply (nf_read_lines ts clock pid fuel F PFlush [] tl); [lia|done|]. apply wp_ret, wp_ret. destruct Hrb.
  exists (Reply 200 [] (BLines [])), D. split_and!; try done; [constructor|]. by apply (sends_lines s 200 None), is_code.
Qed.

(** ** lock *)
Lemma draft_plain p : plain_name (draft en p).
Proof using HH.
  destruct (lock_id_plain en HH p) as (Hpl & Hlen & _). unfold draft.
  split_and!; try (intros E; apply (f_equal length) in E; rewrite app_length, Hlen in E; simpl in E; lia).
  - apply not_elem_of_app. split; [apply Hpl|]. refine (bool_decide_eq_true_1 _ _). by vm_compute.
  - apply not_elem_of_app. split; [apply Hpl|]. refine (bool_decide_eq_true_1 _ _). by vm_compute.
Qed.
Lemma draft_id p q : draft en p <> id q.
Proof using HH.
  intros E. apply (f_equal length) in E. unfold draft in E.
  rewrite app_length, (proj1 (proj2 (lock_id_plain en HH p))), (proj1 (proj2 (lock_id_plain en HH q))) in E. simpl in E. lia.
Qed.

Lemma ld_create D p (Q : res lock -> local -> fs -> Prop) l s : has s D ->
  (D !! id p = None -> D !! draft en p = None -> forall t t' s', clock t -> clock t' ->
   has s' (<[id p := File (record_of t p) (l_uid l)]> D) -> Q (Ok (Lock p t' (user_name en (l_uid l)))) l s') ->
  (is_Some (D !! id p) \/ is_Some (D !! draft en p) -> forall s', has s' (without_draft en D p) -> Q (Er (err_simple Conflict)) l s') ->
  WP (lock_create en be p) Q l s.
Proof using Hlfs HH Hts Hclock.
  intros Hr HN HS. unfold lock_create. change (hash_for en p) with (id p).
  set (i := id p) in *. destruct (lock_id_plain en HH p) as (Hpl & Hlen & _). fold i in Hpl, Hlen.
  pose proof (draft_plain p) as Hdp. pose proof (draft_id p p) as Hdi. fold i in Hdi. unfold draft in Hdp, Hdi. fold i in Hdp, Hdi.
  unfold lock_temp, lock_file, lock_dir. cbn [be_lfs].
  replace ((lfs ++ [bs "locks"]) ++ [i ++ bs ".lock"]) with (lfs ++ [bs "locks"; i ++ bs ".lock"]) by (by rewrite <- app_assoc).
  replace ((lfs ++ [bs "locks"]) ++ [i]) with (lfs ++ [bs "locks"; i]) by (by rewrite <- app_assoc).
  unfold without_draft, draft in HS. unfold draft in HN. fold i in HN, HS. set (dr := i ++ bs ".lock") in *.
  set (tmp := lfs ++ [bs "locks"; dr]). set (f := lfs ++ [bs "locks"; i]).
  assert (Htne : tmp <> []) by (by intros [_ ?]%app_eq_nil).
  assert (Hfne : f <> []) by (by intros [_ ?]%app_eq_nil).
  assert (Htf : tmp <> f) by (by intros ?%at_inj).
  assert (Hrt : forall s', lfs_dirs s' lfs -> resolve s' tmp = inr tmp).
  { intros s' Hs'. apply (resolve_in lfs Hlfs); [done|apply in_locks|by apply plain_stays|by apply plain_no_nul]. }
  assert (Hrf : forall s', lfs_dirs s' lfs -> resolve s' f = inr f).
  { intros s' Hs'. apply (resolve_in lfs Hlfs); [done|apply in_locks|by apply plain_stays|by apply plain_no_nul]. }
  pose proof (c_dirs _ _ _ Hr) as Hd0. pose proof (contains_node lfs s D dr Hr) as Htn. fold tmp in Htn.
  apply wp_bind, nf_timestamp; [done|]. intros t Ht.
  apply wp_bind. unfold lockfile_write. apply wp_bind, wp_call. intros o1 [Ho1 _]. cbn [handle_ev].
  unfold faulty. rewrite Ho1. unfold with_l, fs_create_new. rewrite Hrt by done. rewrite node_at_cons by done.
  destruct (D !! dr) as [e|] eqn:Edr.
  { assert (is_Some (nodes s !! tmp)) as [n Hn].
    { destruct e as [|d u]; [by rewrite Htn|]. destruct Htn as (j & x & -> & _). done. }
    rewrite Hn. cbn [fst snd io_kind_of EEXIST]. rewrite decide_True by done. apply wp_ret.
    apply wp_bind. unfold lockfile_drop. apply wp_bind, wp_call. intros o4 [Ho4 _]. cbn [handle_ev]. unfold faulty. rewrite Ho4.
    unfold with_l, fs_unlink, file_at. rewrite Hrt, node_at_cons by done. destruct e as [|d u].
    - rewrite Htn. cbn [fst snd]. apply wp_ret, wp_ret. apply HS; [right; by eexists|done].
    - destruct Htn as (j & x & Hj & _). rewrite Hj. cbn [fst snd]. apply wp_ret, wp_ret. apply HS; [right; by eexists|].
      eapply contains_del; [exact Hr|exact Hj|done|by apply ino_le_eq]. }
  rewrite Htn.
  cbn [alloc fst snd]. set (j := length (inodes s)).
  apply wp_io_call, wp_call. intros o2 [Ho2 _]. cbn [handle_ev]. rewrite Ho2. unfold with_l, fs_write, inode_at.
  cbn [set_nodes inodes]. assert ((inodes s ++ [Inode [] (l_uid l) (N.ldiff 438 (l_umask l)) pid false]) !! j =
    Some (Inode [] (l_uid l) (N.ldiff 438 (l_umask l)) pid false)) as ->.
  { rewrite lookup_app_r by (unfold j; lia). unfold j. by rewrite Nat.sub_diag. }
  cbn [fst snd res_of_io]. set (s1 := upd_inode _ _ _).
  assert (En1 : nodes s1 = <[tmp := NFile j]> (nodes s)) by done.
  set (x := Inode (record_of t p) (l_uid l) (N.ldiff 438 (l_umask l)) pid false).
  assert (Ei1 : inodes s1 = inodes s ++ [x]).
  { simpl. rewrite alter_app_r_alt by (unfold j; lia). unfold j. by rewrite Nat.sub_diag. }
  assert (Hd1 : lfs_dirs s1 lfs).
  { eapply dirs_mono; [|exact Hd0]. intros q Hq. rewrite En1, lookup_insert_ne; [done|]. intros <-. congruence. }
  clearbody s1. apply wp_bindR. unfold lockfile_persist. apply wp_bind, wp_call. intros o3 [Ho3 _]. cbn [handle_ev].
  unfold faulty. rewrite Ho3. unfold with_l, fs_link, file_at. rewrite Hrt, node_at_cons, En1, lookup_insert by done.
  rewrite Hrf, node_at_cons, En1, lookup_insert_ne by done.
  pose proof (contains_node lfs s D i Hr) as Hn. fold f in Hn.
  destruct (D !! i) as [e|] eqn:Ei.
  - assert (is_Some (nodes s !! f)) as [n Hn'].
    { destruct e as [|d u]; [by rewrite Hn|]. destruct Hn as (k & y & -> & _). done. }
    rewrite Hn'. cbn [fst snd]. apply wp_bind. unfold lockfile_drop.
    apply wp_bind, wp_call. intros o4 [Ho4 _]. cbn [handle_ev]. unfold faulty. rewrite Ho4.
    unfold with_l, fs_unlink, file_at. rewrite Hrt, node_at_cons, En1, lookup_insert by done. cbn [fst snd].
    apply wp_ret. cbn [io_kind_of EEXIST]. rewrite decide_True by done. apply wp_ret. apply HS; [left; by eexists|].
    eapply contains_same; [exact Hr| |].
    + simpl. rewrite En1. by apply delete_insert.
    + by eapply ino_le_grow.
  - rewrite Hn. cbn [fst snd]. apply wp_bind. unfold lockfile_drop.
    set (s2 := log _ _ _).
    assert (Hd2 : lfs_dirs s2 lfs).
    { eapply dirs_mono; [|exact Hd1]. intros q Hq. simpl. rewrite lookup_insert_ne; [done|].
      intros <-. rewrite En1, lookup_insert_ne, Hn in Hq by done. done. }
    assert (En2 : nodes s2 = <[f := NFile j]> (<[tmp := NFile j]> (nodes s))) by (simpl; by rewrite En1).
    assert (Ei2 : inodes s2 = inodes s ++ [x]) by done. clearbody s2.
    apply wp_bind, wp_call. intros o4 [Ho4 _]. cbn [handle_ev]. unfold faulty. rewrite Ho4.
    unfold with_l, fs_unlink, file_at. rewrite Hrt, node_at_cons, En2, lookup_insert_ne, lookup_insert by done. cbn [fst snd].
    apply wp_ret, wp_ret. set (s3 := log _ _ _).
    assert (En3 : nodes s3 = <[f := NFile j]> (nodes s)).
    { simpl. rewrite En2, delete_insert_ne by done. by rewrite delete_insert. }
    assert (Ei3 : inodes s3 = inodes s ++ [x]) by done. clearbody s3.
    assert (Hxj : inodes s3 !! j = Some x).
    { rewrite Ei3, lookup_app_r by (unfold j; lia). unfold j. by rewrite Nat.sub_diag. }
    assert (Hr3 : has s3 (<[i := File (record_of t p) (l_uid l)]> D)).
    { apply (contains_add lfs s s3 D i j x); try done. by eapply ino_le_grow. }
    apply wp_bind. unfold user_for_file. apply wp_bind, nf_stat, wp_ret.
    unfold fs_stat. rewrite Hrf, node_at_cons, En3, lookup_insert by (done || apply Hr3).
    unfold inode_at. rewrite Hxj. apply wp_bind, nf_timestamp; [done|]. intros t' Ht'. apply wp_ret.
    by apply (HN eq_refl eq_refl t t').
Qed.

(** A lock whose time cannot be shown makes the server panic. *)
Lemma ld_as_arguments p t u (Q : list bytes -> local -> fs -> Prop) l s :
  match en_time en t with Some x => Q (lock_info en p x u) l s | None => F PBadTime l s end ->
  WP (as_arguments en (Lock p t (user_name en u))) Q l s.
Proof using Type.
  intros HQ. unfold as_arguments, formatted_timestamp. cbn [lk_time]. apply wp_bind. destruct (en_time en t); [|done].
  apply wp_ret, wp_ret. exact HQ.
Qed.
Lemma ld_as_lock_spec p t u (Q : list bytes -> local -> fs -> Prop) l s :
  match en_time en t with Some x => Q (lock_lines en m p x u) l s | None => F PBadTime l s end ->
  WP (as_lock_spec en (is_upload m) (Lock p t (user_name en u))) Q l s.
Proof using Type.
  intros HQ. unfold as_lock_spec, formatted_timestamp. cbn [lk_time lk_path lk_owner]. apply wp_bind. destruct (en_time en t); [|done].
  apply wp_ret, wp_ret. unfold lock_lines in HQ. unfold lk_id. cbn [lk_path].
  destruct m; exact HQ.
Qed.

Lemma ld_lock kvs : well_formed m (RLock kvs) -> handles (RLock kvs) CLock.
Proof using Hlfs HH Hts Hclock.
  intros (_ & Hargs) D rb tl l s Hr Hrb Hf Hin Hp. cbn [handle_command].
  apply wp_bind. unfold p_lock. apply wp_bindR. unfold read_to_flush_wrapped, read_to_flush. apply wp_bind.
  apply (nf_read_lines ts clock pid fuel F PFlush (map arg_line kvs) tl); [lia|done|].
  apply wp_ret. apply wp_bindR, (nf_args ts clock pid F kvs); [done|]. intros a Ha.
  assert (Hbad : no_key (bs "path") kvs \/ no_key (bs "refname") kvs ->
    WP (Ret (Er (err_msg MissingData (bs "both path and refname required")))) (fun a1 => WP (Ret (a1, rb)) (wresult D (RLock kvs) tl l)) (set_in tl l) s).
  { intros H. apply wp_ret, wp_ret. eapply res_er; [by apply complain_400|by apply d_lock_bad|done..]. }
  destruct (a !! bs "path") as [p|] eqn:Ep; [|apply Hbad; left; by eapply no_key_none].
  destruct (a !! bs "refname") as [rn|] eqn:En; [|apply Hbad; right; by eapply no_key_none]. clear Hbad.
  apply Ha in Ep, En. apply wp_bind, (ld_create D); [done| |].
  - intros H1 H2 t t' s' Ht Ht' Hr'. destruct (time_text _ _ (Hclock _ Ht')) as [x Hx].
    apply wp_bind. apply ld_as_arguments. rewrite Hx. apply wp_ret, wp_ret. destruct Hrb.
    eexists (Reply 201 (lock_info en p x (l_uid l)) BNone), _.
    split_and!; [by apply (d_lock en m (l_uid l) clock D kvs p rn t t' x)|exact Hr'| |done..].
    by apply (sends_none s' 201 (Some _)), is_code.
  - intros Hsome s' Hr'. cbn [e_kind err_simple]. rewrite decide_True by done.
    assert (Hdo : forall o, refused en (without_draft en D p) p o -> does (l_uid l) clock D (RLock kvs) o).
    { intros o Ho. by eapply d_lock_refused. }
    apply wp_bind, (ld_from_path (without_draft en D p)); [done|]. intros y r Hy Hf'.
    destruct y as [|c|p' t u], r as [[k|]|e]; try done.
    + eapply Hp; [|exact Hr']. apply Hdo. by apply r_nothing.
    + apply wp_ret, wp_ret. eapply res_er; [exact Hf'| |exact Hr'|done..]. apply Hdo. by apply r_useless.
    + destruct Hf' as [-> ->]. apply wp_bind, ld_as_arguments. destruct (en_time en t) as [x|] eqn:Et.
      * apply wp_ret, wp_ret. destruct Hrb. eexists (Reply 409 (lock_info en p x u) (BText (bs "conflict" ++ [NL]))), _.
        split_and!; [apply Hdo; by eapply r_held|done| |done..]. split_and!; try done. by apply is_code.
      * eapply Hp; [|exact Hr']. apply Hdo. by eapply r_time.
    + destruct Hf' as [Hne Hf']. apply wp_ret, wp_ret. eapply res_er; [exact Hf'| |exact Hr'|done..]. apply Hdo. by eapply r_clash.
Qed.

(** ** unlock *)
Lemma ld_unlock i kvs : well_formed m (RUnlock i kvs) -> handles (RUnlock i kvs) (CUnlock i).
Proof using Hlfs HH.
  intros (_ & Hargs & _ & Hi) D rb tl l s Hr Hrb Hf Hin Hp. cbn [handle_command].
  apply wp_bind. unfold p_unlock, read_to_flush. apply wp_bindR.
  apply (nf_read_lines ts clock pid fuel F PFlush (map arg_line kvs) tl); [lia|done|].
  destruct (utf8_valid i) eqn:Eu.
  2: { apply wp_ret, wp_ret. eapply res_er; [by apply complain_400|by apply d_unlock_bad|done..]. }
  apply wp_bind, (ld_from_id D); [done|done|]. intros y r Hy Hf'. destruct y as [|c|p t u], r as [[k|]|e]; try done.
  { apply wp_ret, wp_ret. apply res_text; try done; [by apply is_code|]. by apply d_unlock_none. }
  { apply wp_ret, wp_ret. eapply res_er; [exact Hf'| |done..]. by apply d_unlock_useless. }
  cbn [taken_for] in Hf'. subst k. apply wp_bind, ld_as_arguments. destruct (en_time en t) as [x|] eqn:Et.
  2: { eapply Hp; [|exact Hr]. by eapply d_unlock_time. }
  apply wp_bind. unfold lock_unlock. unfold lk_id. cbn [lk_path]. change (hash_for en p) with (id p).
  unfold lock_file, lock_dir. cbn [be_lfs]. rewrite <- app_assoc. cbn [app].
  apply wp_io_call, wp_call. intros o [Ho _]. cbn [handle_ev]. unfold faulty. rewrite Ho. unfold with_l, fs_unlink, file_at.
  destruct (lock_id_plain en HH p) as (Hpl & _ & _).
  rewrite (resolve_in lfs Hlfs s (bs "locks") (id p) (c_dirs _ _ _ Hr) in_locks (plain_stays _ Hpl) (plain_no_nul _ Hpl)).
  rewrite node_at_cons by (by intros [_ ?]%app_eq_nil).
  pose proof (contains_node lfs s D (id p) Hr) as Hn. destruct (D !! id p) as [[|d' u']|] eqn:Ed.
  - rewrite Hn. cbn [fst snd res_of_io]. rewrite !decide_False by done. apply wp_ret, wp_ret.
    eapply res_er; [apply complain_trouble| |done..]. by eapply d_unlock_folder.
  - destruct Hn as (j & y & Hj & _). rewrite Hj. cbn [fst snd res_of_io]. apply wp_ret, wp_ret. destruct Hrb.
    eexists (Reply 200 (lock_info en p x u) BNone), _. split_and!; [by eapply d_unlock| | |done..].
    + eapply contains_del; [exact Hr|exact Hj|done|by apply ino_le_eq].
    + by apply (sends_none _ 200 (Some _)), is_code.
  - rewrite Hn. cbn [fst snd res_of_io]. rewrite decide_True by done. apply wp_ret, wp_ret.
    apply res_text; try done; [by apply is_code|]. by eapply d_unlock_gone.
Qed.

(** ** list-lock *)
Definition to_lock (x : bytes * Z * N) : lock := let '(p, t, u) := x in Lock p t (user_name en u).

Lemma finds_some D is : exists ls, finds D is ls.
Proof using Type.
  induction is as [|i is [ls IH]]; [exists []; constructor|].
  destruct (under_some D (utf8_lossy i)) as [[|c|p t u] Hx].
  - exists ls. by eapply fi_skip.
  - exists ls. by eapply fi_skip.
  - exists ((p, t, u) :: ls). by constructor.
Qed.
Lemma passed_dec c i : passed c i \/ ~ passed c i.
Proof using Type. destruct c as [c|]; cbn [passed]; [|tauto]. destruct (blt i c); [by left|by right]. Qed.
Lemma split_passed c (ls : list (bytes * Z * N)) : exists before after, ls = before ++ after /\
  Forall (fun x => passed c (id x.1.1)) before /\ match after with x :: _ => ~ passed c (id x.1.1) | [] => True end.
Proof using Type.
  induction ls as [|x ls (b & a & -> & Hb & Ha)]; [by exists [], []|].
  destruct (passed_dec c (id x.1.1)) as [Hp|Hp].
  - exists (x :: b), a. by split_and!; [|constructor|].
  - by exists [], (x :: b ++ a).
Qed.

Lemma ld_collect D cursor is skip n (Q : list lock -> local -> fs -> Prop) l s :
  has s D -> Forall plain_name is ->
  (forall before ls, finds D is (before ++ ls) -> Forall (fun x => passed cursor (id x.1.1)) before ->
     (skip = false -> before = []) ->
     (skip = true -> match ls with x :: _ => ~ passed cursor (id x.1.1) | [] => True end) ->
     Q (take n (to_lock <$> ls)) l s) ->
  WP (collect_locks en be cursor is skip n) Q l s.
Proof using Hlfs.
  intros Hr. revert skip n Q. induction is as [|i is IH]; intros skip n Q Hk HQ.
  { destruct n; apply wp_ret; (apply (HQ [] []); [constructor|constructor|done|done]). }
  destruct n as [|n].
  { apply wp_ret. destruct (finds_some D (i :: is)) as [ls Hls]. destruct skip.
    - destruct (split_passed cursor ls) as (b & a & -> & Hb & Ha). by apply (HQ b a).
    - by apply (HQ [] ls). }
  apply Forall_cons in Hk as [Hi Hk]. cbn [collect_locks].
  apply wp_bind, (ld_from_id D); [done|by apply lossy_plain|]. intros x r Hx Ht.
  assert (Hskip : (forall p t u, x <> Held p t u) -> WP (collect_locks en be cursor is skip (S n)) Q l s).
  { intros Hno. apply IH; [done|]. intros b ls H1 H2 H3 H4. apply HQ with (before := b); try done. by eapply fi_skip. }
  destruct x as [|c|p t u], r as [[k|]|e]; try done; [by apply Hskip|by apply Hskip|]. clear Hskip.
  cbn [taken_for] in Ht. subst k. unfold lk_id. cbn [lk_path]. change (hash_for en p) with (id p).
  destruct (skip && match cursor with Some c => blt (id p) c | None => false end) eqn:Eb.
  - apply andb_true_iff in Eb as [-> Eb]. apply IH; [done|]. intros b ls H1 H2 H3 H4.
    apply (HQ ((p, t, u) :: b) ls); try done; [by constructor|]. constructor; [|done]. destruct cursor; done.
  - apply wp_bind, IH; [done|]. intros b ls H1 _ H3 _. rewrite (H3 eq_refl) in H1. apply wp_ret.
    apply (HQ [] ((p, t, u) :: ls)); [by constructor|constructor|done|].
    intros ->. cbn [andb] in Eb. destruct cursor; cbn [passed fst]; [congruence|tauto].
Qed.

Lemma ld_list_items D cursor n (Q : res (list lock) -> local -> fs -> Prop) l s : has s D ->
  (forall ls, listed en D cursor ls -> Q (Ok (take n (to_lock <$> ls))) l s) ->
  WP (list_lock_items en be cursor n) Q l s.
Proof using Hlfs.
  intros Hr HQ. unfold list_lock_items, lock_dir. cbn [be_lfs]. apply wp_bind, nf_readdir. unfold fs_readdir.
  destruct (resolve_dir lfs Hlfs s (bs "locks") (c_dirs _ _ _ Hr) in_locks) as [-> ->].
  set (names := children s (lfs ++ [bs "locks"])).
  assert (Hin : forall i, i ∈ merge_sort ble names <-> is_Some (D !! i)).
  { intros i. rewrite merge_sort_Permutation. unfold names. rewrite elem_children, <- app_assoc. cbn [app].
    pose proof (contains_node lfs s D i Hr) as Hn. destruct (D !! i) as [[|d u]|].
    - rewrite Hn. split; intros _; by eexists.
    - destruct Hn as (j & x & -> & _). split; intros _; by eexists.
    - rewrite Hn. split; intros [? ?]; done. }
  apply wp_bind, (ld_collect D); [done| |].
  { apply Forall_forall. intros i Hi. apply (c_names _ _ _ Hr). by apply Hin. }
  intros b ls H1 H2 _ H4. apply wp_ret, HQ. exists (merge_sort ble names), b.
  split_and!; try done; [by apply sorted_strict, nodup_children|by apply H4].
Qed.

Lemma ld_lock_specs ls (Q : list bytes -> local -> fs -> Prop) l s :
  (forall out, lines_of en m ls out -> Q out l s) ->
  ((exists p t u, (p, t, u) ∈ ls /\ en_time en t = None) -> F PBadTime l s) ->
  WP (lock_specs en (is_upload m) (to_lock <$> ls)) Q l s.
Proof using Type.
  revert Q. induction ls as [|[[p t] u] ls IH]; intros Q HQ HF.
  { apply wp_ret, HQ. constructor. }
  cbn [fmap list_fmap lock_specs to_lock]. apply wp_bind, ld_as_lock_spec. destruct (en_time en t) as [x|] eqn:Et.
  - apply wp_bind, IH.
    + intros out Hout. apply wp_ret, HQ. by constructor.
    + intros (p' & t' & u' & Hin & Hn). apply HF. exists p', t', u'. split; [by right|done].
  - apply HF. exists p, t, u. split; [by left|done].
Qed.

Lemma ld_list kvs : well_formed m (RList kvs) -> handles (RList kvs) CListLock.
Proof using Hlfs HH.
  intros Hargs D rb tl l s Hr Hrb Hf Hin Hp. cbn [handle_command].
  apply wp_bind. unfold p_list_locks. apply wp_bindR. unfold read_to_flush_wrapped, read_to_flush. apply wp_bind.
  apply (nf_read_lines ts clock pid fuel F PFlush (map arg_line kvs) tl); [lia|done|].
  apply wp_ret. apply wp_bindR, (nf_args ts clock pid F kvs); [done|]. intros a Ha. apply wp_bindR, wp_ret.
  assert (Hlim : match match a !! bs "limit" with Some x => parse_integer x | None => Ok 100%N end with
    | Ok n => n = 0%N /\ (exists b, (bs "limit", b) ∈ kvs /\ number b 0) \/
              n <> 0%N /\ limit_of (a !! bs "limit") (N.to_nat (if (100 <? n)%N then 100 else n))
    | Er e => client_error (e_kind e) = true /\ exists b, (bs "limit", b) ∈ kvs /\ (~ exists n, number b n) /\ display e = bad_number b end).
  { destruct (a !! bs "limit") as [b|] eqn:Eb.
    - apply Ha in Eb. destruct (parse_integer b) as [n|e] eqn:En.
      + apply parse_number in En. destruct (decide (n = 0%N)) as [->|Hn]; [left; split; [done|by exists b]|right].
        split; [done|]. replace (if (100 <? n)%N then 100%N else n) with (N.min n 100); [by constructor|].
        destruct (100 <? n)%N eqn:E; [apply N.ltb_lt in E|apply N.ltb_ge in E]; lia.
      + apply parse_number_er in En as (? & ? & ?). split; [done|]. by exists b.
    - right. split; [done|]. constructor. }
  destruct (match a !! bs "limit" with Some x => parse_integer x | None => Ok 100%N end) as [n|e].
  2: { destruct Hlim as (He & b & Hb1 & Hb2 & Hd). apply wp_ret. eapply res_er; [by apply complain_400| |done..]. rewrite Hd. by eapply d_list_number. }
  destruct Hlim as [(-> & b & Hb1 & Hb2)|[Hn Hlim]].
  { apply wp_ret, wp_ret. eapply res_er; [by apply complain_400| |done..]. by eapply d_list_zero. }
  rewrite (proj2 (N.eqb_neq n 0)) by done. set (lim := N.to_nat _) in *.
  pose proof (key_lookup a kvs (bs "limit") Ha) as Hkl. pose proof (key_lookup a kvs (bs "cursor") Ha) as Hkc.
  destruct (a !! bs "path") as [p|] eqn:Ep.
  - apply Ha in Ep. unfold p_list_for_path. apply wp_bind, (ld_from_path D); [done|]. intros x r Hx Hfor.
    assert (Hnone : under D (id p) Nothing \/ (exists t u, under D (id p) (Held p t u) /\ passed (a !! bs "cursor") (id p)) ->
      WP (p_error 404 (bs "not found")) (fun a1 => WP (Ret (a1, rb)) (wresult D (RList kvs) tl l)) (set_in tl l) s).
    { intros H. apply wp_ret, wp_ret. apply res_text; try done; [by apply is_code|]. by eapply d_path_none. }
    destruct x as [|c|p' t u], r as [[k|]|e]; try done.
    + apply Hnone. by left.
    + apply wp_ret, wp_ret. eapply res_er; [exact Hfor| |done..]. by eapply d_path_useless.
    + destruct Hfor as [-> ->]. unfold lk_id at 1. cbn [lk_path]. change (hash_for en p) with (id p).
      assert (Hyes : ~ passed (a !! bs "cursor") (id p) ->
        WP (let! s0 := as_lock_spec en (is_upload m) (Lock p t (user_name en u)) in Ret (Ok (st_new_success s0)))
          (fun a1 => WP (Ret (a1, rb)) (wresult D (RList kvs) tl l)) (set_in tl l) s).
      { intros Hc. apply wp_bind, ld_as_lock_spec. destruct (en_time en t) as [x|] eqn:Et.
        - apply wp_ret, wp_ret. destruct Hrb.
          exists (Reply 200 [] (BLines (lock_lines en m p x u))), D. split_and!; try done.
          + by eapply d_path.
          + by apply (sends_lines s 200 None), is_code.
        - eapply Hp; [|exact Hr]. by eapply d_path_time. }
      destruct (a !! bs "cursor") as [c|] eqn:Ec; cbn [passed] in *; [|apply Hyes; tauto].
      destruct (blt (id p) c) eqn:Eb; [|by apply Hyes].
      apply Hnone. right. by exists t, u.
    + destruct Hfor as [Hne Hfor]. apply wp_ret, wp_ret. eapply res_er; [exact Hfor| |done..]. by eapply d_path_clash.
  - assert (Hnk : no_key (bs "path") kvs) by (by eapply no_key_none).
    apply wp_bindR, (ld_list_items D); [done|]. intros ls Hls. rewrite <- fmap_take. apply wp_bind, ld_lock_specs.
    + intros out Hout. apply wp_ret, wp_ret. destruct Hrb.
      match goal with |- wresult _ _ _ _ (Ok (st_success_with_data 200 ?nx _), _) _ _ =>
        replace nx with (match ls !! lim with Some (p, _, _) => [bs "next-cursor=" ++ id p ++ [NL]] | None => [] end) end.
      2: { rewrite list_lookup_fmap, lookup_take by lia. destruct (ls !! lim) as [[[p t] u]|] eqn:Ei; [|done].
           cbn [fmap option_fmap option_map to_lock]. apply lookup_lt_Some in Ei.
           rewrite fmap_length, take_length, (proj2 (Nat.eqb_eq _ _)) by lia. done. }
      eexists (Reply 200 _ (BLines out)), D. split_and!; try done.
      * eapply (d_list en m (l_uid l) clock D kvs (a !! bs "limit") lim (a !! bs "cursor") ls out); try done.
        by rewrite Nat.add_1_r in Hout.
      * by apply (sends_lines s 200 (Some _)), is_code.
    + intros (p & t & u & Hpin & Ht). eapply Hp; [|exact Hr]. rewrite Nat.add_1_r in Hpin. by eapply d_list_time.
Qed.

(** ** Sessions *)
Lemma ld_first r : well_formed m r -> about_locks r ->
  exists b c, packets_of r = PData b :: tail (packets_of r) /\ b <> [] /\
    dispatch (command_words b) m = c /\ c <> CQuit /\ handles r c.
Proof using HH Hlfs Hts Hclock.
  assert (Hno : forall x : bytes, bool_decide (SP ∈ x) = false -> SP ∉ x) by (intros x; by apply bool_decide_eq_false).
  intros Hw Hl. destruct r as [|kvs items|o kvs ds|o kvs|o kvs|kvs|kvs|i kvs]; cbn [packets_of tail]; try done.
  - eexists _, _. split_and!; [done|done|done|by vm_compute|]. apply ld_version.
  - pose proof (proj1 Hw) as Em. eexists _, CLock. split_and!; [done|done|rewrite Em; by vm_compute|done|by apply ld_lock].
  - eexists _, CListLock. split_and!; [done|done|by destruct m; vm_compute|done|by apply ld_list].
  - pose proof Hw as (Em & _ & Hi & _). eexists _, (CUnlock i). split_and!; [done|done| |done|by apply ld_unlock].
    change (bs "unlock ") with (bs "unlock" ++ [SP]).
    rewrite (words1 (bs "unlock") i) by (done || (apply Hno; by vm_compute)). by rewrite Em.
Qed.

Lemma ld_round r D rb tl l s (Q : next -> local -> fs -> Prop) :
  well_formed m r -> about_locks r -> has s D -> rb_ok rb -> (2 * length (l_in l) + 2 <= fuel)%nat ->
  l_in l = enc_all (packets_of r) ++ tl -> short (packets_of r) ->
  may_panic D r tl l ->
  (forall a D' ps rb' s', does (l_uid l) clock D r (Answered a D') -> reply_sent a ps -> has s' D' ->
     rb_ok rb' -> Q (Next rb') (add_out (enc_all ps) (set_in tl l)) s') ->
  WP (process_one en be fuel m rb) Q l s.
Proof using HH Hlfs Hts Hclock.
  intros Hwf Hab Hr Hrb Hf Hin Hs Hpn HQ. destruct (ld_first r Hwf Hab) as (b & c & Ep & Hb & Hd & Hc & Ha).
  assert (Hin' : l_in l = enc (PData b) ++ (enc_all (tail (packets_of r)) ++ tl)).
  { rewrite Hin, Ep at 1. cbn [enc_all flat_map]. change (flat_map enc) with enc_all. by rewrite <- app_assoc. }
  unfold process_one. apply wp_bind. eapply (nf_read_enc pid ok F (ok_no_fault ts clock)); [exact Hin'| |].
  { rewrite Ep in Hs. by apply Forall_cons in Hs as [? _]. }
  cbn [pkt_data]. destruct b as [|b0 b']; [done|]. rewrite Hd. set (l1 := set_in _ l).
  assert (Hgo : WP (let! (r0, rb') := handle_command en be fuel c m rb in and_go_on rb' (answer fuel (status_of r0))) Q l1 s).
  { apply wp_bind. eapply wp_mono; [|apply (Ha D rb tl l1 s); [done|done| | |]].
    - intros [x rb'] l' s' (a & D' & H1 & H2 & H3 & H4 & -> & H5). cbn [fst snd] in *.
      unfold and_go_on. apply wp_bind. eapply (nf_answer ts clock); [done| |].
      { unfold fits. by destruct (rp_body a). }
      intros ps s'' Hps E1 E2. apply wp_ret. unfold l1. rewrite set_in_set_in.
      eapply HQ; [exact H1|done| |done].
      eapply contains_same; [exact H2|done|by apply ino_le_eq].
    - unfold l1. cbn [l_in set_in]. rewrite Hin' in Hf. rewrite app_length in Hf. lia.
    - apply (given_enc m); [done|]. destruct (packets_of r); [done|]. by apply Forall_cons in Hs as [_ ?].
    - intros f D' s' H1 H2. unfold l1. rewrite set_in_set_in. by eapply Hpn. }
  destruct c; done || exact Hgo.
Qed.

Lemma ld_session reqs n D rb rest extra l s :
  Forall (well_formed m) reqs -> Forall about_locks reqs -> has s D -> rb_ok rb ->
  (2 * length (l_in l) + 2 <= fuel)%nat -> (length reqs < n)%nat ->
  l_in l = enc_all (concat (map packets_of reqs)) ++ rest -> short (concat (map packets_of reqs)) -> ending rest extra ->
  (forall answers D' ps f tl s', serves en m (l_uid l) clock D reqs answers (Some f) D' -> replies_sent answers ps ->
     has s' D' -> F f (add_out (enc_all ps) (set_in tl l)) s') ->
  WP (process_commands en be fuel n m rb)
    (fun r l' s' => r = Ok tt /\ exists answers D' ps, serves en m (l_uid l) clock D reqs answers None D' /\
       replies_sent (answers ++ extra) ps /\ has s' D' /\ exists tl, l' = add_out (enc_all ps) (set_in tl l)) l s.
Proof using HH Hlfs Hts Hclock.
  revert n D rb l s. induction reqs as [|r reqs IH]; intros n D rb l s Hwf Hab Hr Hrb Hf Hn Hin Hs Hend Hpn;
    (destruct n as [|n]; [simpl in Hn; lia|]); cbn [process_commands]; apply wp_bind.
  - clear Hpn. simpl in Hin. destruct Hend as [|w0 junk Hq].
    + unfold process_one. apply wp_bind, (nf_read_packet pid ok F (ok_no_fault ts clock)). rewrite Hin.
      change (decode 65535 []) with (Er (A := packet) (err_of_io EEOF), @nil byte).
      cbn [fst snd]. apply wp_ret. cbn. rewrite decide_True by done. apply wp_ret. split; [done|]. exists [], D, []. split_and!; [constructor|constructor|done|].
      exists []. by rewrite add_out_nil.
    + apply wire_inv in Hq as [-> Hq]. unfold process_one. apply wp_bind. eapply (nf_read_enc pid ok F (ok_no_fault ts clock)); [exact Hin|done|].
      assert (dispatch (command_words (bs "quit" ++ [NL])) m = CQuit) as E by (by destruct m).
      change (pkt_data (PData (bs "quit" ++ [NL]))) with (Some (bs "quit" ++ [NL])). 
      destruct (bs "quit" ++ [NL]) as [|b0 b] eqn:Eb; [done|]. rewrite E.
      apply wp_bind. eapply (nf_answer ts clock pid fuel F st_success (Reply 200 [] BNone)); [|done|].
      { by apply (sends_none s 200 None), is_code. }
      intros ps s' Hps E1 E2. apply wp_ret. split; [done|]. exists [], D, (ps ++ []). split_and!.
      * constructor.
      * by repeat constructor.
      * eapply contains_same; [exact Hr|done|by apply ino_le_eq].
      * exists junk. by rewrite app_nil_r.
  - apply Forall_cons in Hwf as [Hwf1 Hwf]. apply Forall_cons in Hab as [Hab1 Hab]. cbn [map concat] in Hin, Hs.
    rewrite enc_all_app, <- app_assoc in Hin. apply Forall_app in Hs as [Hs1 Hs].
    eapply ld_round; [done|done|exact Hr|done|done|exact Hin|done| |].
    { intros f D' s' H1 H2. rewrite <- (add_out_nil (set_in _ l)). change [] with (enc_all []). 
      eapply Hpn; [by eapply sv_panic|constructor|done]. }
    intros a D' ps rb' s' Ha Hps Hr' Hrb'. eapply wp_mono; [|eapply (IH n D' rb'); try done].
    + intros x l' s'' (-> & ans & w'' & qs & H1 & H2 & H3 & tl & ->). split; [done|].
      exists (a :: ans), w'', (ps ++ qs). split_and!; [|by constructor|done|].
      * econstructor; [done|]. exact H1.
      * exists tl. rewrite enc_all_app. rewrite <- add_out_app. done.
    + cbn [l_in add_out set_in]. rewrite Hin, app_length in Hf. lia.
    + simpl in Hn. lia.
    + intros ans D'' qs f tl s'' H1 H2 H3. specialize (Hpn (a :: ans) D'' (ps ++ qs) f tl s'').
      rewrite enc_all_app, <- add_out_app in Hpn. apply Hpn; [by econstructor|by constructor|done].
Qed.

(** The directories are there. *)
Lemma ld_mkdirs s D d : d ∈ dir_names -> has s D ->
  exists s', fs_mkdirs s [] (lfs ++ [d]) = inr s' /\ has s' D.
Proof using Type.
  intros Hd Hr. destruct (mkdirs_ok s [] (lfs ++ [d])) as [s' E].
  { intros a b k Ha Eab Hk. simpl in Hk. rewrite (c_dirs _ _ _ Hr d Hd a b Eab Ha) in Hk. done. }
  exists s'. split; [done|]. apply mkdirs_spec in E as (I & _ & M1 & _).
  apply contains_same with (s := s); [done| |by apply ino_le_eq]. apply map_eq. intros q.
  destruct (M1 q) as [?|(Hq & _ & a & b & Hab & Eq & ->)]; [done|]. exfalso. simpl in Hq.
  rewrite (c_dirs _ _ _ Hr d Hd a b) in Hq; done.
Qed.
Lemma ld_create_dirs ds D (Q : res unit -> local -> fs -> Prop) l s : (forall d, d ∈ ds -> d ∈ dir_names) -> has s D ->
  (forall s', has s' D -> Q (Ok tt) l s') -> WP (create_directories_in lfs ds) Q l s.
Proof using Type.
  revert s Q. induction ds as [|d ds IH]; intros s Q Hds Hs HQ; cbn [create_directories_in].
  { by apply wp_ret, HQ. }
  apply wp_bindR, wp_io_call, wp_call. intros o [Ho _]. cbn [handle_ev]. unfold faulty. rewrite Ho.
  destruct (ld_mkdirs s D d) as (s1 & E & H1); [apply Hds; by left|done|].
  unfold with_l, fs_mkdir_all. rewrite E. cbn [fst snd res_of_io]. apply IH; [intros d' ?; apply Hds; by right|done|done].
Qed.

Lemma ld_run reqs D rest extra l s :
  Forall (well_formed m) reqs -> Forall about_locks reqs -> has s D ->
  (2 * length (l_in l) + 2 <= fuel)%nat ->
  l_in l = enc_all (concat (map packets_of reqs)) ++ rest -> short (concat (map packets_of reqs)) -> ending rest extra ->
  (forall answers D' ps f tl s', serves en m (l_uid l) clock D reqs answers (Some f) D' -> replies_sent answers ps ->
     has s' D' -> F f (add_out (enc_all (capabilities ++ ps)) (set_in tl l)) s') ->
  WP (transfer_run en fuel lfs umask ts (operation m))
    (fun r l' s' => r = Ok tt /\ exists answers D' ps, serves en m (l_uid l) clock D reqs answers None D' /\
       replies_sent (answers ++ extra) ps /\ has s' D' /\ exists tl, l' = add_out (enc_all (capabilities ++ ps)) (set_in tl l)) l s.
Proof using HH Hlfs Hts Hclock.
  intros Hwf Hab Hr Hf Hin Hs Hend Hpn. unfold transfer_run. apply wp_bindR. unfold create_directories.
  apply (ld_create_dirs dir_names D); [done|done|]. intros s1 H1.
  apply wp_bindR. unfold send_capabilities.
  apply wp_bindR, (nf_send pid ok F (ok_no_fault ts clock)), (nf_flush pid ok F (ok_no_fault ts clock)).
  rewrite mode_operation. rewrite add_out_app. rewrite pk_short.
  2: { unfold small. by vm_compute. }
  replace (enc_all [PData (bs "version=1" ++ [NL])] ++ enc PFlush) with (enc_all capabilities) by done.
  assert (Hreqs : (length reqs <= length (enc_all (concat (map packets_of reqs))))%nat).
  { clear. induction reqs as [|r reqs IH]; [simpl; lia|]. cbn [map concat]. rewrite enc_all_app, app_length.
    pose proof (req_len r). simpl. lia. }
  eapply wp_mono; [|eapply (ld_session reqs fuel D rb_empty rest extra); try done].
  - intros r l' s' (-> & ans & w' & ps & G1 & G2 & G3 & tl & ->). split; [done|]. exists ans, w', ps.
    split_and!; try done. exists tl. rewrite enc_all_app, <- add_out_app. done.
  - rewrite Hin, app_length in Hf. lia.
  - intros ans D' ps f tl s' G1 G2 G3. specialize (Hpn ans D' ps f tl s' G1 G2 G3).
    rewrite enc_all_app, <- add_out_app in Hpn. done.
Qed.
End cmd.

(** ** C84 *)
Lemma c84 en lfs umask ts (clock : Z -> Prop) m pid os l s D reqs extra fuel :
  setting en lfs ts clock os -> contains lfs s D -> asks m l reqs extra -> Forall about_locks reqs ->
  (2 * length (l_in l) + 2 <= fuel)%nat ->
  exists as_ f D' s', handled en lfs umask ts clock m pid fuel os l s D reqs as_ extra f D' s'.
Proof.
  intros [HH Hlfs Hts Hclock Hos] Hr (Hwf & inp & rest & Hw & Hend & Hin) Hab Hf. apply wires_inv in Hw as [-> Hs].
  set (F := fun f l' s' => exists answers D' ps tl, serves en m (l_uid l) clock D reqs answers (Some f) D' /\
    replies_sent answers ps /\ contains lfs s' D' /\ l' = add_out (enc_all (capabilities ++ ps)) (set_in tl l)).
  pose proof (ld_run en lfs umask ts clock m pid fuel F HH Hlfs Hts Hclock reqs D rest extra l s Hwf Hab Hr Hf Hin Hs Hend) as G.
  assert (Hwires : forall rs ps, replies_sent rs ps -> wires (PData (bs "version=1" ++ [NL]) :: PFlush :: ps) (enc_all (capabilities ++ ps))).
  { intros rs ps Hps. change (PData (bs "version=1" ++ [NL]) :: PFlush :: ps) with (capabilities ++ ps).
    apply wires_enc. apply Forall_app. split; [|by eapply replies_small]. by repeat constructor. }
  eapply wp_run with (os := os) in G; [|intros answers D' ps f tl s' H1 H2 H3; by exists answers, D', ps, tl|done].
  destruct (run pid (transfer_run en fuel lfs umask ts (operation m)) os l s) as [[[a|f] l'] s'] eqn:E.
  - destruct G as (-> & ans & D' & ps & H1 & H2 & H3 & tl & ->). exists ans, None, D', s'.
    eexists _, ps, (enc_all (capabilities ++ ps)). split_and!; try done. by eapply Hwires.
  - destruct G as (ans & D' & ps & tl & H1 & H2 & H3 & ->). exists ans, (Some f), D', s'.
    eexists _, ps, (enc_all (capabilities ++ ps)). rewrite app_nil_r. split_and!; try done. by eapply Hwires.
Qed.

(** ** Every directory is described *)
Definition entry_at (lfs : path) (s : fs) (i : name) : entry :=
  match nodes s !! (lfs ++ [bs "locks"; i]) with
  | Some (NFile j) => match inodes s !! j with Some x => File (i_data x) (i_uid x) | None => Folder end
  | _ => Folder
  end.
Definition entries (lfs : path) (s : fs) : lockdir :=
  list_to_map ((fun i => (i, entry_at lfs s i)) <$> children s (lfs ++ [bs "locks"])).

Lemma lookup_entries lfs s i :
  entries lfs s !! i = match nodes s !! (lfs ++ [bs "locks"; i]) with Some _ => Some (entry_at lfs s i) | None => None end.
Proof.
  unfold entries. assert (Hin : i ∈ children s (lfs ++ [bs "locks"]) <-> is_Some (nodes s !! (lfs ++ [bs "locks"; i]))).
  { rewrite elem_children, <- app_assoc. done. }
  assert (Hk : ((fun k => (k, entry_at lfs s k)) <$> children s (lfs ++ [bs "locks"])).*1 = children s (lfs ++ [bs "locks"])).
  { rewrite <- list_fmap_compose. apply list_fmap_id. }
  destruct (nodes s !! (lfs ++ [bs "locks"; i])) as [n|] eqn:E.
  - apply elem_of_list_to_map; [rewrite Hk; apply nodup_children|]. apply elem_of_list_fmap. exists i. split; [done|].
    apply Hin. by eexists.
  - apply not_elem_of_list_to_map_1. rewrite Hk. intros H. apply Hin in H as [? ?]. done.
Qed.

Lemma entries_ok lfs s : lfs_dirs s lfs -> sane s -> Forall plain_name (children s (lfs ++ [bs "locks"])) ->
  contains lfs s (entries lfs s).
Proof.
  intros H1 H2 H3. split; [done|done| | |].
  - intros i Hi. rewrite Forall_forall in H3. apply H3. rewrite elem_children, <- app_assoc. cbn [app].
    rewrite lookup_entries in Hi. destruct (nodes s !! _); [by eexists|by destruct Hi].
  - intros i. rewrite lookup_entries. unfold entry_at. destruct (nodes s !! (lfs ++ [bs "locks"; i])) as [[|j]|] eqn:E; [done| |done].
    destruct (lookup_lt_is_Some_2 (inodes s) j (H2 _ _ E)) as [x ->]. done.
  - intros i d u. rewrite lookup_entries. unfold entry_at, owned_file.
    destruct (nodes s !! (lfs ++ [bs "locks"; i])) as [[|j]|] eqn:E.
    + split; [done|]. by intros (? & ? & ? & _).
    + destruct (lookup_lt_is_Some_2 (inodes s) j (H2 _ _ E)) as [x Hx]. rewrite Hx. split.
      * intros [= <- <-]. by exists j, x.
      * intros (j' & x' & [= <-] & Hx' & <- & <-). rewrite Hx in Hx'. by injection Hx' as ->.
    + split; [done|]. by intros (? & ? & ? & _).
Qed.
