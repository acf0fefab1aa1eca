(** put-object for any input. *)
From Verif Require Import Bytes ByteFacts Err FS Prog Pktline Args Local Processor Transfer Wp PktFacts ReaderFacts
  Rg Spec SpecStore SpecUpload SpecServer FsFacts TextProofs IoFacts ServerEv ObjProofs StoreProofs GetProofs SeqIo SeqFs SeqCmd
  Faults Total Eof.

Local Arguments parse_header : simpl never.
Local Opaque COPY_BUF MAX_PACKET_LEN.

Definition anyF (f : failure) (l : local) (s : fs) : Prop := True.

Lemma wp_quiet_eq {A} pid ok (p : prog A) (Q : A -> local -> fs -> Prop) l s :
  all_ev (fun e => match e with ERead _ => True | _ => False end) p ->
  (forall a l', Q a l' s) -> wp pid ok anyF p Q l s.
Proof.
  intros Hp HQ. revert l. induction p as [a|f|e k IH]; intros l; [apply wp_ret, HQ|done|].
  apply wp_vis. intros o _. destruct Hp as [He Hk]. pose proof (handle_resp_ok pid e o l s) as Hr.
  assert (Hs : (handle_ev pid e o l s).2 = s).
  { destruct e; try done. simpl. unfold faulty. destruct (o_fault o); [done|]. by destruct (do_read n l). }
  destruct (handle_ev pid e o l s) as [[r l'] s2]. simpl in *. subst s2. by apply IH, Hk.
Qed.

Lemma wp_any_leaf {A} pid ok (p : prog A) (Q : A -> local -> fs -> Prop) l s :
  leaves (fun a => forall l s, Q a l s) p -> wp pid ok anyF p Q l s.
Proof.
  intros H. revert l s. induction p as [a|x|e k IH]; intros l s; [apply wp_ret, H|done|].
  apply wp_vis. intros o _. destruct (handle_ev pid e o l s) as [[r l1] s1]. apply IH, H.
Qed.

Lemma append_data_app a b x : append_data b (append_data a x) = append_data (a ++ b) x.
Proof. unfold append_data. simpl. by rewrite app_assoc. Qed.
Lemma upd_upd i f g s : upd_inode i g (upd_inode i f s) = upd_inode i (fun x => g (f x)) s.
Proof. unfold upd_inode. simpl. f_equal. by rewrite <- list_alter_compose. Qed.
Lemma upd_id i s f : (forall x, f x = x) -> upd_inode i f s = s.
Proof.
  intros H. unfold upd_inode. destruct s as [n is_ h]. simpl. f_equal. apply list_eq. intros j.
  destruct (decide (i = j)) as [<-|Hj].
  - rewrite list_lookup_alter. destruct (is_ !! i); simpl; by rewrite ?H.
  - by rewrite list_lookup_alter_ne.
Qed.
Lemma upd_ext i s f g : (forall x, f x = g x) -> upd_inode i f s = upd_inode i g s.
Proof. intros H. unfold upd_inode. f_equal. apply list_alter_ext; [|done]. intros x _. apply H. Qed.

Section upload.
Context (pid : nat) (ok : orc -> Prop).
Notation WP := (wp pid ok anyF).

(** Copying appends to the temporary file, exactly what is reported on success. *)
Lemma put_copy f fd got rb (Q : res bytes * rbuf -> local -> fs -> Prop) l s x :
  inodes s !! fd = Some x ->
  (forall r rb' l' z, (forall g, r = Ok g -> g = got ++ z) -> Q (r, rb') l' (upd_inode fd (append_data z) s)) ->
  WP (copy_to_file f fd got rb) Q l s.
Proof.
  revert got rb l s x Q. induction f as [|f IH]; intros got rb l s x Q Hx HQ; [done|]. cbn [copy_to_file].
  assert (H0 : forall r rb' l', (forall g, r = Ok g -> g = got) -> Q (r, rb') l' s).
  { intros r rb' l' Hr. rewrite <- (upd_id fd s (append_data [])).
    - apply HQ. intros g Hg. rewrite app_nil_r. by apply Hr.
    - intros [d u mo c t]. unfold append_data. simpl. by rewrite app_nil_r. }
  apply wp_bind, wp_quiet_eq; [by apply rd_reader_read|]. intros [r rb'] l1. destruct r as [[|c d]|e].
  - apply wp_ret, H0. by intros g [= <-].
  - apply wp_bind, wp_call. intros o _. cbn [handle_ev]. unfold with_l, fs_write, inode_at.
    rewrite Hx. cbn [fst snd]. destruct (o_fault o) as [e|].
    + apply wp_ret. apply HQ. by intros g [=].
    + eapply IH; [by apply inodes_upd_eq|]. intros r rb2 l2 z Hz. rewrite upd_upd.
      rewrite (upd_ext fd s _ (append_data ((c :: d) ++ z))) by (intros; apply append_data_app).
      apply HQ. intros g Hg. rewrite (Hz g Hg). by rewrite <- app_assoc.
  - apply wp_ret, H0. by intros g [=].
Qed.
End upload.

Section any.
Context (en : env) (lfs : path) (umask : N) (ts : option Z) (pid fuel : nat).
Context (Hlfs : Forall plain_name lfs).
Local Notation be := (Backend lfs umask ts).

(** *** Success, whatever fails on the way *)
Definition stored (s : fs) (o : bytes) : Prop :=
  exists j x, nodes s !! object_path lfs o = Some (NFile j) /\ inodes s !! j = Some x /\
    hex_of (en_hash en (i_data x)) o /\ i_mode x = N.ldiff 511 umask.

Lemma ok_put o rb l s :
  wp pid any_orc anyF (p_put_object en be fuel o rb)
     (fun x l' s' => forall st, x.1 = Ok st -> st = st_success /\ is_oid o /\ stored s' o) l s.
Proof using Hlfs.
  unfold p_put_object. destruct (oid_new o) as [o'|e] eqn:Eo; [|by apply wp_ret].
  apply oid_new_iff in Eo as [-> Ho].
  apply wp_bind, wp_bindR, wp_quiet_eq; [by apply rd_read_to_type|]. intros r l1. destruct r as [lines|e]; [|by apply wp_ret].
  apply wp_bindR. destruct (parse_args lines) as [[args|e]|]; [|by apply wp_ret, wp_ret|done].
  apply wp_ret. apply wp_ret. destruct (size_from_arguments args) as [expected|e]; [|by apply wp_ret].
  apply wp_bind. unfold start_upload. apply wp_bind, wp_call. intros or _. cbn [handle_ev]. unfold faulty.
  destruct (o_fault or); [by apply wp_ret, wp_ret|]. unfold with_l, fs_mktemp. cbn [be_lfs].
  destruct (resolve s (lfs ++ [bs "incomplete"])) as [e|d] eqn:Ed; [by apply wp_ret, wp_ret|].
  destruct (node_at s d) as [[|k]|]; [|by apply wp_ret, wp_ret|by apply wp_ret, wp_ret].
  apply resolve_stays in Ed as ->.
  2: { apply Forall_app. split; [by apply plain_stays_all|]. by apply Forall_singleton. }
  cbn [alloc fst snd]. set (n := free_name s _ _). set (tmp := (lfs ++ [bs "incomplete"]) ++ [n]).
  assert (Hn : stays n).
  { destruct Ho as [Hl _]. assert (64 <= length n)%nat.
    { unfold n, free_name. destruct (nodes s !! _); rewrite ?app_length, Hl; lia. }
    split_and!; intros E; rewrite E in H; simpl in H; lia. }
  assert (Htmp : Forall stays tmp).
  { apply Forall_app. split; [apply Forall_app; split; [by apply plain_stays_all|by apply Forall_singleton]|].
    by apply Forall_singleton. }
  set (s1 := set_nodes _ _). apply wp_bind.
  eapply (put_copy pid any_orc fuel (length (inodes s)) [] rb _ _ s1 (Inode [] (l_uid l1) 384 pid true)).
  { simpl. rewrite lookup_app_r by lia. by rewrite Nat.sub_diag. }
  intros r rb' l2 z Hz. destruct r as [got|e].
  2: { apply wp_bind, wp_any_leaf. unfold drop_temp. lv. intros l3 s3. by apply wp_ret, wp_ret. }
  rewrite (Hz got eq_refl). cbn [app]. apply wp_ret. cbn [us_temp]. clear Hz got.
  set (s2 := upd_inode _ _ s1).
  assert (Hfail : forall e, wp pid any_orc anyF (let! _ := drop_temp tmp in Ret (@Er status e, rb'))
     (fun x l' s' => forall st, x.1 = Ok st -> st = st_success /\ is_oid o /\ stored s' o) l2 s2).
  { intros e. apply wp_any_leaf. unfold drop_temp. lv. intros l3 s3 st [=]. }
  destruct (_ <? _)%N; [apply Hfail|]. destruct (_ <? _)%N; [apply Hfail|].
  destruct (oid_new (hex_encode (en_hash en z))) as [o2|e] eqn:Eo; [|apply Hfail].
  apply oid_new_iff in Eo as [-> _]. case_decide as Eh; [apply Hfail|].
  apply wp_bind. unfold finish_upload. cbn [us_oid us_temp be_lfs]. rewrite <- object_path_eq.
  assert (Hdrop : forall e l3 s3, wp pid any_orc anyF (let! _ := drop_temp tmp in Ret (@Er unit e))
     (fun f l' s' => wp pid any_orc anyF (Ret (match f with Ok _ => Ok st_success | Er e => Er e end, rb'))
       (fun x l' s' => forall st, x.1 = Ok st -> st = st_success /\ is_oid o /\ stored s' o) l' s') l3 s3).
  { intros e l3 s3. apply wp_any_leaf. unfold drop_temp. lv. intros l4 s4. apply wp_ret. intros st [=]. }
  apply wp_bind, wp_call. intros or1 _. cbn [handle_ev]. unfold faulty.
  destruct (o_fault or1); [apply Hdrop|]. unfold with_l, fs_mkdir_all.
  destruct (fs_mkdirs s2 [] (removelast (object_path lfs o))) as [e|s3] eqn:Em; [apply Hdrop|]. cbn [fst snd].
  apply mkdirs_spec in Em as (I3 & _ & M3 & _).
  apply wp_bind, wp_call. intros or2 _. cbn [handle_ev]. unfold faulty.
  destruct (o_fault or2); [apply Hdrop|]. unfold with_l, fs_rename.
  destruct (file_at s3 tmp) as [e|[qa i]] eqn:Ef; [apply Hdrop|].
  apply file_at_stays in Ef as [-> Ef]; [|done].
  assert (i = length (inodes s)) as ->.
  { destruct (M3 tmp) as [E|(_ & E & _)]; [|fold tmp in Ef; congruence]. fold tmp in Ef. rewrite Ef in E. simpl in E.
    fold tmp in E. rewrite lookup_insert in E. congruence. }
  destruct (resolve s3 (object_path lfs o)) as [e|qb] eqn:Eb; [apply Hdrop|].
  assert (Hobj : Forall stays (object_path lfs o)).
  { rewrite object_path_eq. apply obj_stays; [by apply plain_stays_all|done]. }
  apply resolve_stays in Eb as ->; [|done].
  assert (Hne : object_path lfs o <> []) by (by intros [_ ?]%app_eq_nil).
  rewrite node_at_cons by done.
  assert (Hgo : wp pid any_orc anyF (fix_permissions be (object_path lfs o))
     (fun f l' s' => wp pid any_orc anyF (Ret (match f with Ok _ => Ok st_success | Er e => Er e end, rb'))
       (fun x l' s' => forall st, x.1 = Ok st -> st = st_success /\ is_oid o /\ stored s' o) l' s') l2
     (set_nodes (fun mm => <[object_path lfs o := NFile (length (inodes s))]> (delete tmp mm)) s3)).
  { set (s4 := set_nodes _ s3). assert (H4 : nodes s4 !! object_path lfs o = Some (NFile (length (inodes s))))
      by (simpl; by rewrite lookup_insert).
    unfold fix_permissions. apply wp_bindR, wp_io_call, wp_call. intros or3 _. cbn [handle_ev]. unfold faulty.
    destruct (o_fault or3); [cbn [res_of_io]; by apply wp_ret|].
    destruct (fs_stat _ _); cbn [res_of_io]; [|by apply wp_ret].
    apply wp_io_call, wp_call. intros or4 _. cbn [handle_ev]. unfold faulty.
    destruct (o_fault or4); [cbn [res_of_io]; by apply wp_ret|]. unfold with_l, fs_chmod.
    destruct (resolve s4 (object_path lfs o)) as [e|q] eqn:Eq; [cbn [res_of_io fst]; by apply wp_ret|].
    apply resolve_stays in Eq as ->; [|done]. rewrite node_at_cons, H4 by done. cbn [fst snd res_of_io].
    apply wp_ret. intros st [= <-]. split; [done|]. split; [done|].
    assert (Hx : inodes s4 !! length (inodes s) = Some (append_data z (Inode [] (l_uid l1) 384 pid true))).
    { simpl. rewrite I3. unfold s2. apply inodes_upd_eq. simpl. rewrite lookup_app_r by lia. by rewrite Nat.sub_diag. }
    exists (length (inodes s)), (set_mode (N.ldiff 511 umask) (append_data z (Inode [] (l_uid l1) 384 pid true))).
    split_and!; [done|by apply inodes_upd_eq| |done]. apply hex_of_iff. cbn [set_mode append_data i_data]. done. }
  destruct (nodes s3 !! object_path lfs o) as [[|k]|]; [apply Hdrop|exact Hgo|exact Hgo].
Qed.

(** *** Rejection when system calls work *)
Notation WP := (wp pid works anyF).


Lemma temp_file s s1 n : lfs_dirs s1 lfs -> stays n -> no_nul n ->
  nodes s1 !! (lfs ++ [bs "incomplete"; n]) = Some (NFile (length (inodes s))) ->
  file_at s1 (lfs ++ [bs "incomplete"; n]) = inr (lfs ++ [bs "incomplete"; n], length (inodes s)).
Proof using Hlfs.
  intros Hd H1 H2 En. unfold file_at.
  rewrite (resolve_in lfs Hlfs); [|done|apply in_incomplete|done|done].
  rewrite node_at_cons by (by intros [_ ?]%app_eq_nil). by rewrite En.
Qed.

Lemma st_drop n (Q : unit -> local -> fs -> Prop) l s s1 :
  lfs_dirs s1 lfs -> stays n -> no_nul n -> nodes s1 !! (lfs ++ [bs "incomplete"; n]) = Some (NFile (length (inodes s))) ->
  (forall s', nodes s' = delete (lfs ++ [bs "incomplete"; n]) (nodes s1) -> inodes s' = inodes s1 -> Q tt l s') ->
  WP (drop_temp (lfs ++ [bs "incomplete"; n])) Q l s1.
Proof using Hlfs.
  intros Hd H1 H2 En HQ. unfold drop_temp. apply wp_bind, wp_call. intros o [Ho _]. cbn [handle_ev].
  unfold faulty. rewrite Ho. unfold with_l, fs_unlink. rewrite (temp_file s s1 n) by done.
  cbn [fst snd]. by apply wp_ret, HQ.
Qed.

Lemma er_finish o n d (Q : res unit -> local -> fs -> Prop) l s s1 :
  lfs_dirs s lfs -> uploading lfs s s1 n d -> stays n -> no_nul n -> is_oid o ->
  (forall r s', (forall e, r = Er e -> e_kind e = IOError /\ same_files s s') -> Q r l s') ->
  WP (finish_upload be (UploadState o (lfs ++ [bs "incomplete"; n]))) Q l s1.
Proof using Hlfs.
  intros Hdirs Hu H1 H2 Ho HQ. unfold finish_upload. cbn [us_oid us_temp be_lfs]. rewrite <- object_path_eq.
  set (tmp := lfs ++ [bs "incomplete"; n]) in *.
  pose proof Hu as (Hn & En & z & Ez & Hz). fold tmp in Hn, En.
  assert (Ep : object_path lfs o = removelast (object_path lfs o) ++ [o]).
  { unfold object_path. rewrite removelast_app by done. by rewrite <- app_assoc. }
  set (b := removelast (object_path lfs o)) in *.
  assert (Htb : forall c c', b = c ++ c' -> tmp <> c).
  { intros c c' Eb E. unfold b, object_path in Eb. rewrite removelast_app in Eb by done. rewrite <- E in Eb.
    unfold tmp in Eb. rewrite <- app_assoc in Eb. by apply app_inv_head in Eb. }
  assert (Htp : tmp <> object_path lfs o) by (intros E; by apply app_inv_head in E).
  assert (Hd1 : lfs_dirs s1 lfs) by (by eapply uploading_dirs).
  (* giving up with the temporary file in place *)
  assert (Hgive : forall s2 e, (forall q, nodes s2 !! q = nodes s1 !! q \/ nodes s1 !! q = None /\ nodes s2 !! q = Some NDir) ->
    inodes s2 = inodes s1 -> e_kind e = IOError -> WP (let! _ := drop_temp tmp in Ret (Er e)) Q l s2).
  { intros s2 e M Hi He. apply wp_bind.
    assert (Hmono : forall q, nodes s1 !! q = Some NDir -> nodes s2 !! q = Some NDir).
    { intros q Hq. destruct (M q) as [->|[E _]]; [done|congruence]. }
    assert (Ht2 : nodes s2 !! tmp = Some (NFile (length (inodes s)))).
    { destruct (M tmp) as [->|[E _]]; rewrite En, lookup_insert in *; done. }
    apply (st_drop n _ l s s2); [by eapply dirs_mono|done|done|exact Ht2|].
    intros s' En' Ei'. apply wp_ret, HQ. intros e' [= <-]. split; [done|]. split_and!.
    - intros p j. rewrite En'. destruct (decide (p = tmp)) as [->|Hp].
      + rewrite lookup_delete, Hn. done.
      + rewrite lookup_delete_ne by done. destruct (M p) as [->|[E1 E2]].
        * by rewrite En, lookup_insert_ne by done.
        * rewrite E2. rewrite En, lookup_insert_ne in E1 by done. by rewrite E1.
    - intros p Hp. rewrite En'. assert (p <> tmp) by congruence. rewrite lookup_delete_ne by done.
      apply Hmono. by rewrite En, lookup_insert_ne.
    - exists [z]. congruence. }
  apply wp_bind, wp_call. intros or [Hor _]. cbn [handle_ev]. unfold faulty. rewrite Hor.
  unfold with_l, fs_mkdir_all. destruct (fs_mkdirs s1 [] b) as [e|s2] eqn:Es2.
  { cbn [fst snd]. apply Hgive; [by left|done|done]. }
  cbn [fst snd]. apply mkdirs_spec in Es2 as (I2 & _ & M1 & M2).
  assert (M : forall q, nodes s2 !! q = nodes s1 !! q \/ nodes s1 !! q = None /\ nodes s2 !! q = Some NDir).
  { intros q. destruct (M1 q) as [?|(? & ? & _)]; [by left|by right]. }
  assert (Hmono : forall q, nodes s1 !! q = Some NDir -> nodes s2 !! q = Some NDir).
  { intros q Hq. destruct (M q) as [->|[E _]]; [done|congruence]. }
  assert (Ht2 : nodes s2 !! tmp = Some (NFile (length (inodes s)))).
  { destruct (M tmp) as [->|[E _]]; rewrite En, lookup_insert in *; done. }
  apply wp_bind, wp_call. intros or2 [Hor2 _]. cbn [handle_ev]. unfold faulty. rewrite Hor2. unfold with_l, fs_rename.
  assert (file_at s2 tmp = inr (tmp, length (inodes s))) as ->.
  { apply temp_file; [by eapply dirs_mono|done|done|done]. }
  assert (Hobj : Forall stays (object_path lfs o)).
  { rewrite object_path_eq. apply obj_stays; [by apply plain_stays_all|done]. }
  assert (Hnul : Forall no_nul (object_path lfs o)).
  { destruct (oid_parts o Ho) as (_ & N1 & _ & N2 & _ & N3).
    unfold object_path. apply Forall_app. split; [by apply lfs_no_nul|].
    repeat first [apply Forall_nil_2 | apply Forall_cons_2; [try done|]].
    unfold no_nul. refine (bool_decide_eq_true_1 _ _). by vm_compute. }
  assert (Hres : forall s', (forall q, nodes s2 !! q = Some NDir -> nodes s' !! q = Some NDir) ->
    resolve s' (object_path lfs o) = inr (object_path lfs o)).
  { intros s' Hs'. rewrite Ep in Hobj, Hnul |- *. apply resolve_dirs; [done|done|]. intros c c' Eb.
    destruct c as [|c0 c]; [done|]. rewrite node_at_cons by done. apply Hs'. by apply (M2 (c0 :: c) c'). }
  rewrite (Hres s2) by done.
  assert (Hne : object_path lfs o <> []) by (by intros [_ ?]%app_eq_nil). rewrite node_at_cons by done.
  assert (nodes s2 !! object_path lfs o = Some NDir \/ nodes s2 !! object_path lfs o <> Some NDir) as [Hdir|Hdir].
  { destruct (nodes s2 !! object_path lfs o) as [[|]|]; by auto. }
  { rewrite Hdir. cbn [fst snd]. by apply Hgive. }
  match goal with |- wp _ _ _ (match fst ?m with _ => _ end) _ _ _ => assert (m = (IOk tt, set_nodes
    (fun mm => <[object_path lfs o := NFile (length (inodes s))]> (delete tmp mm)) s2)) as -> end.
  { by destruct (nodes s2 !! object_path lfs o) as [[|]|]. }
  cbn [fst snd]. set (s3 := set_nodes _ s2).
  assert (Hn3 : nodes s3 !! object_path lfs o = Some (NFile (length (inodes s)))) by (simpl; by rewrite lookup_insert).
  assert (Hm3 : forall q, nodes s2 !! q = Some NDir -> nodes s3 !! q = Some NDir).
  { intros q Hq. simpl. rewrite lookup_insert_ne by congruence. rewrite lookup_delete_ne; [done|congruence]. }
  unfold fix_permissions. apply wp_bindR, wp_io_call, wp_call. intros or3 [Hor3 _]. cbn [handle_ev]. unfold faulty.
  rewrite Hor3. unfold fs_stat. rewrite (Hres s3) by done. rewrite node_at_cons, Hn3 by done. cbn [res_of_io].
  apply wp_io_call, wp_call. intros or4 [Hor4 _]. cbn [handle_ev]. unfold faulty. rewrite Hor4.
  unfold with_l, fs_chmod. rewrite (Hres s3) by done. rewrite node_at_cons, Hn3 by done. cbn [fst snd res_of_io].
  apply HQ. intros e [=].
Qed.

(** Nothing new, but directories perhaps, and these only if storing failed. *)
Definition rejected (s s' : fs) (e : error) : Prop :=
  (nodes s' = nodes s \/ e_kind e = IOError) /\ same_files s s'.

Lemma er_put o rb l s : lfs_dirs s lfs ->
  WP (p_put_object en be fuel o rb) (fun x l' s' => forall e, x.1 = Er e -> rejected s s' e) l s.
Proof using Hlfs.
  intros Hdirs. assert (Hsame : forall e, rejected s s e).
  { intros e. split; [by left|]. split_and!; [done|done|]. exists []. by rewrite app_nil_r. }
  unfold p_put_object. destruct (oid_new o) as [o'|e] eqn:Eo; [|by apply wp_ret].
  apply oid_new_iff in Eo as [-> Ho].
  apply wp_bind, wp_bindR, wp_quiet_eq; [by apply rd_read_to_type|]. intros r l1. destruct r as [lines|e]; [|by apply wp_ret].
  apply wp_bindR. destruct (parse_args lines) as [[args|e]|]; [|by apply wp_ret, wp_ret|done].
  apply wp_ret. apply wp_ret. destruct (size_from_arguments args) as [expected|e]; [|by apply wp_ret].
  apply wp_bind. unfold start_upload. apply wp_bind, wp_call. intros or [Hor Hsfx]. cbn [handle_ev]. unfold faulty.
  rewrite Hor. unfold with_l, fs_mktemp. cbn [be_lfs].
  destruct (resolve_dir lfs Hlfs s (bs "incomplete") Hdirs in_incomplete) as [-> ->].
  cbn [alloc fst snd]. set (n := free_name s _ _).
  assert (Et : (lfs ++ [bs "incomplete"]) ++ [n] = lfs ++ [bs "incomplete"; n]) by (by rewrite <- app_assoc).
  rewrite Et. destruct (temp_name o (o_sfx or) s (lfs ++ [bs "incomplete"]) Ho Hsfx) as [Hn1 Hn2].
  fold n in Hn1, Hn2. set (s1 := set_nodes _ _). set (x0 := Inode [] (l_uid l1) 384 pid true).
  assert (Hfree : nodes s !! (lfs ++ [bs "incomplete"; n]) = None) by (rewrite <- Et; apply free_name_free).
  apply wp_bind. eapply (put_copy pid works fuel (length (inodes s)) [] rb _ _ s1 x0).
  { simpl. rewrite lookup_app_r by lia. by rewrite Nat.sub_diag. }
  intros r rb' l2 z Hz. set (s2 := upd_inode _ _ s1).
  assert (Hu : uploading lfs s s2 n z).
  { split_and!; [done|done|]. exists (append_data z x0). split; [|done].
    simpl. by rewrite alter_app_r_alt, Nat.sub_diag by lia. }
  assert (Hdrop : forall e, WP (drop_temp (lfs ++ [bs "incomplete"; n]))
    (fun _ l' s' => rejected s s' e) l2 s2).
  { intros e. pose proof Hu as (_ & En & x & Ex & _).
    apply (st_drop n _ l2 s s2); [by eapply uploading_dirs|done|done|by rewrite En, lookup_insert|].
    intros s' En' Ei'. assert (E : nodes s' = nodes s) by (rewrite En', En; by apply delete_insert).
    split; [by left|]. split_and!; [by rewrite E|by rewrite E|]. exists [x]. congruence. }
  assert (Hfail : forall e, WP (let! _ := drop_temp (lfs ++ [bs "incomplete"; n]) in Ret (@Er status e, rb'))
    (fun x l' s' => forall e, x.1 = Er e -> rejected s s' e) l2 s2).
  { intros e. apply wp_bind. eapply wp_mono; [|apply Hdrop]. intros [] l3 s3 H3. apply wp_ret. by intros e' [= <-]. }
  destruct r as [got|e].
  2: { apply wp_bind. eapply wp_mono; [|apply (Hdrop e)]. intros [] l3 s3 H3. apply wp_ret, wp_ret. by intros e' [= <-]. }
  rewrite (Hz got eq_refl). cbn [app]. apply wp_ret. cbn [us_temp]. clear Hz got.
  destruct (_ <? _)%N; [apply Hfail|]. destruct (_ <? _)%N; [apply Hfail|].
  destruct (oid_new (hex_encode (en_hash en z))) as [o2|e] eqn:Eo; [|apply Hfail].
  apply oid_new_iff in Eo as [-> _]. case_decide as Eh; [apply Hfail|].
  apply wp_bind. apply (er_finish o n z _ l2 s s2); try done.
  intros r s' Hr. apply wp_ret. intros e. destruct r as [[]|e']; [done|]. intros [= <-].
  destruct (Hr e' eq_refl) as [H3 H4]. split; [by right|done].
Qed.
End any.
