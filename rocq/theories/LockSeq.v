(** Locks when servers run one after the other, each with any faults and killed
    at any point; and when the lock command ends in a panic. *)
From Verif Require Import Bytes Err FS Prog Pktline Args Local Processor Transfer Wp Rg
  ByteFacts PktFacts FsFacts Spec SpecStore SpecServer SpecLock ServerEv PktProofs TextProofs ObjProofs StoreProofs Total
  SeqFs LockProofs.
From stdpp Require Import relations.

Local Arguments N.ldiff : simpl never.
Local Arguments acts : simpl never.

Section seq.
Context (H : bytes -> bytes) (lfs : path).
Context (Hlfs : Forall plain_name lfs) (HH : digest H).
Context (pid : nat).

Local Notation inc := (lfs ++ [bs "incomplete"]).
Local Notation lockdir := (lfs ++ [bs "locks"]).
Local Notation lk c := (lock_path lfs c).
Local Notation lockf p := (lockfile H lfs p).
Local Notation tempf p := (tempfile H lfs p).

Lemma lfs_st : Forall stays lfs.
Proof using Hlfs. by apply plain_stays_all. Qed.

(** ** Complete records *)
Definition whole (s : fs) : Prop :=
  forall p j x, nodes s !! lockf p = Some (NFile j) -> inodes s !! j = Some x ->
    exists q t, lock_id H q = lock_id H p /\ i_data x = record_of t q.
Definition SInv (s : fs) : Prop := sane s /\ whole s.

Lemma tame_whole s s' i es : tame_step lfs s s' i es -> SInv s -> SInv s'.
Proof using Type.
  intros [T1 T2 T3 T4 T5 T6] [Hs Hw]. split; [done|]. intros p j x' Hp Hx'.
  apply T3 in Hp. pose proof (Hs _ _ Hp) as Hl. destruct (inodes s !! j) as [x|] eqn:Ex; [|apply lookup_ge_None in Ex; lia].
  destruct (T5 j x Ex) as (x2 & E2 & _ & _ & E3). assert (x2 = x') as -> by congruence. rewrite E3. by apply (Hw p j x).
Qed.

Local Notation RG := (rg pid eq (fun _ _ => True) SInv).

Lemma rgs_tame {A} (P : fs -> Prop) (p : prog A) l s :
  (forall s s' es, tame_step lfs s s' pid es -> P s -> P s') -> all_ev (tame lfs) p -> P s -> RG p (fun _ _ s' => P s') l s.
Proof using Hlfs.
  intros HP. revert l s. induction p as [a|f|e k IH]; intros l s Hp Hs; [done|done|].
  destruct Hp as [He Hk]. apply rg_vis. intros s1 o <- HI.
  destruct (tame_ev lfs lfs_st pid e o l s He (proj1 HI)) as [es Ht]. pose proof (handle_resp_ok pid e o l s) as Hr.
  destruct (handle_ev pid e o l s) as [[r l'] s2]. simpl in Ht, Hr.
  split_and!; [by apply (tame_whole s s2 pid es)|done|]. apply IH; [by apply Hk|by apply (HP s s2 es)].
Qed.
Lemma rgs_true {A} (p : prog A) (Q : A -> local -> fs -> Prop) l s :
  (forall a l s, Q a l s) -> all_ev (tame lfs) p -> RG p Q l s.
Proof using Hlfs. intros HQ Hp. eapply rg_mono; [|by apply (rgs_tame (fun _ => True))]. intros. apply HQ. Qed.

(** [fd] is no lock. *)
Definition nolock (fd : nat) (s : fs) : Prop := forall p, nodes s !! lockf p <> Some (NFile fd).
Lemma nolock_tame fd s s' es : tame_step lfs s s' pid es -> nolock fd s -> nolock fd s'.
Proof using Type. intros Ht Hn p Hp. by apply (ts_name _ _ _ _ _ Ht), Hn in Hp. Qed.

Lemma write_whole fd b s : nolock fd s -> SInv s -> SInv (fs_write fd b s).2.
Proof using Type.
  intros Hn [Hs Hw]. unfold fs_write. destruct (inode_at s fd) as [x|] eqn:Ex; [|by split]. simpl. split.
  - intros q j Hj. simpl. rewrite alter_length. by eapply Hs.
  - intros p j y Hp Hy. assert (fd <> j) by (intros ->; by apply Hn in Hp). rewrite inodes_upd_ne in Hy by done.
    by apply (Hw p j y).
Qed.
Lemma write_nolock fd b s : nolock fd s -> nolock fd (fs_write fd b s).2.
Proof using Type. unfold fs_write. by destruct (inode_at s fd). Qed.

Lemma rgs_copy_to_file f fd got rb l s : nolock fd s -> RG (copy_to_file f fd got rb) (fun _ _ _ => True) l s.
Proof using Hlfs.
  revert got rb l s. induction f as [|f IH]; intros got rb l s Ho; simpl; [done|].
  apply rg_bind. eapply rg_mono; [|apply (rgs_tame (nolock fd)); [apply nolock_tame| |exact Ho]].
  2: { apply cv_reader_read. apply calm_tame. }
  intros [r rb'] l1 s1 Ho1. destruct r as [d|e]; simpl; [|done].
  destruct d as [|x d]; [done|]. apply rg_bind, rg_call. intros s2 o <- HI. simpl. destruct (o_fault o).
  - split_and!; [by apply write_whole|done|done].
  - pose proof (write_whole fd (x :: d) s1 Ho1 HI) as H1. pose proof (write_nolock fd (x :: d) s1 Ho1) as H2.
    destruct (fs_write fd (x :: d) s1) as [[u|e] s3]; split_and!; try done. by apply IH.
Qed.

Section prog.
Context (en : env) (be : backend) (fuel : nat).
Context (Hbe : be_lfs be = lfs) (Hen : en_hash en = H).

Lemma rgs_put_object o0 rb l s : RG (p_put_object en be fuel o0 rb) (fun _ _ _ => True) l s.
Proof using Hlfs Hbe.
  unfold p_put_object. destruct (oid_new o0) as [o|e] eqn:Eo; [|done].
  apply oid_new_iff in Eo as [-> Ho].
  apply rg_bind, rgs_true.
  2: { unfold read_to_delim. ev; apply cv_read_to_type; apply calm_tame. }
  intros [expected|e] l1 s1; [|done].
  apply rg_bind. unfold start_upload. rewrite Hbe. apply rg_bind, rg_call.
  intros s2 orc <- HI. destruct (tame_ev lfs lfs_st pid (EMktemp inc o0) orc l1 s1 eq_refl (proj1 HI)) as [es Hm].
  pose proof (handle_resp_ok pid (EMktemp inc o0) orc l1 s1) as Hres.
  assert (Hfd : match (handle_ev pid (EMktemp inc o0) orc l1 s1).1.1 with
                | IOk (_, fd) => fd = length (inodes s1) | IErr _ => True end).
  { simpl. unfold faulty, with_l. destruct (o_fault orc); [done|]. unfold fs_mktemp.
    destruct (resolve s1 inc) as [?|q]; [done|]. by destruct (node_at s1 q) as [[|]|]. }
  destruct (handle_ev pid (EMktemp inc o0) orc l1 s1) as [[r l2] s3]. simpl in *.
  split_and!; [by apply (tame_whole s1 s3 pid es)|done|].
  destruct r as [[tmp fd]|e]; [|done]. subst fd.
  assert (Hno : nolock (length (inodes s1)) s3).
  { intros p Hp. apply (ts_name _ _ _ _ _ Hm), (proj1 HI) in Hp. lia. }
  assert (Htmp : exists n, tmp = inc ++ [n] /\ stays n).
  { destruct Hres as [sfx ->]. exists (o0 ++ sfx). split; [done|]. destruct Ho as [Hl _].
    assert (64 <= length (o0 ++ sfx))%nat by (rewrite app_length; lia).
    split_and!; intros E; rewrite E in H0; by vm_compute in H0; lia. }
  assert (Hdrop : forall B (x : B) l s, RG (let! _ := drop_temp tmp in Ret x) (fun _ _ _ => True) l s).
  { intros B x l' s'. apply rgs_true; [done|]. unfold drop_temp. ev. }
  apply rg_bind. eapply rg_mono; [|by apply (rgs_copy_to_file fuel (length (inodes s1)))].
  intros [r rb'] l3 s4 _. destruct r as [got|e]; [|apply rg_bind; eapply rg_mono; [|apply Hdrop]; done].
  apply rg_ret. destruct (lenN got <? expected)%N; [apply Hdrop|].
  destruct (expected <? lenN got)%N; [apply Hdrop|].
  destruct (oid_new (hex_encode (en_hash en got))) as [ao|e] eqn:Ea; [|apply Hdrop].
  case_decide as Hd; [apply Hdrop|].
  apply rgs_true; [done|]. unfold finish_upload, drop_temp, fix_permissions. simpl. rewrite Hbe. ev.
  - intros c b. unfold expected_path, lock_path. rewrite removelast_app by done. rewrite <- !app_assoc.
    intros E%app_inv_head. by vm_compute in E.
  - split; [done|]. by exists o0.
Qed.

Lemma lockf_tempf p q : lockf p <> tempf q.
Proof using HH.
  intros E%lk_inj. apply (f_equal length) in E. rewrite app_length, !lock_id_length in E by done. simpl in E. lia.
Qed.

Lemma rgs_lock_create p l s : RG (lock_create en be p) (fun _ _ _ => True) l s.
Proof using Hlfs HH Hbe Hen.
  unfold lock_create. apply rg_bind, rgs_true; [|apply cv_timestamp; apply calm_tame]. intros t l1 s1.
  rewrite (lock_temp_eq H lfs en be Hbe Hen), (lock_file_eq H lfs en be Hbe Hen). apply rg_bind.
  unfold lockfile_write. apply rg_bind, rg_call. intros s2 o <- HI. simpl. unfold faulty, with_l.
  assert (Hbad : forall e l s, RG (let! _ := lockfile_drop (tempf p) in Ret (@Er lock e)) (fun _ _ _ => True) l s).
  { intros. apply rgs_true; [done|]. unfold lockfile_drop. ev. }
  assert (Hcr : forall e l s, RG (if decide (io_kind_of e = KAlreadyExists) then Ret (@Er unit (err_simple Conflict)) else Ret (Er (err_of_io e)))
    (fun a l s => RG match a with Ok _ => let? _ := lockfile_persist (tempf p) (lockf p) in
        let! user := user_for_file en (lockf p) in let! t' := timestamp be in Ret (Ok (Lock p t' user))
      | Er e => let! _ := lockfile_drop (tempf p) in Ret (Er e) end (fun _ _ _ => True) l s) l s).
  { intros e l' s'. case_decide; apply rg_ret, Hbad. }
  destruct (o_fault o) as [e|]; [split_and!; [done|done|]; apply (Hcr e)|].
  unfold fs_create_new. destruct (resolve s1 (tempf p)) as [e|q] eqn:E; [split_and!; [done|done|]; apply (Hcr e)|].
  apply resolve_stays in E as ->; [|apply lk_stays; [apply lfs_st|done]].
  assert (Hna : node_at s1 (tempf p) = nodes s1 !! tempf p) by apply node_at_app.
  destruct (node_at s1 (tempf p)) eqn:En; [split_and!; [done|done|]; apply (Hcr EEXIST)|]. simpl.
  set (fd := length (inodes s1)). set (x := Inode [] (l_uid l1) (N.ldiff 438 (l_umask l1)) pid false).
  set (s2 := FS (<[tempf p:=NFile fd]> (nodes s1)) (inodes s1 ++ [x]) (hist s1)). change (set_nodes _ _) with s2.
  assert (HI2 : SInv s2).
  { destruct HI as [Hs Hw]. split.
    - intros q j. simpl. rewrite app_length, lookup_insert_Some. simpl. intros [[_ [= <-]]|[_ Hj]]; [unfold fd; lia|]. apply Hs in Hj. lia.
    - intros q j y. simpl. rewrite lookup_insert_ne by (intros Ex; symmetry in Ex; by apply lockf_tempf in Ex).
      intros Hq. rewrite lookup_app_l by (by apply Hs in Hq). by apply Hw. }
  assert (Hno : nolock fd s2).
  { intros q. simpl. rewrite lookup_insert_ne by (intros Ex; symmetry in Ex; by apply lockf_tempf in Ex).
    intros Hq. apply (proj1 HI) in Hq. unfold fd in Hq. lia. }
  split_and!; [done|done|]. apply rg_io_call, rg_call. intros s3 o' <- _.
  simpl. destruct (o_fault o').
  { split_and!; [by apply write_whole|done|]. apply Hbad. }
  pose proof (write_whole fd (lock_record t p) s2 Hno HI2) as HI3. unfold fs_write, inode_at in *.
  assert (Hx : inodes s2 !! fd = Some x) by (by apply list_lookup_middle). rewrite Hx in *. simpl in HI3 |- *.
  set (s3 := upd_inode fd (append_data (lock_record t p)) s2) in *.
  split_and!; [done|done|]. apply rg_bindR. unfold lockfile_persist. apply rg_bind, rg_call. intros s4 o2 <- _.
  assert (Hrest : forall (r : iores unit) l s, RG (let! _ := lockfile_drop (tempf p) in match r with IOk _ => Ret (Ok tt)
      | IErr e => if decide (io_kind_of e = KAlreadyExists) then Ret (Er (err_simple Conflict)) else Ret (Er (err_of_io e)) end)
    (fun r l s => match r with Ok a => RG (let! user := user_for_file en (lockf p) in let! t' := timestamp be in
            Ret (Ok (Lock p t' user))) (fun _ _ _ => True) l s | Er e => True end) l s).
  { intros r l' s'. apply rg_bind, rgs_true; [|unfold lockfile_drop; ev]. intros u l2 s4.
    destruct r as [u'|e]; [|by case_decide]. apply rg_ret. apply rgs_true; [done|].
    ev; first [apply cv_user_for_file|apply cv_timestamp]; apply calm_tame. }
  simpl. unfold faulty, with_l. destruct (o_fault o2) as [e|]; [split_and!; [done|done|]; apply (Hrest (IErr e))|].
  unfold fs_link. destruct (file_at s3 (tempf p)) as [e|[q i]] eqn:E; [split_and!; [done|done|]; apply (Hrest (IErr e))|].
  apply file_at_stays in E as [-> Ei]; [|apply lk_stays; [apply lfs_st|done]].
  change (nodes s2 !! tempf p = Some (NFile i)) in Ei. simpl in Ei. rewrite lookup_insert in Ei. injection Ei as <-.
  destruct (resolve s3 (lockf p)) as [e|q] eqn:E; [split_and!; [done|done|]; apply (Hrest (IErr e))|].
  apply resolve_stays in E as ->; [|apply lockfile_stays; [apply lfs_st|done]].
  destruct (node_at s3 (lockf p)) eqn:En2; [split_and!; [done|done|]; apply (Hrest (IErr EEXIST))|].
  simpl. split_and!; [|done|apply (Hrest (IOk tt))].
  destruct HI3 as [Hs3 Hw3]. split.
  - intros q j. simpl. rewrite lookup_insert_Some. intros [[_ [= <-]]|[_ Hj]]; [|by apply (Hs3 q j)].
    rewrite alter_length, app_length. simpl. unfold fd. lia.
  - intros q j y. simpl. rewrite lookup_insert_Some. intros [[Eq [= <-]]|[_ Hj]]; [|by apply (Hw3 q j y)].
    change (alter _ _ _) with (inodes s3). unfold s3. rewrite (inodes_upd_eq _ _ _ x) by done. intros [= <-].
    exists p, t. split; [by apply lk_inj in Eq|]. done.
Qed.

Lemma rgs_handle_command c m rb l s : RG (handle_command en be fuel c m rb) (fun _ _ _ => True) l s.
Proof using Hlfs HH Hbe Hen.
  assert (Hplain : forall p : prog (res status), all_ev (tame lfs) p ->
    RG (let! r := p in Ret (r, rb)) (fun _ _ _ => True) l s).
  { intros p Hp. apply rg_bind, rgs_true; done. }
  destruct c; cbn [handle_command]; unfold p_upload_batch, p_download_batch;
    try (apply Hplain, cv_error).
  - apply Hplain, cv_version, calm_tame.
  - apply Hplain; destruct (is_upload m); apply cv_batch, calm_tame.
  - apply rgs_put_object.
  - apply Hplain, cv_verify_object, calm_tame.
  - apply Hplain, cv_get_object, calm_tame.
  - apply rg_bind. eapply (rg_mono _ _ _ _ _ (fun _ _ _ => True)); [done|]. unfold p_lock.
    apply rg_bindR, rgs_true; [|apply cv_read_wrapped; apply calm_tame]. intros [d|e] l1 s1; [|done].
    apply rg_bindR, rgs_true; [|apply cv_or_panic]. intros [args|e] l2 s2; [|done].
    destruct (args !! bs "path") as [p|]; [|done]. destruct (args !! bs "refname"); [|done].
    apply rg_bind. eapply rg_mono; [|by apply rgs_lock_create].
    intros c l3 s3 _. apply rgs_true; [done|].
    ev; first [apply cv_as_arguments | apply cv_lock_from_path]; apply calm_tame.
  - apply Hplain, cv_list_locks, calm_tame.
  - apply Hplain. unfold p_unlock, lock_unlock, lk_id, read_to_flush.
    ev; first [apply cv_as_arguments | apply cv_read_to_type | apply cv_lock_from_id | apply cv_error]; apply calm_tame.
Qed.

Lemma rgs_note c a l s : RG (call (ENote c a)) (fun _ _ _ => True) l s.
Proof using Type. apply rg_call. intros s1 o <- HI. simpl. split_and!; [|done|done]. by destruct HI. Qed.

Lemma rgs_process_commands n m rb l s : RG (process_commands en be fuel n m rb) (fun _ _ _ => True) l s.
Proof using Hlfs HH Hbe Hen.
  revert rb l s. induction n as [|n IH]; intros rb l s; simpl; [done|].
  apply rg_bind. apply (rg_mono _ _ _ _ _ (fun _ _ _ => True)); [intros [rb'|r] l1 s1 _; [apply IH|done]|].
  assert (Hans : forall st l s, RG (answer fuel st) (fun _ _ _ => True) l s).
  { intros st l' s'. unfold answer. apply rg_bind. eapply rg_mono; [|apply rgs_note]. intros _ l2 s2 _.
    apply rgs_true; [done|]. apply cv_send_status, calm_tame. }
  assert (Herr : forall c t l s, RG (answer_error c t) (fun _ _ _ => True) l s).
  { intros c t l' s'. unfold answer_error. apply rg_bind. eapply rg_mono; [|apply rgs_note]. intros _ l2 s2 _.
    apply rgs_true; [done|]. apply cv_send_error, calm_tame. }
  assert (Hgo : forall rb p l s, RG p (fun _ _ _ => True) l s -> RG (and_go_on rb p) (fun _ _ _ => True) l s).
  { intros rb' p l' s' Hp. unfold and_go_on. apply rg_bind. eapply rg_mono; [|exact Hp]. done. }
  unfold process_one. apply rg_bind, rgs_true; [|apply cv_read_packet; apply calm_tame]. intros [p|e] l1 s1; [|done].
  destruct (pkt_data p) as [[|x b]|]; try (by apply Hgo).
  assert (Hcmd : forall c, RG (let! (r, rb') := handle_command en be fuel c m rb in
    and_go_on rb' (answer fuel (status_of r))) (fun _ _ _ => True) l1 s1).
  { intros c. apply rg_bind. eapply rg_mono; [|by apply rgs_handle_command].
    intros [r rb'] l2 s2 _. by apply Hgo. }
  destruct (dispatch (command_words (x :: b)) m); try (apply Hcmd).
  apply rg_bind. eapply rg_mono; [|apply Hans]. done.
Qed.
End prog.

Lemma rgs_server p l s : is_server H lfs p -> RG p (fun _ _ _ => True) l s.
Proof using Hlfs HH.
  intros (en & fuel & cfg & op & Hen & ->). unfold transfer_main, transfer_main_internal, transfer_run.
  apply rg_bind. eapply (rg_mono _ _ _ _ _ (fun _ _ _ => True)); [done|].
  apply rg_bindR, rgs_true; [|by apply cv_set_permissions].
  intros [um|e] l1 s1; [|done].
  apply rg_bindR, rgs_true.
  2: { unfold create_directories. induction dir_names as [|d ds IH]; simpl; ev.
       intros c b. unfold lock_path. rewrite <- !app_assoc. intros E%app_inv_head. done. }
  intros [u|e] l2 s2; [|done].
  apply rg_bindR, rgs_true; [|apply cv_send_capabilities; apply calm_tame].
  intros [u'|e] l3 s3; [|done].
  destruct (mode_of op); [|done]. by apply rgs_process_commands.
Qed.
End seq.
