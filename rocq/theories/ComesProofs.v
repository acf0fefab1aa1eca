(** Where locks come from and where they go: proofs for Props_Comes.v. *)
From Verif Require Import Bytes ByteFacts Err FS Prog Pktline Args Local Processor Transfer Wp Rg
  Spec SpecStore SpecServer SpecLock SpecFrame SpecTalk SpecPerm SpecInput SpecTogether SpecStart SpecRound SpecTruth FsFacts PktFacts ServerEv ReadOnly PktProofs IoFacts TextProofs ObjProofs StoreProofs SeqIo SeqFs SeqCmd Session
  SessionFacts GetProofs TogetherProofs TogetherFacts FaultFacts OddProofs RoundFacts RoundProofs RoundMain TruthProofs SpecWorn WornProofs SpecPrune PruneProofs PowerProofs SpecWho WhoProofs SpecComes.
From Verif Require SpecOdd.
From Verif Require Import Shape.

Section comes.
Context (H : bytes -> bytes) (lfs : path) (HH : digest H) (Hlfs : Forall plain_name lfs).
Local Notation inc := (lfs ++ [bs "incomplete"]).
Local Notation lockdir := (lfs ++ [bs "locks"]).
Local Notation obj o := (expected_path lfs o).
Local Notation lk k := (lfs ++ [bs "locks"; k]).
Local Notation ln p := (lock_name H lfs p).
Local Notation Hst := (plain_stays_all lfs Hlfs).

(** ** The calls of a server *)
Definition temp_name (q : path) : Prop := exists o sfx, is_oid o /\ q = inc ++ [o ++ sfx].
Definition lockly (e : ev) : Prop :=
  match e with
  | EUnlink q => (exists p, q = ln p) \/ (exists p, q = lk (lock_id H p ++ bs ".lock")) \/ temp_name q
  | ERename a _ => temp_name a
  | ELink _ b => exists p, b = ln p
  | ECreate q => exists p, q = lk (lock_id H p ++ bs ".lock")
  | _ => True
  end.
Lemma quiet_lockly e : quiet e -> lockly e.
Proof using Type. by destruct e. Qed.

Lemma lv_copy_to_file f fd got rb : all_ev lockly (copy_to_file f fd got rb).
Proof using Type.
  revert got rb. induction f as [|f IH]; intros got rb; simpl; ev. apply ev_reader_read, quiet_lockly.
Qed.
(** Results, where the system answers sensibly. *)
Fixpoint all_out {A} (P : A -> Prop) (p : prog A) : Prop :=
  match p with
  | Ret a => P a
  | Fail _ => True
  | Vis e k => forall r, resp_ok e r -> all_out P (k r)
  end.
Lemma all_out_bind {A B} (P : B -> Prop) (p : prog A) (f : A -> prog B) :
  (forall a, all_out P (f a)) -> all_out P (bind p f).
Proof using Type. intros Hf. induction p as [a|x|e k IH]; [apply Hf|done|]. intros r Hr. by apply IH. Qed.
Lemma all_ev_bind_out (E : ev -> Prop) {A B} (P : A -> Prop) (p : prog A) (f : A -> prog B) :
  all_ev E p -> all_out P p -> (forall a, P a -> all_ev E (f a)) -> all_ev E (bind p f).
Proof using Type.
  intros Hp Hr Hf. induction p as [a|x|e k IH]; [by apply Hf|done|]. destruct Hp as [H1 H2]. split; [done|].
  intros r Hr'. apply IH; [by apply H2|by apply Hr].
Qed.
Lemma lv_start be fuel o rb : be_lfs be = lfs -> is_oid o -> all_ev lockly (start_upload be fuel o rb).
Proof using Type.
  intros Hbe Ho. unfold start_upload, drop_temp. rewrite Hbe. split; [done|]. intros [[tmp fd]|e] Hr; [|done]. simpl in Hr.
  destruct Hr as [sfx ->]. match goal with |- _ ?q => change (all_ev lockly q) end.
  ev; first [apply lv_copy_to_file|right; right; by exists o, sfx].
Qed.
Lemma out_start be fuel o rb : be_lfs be = lfs -> is_oid o ->
  all_out (fun x => match x.1 with Ok (st, _) => temp_name (us_temp st) | Er _ => True end) (start_upload be fuel o rb).
Proof using Type.
  intros Hbe Ho. unfold start_upload, drop_temp. rewrite Hbe. intros [[tmp fd]|e] Hr; [|done]. simpl in Hr. destruct Hr as [sfx ->].
  match goal with |- _ ?q => apply (all_out_bind _ (copy_to_file fuel fd [] rb)) end. intros [[got|e] rb']; [simpl; by exists o, sfx|]. apply all_out_bind. intros []. done.
Qed.
Lemma lv_finish be st : temp_name (us_temp st) -> all_ev lockly (finish_upload be st).
Proof using Type. intros Ht. unfold finish_upload, fix_permissions, drop_temp. ev; first [done|by right; right]. Qed.
Lemma lv_put en be fuel o rb : be_lfs be = lfs -> all_ev lockly (p_put_object en be fuel o rb).
Proof using Type.
  intros Hbe. unfold p_put_object. destruct (oid_new o) as [o'|e] eqn:Eo; [|ev]. apply oid_new_iff in Eo as [-> Ho].
  unfold read_to_delim. apply all_ev_bind; [ev; apply ev_read_to_type, quiet_lockly|].
  intros [n|e]; [|done]. eapply all_ev_bind_out; [by apply lv_start|by apply out_start|].
  intros [[[st got]|e] rb'] Hs; [|done]. simpl in Hs. unfold drop_temp. ev; first [by apply lv_finish|by right; right].
Qed.
Lemma lv_lock en be fuel : be_lfs be = lfs -> en_hash en = H -> all_ev lockly (p_lock en be fuel).
Proof using Type.
  intros Hbe Hen. unfold p_lock, lock_create, lockfile_write, lockfile_persist, lockfile_drop.
  assert (Hf : forall p, lock_file be (hash_for en p) = ln p) by (intros p; unfold lock_file, lock_dir, lock_name, hash_for, lock_id; by rewrite Hbe, Hen, <- app_assoc).
  assert (Ht : forall p, lock_temp be (hash_for en p) = lk (lock_id H p ++ bs ".lock")) by (intros p; unfold lock_temp, lock_dir, hash_for, lock_id; by rewrite Hbe, Hen, <- app_assoc).
  ev; rewrite ?Hf, ?Ht; try (by right; left; eexists); try (by eexists);
    first [apply ev_user_for_file | apply ev_timestamp | apply ev_as_arguments | apply ev_lock_from_path | apply ev_read_wrapped];
    apply quiet_lockly.
Qed.
Lemma lv_unlock en be fuel id : be_lfs be = lfs -> en_hash en = H -> all_ev lockly (p_unlock en be fuel id).
Proof using Type.
  intros Hbe Hen. unfold p_unlock, lock_unlock, lk_id, read_to_flush.
  assert (Hf : forall p, lock_file be (hash_for en p) = ln p) by (intros p; unfold lock_file, lock_dir, lock_name, hash_for, lock_id; by rewrite Hbe, Hen, <- app_assoc).
  ev; rewrite ?Hf; try (by left; eexists); first [apply ev_as_arguments | apply ev_read_to_type | apply ev_lock_from_id | apply ev_error]; apply quiet_lockly.
Qed.
Lemma lv_handle en be fuel c m rb : be_lfs be = lfs -> en_hash en = H -> all_ev lockly (handle_command en be fuel c m rb).
Proof using Type.
  intros Hbe Hen. unfold handle_command, p_upload_batch, p_download_batch.
  destruct c; ev; first [by apply lv_put | by apply lv_lock | by apply lv_unlock |
    first [apply ev_version|apply ev_batch|apply ev_verify_object|apply ev_get_object|apply ev_list_locks|apply ev_error];
    apply quiet_lockly].
Qed.
Lemma lv_process_one en be fuel m rb : be_lfs be = lfs -> en_hash en = H -> all_ev lockly (process_one en be fuel m rb).
Proof using Type.
  intros Hbe Hen. unfold process_one, and_go_on.
  ev; first [by apply lv_handle | first [apply ev_read_packet | apply ev_answer | apply ev_answer_error]; apply quiet_lockly].
Qed.
Lemma lv_process_commands en be fuel n m rb : be_lfs be = lfs -> en_hash en = H ->
  all_ev lockly (process_commands en be fuel n m rb).
Proof using Type.
  intros Hbe Hen. revert rb. induction n as [|n IH]; intros rb; simpl; [done|].
  apply all_ev_bind; [by apply lv_process_one|]. intros [rb'|r]; [apply IH|done].
Qed.
Lemma lv_server p : is_server H lfs p -> all_ev lockly p.
Proof using Type.
  intros (en & fuel & cfg & op & Hen & ->). unfold transfer_main, transfer_main_internal, transfer_run.
  apply all_ev_bind; [|done]. apply all_ev_bindR; [apply ev_set_permissions, quiet_lockly|]. intros um.
  apply all_ev_bindR.
  { unfold create_directories. induction dir_names as [|d ds IH]; simpl; ev. }
  intros u. apply all_ev_bindR; [apply ev_send_capabilities, quiet_lockly|]. intros u'.
  destruct (mode_of op); [by apply lv_process_commands|done].
Qed.

(** ** What they do *)
Lemma id_len p : length (lock_id H p) = 64%nat.
Proof using HH. by destruct (hex_encode_is_oid (H (bs "v1:" ++ p))) as [H3 _]; [apply HH|]. Qed.
Lemma draft_not_lock p q : lk (lock_id H p ++ bs ".lock") <> ln q.
Proof using HH.
  intros E. apply app_inv_head in E. injection E as E. apply (f_equal length) in E. rewrite app_length, !id_len in E. simpl in E. lia.
Qed.
Lemma temp_not_lock q p : temp_name q -> q <> ln p.
Proof using Type. intros (o & sfx & _ & ->) E. unfold lock_name in E. rewrite <- app_assoc in E. apply app_inv_head in E. done. Qed.
Lemma temp_stays q : temp_name q -> Forall stays q.
Proof using Hlfs.
  intros (o & sfx & [Ho Hx] & ->). apply Forall_app. split; [by apply inc_stays, Hst|]. constructor; [|constructor].
  assert (Hl : (64 <= length (o ++ sfx))%nat) by (rewrite app_length; lia).
  split_and!; intros E; rewrite E in Hl; simpl in Hl; lia.
Qed.
Lemma id_plain p x : SLASH ∉ x -> Byte.x00 ∉ x -> plain_name (lock_id H p ++ x).
Proof using HH.
  intros H1 H2. assert (G : plain_name (lock_id H p)).
  { apply hex_plain_name; [intros E; by pose proof (id_len p) as G; rewrite E in G|].
    by destruct (hex_encode_is_oid (H (bs "v1:" ++ p))) as [_ ?]; [apply HH|]. }
  destruct G as (_ & _ & _ & G1 & G2). split_and!; try (by apply not_elem_of_app);
    intros E; apply (f_equal length) in E; rewrite app_length, id_len in E; simpl in E; lia.
Qed.
Lemma ln_eq p : ln p = lockdir ++ [lock_id H p].
Proof using Type. unfold lock_name. by rewrite <- app_assoc. Qed.

Lemma ln_stays p : Forall stays (ln p).
Proof using HH Hlfs.
  apply (lockname_stays lfs Hst). exists (lock_id H p). split; [|apply ln_eq]. rewrite <- (app_nil_r (lock_id H p)).
  apply id_plain; apply not_elem_of_nil.
Qed.
Lemma draft_stays p : Forall stays (lk (lock_id H p ++ bs ".lock")).
Proof using HH Hlfs.
  apply (lockname_stays lfs Hst). exists (lock_id H p ++ bs ".lock"). split; [|by rewrite <- app_assoc].
  apply id_plain; refine (bool_decide_eq_true_1 _ _); by vm_compute.
Qed.

Lemma file_resolve s a q k : file_at s a = inr (q, k) -> resolve s a = inr q.
Proof using Type. unfold file_at. destruct (resolve s a) as [?|q']; [done|]. destruct (node_at s q') as [[|]|]; by intros [= -> ->]. Qed.

Lemma lock_step i e o l s p j : shapely lfs e -> lockly e ->
  let s' := (handle_ev i e o l s).2 in let d := existT e (handle_ev i e o l s).1.1 in
  (nodes s !! ln p <> Some (NFile j) -> nodes s' !! ln p = Some (NFile j) -> linked H lfs p d) /\
  (nodes s !! ln p = Some (NFile j) -> nodes s' !! ln p <> Some (NFile j) -> unlinked H lfs p d).
Proof using HH Hlfs.
  intros He Hl s' d.
  assert (Hsame : nodes s' !! ln p = nodes s !! ln p -> (nodes s !! ln p <> Some (NFile j) -> nodes s' !! ln p = Some (NFile j) -> linked H lfs p d) /\
    (nodes s !! ln p = Some (NFile j) -> nodes s' !! ln p <> Some (NFile j) -> unlinked H lfs p d)).
  { intros E. split; intros; congruence. }
  assert (Hq : quiet e -> nodes s' !! ln p = nodes s !! ln p).
  { intros Hq. destruct (quiet_same i e o l s Hq) as [E _]. subst s'. by rewrite E. }
  destruct e; try (by apply Hsame, Hq); clear Hq; revert Hsame; subst s' d; cbn [handle_ev]; unfold faulty, with_l; cbn [fst snd]; intros Hsame.
  - destruct (o_fault o); [by apply Hsame|]. unfold fs_mkdir_all in *. destruct (fs_mkdirs s [] p0) as [x|s'] eqn:E; [by apply Hsame|].
    apply mkdirs_spec in E as (_ & _ & M & _). cbn [fst snd] in *. destruct (M (ln p)) as [G|(G1 & G2 & _)]; [by apply Hsame|].
    split; intros; congruence.
  - destruct (o_fault o); [by apply Hsame|]. apply Hsame. simpl in He. subst dir. unfold fs_mktemp. destruct (resolve s _) as [x|d] eqn:E; [done|].
    apply resolve_stays in E as ->; [|by apply inc_stays, Hst].
    destruct (node_at s _) as [[|k]|]; [|done..]. simpl. rewrite lookup_insert_ne; [done|]. rewrite ln_eq, <- !app_assoc. intros E. by apply app_inv_head in E.
  - assert (G : forall b', nodes (fs_write i0 b' s).2 = nodes s) by (intros b'; unfold fs_write; by destruct (inode_at s i0)).
    apply Hsame. destruct (o_fault o); cbn [fst snd]; by rewrite G.
  - destruct (o_fault o); [by apply Hsame|]. apply Hsame. destruct He as (o' & Ho & ->). unfold fs_rename.
    destruct (file_at s a) as [x|[qa k]] eqn:Ea; [done|].
    apply file_resolve in Ea. apply resolve_stays in Ea as ->; [|by apply temp_stays].
    destruct (resolve s (obj o')) as [x|qb] eqn:Eb; [done|].
    apply resolve_stays in Eb as ->; [|by apply obj_stays; [apply Hst|]].
    assert (obj o' <> ln p) by (rewrite ln_eq; intros E; by eapply obj_not_lock).
    destruct (node_at s (obj o')) as [[|k']|]; [done|..]; cbn [fst snd nodes set_nodes];
      (rewrite lookup_insert_ne, lookup_delete_ne; [done|by apply temp_not_lock|done]).
  - destruct (o_fault o); [by apply Hsame|]. unfold fs_unlink in *. destruct (file_at s p0) as [x|[q k]] eqn:Ea; [by apply Hsame|]. unfold log in *. cbn [fst snd nodes set_nodes] in *.
    apply file_resolve in Ea. apply resolve_stays in Ea as ->.
    2: { destruct Hl as [[p' ->]|[[p' ->]|Ht]]; [by apply ln_stays|by apply draft_stays|by apply temp_stays]. }
    destruct (decide (p0 = ln p)) as [->|Hne]; [split; [|done]|].
    + intros _ Hj. by rewrite lookup_delete in Hj.
    + apply Hsame. by rewrite lookup_delete_ne.
  - destruct (o_fault o); [by apply Hsame|]. destruct Hl as [p' ->]. unfold fs_link in *. destruct (file_at s a) as [x|[qa k]]; [by apply Hsame|].
    destruct (resolve s (ln p')) as [x|qb] eqn:Eb; [by apply Hsame|].
    apply resolve_stays in Eb as ->; [|by apply ln_stays].
    destruct (node_at s (ln p')) as [n|] eqn:En; [by apply Hsame|]. unfold log in *. cbn [fst snd nodes set_nodes] in *.
    destruct (decide (ln p' = ln p)) as [E|Hne].
    + split; [intros _ _; exists a; by rewrite <- E|]. intros Hj. unfold node_at in En. rewrite E in En.
      destruct (ln p); congruence.
    + apply Hsame. by rewrite lookup_insert_ne.
  - destruct (o_fault o); [by apply Hsame|]. apply Hsame. destruct Hl as [p' ->]. unfold fs_create_new.
    destruct (resolve s _) as [x|qb] eqn:Eb; [done|]. apply resolve_stays in Eb as ->; [|by apply draft_stays].
    destruct (node_at s _); [done|]. simpl. rewrite lookup_insert_ne; [done|]. apply draft_not_lock.
  - destruct (o_fault o); [by apply Hsame|]. apply Hsame. unfold fs_chmod. destruct (resolve s p0) as [x|q]; [done|].
    by destruct (node_at s q) as [[|k]|].
Qed.

(** ** The run of a system *)
Lemma step_lock (y : sys (Z * bytes)) c p j :
  (forall i e r, existT e r ∈ made i y c -> shapely lfs e /\ lockly e) ->
  (nodes (shared y) !! ln p <> Some (NFile j) -> nodes (shared (sys_step y c)) !! ln p = Some (NFile j) ->
     exists i d, made i y c = [d] /\ linked H lfs p d) /\
  (nodes (shared y) !! ln p = Some (NFile j) -> nodes (shared (sys_step y c)) !! ln p <> Some (NFile j) ->
     exists i d, made i y c = [d] /\ unlinked H lfs p d).
Proof using HH Hlfs.
  intros Hm. assert (Hsame : shared (sys_step y c) = shared y \/ exists o e k l, c_act c = AGo o /\ procs y !! c_pid c = Some (Proc (Vis e k) l false) /\
    shared (sys_step y c) = (handle_ev (c_pid c) e o l (shared y)).2).
  { unfold sys_step. destruct (procs y !! c_pid c) as [[q l dd]|]; [|by left]. unfold proc_step. cbn [pr_dead pr_prog pr_local].
    destruct dd; [by left|]. destruct (c_act c) as [or|]; [|by left]. destruct q as [x0|f|e k]; [by left..|].
    right. exists or, e, k, l. split_and!; [done|done|]. by destruct (handle_ev _ _ _ _ _) as [[r l'] s']. }
  destruct Hsame as [->|(o & e & k & l & Ec & Ep & ->)]; [done|].
  assert (Em : made (c_pid c) y c = [existT e (handle_ev (c_pid c) e o l (shared y)).1.1]).
  { unfold made. rewrite Ec, decide_True by done. by rewrite Ep. }
  destruct (Hm (c_pid c) e (handle_ev (c_pid c) e o l (shared y)).1.1) as [H1 H2]; [rewrite Em; by left|].
  destruct (lock_step (c_pid c) e o l (shared y) p j H1 H2) as [G1 G2].
  split; intros Ha Hb; eexists (c_pid c), _; split; try exact Em; auto.
Qed.
Lemma there_or_not s f j : nodes s !! f = Some (NFile j) \/ nodes s !! f <> Some (NFile j).
Proof using Type. destruct (nodes s !! f) as [[|j']|]; [by right| |by right]. destruct (decide (j' = j)) as [->|]; [by left|right; congruence]. Qed.
Lemma run_lock cs p j : forall y : sys (Z * bytes),
  (forall i e r, existT e r ∈ history i cs y -> shapely lfs e /\ lockly e) ->
  (nodes (shared y) !! ln p <> Some (NFile j) -> nodes (shared (sys_run cs y)) !! ln p = Some (NFile j) ->
     exists i ta d tb, history i cs y = ta ++ d :: tb /\ linked H lfs p d) /\
  (nodes (shared y) !! ln p = Some (NFile j) -> nodes (shared (sys_run cs y)) !! ln p <> Some (NFile j) ->
     exists i ta d tb, history i cs y = ta ++ d :: tb /\ unlinked H lfs p d).
Proof using HH Hlfs.
  induction cs as [|c cs IH]; intros y Hm; [done|]. change (sys_run (c :: cs) y) with (sys_run cs (sys_step y c)).
  destruct (step_lock y c p j) as [S1 S2].
  { intros i e r Hin. apply (Hm i e r). cbn [history]. apply elem_of_app. by left. }
  destruct (IH (sys_step y c)) as [R1 R2].
  { intros i e r Hin. apply (Hm i e r). cbn [history]. apply elem_of_app. by right. }
  split; intros Ha Hb; destruct (there_or_not (shared (sys_step y c)) (ln p) j) as [Hd|Hd].
  - destruct (S1 Ha Hd) as (i & d & Ed & Gd). exists i, [], d, (history i cs (sys_step y c)). cbn [history]. by rewrite Ed.
  - destruct (R1 Hd Hb) as (i & ta & d & tb & Ed & Gd). exists i, (made i y c ++ ta), d, tb. cbn [history]. by rewrite Ed, <- app_assoc.
  - destruct (R2 Hd Hb) as (i & ta & d & tb & Ed & Gd). exists i, (made i y c ++ ta), d, tb. cbn [history]. by rewrite Ed, <- app_assoc.
  - destruct (S2 Ha Hd) as (i & d & Ed & Gd). exists i, [], d, (history i cs (sys_step y c)). cbn [history]. by rewrite Ed.
Qed.

(** ** Rounds *)
Context (en : env) (Hen : en_hash en = H).
Definition other (d : done_call) : Prop := match projT1 d with ELink _ _ | EUnlink _ => False | _ => True end.
Ltac oth := repeat (apply Forall_cons; split; [exact I|]); try apply Forall_nil_2; try assumption.
Lemma looks_oth f ds x : looks en f ds x -> Forall other ds.
Proof using Type. intros []; oth. Qed.
Lemma looks_for_oth p ds x : looks_for en lfs p ds x -> Forall other ds.
Proof using Type. intros []; by eapply looks_oth. Qed.
Lemma visits_oth is ds ls : visits en lfs is ds ls -> Forall other ds.
Proof using Type. induction 1; [oth|apply Forall_app; split; [by eapply looks_oth|done]..]. Qed.
Lemma checks_oth m items ds ls : checks lfs m items ds ls -> Forall other ds.
Proof using Type. induction 1; oth. Qed.
Lemma fetches_oth h off ds d : fetches h off ds d -> Forall other ds.
Proof using Type. induction 1; oth. Qed.
Lemma listing_oth m c n ds a : listing en lfs m c n ds a -> Forall other ds.
Proof using Type. intros []; oth. by eapply visits_oth. Qed.
Lemma path_listing_oth m p c ds a : path_listing en lfs m p c ds a -> Forall other ds.
Proof using Type. intros []; by eapply looks_for_oth. Qed.
Lemma oth_not ds d p : Forall other ds -> d ∈ ds -> linked H lfs p d \/ unlinked H lfs p d -> False.
Proof using Type. intros Hf Hin. rewrite Forall_forall in Hf. specialize (Hf _ Hin). by intros [[a ->]| ->]. Qed.

Definition linked_right (d : done_call) : bool := match d with existT (ELink _ _) (IErr _) => false | _ => true end.
Lemma lock_at_name p : SpecRound.lock_at en lfs p = ln p.
Proof using Hen. unfold SpecRound.lock_at, lock_name. by rewrite Hen. Qed.
Lemma draft_at_name p : SpecRound.draft_at en lfs p = lk (lock_id H p ++ bs ".lock").
Proof using Hen. unfold SpecRound.draft_at. by rewrite Hen. Qed.
Lemma name_id p q : ln p = ln q -> lock_id H p = lock_id H q.
Proof using Type. intros E. apply app_inv_head in E. by injection E. Qed.
Lemma draft_unlink p q r : ~ unlinked H lfs p (existT (EUnlink (SpecRound.draft_at en lfs q)) r).
Proof using HH Hen. intros E. unfold unlinked in E. injection E as E _. rewrite draft_at_name in E. by apply draft_not_lock in E. Qed.

Lemma drafts_link q ds x d p : drafts en lfs q ds x -> d ∈ ds -> linked H lfs p d -> x = None /\ lock_id H q = lock_id H p.
Proof using Hen.
  intros [] Hin [a ->]; rewrite !elem_of_cons, elem_of_nil in Hin; destruct_or! Hin; try done.
  - by apply (f_equal linked_right) in Hin.
  - split; [done|]. injection Hin as _ E. rewrite lock_at_name in E. symmetry. by apply name_id.
Qed.
Lemma drafts_unlink q ds x d p : drafts en lfs q ds x -> d ∈ ds -> ~ unlinked H lfs p d.
Proof using HH Hen.
  intros [] Hin Hd; rewrite !elem_of_cons, elem_of_nil in Hin; destruct_or! Hin; try done; subst d; try (by apply draft_unlink in Hd).
  all: by unfold unlinked in Hd.
Qed.
Lemma locking_link q ds a d p : locking en lfs q ds a -> d ∈ ds -> linked H lfs p d ->
  lock_id H q = lock_id H p /\ exists x who, a = Reply 201 (info en q x who) BNone.
Proof using Hen.
  intros [ds' r t x Hd Ht|t fd x r|ds' x Hd|ds' x ds2 t o tx Hd Hk Hl|ds' x ds2 a' Hd Hk Hl] Hin Hlk.
  - apply elem_of_app in Hin as [Hin|Hin].
    + destruct (drafts_link _ _ _ _ _ Hd Hin Hlk) as [_ G]. split; [done|by eexists _, _].
    + exfalso. eapply (oth_not _ d p); [|exact Hin|by left]. oth.
  - exfalso. destruct Hlk as [b ->]. rewrite !elem_of_cons, elem_of_nil in Hin. by destruct_or! Hin.
  - by destruct (drafts_link _ _ _ _ _ Hd Hin Hlk).
  - apply elem_of_app in Hin as [Hin|Hin]; [by destruct (drafts_link _ _ _ _ _ Hd Hin Hlk)|].
    exfalso. eapply (oth_not _ d p); [|exact Hin|by left]. by eapply looks_for_oth.
  - apply elem_of_app in Hin as [Hin|Hin]; [by destruct (drafts_link _ _ _ _ _ Hd Hin Hlk)|].
    exfalso. eapply (oth_not _ d p); [|exact Hin|by left]. by eapply looks_for_oth.
Qed.
Lemma locking_unlink q ds a d p : locking en lfs q ds a -> d ∈ ds -> ~ unlinked H lfs p d.
Proof using HH Hen.
  intros [ds' r t x Hd Ht|t fd x r|ds' x Hd|ds' x ds2 t o tx Hd Hk Hl|ds' x ds2 a' Hd Hk Hl] Hin Hlk.
  - apply elem_of_app in Hin as [Hin|Hin]; [by eapply drafts_unlink|]. eapply (oth_not _ d p); [|exact Hin|by right]. oth.
  - rewrite !elem_of_cons, elem_of_nil in Hin. destruct_or! Hin; try done; subst d; try done. by apply draft_unlink in Hlk.
  - by eapply drafts_unlink.
  - apply elem_of_app in Hin as [Hin|Hin]; [by eapply drafts_unlink|].
    eapply (oth_not _ d p); [|exact Hin|by right]. by eapply looks_for_oth.
  - apply elem_of_app in Hin as [Hin|Hin]; [by eapply drafts_unlink|].
    eapply (oth_not _ d p); [|exact Hin|by right]. by eapply looks_for_oth.
Qed.
Lemma unlocking_link f ds a d p : unlocking en lfs f ds a -> d ∈ ds -> ~ linked H lfs p d.
Proof using Type.
  intros Hu Hin Hlk. destruct Hu; try (apply elem_of_app in Hin as [Hin|Hin]; [|apply elem_of_list_singleton in Hin as ->; by destruct Hlk]);
    (eapply (oth_not _ d p); [|exact Hin|by left]); by eapply looks_oth.
Qed.
Definition gone_right (d : done_call) : bool := match d with existT (EUnlink _) (IErr _) => false | _ => true end.
Lemma unlocking_unlink f ds a d p : unlocking en lfs f ds a -> d ∈ ds -> unlinked H lfs p d ->
  exists q x who, lock_id H q = lock_id H p /\ a = Reply 200 (info en q x who) BNone.
Proof using Hen.
  intros Hu Hin Hlk.
  assert (Ho : forall ds0 y, looks en f ds0 y -> d ∈ ds0 -> False).
  { intros ds0 y Hl Hd. eapply (oth_not _ d p); [by eapply looks_oth|exact Hd|by right]. }
  destruct Hu as [ds0 Hl|ds0 a Hl|ds0 q t o x Hl Ht|ds0 q t o x Hl|ds0 q t o x Hl|ds0 q t o x Hl]; try (by exfalso; eapply Ho);
    (apply elem_of_app in Hin as [Hin|Hin]; [by exfalso; eapply Ho|apply elem_of_list_singleton in Hin as ->]).
  - exists q, x, o. split; [|done]. injection Hlk as E. rewrite lock_at_name in E. by apply name_id.
  - by apply (f_equal gone_right) in Hlk.
  - by apply (f_equal gone_right) in Hlk.
  - by apply (f_equal gone_right) in Hlk.
Qed.

Lemma acts_link m r ds a d p : acts en lfs m r ds a -> d ∈ ds -> linked H lfs p d \/ unlinked H lfs p d ->
  linked H lfs p d /\ exists kvs q rf x who, r = RLock kvs /\ (bs "path", q) ∈ kvs /\ (bs "refname", rf) ∈ kvs /\
    lock_id H q = lock_id H p /\ a = Reply 201 (info en q x who) BNone.
Proof using HH Hen.
  intros Ha Hin Hl.
  assert (Ho : Forall other ds -> False) by (intros Ho; by eapply oth_not).
  destruct Ha as [| | | | | | | | | |o kvs h n ds d' Hoi Hf|kvs items h ds ls Hk Hh Hi Hc| |kvs q rf ds a Hp Hr Hlk| | |kvs lim n c q ds a _ _ _ _ Hlk|kvs lim n c ds a _ _ _ _ Hlk];
    try (exfalso; apply Ho; oth; first [by eapply fetches_oth|by eapply checks_oth|by eapply path_listing_oth|by eapply listing_oth]; fail).
  destruct Hl as [Hl|Hl]; [|by apply (locking_unlink _ _ _ _ _ Hlk Hin) in Hl].
  split; [done|]. destruct (locking_link _ _ _ _ _ Hlk Hin Hl) as [G (x & who & ->)]. by exists kvs, q, rf, x, who.
Qed.

Lemma rounds_at u m old body new ta d tb : rounds en lfs u m old body new -> body = ta ++ d :: tb ->
  exists t1 x y t2 o n, ta = t1 ++ x /\ tb = y ++ t2 /\ round en lfs u m o (x ++ d :: y) n.
Proof using Type.
  intros Hr. revert ta. induction Hr as [|old tr mid tr' new Hr _ IH]; intros ta E; [by destruct ta|].
  apply app_eq_app in E as (z & [[E1 E2]|[E1 E2]]).
  - (* tr = ta ++ z *) destruct z as [|d' z].
    + simpl in E2. destruct (IH []) as (t1 & x & y & t2 & o & n & G1 & G2 & G3); [done|]. rewrite app_nil_r in E1. subst tr.
      apply symmetry, app_nil in G1 as [-> ->]. exists ta, [], y, t2, o, n. by rewrite app_nil_r.
    + injection E2 as <- ->. subst tr. exists [], ta, z, tr', old, mid. done.
  - destruct (IH z) as (t1 & x & y & t2 & o & n & -> & -> & G); [done|]. subst ta. exists (tr ++ t1), x, y, t2, o, n. by rewrite <- app_assoc.
Qed.
End comes.

Section round.
Context (en : env) (lfs : path) (HH : digest (en_hash en)).
Local Notation H := (en_hash en).
Local Notation ln p := (lock_name H lfs p).
Lemma round_lock u m old tr new d p : round en lfs u m old tr new -> Forall (fun d => resp_ok (projT1 d) (projT2 d)) tr -> d ∈ tr ->
  (linked H lfs p d -> locked_as en p tr) /\ (unlinked H lfs p d -> unlocked_as en p tr).
Proof using HH.
  intros (is & a & qs & H1 & H2 & H3 & H4 & H5) Hok Hin.
  assert (Hd : linked H lfs p d \/ unlinked H lfs p d -> d ∈ deeds tr).
  { intros [[b ->]| ->]; by apply deeds_in. }
  assert (G : linked H lfs p d \/ unlinked H lfs p d -> linked H lfs p d /\ locked_as en p tr \/ unlinked H lfs p d /\ unlocked_as en p tr).
  2: { split; intros Hl.
       - destruct G as [[_ G]|[G _]]; [by left|done|]. destruct Hl as [b ->]. done.
       - destruct G as [[[b ->] _]|[_ G]]; [by right|done|done]. }
  intros Hl. specialize (Hd Hl). destruct H5 as [[H5 _]|[_ H5]].
  - inversion H5 as [E1 E2 E3|E1 E2 E3|E1 E2 E3|b ws code t Hs Ht E1 E2 E3|b ws is' qs' Hs Hn Hp E1 E2 E3|b ws k is' qs' Hm Hs Hn Hp Hu E1 E2 E3|b ws k is' qs' f ds a' Hm Hs Hn Hp Hu Ht Hul E1 E2 E3|b ws r is' i Hs Hn Ha Hr Hp E1 E2 E3|b ws r is' i Hs Hn Ha Hr Hp E1 E2 E3|b ws r is' qs' code t Hs Hn Ha Hr Hp Hb E1 E2 E3|b ws r is' kvs ds a' Hs Hn Ha Hr Hp Hk Hac E1 E2 E3| | | | | |b ws is1 is2 kvs items ds a' Hs Hn Hp Hk Hp2 Hac E1 E2 E3]; clear H5; subst;
      try match goal with E : [] = deeds tr |- _ => rewrite <- E in Hd; by apply elem_of_nil in Hd end.
    + destruct Hl as [Hl|Hl]; [by apply (unlocking_link H lfs en _ _ _ _ _ Hul Hd) in Hl|].
      right. split; [done|]. destruct (unlocking_unlink H lfs en eq_refl _ _ _ _ _ Hul Hd Hl) as (q & x & who & Eq & ->).
      exists b, ws, is', k, q, x, who, qs. by split_and!.
    + destruct (acts_link H lfs HH en eq_refl _ _ _ _ _ _ Hac Hd Hl) as (Hlk & kvs' & q & rf & x & who & Er & Hq & Hrf & Eq & ->).
      left. split; [done|]. destruct r; try done. simpl in Er. injection Er as <-.
      exists b, ws, is', kvs, q, rf, x, who, qs. split_and!; try done.
    + by destruct (acts_link H lfs HH en eq_refl _ _ _ _ _ _ Hac Hd Hl) as (Hlk & kvs' & q & rf & x & who & Er & _).
  - exfalso.
    inversion H5 as [| | | |b ws o' is1 is2 kvs v n ds a' new' Hs Hn Ho Hp Ha Hk Hv Hsto E1 E2 E3 E4]; clear H5; subst;
      try match goal with E : [] = deeds tr |- _ => rewrite <- E in Hd; by apply elem_of_nil in Hd end.
    assert (Hw : forall fd cs, d ∉ written fd cs).
    { intros fd cs Hin'. eapply (oth_not H lfs _ d p); [|exact Hin'|done]. unfold written. apply Forall_map, Forall_true. intros c. exact I. }
    assert (Htmp : forall tmp fd, existT (EMktemp (lfs ++ [bs "incomplete"]) o') (IOk (tmp, fd)) ∈ deeds tr -> tmp <> ln p).
    { intros tmp fd Hi. apply deeds_in in Hi as [Hi _]. rewrite Forall_forall in Hok. destruct (Hok _ Hi) as [sfx ->].
      apply temp_not_lock. by exists o', sfx. }
    assert (Hun : forall tmp fd r, existT (EMktemp (lfs ++ [bs "incomplete"]) o') (IOk (tmp, fd)) ∈ deeds tr -> d <> existT (EUnlink tmp) r).
    { intros tmp fd r Hi ->. destruct Hl as [[b' Hl]|Hl]; [done|]. unfold unlinked in Hl. injection Hl as E _. by apply (Htmp tmp fd). }
    assert (Hoth : forall e r, d = existT e r -> match e with ELink _ _ | EUnlink _ => False | _ => True end -> False).
    { intros e r -> Hx. by destruct Hl as [[b' [= -> _]]|[= -> _]]. }
    inversion Hsto as [x E1 E2|ds' tmp fd cs c x r nw Hc E1 E2|ds' tmp fd cs i r Hc Hi E1 E2|ds' e tmp fd cs ds'' a' He Hc Hf E1 E2]; clear Hsto; subst;
      match goal with E : _ = deeds tr |- _ => rename E into Et end;
      try (assert (Hmk : existT (EMktemp (lfs ++ [bs "incomplete"]) o') (IOk (tmp, fd)) ∈ deeds tr) by (rewrite <- Et; left));
      rewrite <- Et in Hd; rewrite ?elem_of_cons, ?elem_of_app, ?elem_of_cons, ?elem_of_nil in Hd.
    all: destruct_or! Hd; try (by destruct Hd); try (by eapply Hoth); try (by apply Hw in Hd); try (by apply (Hun tmp fd) in Hd).
    inversion Hf; clear Hf; subst; rewrite ?elem_of_cons, ?elem_of_nil in Hd;
      destruct_or! Hd; try (by destruct Hd); try (by eapply Hoth); try (by apply (Hun tmp fd) in Hd).
Qed.

End round.

(** ** One server *)
Lemma lock_deed H lfs p d : linked H lfs p d \/ unlinked H lfs p d -> is_deed d = true.
Proof. by intros [[a ->]| ->]. Qed.
Lemma lock_early H lfs p d v um u : linked H lfs p d \/ unlinked H lfs p d -> masks (asked v) um u -> d ∉ um ++ announced lfs.
Proof.
  intros Hl Hmk Hin. apply elem_of_app in Hin as [Hin|Hin].
  - unfold masks in Hmk. destruct (asked v) as [n|]; [destruct Hmk as (_ & r & ->)|destruct Hmk as (r & ->)];
      rewrite ?elem_of_cons, ?elem_of_nil in Hin; destruct Hl as [[a ->]| ->]; by destruct_or! Hin.
  - eapply (oth_not H lfs (announced lfs) d p); [|exact Hin|exact Hl]. repeat (apply Forall_cons; split; [exact I|]). apply Forall_nil_2.
Qed.
Lemma comes_calls en fuel lfs v m ta d tb x p : digest (en_hash en) -> exact (ta ++ d :: tb) ->
  calls (transfer_main en fuel lfs (GOk (libgit2 v)) (operation m)) (ta ++ d :: tb) x ->
  (linked (en_hash en) lfs p d -> m = Upload /\ in_round (locked_as en p) ta d tb) /\
  (unlinked (en_hash en) lfs p d -> m = Upload /\ in_round (unlocked_as en p) ta d tb).
Proof.
  intros HH He Hc.
  assert (Hm : linked (en_hash en) lfs p d \/ unlinked (en_hash en) lfs p d -> m = Upload).
  { intros Hl. destruct m; [done|]. exfalso. pose proof (calls_all_ev _ _ _ _ (ev_download_main en fuel lfs _) Hc) as F.
    rewrite Forall_forall in F. assert (Hin : d ∈ ta ++ d :: tb) by (apply elem_of_app; right; left).
    specialize (F _ Hin). destruct Hl as [[a ->]| ->]; by destruct F as [?|(? & _ & ?)]. }
  assert (Hok : Forall (fun d => resp_ok (projT1 d) (projT2 d)) (ta ++ d :: tb)).
  { clear -Hc. revert Hc. generalize (ta ++ d :: tb). generalize (transfer_main en fuel lfs (GOk (libgit2 v)) (operation m)).
    intros q. induction q as [a|f|e k IH]; intros tr; destruct tr as [|d' tr]; try done. intros (r & -> & Hr & Hc). constructor; [exact Hr|]. by apply (IH r). }
  assert (G : linked (en_hash en) lfs p d \/ unlinked (en_hash en) lfs p d ->
    exists t1 u v t2, ta = t1 ++ u /\ tb = v ++ t2 /\ ((exists um o n, round en lfs um m o (u ++ d :: v) n) \/ t2 = [] /\ flushed ∉ u ++ d :: v)).
  { intros Hl. destruct (c_session en fuel lfs v m _ x HH He Hc) as [[G _]|(um & u & body & rest & new & E & Hmk & Hr & Hf & _)].
    { exfalso. assert (Hin : d ∈ ta ++ d :: tb) by (apply elem_of_app; right; left). destruct Hl as [[a El]|El]; unfold unlinked in El; rewrite El in Hin at 1; exact (G _ _ Hin). }
    clear Hc He Hok. symmetry in E. rewrite !app_assoc in E. apply app_eq_app in E as (z & [[E1 E2]|[E1 E2]]).
    2: { (* in the rest *) subst rest. exists (((um ++ announced lfs) ++ body)), z, tb, []. split_and!; [done|by rewrite app_nil_r|].
         right. split; [done|]. destruct Hf as [Hf|(? & ? & ? & _ & _ & _ & _ & _ & _ & Hd)]; [done|].
         exfalso. assert (G : d ∈ deeds (z ++ d :: tb)).
         { apply deeds_in. split; [apply elem_of_app; right; left|by eapply lock_deed]. }
         rewrite Hd in G. by apply elem_of_nil in G. }
    destruct z as [|d' z].
    { simpl in E2. subst rest. rewrite app_nil_r in E1. subst ta. exists (((um ++ announced lfs) ++ body)), [], tb, []. rewrite !app_nil_r. split_and!; [done|done|].
      right. split; [done|]. destruct Hf as [Hf|(? & ? & ? & _ & _ & _ & _ & _ & _ & Hd)]; [done|].
      exfalso. assert (G : d ∈ deeds (d :: tb)).
      { apply deeds_in. split; [left|by eapply lock_deed]. }
      rewrite Hd in G. by apply elem_of_nil in G. }
    injection E2 as <- ->. apply app_eq_app in E1 as (w & [[E1 E2]|[E1 E2]]).
    - (* in what comes first *) destruct w as [|d' w].
      + simpl in E2. rewrite app_nil_r in E1. subst ta. destruct (rounds_at lfs en u m [] body new [] d z Hr) as (t1 & a & b & t2 & o & n & G1 & -> & G3); [by rewrite <- E2|].
        apply symmetry, app_nil in G1 as [-> ->]. exists (um ++ announced lfs), [], b, (t2 ++ rest). rewrite app_nil_r, <- app_assoc. split_and!; [done|done|].
        left. by exists u, o, n.
      + exfalso. injection E2 as <- E2. assert (Hin : d ∈ um ++ announced lfs) by (rewrite E1; apply elem_of_app; right; left).
        by apply (lock_early _ _ _ _ _ _ _ Hl Hmk) in Hin.
    - destruct (rounds_at lfs en u m [] body new w d z Hr E2) as (t1 & a & b & t2 & o & n & -> & -> & G3).
      subst ta. exists ((um ++ announced lfs) ++ t1), a, b, (t2 ++ rest). rewrite <- !app_assoc. split_and!; [done|done|]. left. by exists u, o, n. }
  clear Hc He. split; intros Hl; (split; [apply Hm; auto|]); (destruct G as (t1 & a & b & t2 & -> & -> & [(um & o & n & G)|G]); [by auto|..|by exists t1, a, b, t2; auto]);
    exists t1, a, b, t2; (split_and!; [done|done|left]);
    (eapply (round_lock en lfs HH _ _ _ _ _ d p G); [|apply elem_of_app; right; left|done]);
    rewrite Forall_forall in Hok |- *; intros d' Hd'; apply Hok; rewrite !elem_of_app, elem_of_cons in *; rewrite elem_of_app; tauto.
Qed.

(** ** Any servers *)
Section all.
Context (H : bytes -> bytes) (lfs : path) (ps : list (proc (Z * bytes))) (s0 : fs) (Hcr : crew H lfs ps s0).
Local Notation ln p := (lock_name H lfs p).
Lemma crew_ev cs1 cs2 i e r : existT e r ∈ history i cs2 (sys_run cs1 (Sys ps s0)) -> shapely lfs e /\ lockly H lfs e.
Proof using Hcr.
  intros Hin. destruct Hcr as [[HH Hlfs _ _] Hall].
  assert (Hin' : existT e r ∈ history i (cs1 ++ cs2) (Sys ps s0)) by (rewrite history_app; apply elem_of_app; by right).
  destruct (ps !! i) as [p|] eqn:Ei; [|by rewrite history_none in Hin'; [apply elem_of_nil in Hin'|]].
  pose proof (history_calls i (cs1 ++ cs2) (Sys ps s0) p Ei) as Hc.
  rewrite Forall_lookup in Hall. destruct (Hall i p Ei) as (m & en & fuel & v & Hen & Ep).
  assert (Hs : is_server H lfs (pr_prog p)) by (eexists en, fuel, _, _; by split).
  pose proof (calls_all_ev _ _ _ _ (sv_server H lfs HH _ Hs) Hc) as F1. pose proof (calls_all_ev _ _ _ _ (lv_server H lfs _ Hs) Hc) as F2.
  rewrite Forall_forall in F1, F2. split; [apply (F1 _ Hin')|apply (F2 _ Hin')].
Qed.
Lemma crew_server cs1 cs2 i ta d tb p : history i cs2 (sys_run cs1 (Sys ps s0)) = ta ++ d :: tb ->
  (linked H lfs p d -> by_server H lfs ps s0 cs1 cs2 (linked H lfs p) (fun en => locked_as en p)) /\
  (unlinked H lfs p d -> by_server H lfs ps s0 cs1 cs2 (unlinked H lfs p) (fun en => unlocked_as en p)).
Proof using Hcr.
  intros Ed. destruct Hcr as [[HH Hlfs _ _] Hall].
  assert (Eh : history i (cs1 ++ cs2) (Sys ps s0) = (history i cs1 (Sys ps s0) ++ ta) ++ d :: tb) by (by rewrite history_app, Ed, <- app_assoc).
  destruct (ps !! i) as [pr|] eqn:Ei.
  2: { exfalso. rewrite history_none in Eh by done. by destruct (history i cs1 (Sys ps s0) ++ ta). }
  pose proof (history_calls i (cs1 ++ cs2) (Sys ps s0) pr Ei) as Hc. pose proof (history_exact i (cs1 ++ cs2) (Sys ps s0)) as He.
  rewrite Eh in Hc, He.
  rewrite Forall_lookup in Hall. destruct (Hall i pr Ei) as (m & en & fuel & v & <- & Ep). rewrite Ep in Hc.
  destruct (comes_calls en fuel lfs v m _ d tb None p HH He Hc) as [G1 G2].
  split; intros Hl; [destruct (G1 Hl) as [-> G]|destruct (G2 Hl) as [-> G]]; exists i, pr, en, fuel, v, ta, d, tb; by split_and!.
Qed.
Lemma c104 cs1 cs2 p j :
  let s1 := shared (sys_run cs1 (Sys ps s0)) in let s2 := shared (sys_run cs2 (sys_run cs1 (Sys ps s0))) in
  (nodes s1 !! ln p <> Some (NFile j) -> nodes s2 !! ln p = Some (NFile j) ->
     by_server H lfs ps s0 cs1 cs2 (linked H lfs p) (fun en => locked_as en p)) /\
  (nodes s1 !! ln p = Some (NFile j) -> nodes s2 !! ln p <> Some (NFile j) ->
     by_server H lfs ps s0 cs1 cs2 (unlinked H lfs p) (fun en => unlocked_as en p)).
Proof using Hcr.
  intros s1 s2. pose proof Hcr as [[HH Hlfs _ _] _].
  destruct (run_lock H lfs HH Hlfs cs2 p j (sys_run cs1 (Sys ps s0)) (crew_ev cs1 cs2)) as [G1 G2].
  split; intros Ha Hb; [destruct (G1 Ha Hb) as (i & ta & d & tb & Ed & Hd)|destruct (G2 Ha Hb) as (i & ta & d & tb & Ed & Hd)];
    by apply (crew_server cs1 cs2 i ta d tb p Ed).
Qed.
End all.
