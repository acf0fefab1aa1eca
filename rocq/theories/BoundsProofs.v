(** Proofs for Props_Bounds.v. *)
From Verif Require Import Bytes ByteFacts Err FS Prog Pktline Args Local Processor Transfer Wp Rg ServerEv
  PktFacts FsFacts TextProofs Spec SpecStore SpecServer SpecEnd SpecTalk SpecBounds ObjProofs Total Mon.

(** ** Where paths lead *)
Lemma walk_clean s cur cs rest q : Forall stays cs -> walk s cur (cs ++ rest) = inr q -> walk s (cur ++ cs) rest = inr q.
Proof.
  intros H. revert cur. induction H as [|c cs (H1 & H2 & H3) _ IH]; intros cur; simpl; [by rewrite app_nil_r|].
  destruct (node_at s cur) as [[|i]|]; try done. rewrite decide_False by naive_solver. rewrite decide_False by done.
  intros E. apply IH in E. by rewrite <- app_assoc in E.
Qed.
Lemma walk_down s lfs cur rest q : lfs `prefix_of` cur -> bs ".." ∉ rest -> walk s cur rest = inr q -> lfs `prefix_of` q.
Proof.
  revert cur. induction rest as [|c rest IH]; intros cur Hc Hr; simpl; [by intros [= <-]|].
  apply not_elem_of_cons in Hr as [Hd Hr]. destruct (node_at s cur) as [[|i]|]; try done.
  destruct (decide (c = [] \/ c = bs ".")); [by apply IH|]. rewrite decide_False by done. apply IH; [|done].
  destruct Hc as [x ->]. exists (x ++ [c]). by rewrite app_assoc.
Qed.
Lemma leads_down lfs rest : Forall plain_name lfs -> bs ".." ∉ rest -> leads_inside lfs (lfs ++ rest).
Proof.
  intros H1 H2 s q. unfold resolve. destruct (has_nul _); [done|]. intros E.
  assert (H : Forall stays lfs) by (eapply Forall_impl; [exact H1|]; unfold plain_name, stays; naive_solver).
  apply walk_clean in E; [|done]. by eapply walk_down.
Qed.

(** ** Names and files outside *)
Section kept.
Context (L : list path) (s0 : fs).
Let n0 := length (inodes s0).
Context (Hsane : sane s0).
Notation out q := (~ inside L q).

Record kept (s : fs) : Prop := Kept {
  k_names : forall q, out q ->
     nodes s !! q = nodes s0 !! q \/ (above L q /\ nodes s0 !! q = None /\ nodes s !! q = Some NDir);
  k_files : forall q j, out q -> nodes s0 !! q = Some (NFile j) -> inodes s !! j = inodes s0 !! j;
  k_apart : forall q q' j, inside L q -> out q' -> nodes s !! q = Some (NFile j) -> nodes s0 !! q' <> Some (NFile j);
  k_len : (n0 <= length (inodes s))%nat }.

(** A step that changes names only inside, and moves only files from inside or new. *)
Lemma kept_names s m h : kept s ->
  (forall q, out q -> m !! q = nodes s !! q) ->
  (forall q j, inside L q -> m !! q = Some (NFile j) -> (exists q', inside L q' /\ nodes s !! q' = Some (NFile j)) \/ (n0 <= j)%nat) ->
  kept (FS m (inodes s) h).
Proof using Hsane.
  intros [K1 K2 K3 K4] H1 H2. split; cbn [nodes inodes]; try done.
  - intros q Hq. rewrite (H1 q Hq). by apply K1.
  - intros q q' j Hq Hq' E. destruct (H2 q j Hq E) as [(r & Hr & Er)|Hj]; [by eapply K3|].
    intros E'. apply Hsane in E'. unfold n0 in Hj. lia.
Qed.
Lemma kept_set s f : kept s ->
  (forall q, out q -> f (nodes s) !! q = nodes s !! q) ->
  (forall q j, inside L q -> f (nodes s) !! q = Some (NFile j) -> (exists q', inside L q' /\ nodes s !! q' = Some (NFile j)) \/ (n0 <= j)%nat) ->
  kept (set_nodes f s).
Proof using Hsane. apply kept_names. Qed.
Lemma kept_log pid x s : kept s -> kept (log pid x s).
Proof using Type. intros [K1 K2 K3 K4]. by split. Qed.
Lemma kept_alloc x s : kept s -> kept (alloc x s).2 /\ (n0 <= (alloc x s).1)%nat.
Proof using Hsane.
  intros [K1 K2 K3 K4]. split; [|done]. split; cbn [alloc snd nodes inodes]; try done.
  - intros q j Hq E. pose proof (Hsane _ _ E) as Hj. rewrite lookup_app_l by (unfold n0 in K4; lia). by eapply K2.
  - rewrite app_length. lia.
Qed.
(** Inodes inside and new ones may change. *)
Lemma kept_upd i f s : kept s -> ((exists q, inside L q /\ nodes s !! q = Some (NFile i)) \/ (n0 <= i)%nat) -> kept (upd_inode i f s).
Proof using Hsane.
  intros [K1 K2 K3 K4] Hi. split; cbn [upd_inode nodes inodes]; try done.
  - intros q j Hq E. rewrite list_lookup_alter_ne; [by eapply K2|]. intros ->. destruct Hi as [(r & Hr & Er)|Hi].
    + by apply (K3 r q j Hr Hq Er).
    + apply Hsane in E. unfold n0 in Hi. lia.
  - by rewrite alter_length.
Qed.
Lemma kept_insert s q n : kept s -> inside L q -> (forall j, n = NFile j -> (exists q', inside L q' /\ nodes s !! q' = Some (NFile j)) \/ (n0 <= j)%nat) ->
  kept (set_nodes <[q := n]> s).
Proof using Hsane.
  intros K Hq Hn. apply kept_set; [done| |].
  - intros r Hr. rewrite lookup_insert_ne; [done|]. by intros ->.
  - intros r j Hr E. destruct (decide (q = r)) as [<-|Hne].
    + rewrite lookup_insert in E. injection E as ->. by apply Hn.
    + rewrite lookup_insert_ne in E by done. left. by exists r.
Qed.
Lemma kept_delete s q : kept s -> inside L q -> kept (set_nodes (delete q) s).
Proof using Hsane.
  intros K Hq. apply kept_set; [done| |].
  - intros r Hr. rewrite lookup_delete_ne; [done|]. by intros ->.
  - intros r j Hr E. apply lookup_delete_Some in E as [_ E]. left. by exists r.
Qed.
Lemma kept_mkdirs lfs rest s s' cur cs : lfs ∈ L -> lfs ++ rest = cur ++ cs -> kept s -> fs_mkdirs s cur cs = inr s' -> kept s'.
Proof using Hsane.
  intros HL. revert s cur. induction cs as [|c cs IH]; intros s cur E K; simpl; [by intros [= <-]|].
  assert (E' : lfs ++ rest = (cur ++ [c]) ++ cs) by by rewrite <- app_assoc.
  destruct (nodes s !! (cur ++ [c])) as [[|j]|] eqn:En; [by apply IH|done|]. apply IH; [done|].
  destruct (decide (lfs `prefix_of` cur ++ [c])) as [Hp|Hp].
  - apply kept_insert; [done|by exists lfs|done].
  - assert (Ha : above L (cur ++ [c])).
    { exists lfs. split; [done|]. destruct (prefix_weak_total (cur ++ [c]) lfs (lfs ++ rest)); [|by apply prefix_app_r|done|done].
      rewrite E'. by apply prefix_app_r. }
    destruct K as [K1 K2 K3 K4]. split; cbn [set_nodes nodes inodes]; try done.
    + intros q Hq. destruct (decide (q = cur ++ [c])) as [->|Hne].
      * right. rewrite lookup_insert. split_and!; [done| |done]. destruct (K1 _ Hq) as [<-|(_ & _ & Hd)]; [done|congruence].
      * rewrite lookup_insert_ne by done. by apply K1.
    + intros q q' j Hq Hq' Ej. destruct (decide (q = cur ++ [c])) as [->|Hne]; [by rewrite lookup_insert in Ej|].
      rewrite lookup_insert_ne in Ej by done. by eapply K3.
Qed.

Definition leads (p : path) : Prop := forall s q, resolve s p = inr q -> inside L q.
Lemma kept_file_at s p q i : leads p -> file_at s p = inr (q, i) -> inside L q /\ nodes s !! q = Some (NFile i).
Proof using Type.
  intros Hp. unfold file_at. destruct (resolve s p) as [e|r] eqn:E; [done|]. apply Hp in E.
  destruct (node_at s r) as [[|j]|] eqn:En; try done. intros [= -> ->]. split; [done|]. unfold node_at in En. by destruct q.
Qed.

(** ** Calls that stay inside *)
Definition in_may (_ : unit) (e : ev) : Prop :=
  match e with
  | EMkdir p => exists lfs rest, lfs ∈ L /\ p = lfs ++ rest
  | EMktemp d pre => leads d /\ forall sfx, leads (d ++ [pre ++ sfx])
  | EWriteFd i _ => (n0 <= i)%nat
  | ERename a b | ELink a b => leads a /\ leads b
  | EUnlink p | ECreate p | EChmod p _ => leads p
  | _ => True
  end.
Definition in_ans (_ : unit) (e : ev) : resp e -> Prop :=
  match e return resp e -> Prop with
  | EMktemp d pre => fun r => match r with IOk (p, i) => (n0 <= i)%nat /\ exists sfx, p = d ++ [pre ++ sfx] | _ => True end
  | ECreate _ => fun r => match r with IOk i => (n0 <= i)%nat | _ => True end
  | _ => fun _ => True
  end.
Definition in_next (w : unit) (e : ev) (_ : resp e) : unit := tt.
Lemma inside_child q c : inside L q -> inside L (q ++ [c]).
Proof using Type. intros (l & H1 & H2). exists l. split; [done|]. by apply prefix_app_r. Qed.

Lemma kept_step pid e o l s : kept s -> in_may tt e ->
  kept (handle_ev pid e o l s).2 /\ in_ans tt e (handle_ev pid e o l s).1.1.
Proof using Hsane.
  intros K He. destruct e; cbn [handle_ev in_ans].
  all: try (destruct (o_fault o) eqn:Ef; unfold faulty; rewrite ?Ef; done).
  all: unfold faulty, with_l; try (destruct (o_fault o); [done|]); cbn [fst snd]; try done.
  - by destruct (do_read n l) as [r l'].
  - destruct He as (lfs & rest & HL & ->). unfold fs_mkdir_all. destruct (fs_mkdirs s [] (lfs ++ rest)) as [x|s'] eqn:E; [done|].
    split; [|done]. exact (kept_mkdirs lfs rest _ _ [] _ HL eq_refl K E).
  - destruct He as [Hd _]. unfold fs_mktemp. destruct (resolve s dir) as [x|d] eqn:E; [done|]. apply Hd in E.
    destruct (node_at s d) as [[|j]|]; try done. cbn [alloc fst snd]. split; [|split].
    + apply (kept_insert (alloc _ s).2); [by apply kept_alloc|by apply inside_child|]. intros j [= <-]. right. apply K.
    + apply K.
    + unfold free_name. destruct (nodes s !! (d ++ [prefix ++ o_sfx o])); [|by eexists].
      exists (o_sfx o ++ replicate (S (max_name s)) Byte.x78). by rewrite <- app_assoc.
  - cbn in He. assert (G : forall b, kept (fs_write i b s).2).
    { intros b'. unfold fs_write. destruct (inode_at s i); [|done]. apply kept_upd; [done|by right]. }
    destruct (o_fault o); (split; [apply G|done]).
  - destruct He as [Ha Hb]. split; [|done]. unfold fs_rename. destruct (file_at s a) as [x|[qa i]] eqn:E; [done|].
    apply (kept_file_at _ _ _ _ Ha) in E as [Hqa Eqa].
    destruct (resolve s b) as [x|qb] eqn:Eb; [done|]. apply Hb in Eb.
    assert (G : kept (set_nodes (fun m => <[qb := NFile i]> (delete qa m)) s)).
    { apply kept_set; [done| |].
      - intros r Hr. rewrite lookup_insert_ne, lookup_delete_ne; [done|by intros ->..].
      - intros r j Hr Er. apply lookup_insert_Some in Er as [[_ [= <-]]|[_ Er]]; [left; by exists qa|].
        apply lookup_delete_Some in Er as [_ Er]. left. by exists r. }
    by destruct (node_at s qb) as [[|j]|].
  - cbn in He. split; [|done]. unfold fs_unlink. destruct (file_at s p) as [x|[q i]] eqn:E; [done|].
    apply (kept_file_at _ _ _ _ He) in E as [Hq Eq]. by apply kept_log, kept_delete.
  - destruct He as [Ha Hb]. split; [|done]. unfold fs_link. destruct (file_at s a) as [x|[qa i]] eqn:E; [done|].
    apply (kept_file_at _ _ _ _ Ha) in E as [Hqa Eqa].
    destruct (resolve s b) as [x|qb] eqn:Eb; [done|]. apply Hb in Eb.
    destruct (node_at s qb); [done|]. apply kept_log, kept_insert; [done|done|]. intros j [= <-]. left. by exists qa.
  - cbn in He. unfold fs_create_new. destruct (resolve s p) as [x|q] eqn:E; [done|]. apply He in E.
    destruct (node_at s q); [done|]. cbn [alloc fst snd]. split; [|apply K].
    apply (kept_insert (alloc _ s).2); [by apply kept_alloc|done|]. intros j [= <-]. right. apply K.
  - cbn in He. split; [|done]. unfold fs_chmod. destruct (resolve s p) as [x|q] eqn:E; [done|]. apply He in E.
    destruct (node_at s q) as [[|j]|] eqn:En; try done. apply kept_upd; [done|]. left. exists q. split; [done|].
    unfold node_at in En. by destruct q.
  - split; [|done]. by apply kept_log.
Qed.
End kept.

(** ** Servers stay inside *)
Section server.
Context (L : list path) (s0 : fs) (en : env) (be : backend) (fuel : nat).
Context (Hin : be_lfs be ∈ L) (Hpl : Forall plain_name (be_lfs be)).
Notation IN := (mon (in_may L s0) (in_ans s0) in_next).
Notation all_ok := (fun _ _ => True).

Lemma leads_below rest : bs ".." ∉ rest -> leads L (be_lfs be ++ rest).
Proof using Hin Hpl. intros H s q E. exists (be_lfs be). split; [done|]. by eapply leads_down. Qed.
Lemma in_quiet {A} (p : prog A) (Q : unit -> A -> Prop) : all_ev quiet p -> (forall a, Q tt a) -> IN tt p Q.
Proof using Type.
  intros H HQ. induction p as [a|f|e k IH]; [apply HQ|done|]. destruct H as [H1 H2]. apply mon_vis; [by destruct e|].
  intros r Hr. apply IH, H2. by destruct e.
Qed.
Lemma in_call e (Q : unit -> resp e -> Prop) : in_may L s0 tt e -> (forall r, in_ans s0 tt e r -> Q tt r) -> IN tt (call e) Q.
Proof using Type. intros H1 H2. by apply mon_call. Qed.

Lemma in_copy f fd got rb (Q : unit -> res bytes * rbuf -> Prop) : (length (inodes s0) <= fd)%nat -> (forall a, Q tt a) -> IN tt (copy_to_file f fd got rb) Q.
Proof using Type.
  intros Hfd HQ. revert got rb. induction f as [|f IH]; intros got rb; cbn [copy_to_file]; [done|].
  apply mon_bind, in_quiet; [by apply ev_reader_read|]. intros [[[|x d]|e] rb']; [apply mon_ret, HQ| |apply mon_ret, HQ].
  apply mon_bind, in_call; [done|]. intros [[]|e] _; [apply IH|apply mon_ret, HQ].
Qed.
Lemma in_drop t (Q : unit -> unit -> Prop) : leads L t -> Q tt tt -> IN tt (drop_temp t) Q.
Proof using Type. intros H HQ. unfold drop_temp. apply mon_bind, in_call; [done|]. intros r _. by apply mon_ret. Qed.

Definition temp_ok (r : res (upload_state * bytes)) : Prop := match r with Ok (st, _) => leads L (us_temp st) /\ is_oid (us_oid st) | Er _ => True end.
Lemma oid_no_dots o : is_oid o -> forall x, o ++ x <> bs "..".
Proof using Type. intros [H _] x E. apply (f_equal length) in E. rewrite app_length, H in E. by vm_compute in E. Qed.
Lemma in_start o rb (Q : unit -> res (upload_state * bytes) * rbuf -> Prop) : is_oid o -> (forall a, temp_ok a.1 -> Q tt a) -> IN tt (start_upload be fuel o rb) Q.
Proof using Hin Hpl.
  intros Ho HQ. unfold start_upload.
  assert (Hl : forall sfx, leads L ((be_lfs be ++ [bs "incomplete"]) ++ [o ++ sfx])).
  { intros sfx. rewrite <- app_assoc. apply leads_below. intros [H|H]%elem_of_cons; [by vm_compute in H|].
    apply elem_of_list_singleton in H. by apply (oid_no_dots o Ho sfx). }
  apply mon_bind, in_call.
  { split; [|done]. apply leads_below. intros H%elem_of_list_singleton; by vm_compute in H. }
  intros [[tmp fd]|e] Hr; [|apply mon_ret; by apply HQ]. destruct Hr as [Hfd [sfx ->]].
  apply mon_bind, in_copy; [done|]. intros [[got|e] rb']; [apply mon_ret, HQ; split; [apply Hl|done]|].
  apply mon_bind, in_drop; [apply Hl|]. by apply mon_ret, HQ.
Qed.
Lemma obj_below o : is_oid o -> leads L (expected_path (be_lfs be) o).
Proof using Hin Hpl.
  intros Ho. apply leads_below. pose proof (obj_stays [] (Forall_nil_2 _) o Ho) as H. unfold expected_path in H. cbn [app] in H.
  intros Hd. rewrite Forall_forall in H. by destruct (H _ Hd) as (_ & _ & ?).
Qed.
Lemma in_finish st (Q : unit -> res unit -> Prop) : leads L (us_temp st) -> is_oid (us_oid st) -> (forall a, Q tt a) -> IN tt (finish_upload be st) Q.
Proof using Hin Hpl.
  intros Ht Ho HQ. unfold finish_upload. cbv zeta. apply mon_bind, in_call.
  { exists (be_lfs be), [bs "objects"; slice 0 2 (us_oid st); slice 2 4 (us_oid st)]. split; [done|]. unfold expected_path.
    change [bs "objects"; slice 0 2 (us_oid st); slice 2 4 (us_oid st); us_oid st] with ([bs "objects"; slice 0 2 (us_oid st); slice 2 4 (us_oid st)] ++ [us_oid st]).
    by rewrite app_assoc, removelast_last. }
  intros [[]|e] _; [|apply mon_bind, in_drop; [done|]; apply mon_ret, HQ].
  apply mon_bind, in_call; [split; [done|by apply obj_below]|].
  intros [[]|e] _; [|apply mon_bind, in_drop; [done|]; apply mon_ret, HQ].
  unfold fix_permissions. apply mon_bindR, mon_io_call, in_call; [done|]. intros [x|e] _; [|apply HQ].
  apply mon_io_call, in_call; [by apply obj_below|]. intros r _. apply HQ.
Qed.
Lemma in_put o rb : IN tt (p_put_object en be fuel o rb) all_ok.
Proof using Hin Hpl.
  unfold p_put_object. destruct (oid_new o) as [o'|e] eqn:Eo; [|done]. apply oid_new_iff in Eo as [-> Ho].
  apply mon_bind, in_quiet; [unfold read_to_delim; ev|]. intros [n|e]; [|done].
  apply mon_bind, in_start; [done|]. intros [[[st got]|e] rb'] Hst; [|done]. destruct Hst as [Ht Hot]. cbv zeta.
  assert (Hf : forall e, IN tt (let! _ := drop_temp (us_temp st) in Ret (@Er status e, rb')) all_ok) by (intros e; by apply mon_bind, in_drop).
  destruct (_ <? _)%N; [apply Hf|]. destruct (_ <? _)%N; [apply Hf|]. destruct (oid_new _) as [ao|e]; [|apply Hf].
  destruct (decide _); [apply Hf|]. by apply mon_bind, in_finish.
Qed.

Lemma hex_no_dots b x : hex_encode b ++ x <> bs ".." \/ (b = [] /\ x = bs "..").
Proof using Type.
  destruct b as [|y b]; [destruct (decide (x = bs "..")); [by right|by left]|]. left. rewrite hex_encode_cons. intros E.
  apply (f_equal (fun l => bN <$> head l)) in E. destruct (hex_nibbles y) as [Hy _].
  change (Some (bN (hexdig (bN y / 16))) = Some 46%N) in E. rewrite hexdig_bN in E by done.
  injection E as E. revert E. generalize (bN y / 16)%N. intros v E. destruct (v <? 10)%N; lia.
Qed.
Lemma lock_below b x : x <> bs ".." -> leads L (lock_dir be ++ [hex_encode b ++ x]).
Proof using Hin Hpl.
  intros Hx. unfold lock_dir. rewrite <- app_assoc. apply leads_below. intros [H|H]%elem_of_cons; [by vm_compute in H|].
  apply elem_of_list_singleton in H. by destruct (hex_no_dots b x) as [|[_ ?]].
Qed.
Lemma lock_file_below b : leads L (lock_file be (hex_encode b)).
Proof using Hin Hpl. unfold lock_file. rewrite <- (app_nil_r (hex_encode b)). by apply lock_below. Qed.
Lemma in_create p (Q : unit -> res lock -> Prop) : (forall a, Q tt a) -> IN tt (lock_create en be p) Q.
Proof using Hin Hpl.
  intros HQ. unfold lock_create. cbv zeta. set (id := hash_for en p).
  assert (Ht : leads L (lock_temp be id)) by by apply lock_below.
  assert (Hf : leads L (lock_file be id)) by by apply lock_file_below.
  assert (Hd : forall R : unit -> unit -> Prop, R tt tt -> IN tt (lockfile_drop (lock_temp be id)) R).
  { intros R HR. unfold lockfile_drop. apply mon_bind, in_call; [done|]. intros r _. by apply mon_ret. }
  apply mon_bind, in_quiet; [ev|]. intros t. unfold lockfile_write. apply mon_bind, mon_bind, in_call; [done|].
  assert (He : forall e, IN tt (let! _ := lockfile_drop (lock_temp be id) in Ret (@Er lock e)) Q).
  { intros e. apply mon_bind, Hd, mon_ret, HQ. }
  intros [fd|e] Hfd; [|destruct (decide _); apply mon_ret, He].
  apply mon_io_call, in_call; [done|]. intros [[]|e] _; cbn [res_of_io]; [|apply He].
  apply mon_bindR. unfold lockfile_persist. apply mon_bind, in_call; [done|]. intros r _. apply mon_bind, Hd.
  destruct r as [[]|e]; [apply mon_ret|destruct (decide _); apply mon_ret, HQ].
  apply in_quiet; [ev|]. done.
Qed.
Lemma in_lock : IN tt (p_lock en be fuel) all_ok.
Proof using Hin Hpl.
  unfold p_lock. apply mon_bindR, in_quiet; [ev|]. intros [d|e]; [|done]. apply mon_bindR, in_quiet; [ev|]. intros [a|e]; [|done].
  destruct (a !! bs "path") as [p|]; [|done]. destruct (a !! bs "refname"); [|done].
  apply mon_bind, in_create. intros r. apply in_quiet; [|done]. destruct r as [lk|e]; [ev|]. destruct (decide _); [|done]. ev.
Qed.
Lemma in_unlock i : IN tt (p_unlock en be fuel i) all_ok.
Proof using Hin Hpl.
  unfold p_unlock. apply mon_bindR, in_quiet; [unfold read_to_flush; ev|]. intros [d|e]; [|done].
  destruct (utf8_valid i); [|done]. apply mon_bind, in_quiet; [ev|]. intros [[l|]|e]; [|done..].
  apply mon_bind, in_quiet; [ev|]. intros a. apply mon_bind. unfold lock_unlock. apply mon_io_call, in_call; [apply lock_file_below|].
  intros r _. apply in_quiet; [|done]. destruct r; cbn [res_of_io]; ev.
Qed.
Lemma in_handle words m rb : IN tt (handle_command en be fuel (dispatch words m) m rb) all_ok.
Proof using Hin Hpl.
  assert (Hq : forall p : prog (res status), IN tt p all_ok -> IN tt (let! r := p in Ret (r, rb)) all_ok).
  { intros p H. apply mon_bind. eapply mon_mono; [|exact H]. done. }
  destruct (dispatch words m) eqn:E; cbn [handle_command].
  all: try apply in_put.
  all: apply Hq.
  all: try (apply in_quiet; [solve [ev]|done]).
  - apply in_quiet; [|done]. destruct (is_upload m); [unfold p_upload_batch|unfold p_download_batch]; ev.
  - apply in_lock.
  - apply in_unlock.
Qed.
Lemma in_commands n m rb : IN tt (process_commands en be fuel n m rb) all_ok.
Proof using Hin Hpl.
  revert rb. induction n as [|n IH]; intros rb; cbn [process_commands]; [done|]. apply mon_bind, (mon_mono _ _ _ _ _ all_ok).
  { intros [] [rb'|r] _; [apply IH|done]. }
  unfold process_one. apply mon_bind, in_quiet; [ev|]. intros [pkt|e]; [|done].
  destruct (pkt_data pkt) as [[|x b]|]; [apply in_quiet; [unfold and_go_on; ev|done]| |apply in_quiet; [unfold and_go_on; ev|done]].
  assert (G : IN tt (let! (r, rb') := handle_command en be fuel (dispatch (command_words (x :: b)) m) m rb in
    and_go_on rb' (answer fuel (status_of r))) all_ok).
  { apply mon_bind. eapply mon_mono; [|apply in_handle]. intros [] [r rb'] _. apply in_quiet; [unfold and_go_on; ev|done]. }
  destruct (dispatch (command_words (x :: b)) m); try exact G. apply in_quiet; [ev|done].
Qed.
End server.

Lemma in_main L s0 lfs p : lfs ∈ L -> Forall plain_name lfs -> server_at lfs p ->
  mon (in_may L s0) (in_ans s0) in_next tt p (fun _ _ => True).
Proof.
  intros HL Hpl (en & fuel & cfg & op & ->). unfold transfer_main, transfer_main_internal. apply mon_bind, mon_bindR, in_quiet; [ev|].
  intros [u|e]; [|done]. unfold transfer_run. apply mon_bindR.
  assert (G : forall ds, mon (in_may L s0) (in_ans s0) in_next tt (create_directories_in lfs ds) (fun _ _ => True)).
  { induction ds as [|d ds IH]; cbn [create_directories_in]; [done|]. apply mon_bindR, mon_io_call, in_call; [by exists lfs, [d]|].
    intros [[]|e] _; [apply IH|done]. }
  eapply mon_mono; [|apply G]. intros [] [[]|e] _; [|done]. apply mon_bindR, in_quiet; [ev|]. intros [[]|e]; [|done].
  destruct (mode_of op) as [m|]; [|done]. eapply mon_mono; [|by apply in_commands]. intros [] [[]|e] _; done.
Qed.

Lemma kept_init L s : sane s -> apart L s -> kept L s s.
Proof. intros H1 H2. split; [by left|done|exact H2|done]. Qed.

Lemma c51 L cs ps s0 :
  Forall (Forall plain_name) L -> Forall (fun p => exists lfs, lfs ∈ L /\ server_at lfs (pr_prog p)) ps ->
  sane s0 -> apart L s0 -> untouched L s0 (shared (sys_run cs (Sys ps s0))).
Proof.
  intros HL Hps Hs Ha.
  assert (G : forall cs (y : sys (Z * bytes)), kept L s0 (shared y) ->
    Forall (fun p => mon (in_may L s0) (in_ans s0) in_next tt (pr_prog p) (fun _ _ => True)) (procs y) ->
    kept L s0 (shared (sys_run cs y))).
  { clear cs. intros cs. induction cs as [|c cs IH]; intros y K Hp; cbn [sys_run fold_left]; [done|].
    assert (K' : kept L s0 (shared (sys_step y c)) /\
      Forall (fun p => mon (in_may L s0) (in_ans s0) in_next tt (pr_prog p) (fun _ _ => True)) (procs (sys_step y c))).
    { unfold sys_step. destruct (procs y !! c_pid c) as [p|] eqn:Ep; [|done].
      pose proof (Forall_lookup_1 _ _ _ _ Hp Ep) as Hm. destruct p as [q l dead]. unfold proc_step. cbn [pr_dead pr_prog pr_local] in *.
      destruct dead; [split; [done|by apply Forall_insert]|]. destruct (c_act c) as [o|]; [|split; [done|by apply Forall_insert]].
      destruct q as [a|f|e k]; [split; [done|by apply Forall_insert]..|]. destruct Hm as [H1 H2].
      pose proof (kept_step L s0 Hs (c_pid c) e o l (shared y) K H1) as [H3 H4].
      destruct (handle_ev (c_pid c) e o l (shared y)) as [[r l'] s']. cbn [fst snd shared procs] in *. split; [done|].
      apply Forall_insert; [done|]. exact (H2 r H4). }
    destruct K' as [K1 K2]; by apply IH. }
  pose proof (G cs (Sys ps s0)) as K. destruct K as [K1 K2 _ _].
  - by apply kept_init.
  - eapply Forall_impl; [exact Hps|]. intros p (lfs & HL' & Hp). eapply in_main; [exact HL'| |exact Hp].
    rewrite Forall_forall in HL. by apply HL.
  - by split.
Qed.
