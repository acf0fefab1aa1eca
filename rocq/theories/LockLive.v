(** When the lock command ends in a panic: only with a leftover temporary file. *)
From Verif Require Import Bytes Err FS Prog Pktline Args Local Processor Transfer Wp Rg
  ByteFacts PktFacts FsFacts Spec SpecStore SpecServer SpecLock ServerEv SeqIo PktProofs TextProofs ObjProofs StoreProofs Total
  SeqFs SeqCmd LockProofs LockSeq.
From stdpp Require Import relations.

Local Arguments N.ldiff : simpl never.

(** ** Programs that do not reach the [unreachable!] of the lock command *)
Fixpoint nf {A} (p : prog A) : Prop :=
  match p with Ret _ => True | Fail f => f <> PUnreachable | Vis e k => forall r, nf (k r) end.
Lemma nf_bind {A B} (p : prog A) (f : A -> prog B) : nf p -> (forall a, nf (f a)) -> nf (bind p f).
Proof. intros Hp Hf. induction p as [a|x|e k IH]; [by apply Hf|done|]. intros r. apply IH, Hp. Qed.
Lemma nf_bindR {A B} (p : prog (res A)) (f : A -> prog (res B)) : nf p -> (forall a, nf (f a)) -> nf (bindR p f).
Proof. intros Hp Hf. apply nf_bind; [done|]. by intros [a|e]. Qed.
Lemma nf_io_call {A} (p : prog (iores A)) : nf p -> nf (io_call p).
Proof. intros Hp. apply nf_bind; [done|]. by intros [a|e]. Qed.
Lemma nf_call e : nf (call e).
Proof. done. Qed.
Lemma nf_ret {A} (a : A) : nf (Ret a).
Proof. done. Qed.
Global Arguments nf : simpl never.

Create HintDb nfd discriminated.
Ltac nf_step :=
  match goal with
  | |- nf (bind _ _) => apply nf_bind; [|intros ?]
  | |- nf (bindR _ _) => apply nf_bindR; [|intros ?]
  | |- nf (io_call _) => apply nf_io_call
  | |- nf (call _) => apply nf_call
  | |- nf (Ret _) => exact I
  | |- nf (Fail _) => (unfold nf; discriminate)
  | |- nf (match ?x with _ => _ end) => destruct x
  | |- nf (if ?x then _ else _) => destruct x
  | |- nf (let '_ := ?x in _) => destruct x
  end.
Ltac nfs := repeat (first [done | nf_step | solve [auto with nfd]]).

Lemma nu_read_header : nf (read_header).
Proof. unfold read_header. nfs. Qed.
Global Hint Resolve nu_read_header : nfd.
Lemma nu_read_packet : nf (read_packet).
Proof. unfold read_packet. nfs. Qed.
Global Hint Resolve nu_read_packet : nfd.
Lemma nu_read_one : nf (read_one).
Proof. unfold read_one. nfs. Qed.
Global Hint Resolve nu_read_one : nfd.
Lemma nu_read_loop f n rb : nf (read_loop f n rb).
Proof. revert rb. induction f as [|f IH]; intros rb; simpl; nfs. Qed.
Global Hint Resolve nu_read_loop : nfd.
Lemma nu_reader_read f n rb : nf (reader_read f n rb).
Proof. unfold reader_read. nfs. Qed.
Global Hint Resolve nu_reader_read : nfd.
Lemma nu_write_one b : nf (write_one b).
Proof. unfold write_one. nfs. Qed.
Global Hint Resolve nu_write_one : nfd.
Lemma nu_write_packet p : nf (write_packet p).
Proof. unfold write_packet. nfs. Qed.
Global Hint Resolve nu_write_packet : nfd.
Lemma nu_write_chunks cs t : nf (write_chunks cs t).
Proof. revert t. induction cs as [|c cs IH]; intros t; simpl; nfs. Qed.
Global Hint Resolve nu_write_chunks : nfd.
Lemma nu_writer_write_all b : nf (writer_write_all b).
Proof. unfold writer_write_all, writer_write. nfs. Qed.
Global Hint Resolve nu_writer_write_all : nfd.
Lemma nu_read_to_type f p : nf (read_to_type f p).
Proof. induction f as [|f IH]; simpl; nfs. Qed.
Global Hint Resolve nu_read_to_type : nfd.
Lemma nu_send m : nf (send m).
Proof. unfold send. nfs. Qed.
Global Hint Resolve nu_send : nfd.
Lemma nu_send_all ms : nf (send_all ms).
Proof. induction ms as [|m ms IH]; simpl; nfs. Qed.
Global Hint Resolve nu_send_all : nfd.
Lemma nu_flush : nf (flush).
Proof. unfold flush. nfs. Qed.
Global Hint Resolve nu_flush : nfd.
Lemma nu_delim : nf (delim).
Proof. unfold delim. nfs. Qed.
Global Hint Resolve nu_delim : nfd.
Lemma nu_send_error c m : nf (send_error c m).
Proof. unfold send_error. nfs. Qed.
Global Hint Resolve nu_send_error : nfd.
Lemma nu_copy_out f h o : nf (copy_out f h o).
Proof. revert o. induction f as [|f IH]; intros o; simpl; nfs. Qed.
Global Hint Resolve nu_copy_out : nfd.
Lemma nu_send_status f st : nf (send_status f st).
Proof. unfold send_status. nfs. Qed.
Global Hint Resolve nu_send_status : nfd.
Lemma nu_or_panic {A} (r : option (res A)) : nf (or_panic r).
Proof. unfold or_panic. nfs. Qed.
Global Hint Resolve nu_or_panic : nfd.
Lemma nu_size_at_path be o : nf (size_at_path be o).
Proof. unfold size_at_path. nfs. Qed.
Global Hint Resolve nu_size_at_path : nfd.
Lemma nu_backend_batch be os : nf (backend_batch be os).
Proof. induction os as [|[o n] os IH]; simpl; nfs. Qed.
Global Hint Resolve nu_backend_batch : nfd.
Lemma nu_backend_verify be o a : nf (backend_verify be o a).
Proof. unfold backend_verify. nfs. Qed.
Global Hint Resolve nu_backend_verify : nfd.
Lemma nu_backend_download be o : nf (backend_download be o).
Proof. unfold backend_download. nfs. Qed.
Global Hint Resolve nu_backend_download : nfd.
Lemma nu_timestamp be : nf (timestamp be).
Proof. unfold timestamp. nfs. Qed.
Global Hint Resolve nu_timestamp : nfd.
Lemma nu_user_for_file en p : nf (user_for_file en p).
Proof. unfold user_for_file. nfs. Qed.
Global Hint Resolve nu_user_for_file : nfd.
Lemma nu_lock_from_id en be id : nf (lock_from_id en be id).
Proof. unfold lock_from_id. nfs. Qed.
Global Hint Resolve nu_lock_from_id : nfd.
Lemma nu_lock_from_path en be p : nf (lock_from_path en be p).
Proof. unfold lock_from_path. nfs. Qed.
Global Hint Resolve nu_lock_from_path : nfd.
Lemma nu_formatted en l : nf (formatted_timestamp en l).
Proof. unfold formatted_timestamp. nfs. Qed.
Global Hint Resolve nu_formatted : nfd.
Lemma nu_as_arguments en l : nf (as_arguments en l).
Proof. unfold as_arguments. nfs. Qed.
Global Hint Resolve nu_as_arguments : nfd.
Lemma nu_as_lock_spec en o l : nf (as_lock_spec en o l).
Proof. unfold as_lock_spec. nfs. Qed.
Global Hint Resolve nu_as_lock_spec : nfd.
Lemma nu_collect_locks en be c todo sk n : nf (collect_locks en be c todo sk n).
Proof. revert sk n. induction todo as [|f todo IH]; intros sk n; destruct n; simpl; nfs. Qed.
Global Hint Resolve nu_collect_locks : nfd.
Lemma nu_list_lock_items en be c n : nf (list_lock_items en be c n).
Proof. unfold list_lock_items. nfs. Qed.
Global Hint Resolve nu_list_lock_items : nfd.
Lemma nu_version f : nf (p_version f).
Proof. unfold p_version, read_to_flush. nfs. Qed.
Global Hint Resolve nu_version : nfd.
Lemma nu_error c m : nf (p_error c m).
Proof. unfold p_error. nfs. Qed.
Global Hint Resolve nu_error : nfd.
Lemma nu_read_wrapped f : nf (read_to_flush_wrapped f).
Proof. unfold read_to_flush_wrapped, read_to_flush. nfs. Qed.
Global Hint Resolve nu_read_wrapped : nfd.
Lemma nu_batch be f a b : nf (p_batch be f a b).
Proof. unfold p_batch, read_batch, read_to_delim. nfs. Qed.
Global Hint Resolve nu_batch : nfd.
Lemma nu_verify_object be f o : nf (p_verify_object be f o).
Proof. unfold p_verify_object, read_to_flush. nfs. Qed.
Global Hint Resolve nu_verify_object : nfd.
Lemma nu_get_object be f o : nf (p_get_object be f o).
Proof. unfold p_get_object, read_to_flush. nfs. Qed.
Global Hint Resolve nu_get_object : nfd.
Lemma nu_list_for_path en be p c o : nf (p_list_for_path en be p c o).
Proof. unfold p_list_for_path. nfs. Qed.
Global Hint Resolve nu_list_for_path : nfd.
Lemma nu_lock_specs en o ls : nf (lock_specs en o ls).
Proof. induction ls as [|l ls IH]; simpl; nfs. Qed.
Global Hint Resolve nu_lock_specs : nfd.
Lemma nu_list_locks en be f o : nf (p_list_locks en be f o).
Proof. unfold p_list_locks. nfs. Qed.
Global Hint Resolve nu_list_locks : nfd.
Lemma nu_unlock en be f i : nf (p_unlock en be f i).
Proof. unfold p_unlock, lock_unlock, read_to_flush. nfs. Qed.
Global Hint Resolve nu_unlock : nfd.
Lemma nu_set_permissions cfg : nf (set_permissions cfg).
Proof. unfold set_permissions. nfs. Qed.
Global Hint Resolve nu_set_permissions : nfd.
Lemma nu_send_capabilities : nf (send_capabilities).
Proof. unfold send_capabilities. nfs. Qed.
Global Hint Resolve nu_send_capabilities : nfd.
Lemma nu_drop_temp t : nf (drop_temp t).
Proof. unfold drop_temp. nfs. Qed.
Global Hint Resolve nu_drop_temp : nfd.
Lemma nu_copy_to_file f fd got rb : nf (copy_to_file f fd got rb).
Proof. revert got rb. induction f as [|f IH]; intros got rb; simpl; nfs. Qed.
Global Hint Resolve nu_copy_to_file : nfd.
Lemma nu_fix_permissions be p : nf (fix_permissions be p).
Proof. unfold fix_permissions. nfs. Qed.
Global Hint Resolve nu_fix_permissions : nfd.
Lemma nu_start_upload be f o rb : nf (start_upload be f o rb).
Proof. unfold start_upload. nfs. Qed.
Global Hint Resolve nu_start_upload : nfd.
Lemma nu_finish_upload be st : nf (finish_upload be st).
Proof. unfold finish_upload. nfs. Qed.
Global Hint Resolve nu_finish_upload : nfd.
Lemma nu_put_object en be f o rb : nf (p_put_object en be f o rb).
Proof. unfold p_put_object, read_to_delim. nfs. Qed.
Global Hint Resolve nu_put_object : nfd.
Lemma nu_create_directories lfs : nf (create_directories lfs).
Proof. unfold create_directories. induction dir_names as [|d ds IH]; simpl; nfs. Qed.
Global Hint Resolve nu_create_directories : nfd.

(** ** Paths in one directory *)
Lemma walk_inv s cur comps c q : Forall stays (comps ++ [c]) -> walk s cur (comps ++ [c]) = inr q ->
  forall a b, comps = a ++ b -> node_at s (cur ++ a) = Some NDir.
Proof.
  revert cur. induction comps as [|d comps IH]; intros cur Hs E a b Ea; simpl in *.
  - symmetry in Ea. apply app_eq_nil in Ea as [-> ->]. rewrite app_nil_r. by destruct (node_at s cur) as [[|]|].
  - apply Forall_cons in Hs as [(H1 & H2 & H3) Hs]. destruct (node_at s cur) as [[|]|] eqn:En; try done.
    rewrite decide_False in E by naive_solver. rewrite decide_False in E by done.
    destruct a as [|x a]; [by rewrite app_nil_r|]. injection Ea as <- ->.
    pose proof (IH _ Hs E a b eq_refl) as Hx. by rewrite <- app_assoc in Hx.
Qed.
Lemma resolve_dirs_to s d c q : Forall stays (d ++ [c]) -> resolve s (d ++ [c]) = inr q -> dirs_to s d.
Proof.
  unfold resolve. destruct (has_nul (d ++ [c])); [done|]. intros Hs E a b ->. by apply (walk_inv s [] (a ++ b) c q Hs E a b).
Qed.

Section live.
Context (H : bytes -> bytes) (lfs : path).
Context (Hlfs : Forall plain_name lfs) (HH : digest H).
Context (pid : nat).

Local Notation inc := (lfs ++ [bs "incomplete"]).
Local Notation lockdir := (lfs ++ [bs "locks"]).
Local Notation lockf p := (lockfile H lfs p).
Local Notation tempf p := (tempfile H lfs p).
Local Notation quietly := (fun o : orc => o_fault o = None).

(** No temporary file for a lock has been added. *)
Definition no_new (s s' : fs) : Prop := forall p, nodes s' !! tempf p <> None -> nodes s' !! tempf p = nodes s !! tempf p.
Lemma no_new_refl s : no_new s s.
Proof using Type. done. Qed.
Lemma no_new_trans s1 s2 s3 : no_new s1 s2 -> no_new s2 s3 -> no_new s1 s3.
Proof using Type. intros H1 H2 p H3. rewrite (H2 p H3). apply H1. by rewrite <- (H2 p H3). Qed.
Lemma no_new_nodes s s' : nodes s' = nodes s -> no_new s s'.
Proof using Type. intros E p _. by rewrite E. Qed.
Lemma no_new_nodes2 s0 s s' : nodes s' = nodes s -> no_new s0 s -> no_new s0 s'.
Proof using Type. intros E Hn p. rewrite E. apply Hn. Qed.

(** The lock command fails because of a leftover file: it removes it. *)
Definition stale (s s' : fs) : Prop := exists p, nodes s !! lockf p = None /\
  ((exists j, nodes s !! tempf p = Some (NFile j) /\ nodes s' = delete (tempf p) (nodes s)) \/ nodes s !! tempf p = Some NDir).

Lemma no_new_tame s s' i es : tame_step lfs s s' i es -> no_new s s'.
Proof using Type.
  intros Ht p. unfold tempfile in *. destruct (nodes s' !! _) eqn:E; [|done].
  intros _. by apply (ts_name _ _ _ _ _ Ht) in E.
Qed.

Section wp.
Context (F : failure -> local -> fs -> Prop) (HF : forall f l s, f <> PUnreachable -> F f l s).
Local Notation WP := (wp pid quietly F).

Lemma wpl_tame {A} (P : fs -> Prop) (p : prog A) l s :
  (forall s s' es, tame_step lfs s s' pid es -> P s -> P s') -> all_ev (tame lfs) p -> nf p -> sane s -> P s ->
  WP p (fun _ _ s' => sane s' /\ P s') l s.
Proof using Hlfs HF.
  intros HP. revert l s. induction p as [a|f|e k IH]; intros l s Hp Hf Hs HPs; [done|by apply HF|].
  destruct Hp as [He Hk]. apply wp_vis. intros o _.
  destruct (tame_ev lfs (lfs_st lfs Hlfs) pid e o l s He Hs) as [es Ht]. pose proof (handle_resp_ok pid e o l s) as Hr.
  destruct (handle_ev pid e o l s) as [[r l'] s2]. simpl in Ht, Hr.
  apply IH; [by apply Hk|apply Hf|apply Ht|by apply (HP s s2 es)].
Qed.
Lemma wpl_calm {A} (p : prog A) (Q : A -> local -> fs -> Prop) l s :
  all_ev calm p -> nf p -> (forall a l' s', same s s' -> Q a l' s') -> WP p Q l s.
Proof using HF.
  intros Hp Hf. revert l s Q. induction p as [a|f|e k IH]; intros l s Q HQ; [by apply HQ|by apply HF|].
  destruct Hp as [He Hk]. apply wp_vis. intros o _.
  destruct (calm_same pid e o l s He) as [_ Hsame]. pose proof (handle_resp_ok pid e o l s) as Hr.
  destruct (handle_ev pid e o l s) as [[r l'] s2]. simpl in Hsame, Hr.
  apply IH; [by apply Hk|apply Hf|]. intros a l2 s3 Hs3. apply HQ. destruct Hsame, Hs3. split; congruence.
Qed.
End wp.

Section prog.
Context (en : env) (be : backend) (fuel : nat).
Context (Hbe : be_lfs be = lfs) (Hen : en_hash en = H).

Lemma lockf_eq p : push_str (lock_dir be) (hash_for en p) = lockf p.
Proof using Hbe Hen HH.
  assert (HH' : digest (en_hash en)) by (by rewrite Hen).
  clear HH. subst H. destruct be as [lfs' um ts]. simpl in Hbe. subst lfs'.
  unfold hash_for. change (hex_encode (en_hash en (bs "v1:" ++ p))) with (lock_id (en_hash en) p).
  rewrite push_plain; [|by apply lock_id_plain]. unfold lockfile, lock_path. by rewrite <- app_assoc.
Qed.
Lemma lockdir_no_nul : Forall no_nul lockdir.
Proof using Hlfs.
  apply Forall_app. split; [by apply lfs_no_nul|].
  constructor; [|constructor]. unfold no_nul. refine (bool_decide_eq_true_1 _ _). by vm_compute.
Qed.
Lemma lock_id_no_nul p : no_nul (lock_id H p).
Proof using HH. unfold lock_id. apply hex_no_nul. apply (hex_encode_is_oid _ (HH _)). Qed.
Lemma lockf_resolve p s : dirs_to s lockdir -> resolve s (lockf p) = inr (lockf p).
Proof using Hlfs HH.
  intros Hd. unfold lockfile, lock_path. apply resolve_dirs; [apply (lockfile_stays H lfs (lfs_st lfs Hlfs) HH p)| |done].
  apply Forall_app. split; [apply lockdir_no_nul|]. constructor; [apply lock_id_no_nul|done].
Qed.
Lemma tempf_resolve p s : dirs_to s lockdir -> resolve s (tempf p) = inr (tempf p).
Proof using Hlfs HH.
  intros Hd. unfold tempfile, lock_path. apply resolve_dirs; [apply (lk_stays H lfs (lfs_st lfs Hlfs) HH p)| |done].
  apply Forall_app. split; [apply lockdir_no_nul|]. constructor; [|done]. unfold no_nul. rewrite elem_of_app. intros [Hx|Hx].
  + by apply lock_id_no_nul in Hx.
  + revert Hx. refine (bool_decide_eq_true_1 _ _). by vm_compute.
Qed.
Lemma tempf_dirs p s q : resolve s (tempf p) = inr q -> q = tempf p /\ dirs_to s lockdir.
Proof using Hlfs HH.
  pose proof (lk_stays H lfs (lfs_st lfs Hlfs) HH p (bs ".lock")) as Hst. intros E. split.
  - by apply resolve_stays in E.
  - unfold tempfile, lock_path in *. by eapply resolve_dirs_to.
Qed.
Lemma resolve_kind s p e : resolve s p = inl e -> io_kind_of e <> KAlreadyExists.
Proof using Type.
  unfold resolve. destruct (has_nul p); [by intros [= <-]|]. generalize (@nil name). induction p as [|c cs IH]; intros cur; simpl; [done|].
  destruct (node_at s cur) as [[|]|]; [|by intros [= <-]..]. repeat case_decide; eauto.
Qed.
Lemma dirs_nodes s s' : (forall q, q <> [] -> nodes s !! q = Some NDir -> nodes s' !! q = Some NDir) ->
  dirs_to s lockdir -> dirs_to s' lockdir.
Proof using Type. intros Hn Hd a b E. specialize (Hd a b E). destruct a as [|x a]; [done|]. by apply Hn. Qed.

Lemma wpl_drop p F (Q : unit -> local -> fs -> Prop) l s i : dirs_to s lockdir -> nodes s !! tempf p = Some (NFile i) ->
  Q tt l (log pid (OUnlink (tempf p)) (set_nodes (delete (tempf p)) s)) ->
  wp pid quietly F (lockfile_drop (tempf p)) Q l s.
Proof using Hlfs HH.
  intros Hd Hn HQ. unfold lockfile_drop. apply wp_bind, wp_call. intros o Ho. simpl.
  unfold faulty, with_l. rewrite Ho. unfold fs_unlink, file_at. rewrite tempf_resolve by done.
  assert (Hna : node_at s (tempf p) = Some (NFile i)) by (unfold tempfile, lock_path in *; by rewrite node_at_app).
  rewrite Hna. by apply wp_ret.
Qed.
Lemma wpl_drop_any p F (Q : unit -> local -> fs -> Prop) l s :
  (forall s', inodes s' = inodes s ->
    (nodes s' = nodes s /\ (dirs_to s lockdir -> forall i, nodes s !! tempf p <> Some (NFile i)) \/
     nodes s' = delete (tempf p) (nodes s) /\ exists i, nodes s !! tempf p = Some (NFile i)) -> Q tt l s') ->
  wp pid quietly F (lockfile_drop (tempf p)) Q l s.
Proof using Hlfs HH.
  intros HQ. unfold lockfile_drop. apply wp_bind, wp_call. intros o Ho. simpl.
  unfold faulty, with_l. rewrite Ho. unfold fs_unlink. destruct (file_at s (tempf p)) as [e|[q i]] eqn:E; apply wp_ret, HQ; try done.
  - left. split; [done|]. intros Hd i Hn. unfold file_at in E. rewrite tempf_resolve in E by done.
    unfold tempfile, lock_path in *. by rewrite node_at_app, Hn in E.
  - apply file_at_stays in E as [-> Ei]; [|apply (lk_stays H lfs (lfs_st lfs Hlfs) HH p)]. right. split; [done|by exists i].
Qed.

Definition conflict (p : bytes) (s s' : fs) : Prop :=
  dirs_to s' lockdir /\ (nodes s' !! lockf p = None -> stale s s').

Lemma lockf_ne p q : tempf q <> lockf p.
Proof using HH. intros E. symmetry in E. by apply lockf_tempf in E. Qed.

Lemma wpl_lock_create p (F : failure -> local -> fs -> Prop) l s : sane s -> (forall f l s, f <> PUnreachable -> F f l s) ->
  wp pid quietly F (lock_create en be p)
    (fun r _ s' => (sane s' /\ no_new s s') /\
       match r with Ok _ => True | Er e => e_kind e = Conflict -> conflict p s s' end) l s.
Proof using Hlfs HH Hbe Hen.
  intros Hs HF. unfold lock_create. apply wp_bind.
  apply (wpl_calm _ HF); [apply cv_timestamp; done|apply nu_timestamp|]. intros t l1 s1 [En Ei].
  assert (Hs1 : sane s1). { intros q j. rewrite En, Ei. apply Hs. }
  rewrite (lock_temp_eq H lfs en be Hbe Hen), (lock_file_eq H lfs en be Hbe Hen). apply wp_bind.
  set (Post := fun (r : res lock) (_ : local) s' => (sane s' /\ no_new s s') /\
       match r with Ok _ => True | Er e => e_kind e = Conflict -> conflict p s s' end).
  (* the drop of the lock file object when the file was not made *)
  assert (Hdrop0 : forall e l2, (e_kind e = Conflict -> dirs_to s1 lockdir /\ nodes s1 !! tempf p <> None) ->
    wp pid quietly F (let! _ := lockfile_drop (tempf p) in Ret (@Er lock e)) Post l2 s1).
  { intros e l2 Hc. apply wp_bind, wpl_drop_any. intros s2 Hi2 H2. apply wp_ret. split; [split|].
    - intros q j. rewrite Hi2. destruct H2 as [[-> _]|[-> _]]; [apply Hs1|]. rewrite lookup_delete_Some. intros [_ Hj]. by apply (Hs1 q j).
    - intros q. destruct H2 as [[-> _]|[-> _]]; rewrite En; [done|]. intros Hq. destruct (decide (tempf p = tempf q)) as [E|Hne];
        [by rewrite E, lookup_delete in Hq|]. by rewrite lookup_delete_ne.
    - intros [Hd Ht]%Hc. destruct H2 as [[E2 Hno]|[E2 [i Hi]]].
      + split; [by apply (dirs_nodes s1); [rewrite E2|]|]. rewrite E2, En. intros Hl. exists p. split; [done|]. right.
        specialize (Hno Hd). rewrite <- En. destruct (nodes s1 !! tempf p) as [[|i]|]; [done|by destruct (Hno i)|done].
      + split.
        * apply (dirs_nodes s1); [|done]. intros q _ Hq. rewrite E2, lookup_delete_ne; [done|]. intros <-. congruence.
        * rewrite E2, lookup_delete_ne by apply lockf_ne. rewrite En in *. intros Hl. exists p. split; [done|]. left. by exists i. }
  assert (Hfail : forall e l2, (io_kind_of e = KAlreadyExists -> dirs_to s1 lockdir /\ nodes s1 !! tempf p <> None) ->
    wp pid quietly F (if decide (io_kind_of e = KAlreadyExists) then Ret (@Er unit (err_simple Conflict)) else Ret (Er (err_of_io e)))
    (fun a => wp pid quietly F match a with Ok _ => let? _ := lockfile_persist (tempf p) (lockf p) in
        let! user := user_for_file en (lockf p) in let! t' := timestamp be in Ret (Ok (Lock p t' user))
      | Er e => let! _ := lockfile_drop (tempf p) in Ret (Er e) end Post) l2 s1).
  { intros e l2 Hc. case_decide as Hk; apply wp_ret, Hdrop0; [|done]. intros _. by apply Hc. }
  unfold lockfile_write. apply wp_bind, wp_call. intros o Ho. simpl. unfold faulty, with_l. rewrite Ho.
  unfold fs_create_new. destruct (resolve s1 (tempf p)) as [e|q] eqn:E.
  { apply (Hfail e). by intros Hk%(resolve_kind s1 (tempf p)). }
  apply tempf_dirs in E as [-> Hd].
  assert (Hna : node_at s1 (tempf p) = nodes s1 !! tempf p) by apply node_at_app. rewrite Hna.
  destruct (nodes s1 !! tempf p) as [n|] eqn:Et; [apply (Hfail EEXIST); done|]. clear Hfail Hdrop0. simpl.
  set (fd := length (inodes s1)). set (x := Inode [] (l_uid l1) (N.ldiff 438 (l_umask l1)) pid false).
  set (s2 := FS (<[tempf p:=NFile fd]> (nodes s1)) (inodes s1 ++ [x]) (hist s1)). change (set_nodes _ _) with s2.
  apply wp_io_call, wp_call. intros o1 Ho1. simpl. rewrite Ho1. unfold with_l, fs_write, inode_at.
  assert (Hx : inodes s2 !! fd = Some x) by (by apply list_lookup_middle). rewrite Hx.
  set (s3 := upd_inode fd (append_data (lock_record t p)) s2).
  assert (Hd3 : dirs_to s3 lockdir).
  { apply (dirs_nodes s1); [|done]. intros q _ Hq. simpl. rewrite lookup_insert_ne; [done|]. intros <-. congruence. }
  assert (Ht3 : nodes s3 !! tempf p = Some (NFile fd)) by (simpl; by rewrite lookup_insert).
  assert (Hn3 : delete (tempf p) (nodes s3) = nodes s).
  { simpl. rewrite delete_insert by done. done. }
  assert (Hl3 : length (inodes s3) = S (length (inodes s1))).
  { simpl. rewrite alter_length, app_length. simpl. lia. }
  apply wp_bindR. unfold lockfile_persist. apply wp_bind, wp_call. intros o2 Ho2. simpl. unfold faulty, with_l. rewrite Ho2.
  unfold fs_link, file_at. rewrite tempf_resolve by done.
  assert (Hna3 : node_at s3 (tempf p) = Some (NFile fd)) by (by rewrite <- Ht3; apply node_at_app). rewrite Hna3.
  rewrite lockf_resolve by done. assert (Hl : node_at s3 (lockf p) = nodes s3 !! lockf p) by apply node_at_app.
  rewrite Hl. assert (El : nodes s3 !! lockf p = nodes s1 !! lockf p) by (simpl; apply lookup_insert_ne, lockf_ne).
  rewrite El. destruct (nodes s1 !! lockf p) as [n|] eqn:Elock.
  - apply wp_bind, (wpl_drop p F _ _ _ fd Hd3 Ht3). apply wp_ret; simpl. split; [split|].
    + intros q j. cbn [set_nodes log nodes inodes]. rewrite Hn3, Hl3, <- En. intros Hj%Hs1. lia.
    + intros q. cbn [set_nodes log nodes]. by rewrite Hn3.
    + intros _. split.
      * apply (dirs_nodes s1); [|done]. intros q _. cbn [set_nodes log nodes]. by rewrite Hn3, En.
      * cbn [set_nodes log nodes]. rewrite Hn3, <- En, Elock. done.
  - set (s4 := log pid (OLink (lockf p)) (set_nodes <[lockf p:=NFile fd]> s3)).
    assert (Hd4 : dirs_to s4 lockdir).
    { apply (dirs_nodes s3); [|done]. intros q _ Hq. unfold s4. cbn [set_nodes log nodes]. rewrite lookup_insert_ne; [done|].
      intros <-. congruence. }
    assert (Ht4 : nodes s4 !! tempf p = Some (NFile fd)).
    { unfold s4. cbn [set_nodes log nodes]. by rewrite lookup_insert_ne by (intros Ex; symmetry in Ex; by apply lockf_ne in Ex). }
    apply wp_bind, (wpl_drop p F _ _ _ fd Hd4 Ht4). apply wp_ret.
    apply (wpl_calm _ HF).
    { ev; first [apply cv_user_for_file|apply cv_timestamp]; done. }
    { nfs. }
    intros r l5 s5 [En5 Ei5].
    assert (Hn5 : nodes s5 = <[lockf p:=NFile fd]> (nodes s)).
    { rewrite En5. unfold s4. cbn [set_nodes log nodes]. rewrite delete_insert_ne by (intros Ex; by apply lockf_ne in Ex).
      by rewrite Hn3. }
    assert (Hi5 : length (inodes s5) = S (length (inodes s1))) by (rewrite Ei5; apply Hl3).
    split; [split|].
    + intros q j. rewrite Hn5, Hi5, lookup_insert_Some. intros [[_ [= <-]]|[_ Hj]]; [unfold fd; lia|].
      rewrite <- En in Hj. apply Hs1 in Hj. lia.
    + intros q _. by rewrite Hn5, lookup_insert_ne by (intros Ex; symmetry in Ex; by apply lockf_ne in Ex).
    + destruct r as [?|e]; [done|]. intros Hk. split.
      * apply (dirs_nodes s4); [|done]. intros q _ Hq. rewrite En5. cbn [set_nodes log nodes]. rewrite lookup_delete_ne; [done|].
        intros <-. congruence.
      * rewrite Hn5, lookup_insert. done.
Qed.

(** The lock command ends in [unreachable!] only because of a leftover file. *)
Lemma wpl_from_path p (F : failure -> local -> fs -> Prop) (Q : res (option lock) -> local -> fs -> Prop) l s :
  dirs_to s lockdir -> (forall r l' s', same s s' -> (r = Ok None -> nodes s !! lockf p = None) -> Q r l' s') ->
  (forall f l s, f <> PUnreachable -> F f l s) -> wp pid quietly F (lock_from_path en be p) Q l s.
Proof using Hlfs HH Hbe Hen.
  intros Hd HQ HF. unfold lock_from_path. apply wp_bind. unfold lock_from_id. rewrite lockf_eq. apply wp_bind, wp_call.
  intros o Ho. simpl. unfold faulty. rewrite Ho. unfold fs_open. rewrite lockf_resolve by done.
  assert (Hl : node_at s (lockf p) = nodes s !! lockf p) by apply node_at_app. rewrite Hl.
  assert (Hsome : forall h l', wp pid quietly F (let? v := io_call (call (EReadAll h)) in
      let! user := user_for_file en (lockf p) in
      match lock_parse v with
      | Some (t, p) => Ret (Ok (Some (Lock p t user)))
      | None => Ret (Er (err_msg CorruptData (bs "invalid parsed lock")))
      end) (fun a => wp pid quietly F match a with
      | Ok (Some l) => if decide (lk_path l <> p) then Ret (Er (err_msg CorruptData (bs "unexpected filename in parsed lock")))
                       else Ret (Ok (Some l))
      | Ok None => Ret (Ok None) | Er e => Ret (Er e) end Q) l' s).
  { intros h l'. apply wp_bindR, wp_io_call, wp_call. intros o1 Ho1. simpl. unfold faulty. rewrite Ho1.
    destruct (fs_read_all h s) as [v|e].
    - apply wp_bind, (wpl_calm _ HF); [apply cv_user_for_file; done|apply nu_user_for_file|]. intros u l2 s2 Hs2.
      destruct (lock_parse v) as [[t q]|]; apply wp_ret; [|by apply wp_ret, HQ]. case_decide; by apply wp_ret, HQ.
    - apply wp_ret, HQ; [done|]. done. }
  destruct (nodes s !! lockf p) as [[|j]|] eqn:El; [apply (Hsome HDir)|apply (Hsome (HFile j))|].
  apply wp_ret, wp_ret, HQ; [done|]. done.
Qed.

Lemma wpl_p_lock (F : failure -> local -> fs -> Prop) l s : sane s ->
  (forall f l s', f <> PUnreachable -> F f l s') ->
  (forall f l s', (f = PUnreachable -> stale s s') -> no_new s s' -> F f l s') ->
  wp pid quietly F (p_lock en be fuel) (fun _ _ s' => sane s' /\ no_new s s') l s.
Proof using Hlfs HH Hbe Hen.
  intros Hs HF HF0.
  unfold p_lock. apply wp_bindR, (wpl_calm _ HF); [apply cv_read_wrapped; done|apply nu_read_wrapped|].
  intros a l1 s1 [En Ei]. assert (Hs1 : sane s1) by (intros q j; rewrite En, Ei; apply Hs).
  assert (Hn1 : no_new s s1) by (by apply no_new_nodes).
  assert (Hst : forall s', stale s1 s' -> stale s s') by (intros s'; unfold stale; by rewrite En).
  destruct a as [d|e]; [|done].
  apply wp_bindR, (wpl_calm _ HF); [by apply cv_or_panic|apply nu_or_panic|]. intros a l2 s2 [En2 Ei2].
  assert (Hs2 : sane s2) by (intros q j; rewrite En2, Ei2; apply Hs1).
  assert (Hn2 : no_new s s2) by (by apply (no_new_nodes2 s s1)).
  assert (Hst2 : forall s', stale s2 s' -> stale s s') by (intros s' Hx; apply Hst; revert Hx; unfold stale; by rewrite En2).
  destruct a as [args|e]; [|done]. destruct (args !! bs "path") as [p|]; [|done]. destruct (args !! bs "refname"); [|done].
  apply wp_bind. eapply wp_mono; [|by apply wpl_lock_create]. intros r l3 s3 [[Hs3 Hn3] Hr]. destruct r as [lk|e].
  - apply wp_bind, (wpl_calm _ HF); [apply cv_as_arguments; done|apply nu_as_arguments|]. intros a l4 s4 [En4 Ei4]. apply wp_ret. split.
    + intros q j. rewrite En4, Ei4. apply Hs3.
    + apply (no_new_nodes2 s s3); [done|]. by apply (no_new_trans s s2).
  - case_decide as Hk; [|apply wp_ret; split; [done|]; by apply (no_new_trans s s2)]. destruct (Hr Hk) as [Hd Hc].
    apply wp_bind, (wpl_from_path p F); [done| |done]. intros f l4 s4 [En4 Ei4] Hf.
    assert (Hend : sane s4 /\ no_new s s4).
    { split; [intros q j; rewrite En4, Ei4; apply Hs3|]. apply (no_new_nodes2 s s3); [done|]. by apply (no_new_trans s s2). }
    destruct f as [[lk|]|e']; [| |by apply wp_ret].
    + apply wp_bind, (wpl_calm _ HF); [apply cv_as_arguments; done|apply nu_as_arguments|]. intros a l5 s5 [En5 Ei5]. apply wp_ret. split.
      * intros q j. rewrite En5, Ei5. apply Hend.
      * apply (no_new_nodes2 s s4); [done|]. apply Hend.
    + apply HF0; [|apply Hend]. intros _. apply Hst2. specialize (Hc (Hf eq_refl)). unfold stale in *. by rewrite En4.
Qed.

(** ** A whole session *)
Definition wtame (e : ev) : Prop := match e with EWriteFd _ _ | ENote _ _ => True | _ => tame lfs e end.
Lemma calm_wtame e : calm e -> wtame e.
Proof using Type. destruct e; try done; apply calm_tame. Qed.
Context (s0 : fs).
Definition Live (s : fs) : Prop := sane s /\ no_new s0 s.
(** The file that made the lock command end was there from the start; it is gone now. *)
Definition Cleaned (s : fs) : Prop := no_new s0 s /\
  exists p, nodes s0 !! tempf p <> None /\ (nodes s !! tempf p = None \/ nodes s0 !! tempf p = Some NDir).
Definition F0 (f : failure) (_ : local) (s : fs) : Prop := f = PUnreachable -> Cleaned s.
Local Notation WPL := (wp pid quietly F0).

Lemma wtame_live e o l s : wtame e -> Live s -> Live (handle_ev pid e o l s).2.
Proof using Hlfs.
  intros He [Hs Hn].
  assert (Hw : forall i b s, Live s -> Live (fs_write i b s).2).
  { intros i b s1 [Hs1 Hn1]. unfold fs_write. destruct (inode_at s1 i); [|done]. split; [|done].
    intros q j. simpl. rewrite alter_length. apply Hs1. }
  assert (Ht : tame lfs e -> Live (handle_ev pid e o l s).2).
  { intros Ht. destruct (tame_ev lfs (lfs_st lfs Hlfs) pid e o l s Ht Hs) as [es Hst]. split; [apply Hst|].
    apply (no_new_trans s0 s); [done|]. by apply (no_new_tame _ _ _ _ Hst). }
  destruct e; try (by apply Ht); [|done]. simpl. destruct (o_fault o); [by apply Hw|].
  pose proof (Hw i b s (conj Hs Hn)). unfold with_l. by destruct (fs_write i b s).
Qed.

Lemma wpl_live {A} (p : prog A) (Q : A -> local -> fs -> Prop) l s : all_ev wtame p -> nf p -> Live s ->
  (forall a l s, Live s -> Q a l s) -> WPL p Q l s.
Proof using Hlfs.
  intros Hp Hf Hs HQ. revert l s Hs. induction p as [a|f|e k IH]; intros l s Hs; [by apply HQ|change (F0 f l s); by intros ->|].
  destruct Hp as [He Hk]. apply wp_vis. intros o _. pose proof (wtame_live e o l s He Hs) as Hs2.
  pose proof (handle_resp_ok pid e o l s) as Hr. destruct (handle_ev pid e o l s) as [[r l'] s2].
  apply IH; [by apply Hk|apply Hf|done].
Qed.

Lemma wpl_put_object o0 rb (Q : _ -> local -> fs -> Prop) l s : Live s -> (forall a l s, Live s -> Q a l s) ->
  WPL (p_put_object en be fuel o0 rb) Q l s.
Proof using Hlfs Hbe.
  intros Hs HQ. unfold p_put_object. destruct (oid_new o0) as [o|e] eqn:Eo; [|by apply wp_ret, HQ].
  apply oid_new_iff in Eo as [-> Ho]. apply wp_bind, wpl_live; [|unfold read_to_delim; nfs|done|].
  { unfold read_to_delim. ev; apply cv_read_to_type; apply calm_wtame. }
  intros [expected|e] l1 s1 Hs1; [|by apply wp_ret, HQ]. apply wp_bind. unfold start_upload. rewrite Hbe. apply wp_bind, wp_call.
  intros orc _. pose proof (wtame_live (EMktemp inc o0) orc l1 s1 eq_refl Hs1) as Hs2.
  pose proof (handle_resp_ok pid (EMktemp inc o0) orc l1 s1) as Hres.
  destruct (handle_ev pid (EMktemp inc o0) orc l1 s1) as [[r l2] s2]. simpl in Hs2, Hres.
  destruct r as [[tmp fd]|e]; [|by apply wp_ret, wp_ret, HQ].
  assert (Htmp : exists n, tmp = inc ++ [n] /\ stays n).
  { destruct Hres as [sfx ->]. exists (o0 ++ sfx). split; [done|]. destruct Ho as [Hl _].
    assert (64 <= length (o0 ++ sfx))%nat by (rewrite app_length; lia).
    split_and!; intros E; rewrite E in H0; by vm_compute in H0; lia. }
  apply wp_bind, wpl_live; [|nfs|done|].
  { generalize (@nil byte) as got. revert rb. induction fuel as [|n IH]; intros rb' got; simpl; ev; try (apply cv_reader_read; apply calm_wtame). }
  intros [r rb'] l3 s3 Hs3. destruct r as [got|e].
  2: { apply wp_bind, wpl_live; [unfold drop_temp; ev|nfs|done|]. intros _ l4 s4 Hs4. by apply wp_ret, wp_ret, HQ. }
  apply wp_ret. apply wpl_live; [|nfs|done|done]. unfold drop_temp, finish_upload, fix_permissions. simpl. rewrite Hbe. ev.
  - intros c b. unfold expected_path, lock_path. rewrite removelast_app by done. rewrite <- !app_assoc.
    intros E%app_inv_head. by vm_compute in E.
  - split; [done|]. by exists o0.
Qed.

Lemma wpl_handle_command c m rb (Q : _ -> local -> fs -> Prop) l s : Live s -> (forall a l s, Live s -> Q a l s) ->
  WPL (handle_command en be fuel c m rb) Q l s.
Proof using Hlfs HH Hbe Hen.
  intros Hs HQ.
  assert (Hplain : forall p : prog (res status), all_ev wtame p -> nf p -> WPL (let! r := p in Ret (r, rb)) Q l s).
  { intros p Hp Hf. apply wp_bind, wpl_live; try done. intros a l1 s1 Hs1. by apply wp_ret, HQ. }
  destruct c; cbn [handle_command]; unfold p_upload_batch, p_download_batch;
    try (apply Hplain; [apply cv_error|nfs]).
  - apply Hplain; [apply cv_version, calm_wtame|nfs].
  - apply Hplain; [destruct (is_upload m); apply cv_batch, calm_wtame|nfs].
  - by apply wpl_put_object.
  - apply Hplain; [apply cv_verify_object, calm_wtame|nfs].
  - apply Hplain; [apply cv_get_object, calm_wtame|nfs].
  - apply wp_bind. destruct Hs as [Hs Hn]. eapply wp_mono; [|apply wpl_p_lock; [done|by intros f l1 s1 Hf E|]].
    + intros r l1 s1 [Hs1 Hn1]. apply wp_ret, HQ. split; [done|]. by apply (no_new_trans s0 s).
    + intros f l1 s1 Hst Hn1 E. split; [by apply (no_new_trans s0 s)|].
      destruct (Hst E) as (p & _ & [(j & Hj & E1)|Hd]); exists p; rewrite <- (Hn p) by congruence.
      * rewrite Hj. split; [done|]. left. by rewrite E1, lookup_delete.
      * rewrite Hd. split; [done|]. by right.
  - apply Hplain; [apply cv_list_locks, calm_wtame|nfs].
  - apply Hplain; [|nfs]. unfold p_unlock, lock_unlock, lk_id, read_to_flush.
    ev; first [apply cv_as_arguments | apply cv_read_to_type | apply cv_lock_from_id | apply cv_error]; apply calm_wtame.
Qed.

Lemma wpl_process_commands n m rb (Q : _ -> local -> fs -> Prop) l s : Live s -> (forall a l s, Live s -> Q a l s) ->
  WPL (process_commands en be fuel n m rb) Q l s.
Proof using Hlfs HH Hbe Hen.
  intros Hs HQ. revert rb l s Hs. induction n as [|n IH]; intros rb l s Hs; simpl; [by change (F0 OutOfFuel l s)|].
  apply wp_bind. apply (wp_mono _ _ _ _ (fun _ _ s => Live s)); [intros [rb'|r] l1 s1 Hs1; [by apply IH|by apply wp_ret, HQ]|].
  assert (Hans : forall st l s, Live s -> WPL (answer fuel st) (fun _ _ s => Live s) l s).
  { intros st l' s' Hs'. unfold answer. apply wpl_live; [|nfs|done|done]. ev. apply cv_send_status, calm_wtame. }
  assert (Herr : forall c t l s, Live s -> WPL (answer_error c t) (fun _ _ s => Live s) l s).
  { intros c t l' s' Hs'. unfold answer_error. apply wpl_live; [|nfs|done|done]. ev. apply cv_send_error, calm_wtame. }
  assert (Hgo : forall rb p l s, WPL p (fun _ _ s => Live s) l s -> WPL (and_go_on rb p) (fun _ _ s => Live s) l s).
  { intros rb' p l' s' Hp. unfold and_go_on. apply wp_bind. eapply wp_mono; [|exact Hp]. intros [?|?] l1 s1 Hs1; by apply wp_ret. }
  unfold process_one. apply wp_bind, wpl_live; [apply cv_read_packet; apply calm_wtame|nfs|done|]. intros [p|e] l1 s1 Hs1; [|by apply wp_ret].
  destruct (pkt_data p) as [[|x b]|]; try (by apply Hgo, Herr).
  assert (Hcmd : forall c, WPL (let! (r, rb') := handle_command en be fuel c m rb in
    and_go_on rb' (answer fuel (status_of r))) (fun _ _ s => Live s) l1 s1).
  { intros c. apply wp_bind. apply wpl_handle_command; [done|]. intros [r rb'] l2 s2 Hs2. by apply Hgo, Hans. }
  destruct (dispatch (command_words (x :: b)) m); try (apply Hcmd).
  apply wp_bind. eapply wp_mono; [|by apply Hans]. intros a l2 s2 Hs2. by repeat case_match; apply wp_ret.
Qed.
End prog.

Lemma wpl_server s0 p l s : is_server H lfs p -> Live s0 s ->
  wp pid quietly (F0 s0) p (fun _ _ s' => Live s0 s') l s.
Proof using Hlfs HH.
  intros (en & fuel & cfg & op & Hen & ->) Hs. unfold transfer_main, transfer_main_internal, transfer_run.
  apply wp_bind. apply (wp_mono _ _ _ _ (fun _ _ s => Live s0 s)); [intros [?|?] l1 s1 Hs1; by repeat case_match; apply wp_ret|].
  apply wp_bindR, (wpl_live s0); [by apply cv_set_permissions|nfs|done|].
  intros [um|e] l1 s1 Hs1; [|done].
  apply wp_bindR, (wpl_live s0); [ |nfs|done|].
  { unfold create_directories. induction dir_names as [|d ds IH]; simpl; ev.
    intros c b. unfold lock_path. rewrite <- !app_assoc. intros E%app_inv_head. done. }
  intros [u|e] l2 s2 Hs2; [|done].
  apply wp_bindR, (wpl_live s0); [apply cv_send_capabilities; apply calm_wtame|nfs|done|].
  intros [u'|e] l3 s3 Hs3; [|done].
  destruct (mode_of op); [|done]. by apply wpl_process_commands.
Qed.
End live.
