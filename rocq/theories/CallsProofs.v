(** Proofs for Props_Calls.v: the watcher remembers all calls. *)
From Verif Require Import Bytes ByteFacts Err FS Prog Pktline Args Local Processor Transfer Wp Rg ServerEv
  PktFacts ReaderFacts Spec PktProofs TextProofs SpecStore SpecServer SpecEnd ObjProofs StoreProofs IoFacts SeqIo SeqCmd Session Total Mon
  SpecTalk TalkProofs SpecLockDir LockDirProofs SpecCalls.

Section calls.
Context (en : env) (lfs : path) (umask : N).
Local Notation be := (Backend lfs umask None).
Definition cl_ans (w : list done_call) (e : ev) (r : resp e) : Prop := resp_ok e r.
Definition cl_next (w : list done_call) (e : ev) (r : resp e) : list done_call := w ++ [existT e r].
Notation watch := (mon (justified en lfs) cl_ans cl_next).

(** Lists of calls of one kind. *)
Definition only (E : ev -> Prop) (tr : list done_call) : Prop := Forall (fun d => E (projT1 d)) tr.
Lemma watch_only {A} (E : ev -> Prop) (p : prog A) (Q : list done_call -> A -> Prop) w :
  all_ev E p -> (forall ext e, only E ext -> E e -> justified en lfs (w ++ ext) e) ->
  (forall ext a, only E ext -> Q (w ++ ext) a) -> watch w p Q.
Proof using Type.
  intros Hp Hj HQ.
  cut (forall ext, only E ext -> watch (w ++ ext) p Q). { intros G. specialize (G [] (List.Forall_nil _)). by rewrite app_nil_r in G. }
  revert Hp. induction p as [a|f|e k IH]; intros Hp ext Hx; [by apply HQ|done|]. destruct Hp as [He Hk].
  apply mon_vis; [by apply Hj|]. intros r Hr. unfold cl_next. rewrite <- app_assoc. apply IH; [by apply Hk|].
  apply Forall_app. split; [done|]. by apply Forall_singleton.
Qed.

Lemma tidied_nil : tidied [].
Proof using Type. intros tr1 d tr2 p E. by destruct tr1. Qed.
(** What comes after. *)
Lemma tidied_app w w' : tidied w -> tidied w' -> tidied (w ++ w').
Proof using Type.
  intros H1 H2 tr1 d tr2 p E Ho. apply app_eq_inv in E as [(k & -> & E)|(k & -> & ->)].
  - destruct k as [|d' k]; cbn [app] in E.
    + by apply (H2 [] d tr2 p).
    + injection E as <- ->. destruct (H1 tr1 d k p eq_refl Ho) as (y & Hy & Hc). exists y. split; [|done]. by apply elem_of_app; left.
  - by apply (H2 k d tr2 p).
Qed.
Definition shut (e : ev) : Prop := match e with EMktemp _ _ | ECreate _ => False | _ => True end.
Lemma tidied_only w : only shut w -> tidied w.
Proof using Type.
  intros Hw tr1 d tr2 p -> Ho. apply Forall_app in Hw as [_ Hw]. apply Forall_cons in Hw as [Hd _].
  by destruct Ho.
Qed.
Lemma quiet_shut e : quiet e -> shut e. Proof using Type. by destruct e. Qed.
Lemma only_mono (E E' : ev -> Prop) w : (forall e, E e -> E' e) -> only E w -> only E' w.
Proof using Type. intros HE H. unfold only in *. rewrite Forall_forall in H. rewrite Forall_forall. intros d Hd. by apply HE, H. Qed.
Lemma quiet_justified w e : tidied w -> quiet e -> justified en lfs w e.
Proof using Type. intros Hw. destruct e; intros He; try done; by constructor. Qed.
Lemma tidied_quiet w w' : tidied w -> only quiet w' -> tidied (w ++ w').
Proof using Type. intros Hw Hq. apply tidied_app; [done|]. apply tidied_only. by eapply only_mono; [apply quiet_shut|]. Qed.
Lemma watch_quiet {A} (p : prog A) (Q : list done_call -> A -> Prop) w :
  all_ev quiet p -> tidied w -> (forall w' a, tidied w' -> Q w' a) -> watch w p Q.
Proof using Type.
  intros Hp Hw HQ. apply (watch_only quiet); [done| |].
  - intros ext e Hx He. apply quiet_justified; [|done]. by apply tidied_quiet.
  - intros ext a Hx. apply HQ. by apply tidied_quiet.
Qed.
(** A file opened and closed. *)
Definition opened (d : done_call) : option path :=
  match d with
  | existT (EMktemp _ _) (IOk (p, _)) => Some p
  | existT (ECreate p) _ => Some p
  | _ => None
  end.
Definition closed (d : done_call) : option path :=
  match d with
  | existT (EUnlink p) _ => Some p
  | existT (ERename p _) (IOk _) => Some p
  | _ => None
  end.
Lemma closes_fun d p : closes d p -> closed d = Some p. Proof using Type. by destruct 1. Qed.
Lemma opens_fun1 d p : opens d p -> opened d = Some p. Proof using Type. by destruct 1. Qed.
Lemma opens_fun d p p' : opens d p -> opens d p' -> p = p'.
Proof using Type.
  intros H1%opens_fun1 H2%opens_fun1. rewrite H1 in H2. by injection H2.
Qed.
Lemma tidied_closed w d mid p y : tidied w -> opens d p -> only shut mid -> closes y p -> tidied (w ++ d :: mid ++ [y]).
Proof using Type.
  intros Hw Hd Hm Hy. apply tidied_app; [done|]. intros tr1 d' tr2 p' E Ho.
  destruct tr1 as [|d1 tr1].
  - injection E as <- <-. exists y. split; [apply elem_of_app; right; by left|].
    by rewrite (opens_fun _ _ _ Ho Hd).
  - injection E as -> E. apply (tidied_only (mid ++ [y]) ltac:(apply Forall_app; split; [exact Hm|apply Forall_singleton; by destruct Hy]) tr1 d' tr2 p' E Ho).
Qed.
Lemma pending_of w d mid p : opens d p -> (forall y, y ∈ mid -> ~ closes y p) -> pending (w ++ d :: mid) p.
Proof using Type. intros Hd Hm. by exists w, d, mid. Qed.

(** ** Uploads *)
Definition is_read (e : ev) : Prop := match e with ERead _ => True | _ => False end.
Lemma read_is n : is_read (ERead n). Proof using Type. done. Qed.
Lemma written_reads fd mid c ext : written fd mid c -> only is_read ext -> written fd (mid ++ ext) c.
Proof using Type.
  intros Hm. induction ext as [|[e r] ext IH] using rev_ind; [by rewrite app_nil_r|]. intros Hx.
  apply Forall_app in Hx as [Hx He]. rewrite Forall_singleton in He. rewrite app_assoc. cbn in He. destruct e; try (by destruct He). apply w_read. exact (IH Hx).
Qed.
Lemma written_shut fd mid c : written fd mid c -> only shut mid.
Proof using Type. induction 1; [by constructor|..]; (apply Forall_app; split; [done|]; by apply Forall_singleton). Qed.
Lemma written_open fd mid c y p : written fd mid c -> y ∈ mid -> ~ closes y p.
Proof using Type.
  induction 1; intros Hy Hc; [by apply elem_of_nil in Hy| |]; (apply elem_of_app in Hy as [Hy|Hy]; [by apply IHwritten|]);
    apply elem_of_list_singleton in Hy as ->; by inversion Hc.
Qed.

Definition mk o tmp fd : done_call := existT (EMktemp (lfs ++ [bs "incomplete"]) o) (IOk (tmp, fd)).
(** An upload under way. *)
Definition going w o tmp fd c w' : Prop := exists mid, w' = w ++ mk o tmp fd :: mid /\ written fd mid c.
(** It may have failed. *)
Definition begun w o tmp (fd : nat) w' : Prop := exists mid, w' = w ++ mk o tmp fd :: mid /\ only shut mid /\ forall y, y ∈ mid -> ~ closes y tmp.
Lemma going_begun w o tmp fd c w' : going w o tmp fd c w' -> begun w o tmp fd w'.
Proof using Type. intros (mid & -> & Hm). exists mid. split_and!; [done|by eapply written_shut|]. intros y. by eapply written_open. Qed.
Lemma begun_snoc w o tmp fd w' d : begun w o tmp fd w' -> shut (projT1 d) -> ~ closes d tmp -> begun w o tmp fd (w' ++ [d]).
Proof using Type.
  intros (mid & -> & Hm & Hy) Hd Hn. exists (mid ++ [d]). split_and!; [by rewrite <- app_assoc|apply Forall_app; split; [done|by apply Forall_singleton]|].
  intros y [Hy'|Hy']%elem_of_app; [auto|]. by apply elem_of_list_singleton in Hy' as ->.
Qed.
Lemma begun_closed w o tmp fd w' y : tidied w -> begun w o tmp fd w' -> closes y tmp -> tidied (w' ++ [y]).
Proof using Type.
  intros Hw (mid & -> & Hm & _) Hy. rewrite <- app_assoc. cbn [app]. apply (tidied_closed w _ mid tmp); [done|constructor|done|done].
Qed.
Lemma begun_pending w o tmp fd w' : begun w o tmp fd w' -> pending w' tmp.
Proof using Type. intros (mid & -> & Hm & Hy). apply pending_of; [constructor|done]. Qed.

Lemma cl_copy w o tmp fd (Q : list done_call -> res bytes * rbuf -> Prop) :
  (forall w' c rb, going w o tmp fd c w' -> Q w' (Ok c, rb)) -> (forall w' e rb, begun w o tmp fd w' -> Q w' (Er e, rb)) ->
  forall f c rb w', going w o tmp fd c w' -> watch w' (copy_to_file f fd c rb) Q.
Proof using Type.
  intros HS HE f. induction f as [|f IH]; intros c rb w' Hg; cbn [copy_to_file]; [done|].
  apply mon_bind, (watch_only is_read).
  - apply rd_reader_read. done.
  - intros ext e _ He. apply j_other. by destruct e.
  - intros ext [r rb'] Hx. destruct Hg as (mid & -> & Hm). rewrite <- app_assoc. cbn [app].
    pose proof (written_reads _ _ _ _ Hm Hx) as Hm'. destruct r as [[|b d]|e].
    + apply mon_ret, HS. by eexists.
    + apply mon_bind, mon_call; [by eapply j_data|]. intros [[]|e] _; unfold cl_next; rewrite <- app_assoc; cbn [app].
      * apply IH. exists ((mid ++ ext) ++ [existT (EWriteFd fd (b :: d)) (IOk tt)]). split; [done|]. by apply w_write.
      * apply mon_ret, HE. exists ((mid ++ ext) ++ [existT (EWriteFd fd (b :: d)) (IErr e)]). split_and!; [done|..].
        -- apply Forall_app. split; [by eapply written_shut|by apply Forall_singleton].
        -- intros y [Hy|Hy]%elem_of_app; [by eapply written_open|]. apply elem_of_list_singleton in Hy as ->. by inversion 1.
    + apply mon_ret, HE, (going_begun w o tmp fd c). by eexists.
Qed.
Lemma cl_drop {A} w o tmp fd w' (p : prog A) (Q : list done_call -> A -> Prop) : tidied w -> begun w o tmp fd w' ->
  (forall w', tidied w' -> watch w' p Q) -> watch w' (let! _ := drop_temp tmp in p) Q.
Proof using Type.
  intros Hw Hb HQ. unfold drop_temp. apply mon_bind, mon_bind, mon_call.
  { apply j_remove. by eapply begun_pending. }
  intros r _. apply mon_ret, HQ. eapply begun_closed; [done..|]. constructor.
Qed.

Definition tidy_end {A} (w : list done_call) (_ : A) : Prop := tidied w.
Lemma cl_finish w o tmp fd c w' : tidied w -> going w o tmp fd c w' -> is_oid o -> hex_of (en_hash en c) o ->
  watch w' (finish_upload be (UploadState o tmp)) tidy_end.
Proof using Type.
  intros Hw Hg Ho Hh. pose proof (going_begun _ _ _ _ _ _ Hg) as Hb. unfold finish_upload. cbn [us_oid us_temp be_lfs].
  assert (Hrec : received lfs w' o tmp c). { destruct Hg as (mid & -> & Hm). by exists w, fd, mid. }
  assert (Ep : removelast (expected_path lfs o) = fan_out lfs o).
  { rewrite <- object_path_eq. unfold object_path, fan_out.
    change [bs "objects"; take 2 o; take 2 (drop 2 o); o] with ([bs "objects"; take 2 o; take 2 (drop 2 o)] ++ [o]).
    rewrite app_assoc. apply removelast_last. }
  rewrite Ep. apply mon_bind, mon_call; [by eapply j_fan|]. intros [[]|e] _; unfold cl_next.
  2: { eapply (cl_drop w); [done| |intros; by apply mon_ret]. apply begun_snoc; [done|done|]. by inversion 1. }
  rewrite <- object_path_eq. apply mon_bind, mon_call; [by eapply j_place|].
  assert (Hb' : begun w o tmp fd (w' ++ [existT (EMkdir (fan_out lfs o)) (IOk tt)])).
  { apply begun_snoc; [done|done|]. by inversion 1. }
  intros [[]|e] _; unfold cl_next.
  - unfold fix_permissions. apply mon_bindR, mon_io_call, mon_call; [by apply j_other|].
    assert (Ht : tidied ((w' ++ [existT (EMkdir (fan_out lfs o)) (IOk tt)]) ++ [existT (ERename tmp (object_path lfs o)) (IOk tt)])).
    { eapply begun_closed; [done..|]. constructor. }
    intros [n|e] _; unfold cl_next; cbn [res_of_io].
    + apply mon_io_call, mon_call.
      { rewrite <- app_assoc. cbn [app]. by eapply j_mode. }
      intros r _. unfold cl_next. apply tidied_app; [apply tidied_quiet; [exact Ht|by apply Forall_singleton]|].
      apply tidied_only. by apply Forall_singleton.
    + apply tidied_quiet; [exact Ht|by apply Forall_singleton].
  - eapply (cl_drop w); [done| |intros; by apply mon_ret]. apply begun_snoc; [done|done|]. by intros ?%closes_fun.
Qed.

Lemma cl_put fuel o rb w : tidied w -> watch w (p_put_object en be fuel o rb) tidy_end.
Proof using Type.
  intros Hw. unfold p_put_object. destruct (oid_new o) as [o'|e] eqn:Eo; [|by apply mon_ret]. apply oid_new_iff in Eo as [-> Ho].
  apply mon_bind, watch_quiet; [|done|].
  { unfold read_to_delim. apply all_ev_bindR; [by apply ev_read_to_type|]. intros lines. apply all_ev_bindR; [apply ev_or_panic|]. done. }
  clear w Hw. intros w [n|e] Hw; [|by apply mon_ret].
  apply mon_bind. unfold start_upload. cbn [be_lfs]. apply mon_bind, mon_call; [by apply j_temp|].
  intros [[tmp fd]|e] _; unfold cl_next.
  2: { apply mon_ret, mon_ret. apply tidied_app; [done|]. intros tr1 d tr2 p E Hd. destruct tr1 as [|? tr1]; [|by destruct tr1]. injection E as <- <-. by apply opens_fun1 in Hd. }
  apply mon_bind. apply (cl_copy w o tmp fd).
  - intros w' c rb' Hg. apply mon_ret. cbv zeta. cbn [us_temp]. pose proof (going_begun _ _ _ _ _ _ Hg) as Hb.
    assert (Hfail : forall e, watch w' (let! _ := drop_temp tmp in Ret (@Er status e, rb')) tidy_end).
    { intros e. eapply (cl_drop w); [done|exact Hb|]. intros; by apply mon_ret. }
    destruct (lenN c <? n)%N; [apply Hfail|]. destruct (n <? lenN c)%N; [apply Hfail|].
    destruct (oid_new (hex_encode (en_hash en c))) as [ao|e] eqn:Ea; [|apply Hfail].
    apply oid_new_iff in Ea as [-> Ha]. case_decide as Hd; [apply Hfail|].
    apply mon_bind. eapply mon_mono; [|eapply (cl_finish w); [done..|]]; [|by apply hex_of_iff].
    intros w'' r Ht. by apply mon_ret.
  - intros w' e rb' Hb. eapply (cl_drop w); [done..|]. intros w'' Ht. by apply mon_ret, mon_ret.
  - exists []. split; [done|]. constructor.
Qed.

(** ** Locks *)
Lemma draft_eq q : lock_temp be (hash_for en q) = draft_path en lfs q.
Proof using Type. unfold lock_temp, lock_dir, draft_path. cbn [be_lfs]. by rewrite <- app_assoc. Qed.
Lemma lock_eq q : lock_file be (hash_for en q) = lock_path en lfs q.
Proof using Type. unfold lock_file, lock_dir, lock_path. cbn [be_lfs]. by rewrite <- app_assoc. Qed.

Lemma cl_create q w : tidied w -> watch w (lock_create en be q) tidy_end.
Proof using Type.
  intros Hw. unfold lock_create. cbn [timestamp be_ts]. unfold timestamp. cbn [be_ts]. rewrite draft_eq, lock_eq.
  apply mon_bind, mon_call; [by apply j_other|]. intros t _. unfold cl_next.
  assert (Hw1 : tidied (w ++ [existT EClock t])) by (apply tidied_quiet; [done|by apply Forall_singleton]).
  set (w1 := w ++ [existT EClock t]) in *.
  assert (Hdrop : forall A mid d (p : prog A), opens d (draft_path en lfs q) -> only shut mid -> (forall y, y ∈ mid -> ~ closes y (draft_path en lfs q)) ->
    (forall w', tidied w' -> watch w' p tidy_end) ->
    watch (w1 ++ d :: mid) (let! _ := lockfile_drop (draft_path en lfs q) in p) tidy_end).
  { intros A mid d p Hd Hm Hn Hp. unfold lockfile_drop. apply mon_bind, mon_bind, mon_call; [apply j_remove; by apply pending_of|].
    intros r _. apply mon_ret, Hp. unfold cl_next. rewrite <- app_assoc. cbn [app]. eapply tidied_closed; [done|done|done|constructor]. }
  unfold lockfile_write. apply mon_bind, mon_bind, mon_call; [by eapply j_draft|].
  intros [fd|e] _; unfold cl_next.
  2: { assert (G : forall e', watch (w1 ++ [existT (ECreate (draft_path en lfs q)) (IErr e)])
         (let! _ := lockfile_drop (draft_path en lfs q) in Ret (@Er lock e')) tidy_end).
       { intros e'. apply Hdrop; [constructor|by constructor|by intros ? ?%elem_of_nil|]. intros; by apply mon_ret. }
       case_decide; apply mon_ret; apply G. }
  apply mon_io_call, mon_call.
  { unfold w1. rewrite <- app_assoc. by eapply j_record. }
  intros [[]|e] _; unfold cl_next; rewrite <- app_assoc; cbn [app res_of_io].
  2: { apply Hdrop; [constructor|by apply Forall_singleton| |by intros; apply mon_ret].
       intros y ->%elem_of_list_singleton. by inversion 1. }
  apply mon_bindR. unfold lockfile_persist. apply mon_bind, mon_call.
  { unfold w1. rewrite <- app_assoc. by eapply j_link. }
  intros r _. unfold cl_next. rewrite <- app_assoc. cbn [app].
  assert (G : forall (p : prog (res unit)) (Q : list done_call -> res unit -> Prop), (forall w', tidied w' -> watch w' p Q) ->
    watch (w1 ++ existT (ECreate (draft_path en lfs q)) (IOk fd) :: [existT (EWriteFd fd (lock_record t q)) (IOk tt);
        existT (ELink (draft_path en lfs q) (lock_path en lfs q)) r])
      (let! _ := lockfile_drop (draft_path en lfs q) in p) Q).
  { intros p Q Hp. unfold lockfile_drop. apply mon_bind, mon_bind, mon_call.
    { apply j_remove. apply pending_of; [constructor|]. intros y [->|[->|Hy%elem_of_nil]%elem_of_cons]%elem_of_cons; by inversion 1. }
    intros x _. apply mon_ret, Hp. unfold cl_next. rewrite <- app_assoc.
    apply (tidied_closed w1 _ [existT (EWriteFd fd (lock_record t q)) (IOk tt); existT (ELink (draft_path en lfs q) (lock_path en lfs q)) r] (draft_path en lfs q));
      [done|constructor| |constructor]. by repeat constructor. }
  apply G. intros w' Hw'.
  assert (Hend : watch w' (let! user := user_for_file en (lock_path en lfs q) in let! t' := call EClock in Ret (Ok (Lock q t' user))) tidy_end).
  { apply watch_quiet; [|done|done]. apply all_ev_bind; [by apply ev_user_for_file|]. intros u. by apply all_ev_bind; [apply all_ev_call|]. }
  destruct r as [[]|e]; [apply mon_ret; exact Hend|]. case_decide; by apply mon_ret.
Qed.

Lemma cl_lock fuel w : tidied w -> watch w (p_lock en be fuel) tidy_end.
Proof using Type.
  intros Hw. unfold p_lock. apply mon_bindR, watch_quiet; [by apply ev_read_wrapped|done|]. clear w Hw. intros w [data|e] Hw; [|done].
  apply mon_bindR, watch_quiet; [apply ev_or_panic|done|]. clear w Hw. intros w [args|e] Hw; [|done].
  destruct (args !! bs "path") as [q|]; [|by apply mon_ret]. destruct (args !! bs "refname"); [|by apply mon_ret].
  apply mon_bind. eapply mon_mono; [|by apply cl_create]. intros w' r Hw'. apply watch_quiet; [|done|done].
  destruct r as [l1|e]; [apply all_ev_bind; [apply ev_as_arguments|done]|]. case_decide; [|done].
  apply all_ev_bind; [by apply ev_lock_from_path|]. intros [[l0|]|e0]; [|done|done]. apply all_ev_bind; [apply ev_as_arguments|done].
Qed.

Lemma cl_unlock fuel id w : tidied w -> watch w (p_unlock en be fuel id) tidy_end.
Proof using Type.
  intros Hw. unfold p_unlock. apply mon_bindR, watch_quiet; [by apply ev_read_to_type|done|]. clear w Hw. intros w [data|e] Hw; [|done].
  destruct (utf8_valid id); [|by apply mon_ret].
  apply mon_bind. unfold lock_from_id. apply mon_bind, mon_call; [by apply j_other|].
  intros [h|e] _; unfold cl_next.
  2: { assert (tidied (w ++ [existT (EOpen (push_str (lock_dir be) id)) (IErr e)])) by (apply tidied_quiet; [done|by apply Forall_singleton]).
       case_decide; apply mon_ret; by apply mon_ret. }
  apply mon_bindR, mon_io_call, mon_call; [by apply j_other|]. intros [c|e] _; unfold cl_next; cbn [res_of_io].
  2: { apply mon_ret. apply tidied_quiet; [apply tidied_quiet; [done|by apply Forall_singleton]|by apply Forall_singleton]. }
  apply mon_bind. unfold user_for_file. apply mon_bind, mon_call; [by apply j_other|]. intros r _. apply mon_ret. unfold cl_next.
  rewrite <- !app_assoc. cbn [app]. set (w1 := w ++ _).
  assert (Hw1 : tidied w1) by (apply tidied_quiet; [done|by repeat constructor]).
  destruct (lock_parse c) as [[t q]|] eqn:Ec; [|apply mon_ret; by apply mon_ret]. apply says_iff in Ec.
  apply mon_ret. apply mon_bind. unfold as_arguments. apply mon_bind. unfold formatted_timestamp. cbn [lk_time].
  destruct (en_time en t) as [x|]; [|done]. apply mon_ret, mon_ret. apply mon_bind. unfold lock_unlock, lk_id. cbn [lk_path]. rewrite lock_eq.
  apply mon_io_call, mon_call; [by eapply j_unlock|]. intros r' _. unfold cl_next.
  assert (Hw2 : tidied (w1 ++ [existT (EUnlink (lock_path en lfs q)) r'])) by (apply tidied_app; [done|apply tidied_only; by apply Forall_singleton]).
  destruct r' as [[]|e]; cbn [res_of_io]; [by apply mon_ret|]. unfold p_error. case_decide; [by apply mon_ret|]. case_decide; by apply mon_ret.
Qed.

(** ** Sessions *)
Lemma cl_handle fuel c m rb w : tidied w -> watch w (handle_command en be fuel c m rb) tidy_end.
Proof using Type.
  intros Hw.
  assert (Hp : forall p : prog (res status), watch w p tidy_end -> watch w (let! r := p in Ret (r, rb)) tidy_end).
  { intros p H. apply mon_bind. eapply mon_mono; [|exact H]. intros w' r Ht. by apply mon_ret. }
  assert (Hq : forall p : prog (res status), all_ev quiet p -> watch w (let! r := p in Ret (r, rb)) tidy_end).
  { intros p H. apply Hp. by apply watch_quiet. }
  destruct c; cbn [handle_command]; try (apply Hq; by first [apply ev_version|apply ev_error|apply ev_verify_object|apply ev_get_object|apply ev_list_locks]).
  - apply Hq. destruct (is_upload m); by apply ev_batch.
  - by apply cl_put.
  - by apply Hp, cl_lock.
  - by apply Hp, cl_unlock.
Qed.
Lemma qu_go_on rb p : all_ev quiet p -> all_ev quiet (and_go_on rb p).
Proof using Type. intros H. unfold and_go_on. by apply all_ev_bind. Qed.
Lemma cl_process_one fuel m rb w : tidied w -> watch w (process_one en be fuel m rb) tidy_end.
Proof using Type.
  intros Hw. unfold process_one. apply mon_bind, watch_quiet; [by apply ev_read_packet|done|]. clear w Hw.
  intros w [pkt|e] Hw; [|by apply mon_ret].
  destruct (pkt_data pkt) as [[|x b]|]; [apply watch_quiet; [by apply qu_go_on, ev_answer_error|done|done]| |apply watch_quiet; [by apply qu_go_on, ev_answer_error|done|done]].
  assert (Hcmd : forall c, watch w (let! (r, rb') := handle_command en be fuel c m rb in and_go_on rb' (answer fuel (status_of r))) tidy_end).
  { intros c. apply mon_bind. eapply mon_mono; [|by apply cl_handle]. intros w' [r rb'] Hw'.
    apply watch_quiet; [by apply qu_go_on, ev_answer|done|done]. }
  destruct (dispatch (command_words (x :: b)) m); try apply Hcmd.
  apply watch_quiet; [|done|done]. apply all_ev_bind; [by apply ev_answer|done].
Qed.
Lemma cl_process_commands fuel n m rb w : tidied w -> watch w (process_commands en be fuel n m rb) tidy_end.
Proof using Type.
  revert rb w. induction n as [|n IH]; intros rb w Hw; cbn [process_commands]; [done|].
  apply mon_bind. eapply mon_mono; [|by apply cl_process_one]. intros w' x Hw'. destruct x; [by apply IH|by apply mon_ret].
Qed.
End calls.

Definition early (e : ev) : Prop := match e with EMkdir _ | EUmask _ => True | _ => False end.
Lemma only_in E tr y : only E tr -> y ∈ tr -> exists e r, y = existT e r /\ E e.
Proof. intros H Hy. destruct y as [e r]. exists e, r. split; [done|]. unfold only in H. rewrite Forall_forall in H. by apply (H _ Hy). Qed.

Lemma cl_main en fuel lfs cfg op : mon (justified en lfs) cl_ans cl_next [] (transfer_main en fuel lfs cfg op) tidy_end.
Proof.
  unfold transfer_main, transfer_main_internal. apply mon_bind.
  apply (mon_mono _ _ _ _ _ tidy_end); [by intros w r Hw; apply mon_ret|].
  apply mon_bindR, (watch_only en lfs (fun e => match e with EUmask _ => True | _ => False end)).
  - unfold set_permissions. ev.
  - intros ext e _ He. apply j_other. by destruct e.
  - intros ext r Hx. cbn [app]. assert (He : only early ext) by (eapply only_mono; [|exact Hx]; by intros []).
    destruct r as [u|e]; [|apply tidied_only; eapply only_mono; [|exact He]; by intros []].
    unfold transfer_run. apply mon_bindR.
    apply (mon_mono _ _ _ _ _ (fun w _ => only early w)).
    { intros w r Hw. assert (Ht : tidied w) by (apply tidied_only; eapply only_mono; [|exact Hw]; by intros []).
      destruct r as [[]|e]; [|done]. apply mon_bindR, watch_quiet; [by apply ev_send_capabilities|done|].
      clear w Hw Ht. intros w [[]|e] Hw; [|done]. destruct (mode_of op); [by apply cl_process_commands|by apply mon_ret]. }
    clear Hx. unfold create_directories. assert (Hd : forall d, d ∈ dir_names -> d ∈ [bs "objects"; bs "incomplete"; bs "tmp"; bs "locks"]) by done.
    revert Hd. generalize dir_names. intros ds. revert ext He. induction ds as [|d ds IH]; intros ext He Hd; cbn [create_directories_in]; [by apply mon_ret|].
    apply mon_bindR, mon_io_call, mon_call.
    { apply j_dir; [apply Hd; by left|]. intros y Hy. by eapply (only_in early). }
    intros r _. unfold cl_next. assert (He' : only early (ext ++ [existT (EMkdir (lfs ++ [d])) r])) by (apply Forall_app; split; [done|by apply Forall_singleton]).
    destruct r as [[]|e]; cbn [res_of_io]; [|done]. apply IH; [done|]. intros d' Hd'. apply Hd. by right.
Qed.

Lemma watch_calls {A} en lfs (p : prog A) Q w tr d tr' x : mon (justified en lfs) cl_ans cl_next w p Q ->
  calls p (tr ++ d :: tr') x -> justified en lfs (w ++ tr) (projT1 d).
Proof.
  revert w tr. induction p as [a|f|e k IH]; intros w tr Hm Hc.
  1-2: destruct tr; done.
  destruct Hm as [H1 H2]. destruct tr as [|y tr]; cbn [app calls] in Hc; destruct Hc as (r1 & -> & Hr & Hc).
  - by rewrite app_nil_r.
  - specialize (IH r1 _ tr (H2 r1 Hr) Hc). unfold cl_next in IH. by rewrite <- app_assoc in IH.
Qed.
Lemma watch_end {A} en lfs (p : prog A) Q w tr a : mon (justified en lfs) cl_ans cl_next w p Q -> calls p tr (Some a) -> Q (w ++ tr) a.
Proof.
  revert w tr. induction p as [b|f|e k IH]; intros w tr Hm Hc; destruct tr as [|y tr]; try done.
  - rewrite app_nil_r. destruct Hc as [|[= ->]]; done.
  - destruct Hm as [H1 H2]. destruct Hc as (r1 & -> & Hr & Hc). specialize (IH r1 _ tr (H2 r1 Hr) Hc).
    unfold cl_next in IH. by rewrite <- app_assoc in IH.
Qed.
Lemma c87 en fuel lfs cfg op tr e r tr' x : calls (transfer_main en fuel lfs cfg op) (tr ++ existT e r :: tr') x -> justified en lfs tr e.
Proof. intros H. apply (watch_calls _ _ _ _ [] tr (existT e r) tr' x (cl_main en fuel lfs cfg op) H). Qed.
Lemma c88 en fuel lfs cfg op tr a : calls (transfer_main en fuel lfs cfg op) tr (Some a) -> tidied tr.
Proof. intros H. apply (watch_end _ _ _ _ [] tr a (cl_main en fuel lfs cfg op) H). Qed.
