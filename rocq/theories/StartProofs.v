(** Proofs for Props_Start.v. *)
From Verif Require Import Bytes Err FS Prog Pktline Args Local Processor Transfer Spec SpecTalk SpecPerm SpecStart Wp Rg Total ServerEv Mon CallsProofs PermProofs.

(** ** Watching with the whole history *)
Lemma hist_calls {A} may (p : prog A) Q w tr d tr' x : mon may cl_ans cl_next w p Q ->
  calls p (tr ++ d :: tr') x -> may (w ++ tr) (projT1 d).
Proof.
  revert w tr. induction p as [a|f|e k IH]; intros w tr Hm Hc.
  1-2: destruct tr; done.
  destruct Hm as [H1 H2]. destruct tr as [|y tr]; cbn [app calls] in Hc; destruct Hc as (r1 & -> & Hr & Hc).
  - by rewrite app_nil_r.
  - specialize (IH r1 _ tr (H2 r1 Hr) Hc). unfold cl_next in IH. by rewrite <- app_assoc in IH.
Qed.
Lemma hist_end {A} may (p : prog A) Q w tr a : mon may cl_ans cl_next w p Q -> calls p tr (Some a) -> Q (w ++ tr) a.
Proof.
  revert w tr. induction p as [b|f|e k IH]; intros w tr Hm Hc; destruct tr as [|y tr]; try done.
  - rewrite app_nil_r. destruct Hc as [|[= ->]]; done.
  - destruct Hm as [H1 H2]. destruct Hc as (r1 & -> & Hr & Hc). specialize (IH r1 _ tr (H2 r1 Hr) Hc).
    unfold cl_next in IH. by rewrite <- app_assoc in IH.
Qed.

(** ** After the beginning *)

(** The umask stays, and files get the permissions it leaves. *)
Definition keeps (u : N) (e : ev) : Prop :=
  match e with EUmask _ => False | EChmod _ m => m = N.ldiff 511 u | _ => True end.
Lemma calm_keeps u e : calm e -> keeps u e.
Proof. by destruct e. Qed.

Section keeps.
Context (en : env) (lfs : path) (u : N) (ts : option Z) (fuel : nat).
Notation be := (Backend lfs u ts).
Notation K := (keeps u).
Lemma kp_copy f fd got rb : all_ev K (copy_to_file f fd got rb).
Proof using Type.
  revert got rb. induction f as [|f IH]; intros got rb; cbn [copy_to_file]; [done|].
  apply all_ev_bind; [apply cv_reader_read, calm_keeps|]. intros [r rb']. destruct r as [[|y d]|e]; [done| |done].
  apply all_ev_bind; [by apply all_ev_call|]. intros [[]|e]; [apply IH|done].
Qed.
Lemma kp_drop_temp t : all_ev K (drop_temp t).
Proof using Type. unfold drop_temp. ev. Qed.
Lemma kp_finish st : all_ev K (finish_upload be st).
Proof using Type. unfold finish_upload, fix_permissions. ev; try apply kp_drop_temp. Qed.
Lemma kp_put o rb : all_ev K (p_put_object en be fuel o rb).
Proof using Type.
  unfold p_put_object. destruct (oid_new o) as [o'|e]; [|done]. apply all_ev_bind.
  { apply all_ev_bindR; [apply cv_read_to_type, calm_keeps|]. intros lines. apply all_ev_bindR; [apply cv_or_panic|done]. }
  intros [ex|e]; [|done]. apply all_ev_bind.
  { unfold start_upload. apply all_ev_bind; [by apply all_ev_call|]. intros [[tmp fd]|e]; [|done].
    apply all_ev_bind; [apply kp_copy|]. intros [[got|e] rb']; [done|]. apply all_ev_bind; [apply kp_drop_temp|done]. }
  intros [[[st got]|e] rb']; [|done]. cbn zeta.
  assert (Hf : forall e : error, all_ev K (let! _ := drop_temp (us_temp st) in Ret (@Er status e, rb'))).
  { intros e. apply all_ev_bind; [apply kp_drop_temp|done]. }
  destruct (lenN got <? ex)%N; [apply Hf|]. destruct (ex <? lenN got)%N; [apply Hf|].
  destruct (oid_new (hex_encode (en_hash en got))) as [o2|e]; [|apply Hf]. case_decide; [apply Hf|].
  apply all_ev_bind; [apply kp_finish|done].
Qed.
Lemma kp_lock : all_ev K (p_lock en be fuel).
Proof using Type.
  unfold p_lock. apply all_ev_bindR; [apply cv_read_wrapped, calm_keeps|]. intros data.
  apply all_ev_bindR; [apply cv_or_panic|]. intros args.
  destruct (args !! bs "path") as [q|]; [|done]. destruct (args !! bs "refname"); [|done].
  apply all_ev_bind.
  - unfold lock_create. apply all_ev_bind; [apply cv_timestamp, calm_keeps|]. intros t.
    apply all_ev_bind; [unfold lockfile_write; ev|]. intros [[]|e]; [|unfold lockfile_drop; ev].
    apply all_ev_bindR; [unfold lockfile_persist, lockfile_drop; ev|]. intros [].
    apply all_ev_bind; [apply cv_user_for_file, calm_keeps|]. intros user.
    apply all_ev_bind; [apply cv_timestamp, calm_keeps|done].
  - intros [lk|e]; [apply all_ev_bind; [apply cv_as_arguments|done]|]. case_decide; [|done].
    apply all_ev_bind; [apply cv_lock_from_path, calm_keeps|]. intros [[lk|]|e']; [|done|done].
    apply all_ev_bind; [apply cv_as_arguments|done].
Qed.
Lemma kp_unlock id : all_ev K (p_unlock en be fuel id).
Proof using Type.
  unfold p_unlock. apply all_ev_bindR; [apply cv_read_to_type, calm_keeps|]. intros _. destruct (utf8_valid id); [|done].
  apply all_ev_bind; [apply cv_lock_from_id, calm_keeps|]. intros [[lk|]|e]; [|apply cv_error|done].
  apply all_ev_bind; [apply cv_as_arguments|]. intros a. apply all_ev_bind; [unfold lock_unlock; ev|].
  intros [[]|e]; [done|]. case_decide; [apply cv_error|]. case_decide; [apply cv_error|done].
Qed.
Lemma kp_answer st : all_ev K (answer fuel st).
Proof using Type. unfold answer. apply all_ev_bind; [by apply all_ev_call|]. intros _. apply cv_send_status, calm_keeps. Qed.
Lemma kp_answer_error c m : all_ev K (answer_error c m).
Proof using Type. unfold answer_error. apply all_ev_bind; [by apply all_ev_call|]. intros _. apply cv_send_error, calm_keeps. Qed.
Lemma kp_handle c m rb : all_ev K (handle_command en be fuel c m rb).
Proof using Type.
  assert (Hp : forall p : prog (res status), all_ev K p -> all_ev K (let! r := p in Ret (r, rb))) by (intros p H; by apply all_ev_bind).
  destruct c; cbn [handle_command]; try apply kp_put; apply Hp;
    first [apply cv_version, calm_keeps|apply cv_error|apply cv_verify_object, calm_keeps|apply cv_get_object, calm_keeps
          |apply cv_list_locks, calm_keeps|apply kp_lock|apply kp_unlock|idtac].
  destruct (is_upload m); apply cv_batch, calm_keeps.
Qed.
Lemma kp_process_one m rb : all_ev K (process_one en be fuel m rb).
Proof using Type.
  unfold process_one. apply all_ev_bind; [apply cv_read_packet, calm_keeps|]. intros [pkt|e]; [|done].
  assert (Hg : forall rb p, all_ev K p -> all_ev K (and_go_on rb p)) by (intros rb1 p H; unfold and_go_on; by apply all_ev_bind).
  destruct (pkt_data pkt) as [[|x b]|]; [apply Hg, kp_answer_error| |apply Hg, kp_answer_error].
  assert (Hcmd : forall c, all_ev K (let! (r, rb') := handle_command en be fuel c m rb in and_go_on rb' (answer fuel (status_of r)))).
  { intros c. apply all_ev_bind; [apply kp_handle|]. intros [r rb']. apply Hg, kp_answer. }
  destruct (dispatch (command_words (x :: b)) m); try apply Hcmd. apply all_ev_bind; [apply kp_answer|done].
Qed.
Lemma kp_process_commands n m rb : all_ev K (process_commands en be fuel n m rb).
Proof using Type.
  revert rb. induction n as [|n IH]; intros rb; cbn [process_commands]; [done|].
  apply all_ev_bind; [apply kp_process_one|]. intros [rb'|r]; [apply IH|done].
Qed.
End keeps.

(** ** The beginning *)
Section start.
Context (lfs : path) (ask : option N).
Definition may_start (w : list done_call) (e : ev) : Prop :=
  introduces lfs e \/
  match e with
  | EChmod _ m => exists u, started lfs ask w u /\ perm_bits m u
  | _ => exists u, started lfs ask w u
  end.
Notation watch := (mon may_start cl_ans cl_next).
Definition any_end {A} (w : list done_call) (a : A) : Prop := True.

Lemma watch_keeps {A} (p : prog A) u w : started lfs ask w u -> all_ev (keeps u) p -> watch w p any_end.
Proof using Type.
  revert w. induction p as [a|f|e k IH]; intros w Hw Hp; [done|done|]. destruct Hp as [He Hp]. split.
  - right. destruct e; cbn in He |- *; try done; try (by exists u). exists u. subst m. split; [done|]. apply perm_bits_ldiff.
  - intros r Hr. apply IH; [|by apply Hp]. destruct Hw as (um & rest & -> & Hum & Hrest).
    exists um, (rest ++ [existT e r]). unfold cl_next. rewrite <- !app_assoc. split_and!; [done|done|].
    intros n x [Hx|Hx%elem_of_list_singleton]%elem_of_app; [by apply Hrest in Hx|].
    apply (f_equal (@projT1 ev resp)) in Hx. cbn in Hx. by subst e.
Qed.
End start.

Lemma masks_set c um0 perms : shared_perms c = Ok perms ->
  forall (Q : list done_call -> res N -> Prop) (may : list done_call -> ev -> Prop), (forall n w, may w (EUmask n)) ->
  (forall um u, masks (umask_of_perms <$> perms) um u -> Q (um0 ++ um) (Ok u)) ->
  mon may cl_ans cl_next um0 (set_permissions (GOk c)) Q.
Proof.
  intros Hc Q may Hmay HQ. unfold set_permissions. rewrite Hc. apply mon_bindR, mon_ret.
  destruct perms as [v|]; cbn [fmap option_fmap option_map] in HQ.
  - apply mon_bind, mon_call; [apply Hmay|]. intros r _. apply mon_ret. unfold cl_next. apply HQ. split; [done|by eexists].
  - apply mon_bind, mon_call; [apply Hmay|]. intros r _. apply mon_bind, mon_call; [apply Hmay|]. intros r' _. apply mon_ret.
    unfold cl_next. rewrite <- app_assoc. apply HQ. by exists r'.
Qed.

Lemma watch_capabilities (may : list done_call -> ev -> Prop) w (Q : list done_call -> res unit -> Prop) :
  (forall w b, b ∈ [bs "000e"; bs "version=1" ++ [NL]; bs "0000"] -> may w (EOut b)) -> (forall w, may w EFlush) ->
  (forall w' e, stopped w' -> Q w' (Er e)) ->
  Q (w ++ [existT (EOut (bs "000e")) (IOk tt); existT (EOut (bs "version=1" ++ [NL])) (IOk tt);
     existT (EOut (bs "0000")) (IOk tt); existT EFlush (IOk tt)]) (Ok tt) ->
  mon may cl_ans cl_next w send_capabilities Q.
Proof.
  intros H1 H2 HE HQ. unfold send_capabilities. apply mon_bindR. unfold send. apply mon_io_call.
  change (writer_write_all (bs "version=1" ++ [NL])) with
    (let! r := write_chunks [bs "version=1" ++ [NL]] 0 in
     match r with IErr e => Ret (@IErr unit e) | IOk n => if (n =? lenN (bs "version=1" ++ [NL]))%N then Ret (IOk tt) else Fail PSliceRange end).
  apply mon_bind. cbn [write_chunks]. apply mon_bind. unfold write_one.
  change (hex04 (lenN (bs "version=1" ++ [NL]) + 4)) with (bs "000e").
  apply mon_bindR, mon_io_call, mon_call; [apply H1; by repeat constructor|]. intros r _. unfold cl_next.
  assert (HS : forall w1 b e, stopped (w1 ++ [existT (EOut b) (IErr e)])) by (intros w1 b e; by exists w1, (existT (EOut b) (IErr e))).
  destruct r as [[]|e]; cbn [res_of_io]; [|by apply mon_ret, mon_ret, HE].
  apply mon_bindR, mon_io_call, mon_call; [apply H1; by repeat constructor|]. intros r _. unfold cl_next.
  destruct r as [[]|e]; cbn [res_of_io]; [|by apply mon_ret, mon_ret, HE].
  do 2 apply mon_ret. change (_ =? _)%N with true. cbn iota. apply mon_ret. cbn [res_of_io]. unfold flush, write_packet.
  apply mon_bindR. apply mon_bindR, mon_io_call, mon_call; [apply H1; by repeat constructor|]. intros r _. unfold cl_next.
  destruct r as [[]|e]; cbn [res_of_io]; [|by apply HE].
  apply mon_bindR, mon_io_call, mon_call; [apply H2|]. intros r _. unfold cl_next.
  destruct r as [[]|e]; cbn [res_of_io]; [|apply HE; by eexists _, (existT EFlush (IErr e))].
  do 2 apply mon_ret. by rewrite <- !app_assoc.
Qed.

Lemma watch_run (may : list done_call -> ev -> Prop) en fuel lfs u op w (Q : list done_call -> res unit -> Prop) :
  (forall w e, introduces lfs e -> may w e) ->
  (forall w' e, stopped w' -> Q w' (Er e)) ->
  mon may cl_ans cl_next (w ++ announced lfs)
    (match mode_of op with
     | Some m => process_commands en (Backend lfs u None) fuel fuel m rb_empty
     | None => Ret (Er (err_simple UnknownCommand))
     end) Q ->
  mon may cl_ans cl_next w (transfer_run en fuel lfs u None op) Q.
Proof.
  intros H1 HE HQ. unfold transfer_run, create_directories, dir_names, create_directories_in. apply mon_bindR.
  assert (HS : forall w1 p e, stopped (w1 ++ [existT (EMkdir p) (IErr e)])) by (intros w1 p e; by exists w1, (existT (EMkdir p) (IErr e))).
  apply mon_bindR, mon_io_call, mon_call; [apply H1; eexists; split; [|done]; by repeat constructor|]. intros [[]|e] _; cbn [res_of_io]; [|apply HE, HS].
  apply mon_bindR, mon_io_call, mon_call; [apply H1; eexists; split; [|done]; by repeat constructor|]. intros [[]|e] _; cbn [res_of_io]; [|apply HE, HS].
  apply mon_bindR, mon_io_call, mon_call; [apply H1; eexists; split; [|done]; by repeat constructor|]. intros [[]|e] _; cbn [res_of_io]; [|apply HE, HS].
  apply mon_bindR, mon_io_call, mon_call; [apply H1; eexists; split; [|done]; by repeat constructor|]. intros [[]|e] _; cbn [res_of_io]; [|apply HE, HS].
  apply mon_ret. unfold cl_next. apply mon_bindR, watch_capabilities; [intros w1 b Hb; by apply H1|intros w1; by apply H1|done|].
  by rewrite <- !app_assoc.
Qed.

Lemma start_main en fuel lfs c perms op : shared_perms c = Ok perms ->
  mon (may_start lfs (umask_of_perms <$> perms)) cl_ans cl_next [] (transfer_main en fuel lfs (GOk c) op) any_end.
Proof.
  intros Hc. unfold transfer_main, transfer_main_internal. apply mon_bind, mon_bindR. set (ask := umask_of_perms <$> perms).
  apply (masks_set c [] perms Hc); [by left|]. intros um u Hum. cbn [app].
  apply watch_run; [by left|by intros; apply mon_ret|].
  assert (Hb : started lfs ask (um ++ announced lfs) u).
  { exists um, []. rewrite app_nil_r. split_and!; [done|done|]. intros n r ?%elem_of_nil. done. }
  destruct (mode_of op) as [m|]; [|by apply mon_ret].
  eapply mon_mono; [|eapply watch_keeps; [exact Hb|apply kp_process_commands]]. intros w r _. by apply mon_ret.
Qed.

Lemma c94 en fuel lfs v op tr e r tr' x : calls (transfer_main en fuel lfs (GOk (libgit2 v)) op) (tr ++ existT e r :: tr') x -> may_start lfs (asked v) tr e.
Proof.
  intros H. assert (Ha : exists perms, shared_perms (libgit2 v) = Ok perms /\ umask_of_perms <$> perms = asked v).
  { eexists. split; [apply shared_perms_libgit2|]. unfold asked. destruct (documented v) as [| | |m]; try done. by destruct (m =? 0)%N. }
  destruct Ha as (perms & Hp & <-). apply (hist_calls _ _ _ [] tr (existT e r) tr' x (start_main en fuel lfs _ perms op Hp) H).
Qed.

(** ** Another operation *)
Lemma other_main en fuel lfs v op : op <> bs "upload" -> op <> bs "download" ->
  mon (fun _ => introduces lfs) cl_ans cl_next [] (transfer_main en fuel lfs (GOk (libgit2 v)) op)
    (fun w x => x.1 <> 0%Z /\ x.2 <> [] /\
       (stopped w \/ exists um u, w = um ++ announced lfs /\ masks (asked v) um u /\ x = (2%Z, bs "unknown command or operation" ++ [NL]))).
Proof.
  intros H1 H2.
  assert (Ha : exists perms, shared_perms (libgit2 v) = Ok perms /\ umask_of_perms <$> perms = asked v).
  { eexists. split; [apply shared_perms_libgit2|]. unfold asked. destruct (documented v) as [| | |m]; try done. by destruct (m =? 0)%N. }
  destruct Ha as (perms & Hp & Ha). unfold transfer_main, transfer_main_internal. apply mon_bind, mon_bindR.
  apply (masks_set _ [] perms Hp); [done|]. intros um u Hum. rewrite Ha in Hum. cbn [app].
  apply watch_run; [done| |].
  - intros w e Hw. apply mon_ret. cbn. split_and!; [|by destruct (display e)|by left]. unfold err_exit_status. by destruct (e_kind e).
  - unfold mode_of. rewrite !decide_False by done. apply mon_ret, mon_ret. split_and!; [done|done|]. right. exists um, u. done.
Qed.
