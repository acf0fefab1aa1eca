(** Which system calls each part of the server makes. *)
From Verif Require Import Bytes Err FS Prog Pktline Args Local Processor Transfer Wp Rg.

(** Calls that leave files and directories alone. *)
Definition quiet (e : ev) : Prop :=
  match e with
  | ERead _ | EOut _ | EFlush | EOpen _ | EReadAll _ | EReadAt _ _ _ | EFstat _ | EStat _
  | EReaddir _ | EClock | EUmask _ | ENote _ _ => True
  | _ => False
  end.

Ltac ev_step :=
  match goal with
  | |- all_ev _ (bind _ _) => apply all_ev_bind; [|intros ?]
  | |- all_ev _ (bindR _ _) => apply all_ev_bindR; [|intros ?]
  | |- all_ev _ (io_call _) => apply all_ev_io_call
  | |- all_ev _ (call _) => apply all_ev_call
  | |- all_ev _ (Ret _) => exact I
  | |- all_ev _ (Fail _) => exact I
  | |- all_ev _ (match ?x with _ => _ end) => destruct x
  | |- all_ev _ (if ?x then _ else _) => destruct x
  | |- all_ev _ (let '_ := ?x in _) => destruct x
  end.
Ltac ev := repeat (first [done | ev_step | solve [auto with ev]]).

Create HintDb ev discriminated.

(** Reading needs one kind of call, writing two. *)
Section rd.
Context (P : ev -> Prop) (HR : forall n, P (ERead n)).
Hint Resolve HR : ev.
Lemma rd_read_header : all_ev P read_header.
Proof using HR. unfold read_header. ev. Qed.
Hint Resolve rd_read_header : ev.
Lemma rd_read_packet : all_ev P read_packet.
Proof using HR. unfold read_packet. ev. Qed.
Lemma rd_read_one : all_ev P read_one.
Proof using HR. unfold read_one. ev. Qed.
Hint Resolve rd_read_packet rd_read_one : ev.
Lemma rd_read_loop f n rb : all_ev P (read_loop f n rb).
Proof using HR. revert rb. induction f as [|f IH]; intros rb; simpl; ev. Qed.
Hint Resolve rd_read_loop : ev.
Lemma rd_reader_read f n rb : all_ev P (reader_read f n rb).
Proof using HR. unfold reader_read. ev. Qed.
Lemma rd_read_to_type f p : all_ev P (read_to_type f p).
Proof using HR. induction f as [|f IH]; simpl; ev. Qed.
End rd.

Section wr.
Context (P : ev -> Prop) (HO : forall b, P (EOut b)) (HF : P EFlush).
Hint Resolve HO HF : ev.
Lemma wr_write_one b : all_ev P (write_one b).
Proof using HO. unfold write_one. ev. Qed.
Hint Resolve wr_write_one : ev.
Lemma wr_write_packet p : all_ev P (write_packet p).
Proof using HO HF. unfold write_packet. ev. Qed.
Lemma wr_write_chunks cs t : all_ev P (write_chunks cs t).
Proof using HO. revert t. induction cs as [|c cs IH]; intros t; simpl; ev. Qed.
Hint Resolve wr_write_packet wr_write_chunks : ev.
Lemma wr_writer_write_all b : all_ev P (writer_write_all b).
Proof using HO. unfold writer_write_all, writer_write. ev. Qed.
Hint Resolve wr_writer_write_all : ev.
Lemma wr_send m : all_ev P (send m).
Proof using HO. unfold send. ev. Qed.
Hint Resolve wr_send : ev.
Lemma wr_send_all ms : all_ev P (send_all ms).
Proof using HO. induction ms as [|m ms IH]; simpl; ev. Qed.
Lemma wr_flush : all_ev P flush.
Proof using HO HF. unfold flush. ev. Qed.
Lemma wr_delim : all_ev P delim.
Proof using HO HF. unfold delim. ev. Qed.
Hint Resolve wr_send_all wr_flush wr_delim : ev.
Lemma wr_send_error c m : all_ev P (send_error c m).
Proof using HO HF. unfold send_error. ev. Qed.
End wr.

(** All of these but for the ghost event and the umask. *)
Definition calm (e : ev) : Prop := match e with ENote _ _ | EUmask _ => False | _ => quiet e end.
Lemma calm_quiet e : calm e -> quiet e.
Proof. by destruct e. Qed.

Section calm.
Context (P : ev -> Prop) (HP : forall e, calm e -> P e).

Hint Extern 1 (P _) => (apply HP; exact I) : ev.
Hint Extern 1 (calm _) => exact I : ev.

Lemma cv_read_header : all_ev P read_header.
Proof using HP. unfold read_header. ev. Qed.
Hint Resolve cv_read_header : ev.
Lemma cv_read_packet : all_ev P read_packet.
Proof using HP. unfold read_packet. ev. Qed.
Lemma cv_read_one : all_ev P read_one.
Proof using HP. unfold read_one. ev. Qed.
Hint Resolve cv_read_packet cv_read_one : ev.
Lemma cv_read_loop f n rb : all_ev P (read_loop f n rb).
Proof using HP. revert rb. induction f as [|f IH]; intros rb; simpl; ev. Qed.
Hint Resolve cv_read_loop : ev.
Lemma cv_reader_read f n rb : all_ev P (reader_read f n rb).
Proof using HP. unfold reader_read. ev. Qed.
Hint Resolve cv_reader_read : ev.
Lemma cv_write_one b : all_ev P (write_one b).
Proof using HP. unfold write_one. ev. Qed.
Hint Resolve cv_write_one : ev.
Lemma cv_write_packet p : all_ev P (write_packet p).
Proof using HP. unfold write_packet. ev. Qed.
Lemma cv_write_chunks cs t : all_ev P (write_chunks cs t).
Proof using HP. revert t. induction cs as [|c cs IH]; intros t; simpl; ev. Qed.
Hint Resolve cv_write_packet cv_write_chunks : ev.
Lemma cv_writer_write_all b : all_ev P (writer_write_all b).
Proof using HP. unfold writer_write_all, writer_write. ev. Qed.
Hint Resolve cv_writer_write_all : ev.

Lemma cv_read_to_type f p : all_ev P (read_to_type f p).
Proof using HP. induction f as [|f IH]; simpl; ev. Qed.
Hint Resolve cv_read_to_type : ev.
Lemma cv_send m : all_ev P (send m).
Proof using HP. unfold send. ev. Qed.
Hint Resolve cv_send : ev.
Lemma cv_send_all ms : all_ev P (send_all ms).
Proof using HP. induction ms as [|m ms IH]; simpl; ev. Qed.
Lemma cv_flush : all_ev P flush.
Proof using HP. unfold flush. ev. Qed.
Lemma cv_delim : all_ev P delim.
Proof using HP. unfold delim. ev. Qed.
Hint Resolve cv_send_all cv_flush cv_delim : ev.
Lemma cv_send_error c m : all_ev P (send_error c m).
Proof using HP. unfold send_error. ev. Qed.
Lemma cv_copy_out f h o : all_ev P (copy_out f h o).
Proof using HP. revert o. induction f as [|f IH]; intros o; simpl; ev. Qed.
Hint Resolve cv_send_error cv_copy_out : ev.
Lemma cv_send_status f st : all_ev P (send_status f st).
Proof using HP. unfold send_status. ev. Qed.
Hint Resolve cv_send_status : ev.
Lemma cv_or_panic {A} (r : option (res A)) : all_ev P (or_panic r).
Proof using Type. unfold or_panic. ev. Qed.
Hint Resolve cv_or_panic : ev.

Section server.
Context (en : env) (be : backend) (fuel : nat).

Lemma cv_size_at_path o : all_ev P (size_at_path be o).
Proof using HP. unfold size_at_path. ev. Qed.
Hint Resolve cv_size_at_path : ev.
Lemma cv_backend_batch os : all_ev P (backend_batch be os).
Proof using HP. induction os as [|[o n] os IH]; simpl; ev. Qed.
Hint Resolve cv_backend_batch : ev.
Lemma cv_backend_verify o a : all_ev P (backend_verify be o a).
Proof using HP. unfold backend_verify. ev. Qed.
Lemma cv_backend_download o : all_ev P (backend_download be o).
Proof using HP. unfold backend_download. ev. Qed.
Hint Resolve cv_backend_verify cv_backend_download : ev.
Lemma cv_timestamp : all_ev P (timestamp be).
Proof using HP. unfold timestamp. ev. Qed.
Hint Resolve cv_timestamp : ev.
Lemma cv_user_for_file p : all_ev P (user_for_file en p).
Proof using HP. unfold user_for_file. ev. Qed.
Hint Resolve cv_user_for_file : ev.
Lemma cv_lock_from_id id : all_ev P (lock_from_id en be id).
Proof using HP. unfold lock_from_id. ev. Qed.
Hint Resolve cv_lock_from_id : ev.
Lemma cv_lock_from_path p : all_ev P (lock_from_path en be p).
Proof using HP. unfold lock_from_path. ev. Qed.
Hint Resolve cv_lock_from_path : ev.
Lemma cv_formatted l : all_ev P (formatted_timestamp en l).
Proof using Type. unfold formatted_timestamp. ev. Qed.
Hint Resolve cv_formatted : ev.
Lemma cv_as_arguments l : all_ev P (as_arguments en l).
Proof using Type. unfold as_arguments. ev. Qed.
Lemma cv_as_lock_spec o l : all_ev P (as_lock_spec en o l).
Proof using Type. unfold as_lock_spec. ev. Qed.
Hint Resolve cv_as_arguments cv_as_lock_spec : ev.
Lemma cv_collect_locks c todo sk n : all_ev P (collect_locks en be c todo sk n).
Proof using HP.
  revert sk n. induction todo as [|f todo IH]; intros sk n; destruct n; simpl; ev.
Qed.
Hint Resolve cv_collect_locks : ev.
Lemma cv_list_lock_items c n : all_ev P (list_lock_items en be c n).
Proof using HP. unfold list_lock_items. ev. Qed.
Hint Resolve cv_list_lock_items : ev.

Lemma cv_version : all_ev P (p_version fuel).
Proof using HP. unfold p_version, read_to_flush. ev. Qed.
Lemma cv_error c m : all_ev P (p_error c m).
Proof using Type. unfold p_error. ev. Qed.
Hint Resolve cv_error : ev.
Lemma cv_read_wrapped : all_ev P (read_to_flush_wrapped fuel).
Proof using HP. unfold read_to_flush_wrapped, read_to_flush. ev. Qed.
Hint Resolve cv_read_wrapped : ev.
Lemma cv_batch a b : all_ev P (p_batch be fuel a b).
Proof using HP. unfold p_batch, read_batch, read_to_delim. ev. Qed.
Lemma cv_verify_object o : all_ev P (p_verify_object be fuel o).
Proof using HP. unfold p_verify_object, read_to_flush. ev. Qed.
Lemma cv_get_object o : all_ev P (p_get_object be fuel o).
Proof using HP. unfold p_get_object, read_to_flush. ev. Qed.
Lemma cv_list_for_path p c o : all_ev P (p_list_for_path en be p c o).
Proof using HP. unfold p_list_for_path. ev. Qed.
Hint Resolve cv_list_for_path : ev.
Lemma cv_lock_specs o ls : all_ev P (lock_specs en o ls).
Proof using Type. induction ls as [|l ls IH]; simpl; ev. Qed.
Hint Resolve cv_lock_specs : ev.
Lemma cv_list_locks o : all_ev P (p_list_locks en be fuel o).
Proof using HP. unfold p_list_locks. ev. Qed.

Lemma cv_set_permissions cfg : (forall u, P (EUmask u)) -> all_ev P (set_permissions cfg).
Proof using Type. intros HU. unfold set_permissions. ev. Qed.
Lemma cv_send_capabilities : all_ev P send_capabilities.
Proof using HP. unfold send_capabilities. ev. Qed.
End server.
End calm.

(** The same for a larger set of calls. *)
Section ev.
Context (P : ev -> Prop) (HP : forall e, quiet e -> P e).
Local Definition HC (e : ev) (H : calm e) : P e := HP e (calm_quiet e H).
Definition ev_read_header := cv_read_header P HC.
Definition ev_read_packet := cv_read_packet P HC.
Definition ev_read_one := cv_read_one P HC.
Definition ev_read_loop := cv_read_loop P HC.
Definition ev_reader_read := cv_reader_read P HC.
Definition ev_write_one := cv_write_one P HC.
Definition ev_write_packet := cv_write_packet P HC.
Definition ev_write_chunks := cv_write_chunks P HC.
Definition ev_writer_write_all := cv_writer_write_all P HC.
Definition ev_read_to_type := cv_read_to_type P HC.
Definition ev_send := cv_send P HC.
Definition ev_send_all := cv_send_all P HC.
Definition ev_flush := cv_flush P HC.
Definition ev_delim := cv_delim P HC.
Definition ev_send_error := cv_send_error P HC.
Definition ev_copy_out := cv_copy_out P HC.
Definition ev_send_status := cv_send_status P HC.
Definition ev_or_panic := @cv_or_panic P.
Definition ev_size_at_path := cv_size_at_path P HC.
Definition ev_backend_batch := cv_backend_batch P HC.
Definition ev_backend_verify := cv_backend_verify P HC.
Definition ev_backend_download := cv_backend_download P HC.
Definition ev_timestamp := cv_timestamp P HC.
Definition ev_user_for_file := cv_user_for_file P HC.
Definition ev_lock_from_id := cv_lock_from_id P HC.
Definition ev_lock_from_path := cv_lock_from_path P HC.
Definition ev_formatted := @cv_formatted P.
Definition ev_as_arguments := @cv_as_arguments P.
Definition ev_as_lock_spec := @cv_as_lock_spec P.
Definition ev_collect_locks := cv_collect_locks P HC.
Definition ev_list_lock_items := cv_list_lock_items P HC.
Definition ev_version := cv_version P HC.
Definition ev_error := @cv_error P.
Definition ev_read_wrapped := cv_read_wrapped P HC.
Definition ev_batch := cv_batch P HC.
Definition ev_verify_object := cv_verify_object P HC.
Definition ev_get_object := cv_get_object P HC.
Definition ev_list_for_path := cv_list_for_path P HC.
Definition ev_lock_specs := @cv_lock_specs P.
Definition ev_list_locks := cv_list_locks P HC.
Definition ev_set_permissions cfg := cv_set_permissions P cfg (fun u => HP (EUmask u) I).
Definition ev_send_capabilities := cv_send_capabilities P HC.
Hint Extern 1 (P _) => (apply HP; exact I) : ev.
Hint Extern 1 (quiet _) => exact I : ev.
Hint Resolve ev_send_status ev_send_error : ev.
Lemma ev_answer f st : all_ev P (answer f st).
Proof using HP. unfold answer. ev. Qed.
Lemma ev_answer_error c m : all_ev P (answer_error c m).
Proof using HP. unfold answer_error. ev. Qed.

End ev.

Global Hint Resolve ev_read_packet ev_read_one ev_reader_read ev_read_to_type ev_answer ev_answer_error
  ev_send_status ev_or_panic ev_timestamp ev_user_for_file ev_lock_from_id ev_lock_from_path
  ev_as_arguments ev_error ev_version ev_batch ev_verify_object ev_get_object ev_list_locks
  ev_set_permissions ev_send_capabilities ev_read_wrapped : ev.

(** The answer of a command in download mode makes no other calls. *)
Lemma ev_handle_download en be fuel msgs rb :
  all_ev quiet (handle_command en be fuel (dispatch msgs Download) Download rb).
Proof.
  unfold handle_command, dispatch. destruct msgs as [|c rest]; [ev|].
  unfold p_download_batch, p_upload_batch.
  repeat case_decide; try destruct (head rest); simpl; ev.
Qed.

Lemma ev_process_one_download en be fuel rb : all_ev quiet (process_one en be fuel Download rb).
Proof.
  unfold process_one. apply all_ev_bind; [by apply ev_read_packet|]. intros [p|e]; [|done].
  destruct (pkt_data p) as [[|x b]|]; try (unfold and_go_on; ev; by apply ev_answer_error).
  pose proof (ev_handle_download en be fuel (command_words (x :: b)) rb) as H.
  destruct (dispatch (command_words (x :: b)) Download);
    apply all_ev_bind; try done; try (by apply ev_answer);
    intros a; try destruct a; unfold and_go_on; ev; by apply ev_answer.
Qed.

Lemma ev_process_commands_download en be fuel n rb :
  all_ev quiet (process_commands en be fuel n Download rb).
Proof.
  revert rb. induction n as [|n IH]; intros rb; simpl; [done|].
  apply all_ev_bind; [apply ev_process_one_download|]. intros [rb'|r]; [apply IH|done].
Qed.

(** What is quiet leaves the file system as it is but for the ghost history. *)
Definition same (s s' : fs) : Prop := nodes s' = nodes s /\ inodes s' = inodes s.

Lemma quiet_same pid e o l s : quiet e -> same s (handle_ev pid e o l s).2.
Proof.
  unfold same. destruct e; intros []; simpl; unfold faulty; try (by destruct (o_fault o)); try done.
  - destruct (o_fault o); [done|]. by destruct (do_read n l).
Qed.

Lemma quiet_run {A} pid (p : prog A) os l s : all_ev quiet p -> same s (run pid p os l s).2.
Proof.
  revert os l s. induction p as [a|f|e k IH]; intros os l s H; simpl; [done..|].
  destruct H as [H1 H2]. pose proof (quiet_same pid e (os 0) l s H1) as Hs.
  pose proof (handle_resp_ok pid e (os 0) l s) as Hr.
  destruct (handle_ev pid e (os 0) l s) as [[r l'] s'] eqn:E. simpl in *.
  destruct (IH r (shift os) l' s' (H2 r Hr)) as [H3 H4]. destruct Hs as [H5 H6].
  split; congruence.
Qed.

Lemma quiet_run_crash {A} n pid (p : prog A) os l s : all_ev quiet p -> same s (run_crash n pid p os l s).2.
Proof.
  revert n os l s. induction p as [a|f|e k IH]; intros n os l s H; destruct n; simpl; try done.
  destruct H as [H1 H2]. pose proof (quiet_same pid e (os 0) l s H1) as Hs.
  pose proof (handle_resp_ok pid e (os 0) l s) as Hr.
  destruct (handle_ev pid e (os 0) l s) as [[r l'] s'] eqn:E. simpl in *.
  destruct (IH r n (shift os) l' s' (H2 r Hr)) as [H3 H4]. destruct Hs as [H5 H6].
  split; congruence.
Qed.

(** Calls whose effect does not involve the file system. *)
Definition io_ev (e : ev) : Prop :=
  match e with ERead _ | EOut _ | EFlush | EClock | EUmask _ => True | _ => False end.

Lemma io_handle pid e o l s s1 : io_ev e ->
  handle_ev pid e o l s1 = ((handle_ev pid e o l s).1, s1).
Proof.
  destruct e; intros []; simpl; unfold faulty; try (by destruct (o_fault o)); try done.
  destruct (o_fault o); [done|]. by destruct (do_read n l).
Qed.
