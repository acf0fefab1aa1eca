(** Proofs about the last words of a server. *)
From Verif Require Import Bytes Err FS Prog Pktline Args Local Processor Transfer
  Spec SpecStore SpecServer SpecEnd Total SpecGit SpecLast GitProofs.

Definition io_err {A} (r : res A) : Prop :=
  match r with Er e => exists x, e = err_of_io x | Ok _ => True end.
Definition end_err {A} (r : res A) : Prop :=
  match r with Er e => (exists x, e = err_of_io x) \/ e = err_simple BadPktlineHeader | Ok _ => True end.

Lemma le_io_call {A} (p : prog (iores A)) : leaves io_err (io_call p).
Proof. apply leaves_io_call, leaves_all. intros [a|e]; [done|by exists e]. Qed.
Lemma le_bindR {A B} (p : prog (res A)) (f : A -> prog (res B)) :
  leaves io_err p -> (forall a, leaves io_err (f a)) -> leaves io_err (bindR p f).
Proof. intros Hp Hf. apply leaves_bindR. eapply leaves_mono; [|exact Hp]. by intros [a|e]. Qed.
Lemma le_flush : leaves io_err flush.
Proof. repeat (apply le_bindR; [|intros ?]); try apply le_io_call; done. Qed.
Lemma le_delim : leaves io_err delim.
Proof. repeat (apply le_bindR; [|intros ?]); try apply le_io_call; done. Qed.
Lemma le_send m : leaves io_err (send m).
Proof. apply le_io_call. Qed.
Lemma le_send_all ms : leaves io_err (send_all ms).
Proof. induction ms as [|m ms IH]; simpl; [done|]. apply le_bindR; [apply le_send|done]. Qed.
Lemma le_copy_out f h off : leaves io_err (copy_out f h off).
Proof.
  revert off. induction f as [|f IH]; intros off; simpl; [done|]. apply le_bindR; [apply le_io_call|].
  intros [|x d]; [done|]. apply le_bindR; [apply le_send|done].
Qed.
Lemma le_answer f st : leaves io_err (answer f st).
Proof.
  unfold answer, send_status. apply leaves_bind, leaves_call. intros _.
  apply le_bindR; [apply le_send|intros _]. apply le_bindR; [apply le_send_all|intros _].
  apply le_bindR; [|intros _; apply le_flush].
  destruct (st_msgs st); [apply le_bindR; [apply le_delim|intros; apply le_send_all]|].
  destruct (st_reader st); [apply le_bindR; [apply le_delim|intros; apply le_copy_out]|done].
Qed.
Lemma le_answer_error c m : leaves io_err (answer_error c m).
Proof.
  unfold answer_error, send_error. apply leaves_bind, leaves_call. intros _.
  apply le_bindR; [apply le_send|intros _]. apply le_bindR; [apply le_delim|intros _].
  apply le_bindR; [apply le_send|intros _]. apply le_flush.
Qed.

Lemma le_read_packet : leaves end_err read_packet.
Proof.
  unfold read_packet, read_header. apply leaves_bindR, leaves_bindR, leaves_io_call, leaves_call.
  intros [h|e]; [|left; by exists e]. cbn [res_of_io]. destruct h as [|a [|b [|c [|d [|? ?]]]]]; try done.
  apply leaves_ret. unfold parse_header.
  destruct (hdr_digit a), (hdr_digit b), (hdr_digit c), (hdr_digit d); try (by right).
  destruct (_ =? 0)%N; [done|]. destruct (_ =? 1)%N; [done|]. destruct (_ || _); [by right|].
  apply leaves_bindR, leaves_io_call, leaves_call. intros [x|e]; [done|left; by exists e].
Qed.

Lemma le_process_one en be f m rb :
  leaves (fun x => match x with Return r => end_err r | Next _ => True end) (process_one en be f m rb).
Proof.
  unfold process_one. apply leaves_bind. eapply leaves_mono; [|apply le_read_packet].
  intros [p|e] Hk; [|apply leaves_ret; by destruct (decide _)].
  assert (Hgo : forall rb q, leaves io_err q ->
    leaves (fun x => match x with Return r => end_err r | Next _ => True end) (and_go_on rb q)).
  { intros rb' q Hq. apply leaves_bind. eapply leaves_mono; [|exact Hq]. intros [a|e]; [done|]. by left. }
  destruct (pkt_data p) as [[|x b]|]; [apply Hgo, le_answer_error| |apply Hgo, le_answer_error].
  destruct (dispatch _ m); try (apply leaves_bind, leaves_all; intros [r rb']; apply Hgo, le_answer).
  apply leaves_bind. eapply leaves_mono; [|apply le_answer]. intros [a|e]; [done|]. by left.
Qed.
Lemma le_process_commands en be f n m rb : leaves end_err (process_commands en be f n m rb).
Proof.
  revert rb. induction n as [|n IH]; intros rb; simpl; [done|]. apply leaves_bind.
  eapply leaves_mono; [|apply le_process_one]. intros [rb'|r]; [intros _; apply IH|done].
Qed.

Lemma le_transfer_run en f lfs umask ts op :
  leaves (fun r => end_err r \/
      (r = Er (err_simple UnknownCommand) /\ op <> bs "upload" /\ op <> bs "download"))
    (transfer_run en f lfs umask ts op).
Proof.
  unfold transfer_run. apply leaves_bindR.
  assert (Hd : leaves io_err (create_directories lfs)).
  { unfold create_directories. induction dir_names as [|d ds IH]; simpl; [done|]. apply le_bindR; [apply le_io_call|done]. }
  eapply leaves_mono; [|exact Hd]. intros [[]|e]; [intros _|intros H; left; by left].
  apply leaves_bindR. assert (Hs : leaves io_err send_capabilities).
  { apply le_bindR; [apply le_send|intros; apply le_flush]. }
  eapply leaves_mono; [|exact Hs]. intros [[]|e]; [intros _|intros H; left; by left].
  unfold mode_of. case_decide as H1; [|case_decide as H2].
  - eapply leaves_mono; [|apply le_process_commands]. by left.
  - eapply leaves_mono; [|apply le_process_commands]. by left.
  - apply leaves_ret. by right.
Qed.

Lemma le_main en fuel lfs cfg op :
  leaves (fun x => x = (0%Z, []) \/ exists t, x.2 = t ++ [NL] /\ last_words cfg op x.1 t)
    (transfer_main en fuel lfs cfg op).
Proof.
  unfold transfer_main, transfer_main_internal. apply leaves_bind, leaves_bindR.
  assert (Hp : leaves (fun r => match r with
    | Er e => exists x, e = err_of_git x /\
        (cfg = GErr x \/ exists c, cfg = GOk c /\ cf_str c = GErr x /\ g_code x <> GNotFound)
    | Ok _ => True end) (set_permissions cfg)).
  { unfold set_permissions. destruct cfg as [c|e]; [|apply leaves_ret; exists e; auto].
    apply leaves_bindR, leaves_ret. unfold shared_perms.
    destruct (_ || _); [apply leaves_bind, leaves_call; by intros|].
    destruct (_ || _); [do 2 (apply leaves_bind, leaves_call; intros ?); done|].
    destruct (_ || _); [apply leaves_bind, leaves_call; by intros|].
    destruct (cf_str c) as [x|e] eqn:Ec.
    - destruct (parse_octal x); [apply leaves_bind, leaves_call; by intros|].
      do 2 (apply leaves_bind, leaves_call; intros ?); done.
    - destruct (g_code e) eqn:Eg; [do 2 (apply leaves_bind, leaves_call; intros ?); done|..];
        exists e; (split; [done|]); right; exists c; by rewrite Eg. }
  eapply leaves_mono; [|exact Hp]. intros [u|e] He.
  - eapply leaves_mono; [|apply le_transfer_run]. intros [[]|e] H; apply leaves_ret; [by left|right].
    exists (display e). split; [done|]. cbn [fst].
    destruct H as [[(x & ->)|  ->]|([= ->] & H1 & H2)].
    + change (exit_code (err_exit_status (err_of_io x))) with 2%Z.
      replace (display (err_of_io x)) with (bs "fatal: I/O error: " ++ io_text x); [apply lw_io|].
      unfold display. cbn [err_of_io err_new e_kind e_int e_msg kind_text internal_text].
      by rewrite (right_id_L [] (++)).
    + apply lw_header.
    + by apply lw_operation.
  - apply leaves_ret. right. destruct He as (x & -> & Hx). exists (git_says x). rewrite display_git.
    split; [done|]. cbn [fst].
    replace (exit_code (err_exit_status (err_of_git x)))
      with (match g_code x with GOther => 2 | _ => 1 end)%Z by (by destruct x as [[] ?]).
    destruct Hx as [->|(c & -> & H1 & H2)]; [by apply lw_config|by eapply lw_value].
Qed.

Lemma c35_words en lfs cfg op pid os l s fuel code msg l' s' :
  run pid (transfer_main en fuel lfs cfg op) os l s = (Done (code, msg), l', s') ->
  (code = 0%Z /\ msg = []) \/ exists t, msg = t ++ [NL] /\ last_words cfg op code t.
Proof.
  intros H. destruct (leaves_run _ _ _ _ _ _ _ _ _ (le_main en fuel lfs cfg op) H) as [[= -> ->]|Hw]; [by left|by right].
Qed.
