(** Proofs for Props_Talk.v: a server whose output fails stops. *)
From Verif Require Import Bytes ByteFacts Err FS Prog Pktline Args Local Processor Transfer Wp Rg ServerEv
  PktFacts ReaderFacts Spec PktProofs SpecStore SpecServer SpecEnd IoFacts SeqIo SeqCmd Session Total Mon SpecTalk TalkProofs.

(** The state: a write or a flush has failed. *)
Definition gn_may (d : bool) (e : ev) : Prop := d = false.
Definition gn_ans (d : bool) (e : ev) (r : resp e) : Prop := resp_ok e r.
Definition gn_next (d : bool) (e : ev) : resp e -> bool :=
  match e return resp e -> bool with
  | EOut _ => fun r => match r with IOk _ => d | IErr _ => true end
  | EFlush => fun r => match r with IOk _ => d | IErr _ => true end
  | _ => fun _ => d
  end.
Notation gone := (mon gn_may gn_ans gn_next).

Lemma gn_wordless : forall e, wordless e -> ignored gn_may gn_ans gn_next false e.
Proof. intros e He. split; [done|]. intros r Hr. split; [done|]. by destruct e. Qed.
Lemma gn_quiet {A} (p : prog A) (Q : bool -> A -> Prop) :
  all_ev wordless p -> (forall a, Q false a) -> gone false p Q.
Proof. intros H1 H3. apply mon_ignored_all; [|done]. eapply all_ev_mono; [|exact H1]. apply gn_wordless. Qed.

(** An error that the system gave. *)
Definition io_trouble (e : error) : Prop := exists x, e = err_of_io x.
Definition stop {A} (d : bool) (r : res A) : Prop := d = true -> exists e, r = Er e /\ io_trouble e.
Lemma stop_false {A} (r : res A) : stop false r. Proof. done. Qed.

Lemma gn_bindR {A B} (p : prog (res A)) (f : A -> prog (res B)) :
  gone false p stop -> (forall a, gone false (f a) stop) -> gone false (bindR p f) stop.
Proof.
  intros Hp Hf. apply mon_bindR. eapply mon_mono; [|exact Hp]. intros [|] [a|e] Hs; try done.
  - by destruct (Hs eq_refl) as (? & ? & ?).
  - intros _. exists e. split; [done|]. by destruct (Hs eq_refl) as (? & [= ->] & ?).
Qed.
Lemma gn_ret {A} (r : res A) : gone false (Ret r) stop. Proof. by apply mon_ret. Qed.
Lemma gn_out b : gone false (io_call (call (EOut b))) stop.
Proof. mo. apply mon_call; [done|]. intros [[]|x] _; [done|]. intros _. exists (err_of_io x). split; [done|]. by exists x. Qed.
Lemma gn_fl : gone false (io_call (call EFlush)) stop.
Proof. mo. apply mon_call; [done|]. intros [[]|x] _; [done|]. intros _. exists (err_of_io x). split; [done|]. by exists x. Qed.
Lemma gn_write_one b : gone false (write_one b) stop.
Proof. unfold write_one. apply gn_bindR; [apply gn_out|]. intros _. apply gn_bindR; [apply gn_out|]. intros _. apply gn_ret. Qed.
Lemma gn_write_packet p : gone false (write_packet p) stop.
Proof.
  destruct p as [| |b]; cbn [write_packet]; [| |apply gn_write_one].
  - apply gn_bindR; [apply gn_out|]. intros _. apply gn_bindR; [apply gn_fl|]. intros _. apply gn_ret.
  - apply gn_bindR; [apply gn_out|]. intros _. apply gn_ret.
Qed.
Lemma gn_send m : gone false (send m) stop.
Proof.
  unfold send. apply mon_io_call. eapply (mon_mono _ _ _ _ _ (fun d r => d = true -> exists x, r = IErr x)).
  { intros d r H Hd. destruct (H Hd) as [x ->]. exists (err_of_io x). split; [done|]. by exists x. }
  destruct m as [|c m]; [by apply mon_ret|]. cbn [writer_write_all]. apply mon_bind.
  apply (mon_mono _ _ _ _ _ (fun d r => d = true -> exists x, r = IErr x)).
  { intros d [n|x] H; [|apply mon_ret; intros _; by exists x]. destruct d; [by destruct (H eq_refl)|]. destruct (_ =? _)%N; [by apply mon_ret|exact I]. }
  unfold writer_write. generalize 0%N. induction (chunks _ _) as [|b cs IH]; intros n; cbn [write_chunks]; [by apply mon_ret|].
  apply mon_bind. eapply mon_mono; [|apply gn_write_one]. intros d [k|e] Hs.
  - destruct d; [by destruct (Hs eq_refl) as (? & ? & ?)|]. apply IH.
  - apply mon_ret. intros _. by eexists.
Qed.
Lemma gn_send_all ms : gone false (send_all ms) stop.
Proof. induction ms as [|m ms IH]; cbn [send_all]; [apply gn_ret|]. apply gn_bindR; [apply gn_send|]. intros _. apply IH. Qed.
Lemma gn_flush : gone false flush stop.
Proof. apply gn_bindR; [apply gn_write_packet|]. intros _. apply gn_ret. Qed.
Lemma gn_delim : gone false delim stop.
Proof. apply gn_bindR; [apply gn_write_packet|]. intros _. apply gn_ret. Qed.
Lemma gn_answer fuel st : gone false (answer fuel st) stop.
Proof.
  unfold answer. mo. apply mon_call; [done|]. intros [] _. cbn [gn_next]. unfold send_status.
  apply gn_bindR; [apply gn_send|]. intros _. apply gn_bindR; [apply gn_send_all|]. intros _.
  apply gn_bindR; [|intros _; apply gn_flush]. destruct (st_msgs st) as [ls|]; [|destruct (st_reader st) as [h|]; [|apply gn_ret]].
  - apply gn_bindR; [apply gn_delim|]. intros _. apply gn_send_all.
  - apply gn_bindR; [apply gn_delim|]. intros _. generalize 0%nat. induction fuel as [|f IH]; intros off; [done|].
    cbn [copy_out]. apply gn_bindR; [by apply gn_quiet; [apply all_ev_io_call, all_ev_call|]|]. intros [|x b]; [apply gn_ret|].
    apply gn_bindR; [apply gn_send|]. intros _. apply IH.
Qed.
Lemma gn_answer_error c t : gone false (answer_error c t) stop.
Proof.
  unfold answer_error, send_error. mo. apply mon_call; [done|]. intros [] _. cbn [gn_next].
  apply gn_bindR; [apply gn_send|]. intros _. apply gn_bindR; [apply gn_delim|]. intros _.
  apply gn_bindR; [apply gn_send|]. intros _. apply gn_flush.
Qed.
Definition stop_next (d : bool) (x : next) : Prop := d = true -> exists e, x = Return (Er e) /\ io_trouble e.
Lemma gn_go_on rb p : gone false p stop -> gone false (and_go_on rb p) stop_next.
Proof.
  intros H. unfold and_go_on. apply mon_bind. eapply mon_mono; [|exact H]. intros d r Hs. apply mon_ret. intros Hd.
  destruct (Hs Hd) as (e & -> & He). by exists e.
Qed.
Lemma gn_process_one en be fuel m rb : gone false (process_one en be fuel m rb) stop_next.
Proof.
  unfold process_one. apply mon_bind, gn_quiet; [by apply rd_read_packet|].
  intros [pkt|e]; [|by apply mon_ret].
  destruct (pkt_data pkt) as [[|x b]|]; [by apply gn_go_on, gn_answer_error| |by apply gn_go_on, gn_answer_error].
  assert (Hcmd : forall c, gone false (let! (r, rb') := handle_command en be fuel c m rb in and_go_on rb' (answer fuel (status_of r))) stop_next).
  { intros c. apply mon_bind, gn_quiet; [apply wl_handle|]. intros [r rb']. by apply gn_go_on, gn_answer. }
  destruct (dispatch (command_words (x :: b)) m); try apply Hcmd.
  apply mon_bind. eapply mon_mono; [|apply gn_answer]. intros d r H. apply mon_ret. intros Hd.
  destruct (H Hd) as (e & -> & He). by exists e.
Qed.
Lemma gn_process_commands en be fuel n m rb : gone false (process_commands en be fuel n m rb) stop.
Proof.
  revert rb. induction n as [|n IH]; intros rb; cbn [process_commands]; [done|].
  apply mon_bind. eapply mon_mono; [|apply gn_process_one]. intros d x H. destruct d.
  - destruct (H eq_refl) as (e & -> & He). apply mon_ret. intros _. by exists e.
  - destruct x; [apply IH|by apply mon_ret].
Qed.
Definition stop_code (d : bool) (x : Z * bytes) : Prop :=
  d = true -> exists t, x = (2%Z, bs "fatal: I/O error: " ++ t ++ [NL]).
Lemma gn_main en fuel lfs cfg op : gone false (transfer_main en fuel lfs cfg op) stop_code.
Proof.
  unfold transfer_main, transfer_main_internal.
  apply mon_bind, (mon_mono _ _ _ _ _ stop).
  { intros d r Hs. apply mon_ret. intros Hd. destruct (Hs Hd) as (e & -> & x & ->). exists (io_text x).
    cbn. unfold display. cbn. by rewrite app_nil_r. }
  apply gn_bindR; [apply gn_quiet; [|done]|].
  { apply wordless_mute. unfold set_permissions. mu. }
  intros u. unfold transfer_run. apply gn_bindR; [apply gn_quiet; [|done]|].
  { unfold create_directories. induction dir_names as [|x ds IH]; cbn [create_directories_in]; [done|].
    apply all_ev_bindR; [by apply all_ev_io_call, all_ev_call|]. intros _. apply IH. }
  intros _. apply gn_bindR; [apply gn_bindR; [apply gn_send|intros _; apply gn_flush]|]. intros _.
  destruct (mode_of op); [apply gn_process_commands|apply gn_ret].
Qed.

Lemma gone_split {A} w (p : prog A) Q tr d tr' x : gone w p Q -> calls p (tr ++ d :: tr') x -> failed_write d ->
  exists p', gone true p' Q /\ calls p' tr' x.
Proof.
  revert w tr. induction p as [a|f|e k IH]; intros w tr Hm Hc Hd.
  1-2: destruct tr; done.
  destruct Hm as [H1 H2]. destruct tr as [|y tr]; cbn [app calls] in Hc; destruct Hc as (r1 & -> & Hr & Hc).
  - exists (k r1). split; [|done]. specialize (H2 r1 Hr). destruct e; try done; cbn in Hd; by destruct Hd as [y ->].
  - by apply (IH r1 _ _ (H2 r1 Hr) Hc).
Qed.
Lemma c83 en fuel lfs cfg op tr d tr' x :
  calls (transfer_main en fuel lfs cfg op) (tr ++ d :: tr') x -> failed_write d ->
  tr' = [] /\ forall r, x = Some r -> exists t, r = (2%Z, bs "fatal: I/O error: " ++ t ++ [NL]).
Proof.
  intros H Hd. destruct (gone_split _ _ _ _ _ _ _ (gn_main en fuel lfs cfg op) H Hd) as (p & Hm & Hc).
  destruct p as [a|f|e k].
  - destruct tr'; [|done]. split; [done|]. intros r ->. destruct Hc as [|[= ->]]; [done|]. by apply Hm.
  - destruct tr'; [|done]. split; [done|]. by intros r ->.
  - by destruct Hm.
Qed.
