(** Proofs for Props_Talk.v. *)
From Verif Require Import Bytes ByteFacts Err FS Prog Pktline Args Local Processor Transfer Wp Rg ServerEv
  PktFacts ReaderFacts Spec PktProofs SpecStore SpecServer SpecEnd IoFacts SeqIo SeqCmd Session Total Mon SpecTalk.

(** ** Handlers do not write *)
Definition wordless (e : ev) : Prop := match e with EOut _ | EFlush => False | _ => True end.
Lemma wordless_mute {A} (p : prog A) : mute p -> all_ev wordless p.
Proof.
  induction p as [a|f|e k IH]; [done|done|]. intros [H1 H2]. split; [by destruct e|]. intros r _. apply IH, H2.
Qed.
Section wordless.
Context (en : env) (be : backend) (fuel : nat).
Lemma wl_read n : wordless (ERead n). Proof using Type. done. Qed.
Hint Resolve wl_read : ev.
Lemma wl_lines stop (q : res (list bytes) -> prog (res status)) :
  (forall r, mute (q r)) -> all_ev wordless (let! r := read_to_type fuel stop in q r).
Proof using Type.
  intros H. apply all_ev_bind; [apply rd_read_to_type, wl_read|]. intros r. by apply wordless_mute.
Qed.
Lemma wl_wrapped (q : list bytes -> prog (res status)) :
  (forall r, mute (q r)) -> all_ev wordless (let? r := read_to_flush_wrapped fuel in q r).
Proof using Type.
  intros H. apply all_ev_bindR.
  - apply all_ev_bind; [apply rd_read_to_type, wl_read|]. done.
  - intros r. by apply wordless_mute.
Qed.
Lemma wl_batch a b : all_ev wordless (p_batch be fuel a b).
Proof using Type.
  unfold p_batch, read_batch, read_to_flush_wrapped. apply all_ev_bindR; [|done].
  apply all_ev_bindR; [apply rd_read_to_type, wl_read|]. intros lines.
  apply all_ev_bindR; [by apply wordless_mute, mu_or_panic|]. intros args.
  apply all_ev_bindR; [apply all_ev_bind; [apply rd_read_to_type, wl_read|done]|]. intros data.
  apply wordless_mute. mu.
Qed.
Lemma wl_copy f fd got rb : all_ev wordless (copy_to_file f fd got rb).
Proof using Type.
  revert got rb. induction f as [|f IH]; intros got rb; cbn [copy_to_file]; [done|].
  apply all_ev_bind; [apply rd_reader_read, wl_read|]. intros [[[|x d]|e] rb']; [done| |done].
  apply all_ev_bind; [by apply all_ev_call|]. intros [[]|e]; [apply IH|done].
Qed.
Lemma wl_put o rb : all_ev wordless (p_put_object en be fuel o rb).
Proof using Type.
  unfold p_put_object. destruct (oid_new o) as [o'|e]; [|done].
  apply all_ev_bind.
  - apply all_ev_bindR; [apply rd_read_to_type, wl_read|]. intros lines. apply wordless_mute. mu.
  - intros [n|e]; [|done]. apply all_ev_bind.
    + unfold start_upload. apply all_ev_bind; [by apply all_ev_call|]. intros [[tmp fd]|e]; [|done].
      apply all_ev_bind; [apply wl_copy|]. intros [[got|e] rb']; [done|]. apply wordless_mute. mu.
    + intros [[[st got]|e] rb']; [|done]. apply wordless_mute. mu.
Qed.
Lemma wl_handle c m rb : all_ev wordless (handle_command en be fuel c m rb).
Proof using Type.
  assert (Hp : forall p : prog (res status), all_ev wordless p -> all_ev wordless (let! r := p in Ret (r, rb))).
  { intros p H. by apply all_ev_bind. }
  assert (Hm : forall p : prog (res status), mute p -> all_ev wordless (let! r := p in Ret (r, rb))).
  { intros p H. by apply Hp, wordless_mute. }
  destruct c; cbn [handle_command]; try (apply Hm; solve [mu]).
  - apply Hp, wl_lines. intros [|]; mu.
  - apply Hp. destruct (is_upload m); apply wl_batch.
  - apply wl_put.
  - apply Hp, wl_lines. intros [|]; mu.
  - apply Hp, wl_lines. intros [|]; mu.
  - apply Hp, wl_wrapped. intros r. mu.
  - apply Hp, wl_wrapped. intros r. mu.
  - apply Hp, wl_lines. intros [|]; mu.
Qed.
End wordless.

(** ** Nothing written is held back while the server waits *)
Section tidy.
(** The state: something has been written that was not flushed. *)
Definition td_may (d : bool) (e : ev) : Prop := match e with ERead _ => d = false | _ => True end.
Definition td_ans (d : bool) (e : ev) (r : resp e) : Prop := resp_ok e r.
Definition td_next (d : bool) (e : ev) : resp e -> bool :=
  match e return resp e -> bool with
  | EOut _ => fun _ => true
  | EFlush => fun r => match r with IOk _ => false | IErr _ => d end
  | _ => fun _ => d
  end.
Notation tidy := (mon td_may td_ans td_next).

Lemma td_wordless : forall e, wordless e -> ignored td_may td_ans td_next false e.
Proof. intros e He. split; [by destruct e|]. intros r Hr. split; [done|]. by destruct e. Qed.
Lemma td_quiet {A} (p : prog A) (P : A -> Prop) (Q : bool -> A -> Prop) :
  all_ev wordless p -> leaves P p -> (forall a, P a -> Q false a) -> tidy false p Q.
Proof.
  intros H1 H2 H3. apply (mon_ignored _ _ _ _ _ P); [|done|done]. eapply all_ev_mono; [|exact H1]. apply td_wordless.
Qed.

Lemma td_write_packet p d (Q : bool -> res N -> Prop) :
  (forall n, Q (match p with PFlush => false | _ => true end) (Ok n)) -> (forall d e, Q d (Er e)) ->
  tidy d (write_packet p) Q.
Proof.
  intros H1 H2. destruct p as [| |b]; cbn [write_packet]; unfold write_one; mo;
    (apply mon_call; [done|]; intros [[]|e] _; cbn [res_of_io]; mo; [|apply H2]); try apply H1;
    (apply mon_call; [done|]; intros [[]|e] _; cbn [res_of_io]; mo; [apply H1|apply H2]).
Qed.
(** Calls that only write. *)
Lemma td_out {A} d (p : prog A) (Q : bool -> A -> Prop) :
  all_ev (fun e => match e with ERead _ => False | _ => True end) p -> (forall d a, Q d a) -> tidy d p Q.
Proof.
  intros H HQ. revert d. induction p as [a|f|e k IH]; intros d; [apply HQ|done|]. destruct H as [H1 H2].
  apply mon_vis; [by destruct e|]. intros r Hr. by apply IH, H2.
Qed.
Lemma td_flush d (Q : bool -> res unit -> Prop) : Q false (Ok tt) -> (forall d e, Q d (Er e)) -> tidy d flush Q.
Proof. intros H1 H2. unfold flush. mo. apply td_write_packet; [|done]. intros _. by mo. Qed.

Definition settled (d : bool) (r : res unit) : Prop := match r with Ok _ => d = false | Er _ => True end.
Lemma td_then_flush {A} d (p : prog (res A)) :
  all_ev (fun e => match e with ERead _ => False | _ => True end) p -> tidy d (let? _ := p in flush) settled.
Proof. intros H. mo. apply td_out; [done|]. intros d' [a|e]; [|done]. by apply td_flush. Qed.

Lemma td_answer fuel st d : tidy d (answer fuel st) settled.
Proof.
  unfold answer. mo. apply mon_call; [done|]. intros [] _. unfold send_status.
  apply mon_bindR, td_out; [by apply wr_send|]. intros d1 [[]|e]; [|done].
  apply mon_bindR, td_out; [by apply wr_send_all|]. intros d2 [[]|e]; [|done].
  apply td_then_flush. destruct (st_msgs st) as [ls|]; [|destruct (st_reader st) as [h|]; [|done]].
  - apply all_ev_bindR; [by apply wr_delim|]. intros _. by apply wr_send_all.
  - apply all_ev_bindR; [by apply wr_delim|]. intros _. generalize 0%nat. induction fuel as [|f IH]; intros off; [done|].
    cbn [copy_out]. apply all_ev_bindR; [by apply all_ev_io_call, all_ev_call|]. intros [|x b]; [done|].
    apply all_ev_bindR; [by apply wr_send|]. intros _. apply IH.
Qed.
Lemma td_answer_error c t d : tidy d (answer_error c t) settled.
Proof.
  unfold answer_error, send_error. mo. apply mon_call; [done|]. intros [] _.
  apply mon_bindR, td_out; [by apply wr_send|]. intros d1 [[]|e]; [|done].
  apply mon_bindR, td_out; [by apply wr_delim|]. intros d2 [[]|e]; [|done].
  apply td_then_flush. by apply wr_send.
Qed.

Definition settled_next (d : bool) (x : next) : Prop :=
  match x with Next _ => d = false | Return r => settled d r end.
Lemma td_go_on rb d (p : prog (res unit)) : tidy d p settled -> tidy d (and_go_on rb p) settled_next.
Proof. intros H. unfold and_go_on. apply mon_bind. eapply mon_mono; [|exact H]. intros d' [[]|e] Hs; by apply mon_ret. Qed.

Lemma td_process_one en be fuel m rb : tidy false (process_one en be fuel m rb) settled_next.
Proof.
  unfold process_one. apply mon_bind, (td_quiet _ (fun _ => True)); [by apply rd_read_packet|by apply leaves_all|].
  intros [pkt|e] _; [|apply mon_ret; by destruct (decide _)].
  destruct (pkt_data pkt) as [[|x b]|]; [by apply td_go_on, td_answer_error| |by apply td_go_on, td_answer_error].
  assert (Hcmd : forall c, tidy false (let! (r, rb') := handle_command en be fuel c m rb in and_go_on rb' (answer fuel (status_of r))) settled_next).
  { intros c. apply mon_bind, (td_quiet _ (fun _ => True)); [apply wl_handle|by apply leaves_all|]. intros [r rb'] _.
    by apply td_go_on, td_answer. }
  destruct (dispatch (command_words (x :: b)) m); try apply Hcmd.
  apply mon_bind. eapply mon_mono; [|apply td_answer]. intros d r H. by apply mon_ret.
Qed.
Lemma td_process_commands en be fuel n m rb : tidy false (process_commands en be fuel n m rb) settled.
Proof.
  revert rb. induction n as [|n IH]; intros rb; cbn [process_commands]; [done|].
  apply mon_bind. eapply mon_mono; [|apply td_process_one]. intros d [rb'|r] H; [|by apply mon_ret]. cbn in H. subst. apply IH.
Qed.

Definition settled_code (d : bool) (x : Z * bytes) : Prop := x.1 = 0%Z -> d = false.
Lemma td_main en fuel lfs cfg op : tidy false (transfer_main en fuel lfs cfg op) settled_code.
Proof.
  unfold transfer_main, transfer_main_internal.
  apply mon_bind, (mon_mono _ _ _ _ _ settled).
  { intros d [[]|e] Hs; apply mon_ret; [intros _; exact Hs|]. unfold settled_code. simpl. unfold err_exit_status. by destruct (e_kind e). }
  apply mon_bindR. apply (td_quiet _ (fun _ => True)); [|by apply leaves_all|].
  { apply wordless_mute. unfold set_permissions. mu. }
  intros [u|e] _; [|done]. unfold transfer_run.
  apply mon_bindR, (td_quiet _ (fun _ => True)); [|by apply leaves_all|].
  { unfold create_directories. induction dir_names as [|x ds IH]; cbn [create_directories_in]; [done|].
    apply all_ev_bindR; [by apply all_ev_io_call, all_ev_call|]. intros _. apply IH. }
  intros [[]|e] _; [|done]. unfold send_capabilities.
  apply mon_bindR. eapply mon_mono; [|apply td_then_flush; by apply wr_send].
  intros d [[]|e] Hs; [|done]. cbn in Hs. subst. destruct (mode_of op); [apply td_process_commands|done].
Qed.
End tidy.

(** What the watcher says about the calls made. *)
Lemma tidy_waits {A} d (p : prog A) Q tr n r x : mon td_may td_ans td_next d p Q ->
  calls p (tr ++ [existT (ERead n) r]) x -> d = true -> flushed ∈ tr.
Proof.
  revert d tr. induction p as [a|f|e k IH]; intros d tr Hm Hc Hd.
  1-2: destruct tr; done.
  destruct Hm as [H1 H2]. destruct tr as [|y tr]; cbn [app calls] in Hc; destruct Hc as (r1 & E & Hr & Hc).
  - apply (f_equal (@projT1 _ _)) in E. cbn in E. subst e. cbn in H1. congruence.
  - specialize (H2 r1 Hr). subst y. specialize (IH r1 _ _ H2 Hc).
    destruct e; try (right; by apply IH).
    cbn [td_next] in *. destruct r1 as [[]|e]; [by left|]. right. by apply IH.
Qed.
Lemma tidy_ends {A} d (p : prog A) Q tr a : mon td_may td_ans td_next d p Q ->
  calls p tr (Some a) -> flushed ∈ tr \/ (exists d', (d = true -> d' = true) /\ Q d' a).
Proof.
  revert d tr. induction p as [b|f|e k IH]; intros d tr Hm Hc.
  - destruct tr; [|done]. destruct Hc as [|[= ->]]; [done|]. right. by exists d.
  - destruct tr; done.
  - destruct Hm as [H1 H2]. destruct tr as [|y tr]; [done|]. destruct Hc as (r1 & -> & Hr & Hc).
    specialize (H2 r1 Hr). destruct (IH r1 _ _ H2 Hc) as [H|(d' & H3 & H4)]; [left; by right|].
    destruct e; try (right; exists d'; by split; [auto|]).
    cbn [td_next] in *. destruct r1 as [[]|e]; [left; by left|]. right. exists d'. by split.
Qed.
(** A written packet makes the state dirty. *)
Lemma tidy_split {A} d (p : prog A) Q tr b r tr' x : mon td_may td_ans td_next d p Q ->
  calls p (tr ++ existT (EOut b) r :: tr') x ->
  exists p' , mon td_may td_ans td_next true p' Q /\ calls p' tr' x.
Proof.
  revert d tr. induction p as [a|f|e k IH]; intros d tr Hm Hc.
  1-2: destruct tr; done.
  destruct Hm as [H1 H2]. destruct tr as [|y tr]; cbn [app calls] in Hc; destruct Hc as (r1 & E & Hr & Hc).
  - apply (f_equal (@projT1 _ _)) in E as E1. cbn in E1. subst e. exists (k r1). split; [exact (H2 r1 Hr)|done].
  - by apply (IH r1 _ _ (H2 r1 Hr) Hc).
Qed.

Lemma c49 en fuel lfs cfg op tr w tr' d x :
  calls (transfer_main en fuel lfs cfg op) (tr ++ w :: tr' ++ [d]) x -> writes w -> waits d -> flushed ∈ tr'.
Proof.
  intros H (b & r & ->) (n & r' & ->). destruct (tidy_split _ _ _ _ _ _ _ _ (td_main en fuel lfs cfg op) H) as (p' & H1 & H2).
  by apply (tidy_waits _ _ _ _ _ _ _ H1 H2).
Qed.
Lemma c49_end en fuel lfs cfg op tr w tr' msg :
  calls (transfer_main en fuel lfs cfg op) (tr ++ w :: tr') (Some (0%Z, msg)) -> writes w -> flushed ∈ tr'.
Proof.
  intros H (b & r & ->). destruct (tidy_split _ _ _ _ _ _ _ _ (td_main en fuel lfs cfg op) H) as (p' & H1 & H2).
  destruct (tidy_ends _ _ _ _ _ H1 H2) as [|(d' & H3 & H4)]; [done|]. specialize (H3 eq_refl). specialize (H4 eq_refl). congruence.
Qed.

(** ** What has been written is the beginning of well-formed answers *)

Lemma begun_prefix a b : well_begun (a ++ b) -> well_begun a.
Proof. intros (rs & x & H). exists rs, (b ++ x). by rewrite app_assoc. Qed.
Lemma begun_stream rs a : answer_stream rs a -> well_begun a.
Proof. intros H. exists rs, []. by rewrite app_nil_r. Qed.

(** The state: what has been written, as long as no write has failed. *)
Definition wb_may (w : option bytes) (e : ev) : Prop :=
  match e with
  | EOut b => match w with Some a => well_begun (a ++ b) | None => False end
  | _ => True
  end.
Definition wb_ans (w : option bytes) (e : ev) (r : resp e) : Prop := resp_ok e r.
Definition wb_next (w : option bytes) (e : ev) : resp e -> option bytes :=
  match e return resp e -> option bytes with
  | EOut b => fun r => match r, w with IOk _, Some a => Some (a ++ b) | _, _ => None end
  | _ => fun _ => w
  end.
Notation begun := (mon wb_may wb_ans wb_next).

Section begun.
Lemma wb_wordless w : forall e, wordless e -> ignored wb_may wb_ans wb_next w e.
Proof. intros e He. split; [by destruct e|]. intros r Hr. split; [done|]. by destruct e. Qed.
Lemma wb_quiet {A} w (p : prog A) (P : A -> Prop) (Q : option bytes -> A -> Prop) :
  all_ev wordless p -> leaves P p -> (forall a, P a -> Q w a) -> begun w p Q.
Proof.
  intros H1 H2 H3. apply (mon_ignored _ _ _ _ _ P); [|done|done]. eapply all_ev_mono; [|exact H1]. apply wb_wordless.
Qed.

(** After a failure nothing is written. *)
Lemma wb_out a b (Q : option bytes -> iores unit -> Prop) :
  well_begun (a ++ b) -> Q (Some (a ++ b)) (IOk tt) -> (forall w e, Q w (IErr e)) -> begun (Some a) (call (EOut b)) Q.
Proof. intros H1 H2 H3. apply mon_call; [done|]. intros [[]|e] _; [done|apply H3]. Qed.
Lemma wb_write_one a d (Q : option bytes -> res N -> Prop) :
  well_begun (a ++ enc (PData d)) -> Q (Some (a ++ enc (PData d))) (Ok (lenN d)) -> (forall w e, Q w (Er e)) ->
  begun (Some a) (write_one d) Q.
Proof.
  intros H1 H2 H3. unfold write_one. cbn [enc] in H1, H2. rewrite app_assoc in H1, H2.
  mo. apply wb_out; [by apply begun_prefix in H1| |intros; apply H3].
  cbn [res_of_io]. mo. apply wb_out; [done| |intros; apply H3]. cbn [res_of_io]. by mo.
Qed.
Lemma wb_write_chunks a cs t (Q : option bytes -> iores N -> Prop) :
  well_begun (a ++ enc_all (map PData cs)) -> Q (Some (a ++ enc_all (map PData cs))) (IOk (t + lenN (concat cs))%N) ->
  (forall w e, Q w (IErr e)) -> begun (Some a) (write_chunks cs t) Q.
Proof.
  revert a t. induction cs as [|c cs IH]; intros a t H1 H2 H3; cbn [write_chunks].
  - apply mon_ret. cbn in H2. rewrite app_nil_r in H2. change (lenN []) with 0%N in H2. by rewrite N.add_0_r in H2.
  - cbn [concat map enc_all flat_map] in H1, H2. change (flat_map enc) with enc_all in H1, H2.
    rewrite lenN_app, N.add_assoc, app_assoc in H2. rewrite app_assoc in H1. apply mon_bind, wb_write_one.
    + by apply begun_prefix in H1.
    + by apply IH.
    + intros. apply mon_ret, H3.
Qed.
Lemma wb_send a m (Q : option bytes -> res unit -> Prop) :
  well_begun (a ++ enc_all (pk m)) -> Q (Some (a ++ enc_all (pk m))) (Ok tt) -> (forall w e, Q w (Er e)) ->
  begun (Some a) (send m) Q.
Proof.
  intros H1 H2 H3. unfold send. apply mon_io_call. destruct m as [|x m].
  - apply mon_ret. cbn in H2. by rewrite app_nil_r in H2.
  - apply mon_bind, wb_write_chunks; [done| |].
    + rewrite (proj1 (chunks_small (x :: m))), N.add_0_l, N.eqb_refl. by apply mon_ret.
    + intros. apply mon_ret, H3.
Qed.
Lemma wb_send_all a ms (Q : option bytes -> res unit -> Prop) :
  well_begun (a ++ enc_all (pks ms)) -> Q (Some (a ++ enc_all (pks ms))) (Ok tt) -> (forall w e, Q w (Er e)) ->
  begun (Some a) (send_all ms) Q.
Proof.
  revert a. induction ms as [|m ms IH]; intros a H1 H2 H3; cbn [send_all].
  - apply mon_ret. cbn in H2. by rewrite app_nil_r in H2.
  - cbn [pks flat_map] in H1, H2. rewrite enc_all_app, app_assoc in H1, H2. apply mon_bindR, wb_send; [|by apply IH|done].
    by apply begun_prefix in H1.
Qed.
Lemma wb_packet a p (Q : option bytes -> res N -> Prop) :
  well_begun (a ++ enc p) -> (forall n, Q (Some (a ++ enc p)) (Ok n)) -> (forall w e, Q w (Er e)) ->
  begun (Some a) (write_packet p) Q.
Proof.
  intros H1 H2 H3. destruct p as [| |d]; cbn [write_packet].
  - mo. apply wb_out; [done| |intros; apply H3]. cbn [res_of_io]. mo. apply mon_call; [done|]. intros [[]|e] _; cbn [res_of_io]; mo; [apply H2|apply H3].
  - mo. apply wb_out; [done| |intros; apply H3]. cbn [res_of_io]. mo. apply H2.
  - by apply wb_write_one.
Qed.
Lemma wb_flush a (Q : option bytes -> res unit -> Prop) :
  well_begun (a ++ enc PFlush) -> Q (Some (a ++ enc PFlush)) (Ok tt) -> (forall w e, Q w (Er e)) -> begun (Some a) flush Q.
Proof. intros H1 H2 H3. unfold flush. mo. apply wb_packet; [done| |done]. intros _. by mo. Qed.
Lemma wb_delim a (Q : option bytes -> res unit -> Prop) :
  well_begun (a ++ enc PDelim) -> Q (Some (a ++ enc PDelim)) (Ok tt) -> (forall w e, Q w (Er e)) -> begun (Some a) delim Q.
Proof. intros H1 H2 H3. unfold delim. mo. apply wb_packet; [done| |done]. intros _. by mo. Qed.

(** Whole answers so far. *)
Definition whole (a : bytes) : Prop := exists rs, answer_stream rs a.
Definition whole_res (w : option bytes) (r : res unit) : Prop :=
  match r with Ok _ => exists a, w = Some a /\ whole a | Er _ => True end.

Lemma replies_snoc rs ps r qs : replies_sent rs ps -> reply_sent r qs -> replies_sent (rs ++ [r]) (ps ++ qs).
Proof.
  induction 1 as [|r' rs ps' qs' H1 H2 IH]; intros H.
  - rewrite <- (app_nil_r qs). cbn. by repeat constructor.
  - rewrite <- app_assoc. cbn. constructor; [done|by apply IH].
Qed.
Lemma whole_more a r ps : whole a -> reply_sent r ps -> Forall arg_shape (rp_args r) -> rp_code r ∈ codes ->
  whole (a ++ enc_all ps).
Proof.
  intros (rs & qs & H1 & H2 & H3) Hr Ha Hc. exists (rs ++ [r]), (qs ++ ps). split_and!.
  - by apply replies_snoc.
  - apply wires_inv in H2 as [-> H2]. rewrite <- enc_all_app. apply (wires_enc ((_ :: _ :: qs) ++ ps)), Forall_app.
    split; [done|]. apply (replies_small [r] ps). rewrite <- (app_nil_r ps). by repeat constructor.
  - apply Forall_app. split; [done|]. apply Forall_singleton. by split.
Qed.
Lemma whole_begun a : whole a -> well_begun a.
Proof. intros [rs H]. by eapply begun_stream. Qed.

Lemma wb_copy_out f h a off cs0 (Q : option bytes -> res unit -> Prop) : Forall small cs0 ->
  (forall cs, Forall small cs -> well_begun (a ++ enc_all (map PData cs))) ->
  (forall cs, Forall small cs -> Q (Some (a ++ enc_all (map PData cs))) (Ok tt)) ->
  (forall w e, Q w (Er e)) -> begun (Some (a ++ enc_all (map PData cs0))) (copy_out f h off) Q.
Proof.
  intros H0 H1 H2 H3. revert cs0 H0 off. induction f as [|f IH]; intros cs0 H0 off; cbn [copy_out]; [done|].
  apply mon_bindR, mon_io_call, mon_call; [done|]. intros [d|e] _; cbn [res_of_io]; [|apply H3].
  assert (E : forall d, exists cs, (a ++ enc_all (map PData cs0)) ++ enc_all (pk d) = a ++ enc_all (map PData cs) /\ Forall small cs).
  { intros d'. destruct (pk_chunks d') as (cs & Ed & _ & Hs). exists (cs0 ++ cs). split; [|by apply Forall_app].
    by rewrite Ed, map_app, enc_all_app, app_assoc. }
  destruct d as [|x d]; [by apply mon_ret, H2|]. destruct (E (x :: d)) as (cs & Ec & Hc).
  apply mon_bindR, wb_send; rewrite ?Ec; [by apply H1|by apply IH|done].
Qed.

Lemma wb_answer fuel m st a : fine m st -> whole a -> begun (Some a) (answer fuel st) whole_res.
Proof.
  intros (Hc & Ha & _) Hw. unfold answer, send_status. apply mon_bind, mon_call; [done|]. intros [] _.
  destruct (code_denotes _ Hc) as [Hden Hlen].
  assert (Hsm : small (status_line (st_code st))).
  { apply status_line_small. clear -Hc. unfold codes in Hc.
    repeat (apply elem_of_cons in Hc as [->|Hc]; [done|]). by apply elem_of_nil in Hc. }
  set (a1 := a ++ enc_all (pk (status_line (st_code st)))). set (a2 := a1 ++ enc_all (pks (default [] (st_args st)))).
  assert (HW : forall b qb, body_sent b qb -> whole ((a2 ++ enc_all qb) ++ enc PFlush)).
  { intros b qb Hqb. unfold a2, a1. rewrite pk_short by done.
    match goal with |- whole ?w =>
      replace w with (a ++ enc_all (PData (status_line (st_code st)) :: pks (default [] (st_args st)) ++ qb ++ [PFlush])) end.
    - apply (whole_more _ (Reply (st_code st) (default [] (st_args st)) b)); [done| |done|done].
      exists (pad0 3 (dec (st_code st))), (pks (default [] (st_args st))), qb.
      split_and!; try done. apply lines_sent_pks.
    - cbn [enc_all flat_map]. change (flat_map enc) with enc_all. rewrite !enc_all_app. cbn [enc_all flat_map].
      by rewrite !app_nil_r, !app_assoc. }
  assert (HB : forall b qb, body_sent b qb -> well_begun (a2 ++ enc_all qb)).
  { intros b qb Hqb. eapply begun_prefix, whole_begun, HW, Hqb. }
  assert (H2 : well_begun a2). { pose proof (HB BNone [] eq_refl) as H. cbn in H. by rewrite app_nil_r in H. }
  assert (HF : forall b qb, body_sent b qb -> begun (Some (a2 ++ enc_all qb)) flush whole_res).
  { intros b qb Hqb. apply wb_flush; [by eapply whole_begun, HW|eexists; split; [done|by eapply HW]|done]. }
  apply mon_bindR, wb_send; [by apply begun_prefix in H2| |done]. fold a1.
  apply mon_bindR, wb_send_all; [done| |done]. fold a2.
  destruct (st_msgs st) as [ls|]; [|destruct (st_reader st) as [h|]].
  - assert (Hb : body_sent (BLines ls) (PDelim :: pks ls)) by (eexists; split; [done|apply lines_sent_pks]).
    pose proof (HB _ _ Hb) as Hx. pose proof (HF _ _ Hb) as Hy.
    change (enc_all (PDelim :: pks ls)) with (enc PDelim ++ enc_all (pks ls)) in Hx, Hy. rewrite app_assoc in Hx, Hy.
    apply mon_bindR, mon_bindR, wb_delim; [by apply begun_prefix in Hx| |done]. by apply wb_send_all.
  - assert (Hb : forall cs, Forall small cs -> body_sent (BData (concat cs)) (PDelim :: map PData cs)) by (intros cs Hcs; by exists cs).
    assert (E : forall cs, a2 ++ enc_all (PDelim :: map PData cs) = (a2 ++ enc PDelim) ++ enc_all (map PData cs)).
    { intros cs. by rewrite <- app_assoc. }
    apply mon_bindR, mon_bindR, wb_delim; [|..|done].
    { pose proof (HB _ _ (Hb [] ltac:(constructor))) as Hx. rewrite E in Hx. by apply begun_prefix in Hx. }
    pose proof (wb_copy_out fuel h (a2 ++ enc PDelim) 0 []) as G. cbn [map enc_all flat_map] in G. rewrite app_nil_r in G.
    apply G; [constructor| |intros cs Hcs; pose proof (HF _ _ (Hb cs Hcs)) as Hy; by rewrite E in Hy|done].
    intros cs Hcs. rewrite <- E. by apply (HB _ _ (Hb cs Hcs)).
  - apply mon_bindR, mon_ret. pose proof (HF BNone [] eq_refl) as H. cbn in H. by rewrite app_nil_r in H.
Qed.

Lemma wb_answer_error c t a : c ∈ codes -> whole a -> begun (Some a) (answer_error c t) whole_res.
Proof.
  intros Hc Hw. unfold answer_error, send_error. apply mon_bind, mon_call; [done|]. intros [] _.
  destruct (code_denotes _ Hc) as [Hden Hlen].
  assert (Hsm : small (status_line c)).
  { apply status_line_small. clear -Hc. unfold codes in Hc.
    repeat (apply elem_of_cons in Hc as [->|Hc]; [done|]). by apply elem_of_nil in Hc. }
  set (w := (((a ++ enc_all (pk (status_line c))) ++ enc PDelim) ++ enc_all (pk (t ++ [NL]))) ++ enc PFlush).
  assert (HW : whole w).
  { unfold w. rewrite pk_short by done.
    match goal with |- whole ?w =>
      replace w with (a ++ enc_all (PData (status_line c) :: [] ++ (PDelim :: pk (t ++ [NL])) ++ [PFlush])) end.
    - apply (whole_more _ (Reply c [] (BText (t ++ [NL])))); [done| |constructor|done]. exists (pad0 3 (dec c)), [], (PDelim :: pk (t ++ [NL])).
      split_and!; [done|done|constructor|eexists; split; [done|apply line_sent_pk]|done].
    - cbn [enc_all flat_map app]. change (flat_map enc) with enc_all. rewrite !enc_all_app. cbn [enc_all flat_map].
      by rewrite !app_nil_r, !app_assoc. }
  pose proof (whole_begun _ HW) as H0. pose proof (begun_prefix _ _ H0) as H1. pose proof (begun_prefix _ _ H1) as H2.
  pose proof (begun_prefix _ _ H2) as H3.
  apply mon_bindR, wb_send; [done| |done]. apply mon_bindR, wb_delim; [done| |done].
  apply mon_bindR, wb_send; [done| |done]. apply wb_flush; [done|by exists w|done].
Qed.

Definition whole_next (w : option bytes) (x : next) : Prop :=
  match x with Next _ => exists a, w = Some a /\ whole a | Return r => whole_res w r end.
Lemma wb_go_on rb w (p : prog (res unit)) : begun w p whole_res -> begun w (and_go_on rb p) whole_next.
Proof. intros H. unfold and_go_on. apply mon_bind. eapply mon_mono; [|exact H]. intros d' [[]|e] Hs; by apply mon_ret. Qed.

Lemma wb_process_one en be fuel m rb a : whole a -> begun (Some a) (process_one en be fuel m rb) whole_next.
Proof.
  intros Hw. unfold process_one. apply mon_bind, (wb_quiet _ _ (fun _ => True)); [by apply rd_read_packet|by apply leaves_all|].
  intros [pkt|e] _; [|apply mon_ret; destruct (decide _); [by exists a|done]].
  destruct (pkt_data pkt) as [[|x b]|]; [by apply wb_go_on, wb_answer_error, Hw; apply is_code| |by apply wb_go_on, wb_answer_error, Hw; apply is_code].
  set (c := dispatch (command_words (x :: b)) m).
  assert (Hcmd : begun (Some a) (let! (r, rb') := handle_command en be fuel c m rb in and_go_on rb' (answer fuel (status_of r))) whole_next).
  { apply mon_bind. eapply wb_quiet; [apply wl_handle|apply fine_handle|]. intros [r rb'] Hf.
    apply wb_go_on, wb_answer with (m := m); [by apply fine_status|done]. }
  destruct c; try exact Hcmd.
  apply mon_bind. eapply mon_mono; [|apply wb_answer with (m := m); [by apply fine_msg, is_code|done]]. intros d r H. by apply mon_ret.
Qed.
Lemma wb_process_commands en be fuel n m rb a : whole a -> begun (Some a) (process_commands en be fuel n m rb) whole_res.
Proof.
  revert rb a. induction n as [|n IH]; intros rb a Hw; cbn [process_commands]; [done|].
  apply mon_bind. eapply mon_mono; [|by apply wb_process_one]. intros d [rb'|r] H; [|by apply mon_ret].
  destruct H as (a' & -> & H). by apply IH.
Qed.

Definition whole_code (w : option bytes) (x : Z * bytes) : Prop := x.1 = 0%Z -> exists a, w = Some a /\ whole a.
Lemma wb_main en fuel lfs cfg op : begun (Some []) (transfer_main en fuel lfs cfg op) whole_code.
Proof.
  unfold transfer_main, transfer_main_internal.
  apply mon_bind, (mon_mono _ _ _ _ _ whole_res).
  { intros d [[]|e] Hs; apply mon_ret; [intros _; exact Hs|]. unfold whole_code. simpl. unfold err_exit_status. by destruct (e_kind e). }
  apply mon_bindR. apply (wb_quiet _ _ (fun _ => True)); [|by apply leaves_all|].
  { apply wordless_mute. unfold set_permissions. mu. }
  intros [u|e] _; [|done]. unfold transfer_run.
  apply mon_bindR, (wb_quiet _ _ (fun _ => True)); [|by apply leaves_all|].
  { unfold create_directories. induction dir_names as [|x ds IH]; cbn [create_directories_in]; [done|].
    apply all_ev_bindR; [by apply all_ev_io_call, all_ev_call|]. intros _. apply IH. }
  intros [[]|e] _; [|done]. unfold send_capabilities.
  set (w := enc_all [PData (bs "version=1" ++ [NL])]).
  assert (HW : whole (w ++ enc PFlush)).
  { exists [], []. split_and!; [constructor| |constructor]. change (w ++ enc PFlush) with (enc_all [PData (bs "version=1" ++ [NL]); PFlush]).
    apply wires_enc. by repeat constructor. }
  assert (E : pk (bs "version=1" ++ [NL]) = [PData (bs "version=1" ++ [NL])]) by (apply pk_short; by vm_compute).
  apply mon_bindR, mon_bindR, wb_send; rewrite ?E; cbn [app]; fold w; [by eapply begun_prefix, whole_begun| |done].
  apply wb_flush; [by apply whole_begun| |done].
  destruct (mode_of op); [by apply wb_process_commands|done].
Qed.
End begun.

(** One server among any other processes. *)
Definition on_way (p : proc (Z * bytes)) : Prop :=
  exists w, begun w (pr_prog p) whole_code /\ well_begun (l_out (pr_local p)) /\
    match w with Some a => l_out (pr_local p) = a | None => True end.

Definition no_out (e : ev) : Prop := match e with EOut _ => False | _ => True end.
Lemma handle_out pid e o l s : no_out e -> l_out (handle_ev pid e o l s).1.2 = l_out l.
Proof.
  intros He. destruct e; try done; cbn [handle_ev]; unfold faulty, do_read; try (by destruct (o_fault o));
    repeat case_match; simplify_eq; done.
Qed.
Lemma on_way_step pid a p s : on_way p -> on_way (proc_step pid a p s).1.
Proof.
  intros (w & H1 & H2 & H3). unfold proc_step. destruct (pr_dead p); [by exists w|].
  destruct a as [o|]; [|by exists w]. destruct (pr_prog p) as [x|f|e k] eqn:E; [exists w; cbn [fst]; by rewrite E..|].
  destruct H1 as [H4 H5]. pose proof (handle_resp_ok pid e o (pr_local p) s) as Hr.
  assert (He : no_out e \/ exists b, e = EOut b) by (destruct e; (by left) || (right; by eexists)).
  destruct He as [He|[b ->]].
  - pose proof (handle_out pid e o (pr_local p) s He) as Ho. destruct (handle_ev pid e o (pr_local p) s) as [[r l'] s'].
    cbn [fst snd] in *. exists w. cbn [pr_prog pr_local]. rewrite Ho. split_and!; [|done|done].
    specialize (H5 r Hr). replace (wb_next w e r) with w in H5; [done|by destruct e].
  - cbn [wb_may] in H4. destruct w as [a|]; [|done]. rewrite H3 in H2. cbn [handle_ev].
    assert (Hb : forall n, well_begun (a ++ take n b)).
    { intros n. apply begun_prefix with (b := drop n b). rewrite <- app_assoc, take_drop. done. }
    destruct (o_fault o) as [x|]; cbn [fst pr_prog pr_local].
    + exists None. split_and!; [exact (H5 (IErr x) I)| |done]. cbn. rewrite H3. apply Hb.
    + exists (Some (a ++ b)). split_and!; [exact (H5 (IOk tt) I)|cbn; by rewrite H3|cbn; by rewrite H3].
Qed.
Lemma on_way_run y cs i p p' : procs y !! i = Some p -> fresh_server p -> procs (sys_run cs y) !! i = Some p' -> on_way p'.
Proof.
  intros Hp ((en & fuel & lfs & cfg & op & E) & Ho) Hp'.
  assert (H : on_way p).
  { exists (Some []). rewrite E, Ho. split_and!; [apply wb_main| |done].
    apply (begun_prefix [] (enc_all [PData (bs "version=1" ++ [NL]); PFlush])), begun_stream with (rs := []).
    exists []. split_and!; [constructor| |constructor]. apply (wires_enc [_; _]). by repeat constructor. }
  clear E Ho. revert y p Hp H Hp'. induction cs as [|c cs IH]; intros y p Hp H Hp'; cbn [sys_run fold_left] in *.
  - rewrite Hp in Hp'. by injection Hp' as <-.
  - unfold sys_step in Hp'. destruct (procs y !! c_pid c) as [q|] eqn:Eq; [|exact (IH _ _ Hp H Hp')].
    destruct (proc_step (c_pid c) (c_act c) q (shared y)) as [q' s'] eqn:Es.
    destruct (decide (c_pid c = i)) as [Ei|Ei].
    + rewrite Ei in *. rewrite Hp in Eq. injection Eq as <-. eapply IH; [..|exact Hp'].
      * apply list_lookup_insert. by eapply lookup_lt_Some.
      * pose proof (on_way_step i (c_act c) p (shared y) H) as G. by rewrite Es in G.
    + eapply IH; [..|exact Hp']; [|exact H]. cbn. by rewrite list_lookup_insert_ne.
Qed.
Lemma c50 y cs i p p' : procs y !! i = Some p -> fresh_server p -> procs (sys_run cs y) !! i = Some p' ->
  well_begun (l_out (pr_local p')).
Proof. intros H1 H2 H3. by destruct (on_way_run _ _ _ _ _ H1 H2 H3) as (w & _ & H & _). Qed.
Lemma c50_end y cs i p p' msg : procs y !! i = Some p -> fresh_server p -> procs (sys_run cs y) !! i = Some p' ->
  pr_prog p' = Ret (0%Z, msg) -> exists rs, answer_stream rs (l_out (pr_local p')).
Proof.
  intros H1 H2 H3 E. destruct (on_way_run _ _ _ _ _ H1 H2 H3) as (w & H4 & _ & H5). rewrite E in H4.
  destruct (H4 eq_refl) as (a & -> & H). by rewrite H5.
Qed.
