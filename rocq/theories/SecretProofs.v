(** Proofs for Props_Secret.v. *)
From Verif Require Import Bytes Err FS Prog Pktline Args Local Processor Transfer Wp Rg ServerEv
  ByteFacts PktFacts TextProofs Spec SpecStore SpecServer SpecSecret SeqIo Total.

Lemma alike_parse d1 d2 : alike d1 d2 -> lock_parse d1 = lock_parse d2.
Proof.
  intros [_ H]. destruct (lock_parse d1) as [[t p]|] eqn:E1.
  - apply lock_parse_iff in E1. symmetry. apply lock_parse_iff. by apply (H t p).
  - destruct (lock_parse d2) as [[t p]|] eqn:E2; [|done]. apply lock_parse_iff in E2.
    apply (H t p), lock_parse_iff in E2. congruence.
Qed.

Section secret.
Context (n0 : nat).

(** ** Programs that do not see contents *)
Definition sees (e : ev) : Prop :=
  match e with EWriteFd i _ => (n0 <= i)%nat | EReadAt _ _ _ => False | _ => True end.
Definition gives (e : ev) : resp e -> Prop :=
  match e return resp e -> Prop with
  | EMktemp _ _ => fun r => match r with IOk (_, i) => (n0 <= i)%nat | _ => True end
  | ECreate _ => fun r => match r with IOk i => (n0 <= i)%nat | _ => True end
  | _ => fun _ => True
  end.
Definition same_for {A} (e : ev) : (resp e -> prog A) -> Prop :=
  match e return (resp e -> prog A) -> Prop with
  | EReadAll _ => fun k => forall d1 d2, lock_parse d1 = lock_parse d2 -> k (IOk d1) = k (IOk d2)
  | _ => fun _ => True
  end.
Fixpoint blind {A} (Q : A -> Prop) (p : prog A) : Prop :=
  match p with
  | Ret a => Q a
  | Fail _ => True
  | Vis e k => sees e /\ same_for e k /\ forall r, gives e r -> resp_ok e r -> blind Q (k r)
  end.

Lemma bl_mono {A} (P Q : A -> Prop) p : (forall a, P a -> Q a) -> blind P p -> blind Q p.
Proof using Type.
  intros H. induction p as [a|f|e k IH]; [apply H|done|]. intros (H1 & H2 & H3). split_and!; [done|done|].
  intros r Hr Hr'. by apply IH, H3.
Qed.
Lemma bl_bind {A B} (Q : B -> Prop) (p : prog A) (f : A -> prog B) :
  blind (fun a => blind Q (f a)) p -> blind Q (bind p f).
Proof using Type.
  induction p as [a|x|e k IH]; [done|done|]. intros (H1 & H2 & H3). split_and!; [done| |].
  - destruct e; try done. cbn in *. intros d1 d2 E. by rewrite (H2 d1 d2 E).
  - intros r Hr Hr'. by apply IH, H3.
Qed.
Lemma bl_bindR {A B} (Q : res B -> Prop) (p : prog (res A)) (f : A -> prog (res B)) :
  blind (fun r => match r with Ok a => blind Q (f a) | Er e => Q (Er e) end) p -> blind Q (bindR p f).
Proof using Type. intros H. apply bl_bind. eapply bl_mono; [|exact H]. intros [a|e] Ha; exact Ha. Qed.
Lemma bl_io_call {A} (Q : res A -> Prop) (p : prog (iores A)) : blind (fun r => Q (res_of_io r)) p -> blind Q (io_call p).
Proof using Type. intros H. by apply bl_bind. Qed.

(** Calls that neither write to nor read from files. *)
Definition plain (e : ev) : Prop :=
  match e with EWriteFd _ _ | EReadAt _ _ _ | EReadAll _ => False | _ => True end.
Lemma bl_plain {A} (P : A -> Prop) (p : prog A) : all_ev plain p -> leaves P p -> blind P p.
Proof using Type.
  induction p as [a|x|e k IH]; [done|done|]. intros [He Hk] Hl. split_and!; [by destruct e|by destruct e|].
  intros r Hr Hr'. apply IH; [by apply Hk|apply Hl].
Qed.
Lemma bl_plain_all {A} (P : A -> Prop) (p : prog A) : all_ev plain p -> (forall a, P a) -> blind P p.
Proof using Type. intros H HP. apply bl_plain; [done|]. by apply leaves_all. Qed.
Lemma bl_vis {A} (Q : A -> Prop) e k :
  sees e -> same_for e k -> (forall r, gives e r -> resp_ok e r -> blind Q (k r)) -> blind Q (Vis e k).
Proof using Type. intros H1 H2 H3. exact (conj H1 (conj H2 H3)). Qed.
Lemma bl_ret {A} (Q : A -> Prop) a : Q a -> blind Q (Ret a).
Proof using Type. done. Qed.
Lemma bl_call e (Q : resp e -> Prop) :
  sees e -> same_for e Ret -> (forall r, gives e r -> resp_ok e r -> Q r) -> blind Q (call e).
Proof using Type. intros H1 H2 H3. exact (conj H1 (conj H2 H3)). Qed.
End secret.
Global Arguments blind : simpl never.
Ltac pl := apply bl_plain_all; [by auto with ev|intros ?].
Ltac bl_step :=
  match goal with
  | |- blind _ _ (bind _ _) => apply bl_bind
  | |- blind _ _ (bindR _ _) => apply bl_bindR
  | |- blind _ _ (io_call _) => apply bl_io_call
  | |- blind _ _ (call _) => apply bl_plain_all; [apply all_ev_call; exact I|intros ?]
  | |- blind _ ?P (Ret ?a) => change (P a); cbv beta iota
  | |- blind _ _ (Fail _) => exact I
  | |- blind _ _ (match ?x with _ => _ end) => destruct x
  | |- blind _ _ (let _ := _ in _) => cbv zeta
  | |- blind _ _ (if ?x then _ else _) => destruct x
  end.
Ltac bl := repeat (cbv beta iota; first [done | bl_step]).

Section server.
Context (n0 : nat) (en : env) (be : backend) (fuel : nat).
Notation BL := (blind n0).

Lemma plain_read n : plain (ERead n). Proof using Type. done. Qed.
Lemma plain_out b : plain (EOut b). Proof using Type. done. Qed.
Lemma plain_flush : plain EFlush. Proof using Type. done. Qed.
Hint Resolve plain_read plain_out plain_flush : ev.

Lemma bl_lock_from_id id (Q : res (option lock) -> Prop) : (forall r, Q r) -> BL Q (lock_from_id en be id).
Proof using Type.
  intros HQ. unfold lock_from_id. apply bl_bind, bl_plain_all; [done|]. intros [h|e].
  2: { destruct (decide _); apply HQ. }
  match goal with |- blind _ _ (bindR _ ?f) =>
    change (BL Q (Vis (EReadAll h) (fun r => match res_of_io r with Ok a => f a | Er e => Ret (Er e) end))) end.
  apply bl_vis; [done| |].
  - intros d1 d2 E. cbn [res_of_io]. by rewrite E.
  - intros [d|e] _ _; cbn [res_of_io]; [|apply HQ]. unfold user_for_file. bl; apply HQ.
Qed.
Lemma bl_lock_from_path p (Q : res (option lock) -> Prop) : (forall r, Q r) -> BL Q (lock_from_path en be p).
Proof using Type. intros HQ. unfold lock_from_path. apply bl_bind, bl_lock_from_id. intros r. bl; apply HQ. Qed.
Lemma bl_collect cur ns b n (Q : list lock -> Prop) : (forall r, Q r) -> BL Q (collect_locks en be cur ns b n).
Proof using Type.
  revert b n Q. induction ns as [|f ns IH]; intros b [|n] Q HQ; cbn [collect_locks]; try apply HQ.
  apply bl_bind, bl_lock_from_id. intros [[l|]|e]; [|by apply IH|by apply IH].
  destruct (b && _); [by apply IH|]. apply bl_bind, IH. intros ls. apply HQ.
Qed.
Lemma bl_list_items cur n (Q : res (list lock) -> Prop) : (forall r, Q r) -> BL Q (list_lock_items en be cur n).
Proof using Type.
  intros HQ. unfold list_lock_items. apply bl_bind, bl_plain_all; [done|]. intros [ns|e]; [|apply HQ].
  apply bl_bind, bl_collect. intros ls. apply HQ.
Qed.

Definition no_reader (r : res status) : Prop := match r with Ok st => st_reader st = None | Er _ => True end.

Lemma pl_read_to_type f p : all_ev plain (read_to_type f p).
Proof using Type. by apply rd_read_to_type. Qed.
Lemma pl_send m : all_ev plain (send m).
Proof using Type. by apply wr_send. Qed.
Lemma bl_args l : BL (fun _ => True) (as_arguments en l).
Proof using Type. unfold as_arguments, formatted_timestamp. bl. Qed.
Lemma bl_spec o l : BL (fun _ => True) (as_lock_spec en o l).
Proof using Type. unfold as_lock_spec, formatted_timestamp. bl. Qed.
Lemma bl_specs o ls : BL (fun _ => True) (lock_specs en o ls).
Proof using Type.
  induction ls as [|l ls IH]; cbn [lock_specs]; [done|]. apply bl_bind. eapply bl_mono; [|apply bl_spec]. intros s _.
  apply bl_bind. eapply bl_mono; [|exact IH]. done.
Qed.

Lemma bl_copy f fd got rb : (n0 <= fd)%nat -> BL (fun _ => True) (copy_to_file f fd got rb).
Proof using Type.
  intros Hfd. revert got rb. induction f as [|f IH]; intros got rb; cbn [copy_to_file]; [done|].
  apply bl_bind, bl_plain_all; [by apply rd_reader_read|]. intros [[[|x d]|e] rb']; [done| |done].
  apply bl_bind. apply bl_call; [done|done|]. intros [[]|e] _ _; [apply IH|done].
Qed.
Lemma bl_start o rb : BL (fun _ => True) (start_upload be fuel o rb).
Proof using Type.
  unfold start_upload. apply bl_bind. apply bl_call; [done|done|]. intros [[tmp fd]|e] Hr _; [|done]. cbn in Hr.
  apply bl_bind. eapply bl_mono; [|by apply bl_copy]. intros [[got|e] rb'] _; [done|]. unfold drop_temp. bl.
Qed.
Lemma pl_finish st : all_ev plain (finish_upload be st).
Proof using Type. unfold finish_upload, fix_permissions, drop_temp. ev. Qed.
Lemma bl_create p : BL (fun _ => True) (lock_create en be p).
Proof using Type.
  unfold lock_create. apply bl_bind, bl_plain_all; [unfold timestamp; ev|]. intros t.
  apply bl_bind. unfold lockfile_write. apply bl_bind. apply bl_call; [done|done|]. intros [fd|e] Hr _; cbn in Hr.
  - apply bl_io_call. apply bl_call; [done|done|]. intros r _ _. cbn.
    destruct r as [[]|e]; unfold lockfile_persist, lockfile_drop, user_for_file, timestamp; bl.
  - unfold lockfile_drop. bl.
Qed.

Lemma bl_command b rb : BL (fun x => no_reader x.1) (handle_command en be fuel (dispatch b Upload) Upload rb).
Proof using Type.
  assert (Hp : forall p : prog (res status), BL no_reader p -> BL (fun x => no_reader x.1) (let! r := p in Ret (r, rb))).
  { intros p Hp. apply bl_bind. eapply bl_mono; [|exact Hp]. by intros r H. }
  assert (Hf : BL (fun _ => True) (read_to_flush_wrapped fuel)).
  { unfold read_to_flush_wrapped, read_to_flush. apply bl_bind, bl_plain_all; [apply pl_read_to_type|]. done. }
  assert (Hfl : BL (fun _ => True) (read_to_flush fuel)) by (apply bl_plain_all; [apply pl_read_to_type|done]).
  assert (Hor : forall x (Q : res argmap -> Prop), (forall r, Q r) -> BL Q (or_panic x)).
  { intros x Q HQ. unfold or_panic. by bl. }
  assert (Her : forall c t, BL no_reader (p_error c t)) by done.
  destruct (dispatch b Upload) as [| | |o|o|o| | | |i| |] eqn:E; cbn [handle_command]; try (apply Hp, Her).
  - apply Hp. unfold p_version. apply bl_bindR. eapply bl_mono; [|exact Hfl]. by intros [] _.
  - apply Hp. unfold is_upload, p_upload_batch, p_batch, read_batch. apply bl_bindR, bl_bindR.
    apply bl_plain_all; [apply pl_read_to_type|]. intros [ls|e]; [|done]. apply bl_bindR, Hor. intros [a|e]; [|done].
    apply bl_bindR. eapply bl_mono; [|exact Hf]. intros [d|e] _; [|done].
    assert (Hb : forall os, all_ev plain (backend_batch be os)).
    { induction os as [|[? ?] os IH]; simpl; unfold size_at_path; ev. }
    assert (Hr : BL (fun r : res (list batch_item) => match r with
        | Ok items => BL no_reader (Ret (Ok (st_new_success (map (batch_out (bs "noop") (bs "upload")) items))))
        | Er e => no_reader (Er e) end)
      (let? oids := Ret (batch_lines d) in let! items := backend_batch be oids in Ret (Ok items))).
    { apply bl_bindR. unfold blind at 1. destruct (batch_lines d) as [os|e]; [|done]. apply bl_bind, bl_plain_all; [apply Hb|done]. }
    cbv zeta. destruct (a !! bs "hash-algo") as [x|]; [destruct (decide _)|]; [exact Hr|done|exact Hr].
  - unfold p_put_object. destruct (oid_new o) as [o'|e]; [|done]. apply bl_bind, bl_bindR.
    apply bl_plain_all; [apply pl_read_to_type|]. intros [ls|e]; [|done]. apply bl_bindR, Hor. intros [a|e]; [|done].
    cbn. destruct (size_from_arguments a) as [n|e]; [|done]. apply bl_bind. eapply bl_mono; [|apply bl_start].
    intros [[[st got]|e] rb'] _; [|done]. unfold drop_temp. cbv zeta.
    destruct (_ <? _)%N; [bl|]. destruct (_ <? _)%N; [bl|]. destruct (oid_new _) as [ao|e]; [|bl].
    destruct (decide _); [bl|]. apply bl_bind, bl_plain_all; [apply pl_finish|]. by intros [].
  - apply Hp. unfold p_verify_object. apply bl_bindR. eapply bl_mono; [|exact Hfl]. intros [d|e] _; [|done].
    apply bl_bindR, Hor. intros [a|e]; [|done]. apply bl_bindR, bl_ret.
    destruct (oid_new o) as [o'|e]; [|done]. unfold backend_verify. apply bl_bindR, bl_ret.
    destruct (parse_value_as_integer a (bs "size")) as [n|e]; [|done]. bl.
  - exfalso. unfold dispatch in E. repeat case_match; congruence.
  - apply Hp. unfold p_lock. apply bl_bindR. eapply bl_mono; [|exact Hf]. intros [d|e] _; [|done].
    apply bl_bindR, Hor. intros [a|e]; [|done]. destruct (a !! bs "path") as [p|]; [|done].
    destruct (a !! bs "refname") as [rn|]; [|done]. apply bl_bind. eapply bl_mono; [|apply bl_create].
    intros [l|e] _; [apply bl_bind; eapply bl_mono; [|apply bl_args]; done|].
    destruct (decide _); [|done]. apply bl_bind, bl_lock_from_path. intros [[l|]|e']; [|done|done].
    apply bl_bind. eapply bl_mono; [|apply bl_args]. done.
  - apply Hp. unfold p_list_locks. apply bl_bindR. eapply bl_mono; [|exact Hf]. intros [d|e] _; [|done].
    apply bl_bindR, Hor. intros [a|e]; [|done]. apply bl_bindR, bl_ret.
    match goal with |- match ?x with _ => _ end => destruct x as [n|e]; [|done] end.
    change (BL no_reader (if (n =? 0)%N then Ret (Er (err_msg NotAllowed (bs "bizarre request for no data"))) else
      let limit := N.to_nat (if (100 <? n)%N then 100 else n) in
      let cursor := a !! bs "cursor" in
      match a !! bs "path" with
      | Some p => p_list_for_path en be p cursor (is_upload Upload)
      | None =>
        let? items := list_lock_items en be cursor (limit + 1) in
        let! specs := lock_specs en (is_upload Upload) items in
        let next := match items !! limit with
                    | Some l => if (length items =? limit + 1)%nat
                                then [bs "next-cursor=" ++ lk_id en l ++ [NL]] else []
                    | None => []
                    end in
        Ret (Ok (st_success_with_data 200 next specs))
      end)).
    destruct (n =? 0)%N; [done|]. cbv zeta. destruct (a !! bs "path") as [p|].
    + unfold p_list_for_path. apply bl_bind, bl_lock_from_path. intros [[l|]|e']; [|done|done].
      destruct (match _ with Some _ => _ | None => _ end); [done|].
      apply bl_bind. eapply bl_mono; [|apply bl_spec]. done.
    + apply bl_bindR, bl_list_items. intros [items|e']; [|done].
      apply bl_bind. eapply bl_mono; [|apply bl_specs]. done.
  - apply Hp. unfold p_unlock. apply bl_bindR. eapply bl_mono; [|exact Hfl]. intros [d|e] _; [|done].
    destruct (utf8_valid i); [|done]. apply bl_bind, bl_lock_from_id. intros [[l|]|e']; [|done|done].
    apply bl_bind. eapply bl_mono; [|apply bl_args]. intros a _. unfold lock_unlock. bl.
Qed.

Lemma bl_answer st : st_reader st = None -> BL (fun _ => True) (answer fuel st).
Proof using Type.
  intros Hst. unfold answer, send_status. rewrite Hst. apply bl_plain_all; [|done].
  ev; try (by apply wr_send); try (by apply wr_send_all); try (by apply wr_delim); by apply wr_flush.
Qed.
Lemma bl_answer_error c t : BL (fun _ => True) (answer_error c t).
Proof using Type. apply bl_plain_all; [|done]. unfold answer_error. ev. by apply wr_send_error. Qed.
Lemma bl_one rb : BL (fun _ => True) (process_one en be fuel Upload rb).
Proof using Type.
  unfold process_one. apply bl_bind, bl_plain_all; [by apply rd_read_packet|]. intros [p|e]; [|done].
  assert (He : forall c t, BL (fun _ => True) (and_go_on rb (answer_error c t))).
  { intros c t. apply bl_bind. eapply bl_mono; [|apply bl_answer_error]. done. }
  destruct (pkt_data p) as [[|x b]|]; [apply He| |apply He].
  assert (G : BL (fun _ => True) (let! (r, rb') := handle_command en be fuel (dispatch (command_words (x :: b)) Upload) Upload rb in
    and_go_on rb' (answer fuel (status_of r)))).
  { apply bl_bind. eapply bl_mono; [|apply bl_command]. intros [r rb'] Hr. apply bl_bind.
    eapply bl_mono; [|apply bl_answer]; [done|]. destruct r as [st|e]; [done|]. simpl. unfold status_of_error. by destruct (client_error _). }
  destruct (dispatch (command_words (x :: b)) Upload); try exact G.
  apply bl_bind. eapply bl_mono; [|by apply bl_answer]. done.
Qed.
Lemma bl_commands n rb : BL (fun _ => True) (process_commands en be fuel n Upload rb).
Proof using Type.
  revert rb. induction n as [|n IH]; intros rb; cbn [process_commands]; [done|].
  apply bl_bind. eapply bl_mono; [|apply bl_one]. intros [rb'|r] _; [apply IH|done].
Qed.
End server.

Lemma bl_main n0 p : is_upload_server p -> blind n0 (fun _ => True) p.
Proof.
  intros (en & fuel & lfs & cfg & ->). unfold transfer_main, transfer_main_internal. apply bl_bind, bl_bindR.
  apply bl_plain_all.
  { unfold set_permissions, shared_perms. ev. }
  intros [u|e]; [|done]. unfold transfer_run. apply bl_bindR, bl_plain_all.
  { unfold create_directories. induction dir_names as [|d ds IH]; simpl; ev. }
  intros [[]|e]; [|done]. apply bl_bindR, bl_plain_all.
  { unfold send_capabilities. ev; [by apply wr_send|by apply wr_flush]. }
  intros [[]|e]; [|done]. change (mode_of (bs "upload")) with (Some Upload). eapply bl_mono; [|apply bl_commands].
  by intros [].
Qed.

(** ** Two runs *)
Section sim.
Context (n0 : nat).
Definition like (x y : inode) : Prop :=
  length (i_data x) = length (i_data y) /\ lock_parse (i_data x) = lock_parse (i_data y) /\
  i_uid x = i_uid y /\ i_mode x = i_mode y /\ i_creator x = i_creator y /\ i_temp x = i_temp y.
Record sim (s1 s2 : fs) : Prop := Sim {
  sim_nodes : nodes s1 = nodes s2;
  sim_hist : hist s1 = hist s2;
  sim_len : length (inodes s1) = length (inodes s2);
  sim_low : (n0 <= length (inodes s1))%nat;
  sim_like : forall i x y, inodes s1 !! i = Some x -> inodes s2 !! i = Some y -> like x y /\ ((n0 <= i)%nat -> x = y) }.

Lemma sim_inode s1 s2 i : sim s1 s2 ->
  match inode_at s1 i, inode_at s2 i with
  | Some x, Some y => like x y /\ ((n0 <= i)%nat -> x = y) | None, None => True | _, _ => False end.
Proof using Type.
  intros H. unfold inode_at. destruct (inodes s1 !! i) as [x|] eqn:E1, (inodes s2 !! i) as [y|] eqn:E2; [|..|done].
  - by eapply sim_like.
  - apply lookup_lt_Some in E1. apply lookup_ge_None in E2. rewrite (sim_len _ _ H) in E1. lia.
  - apply lookup_lt_Some in E2. apply lookup_ge_None in E1. rewrite (sim_len _ _ H) in E1. lia.
Qed.
Lemma sim_data s1 s2 i : sim s1 s2 ->
  length (fs_data i s1) = length (fs_data i s2) /\ lock_parse (fs_data i s1) = lock_parse (fs_data i s2).
Proof using Type.
  intros H. pose proof (sim_inode s1 s2 i H) as G. unfold fs_data.
  destruct (inode_at s1 i), (inode_at s2 i); try done. destruct G as [(? & ? & _) _]. done.
Qed.
Lemma sim_node_at s1 s2 p : sim s1 s2 -> node_at s1 p = node_at s2 p.
Proof using Type. intros H. unfold node_at. by rewrite (sim_nodes _ _ H). Qed.
Lemma sim_walk s1 s2 cs : sim s1 s2 -> forall cur, walk s1 cur cs = walk s2 cur cs.
Proof using Type.
  intros H. induction cs as [|c cs IH]; intros cur; [done|]. cbn [walk]. rewrite (sim_node_at _ _ _ H), !IH. done.
Qed.
Lemma sim_resolve s1 s2 p : sim s1 s2 -> resolve s1 p = resolve s2 p.
Proof using Type. intros H. unfold resolve. by rewrite (sim_walk _ _ _ H). Qed.
Lemma sim_file_at s1 s2 p : sim s1 s2 -> file_at s1 p = file_at s2 p.
Proof using Type.
  intros H. unfold file_at. rewrite (sim_resolve _ _ _ H). destruct (resolve s2 p) as [e|q]; [done|].
  by rewrite (sim_node_at _ _ _ H).
Qed.
Lemma sim_set_nodes f s1 s2 : sim s1 s2 -> sim (set_nodes f s1) (set_nodes f s2).
Proof using Type. intros [H1 H2 H3 H4 H5]. split; simpl; try done. by rewrite H1. Qed.
Lemma sim_log pid x s1 s2 : sim s1 s2 -> sim (log pid x s1) (log pid x s2).
Proof using Type. intros [H1 H2 H3 H4 H5]. split; simpl; try done. by rewrite H2. Qed.
Lemma sim_alloc x s1 s2 : sim s1 s2 -> (alloc x s1).1 = (alloc x s2).1 /\ sim (alloc x s1).2 (alloc x s2).2.
Proof using Type.
  intros [H1 H2 H3 H4 H5]. split; [done|]. split; simpl; try done.
  - rewrite !app_length. simpl. lia.
  - rewrite app_length. lia.
  - intros i y z Hy Hz. apply lookup_app_Some in Hy as [Hy|[Hl Hy]], Hz as [Hz|[Hl' Hz]].
    + by eapply H5.
    + apply lookup_lt_Some in Hy. lia.
    + apply lookup_lt_Some in Hz. lia.
    + rewrite H3 in Hy. rewrite Hy in Hz. injection Hz as <-. done.
Qed.
Lemma sim_upd i f s1 s2 : sim s1 s2 -> (forall x y, like x y /\ ((n0 <= i)%nat -> x = y) -> like (f x) (f y)) ->
  sim (upd_inode i f s1) (upd_inode i f s2).
Proof using Type.
  intros [H1 H2 H3 H4 H5] Hf. split; simpl; try done.
  - by rewrite !alter_length.
  - by rewrite alter_length.
  - intros j x y Hx Hy. destruct (decide (i = j)) as [->|Hne].
    + rewrite list_lookup_alter in Hx, Hy. apply fmap_Some in Hx as (x' & Ex & ->), Hy as (y' & Ey & ->).
      destruct (H5 j x' y' Ex Ey) as [G1 G2]. split; [by apply Hf|]. intros Hj. by rewrite (G2 Hj).
    + rewrite list_lookup_alter_ne in Hx, Hy by done. by eapply H5.
Qed.
Lemma sim_children s1 s2 d : sim s1 s2 -> children s1 d = children s2 d.
Proof using Type. intros H. unfold children. by rewrite (sim_nodes _ _ H). Qed.
Lemma sim_max s1 s2 : sim s1 s2 -> max_name s1 = max_name s2.
Proof using Type. intros H. unfold max_name. by rewrite (sim_nodes _ _ H). Qed.
Lemma sim_free s1 s2 d w : sim s1 s2 -> free_name s1 d w = free_name s2 d w.
Proof using Type. intros H. unfold free_name. by rewrite (sim_nodes _ _ H), (sim_max _ _ H). Qed.
Lemma sim_mkdirs s1 s2 cur cs : sim s1 s2 ->
  match fs_mkdirs s1 cur cs, fs_mkdirs s2 cur cs with inl e, inl e' => e = e' | inr x, inr y => sim x y | _, _ => False end.
Proof using Type.
  revert s1 s2 cur. induction cs as [|c cs IH]; intros s1 s2 cur H; cbn [fs_mkdirs]; [done|].
  rewrite (sim_nodes _ _ H). destruct (nodes s2 !! (cur ++ [c])) as [[|j]|]; [by apply IH|done|].
  apply IH. by apply sim_set_nodes.
Qed.

Lemma sim_step pid e o l s1 s2 : sees n0 e -> sim s1 s2 ->
  exists r1 r2 l' s1' s2', handle_ev pid e o l s1 = (r1, l', s1') /\ handle_ev pid e o l s2 = (r2, l', s2') /\
    sim s1' s2' /\ gives n0 e r1 /\ forall A (k : resp e -> prog A), same_for e k -> k r1 = k r2.
Proof using Type.
  intros He H.
  assert (Eq : forall (r1 r2 : resp e) l' s1' s2', handle_ev pid e o l s1 = (r1, l', s1') ->
    handle_ev pid e o l s2 = (r2, l', s2') -> r1 = r2 -> sim s1' s2' -> gives n0 e r1 ->
    exists r1 r2 l' s1' s2', handle_ev pid e o l s1 = (r1, l', s1') /\ handle_ev pid e o l s2 = (r2, l', s2') /\
    sim s1' s2' /\ gives n0 e r1 /\ forall A (k : resp e -> prog A), same_for e k -> k r1 = k r2).
  { intros r1 r2 l' s1' s2' E1 E2 <- Hs Hg. by exists r1, r1, l', s1', s2'. }
  assert (Eq' : (handle_ev pid e o l s1).1 = (handle_ev pid e o l s2).1 /\
    sim (handle_ev pid e o l s1).2 (handle_ev pid e o l s2).2 /\ gives n0 e (handle_ev pid e o l s1).1.1 ->
    exists r1 r2 l' s1' s2', handle_ev pid e o l s1 = (r1, l', s1') /\ handle_ev pid e o l s2 = (r2, l', s2') /\
    sim s1' s2' /\ gives n0 e r1 /\ forall A (k : resp e -> prog A), same_for e k -> k r1 = k r2).
  { destruct (handle_ev pid e o l s1) as [[r1 l1] s1'], (handle_ev pid e o l s2) as [[r2 l2] s2']. simpl.
    intros (E & Hs & Hg). injection E as -> ->. by eapply Eq. }
  clear Eq. destruct e as [n|b| |p|dir prefix|i b|a b|p|a b|p|p|h|h off n|h|p|p m|p| |m|c a].
  12: { clear Eq'. cbn [handle_ev gives same_for]. unfold faulty. destruct (o_fault o) as [x|]; [by eexists _, _, _, _, _|].
    eexists _, _, _, _, _. split_and!; [done|done|done|done|]. intros A k Hk. unfold fs_read_all. destruct h as [|j]; [done|].
    apply Hk. by apply sim_data. }
  12: done.
  all: apply Eq'; clear Eq'; cbn [handle_ev sees gives] in *; unfold faulty, with_l.
  - destruct (o_fault o); [done|]. by destruct (do_read n l).
  - by destruct (o_fault o).
  - by destruct (o_fault o).
  - destruct (o_fault o); [done|]. unfold fs_mkdir_all. pose proof (sim_mkdirs s1 s2 [] p H) as G.
    destruct (fs_mkdirs s1 [] p), (fs_mkdirs s2 [] p); try done. by subst.
  - destruct (o_fault o); [done|]. unfold fs_mktemp. rewrite (sim_resolve _ _ _ H). destruct (resolve s2 dir) as [e|d]; [done|].
    rewrite (sim_node_at _ _ _ H). destruct (node_at s2 d) as [[|j]|]; [|done|done].
    rewrite (sim_free _ _ _ _ H). 
    match goal with |- context [alloc ?x s1] => pose proof (sim_alloc x s1 s2 H) as [G1 G2] end.
    match goal with |- context [alloc ?x s1] => destruct (alloc x s1) as [i s1'] eqn:E1, (alloc x s2) as [i' s2'] end.
    simpl in *. subst i'. split_and!; [done|by apply sim_set_nodes|]. 
    injection E1 as <- _. apply (sim_low _ _ H).
  - assert (G : forall b', (fs_write i b' s1).1 = (fs_write i b' s2).1 /\ sim (fs_write i b' s1).2 (fs_write i b' s2).2).
    { intros b'. unfold fs_write. pose proof (sim_inode s1 s2 i H) as G.
      destruct (inode_at s1 i) as [x|], (inode_at s2 i) as [y|]; try done. split; [done|]. apply sim_upd; [done|].
      intros x' y' [_ Hxy]. rewrite (Hxy He). done. }
    destruct (o_fault o); simpl; [by destruct (G (take (o_part o) b))|]. destruct (G b) as [G1 G2]. by rewrite G1.
  - destruct (o_fault o); [done|]. unfold fs_rename. rewrite (sim_file_at _ _ _ H), (sim_resolve _ _ _ H).
    destruct (file_at s2 a) as [e|[qa j]]; [done|]. destruct (resolve s2 b) as [e|qb]; [done|].
    rewrite (sim_node_at _ _ _ H). destruct (node_at s2 qb) as [[|j']|]; [done|..]; split_and!; try done; by apply sim_set_nodes.
  - destruct (o_fault o); [done|]. unfold fs_unlink. rewrite (sim_file_at _ _ _ H).
    destruct (file_at s2 p) as [e|[qa j]]; [done|]. split_and!; try done. by apply sim_log, sim_set_nodes.
  - destruct (o_fault o); [done|]. unfold fs_link. rewrite (sim_file_at _ _ _ H), (sim_resolve _ _ _ H).
    destruct (file_at s2 a) as [e|[qa j]]; [done|]. destruct (resolve s2 b) as [e|qb]; [done|].
    rewrite (sim_node_at _ _ _ H). destruct (node_at s2 qb) as [?|]; [done|]. split_and!; try done. by apply sim_log, sim_set_nodes.
  - destruct (o_fault o); [done|]. unfold fs_create_new. rewrite (sim_resolve _ _ _ H). destruct (resolve s2 p) as [e|d]; [done|].
    rewrite (sim_node_at _ _ _ H). destruct (node_at s2 d) as [?|]; [done|].
    match goal with |- context [alloc ?x s1] => pose proof (sim_alloc x s1 s2 H) as [G1 G2] end.
    match goal with |- context [alloc ?x s1] => destruct (alloc x s1) as [i s1'] eqn:E1, (alloc x s2) as [i' s2'] end.
    simpl in *. subst i'. split_and!; [done|by apply sim_set_nodes|].
    injection E1 as <- _. apply (sim_low _ _ H).
  - destruct (o_fault o); [done|]. unfold fs_open. rewrite (sim_resolve _ _ _ H). destruct (resolve s2 p) as [e|d]; [done|].
    by rewrite (sim_node_at _ _ _ H).
  - destruct (o_fault o); [done|]. unfold fs_fstat, lenN. destruct h as [|j]; [done|].
    destruct (sim_data s1 s2 j H) as [-> _]. done.
  - destruct (o_fault o); [done|]. unfold fs_stat, lenN. rewrite (sim_resolve _ _ _ H). destruct (resolve s2 p) as [e|d]; [done|].
    rewrite (sim_node_at _ _ _ H). destruct (node_at s2 d) as [[|j]|]; [done| |done].
    destruct (sim_data s1 s2 j H) as [-> _]. pose proof (sim_inode s1 s2 j H) as G.
    destruct (inode_at s1 j) as [x|], (inode_at s2 j) as [y|]; try done. destruct G as [(_ & _ & -> & _) _]. done.
  - destruct (o_fault o); [done|]. unfold fs_chmod. rewrite (sim_resolve _ _ _ H). destruct (resolve s2 p) as [e|d]; [done|].
    rewrite (sim_node_at _ _ _ H). destruct (node_at s2 d) as [[|j]|]; [done| |done]. split_and!; [done| |done].
    apply sim_upd; [done|]. intros x y [(G1 & G2 & G3 & G4 & G5 & G6) _]. done.
  - destruct (o_fault o); [done|]. unfold fs_readdir. rewrite (sim_resolve _ _ _ H). destruct (resolve s2 p) as [e|d]; [done|].
    rewrite (sim_node_at _ _ _ H), (sim_children _ _ _ H). done.
  - done.
  - done.
  - split_and!; [done| |done]. by apply sim_log.
Qed.
End sim.

(** ** Systems *)
Lemma c16_run n0 pid {A} (p : prog A) os l s1 s2 : blind n0 (fun _ => True) p -> sim n0 s1 s2 ->
  (run pid p os l s1).1 = (run pid p os l s2).1 /\ sim n0 (run pid p os l s1).2 (run pid p os l s2).2.
Proof.
  revert os l s1 s2. induction p as [a|f|e k IH]; intros os l s1 s2 Hp H; [done|done|].
  destruct Hp as (H1 & H2 & H3). destruct (sim_step n0 pid e (os 0%nat) l s1 s2 H1 H) as (r1 & r2 & l' & s1' & s2' & E1 & E2 & Hs & Hg & Hk).
  cbn [run]. pose proof (handle_resp_ok pid e (os 0%nat) l s1) as Hok. rewrite E1 in *. rewrite E2. rewrite <- (Hk _ k H2).
  apply IH; [|done]. by apply H3.
Qed.

Definition all_blind n0 (ps : list (proc (Z * bytes))) : Prop := Forall (fun p => blind n0 (fun _ => True) (pr_prog p)) ps.
Lemma c16_step n0 c ps s1 s2 : all_blind n0 ps -> sim n0 s1 s2 ->
  exists ps' s1' s2', sys_step (Sys ps s1) c = Sys ps' s1' /\ sys_step (Sys ps s2) c = Sys ps' s2' /\ all_blind n0 ps' /\ sim n0 s1' s2'.
Proof.
  intros Hps H. unfold sys_step. cbn [procs shared]. destruct (ps !! c_pid c) as [p|] eqn:Ep; [|by eexists _, _, _].
  pose proof (Forall_lookup_1 _ _ _ _ Hps Ep) as Hp. unfold proc_step.
  assert (Hins : forall q, blind n0 (fun _ => True) (pr_prog q) -> all_blind n0 (<[c_pid c := q]> ps)).
  { intros q Hq. by apply Forall_insert. }
  destruct (pr_dead p); [eexists _, _, _; split_and!; [done|done|by apply Hins|done]|].
  destruct (c_act c) as [o|]; [|eexists _, _, _; split_and!; [done|done|by apply Hins|done]].
  destruct p as [[a|f|e k] lp dead]; cbn [pr_prog pr_local] in *;
    [eexists _, _, _; split_and!; [done|done|by apply Hins|done]..|].
  destruct Hp as (H1 & H2 & H3).
  destruct (sim_step n0 (c_pid c) e o lp s1 s2 H1 H) as (r1 & r2 & l' & s1' & s2' & E1 & E2 & Hs & Hg & Hk).
  pose proof (handle_resp_ok (c_pid c) e o lp s1) as Hok. rewrite E1 in *. rewrite E2. rewrite <- (Hk _ k H2).
  eexists _, _, _. split_and!; [done|done|apply Hins; by apply H3|done].
Qed.
Lemma c16_sys n0 cs ps s1 s2 : all_blind n0 ps -> sim n0 s1 s2 ->
  procs (sys_run cs (Sys ps s1)) = procs (sys_run cs (Sys ps s2)) /\
  sim n0 (shared (sys_run cs (Sys ps s1))) (shared (sys_run cs (Sys ps s2))).
Proof.
  revert ps s1 s2. induction cs as [|c cs IH]; intros ps s1 s2 Hps H; [done|].
  destruct (c16_step n0 c ps s1 s2 Hps H) as (ps' & s1' & s2' & E1 & E2 & Hps' & H').
  cbn [sys_run fold_left]. rewrite E1, E2. by apply IH.
Qed.
Lemma alike_sim s1 s2 : alike_files s1 s2 -> sim (length (inodes s1)) s1 s2.
Proof.
  intros (H1 & H2 & H3). pose proof (Forall2_length _ _ _ H3) as Hl. split; try done.
  intros i x y Hx Hy. destruct (Forall2_lookup_lr _ _ _ _ _ _ H3 Hx Hy) as (G & ? & ? & ? & ?). split.
  - split_and!; try done; [apply G|]. by apply alike_parse.
  - apply lookup_lt_Some in Hx. lia.
Qed.
Lemma c16 cs ps s1 s2 : Forall (fun p => is_upload_server (pr_prog p)) ps -> alike_files s1 s2 ->
  procs (sys_run cs (Sys ps s1)) = procs (sys_run cs (Sys ps s2)).
Proof.
  intros Hps H. apply (c16_sys (length (inodes s1))); [|by apply alike_sim]. eapply Forall_impl; [exact Hps|].
  intros p. apply bl_main.
Qed.
