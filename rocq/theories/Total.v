(** Every session under any oracle: how far it reads, what it writes, how it
    ends. *)
From Verif Require Import Bytes ByteFacts Err FS Prog Pktline Args Local Processor Transfer
  Wp Rg ServerEv PktFacts ReaderFacts FsFacts Spec SpecStore SpecServer SpecEnd PktProofs IoFacts SeqIo SeqCmd Session Faults GetProofs.

(** ** Where a program may end *)

(** Every result of [p], whatever the calls return, satisfies [P]. *)
Fixpoint leaves {A} (P : A -> Prop) (p : prog A) : Prop :=
  match p with
  | Ret a => P a
  | Fail _ => True
  | Vis e k => forall r, leaves P (k r)
  end.

Lemma leaves_bind {A B} (P : B -> Prop) (p : prog A) (f : A -> prog B) :
  leaves (fun a => leaves P (f a)) p -> leaves P (bind p f).
Proof. induction p as [a|x|e k IH]; [done|done|]. intros H r. apply IH, H. Qed.
Lemma leaves_bindR {A B} (P : res B -> Prop) (p : prog (res A)) (f : A -> prog (res B)) :
  leaves (fun r => match r with Ok a => leaves P (f a) | Er e => P (Er e) end) p ->
  leaves P (bindR p f).
Proof.
  intros H. apply leaves_bind. induction p as [[a|e]|x|e k IH]; [done|done|done|].
  intros r. apply IH, H.
Qed.
Lemma leaves_io_call {A} (P : res A -> Prop) (p : prog (iores A)) :
  leaves (fun r => P (res_of_io r)) p -> leaves P (io_call p).
Proof. intros H. by apply leaves_bind. Qed.
Lemma leaves_mono {A} (P Q : A -> Prop) (p : prog A) :
  (forall a, P a -> Q a) -> leaves P p -> leaves Q p.
Proof. intros HPQ. induction p as [a|x|e k IH]; [apply HPQ|done|]. intros H r. apply IH, H. Qed.
Lemma leaves_all {A} (P : A -> Prop) (p : prog A) : (forall a, P a) -> leaves P p.
Proof. intros HP. induction p as [a|x|e k IH]; [apply HP|done|]. intros r. apply IH. Qed.
Lemma leaves_call (e : ev) (P : resp e -> Prop) : (forall r, P r) -> leaves P (call e).
Proof. intros H r. apply H. Qed.

Lemma leaves_ret {A} (P : A -> Prop) a : P a -> leaves P (Ret a).
Proof. done. Qed.

Lemma leaves_run {A} pid (P : A -> Prop) (p : prog A) os l s a l' s' :
  leaves P p -> run pid p os l s = (Done a, l', s') -> P a.
Proof.
  revert os l s. induction p as [b|x|e k IH]; intros os l s H; simpl; [by intros [= <- _ _]|done|].
  destruct (handle_ev pid e (os 0) l s) as [[r l1] s1]. by apply IH.
Qed.

Lemma wp_leaves {A} pid ok F (P : A -> Prop) (p : prog A) (Q : A -> local -> fs -> Prop) l s :
  leaves P p -> wp pid ok F p (fun a l s => P a -> Q a l s) l s -> wp pid ok F p Q l s.
Proof.
  revert l s. induction p as [a|x|e k IH]; intros l s H; [intros X; by apply X|done|].
  intros X. apply wp_vis. intros o Ho. specialize (X o Ho). destruct (handle_ev pid e o l s) as [[r l1] s1]. by apply IH.
Qed.

Global Arguments leaves : simpl never.

Ltac lv_step :=
  match goal with
  | |- leaves _ (bind _ _) => apply leaves_bind
  | |- leaves _ (bindR _ _) => apply leaves_bindR
  | |- leaves _ (io_call _) => apply leaves_io_call
  | |- leaves _ (call _) => apply leaves_call; intros ?
  | |- leaves _ (Ret _) => apply leaves_ret; cbv beta iota
  | |- leaves _ (Fail _) => exact I
  | |- leaves _ (match ?x with _ => _ end) => destruct x
  | |- leaves _ (let _ := _ in _) => cbv zeta
  | |- leaves _ (if ?x then _ else _) => destruct x
  end.
Ltac lv := repeat lv_step.

(** ** Programs that neither read nor write, and do not run out of fuel *)

Definition mute_ev (e : ev) : Prop := match e with ERead _ | EOut _ | EFlush => False | _ => True end.
Fixpoint mute {A} (p : prog A) : Prop :=
  match p with
  | Ret _ => True
  | Fail f => f <> OutOfFuel
  | Vis e k => mute_ev e /\ forall r, mute (k r)
  end.

Lemma mute_bind {A B} (p : prog A) (f : A -> prog B) : mute p -> (forall a, mute (f a)) -> mute (bind p f).
Proof. intros Hp Hf. induction p as [a|x|e k IH]; [apply Hf|done|]. split; [apply Hp|]. intros r. apply IH, Hp. Qed.
Lemma mute_bindR {A B} (p : prog (res A)) (f : A -> prog (res B)) :
  mute p -> (forall a, mute (f a)) -> mute (bindR p f).
Proof. intros Hp Hf. apply mute_bind; [done|]. by intros [a|e]. Qed.
Lemma mute_io_call {A} (p : prog (iores A)) : mute p -> mute (io_call p).
Proof. intros Hp. by apply mute_bind. Qed.
Lemma mute_call e : mute_ev e -> mute (call e).
Proof. by split. Qed.
Global Arguments mute : simpl never.

Create HintDb mute discriminated.
Ltac mu_step :=
  match goal with
  | |- mute (bind _ _) => apply mute_bind; [|intros ?]
  | |- mute (bindR _ _) => apply mute_bindR; [|intros ?]
  | |- mute (io_call _) => apply mute_io_call
  | |- mute (call _) => apply mute_call; exact I
  | |- mute (Ret _) => exact I
  | |- mute (Fail _) => unfold mute; discriminate
  | |- mute (match ?x with _ => _ end) => destruct x
  | |- mute (let _ := _ in _) => cbv zeta
  | |- mute (if ?x then _ else _) => destruct x
  end.
Ltac mu := repeat (first [mu_step | solve [auto with mute]]).

Section mute.
Context (en : env) (be : backend).
Lemma mu_or_panic {A} (r : option (res A)) : mute (or_panic r).
Proof. unfold or_panic. mu. Qed.
Lemma mu_size_at_path o : mute (size_at_path be o).
Proof. unfold size_at_path. mu. Qed.
Hint Resolve mu_size_at_path : mute.
Lemma mu_backend_batch os : mute (backend_batch be os).
Proof. induction os as [|[o n] os IH]; simpl; mu. Qed.
Lemma mu_backend_verify o a : mute (backend_verify be o a).
Proof. unfold backend_verify. mu. Qed.
Lemma mu_backend_download o : mute (backend_download be o).
Proof. unfold backend_download. mu. Qed.
Lemma mu_timestamp : mute (timestamp be).
Proof. unfold timestamp. mu. Qed.
Lemma mu_user_for_file p : mute (user_for_file en p).
Proof. unfold user_for_file. mu. Qed.
Hint Resolve mu_timestamp mu_user_for_file : mute.
Lemma mu_lock_from_id id : mute (lock_from_id en be id).
Proof. unfold lock_from_id. mu. Qed.
Hint Resolve mu_lock_from_id : mute.
Lemma mu_lock_from_path p : mute (lock_from_path en be p).
Proof. unfold lock_from_path. mu. Qed.
Lemma mu_formatted l : mute (formatted_timestamp en l).
Proof. unfold formatted_timestamp. mu. Qed.
Hint Resolve mu_formatted : mute.
Lemma mu_as_arguments l : mute (as_arguments en l).
Proof. unfold as_arguments. mu. Qed.
Lemma mu_as_lock_spec o l : mute (as_lock_spec en o l).
Proof. unfold as_lock_spec. mu. Qed.
Hint Resolve mu_as_lock_spec : mute.
Lemma mu_lock_specs o ls : mute (lock_specs en o ls).
Proof. induction ls as [|l ls IH]; simpl; mu. Qed.
Lemma mu_collect_locks c todo sk n : mute (collect_locks en be c todo sk n).
Proof. revert sk n. induction todo as [|f todo IH]; intros sk n; destruct n; simpl; mu. Qed.
Hint Resolve mu_collect_locks : mute.
Lemma mu_list_lock_items c n : mute (list_lock_items en be c n).
Proof. unfold list_lock_items. mu. Qed.
Lemma mu_lock_create p : mute (lock_create en be p).
Proof. unfold lock_create, lockfile_write, lockfile_persist, lockfile_drop. mu. Qed.
Lemma mu_lock_unlock l : mute (lock_unlock en be l).
Proof. unfold lock_unlock. mu. Qed.
Lemma mu_finish_upload st : mute (finish_upload be st).
Proof. unfold finish_upload, fix_permissions, drop_temp. mu. Qed.
Lemma mu_drop_temp t : mute (drop_temp t).
Proof. unfold drop_temp. mu. Qed.
Lemma mu_error c m : mute (p_error c m).
Proof. unfold p_error. mu. Qed.
Hint Resolve mu_lock_from_path mu_error : mute.
Lemma mu_list_for_path p c o : mute (p_list_for_path en be p c o).
Proof. unfold p_list_for_path. mu. Qed.
End mute.
Global Hint Resolve mu_or_panic mu_backend_batch mu_backend_verify mu_backend_download mu_lock_from_id
  mu_lock_from_path mu_as_arguments mu_lock_specs mu_list_lock_items mu_lock_create mu_lock_unlock
  mu_finish_upload mu_drop_temp mu_error mu_list_for_path : mute.

Definition fueled (f : failure) (l : local) (s : fs) : Prop := f <> OutOfFuel.

Lemma wp_mute {A} pid ok (p : prog A) (Q : A -> local -> fs -> Prop) l s :
  mute p -> (forall a l' s', l_in l' = l_in l -> l_out l' = l_out l -> Q a l' s') ->
  wp pid ok fueled p Q l s.
Proof.
  intros Hp HQ. assert (G : forall l1 s1, l_in l1 = l_in l -> l_out l1 = l_out l -> wp pid ok fueled p Q l1 s1);
    [|by apply G].
  induction p as [a|f|e k IH]; intros l1 s1 H1 H2; [by apply HQ|done|].
  apply wp_vis. intros o _. destruct Hp as [He Hk].
  assert (Hl : l_in (handle_ev pid e o l1 s1).1.2 = l_in l1 /\ l_out (handle_ev pid e o l1 s1).1.2 = l_out l1).
  { destruct e; try done; simpl; unfold faulty, with_l; destruct (o_fault o); try done. }
  destruct (handle_ev pid e o l1 s1) as [[r l2] s2]. simpl in Hl. destruct Hl as [Hl1 Hl2].
  apply IH; [by apply Hk|congruence|congruence].
Qed.

(** Two facts about one run. *)
Lemma wp_conj {A} pid ok F (p : prog A) (Q R : A -> local -> fs -> Prop) l s :
  wp pid ok F p Q l s -> wp pid ok (fun _ _ _ => True) p R l s -> wp pid ok F p (fun a l s => Q a l s /\ R a l s) l s.
Proof.
  revert l s. induction p as [a|f|e k IH]; intros l s H1 H2; [by split|done|].
  apply wp_vis. intros o Ho. specialize (H1 o Ho). specialize (H2 o Ho).
  destruct (handle_ev pid e o l s) as [[r l'] s']. by apply IH.
Qed.

Lemma wp_quiet_ok {A} pid ok (p : prog A) (Q : A -> local -> fs -> Prop) l s :
  all_ev quiet p -> (forall a l' s', same s s' -> Q a l' s') -> wp pid ok (fun _ _ _ => True) p Q l s.
Proof.
  intros Hp HQ. eapply wp_oracle; [|by apply wp_quiet]. done.
Qed.

(** ** Reading *)

Section wp.
Context (pid : nat) (ok : orc -> Prop).
Notation WP := (wp pid ok fueled).

Lemma any_reader_loop f n rb (Q : iores bytes * rbuf -> local -> fs -> Prop) l s :
  (0 < n)%N -> rb_wf rb -> pend rb = [] -> (length (l_in l) < f)%nat ->
  (forall r rb' i, rb_wf rb' ->
     (length (pend rb') + length i + match r with IOk d => length d | IErr _ => 0 end <= length (l_in l))%nat ->
     Q (r, rb') (set_in i l) s) ->
  WP (read_loop f n rb) Q l s.
Proof.
  intros Hn Hwf Hp. revert l. induction f as [|f IH]; intros l Hf HQ; [lia|]. cbn [read_loop].
  apply wp_bind, any_read_one.
  2: { intros e i Hi. apply wp_ret, HQ; [done|]. rewrite Hp. simpl. lia. }
  destruct (decode 65520 (l_in l)) as [[[| |d]|e] i] eqn:E; cbn [fst snd].
  - apply decode_shrink in E. apply wp_ret, HQ; [done|]. rewrite Hp. simpl. lia.
  - apply decode_shrink in E. apply wp_ret, HQ; [done|]. rewrite Hp. simpl. lia.
  - assert (Hnext : WP (read_loop f n rb) Q (set_in i l) s).
    { apply decode_shrink in E. apply IH; [simpl; lia|]. intros r rb' i' H1 H2. rewrite set_in_set_in.
      apply HQ; [done|]. simpl in H2. lia. }
    pose proof (next_data_data 1 (l_in l)) as Hd. cbn [next_data] in Hd. rewrite E in Hd.
    destruct d as [|x d].
    + change (lenN []) with 0%N. cbn. by destruct (negb _).
    + specialize (Hd _ _ eq_refl) as (_ & _ & Hd).
      assert (Hz : (lenN (x :: d) =? 0)%N = false) by (apply N.eqb_neq; unfold lenN; simpl; lia).
      assert (Hpos : (0 <? lenN (x :: d))%N = true) by (apply N.ltb_lt; unfold lenN; simpl; lia).
      rewrite Hpos, Hz. destruct (negb _); apply wp_ret, HQ.
      * unfold rb_wf. simpl rb_off. simpl rb_len. simpl rb_data. lia.
      * unfold pend. simpl rb_off. simpl rb_len. simpl rb_data.
        rewrite !take_length, drop_length. unfold lenN in *. lia.
      * done.
      * rewrite Hp. simpl in *. lia.
  - apply decode_shrink' in E. apply wp_ret, HQ; [done|]. rewrite Hp. simpl. lia.
Qed.

Lemma any_reader_read f n rb (Q : iores bytes * rbuf -> local -> fs -> Prop) l s :
  (0 < n)%N -> rb_wf rb -> (length (l_in l) < f)%nat ->
  (forall r rb' i, rb_wf rb' ->
     (length (pend rb') + length i + match r with IOk d => length d | IErr _ => 0 end
      <= length (pend rb) + length (l_in l))%nat ->
     Q (r, rb') (set_in i l) s) ->
  WP (reader_read f n rb) Q l s.
Proof.
  intros Hn Hwf Hf HQ. unfold reader_read. pose proof (pend_length rb Hwf) as Hl.
  destruct (0 <? N.min (rb_len rb - rb_off rb) n)%N eqn:E.
  - apply N.ltb_lt in E. destruct (N.min _ _ =? _)%N eqn:E2; apply wp_ret; rewrite <- (set_in_id l); apply HQ.
    + unfold rb_wf. simpl. lia.
    + apply N.eqb_eq in E2. unfold pend at 1. simpl. rewrite take_length. lia.
    + apply N.eqb_neq in E2. unfold rb_wf in *. simpl. lia.
    + apply N.eqb_neq in E2. rewrite (pend_length _), take_length, drop_length, Hl.
      * simpl. destruct Hwf. unfold lenN in *. lia.
      * unfold rb_wf in *. simpl. lia.
  - apply N.ltb_ge in E. assert (Hnil : pend rb = []) by (apply nil_length_inv; lia).
    apply any_reader_loop; [done..|]. intros r rb' i H1 H2. apply HQ; [done|]. rewrite Hnil. simpl. lia.
Qed.

Definition ahead (rb : rbuf) (l : local) : nat := length (pend rb) + length (l_in l).

Lemma any_copy_to_file f fd got rb (Q : res bytes * rbuf -> local -> fs -> Prop) l s :
  rb_wf rb -> (ahead rb l + 2 <= f)%nat ->
  (forall r rb' l' s', rb_wf rb' -> (ahead rb' l' <= ahead rb l)%nat -> l_out l' = l_out l -> Q (r, rb') l' s') ->
  WP (copy_to_file f fd got rb) Q l s.
Proof.
  revert got rb l s. induction f as [|f IH]; intros got rb l s Hwf Hf HQ; [lia|]. cbn [copy_to_file].
  unfold ahead in *. apply wp_bind, any_reader_read; [done|done|lia|]. intros r rb' i Hwf' Hlen.
  destruct r as [[|x d]|e].
  - apply wp_ret, HQ; [done|simpl in *; lia|done].
  - apply wp_bind, wp_mute; [by apply mute_call|]. intros w l' s' H1 H2. simpl in H1, H2, Hlen.
    destruct w as [[]|e].
    + apply IH; [done|rewrite H1; lia|]. intros r rb2 l2 s2 H3 H4 H5. rewrite H1 in H4.
      apply HQ; [done|lia|congruence].
    + apply wp_ret, HQ; [done|rewrite H1; lia|congruence].
  - apply wp_ret, HQ; [done|simpl in *; lia|done].
Qed.

Section server.
Context (en : env) (be : backend) (fuel : nat).

(** What a handler leaves behind. *)
Definition handled (l0 : local) (rb0 : rbuf) (x : res status * rbuf) (l : local) (s : fs) : Prop :=
  rb_wf x.2 /\ (ahead x.2 l <= ahead rb0 l0)%nat /\ l_out l = l_out l0.

Lemma any_put_object o rb l s : rb_wf rb -> (ahead rb l + 2 <= fuel)%nat ->
  WP (p_put_object en be fuel o rb) (handled l rb) l s.
Proof.
  intros Hwf Hf. unfold p_put_object. destruct (oid_new o) as [o'|e]; [|apply wp_ret; by split_and!].
  apply wp_bind, wp_bindR, any_read_to_type; [unfold ahead in Hf; lia|]. intros r i Hi.
  assert (Hh : handled l rb (Er (err_simple ParseError), rb) (set_in i l) s) by (unfold handled, ahead; simpl; split_and!; [done|lia|done]).
  destruct r as [lines|e]; [|apply wp_ret; exact Hh].
  assert (Hm : mute (let? args := or_panic (parse_args lines) in Ret (size_from_arguments args))) by mu.
  apply wp_mute; [done|]. intros a l1 s1 H1 H2. simpl in H1, H2.
  destruct a as [expected|e].
  2: { apply wp_ret. unfold handled, ahead in *. simpl in *. rewrite H1. split_and!; [done|lia|done]. }
  apply wp_bind. unfold start_upload. apply wp_bind, wp_mute; [by apply mute_call|].
  intros t l2 s2 H3 H4. destruct t as [[tmp fd]|e].
  2: { apply wp_ret, wp_ret. unfold handled, ahead in *. simpl in *. rewrite H3, H1. split_and!; [done|lia|congruence]. }
  apply wp_bind, any_copy_to_file; [done|unfold ahead in *; rewrite H3, H1; lia|].
  intros r rb' l3 s3 Hwf' Ha Ho.
  assert (Hh3 : forall l4 r s4, l_in l4 = l_in l3 -> l_out l4 = l_out l3 -> handled l rb (r, rb') l4 s4).
  { intros l4 r' s4 H5 H6. unfold handled, ahead in *. simpl in *. rewrite H5. rewrite H3, H1 in Ha.
    split_and!; [done|lia|congruence]. }
  destruct r as [got|e].
  2: { apply wp_bind, wp_mute; [by apply mu_drop_temp|]. intros [] l4 s4 H5 H6. apply wp_ret, wp_ret, Hh3; done. }
  apply wp_ret. apply (wp_leaves _ _ _ (fun x => x.2 = rb')); [lv; try (apply leaves_all; intros ?; lv); done|].
  apply wp_mute; [mu|]. intros [r rb4] l4 s4 H5 H6 [= ->]. by apply Hh3.
Qed.

(** A command that reads lines up to [stop] and then only works on files. *)
Lemma any_lines f stop (q : res (list bytes) -> prog (res status)) rb l s :
  rb_wf rb -> (ahead rb l + 2 <= f)%nat -> (forall r, mute (q r)) ->
  WP (let! r := (let! r := read_to_type f stop in q r) in Ret (r, rb)) (handled l rb) l s.
Proof.
  intros Hwf Hf Hq. apply wp_bind, wp_bind, any_read_to_type; [unfold ahead in Hf; lia|]. intros r i Hi.
  apply wp_mute; [apply Hq|]. intros a l' s' H1 H2. apply wp_ret. unfold handled, ahead. simpl in *.
  rewrite H1. split_and!; [done|lia|done].
Qed.
Lemma any_wrapped (q : list bytes -> prog (res status)) rb l s :
  rb_wf rb -> (ahead rb l + 2 <= fuel)%nat -> (forall r, mute (q r)) ->
  WP (let! r := (let? r := read_to_flush_wrapped fuel in q r) in Ret (r, rb)) (handled l rb) l s.
Proof.
  intros Hwf Hf Hq. apply wp_bind, wp_bindR, wp_bind, any_read_to_type; [unfold ahead in Hf; lia|]. intros r i Hi.
  apply wp_ret. assert (H : forall r l' s', l_in l' = i -> l_out l' = l_out l -> handled l rb (r, rb) l' s').
  { intros r' l' s' H1 H2. unfold handled, ahead. simpl. rewrite H1. split_and!; [done|lia|done]. }
  destruct r; [|by apply wp_ret, H]. apply wp_mute; [apply Hq|]. intros a' l' s' H1 H2. by apply wp_ret, H.
Qed.
Lemma any_mute_plain (q : prog (res status)) rb l s : rb_wf rb -> mute q ->
  WP (let! r := q in Ret (r, rb)) (handled l rb) l s.
Proof.
  intros Hwf Hq. apply wp_bind, wp_mute; [done|]. intros a l' s' H1 H2. apply wp_ret. unfold handled, ahead. simpl.
  rewrite H1. split_and!; [done|lia|done].
Qed.

Lemma any_batch a b rb l s : rb_wf rb -> (ahead rb l + 2 <= fuel)%nat ->
  WP (let! r := p_batch be fuel a b in Ret (r, rb)) (handled l rb) l s.
Proof.
  intros Hwf Hf. unfold p_batch, read_batch. apply wp_bind, wp_bindR, wp_bindR, any_read_to_type; [unfold ahead in Hf; lia|].
  intros r i Hi. assert (H : forall r l' s', (length (l_in l') <= length i)%nat -> l_out l' = l_out l -> handled l rb (r, rb) l' s').
  { intros r' l' s' H1 H2. unfold handled, ahead. simpl. split_and!; [done|lia|done]. }
  destruct r as [lines|e]; [|apply wp_ret; by apply H].
  apply wp_bindR, wp_mute; [apply mu_or_panic|]. intros [args|e] l1 s1 H1 H2; [|apply wp_ret, H; [by rewrite H1|done]].
  apply wp_bindR, wp_bind, any_read_to_type; [unfold ahead in Hf; rewrite H1; simpl; lia|]. intros r j Hj.
  rewrite H1 in Hj. simpl in Hj, H2. apply wp_ret. destruct r as [data|e]; [|by apply wp_ret, H].
  apply wp_mute; [mu|]. intros [items|e] l2 s2 H3 H4; apply wp_ret; [apply wp_ret|]; apply H; rewrite ?H3, ?H4; simpl; done || lia.
Qed.

Lemma any_handle c m rb l s : rb_wf rb -> (ahead rb l + 2 <= fuel)%nat ->
  WP (handle_command en be fuel c m rb) (handled l rb) l s.
Proof.
  intros Hwf Hf. destruct c; cbn [handle_command].
  - apply any_lines; [done|done|]. intros [|]; mu.
  - apply any_mute_plain; [done|mu].
  - destruct (is_upload m); by apply any_batch.
  - by apply any_put_object.
  - apply any_lines; [done|done|]. intros [|]; mu.
  - apply any_lines; [done|done|]. intros [|]; mu.
  - apply any_mute_plain; [done|mu].
  - apply any_wrapped; [done|done|]. intros r. mu.
  - apply any_wrapped; [done|done|]. intros r. mu.
  - apply any_lines; [done|done|]. intros [|]; mu.
  - apply any_mute_plain; [done|mu].
  - apply any_mute_plain; [done|mu].
Qed.

(** ** Answering *)

Lemma any_copy_out f h off (Q : res unit -> local -> fs -> Prop) l s :
  (forall j, h = HFile j -> (length (fs_data j s) - off < f)%nat) ->
  (h = HDir -> (0 < f)%nat) ->
  (forall cs, Forall small cs -> Q (Ok tt) (add_out (enc_all (map PData cs)) l) s) ->
  (forall e w, Q (Er e) (add_out w l) s) ->
  WP (copy_out f h off) Q l s.
Proof using Type.
  revert off l Q. induction f as [|f IH]; intros off l Q Hf Hd HQ HE.
  { destruct h as [|j]; [specialize (Hd eq_refl); lia|specialize (Hf j eq_refl); lia]. }
  cbn [copy_out]. apply wp_bindR, wp_io_call, wp_call. intros o _. cbn [handle_ev]. unfold faulty.
  assert (HE' : forall e, Q (Er e) l s) by (intros e; specialize (HE e []); by rewrite add_out_nil in HE).
  destruct (o_fault o); [by apply HE'|]. destruct h as [|j]; [by apply HE'|]. cbn [res_of_io fs_read_at].
  set (d := fs_data j s) in *. set (c := take (N.to_nat COPY_BUF) (drop off d)). destruct copy_buf_pos as [k Ek].
  destruct c as [|y c'] eqn:Ec.
  - apply wp_ret. specialize (HQ []). simpl in HQ. rewrite add_out_nil in HQ. apply HQ. constructor.
  - rewrite <- Ec. apply wp_bindR, any_send; [|done]. apply IH.
    + intros ? [= <-]. specialize (Hf j eq_refl). fold d in Hf |- *. apply (f_equal length) in Ec. unfold c in Ec |- *.
      rewrite take_length, drop_length in Ec |- *. rewrite Ek in Ec |- *; cbn [length] in Ec. lia.
    + done.
    + intros cs H2. rewrite add_out_app. destruct (pk_chunks c) as (cs0 & E0 & E1 & E2).
      rewrite E0, <- enc_all_app, <- map_app. apply HQ. by apply Forall_app.
    + intros e w. rewrite add_out_app. apply HE.
Qed.

(** A status the server may answer with. *)
Definition arg_shape (a : bytes) : Prop := exists kv, a = arg_line kv /\ EQ ∉ kv.1 /\ kv.1 <> [].
Definition fine (m : mode) (st : status) : Prop :=
  st_code st ∈ codes /\ Forall arg_shape (default [] (st_args st)) /\
  (m = Upload -> st_reader st = None).

Definition readable (s : fs) : Prop := forall j, (length (fs_data j s) < fuel)%nat.

Lemma any_answer m st (Q : res unit -> local -> fs -> Prop) l s :
  fine m st -> (m = Download -> readable s) -> (0 < fuel)%nat ->
  (forall r ps s', reply_sent r ps -> Forall arg_shape (rp_args r) -> rp_code r ∈ codes -> same s s' ->
     Q (Ok tt) (add_out (enc_all ps) l) s') ->
  (forall e w s', same s s' -> Q (Er e) (add_out w l) s') ->
  WP (answer fuel st) Q l s.
Proof using Type.
  intros (Hc & Ha & Hr) Hread Hpos HQ HE. unfold answer, send_status.
  apply wp_bind, wp_call. intros o _. cbn [handle_ev].
  set (s' := log pid _ s). assert (Hs : same s s') by done.
  assert (HE' : forall e w, Q (Er e) (add_out w l) s') by (intros; by apply HE).
  destruct (code_denotes _ Hc) as [Hden Hlen].
  assert (Hsm : small (status_line (st_code st))).
  { apply status_line_small. clear -Hc. unfold codes in Hc.
    repeat (apply elem_of_cons in Hc as [->|Hc]; [done|]). by apply elem_of_nil in Hc. }
  assert (HQ' : forall b qb, body_sent b qb ->
    Q (Ok tt) (add_out (enc PFlush) (add_out (enc_all qb) (add_out (enc_all (pks (default [] (st_args st))))
       (add_out (enc_all (pk (status_line (st_code st)))) l)))) s').
  { intros b qb Hqb. rewrite pk_short by done. rewrite !add_out_app.
    match goal with |- Q _ (add_out ?w l) _ =>
      replace w with (enc_all (PData (status_line (st_code st)) :: pks (default [] (st_args st)) ++ qb ++ [PFlush])) end.
    - apply (HQ (Reply (st_code st) (default [] (st_args st)) b)); [|done|done|done].
      exists (pad0 3 (dec (st_code st))), (pks (default [] (st_args st))), qb.
      split_and!; try done. apply lines_sent_pks.
    - cbn [enc_all flat_map]. change (flat_map enc) with enc_all. rewrite !enc_all_app. cbn [enc_all flat_map].
      by rewrite !app_nil_r, !app_assoc. }
  apply wp_bindR, any_send; [|by apply HE'].
  apply wp_bindR, any_send_all; [|intros; rewrite add_out_app; by apply HE'].
  destruct (st_msgs st) as [ls|]; [|destruct (st_reader st) as [h|]].
  - apply wp_bindR, wp_bindR, any_delim; [|intros; rewrite !add_out_app; by apply HE'].
    apply any_send_all; [|intros; rewrite !add_out_app; by apply HE'].
    apply any_flush; [|intros; rewrite !add_out_app; by apply HE'].
    specialize (HQ' (BLines ls) (PDelim :: pks ls)). cbn [enc_all flat_map] in HQ'.
    rewrite (add_out_app (enc PDelim)). apply HQ'. exists (pks ls). split; [done|apply lines_sent_pks].
  - destruct m; [by specialize (Hr eq_refl)|].
    apply wp_bindR, wp_bindR, any_delim; [|intros; rewrite !add_out_app; by apply HE'].
    apply any_copy_out; [intros j _; specialize (Hread eq_refl j)|intros _; lia| |intros; rewrite !add_out_app; by apply HE'].
    { change (fs_data j s') with (fs_data j s). lia. }
    intros cs Hcs. apply any_flush; [|intros; rewrite !add_out_app; by apply HE'].
    specialize (HQ' (BData (concat cs)) (PDelim :: map PData cs)). cbn [enc_all flat_map] in HQ'.
    rewrite (add_out_app (enc PDelim)). apply HQ'. by exists cs.
  - apply wp_bindR, wp_ret. apply any_flush; [|intros; rewrite !add_out_app; by apply HE'].
    specialize (HQ' BNone [] eq_refl). change (enc_all []) with (@nil byte) in HQ'. rewrite add_out_nil in HQ'. exact HQ'.
Qed.

Lemma any_answer_error c t (Q : res unit -> local -> fs -> Prop) l s : c ∈ codes ->
  (forall r ps s', reply_sent r ps -> Forall arg_shape (rp_args r) -> rp_code r ∈ codes -> same s s' ->
     Q (Ok tt) (add_out (enc_all ps) l) s') ->
  (forall e w s', same s s' -> Q (Er e) (add_out w l) s') ->
  WP (answer_error c t) Q l s.
Proof using Type.
  intros Hc HQ HE. unfold answer_error, send_error. apply wp_bind, wp_call. intros o _. cbn [handle_ev].
  set (s' := log pid _ s). assert (HE' : forall e w, Q (Er e) (add_out w l) s') by (intros; by apply HE).
  destruct (code_denotes _ Hc) as [Hden Hlen].
  assert (Hsm : small (status_line c)).
  { apply status_line_small. clear -Hc. unfold codes in Hc.
    repeat (apply elem_of_cons in Hc as [->|Hc]; [done|]). by apply elem_of_nil in Hc. }
  apply wp_bindR, any_send; [|by apply HE'].
  apply wp_bindR, any_delim; [|intros; rewrite !add_out_app; by apply HE'].
  apply wp_bindR, any_send; [|intros; rewrite !add_out_app; by apply HE'].
  apply any_flush; [|intros; rewrite !add_out_app; by apply HE'].
  rewrite !add_out_app, pk_short by done.
  match goal with |- Q _ (add_out ?w l) _ =>
    replace w with (enc_all (PData (status_line c) :: [] ++ (PDelim :: pk (t ++ [NL])) ++ [PFlush])) end.
  - apply (HQ (Reply c [] (BText (t ++ [NL])))); [|constructor|done|done]. exists (pad0 3 (dec c)), [], (PDelim :: pk (t ++ [NL])).
    split_and!; [done|done|constructor|eexists; split; [done|apply line_sent_pk]|done].
  - cbn [enc_all flat_map app]. change (flat_map enc) with enc_all. rewrite !enc_all_app. cbn [enc_all flat_map].
    by rewrite !app_nil_r, !app_assoc.
Qed.

(** ** What the handlers answer *)
Definition fine_res (m : mode) (x : res status) : Prop := match x with Ok st => fine m st | Er _ => True end.

Lemma fine_msg m c t : c ∈ codes -> fine m (Status c None t None).
Proof using Type. intros H. split_and!; [done|constructor|done]. Qed.

Lemma shape_of p k v : bool_decide (p = k ++ bs "=" /\ EQ ∉ k /\ k <> []) = true -> arg_shape (p ++ v ++ [NL]).
Proof using Type.
  intros (-> & H1 & H2)%bool_decide_eq_true. exists (k, v). split_and!; [|done|done]. unfold arg_line. simpl.
  by rewrite <- !app_assoc.
Qed.

Lemma args_fine l : leaves (Forall arg_shape) (as_arguments en l).
Proof using Type.
  unfold as_arguments, formatted_timestamp. lv.
  repeat (apply Forall_cons; split); [..|by apply Forall_nil];
    [apply (shape_of _ (bs "id"))|apply (shape_of _ (bs "path"))|apply (shape_of _ (bs "locked-at"))
    |apply (shape_of _ (bs "ownername"))]; by vm_compute.
Qed.

Lemma fine_version m : leaves (fine_res m) (p_version fuel).
Proof using Type. unfold p_version. lv. apply leaves_all. intros [x|e]; lv; [|done]. by apply fine_msg, is_code. Qed.
Lemma fine_error m c t : c ∈ codes -> leaves (fine_res m) (p_error c t).
Proof using Type. intros H. unfold p_error. lv. by apply fine_msg. Qed.
Lemma fine_batch m a b : leaves (fine_res m) (p_batch be fuel a b).
Proof using Type. unfold p_batch. lv. apply leaves_all. intros [x|e]; lv; [|done]. by apply fine_msg, is_code. Qed.
Lemma fine_verify m o : leaves (fine_res m) (p_verify_object be fuel o).
Proof using Type.
  unfold p_verify_object. lv. apply leaves_all. intros [x|e]; lv; [|done]. apply leaves_all. intros [a|e]; [|done]. lv.
  destruct (oid_new o); [|done]. unfold backend_verify. lv. destruct (parse_value_as_integer _ _); [|done].
  lv; first [exact I|by apply fine_msg, is_code].
Qed.
Lemma fine_get o : leaves (fine_res Download) (p_get_object be fuel o).
Proof using Type.
  unfold p_get_object. lv. apply leaves_all. intros [x|e]; lv; [|done]. apply leaves_all. intros [a|e]; [|done]. lv.
  destruct (oid_new o); [|done]. lv. apply leaves_all. intros [[h n]|e]; lv.
  - split_and!; [by apply is_code| |done]. apply Forall_singleton. by apply (shape_of _ (bs "size")); vm_compute.
  - by apply fine_msg, is_code.
  - done.
Qed.
Lemma fine_lock m : leaves (fine_res m) (p_lock en be fuel).
Proof using Type.
  unfold p_lock. lv. apply leaves_all. intros [x|e]; [|done]. lv. apply leaves_all. intros [a|e]; [|done]. lv; try done.
  apply leaves_all. intros [lk|e]; lv; try done.
  - eapply leaves_mono; [|apply args_fine]. intros args Ha. lv. split_and!; [by apply is_code|done|done].
  - apply leaves_all. intros [[lk|]|e']; lv; [|done].
    eapply leaves_mono; [|apply args_fine]. intros args Ha. lv. split_and!; [by apply is_code|done|done].
Qed.
Lemma fine_list m o : leaves (fine_res m) (p_list_locks en be fuel o).
Proof using Type.
  unfold p_list_locks. lv. apply leaves_all. intros [x|e]; [|done]. lv. apply leaves_all. intros [a|e]; [|done]. lv.
  destruct (match a !! bs "limit" with Some x0 => parse_integer x0 | None => Ok 100%N end) as [limit|e]; [|done].
  destruct (limit =? 0)%N; [done|]. cbv zeta. destruct (a !! bs "path") as [p|].
  - unfold p_list_for_path. lv. apply leaves_all. intros [[lk|]|e]; [|by apply fine_error, is_code|done].
    destruct (match a !! bs "cursor" with Some c => _ | None => _ end); [by apply fine_error, is_code|].
    lv. apply leaves_all. intros sp. lv. by apply fine_msg, is_code.
  - lv. apply leaves_all. intros [items|e]; [|done]. lv. apply leaves_all. intros specs. lv.
    split_and!; [by apply is_code| |done]. cbn [default st_args st_success_with_data]. destruct (items !! _); [|constructor].
    destruct (_ =? _)%nat; [|constructor]. apply Forall_singleton. by apply (shape_of _ (bs "next-cursor")); vm_compute.
Qed.
Lemma fine_unlock m i : leaves (fine_res m) (p_unlock en be fuel i).
Proof using Type.
  unfold p_unlock. lv. apply leaves_all. intros [x|e]; [|done]. lv; [|done]. apply leaves_all.
  intros [[lk|]|e]; [|by apply fine_error, is_code|done]. lv.
  eapply leaves_mono; [|apply args_fine]. intros args Ha. lv. apply leaves_all. intros [[]|e]; lv; try done.
  - split_and!; [by apply is_code|done|done].
  - by apply fine_error, is_code.
  - by apply fine_error, is_code.
Qed.
Lemma fine_put m o rb : leaves (fun x => fine_res m x.1) (p_put_object en be fuel o rb).
Proof using Type.
  unfold p_put_object. destruct (oid_new o); [|done]. apply leaves_bind, leaves_all. intros [n|e]; [|done].
  apply leaves_bind, leaves_all.
  intros [[[st got]|e] rb']; [|done]. lv; try done; apply leaves_all; intros x; lv; try exact I.
  destruct x; [|done]. by apply fine_msg, is_code.
Qed.

Lemma fine_handle words m rb :
  leaves (fun x => fine_res m x.1) (handle_command en be fuel (dispatch words m) m rb).
Proof using Type.
  assert (Hplain : forall p : prog (res status), leaves (fine_res m) p ->
    leaves (fun x => fine_res m x.1) (let! r := p in Ret (r, rb))).
  { intros p Hp. by apply leaves_bind. }
  assert (Hget : m = Upload -> forall o, dispatch words m <> CGet o).
  { intros -> o. unfold dispatch. destruct words as [|c rest]; [done|]. cbv zeta. repeat case_decide; try destruct (head rest); done. }
  destruct (dispatch words m) as [| | |o|o|o| | | |i| |]; cbn [handle_command];
    try (apply Hplain; (by apply fine_error, is_code) || apply fine_version || apply fine_verify || apply fine_lock
         || apply fine_list || apply fine_unlock).
  - apply Hplain. destruct (is_upload m); apply fine_batch.
  - apply fine_put.
  - destruct m; [by destruct (Hget eq_refl o)|]. apply Hplain, fine_get.
Qed.

Lemma fine_status m r : fine_res m r -> fine m (status_of r).
Proof using Type.
  destruct r as [st|e]; [done|]. intros _. simpl. unfold status_of_error.
  destruct (client_error _); by apply fine_msg, is_code.
Qed.

(** ** One round, and the whole loop *)

(** What the process has written since [l0] are complete answers. *)
Definition told (l0 l : local) (rs : list reply) : Prop :=
  exists ps, replies_sent rs ps /\ l_out l = l_out l0 ++ enc_all ps /\
    Forall (fun r => rp_code r ∈ codes /\ Forall arg_shape (rp_args r)) rs.

Lemma told_nil l0 l : l_out l = l_out l0 -> told l0 l [].
Proof using Type. intros H. exists []. split_and!; [constructor|by rewrite app_nil_r|constructor]. Qed.
Lemma told_one l0 l l' r ps : l_out l = l_out l0 -> l_out l' = l_out l ++ enc_all ps ->
  reply_sent r ps -> rp_code r ∈ codes -> Forall arg_shape (rp_args r) -> told l0 l' [r].
Proof using Type.
  intros H1 H2 H3 H4 H5. exists (ps ++ []). split_and!.
  - constructor; [done|constructor].
  - by rewrite app_nil_r, H2, H1.
  - by apply Forall_singleton.
Qed.
Lemma told_app l0 l1 l2 rs rs' : told l0 l1 rs -> told l1 l2 rs' -> told l0 l2 (rs ++ rs').
Proof using Type.
  intros (ps & H1 & H2 & H3) (qs & H4 & H5 & H6). exists (ps ++ qs). split_and!.
  - clear -H1 H4. induction H1 as [|r rs ps qs' H1 _ IH]; [done|]. simpl. rewrite <- app_assoc. by constructor.
  - by rewrite H5, H2, enc_all_app, app_assoc.
  - by apply Forall_app.
Qed.

Definition ended (l0 : local) (r : res unit) (l : local) : Prop :=
  match r with Ok _ => exists rs, told l0 l rs | Er _ => True end.

(** The premise about downloads: files are read in [fuel] steps, and stay so. *)
Definition small_files (m : mode) (s : fs) : Prop := m = Download -> readable s.

Lemma same_readable s s' : same s s' -> readable s -> readable s'.
Proof using Type.
  intros [_ H] Hr j. specialize (Hr j). unfold fs_data, inode_at in *. by rewrite H.
Qed.

Lemma any_process_one m rb l s :
  rb_wf rb -> (ahead rb l + 2 <= fuel)%nat -> small_files m s ->
  wp pid ok fueled (process_one en be fuel m rb) (fun x l' s' =>
    match x with
    | Next rb' => rb_wf rb' /\ (ahead rb' l' < ahead rb l)%nat /\ (exists r, told l l' [r])
    | Return r => ended l r l'
    end) l s.
Proof using Type.
  intros Hwf Hf Hsm. unfold process_one. apply wp_bind, any_read_packet.
  2: { intros e i Hi. apply wp_ret. destruct (decide _); [|done]. exists []. by apply told_nil. }
  destruct (decode 65535 (l_in l)) as [[p|e] i] eqn:E; cbn [fst snd].
  2: { apply wp_ret. destruct (decide _); [|done]. exists []. by apply told_nil. }
  apply decode_shrink in E. set (l1 := set_in i l).
  assert (Ha : (ahead rb l1 < ahead rb l)%nat) by (unfold ahead, l1; simpl; lia).
  assert (Herr : forall c t, c ∈ codes -> WP (and_go_on rb (answer_error c t)) (fun x l' s' =>
    match x with
    | Next rb' => rb_wf rb' /\ (ahead rb' l' < ahead rb l)%nat /\ (exists r, told l l' [r])
    | Return r => ended l r l'
    end) l1 s).
  { intros c t Hc. apply wp_bind, any_answer_error; [done|..].
    - intros r ps s' H1 H2 H3 _. apply wp_ret. split_and!; [done|exact Ha|]. exists r. by eapply told_one.
    - intros. by apply wp_ret. }
  destruct (pkt_data p) as [[|x b]|]; [by apply Herr, is_code| |by apply Herr, is_code].
  assert (Hcmd : WP (let! (r, rb') := handle_command en be fuel (dispatch (command_words (x :: b)) m) m rb in
                     and_go_on rb' (answer fuel (status_of r))) (fun x l' s' =>
    match x with
    | Next rb' => rb_wf rb' /\ (ahead rb' l' < ahead rb l)%nat /\ (exists r, told l l' [r])
    | Return r => ended l r l'
    end) l1 s).
  { apply wp_bind. eapply wp_leaves; [apply fine_handle|].
    assert (Hq : wp pid ok fueled (handle_command en be fuel (dispatch (command_words (x :: b)) m) m rb)
       (fun a l' s' => handled l1 rb a l' s' /\ small_files m s') l1 s).
    { destruct m.
      - eapply wp_mono; [|apply any_handle; [done|lia]]. intros a l' s' H. by split.
      - apply wp_conj; [apply any_handle; [done|lia]|].
        apply wp_quiet_ok; [apply ev_handle_download|]. intros a l2 s2 Hs Em. by eapply same_readable, Hsm. }
    eapply wp_mono; [|exact Hq]. intros [r rb'] l2 s2 [(Hwf2 & Ha2 & Ho2) Hsm2] Hfine. cbn [fst snd] in *.
    apply wp_bind, any_answer with (m := m); [by apply fine_status|done|lia|..].
    - intros rp ps s' H1 H2 H3 _. apply wp_ret. split_and!; [done| |].
      + unfold ahead in *. simpl in *. lia.
      + exists rp. by eapply told_one.
    - intros. by apply wp_ret. }
  destruct (dispatch (command_words (x :: b)) m); try exact Hcmd.
  apply wp_bind, any_answer with (m := m); [by apply fine_msg, is_code|done|lia|..].
  - intros rp ps s' H1 H2 H3 _. apply wp_ret. exists [rp]. by eapply told_one.
  - intros. by apply wp_ret.
Qed.

Lemma quiet_process_one_download rb : all_ev quiet (process_one en be fuel Download rb).
Proof using Type. apply ev_process_one_download. Qed.

Lemma any_process_commands n m rb l s :
  rb_wf rb -> (ahead rb l + 2 <= fuel)%nat -> (ahead rb l < n)%nat -> small_files m s ->
  WP (process_commands en be fuel n m rb) (fun r l' s' => ended l r l') l s.
Proof using Type.
  revert rb l s. induction n as [|n IH]; intros rb l s Hwf Hf Hn Hsm; [lia|]. cbn [process_commands].
  assert (Hq : wp pid ok fueled (process_one en be fuel m rb) (fun x l' s' =>
    match x with
    | Next rb' => rb_wf rb' /\ (ahead rb' l' < ahead rb l)%nat /\ (exists r, told l l' [r])
    | Return r => ended l r l'
    end /\ small_files m s') l s).
  { destruct m.
    - eapply wp_mono; [|by apply any_process_one]. intros a l' s' H. by split.
    - apply wp_conj; [by apply any_process_one|].
      apply wp_quiet_ok; [apply ev_process_one_download|]. intros a l2 s2 Hs Em. by eapply same_readable, Hsm. }
  apply wp_bind. eapply wp_mono; [|exact Hq]. intros [rb'|r] l1 s1 [H Hsm1]; [|by apply wp_ret].
  destruct H as (Hwf1 & Ha1 & r & Ht). eapply wp_mono; [|apply IH; [done|lia|lia|done]].
  intros [[]|e] l2 s2 H; [|done]. destruct H as [rs Hrs]. exists (r :: rs). by eapply (told_app _ _ _ [r]).
Qed.
End server.

(** The directories and the capabilities. *)
Lemma any_transfer_run en fuel lfs umask ts op l s :
  (length (l_in l) + 2 <= fuel)%nat -> (op = bs "download" -> readable fuel s) ->
  WP (transfer_run en fuel lfs umask ts op) (fun r l' s' =>
    match r with
    | Ok _ => exists rs l1, l_out l1 = l_out l ++ enc_all [PData (bs "version=1" ++ [NL]); PFlush] /\ told l1 l' rs
    | Er _ => True
    end) l s.
Proof using Type.
  intros Hf Hsm. unfold transfer_run. apply wp_bindR.
  assert (Hd : WP (create_directories lfs) (fun _ l' s' => l' = l /\ inodes s' = inodes s) l s).
  { unfold create_directories. assert (Hgen : forall s1, inodes s1 = inodes s ->
      WP (create_directories_in lfs dir_names) (fun _ l' s' => l' = l /\ inodes s' = inodes s) l s1); [|by apply Hgen].
    induction dir_names as [|d ds IH]; intros s1 Hs1; simpl; [by apply wp_ret|].
    apply wp_bindR, wp_io_call, wp_call. intros o _. cbn [handle_ev]. unfold faulty, with_l, fs_mkdir_all.
    destruct (o_fault o); [done|]. destruct (fs_mkdirs s1 [] (lfs ++ [d])) as [e|s2] eqn:E; [done|]. apply IH.
    apply mkdirs_spec in E as [E _]. simpl. congruence. }
  eapply wp_mono; [|exact Hd]. intros [[]|e] l1 s1 [-> Hs1]; [|done]. clear Hd.
  unfold send_capabilities. apply wp_bindR, wp_bindR, any_send; [|done].
  apply any_flush; [|done]. rewrite add_out_app. set (w := enc_all _ ++ _).
  destruct (mode_of op) as [m|] eqn:Em; [|by apply wp_ret].
  eapply wp_mono; [|apply any_process_commands].
  - intros [[]|e] l2 s2 H; [|done]. destruct H as [rs Hrs]. exists rs, (add_out w l). split; [|done].
    reflexivity.
  - apply rb_empty_wf.
  - unfold ahead. simpl. lia.
  - unfold ahead. simpl. lia.
  - intros ->. unfold mode_of in Em. case_decide; [done|]. case_decide as Eo; [|done].
    intros j. specialize (Hsm Eo j). unfold fs_data, inode_at in *. by rewrite Hs1.
Qed.
End wp.

(** ** More fuel changes nothing *)

(** [p] is [q] cut off where the fuel ran out. *)
Fixpoint cut {A} (p q : prog A) : Prop :=
  match p with
  | Ret a => q = Ret a
  | Fail f => f = OutOfFuel \/ q = Fail f
  | Vis e k => exists k', q = Vis e k' /\ forall r, cut (k r) (k' r)
  end.

Lemma cut_refl {A} (p : prog A) : cut p p.
Proof. induction p as [a|f|e k IH]; simpl; [done|by right|]. by exists k. Qed.
Lemma cut_bind {A B} (p q : prog A) (f g : A -> prog B) :
  cut p q -> (forall a, cut (f a) (g a)) -> cut (bind p f) (bind q g).
Proof.
  intros Hp Hf. revert q Hp. induction p as [a|x|e k IH]; intros q Hp; cbn [cut] in Hp.
  - subst. apply Hf.
  - destruct Hp as [->| ->]; [by left|]. by right.
  - destruct Hp as (k' & -> & Hk). exists (fun r => bind (k' r) g). split; [done|]. intros r. by apply IH.
Qed.
Lemma cut_bindR {A B} (p q : prog (res A)) (f g : A -> prog (res B)) :
  cut p q -> (forall a, cut (f a) (g a)) -> cut (bindR p f) (bindR q g).
Proof. intros Hp Hf. apply cut_bind; [done|]. intros [a|e]; [apply Hf|apply cut_refl]. Qed.

Lemma cut_run {A} pid (p q : prog A) os l s :
  cut p q -> (run pid p os l s).1.1 <> Failed OutOfFuel -> run pid q os l s = run pid p os l s.
Proof.
  revert q os l s. induction p as [a|f|e k IH]; intros q os l s H; cbn [cut] in H; cbn [run].
  - by subst.
  - destruct H as [->| ->]; done.
  - destruct H as (k' & -> & H). cbn [run]. destruct (handle_ev pid e (os 0) l s) as [[r l1] s1]. by apply IH.
Qed.
Global Arguments cut : simpl never.

Create HintDb cut discriminated.
Ltac cut_step :=
  match goal with
  | |- cut ?p ?p => apply cut_refl
  | |- cut (bind _ _) (bind _ _) => apply cut_bind; [|intros ?]
  | |- cut (bindR _ _) (bindR _ _) => apply cut_bindR; [|intros ?]
  | |- cut (match ?x with _ => _ end) _ => destruct x
  end.
Ltac ct := repeat (first [solve [auto with cut] | cut_step]).

Section cut.
Context (en : env) (be : backend).
Lemma ct_read_to_type f f' stop : (f <= f')%nat -> cut (read_to_type f stop) (read_to_type f' stop).
Proof.
  revert f'. induction f as [|f IH]; intros f' H; [by left|]. destruct f' as [|f']; [lia|]. cbn [read_to_type].
  assert (cut (read_to_type f stop) (read_to_type f' stop)) by (apply IH; lia). ct.
Qed.
Lemma ct_read_loop f f' n rb : (f <= f')%nat -> cut (read_loop f n rb) (read_loop f' n rb).
Proof.
  revert f'. induction f as [|f IH]; intros f' H; [by left|]. destruct f' as [|f']; [lia|]. cbn [read_loop].
  assert (cut (read_loop f n rb) (read_loop f' n rb)) by (apply IH; lia). ct.
Qed.
Hint Resolve ct_read_loop : cut.
Lemma ct_reader_read f f' n rb : (f <= f')%nat -> cut (reader_read f n rb) (reader_read f' n rb).
Proof. intros H. unfold reader_read. ct. Qed.
Lemma ct_copy_to_file f f' fd got rb : (f <= f')%nat -> cut (copy_to_file f fd got rb) (copy_to_file f' fd got rb).
Proof.
  revert f' got rb. induction f as [|f IH]; intros f' got rb H; [by left|]. destruct f' as [|f']; [lia|]. cbn [copy_to_file].
  apply cut_bind; [apply ct_reader_read; lia|]. intros [r rb'].
  assert (Hc : forall g, cut (copy_to_file f fd g rb') (copy_to_file f' fd g rb')) by (intros g; apply IH; lia). ct.
Qed.
Lemma ct_copy_out f f' h off : (f <= f')%nat -> cut (copy_out f h off) (copy_out f' h off).
Proof.
  revert f' off. induction f as [|f IH]; intros f' off H; [by left|]. destruct f' as [|f']; [lia|]. cbn [copy_out].
  assert (Hc : forall o, cut (copy_out f h o) (copy_out f' h o)) by (intros o; apply IH; lia). ct.
Qed.
Hint Resolve ct_read_to_type ct_copy_to_file ct_copy_out : cut.

Context (f f' : nat) (Hf : (f <= f')%nat).
Hint Resolve Hf : cut.
Lemma ct_answer st : cut (answer f st) (answer f' st).
Proof. unfold answer, send_status. ct. Qed.
Lemma ct_wrapped : cut (read_to_flush_wrapped f) (read_to_flush_wrapped f').
Proof. unfold read_to_flush_wrapped, read_to_flush. ct. Qed.
Hint Resolve ct_wrapped : cut.
Lemma ct_batch a b : cut (p_batch be f a b) (p_batch be f' a b).
Proof. unfold p_batch, read_batch, read_to_delim. ct. Qed.
Lemma ct_put o rb : cut (p_put_object en be f o rb) (p_put_object en be f' o rb).
Proof. unfold p_put_object, read_to_delim, start_upload. ct. Qed.
Hint Resolve ct_answer ct_batch ct_put : cut.
Lemma ct_handle c m rb : cut (handle_command en be f c m rb) (handle_command en be f' c m rb).
Proof.
  destruct c; cbn [handle_command];
  unfold p_version, p_upload_batch, p_download_batch, p_verify_object, p_get_object, p_lock, p_list_locks, p_unlock, read_to_flush; ct.
Qed.
Hint Resolve ct_handle : cut.
Lemma ct_process_one m rb : cut (process_one en be f m rb) (process_one en be f' m rb).
Proof. unfold process_one, and_go_on. ct. Qed.
Lemma ct_process_commands n n' m rb : (n <= n')%nat -> cut (process_commands en be f n m rb) (process_commands en be f' n' m rb).
Proof.
  revert n' rb. induction n as [|n IH]; intros n' rb H; [by left|]. destruct n' as [|n']; [lia|]. cbn [process_commands].
  apply cut_bind; [apply ct_process_one|]. intros [rb'|r]; [apply IH; lia|apply cut_refl].
Qed.
End cut.

Lemma ct_transfer_run en f f' lfs umask ts op : (f <= f')%nat ->
  cut (transfer_run en f lfs umask ts op) (transfer_run en f' lfs umask ts op).
Proof. intros H. unfold transfer_run. ct. by apply ct_process_commands. Qed.
Lemma ct_transfer_main en f f' lfs cfg op : (f <= f')%nat ->
  cut (transfer_main en f lfs cfg op) (transfer_main en f' lfs cfg op).
Proof.
  intros H. unfold transfer_main, transfer_main_internal. apply cut_bind; [|intros; apply cut_refl].
  apply cut_bindR; [apply cut_refl|]. intros u. by apply ct_transfer_run.
Qed.

(** ** How the process ends *)

Definition end_kind (r : res unit) : Prop :=
  match r with Er e => e_kind e = IOError \/ e_kind e = BadPktlineHeader | Ok _ => True end.
Definition io_kind_res {A} (r : res A) : Prop :=
  match r with Er e => e_kind e = IOError | Ok _ => True end.

Lemma lk_io_call {A} (p : prog (iores A)) : leaves io_kind_res (io_call p).
Proof. apply leaves_io_call, leaves_all. by intros [a|e]. Qed.
Lemma lk_bindR {A B} (p : prog (res A)) (f : A -> prog (res B)) :
  leaves io_kind_res p -> (forall a, leaves io_kind_res (f a)) -> leaves io_kind_res (bindR p f).
Proof. intros Hp Hf. apply leaves_bindR. eapply leaves_mono; [|exact Hp]. by intros [a|e]. Qed.
Lemma lk_flush : leaves io_kind_res flush.
Proof. repeat (apply lk_bindR; [|intros ?]); try apply lk_io_call; done. Qed.
Lemma lk_delim : leaves io_kind_res delim.
Proof. repeat (apply lk_bindR; [|intros ?]); try apply lk_io_call; done. Qed.
Lemma lk_send m : leaves io_kind_res (send m).
Proof. apply lk_io_call. Qed.
Lemma lk_send_all ms : leaves io_kind_res (send_all ms).
Proof. induction ms as [|m ms IH]; simpl; [done|]. apply lk_bindR; [apply lk_send|done]. Qed.
Lemma lk_copy_out f h off : leaves io_kind_res (copy_out f h off).
Proof.
  revert off. induction f as [|f IH]; intros off; simpl; [done|]. apply lk_bindR; [apply lk_io_call|].
  intros [|x d]; [done|]. apply lk_bindR; [apply lk_send|done].
Qed.
Lemma lk_answer f st : leaves io_kind_res (answer f st).
Proof.
  unfold answer, send_status. apply leaves_bind, leaves_call. intros _.
  apply lk_bindR; [apply lk_send|intros _]. apply lk_bindR; [apply lk_send_all|intros _].
  apply lk_bindR; [|intros _; apply lk_flush].
  destruct (st_msgs st); [apply lk_bindR; [apply lk_delim|intros; apply lk_send_all]|].
  destruct (st_reader st); [apply lk_bindR; [apply lk_delim|intros; apply lk_copy_out]|done].
Qed.
Lemma lk_answer_error c m : leaves io_kind_res (answer_error c m).
Proof.
  unfold answer_error, send_error. apply leaves_bind, leaves_call. intros _.
  apply lk_bindR; [apply lk_send|intros _]. apply lk_bindR; [apply lk_delim|intros _].
  apply lk_bindR; [apply lk_send|intros _]. apply lk_flush.
Qed.

Definition read_kind (r : res packet) : Prop :=
  match r with Er e => e_kind e = IOError \/ e_kind e = BadPktlineHeader | Ok _ => True end.
Lemma lk_read_packet : leaves read_kind read_packet.
Proof.
  unfold read_packet, read_header. apply leaves_bindR, leaves_bindR, leaves_io_call, leaves_call.
  intros [h|e]; [|by left]. cbn [res_of_io]. destruct h as [|a [|b [|c [|d [|? ?]]]]]; try done.
  apply leaves_ret. unfold parse_header.
  destruct (hdr_digit a), (hdr_digit b), (hdr_digit c), (hdr_digit d); try (by right).
  destruct (_ =? 0)%N; [done|]. destruct (_ =? 1)%N; [done|]. destruct (_ || _); [by right|].
  apply leaves_bindR, leaves_io_call, leaves_call. intros [x|e]; [done|by left].
Qed.

Lemma lk_process_one en be f m rb :
  leaves (fun x => match x with Return r => end_kind r | Next _ => True end) (process_one en be f m rb).
Proof.
  unfold process_one. apply leaves_bind. eapply leaves_mono; [|apply lk_read_packet].
  intros [p|e] Hk; [|apply leaves_ret; by destruct (decide _)].
  assert (Hgo : forall rb q, leaves io_kind_res q ->
    leaves (fun x => match x with Return r => end_kind r | Next _ => True end) (and_go_on rb q)).
  { intros rb' q Hq. apply leaves_bind. eapply leaves_mono; [|exact Hq]. intros [a|e]; [done|]. by left. }
  destruct (pkt_data p) as [[|x b]|]; [apply Hgo, lk_answer_error| |apply Hgo, lk_answer_error].
  destruct (dispatch _ m); try (apply leaves_bind, leaves_all; intros [r rb']; apply Hgo, lk_answer).
  apply leaves_bind. eapply leaves_mono; [|apply lk_answer]. intros [a|e]; [done|]. by left.
Qed.
Lemma lk_process_commands en be f n m rb : leaves end_kind (process_commands en be f n m rb).
Proof.
  revert rb. induction n as [|n IH]; intros rb; simpl; [done|]. apply leaves_bind.
  eapply leaves_mono; [|apply lk_process_one]. intros [rb'|r]; [intros _; apply IH|done].
Qed.

Lemma lk_transfer_run en f lfs umask ts op :
  leaves (fun r => match r with Er e => e_kind e ∈ [IOError; BadPktlineHeader; UnknownCommand] | Ok _ => True end)
    (transfer_run en f lfs umask ts op).
Proof.
  unfold transfer_run. apply leaves_bindR.
  assert (Hd : leaves io_kind_res (create_directories lfs)).
  { unfold create_directories. induction dir_names as [|d ds IH]; simpl; [done|]. apply lk_bindR; [apply lk_io_call|done]. }
  eapply leaves_mono; [|exact Hd]. intros [[]|e]; [intros _|simpl; intros ->; set_solver].
  apply leaves_bindR. assert (Hs : leaves io_kind_res send_capabilities).
  { apply lk_bindR; [apply lk_send|intros; apply lk_flush]. }
  eapply leaves_mono; [|exact Hs]. intros [[]|e]; [intros _|simpl; intros ->; set_solver].
  destruct (mode_of op); [|simpl; set_solver]. eapply leaves_mono; [|apply lk_process_commands].
  intros [[]|e]; [done|]. simpl. intros [->| ->]; set_solver.
Qed.

(** ** The whole program *)
Section main.
Context (en : env) (lfs : path) (cfg : gres config) (op : bytes) (pid : nat).

Lemma files_readable n s : files_below n s -> (0 < n)%nat -> readable n s.
Proof.
  intros H Hn j. unfold fs_data, inode_at. destruct (inodes s !! j) as [x|] eqn:E; [|simpl; lia].
  by apply (Forall_lookup_1 _ _ _ _ H E).
Qed.
Lemma files_below_max s n : exists N, (n <= N)%nat /\ files_below N s.
Proof.
  unfold files_below. induction (inodes s) as [|x l [N [HN IH]]]; [by exists n|].
  exists (N + S (length (i_data x)))%nat. split; [lia|]. constructor; [lia|].
  eapply Forall_impl; [exact IH|]. simpl. intros y. lia.
Qed.

Lemma any_main fuel l s : (length (l_in l) + 2 <= fuel)%nat -> files_below fuel s ->
  wp pid any_orc fueled (transfer_main en fuel lfs cfg op) (fun x l' s' =>
    x.1 = 0%Z -> exists rs out, answer_stream rs out /\ l_out l' = l_out l ++ out) l s.
Proof.
  intros Hf Hs. unfold transfer_main, transfer_main_internal. apply wp_bind, wp_bindR.
  assert (Hq : all_ev quiet (set_permissions cfg)) by by apply ev_set_permissions.
  eapply wp_mono; [|apply wp_conj; [apply (wp_mute _ _ _ (fun _ l' s' => l_in l' = l_in l /\ l_out l' = l_out l))|
    apply (wp_quiet_ok _ _ _ (fun _ _ s' => same s s')); [exact Hq|done]]].
  2: unfold set_permissions; mu. 2: done.
  intros [u|e] l1 s1 [[H1 H2] [_ H3]].
  2: { apply wp_ret. simpl. unfold err_exit_status. by destruct (e_kind e). }
  eapply wp_mono; [|apply any_transfer_run; [by rewrite H1|]].
  2: { intros _. apply files_readable; [|lia]. unfold files_below. by rewrite H3. }
  intros [[]|e] l2 s2 H.
  2: { apply wp_ret. simpl. unfold err_exit_status. by destruct (e_kind e). }
  apply wp_ret. intros _. destruct H as (rs & l3 & E & ps & H4 & H5 & H6). rewrite H2 in E.
  exists rs, (enc_all (PData (bs "version=1" ++ [NL]) :: PFlush :: ps)). split.
  - exists ps. split_and!; [done| |done]. apply wires_enc.
    constructor; [by vm_compute|]. constructor; [by vm_compute|]. by eapply replies_small.
  - rewrite H5, E, <- app_assoc. f_equal.
Qed.

Lemma lk_main fuel : leaves (fun x => (x.1 = 0%Z /\ x.2 = []) \/ (x.1 = 2%Z /\ x.2 <> []) \/
  (x.1 = 1%Z /\ x.2 <> [] /\ config_failed cfg)) (transfer_main en fuel lfs cfg op).
Proof.
  assert (Hne : forall e, display e ++ [NL] <> []) by (intros e H; by apply app_eq_nil in H as [_ H]).
  unfold transfer_main, transfer_main_internal. apply leaves_bind, leaves_bindR.
  assert (Hp : leaves (fun r => match r with Er e => (e_kind e = GitError \/ config_failed cfg) | Ok _ => True end) (set_permissions cfg)).
  { unfold set_permissions. destruct cfg as [c|e].
    - apply leaves_bindR, leaves_ret. unfold shared_perms.
      destruct (_ || _); [apply leaves_bind, leaves_call; by intros|].
      destruct (_ || _); [do 2 (apply leaves_bind, leaves_call; intros ?); done|].
      destruct (_ || _); [apply leaves_bind, leaves_call; by intros|].
      destruct (cf_str c) as [x|e] eqn:Ec.
      + destruct (parse_octal x); [apply leaves_bind, leaves_call; by intros|].
        do 2 (apply leaves_bind, leaves_call; intros ?); done.
      + destruct (g_code e) eqn:Eg; [do 2 (apply leaves_bind, leaves_call; intros ?); done| |].
        * right. exists e. rewrite Eg. split; [done|]. right. by exists c.
        * left. simpl. by rewrite Eg.
    - apply leaves_ret. simpl. destruct (g_code e) eqn:Eg; [right|right|by left]; exists e; (split; [by rewrite Eg|by left]). }
  eapply leaves_mono; [|exact Hp]. intros [u|e] He.
  - eapply leaves_mono; [|apply lk_transfer_run]. intros [[]|e].
    + intros _. apply leaves_ret. by left.
    + intros Hk. apply leaves_ret. right. left. split; [|apply Hne]. simpl. unfold err_exit_status.
      repeat (apply elem_of_cons in Hk as [->|Hk]; [done|]). by apply elem_of_nil in Hk.
  - apply leaves_ret. destruct He as [He|He].
    + right. left. split; [|apply Hne]. simpl. unfold err_exit_status. by rewrite He.
    + destruct (decide (err_exit_status e = NonFatal)) as [En|En].
      * right. right. simpl. rewrite En. split_and!; [done|apply Hne|done].
      * right. left. split; [|apply Hne]. simpl. unfold err_exit_status in *. by destruct (e_kind e).
Qed.

Lemma c35 os l s fuel : (length (l_in l) + 2 <= fuel)%nat -> files_below fuel s ->
  exists out l' s', out <> Failed OutOfFuel /\
    (forall n, (fuel <= n)%nat -> run pid (transfer_main en n lfs cfg op) os l s = (out, l', s')).
Proof.
  intros Hf Hs. pose proof (any_main fuel l s Hf Hs) as H. apply wp_run with (os := os) in H; [|done].
  destruct (run pid (transfer_main en fuel lfs cfg op) os l s) as [[out l'] s'] eqn:E. exists out, l', s'.
  assert (Hne : out <> Failed OutOfFuel).
  { destruct out as [a|f]; [done|]. intros [= ->]. by apply H. }
  split; [done|]. intros n Hn. rewrite <- E. apply cut_run; [by apply ct_transfer_main|]. by rewrite E.
Qed.

Lemma c35_code os l s fuel code msg l' s' :
  run pid (transfer_main en fuel lfs cfg op) os l s = (Done (code, msg), l', s') ->
  (code = 0%Z /\ msg = []) \/ (code = 2%Z /\ msg <> []) \/ (code = 1%Z /\ msg <> [] /\ config_failed cfg).
Proof. intros H. exact (leaves_run _ _ _ _ _ _ _ _ _ (lk_main fuel) H). Qed.

Lemma c39 os l s fuel msg l' s' :
  run pid (transfer_main en fuel lfs cfg op) os l s = (Done (0%Z, msg), l', s') ->
  exists rs out, answer_stream rs out /\ l_out l' = l_out l ++ out.
Proof.
  intros H. destruct (files_below_max s (fuel + length (l_in l) + 2)) as (n & Hn & Hs).
  pose proof (any_main n l s ltac:(lia) Hs) as G. apply wp_run with (os := os) in G; [|done].
  assert (E : run pid (transfer_main en n lfs cfg op) os l s = run pid (transfer_main en fuel lfs cfg op) os l s).
  { apply cut_run; [apply ct_transfer_main; lia|by rewrite H]. }
  rewrite E, H in G. by apply G.
Qed.
End main.

(** ** C41 *)
Lemma codes_of_session en m uid clock w reqs as_ w' :
  session_of en m uid clock w reqs as_ w' -> Forall (fun a => rp_code a <> 500%N) as_.
Proof. induction 1 as [|w r a w' rs as_ w'' H _ IH]; constructor; [|done]. by destruct H. Qed.

Lemma c41_well_formed en lfs umask ts (clock : Z -> Prop) m pid os l s w reqs extra fuel :
  setting en lfs ts clock os -> holds en lfs s w -> asks m l reqs extra -> enough fuel l w ->
  exists as_ w' s', served en lfs umask ts clock m pid fuel os l s w reqs as_ extra w' s' /\
    Forall (fun a => rp_code a <> 500%N) as_.
Proof.
  intros H1 H2 H3 H4. destruct (c13 _ _ umask _ _ _ pid _ _ _ _ _ _ _ H1 H2 H3 H4) as (as_ & w' & s' & H).
  exists as_, w', s'. split; [done|]. destruct H as (l' & ps & out & _ & Hs & _). by eapply codes_of_session.
Qed.
