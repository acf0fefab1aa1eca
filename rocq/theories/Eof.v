(** What a run does not look at: input it has not asked for. *)
From Verif Require Import Bytes ByteFacts Err FS Prog Pktline Args Local Processor Transfer Wp PktFacts ReaderFacts
  GetProofs Spec SpecStore FsFacts IoFacts ServerEv SeqIo Total.

Local Arguments parse_header : simpl never.
Local Opaque COPY_BUF MAX_PACKET_LEN.

(** A read past the end of the input. *)
Definition starved (e : ev) (o : orc) (l : local) : bool :=
  match e, o_fault o with
  | ERead n, None => (lenN (l_in l) <? n)%N
  | _, _ => false
  end.
Fixpoint eof {A} (pid : nat) (p : prog A) (os : orcs) (l : local) (s : fs) : bool :=
  match p with
  | Vis e k => starved e (os 0%nat) l ||
      let '(r, l', s') := handle_ev pid e (os 0%nat) l s in eof pid (k r) (shift os) l' s'
  | _ => false
  end.

Definition add_in (x : bytes) (l : local) : local := set_in (l_in l ++ x) l.

Lemma handle_ext pid e o l s x : starved e o l = false ->
  handle_ev pid e o (add_in x l) s =
  let '(r, l', s') := handle_ev pid e o l s in (r, add_in x l', s').
Proof.
  intros H. destruct l as [i out um uid]. destruct e; simpl in *; unfold faulty, with_l, add_in, do_read in *;
    destruct (o_fault o) eqn:E; try done; simpl in *.
  apply N.ltb_ge in H. rewrite (proj2 (N.leb_le n (lenN i))) by done.
  rewrite (proj2 (N.leb_le n (lenN (i ++ x)))) by (unfold lenN in *; rewrite app_length; lia).
  unfold lenN in H. unfold set_in. simpl. by rewrite take_app_le, drop_app_le by lia.
Qed.

Lemma run_ext {A} pid (p : prog A) os l s x : eof pid p os l s = false ->
  run pid p os (add_in x l) s = let '(out, l', s') := run pid p os l s in (out, add_in x l', s').
Proof.
  revert os l s. induction p as [a|f|e k IH]; intros os l s H; simpl in *; [done..|].
  apply orb_false_iff in H as [H1 H2]. rewrite handle_ext by done.
  destruct (handle_ev pid e (os 0%nat) l s) as [[r l'] s']. by apply IH.
Qed.

Lemma eof_bind {A B} pid (p : prog A) (f : A -> prog B) os l s :
  eof pid (bind p f) os l s =
  eof pid p os l s ||
  match run pid p os l s with
  | (Done a, l', s') => eof pid (f a) (rest pid p os l s) l' s'
  | _ => false
  end.
Proof.
  revert os l s. induction p as [a|x|e k IH]; intros os l s; [done..|].
  change (bind (Vis e k) f) with (Vis e (fun r => bind (k r) f)). cbn [eof run rest].
  destruct (handle_ev pid e (os 0%nat) l s) as [[r l'] s']. by rewrite IH, orb_assoc.
Qed.

(** [fate l p Q]: if [p] ends, started with [l], its result and whether it has
    read past the end satisfy [Q]. *)
Definition fate {A} (l : local) (p : prog A) (Q : bool -> A -> local -> Prop) : Prop :=
  forall pid os s a l' s', run pid p os l s = (Done a, l', s') -> Q (eof pid p os l s) a l'.

Lemma fate_ret {A} l (a : A) (Q : bool -> A -> local -> Prop) : Q false a l -> fate l (Ret a) Q.
Proof. intros H pid os s a' l' s' [= <- <- <-]. exact H. Qed.
Lemma fate_fail {A} l f (Q : bool -> A -> local -> Prop) : fate l (Fail f) Q.
Proof. intros pid os s a' l' s' E. simpl in E. discriminate E. Qed.
Lemma fate_mono {A} l (p : prog A) (Q R : bool -> A -> local -> Prop) :
  fate l p Q -> (forall b a l', Q b a l' -> R b a l') -> fate l p R.
Proof. intros H HR pid os s a l' s' E. eapply HR, H, E. Qed.
Lemma fate_bind {A B} l (p : prog A) (f : A -> prog B) (Q : bool -> B -> local -> Prop) :
  fate l p (fun b a l' => fate l' (f a) (fun c => Q (b || c))) -> fate l (bind p f) Q.
Proof.
  intros H pid os s a l' s' E. rewrite run_bind in E. rewrite eof_bind.
  destruct (run pid p os l s) as [[[x|x] l1] s1] eqn:E1; [|done]. by eapply H.
Qed.
Lemma fate_bindR {A B} l (p : prog (res A)) (f : A -> prog (res B)) (Q : bool -> res B -> local -> Prop) :
  fate l p (fun b r l' => match r with Ok a => fate l' (f a) (fun c => Q (b || c)) | Er e => Q b (Er e) l' end) ->
  fate l (bindR p f) Q.
Proof.
  intros H. apply fate_bind. eapply fate_mono; [exact H|]. intros b [a|e] l' H'; [done|].
  apply fate_ret. by rewrite orb_false_r.
Qed.
Lemma fate_io_call {A} l (p : prog (iores A)) (Q : bool -> res A -> local -> Prop) :
  fate l p (fun b r l' => Q b (res_of_io r) l') -> fate l (io_call p) Q.
Proof.
  intros H. apply fate_bind. eapply fate_mono; [exact H|]. intros b r l' H'.
  apply fate_ret. by rewrite orb_false_r.
Qed.
Lemma fate_read l n (Q : bool -> iores bytes -> local -> Prop) :
  (forall e, Q false (IErr e) l) -> (n <= lenN (l_in l) -> Q false (IOk (take (N.to_nat n) (l_in l))) (set_in (drop (N.to_nat n) (l_in l)) l))%N ->
  (lenN (l_in l) < n -> Q true (IErr EEOF) (set_in [] l))%N ->
  fate l (call (ERead n)) Q.
Proof.
  intros H1 H2 H3 pid os s a l' s'. simpl. unfold faulty, do_read.
  destruct (o_fault (os 0%nat)) eqn:E; [by intros [= <- <- <-]|].
  destruct (n <=? lenN (l_in l))%N eqn:El; intros [= <- <- <-].
  - apply N.leb_le in El. rewrite (proj2 (N.ltb_ge _ _)) by done. by apply H2.
  - apply N.leb_gt in El. rewrite (proj2 (N.ltb_lt _ _)) by done. by apply H3.
Qed.
Lemma fate_mute {A} l (p : prog A) (Q : bool -> A -> local -> Prop) :
  mute p -> (forall a l', l_in l' = l_in l -> l_out l' = l_out l -> Q false a l') -> fate l p Q.
Proof.
  intros Hp HQ. assert (G : forall l1, l_in l1 = l_in l -> l_out l1 = l_out l -> fate l1 p Q); [|by apply G].
  induction p as [a|f|e k IH]; intros l1 H1 H2; [by apply fate_ret, HQ|apply fate_fail|].
  destruct Hp as [He Hk]. intros pid os s a l' s'.
  assert (Hl : l_in (handle_ev pid e (os 0%nat) l1 s).1.2 = l_in l1 /\ l_out (handle_ev pid e (os 0%nat) l1 s).1.2 = l_out l1).
  { destruct e; try done; simpl; unfold faulty, with_l; destruct (o_fault (os 0%nat)); try done. }
  assert (Hst : starved e (os 0%nat) l1 = false) by (by destruct e; simpl; destruct (o_fault (os 0%nat))).
  simpl. destruct (handle_ev pid e (os 0%nat) l1 s) as [[r l2] s2]. simpl in Hl. rewrite Hst. simpl.
  intros E. destruct Hl. eapply IH; [by apply Hk|congruence|congruence|exact E].
Qed.

(** Nothing more will come. *)
Definition dry (b : bool) (l : local) : Prop := b = true \/ l_in l = [].

Lemma fate_read_gen (p : prog (res packet)) l : p = read_packet \/ p = read_one ->
  fate l p (fun b r l' => dry b l -> l_in l' = [] /\ exists e, r = Er e).
Proof.
  assert (Hh : fate l read_header (fun b r l' => match r with Ok _ => b = false /\ l_in l <> [] | Er _ => dry b l -> l_in l' = [] end)).
  { apply fate_bindR, fate_io_call, fate_read.
    - intros e. simpl. by intros [?|?].
    - intros Hle. simpl. assert (Hne : l_in l <> []) by (intros E; rewrite E in Hle; unfold lenN in Hle; simpl in Hle; lia).
      destruct (take _ (l_in l)) as [|a [|b [|c [|d [|]]]]]; try (apply fate_ret; by intros [?|?]); try apply fate_fail.
      apply fate_ret. destruct (parse_header _); [done|]. by intros [?|?].
    - done. }
  intros Hp. assert (Hd : forall size l1 b, b = false /\ l_in l <> [] ->
    fate l1 (let? d := io_call (call (ERead (size - 4))) in Ret (Ok (PData d)))
      (fun c r l' => dry (b || c) l -> l_in l' = [] /\ exists e, r = Er e)).
  { intros size l1 b [-> Hne]. apply fate_bindR, fate_io_call, fate_read; simpl.
    - intros e. by intros [?|?].
    - intros _. apply fate_ret. by intros [?|?].
    - intros _ _. split; [done|by eexists]. }
  assert (Hr : forall l1 b (r : res packet), b = false /\ l_in l <> [] ->
    fate l1 (Ret r) (fun c r l' => dry (b || c) l -> l_in l' = [] /\ exists e, r = Er e)).
  { intros l1 b r [-> Hne]. apply fate_ret. by intros [?|?]. }
  destruct Hp as [-> | ->]; apply fate_bindR; (eapply fate_mono; [exact Hh|]); intros b [size|e] l1 H1;
    try (intros Hd'; split; [by apply H1|by eexists]);
    repeat match goal with |- fate _ (if ?c then _ else _) _ => destruct c end; try (by apply Hr); by apply Hd.
Qed.

Lemma fate_read_to_type f stop l :
  fate l (read_to_type f stop) (fun b r l' => dry b l -> l_in l' = []).
Proof.
  revert l. induction f as [|f IH]; intros l; [apply fate_fail|]. cbn [read_to_type].
  apply fate_bind. eapply fate_mono; [apply (fate_read_gen read_packet); by left|]. intros b r l1 H1.
  destruct r as [p|e].
  - assert (Hb : b = false /\ l_in l <> []).
    { destruct b; [destruct (H1 (or_introl eq_refl)) as (_ & ? & ?); done|]. split; [done|].
      intros E. destruct (H1 (or_intror E)) as (_ & ? & ?); done. }
    destruct Hb as [-> Hne]. case_decide.
    + apply fate_ret. by intros [?|?].
    + apply fate_bindR. eapply fate_mono; [apply IH|]. intros c [ls|e] l2 H2.
      * apply fate_ret. intros [Hc|?]; [|done]. apply H2. left. destruct c; done.
      * intros [Hc|?]; [|done]. apply H2. left. by destruct c.
  - destruct (decide _); apply fate_ret; rewrite orb_false_r; intros Hd; by apply H1.
Qed.

Lemma fate_read_loop f n rb l : (0 < n)%N -> rb_wf rb ->
  fate l (read_loop f n rb) (fun b x l' => rb_wf x.2 /\ (dry b l -> l_in l' = [] /\ exists e, x.1 = IErr e)).
Proof.
  intros Hn. revert l. induction f as [|f IH]; intros l Hwf; [apply fate_fail|]. cbn [read_loop].
  apply fate_bind. eapply fate_mono; [apply (fate_read_gen read_one); by right|]. intros b r l1 H1.
  destruct r as [p|e].
  2: { apply fate_ret. rewrite orb_false_r. split; [done|]. intros Hd. split; [by apply H1|by eexists]. }
  assert (Hb : b = false /\ l_in l <> []).
  { destruct b; [destruct (H1 (or_introl eq_refl)) as (_ & ? & ?); done|]. split; [done|].
    intros E. destruct (H1 (or_intror E)) as (_ & ? & ?); done. }
  destruct Hb as [-> Hne].
  assert (Hend : forall x, rb_wf x.2 -> fate l1 (Ret x) (fun c x l' => rb_wf x.2 /\ (dry (false || c) l -> l_in l' = [] /\ exists e, x.1 = @IErr bytes e))).
  { intros x Hx. apply fate_ret. split; [done|]. by intros [?|?]. }
  assert (Hnext : fate l1 (read_loop f n rb) (fun c x l' => rb_wf x.2 /\ (dry (false || c) l -> l_in l' = [] /\ exists e, x.1 = IErr e))).
  { eapply fate_mono; [by apply IH|]. intros c x l' [H2 H3]. split; [done|]. intros [Hc|?]; [|done].
    apply H3. left. by destruct c. }
  destruct p as [| |d]; [by apply Hend|by apply Hend|]. destruct (negb _).
  - destruct (0 <? lenN d)%N eqn:E; [|done]. apply Hend. unfold rb_wf. cbn [fst snd rb_off rb_len rb_data]. lia.
  - destruct (lenN d =? 0)%N; [done|]. by apply Hend.
Qed.

Lemma fate_reader_read f n rb l : (0 < n)%N -> rb_wf rb ->
  fate l (reader_read f n rb) (fun b x l' => rb_wf x.2 /\ (b = true -> exists e, x.1 = IErr e) /\
    (l_in l = [] -> l_in l' = [] /\ x.1 <> IOk [])).
Proof.
  intros Hn Hwf. unfold reader_read. destruct (0 <? _)%N eqn:E.
  - apply N.ltb_lt in E. destruct Hwf as [H1 H2]. unfold lenN in H2.
    assert (Hne : take (N.to_nat (N.min (rb_len rb - rb_off rb) n)) (drop (N.to_nat (rb_off rb)) (rb_data rb)) <> []).
    { intros Hc. apply (f_equal length) in Hc. rewrite take_length, drop_length in Hc. simpl in Hc. lia. }
    destruct (_ =? _)%N eqn:E2; apply fate_ret; simpl; (split; [|split; [done|]]);
      try (intros Hl; split; [done|congruence]).
    + unfold rb_wf; simpl; lia.
    + apply N.eqb_neq in E2. unfold rb_wf; simpl; unfold lenN; lia.
  - eapply fate_mono; [by apply fate_read_loop|]. intros b x l' [H1 H2]. split; [done|]. split.
    + intros ->. apply H2. by left.
    + intros Hl. destruct (H2 (or_intror Hl)) as [H3 [e He]]. split; [done|]. by rewrite He.
Qed.

Lemma fate_copy_to_file f fd got rb l : rb_wf rb ->
  fate l (copy_to_file f fd got rb) (fun b x l' => dry b l -> exists e, x.1 = Er e).
Proof.
  revert got rb l. induction f as [|f IH]; intros got rb l Hwf; [apply fate_fail|]. cbn [copy_to_file].
  destruct copy_buf_pos as [k Ek]. apply fate_bind.
  eapply fate_mono; [apply fate_reader_read; [lia|done]|]. intros b [r rb1] l1 (H1 & H2 & H3). simpl in *.
  destruct r as [[|c d]|e].
  - apply fate_ret. rewrite orb_false_r. intros [Hb|Hl]; [by destruct (H2 Hb)|]. by destruct (H3 Hl).
  - assert (b = false) as -> by (destruct b; [by destruct (H2 eq_refl)|done]).
    apply fate_bind, fate_mute; [by apply mute_call|]. intros w l2 Hi _. destruct w as [[]|e].
    + eapply fate_mono; [by apply IH|]. intros c' x l' H. intros [Hc|Hl]; apply H; [left; by destruct c'|].
      right. rewrite Hi. by apply H3.
    + apply fate_ret. intros _. by eexists.
  - apply fate_ret. intros _. by eexists.
Qed.

Lemma fate_put_object en be fuel o rb l : rb_wf rb ->
  fate l (p_put_object en be fuel o rb) (fun b x l' => b = true -> exists e, x.1 = Er e).
Proof.
  intros Hwf. unfold p_put_object. destruct (oid_new o) as [o'|e]; [|by apply fate_ret].
  apply fate_bind, fate_bindR. eapply fate_mono; [apply fate_read_to_type|]. intros b r l1 H1.
  destruct r as [lines|e].
  2: { apply fate_ret. intros _. by eexists. }
  apply fate_mute; [mu|]. intros a l2 H2 _. destruct a as [expected|e].
  2: { apply fate_ret. intros _. by eexists. }
  apply fate_bind. unfold start_upload. apply fate_bind, fate_mute; [by apply mute_call|].
  intros t l3 H3 _. destruct t as [[tmp fd]|e].
  2: { apply fate_ret, fate_ret. intros _. by eexists. }
  apply fate_bind. eapply fate_mono; [by apply fate_copy_to_file|]. intros c [r rb1] l4 H4.
  assert (Hd : b = true \/ c = true -> exists e, r = Er e).
  { intros Hbc. apply H4. destruct Hbc as [Hb|Hc]; [right|by left]. rewrite H3, H2. apply H1. by left. }
  destruct r as [got|e].
  - assert (b = false /\ c = false) as [-> ->].
    { split; [destruct b|destruct c]; try done; exfalso; [destruct Hd as [? ?]; [by left|done]|destruct Hd as [? ?]; [by right|done]]. }
    apply fate_ret. apply fate_mute; [mu|]. by intros a l' _ _.
  - apply fate_bind, fate_mute; [by apply mu_drop_temp|]. intros [] l5 _ _.
    apply fate_ret, fate_ret. intros _. by eexists.
Qed.

(** ** C36: a shorter input. *)
Lemma c36_put en be fuel o rb pid os l s st rb' l' s' : rb_wf rb ->
  run pid (p_put_object en be fuel o rb) os l s = (Done (Ok st, rb'), l', s') ->
  exists c, l_in l = c ++ l_in l' /\
    forall c1 c2, c = c1 ++ c2 -> c2 <> [] -> forall st2 rb2 l2 s2,
      run pid (p_put_object en be fuel o rb) os (set_in c1 l) s <> (Done (Ok st2, rb2), l2, s2).
Proof.
  intros Hwf E.
  assert (Hsuf : exists c, l_in l = c ++ l_in l').
  { clear Hwf. revert os l s E. generalize (p_put_object en be fuel o rb). intros p.
    induction p as [a|f|e k IH]; intros os l s E; simpl in E.
    - injection E as _ -> _. by exists [].
    - done.
    - assert (Hstep : exists c, l_in l = c ++ l_in (handle_ev pid e (os 0%nat) l s).1.2).
      { destruct e; simpl; unfold faulty, with_l, do_read; destruct (o_fault (os 0%nat)); simpl; try (by exists []).
        destruct (n <=? lenN (l_in l))%N; simpl.
        - exists (take (N.to_nat n) (l_in l)). by rewrite take_drop.
        - exists (l_in l). by rewrite app_nil_r. }
      destruct (handle_ev pid e (os 0%nat) l s) as [[r l1] s1]. simpl in Hstep.
      destruct Hstep as [c1 H1]. destruct (IH _ _ _ _ E) as [c2 H2]. exists (c1 ++ c2).
      by rewrite H1, H2, app_assoc. }
  destruct Hsuf as [c Hc]. exists c. split; [done|]. intros c1 c2 -> Hne st2 rb2 l2 s2 E2.
  pose proof (fate_put_object en be fuel o rb (set_in c1 l) Hwf _ _ _ _ _ _ E2) as Hf. simpl in Hf.
  destruct (eof pid (p_put_object en be fuel o rb) os (set_in c1 l) s) eqn:Ee; [by destruct Hf|].
  pose proof (run_ext _ _ _ _ _ (c2 ++ l_in l') Ee) as Hx. rewrite E2 in Hx.
  assert (Hl : add_in (c2 ++ l_in l') (set_in c1 l) = l).
  { unfold add_in. rewrite set_in_set_in. simpl. rewrite app_assoc, <- Hc. apply set_in_id. }
  rewrite Hl, E in Hx. injection Hx as _ _ Hl' _. apply (f_equal l_in) in Hl'. unfold add_in in Hl'. simpl in Hl'.
  apply (f_equal length) in Hl'. rewrite !app_length in Hl'. destruct c2; [done|simpl in Hl'; lia].
Qed.
