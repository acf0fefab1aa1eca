(** The buffering reader: what [Reader::read] returns as a function of the bytes
    pending in its buffer and the input. *)
From Verif Require Import Bytes ByteFacts Err FS Prog Pktline Wp PktFacts.

Lemma decode_shrink lim i p i' : decode lim i = (Ok p, i') -> (length i' + 4 <= length i)%nat.
Proof.
  unfold decode. destruct (4 <=? lenN i)%N eqn:E; [|done]. apply N.leb_le in E.
  assert (H4 : (4 <= length i)%nat) by (unfold lenN in E; lia).
  destruct (take_4 i H4) as (a & b & c & d & ->).
  destruct (parse_header _) as [size|e]; [|done].
  assert (length (drop 4 i) + 4 <= length i)%nat by (rewrite drop_length; lia).
  destruct (size =? 0)%N; [by intros [= <- <-]|]. destruct (size =? 1)%N; [by intros [= <- <-]|].
  destruct (_ || _); [done|]. destruct (lim <? size)%N; [done|].
  destruct (_ <=? _)%N; [|done]. intros [= <- <-]. rewrite drop_length. lia.
Qed.

Lemma decode_shrink' lim i r i' : decode lim i = (r, i') -> (length i' <= length i)%nat.
Proof.
  destruct r as [p|e]; [intros H; apply decode_shrink in H; lia|].
  unfold decode. destruct (4 <=? lenN i)%N eqn:E; [|intros [= <- <-]; simpl; lia].
  apply N.leb_le in E. assert (H4 : (4 <= length i)%nat) by (unfold lenN in E; lia).
  destruct (take_4 i H4) as (a & b & c & d & ->).
  destruct (parse_header _) as [size|e']; [|intros [= <- <-]; rewrite drop_length; lia].
  destruct (size =? 0)%N; [done|]. destruct (size =? 1)%N; [done|].
  destruct (_ || _); [intros [= <- <-]; rewrite drop_length; lia|].
  destruct (lim <? size)%N; [intros [= <- <-]; rewrite drop_length; lia|].
  destruct (_ <=? _)%N; [done|]. intros [= <- <-]. simpl. lia.
Qed.

Lemma decode_data_len lim i d i' :
  decode lim i = (Ok (PData d), i') -> (lenN d + 4 <= lim)%N.
Proof.
  unfold decode. destruct (4 <=? lenN i)%N; [|done].
  destruct (take 4 i) as [|a [|b [|c [|e [|]]]]]; try done.
  destruct (parse_header _) as [size|]; [|done].
  destruct (size =? 0)%N eqn:E0; [done|]. destruct (size =? 1)%N eqn:E1; [done|].
  destruct (_ || _) eqn:E2; [done|]. destruct (lim <? size)%N eqn:E3; [done|].
  destruct (_ <=? _)%N eqn:E4; [|done]. intros [= <- <-].
  apply N.ltb_ge in E3. apply N.leb_le in E4. apply N.eqb_neq in E0, E1.
  apply orb_false_iff in E2 as [E2 E2']. apply N.eqb_neq in E2, E2'.
  unfold lenN in *. rewrite take_length. lia.
Qed.

(** The next non-empty data packet, or the end ([Ok None]) or an error. *)
Fixpoint next_data (fuel : nat) (i : bytes) : option (res (option bytes) * bytes) :=
  match fuel with
  | O => None
  | S f =>
      match decode 65520 i with
      | (Ok (PData []), i') => next_data f i'
      | (Ok (PData d), i') => Some (Ok (Some d), i')
      | (Ok _, i') => Some (Ok None, i')
      | (Er e, i') => Some (Er e, i')
      end
  end.

Lemma next_data_total f i : (length i < f)%nat -> exists x, next_data f i = Some x.
Proof.
  revert i. induction f as [|f IH]; intros i H; [lia|]. simpl.
  destruct (decode 65520 i) as [[[| |[|x d]]|e] i'] eqn:E; eauto.
  apply decode_shrink in E. apply IH. lia.
Qed.

Lemma next_data_data f i d i' :
  next_data f i = Some (Ok (Some d), i') ->
  d <> [] /\ (lenN d <= 65516)%N /\ (length i' + length d + 4 <= length i)%nat.
Proof.
  revert i. induction f as [|f IH]; intros i; simpl; [done|].
  destruct (decode 65520 i) as [[[| |[|x d']]|e] j] eqn:E; try done.
  - intros H. apply IH in H as (? & ? & ?). apply decode_shrink in E. naive_solver lia.
  - intros [= <- <-]. split; [done|]. pose proof (decode_data_len _ _ _ _ E).
    split; [lia|].
    revert E. unfold decode. destruct (4 <=? lenN i)%N eqn:E4; [|done].
    apply N.leb_le in E4. assert (H4 : (4 <= length i)%nat) by (unfold lenN in E4; lia).
    destruct (take_4 i H4) as (a & b & c & e & ->).
    destruct (parse_header _) as [size|]; [|done].
    destruct (size =? 0)%N; [done|]. destruct (size =? 1)%N; [done|].
    destruct (_ || _); [done|]. destruct (_ <? size)%N; [done|].
    destruct (_ <=? _)%N eqn:E5; [|done]. intros [= Hd <-]. rewrite <- Hd.
    rewrite take_length, !drop_length. lia.
Qed.

Lemma next_data_shrink f i r i' : next_data f i = Some (r, i') -> (length i' <= length i)%nat.
Proof.
  revert i. induction f as [|f IH]; intros i; simpl; [done|].
  destruct (decode 65520 i) as [[[| |[|x d']]|e] j] eqn:E; intros H;
    try (injection H as <- <-; by eapply decode_shrink').
  apply IH in H. apply decode_shrink in E. lia.
Qed.

(** ** The buffer *)

Definition rb_wf (rb : rbuf) : Prop := (rb_off rb <= rb_len rb <= lenN (rb_data rb))%N.
Definition pend (rb : rbuf) : bytes :=
  take (N.to_nat (rb_len rb - rb_off rb)) (drop (N.to_nat (rb_off rb)) (rb_data rb)).

Lemma rb_empty_wf : rb_wf rb_empty.
Proof. done. Qed.
Lemma pend_empty : pend rb_empty = [].
Proof. done. Qed.

Lemma pend_length rb : rb_wf rb -> length (pend rb) = N.to_nat (rb_len rb - rb_off rb).
Proof.
  intros [H1 H2]. unfold pend. rewrite take_length, drop_length. unfold lenN in H2. lia.
Qed.

Section wp.
Context (pid : nat) (F : failure -> local -> fs -> Prop).
Notation WP := (wp pid no_fault F).

Lemma wp_read_loop f n rb (Q : iores bytes * rbuf -> local -> fs -> Prop) l s r i' :
  (0 < n)%N -> pend rb = [] -> rb_wf rb ->
  next_data f (l_in l) = Some (r, i') ->
  match r with
  | Er e => Q (IErr (io_of_err e), rb) (set_in i' l) s
  | Ok None => Q (IOk [], rb) (set_in i' l) s
  | Ok (Some d) =>
      forall rb', rb_wf rb' -> pend rb' = drop (N.to_nat n) d ->
      Q (IOk (take (N.to_nat n) d), rb') (set_in i' l) s
  end ->
  WP (read_loop f n rb) Q l s.
Proof.
  intros Hn Hp Hwf. revert l. induction f as [|f IH]; intros l; simpl; [done|].
  intros Hnd HQ. apply wp_bind, wp_read_one.
  destruct (decode 65520 (l_in l)) as [[[| |d]|e] j] eqn:E; simpl.
  - injection Hnd as <- <-. by apply wp_ret.
  - injection Hnd as <- <-. by apply wp_ret.
  - pose proof (decode_data_len _ _ _ _ E) as Hlen.
    destruct d as [|x d].
    + simpl. rewrite if_same || idtac.
      destruct (negb (MAX_PACKET_LEN <=? n)%N) eqn:Ec; simpl;
        (apply IH; [exact Hnd|exact HQ]).
    + injection Hnd as <- <-.
      assert (Hpos : (0 <? lenN (x :: d))%N = true) by (apply N.ltb_lt; unfold lenN; simpl; lia).
      assert (Hz : (lenN (x :: d) =? 0)%N = false) by (apply N.eqb_neq; unfold lenN; simpl; lia).
      rewrite Hpos, Hz.
      destruct (MAX_PACKET_LEN <=? n)%N eqn:Ec; simpl negb; cbv iota.
      * apply N.leb_le in Ec. unfold MAX_PACKET_LEN in Ec.
        apply wp_ret.
        assert (Hle : (length (x :: d) <= N.to_nat n)%nat) by (unfold lenN in Hlen; lia).
        specialize (HQ rb Hwf). rewrite take_ge in HQ by done. apply HQ.
        rewrite Hp. symmetry. by apply drop_ge.
      * apply wp_ret.
        replace (take (N.to_nat (N.min (lenN (x :: d)) n)) (x :: d))
          with (take (N.to_nat n) (x :: d)).
        2: { destruct (decide (lenN (x :: d) <= n)%N) as [Hle|Hle].
             - rewrite N.min_l by done. rewrite !take_ge; [done|..]; unfold lenN in *; lia.
             - rewrite N.min_r by lia. done. }
        apply HQ.
        -- unfold rb_wf. simpl rb_off. simpl rb_len. simpl rb_data. lia.
        -- unfold pend. simpl rb_off. simpl rb_len. simpl rb_data.
           destruct (decide (lenN (x :: d) <= n)%N) as [Hle|Hle].
           ++ rewrite N.min_l by done. rewrite N.sub_diag. simpl take.
              symmetry. apply drop_ge. unfold lenN in Hle. lia.
           ++ rewrite N.min_r by lia. apply take_ge. rewrite drop_length. unfold lenN. lia.
  - injection Hnd as <- <-. by apply wp_ret.
Qed.

(** [Reader::read] with a non-empty caller buffer. *)
Lemma wp_reader_read f n rb (Q : iores bytes * rbuf -> local -> fs -> Prop) l s :
  (0 < n)%N -> rb_wf rb -> (length (l_in l) < f)%nat ->
  (pend rb <> [] ->
   forall rb', rb_wf rb' -> pend rb' = drop (N.to_nat n) (pend rb) ->
   Q (IOk (take (N.to_nat n) (pend rb)), rb') l s) ->
  (pend rb = [] -> forall r i', next_data f (l_in l) = Some (r, i') ->
   match r with
   | Er e => Q (IErr (io_of_err e), rb) (set_in i' l) s
   | Ok None => Q (IOk [], rb) (set_in i' l) s
   | Ok (Some d) =>
       forall rb', rb_wf rb' -> pend rb' = drop (N.to_nat n) d ->
       Q (IOk (take (N.to_nat n) d), rb') (set_in i' l) s
   end) ->
  WP (reader_read f n rb) Q l s.
Proof.
  intros Hn Hwf Hf HP HN. unfold reader_read.
  pose proof (pend_length rb Hwf) as Hl.
  destruct (0 <? N.min (rb_len rb - rb_off rb) n)%N eqn:E.
  - apply N.ltb_lt in E.
    assert (Hne : pend rb <> []) by (intros H0; rewrite H0 in Hl; simpl in Hl; lia).
    specialize (HP Hne).
    replace (take (N.to_nat (N.min (rb_len rb - rb_off rb) n))
               (drop (N.to_nat (rb_off rb)) (rb_data rb)))
      with (take (N.to_nat n) (pend rb)).
    2: { unfold pend. rewrite take_take. f_equal. lia. }
    destruct (N.min _ _ =? _)%N eqn:E2.
    + apply N.eqb_eq in E2. apply wp_ret, HP.
      * unfold rb_wf. simpl. lia.
      * unfold pend at 1. simpl. symmetry. apply drop_ge. lia.
    + apply N.eqb_neq in E2. apply wp_ret, HP.
      * unfold rb_wf in *. simpl. lia.
      * unfold pend. simpl. rewrite N.min_r by lia.
        rewrite skipn_firstn_comm, drop_drop. f_equal; [lia|]. f_equal. lia.
  - apply N.ltb_ge in E.
    assert (Hnil : pend rb = []) by (apply nil_length_inv; lia).
    destruct (next_data_total f (l_in l) Hf) as [[r i'] Hnd].
    eapply wp_read_loop; [done|done|done|exact Hnd|]. by apply HN.
Qed.

End wp.
