(** One line, one packet: C48. *)
From Verif Require Import Bytes Err FS Prog Pktline Args Local Processor Transfer Sha256 Rfc3339
  Spec SpecStore SpecServer SpecLines PktFacts PktProofs LinesProofs Transcripts Props_Store Props_Server.

(** Refuted: a lock request may have a path of up to 65525 bytes, and a line of
    more than 65516 bytes is sent as several packets.  The session below is a lock
    request for a path of 65520 bytes; its "path=" line is split. *)
Definition long_path : bytes := repeat Byte.x61 (N.to_nat 65520).
Lemma enc_len ps : Forall (fun q => lenN (payload q) <= 65531)%N ps ->
  length (enc_all ps) = list_sum (map (fun q => 4 + length (payload q))%nat ps).
Proof.
  induction 1 as [|q ps Hq _ IH]; [done|]. cbn [enc_all flat_map map list_sum fold_right]. rewrite app_length.
  change (flat_map enc ps) with (enc_all ps). rewrite IH. change (fold_right _ _ ?l) with (list_sum l). f_equal.
  destruct q as [| |d]; [done|done|]. cbn [enc]. rewrite app_length, hex04_length; [done|]. simpl in Hq. lia.
Qed.
Lemma second_line a b ls qs : lines_sent (a :: b :: ls) qs ->
  exists p1 p2 q2, qs = p1 ++ p2 ++ q2 /\ line_sent b p2.
Proof.
  intros H. inversion H as [|? ? p1 q1 _ H1]; subst. inversion H1 as [|? ? p2 q2 Hl _]; subst. by exists p1, p2, q2.
Qed.
Theorem C48_one_packet_refuted :
  exists l long_fuel, asks Upload l [lock_of long_path] [] /\ enough long_fuel l (World ∅ ∅) /\
  exists as_ w' l' s' ps out,
    run 0 (transfer_run test_env long_fuel lfs_dir 63 (Some noon) (operation Upload)) quiet l fs0 = (Done (Ok tt), l', s') /\
    session_of test_env Upload (l_uid l) (eq noon) (World ∅ ∅) [lock_of long_path] as_ w' /\ replies_sent as_ ps /\
    wires (PData (bs "version=1" ++ [NL]) :: PFlush :: ps) out /\ l_out l' = l_out l ++ out /\
    exists before cs after, ps = before ++ map PData cs ++ after /\
      concat cs = bs "path=" ++ long_path ++ [NL] /\ (2 <= length cs)%nat.
Proof.
  assert (Hlen : lenN long_path = 65520%N).
  { unfold long_path, lenN. rewrite repeat_length. lia. }
  generalize dependent long_path. intros p Hp.
  assert (Hfu : exists n, N.of_nat n = 140000%N) by (exists (N.to_nat 140000); apply N2Nat.id).
  destruct Hfu as [long_fuel Hfu]. set (reqs := [lock_of p]).
  assert (Hsmall : Forall (fun q => lenN (payload q) <= 65531)%N (concat (map packets_of reqs))).
  { repeat constructor; simpl; unfold lenN in *; rewrite ?app_length; simpl; rewrite ?app_length; simpl; lia. }
  assert (Hin : (lenN (enc_all (concat (map packets_of reqs))) <= 65800)%N).
  { unfold lenN in *. rewrite (enc_len _ Hsmall). simpl. rewrite ?app_length. simpl. lia. }
  assert (Hasks : asks Upload (input_of reqs) reqs []).
  { split.
    - repeat constructor; simpl; try (refine (bool_decide_eq_true_1 _ _); by vm_compute). 
    - exists (enc_all (concat (map packets_of reqs))), []. split_and!; [by apply wires_enc|constructor|by rewrite app_nil_r]. }
  assert (Hfuel : enough long_fuel (input_of reqs) (World ∅ ∅)).
  { split; [|intros o d; simpl; by rewrite lookup_empty]. unfold lenN in *.
    change (l_in (input_of reqs)) with (enc_all (concat (map packets_of reqs))). lia. }
  exists (input_of reqs), long_fuel. split; [done|]. split; [done|].
  destruct (Session.c13 test_env lfs_dir 63 (Some noon) (eq noon) Upload 0 quiet _ _ _ _ _ _ demo_setting fs0_holds Hasks Hfuel)
    as (as_ & w' & s' & l' & ps & out & H1 & H2 & _ & H3 & H4 & H5).
  rewrite app_nil_r in H3. exists as_, w', l', s', ps, out. do 5 (split; [assumption|]).
  inversion H2 as [|? ? a w1 ? as2 ? Ha Hrest]; subst. inversion Hrest; subst.
  eapply (SessionFacts.lock_answer _ _ _ _ _ _ p) in Ha; [| |by left|by right; left].
  2: { split; [repeat constructor|]; simpl; try (refine (bool_decide_eq_true_1 _ _); by vm_compute). }
  simpl in Ha. rewrite lookup_empty in Ha. destruct Ha as (t & t' & x & _ & _ & _ & -> & _).
  inversion H3 as [|? ? ps1 qs Hr Hnil]; subst. inversion Hnil; subst.
  destruct Hr as (code & qa & qb & _ & _ & Hls & _ & ->). unfold lock_info, rp_args in Hls.
  apply second_line in Hls as (p1 & p2 & q2 & -> & Hl).
  destruct Hl as (cs & -> & Hc & Hsz & _).
  exists (PData (bs "status " ++ code ++ [NL]) :: p1), cs, (q2 ++ qb ++ [PFlush]). split_and!.
  - by rewrite app_nil_r, <- !app_assoc.
  - exact Hc.
  - destruct cs as [|c1 [|c2 cs]]; simpl; [done| |lia]. exfalso. apply Forall_cons in Hsz as [[_ Hsz] _].
    simpl in Hc. rewrite app_nil_r in Hc. subst c1. unfold lenN in *. simpl in Hsz. rewrite app_length in Hsz. simpl in Hsz. lia.
Qed.
Print Assumptions C48_one_packet_refuted.

(** What holds: if the paths of all locks have at most 65445 bytes (and names of
    users and times are not absurdly long), every argument and every line of every
    answer is one packet.  [session_of] says which lines these are. *)
Theorem C48_one_packet_partial en lfs umask ts (clock : Z -> Prop) m pid os l s w reqs extra fuel :
  setting en lfs ts clock os -> holds en lfs s w -> asks m l reqs extra -> enough fuel l w ->
  (forall t, clock t -> short_time en t) -> short_name en (l_uid l) -> short_world en w -> Forall short_request reqs ->
  exists as_ w' l' s' ps out,
    run pid (transfer_run en fuel lfs umask ts (operation m)) os l s = (Done (Ok tt), l', s') /\
    session_of en m (l_uid l) clock w reqs as_ w' /\ all_one_packet_each (as_ ++ extra) ps /\
    wires (PData (bs "version=1" ++ [NL]) :: PFlush :: ps) out /\ l_out l' = l_out l ++ out.
Proof. exact (c48 en lfs umask ts clock m pid os l s w reqs extra fuel). Qed.
Print Assumptions C48_one_packet_partial.

Example C48_case :
  setting test_env lfs_dir (Some noon) (eq noon) quiet /\ holds test_env lfs_dir fs_demo w_demo /\
  asks Upload (input_of demo2) demo2 [] /\ enough 4000 (input_of demo2) w_demo /\
  (forall t, noon = t -> short_time test_env t) /\ short_name test_env (l_uid (input_of demo2)) /\
  short_world test_env w_demo /\ Forall short_request demo2 /\ Forall short_request demo.
Proof.
  assert (Ht : forall t, noon = t -> short_time test_env t).
  { intros t <- x E. vm_compute in E. injection E as <-. by vm_compute. }
  split_and!; [exact demo_setting|exact demo_holds|apply asks_of; by vm_compute|apply enough_of; by vm_compute
    |exact Ht|by vm_compute| |by repeat constructor|].
  - split.
    + intros i p t u. unfold w_demo, w_locks. rewrite lookup_insert_Some. intros [[_ [= <- <- <-]]|[_ H]].
      * split_and!; [done|by apply Ht|done].
      * apply lookup_singleton_Some in H as [_ [= <- <- <-]]. split_and!; [done|by apply Ht|done].
    + intros o d. unfold w_demo, w_objs. rewrite lookup_singleton_Some. intros [_ <-]. done.
  - repeat constructor; simpl; intros p Hp; rewrite !elem_of_cons, elem_of_nil in Hp;
      destruct Hp as [[= ->]|[E|[]]]; done.
Qed.
