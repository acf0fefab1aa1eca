(** Proofs of the pkt-line properties. *)
From Verif Require Import Bytes ByteFacts Err FS Prog Pktline Wp PktFacts ReaderFacts Spec.

Lemma wp_done {A} pid (p : prog A) (Q : A -> local -> fs -> Prop) os l s :
  wp pid no_fault no_fail p Q l s -> fault_free os ->
  exists a l' s', run pid p os l s = (Done a, l', s') /\ Q a l' s'.
Proof.
  intros H Hos. pose proof (wp_run pid no_fault no_fail p Q l s H os Hos) as HR.
  destruct (run pid p os l s) as [[[a|f] l'] s']; [by exists a, l', s'|done].
Qed.

Lemma wp_done_eq {A} pid (p : prog A) a l' s' os l s :
  wp pid no_fault no_fail p (fun x y z => x = a /\ y = l' /\ z = s') l s -> fault_free os ->
  run pid p os l s = (Done a, l', s').
Proof. intros H Hos. destruct (wp_done _ _ _ _ _ _ H Hos) as (?&?&?&?&->&->&->). done. Qed.

Lemma ff_rest {A} pid (p : prog A) os l s : fault_free os -> fault_free (rest pid p os l s).
Proof. exact (rest_ok pid p no_fault os l s). Qed.

(** ** The wire format *)

Lemma hex_digit_hexdig c v : hex_digit c v <-> (v < 16)%N /\ c = hexdig v.
Proof.
  unfold hex_digit. split.
  - intros H. assert (Hv : (v < 16)%N) by (apply lookup_lt_Some in H; cbn in H; lia).
    split; [done|]. revert v Hv H.
    apply (lt_16_cases (fun v => _ !! N.to_nat v = Some c -> c = hexdig v));
      by intros [= <-].
  - intros [Hv ->]. revert v Hv.
    apply (lt_16_cases (fun v => _ !! N.to_nat v = Some (hexdig v))); done.
Qed.

Lemma hex4_hex04 h v : hex4 h v <-> (v < 65536)%N /\ h = hex04 v.
Proof.
  split.
  - intros (a & b & c & d & x & y & z & w & -> & Ha & Hb & Hc & Hd & ->).
    apply hex_digit_hexdig in Ha as [? ->], Hb as [? ->], Hc as [? ->], Hd as [? ->].
    split; [lia|]. rewrite hex04_spec by lia.
    assert (E1 : ((x * 4096 + y * 256 + z * 16 + w) / 16 = x * 256 + y * 16 + z)%N).
    { ndm (x * 4096 + y * 256 + z * 16 + w)%N 16%N. lia. }
    assert (E2 : ((x * 4096 + y * 256 + z * 16 + w) / 256 = x * 16 + y)%N).
    { ndm (x * 4096 + y * 256 + z * 16 + w)%N 256%N. lia. }
    assert (E3 : ((x * 4096 + y * 256 + z * 16 + w) / 4096 = x)%N).
    { ndm (x * 4096 + y * 256 + z * 16 + w)%N 4096%N. lia. }
    rewrite E1, E2, E3.
    assert (M1 : ((x * 256 + y * 16 + z) mod 16 = z)%N).
    { ndm (x * 256 + y * 16 + z)%N 16%N. lia. }
    assert (M2 : ((x * 16 + y) mod 16 = y)%N).
    { ndm (x * 16 + y)%N 16%N. lia. }
    assert (M3 : ((x * 4096 + y * 256 + z * 16 + w) mod 16 = w)%N).
    { ndm (x * 4096 + y * 256 + z * 16 + w)%N 16%N. lia. }
    by rewrite M1, M2, M3.
  - intros [Hv ->]. rewrite hex04_spec by done.
    eexists _, _, _, _, _, _, _, _. split; [done|].
    repeat split; try apply hex_digit_hexdig; try (split; [|done]);
      try (apply N.mod_lt; lia); try (apply N.div_lt_upper_bound; lia).
    replace (v / 4096)%N with (v / 16 / 16 / 16)%N by (rewrite !N.div_div by lia; done).
    replace (v / 256)%N with (v / 16 / 16)%N by (rewrite !N.div_div by lia; done).
    ndm v 16%N. ndm q 16%N. ndm q0 16%N. lia.
Qed.

Lemma wire_enc p : (lenN (payload p) <= 65531)%N -> wire p (enc p).
Proof.
  destruct p as [| |d]; simpl; intros H; [constructor..|].
  constructor. apply hex4_hex04. split; [lia|done].
Qed.

Lemma wire_inv p w : wire p w -> w = enc p /\ (lenN (payload p) <= 65531)%N.
Proof.
  intros [| |h d H]; simpl; [done..|].
  apply hex4_hex04 in H as [H ->]. split; [done|lia].
Qed.

Lemma wires_enc ps :
  Forall (fun p => lenN (payload p) <= 65531)%N ps -> wires ps (enc_all ps).
Proof. induction 1; simpl; constructor; [by apply wire_enc|done]. Qed.

Lemma wires_inv ps w :
  wires ps w -> w = enc_all ps /\ Forall (fun p => lenN (payload p) <= 65531)%N ps.
Proof.
  induction 1 as [|p w ps ws H _ [-> IH]]; [done|].
  apply wire_inv in H as [-> H]. split; [done|]. by constructor.
Qed.

Lemma payload_len p : lenN (payload p) = pkt_len p.
Proof. by destruct p. Qed.

(** ** C01 *)

Section wp.
Context (pid : nat) (F : failure -> local -> fs -> Prop).
Notation WP := (wp pid no_fault F).

Lemma wp_write_packets ps (Q : res unit -> local -> fs -> Prop) l s :
  Q (Ok tt) (add_out (enc_all ps) l) s -> WP (write_packets ps) Q l s.
Proof.
  revert l. induction ps as [|p ps IH]; intros l HQ; simpl.
  - apply wp_ret. unfold add_out in HQ. simpl in HQ. rewrite app_nil_r in HQ.
    by destruct l.
  - apply wp_bindR, wp_write_packet. intros _. apply IH.
    unfold add_out in *. simpl in *. by rewrite <- app_assoc.
Qed.

Lemma wp_read_packets ps tl (Q : res (list packet) -> local -> fs -> Prop) l s :
  Forall (fun p => lenN (payload p) <= 65531)%N ps ->
  l_in l = enc_all ps ++ tl ->
  Q (Ok ps) (set_in tl l) s -> WP (read_packets (length ps)) Q l s.
Proof.
  intros Hps. revert l Q. induction Hps as [|p ps Hp Hps IH]; intros l Q Hl HQ; simpl.
  - apply wp_ret. simpl in Hl. rewrite <- Hl in HQ. by destruct l.
  - apply wp_bindR, wp_read_packet. simpl in Hl. rewrite <- app_assoc in Hl.
    rewrite Hl, decode_enc by (rewrite <- ?payload_len; lia). simpl.
    apply wp_bindR, IH; [done|]. by apply wp_ret.
Qed.

End wp.

Lemma c01 ps tl pid os os' l l' s s' :
  Forall (fun p => lenN (payload p) <= 65531)%N ps -> fault_free os -> fault_free os' ->
  exists w, run pid (write_packets ps) os l s = (Done (Ok tt), add_out w l, s) /\
    wires ps w /\
    (l_in l' = w ++ tl ->
     run pid (read_packets (length ps)) os' l' s' = (Done (Ok ps), set_in tl l', s')).
Proof.
  intros Hps Ho Ho'. exists (enc_all ps). split_and!.
  - apply wp_done_eq; [|done]. by apply wp_write_packets.
  - by apply wires_enc.
  - intros Hl. apply wp_done_eq; [|done]. by eapply wp_read_packets.
Qed.

(** ** C02: chunks *)

Lemma chunks_spec n l : (0 < n)%nat ->
  concat (chunks n l) = l /\ Forall (fun c => c <> [] /\ (length c <= n)%nat) (chunks n l).
Proof.
  intros Hn. unfold chunks.
  assert (G : forall f l, (length l <= f)%nat -> concat (chunks_aux f n l) = l /\
    Forall (fun c => c <> [] /\ (length c <= n)%nat) (chunks_aux f n l)); [|by apply G].
  induction f as [|f IH]; intros m Hm.
  - destruct m; [split; [done|constructor]|simpl in Hm; lia].
  - destruct m as [|x m]; [split; [done|constructor]|].
    change (chunks_aux (S f) n (x :: m)) with (take n (x :: m) :: chunks_aux f n (drop n (x :: m))).
    destruct (IH (drop n (x :: m))) as [H1 H2]; [rewrite drop_length; simpl in *; lia|].
    split.
    + cbn [concat]. rewrite H1. apply take_drop.
    + constructor; [|done]. split; [|rewrite take_length; lia].
      destruct n; [lia|done].
Qed.

Definition small (c : bytes) : Prop := (1 <= lenN c <= 65516)%N.

Lemma chunks_small l : concat (chunks (N.to_nat MAX_PACKET_LEN) l) = l /\
  Forall small (chunks (N.to_nat MAX_PACKET_LEN) l).
Proof.
  destruct (chunks_spec (N.to_nat MAX_PACKET_LEN) l) as [H1 H2]; [unfold MAX_PACKET_LEN; lia|].
  split; [done|]. eapply Forall_impl; [exact H2|]. intros c [Hc Hl].
  unfold small, lenN, MAX_PACKET_LEN in *. destruct c; [done|]. simpl in *. lia.
Qed.

Section wp2.
Context (pid : nat) (F : failure -> local -> fs -> Prop).
Notation WP := (wp pid no_fault F).

Lemma wp_write_chunks cs t (Q : iores N -> local -> fs -> Prop) l s :
  Q (IOk (t + lenN (concat cs))%N) (add_out (enc_all (map PData cs)) l) s ->
  WP (write_chunks cs t) Q l s.
Proof.
  revert t l. induction cs as [|c cs IH]; intros t l HQ; simpl.
  - apply wp_ret. unfold add_out in HQ. simpl in HQ. rewrite app_nil_r in HQ.
    change (lenN []) with 0%N in HQ. rewrite N.add_0_r in HQ. by destruct l.
  - apply wp_bind, wp_write_one, IH.
    cbn [concat map enc_all flat_map] in HQ. rewrite lenN_app, N.add_assoc in HQ.
    unfold add_out in *. cbn [l_out l_in l_umask l_uid] in *.
    by rewrite <- app_assoc.
Qed.

Lemma wp_writer_write b (Q : iores N -> local -> fs -> Prop) l s :
  Q (IOk (lenN b)) (add_out (enc_all (map PData (chunks (N.to_nat MAX_PACKET_LEN) b))) l) s ->
  WP (writer_write b) Q l s.
Proof.
  intros HQ. apply wp_write_chunks. by rewrite (proj1 (chunks_small b)), N.add_0_l.
Qed.

Lemma wp_writer_write_all b (Q : iores unit -> local -> fs -> Prop) l s :
  Q (IOk tt) (add_out (enc_all (map PData (chunks (N.to_nat MAX_PACKET_LEN) b))) l) s ->
  WP (writer_write_all b) Q l s.
Proof.
  intros HQ. destruct b as [|x b].
  - apply wp_ret. unfold add_out in HQ. simpl in HQ. rewrite app_nil_r in HQ. by destruct l.
  - apply wp_bind, wp_writer_write. rewrite N.eqb_refl. by apply wp_ret.
Qed.

Lemma wp_write_stream b (Q : res N -> local -> fs -> Prop) l s :
  Q (Ok (lenN b))
    (add_out (enc_all (map PData (chunks (N.to_nat MAX_PACKET_LEN) b) ++ [PFlush])) l) s ->
  WP (write_stream b) Q l s.
Proof.
  intros HQ. apply wp_bindR, wp_io_call, wp_writer_write, wp_bindR, wp_write_packet.
  intros _. apply wp_ret. unfold enc_all in *. rewrite flat_map_app in HQ.
  unfold add_out in *. simpl in *.   by rewrite <- app_assoc.
Qed.

End wp2.

(** ** C02, C06: reading a stream *)

Lemma enc_data_small d tl : (lenN d <= 65516)%N ->
  decode 65520 (enc (PData d) ++ tl) = (Ok (PData d), tl).
Proof. intros H. apply decode_enc; simpl; lia. Qed.

(** The next non-empty payload of a stream of data packets. *)
Lemma next_data_some f ds e tl :
  Forall (fun d => lenN d <= 65516)%N ds -> (length ds < f)%nat ->
  concat ds <> [] ->
  exists d ds', next_data f (enc_all (map PData ds ++ [e]) ++ tl) =
    Some (Ok (Some d), enc_all (map PData ds' ++ [e]) ++ tl) /\
    concat ds = d ++ concat ds' /\ d <> [] /\
    Forall (fun d => lenN d <= 65516)%N ds' /\ (length ds' < length ds)%nat.
Proof.
  intros H. revert f. induction H as [|d ds Hd H IH]; intros f Hf Hne; [done|].
  destruct f as [|f]; [simpl in Hf; lia|]. simpl in Hf.
  cbn [map app enc_all flat_map concat]. rewrite <- !app_assoc.
  cbn [next_data]. rewrite enc_data_small by done.
  destruct d as [|x d].
  - destruct (IH f) as (d' & ds' & H1 & H2 & H3 & H4 & H5); [lia|done|].
    exists d', ds'. split_and!; [exact H1|exact H2|done|done|simpl; lia].
  - exists (x :: d), ds. split_and!; [done..|apply Nat.lt_succ_diag_r].
Qed.

Lemma next_data_none f ds e tl :
  Forall (fun d => lenN d <= 65516)%N ds -> (length ds < f)%nat ->
  e = PFlush \/ e = PDelim -> concat ds = [] ->
  next_data f (enc_all (map PData ds ++ [e]) ++ tl) = Some (Ok None, tl).
Proof.
  intros H. revert f. induction H as [|d ds Hd H IH]; intros f Hf He Hc;
    (destruct f as [|f]; [simpl in Hf; lia|]); simpl in Hf.
  - cbn [map app enc_all flat_map]. rewrite app_nil_r. cbn [next_data].
    rewrite decode_enc by (destruct He as [-> | ->]; simpl; lia).
    destruct He as [-> | ->]; done.
  - cbn [concat] in Hc. apply app_nil in Hc as [-> Hc].
    cbn [map app enc_all flat_map]. rewrite <- app_assoc. cbn [next_data].
    rewrite enc_data_small by done. apply IH; [lia|done|done].
Qed.

Lemma take_nonempty {A} n (l : list A) : (0 < n)%nat -> l <> [] -> take n l <> [].
Proof. destruct n, l; simpl; try done. lia. Qed.

(** What the calls of [read_to_end] returned: non-empty pieces within their
    buffer sizes, then an empty one. *)
Definition pieces_fit (ds : list bytes) (ns : list N) : Prop :=
  exists ns' rest, ns = ns' ++ rest /\ rest <> [] /\
    Forall2 (fun d n => d <> [] /\ lenN d <= n)%N ds ns'.

Section wp3.
Context (pid : nat) (F : failure -> local -> fs -> Prop).
Notation WP := (wp pid no_fault F).

Lemma wp_read_to_end fuel ns rb ds e tl l s (Q : option (list bytes) -> local -> fs -> Prop) :
  Forall (fun n => 1 <= n)%N ns ->
  (length (pend rb ++ concat ds) < length ns)%nat ->
  (length (l_in l) < fuel)%nat ->
  rb_wf rb -> Forall (fun d => lenN d <= 65516)%N ds -> e = PFlush \/ e = PDelim ->
  l_in l = enc_all (map PData ds ++ [e]) ++ tl ->
  (forall out, concat out = pend rb ++ concat ds -> pieces_fit out ns ->
     Q (Some out) (set_in tl l) s) ->
  WP (read_to_end fuel ns rb) Q l s.
Proof.
  intros Hns. revert rb ds l Q. induction Hns as [|n ns Hn Hns IH];
    intros rb ds l Q Hlen Hfuel Hwf Hds He Hin HQ; [simpl in Hlen; lia|].
  cbn [read_to_end]. apply wp_bind.
  assert (Hnum : (length ds < fuel)%nat).
  { assert (length ds <= length (l_in l))%nat; [|lia]. rewrite Hin.
    clear. rewrite app_length. induction ds as [|d ds IH]; simpl; [lia|].
    rewrite !app_length. assert (1 <= length (hex04 (lenN d + 4)))%nat; [|lia].
    unfold hex04, pad0. rewrite app_length, replicate_length. lia. }
  apply wp_reader_read; [lia|done|done|..].
  - intros Hne rb' Hwf' Hp'.
    destruct (take (N.to_nat n) (pend rb)) as [|x d] eqn:Et.
    { exfalso. eapply take_nonempty; [|exact Hne|exact Et]. lia. }
    apply wp_bind. eapply (IH rb' ds); [|done|done|done|done|done|].
    + rewrite Hp'. rewrite app_length in *. rewrite drop_length. simpl in Hlen.
      assert (1 <= length (pend rb))%nat by (destruct (pend rb); [done|simpl; lia]). lia.
    + intros out Ho Hfit. apply wp_ret, HQ.
      * cbn [concat]. rewrite Ho, Hp'. rewrite <- Et, app_assoc. f_equal. apply take_drop.
      * destruct Hfit as (ns' & rest & -> & Hr & HF). exists (n :: ns'), rest.
        split_and!; try done. constructor; [|done]. split; [done|].
        rewrite <- Et. unfold lenN. rewrite take_length. lia.
  - intros Hpe r i' Hnd.
    destruct (decide (concat ds = [])) as [Hc|Hc].
    + rewrite Hin, next_data_none in Hnd by (done || lia). injection Hnd as <- <-.
      apply wp_ret, HQ.
      * rewrite Hpe, Hc. done.
      * exists [], (n :: ns). split_and!; try done.
    + rewrite Hin in Hnd. destruct (next_data_some fuel ds e tl Hds Hnum Hc)
        as (d & ds' & H1 & H2 & H3 & H4 & H5).
      rewrite H1 in Hnd. injection Hnd as <- <-. intros rb' Hwf' Hp'.
      assert (Hd1 : (1 <= length d)%nat) by (destruct d; [done|simpl; lia]).
      destruct (take (N.to_nat n) d) as [|x d0] eqn:Et.
      { exfalso. eapply take_nonempty; [|exact H3|exact Et]. lia. }
      apply wp_bind. eapply (IH rb' ds'); try done.
      * rewrite Hp'. rewrite Hpe, H2 in Hlen. rewrite !app_length in *.
        rewrite drop_length. simpl in Hlen. lia.
      * cbn [l_in set_in]. apply next_data_shrink in H1. rewrite <- Hin in H1. lia.
      * intros out Ho Hfit. rewrite set_in_set_in. apply wp_ret, HQ.
        -- cbn [concat]. rewrite Ho, Hp', Hpe, H2. rewrite <- Et. rewrite app_nil_l.
           rewrite app_assoc. f_equal. apply take_drop.
        -- destruct Hfit as (ns' & rest & -> & Hr & HF). exists (n :: ns'), rest.
           split_and!; try done. constructor; [|done]. split; [done|].
           rewrite <- Et. unfold lenN. rewrite take_length. lia.
Qed.

End wp3.

Lemma c06_stream fuel ns rb ds e w tl pid os l s :
  Forall (fun n => 1 <= n)%N ns -> (length (unread rb ++ concat ds) < length ns)%nat ->
  (length (l_in l) < fuel)%nat -> buffer_ok rb ->
  Forall (fun d => lenN d <= 65516)%N ds -> e = PFlush \/ e = PDelim ->
  wires (map PData ds ++ [e]) w -> l_in l = w ++ tl -> fault_free os ->
  exists out, run pid (read_to_end fuel ns rb) os l s = (Done (Some out), set_in tl l, s) /\
    concat out = unread rb ++ concat ds /\ pieces_fit out ns.
Proof.
  intros Hns Hlen Hf Hwf Hds He Hw Hin Hos. apply wires_inv in Hw as [-> _].
  destruct (wp_done pid (read_to_end fuel ns rb)
    (fun x y z => exists out, x = Some out /\ y = set_in tl l /\ z = s /\
       concat out = unread rb ++ concat ds /\ pieces_fit out ns) os l s)
    as (a & l' & s' & HR & out & -> & -> & -> & H1 & H2); [|done|].
  - eapply wp_read_to_end; try done. intros out H1 H2. by exists out.
  - exists out. by split_and!.
Qed.

Lemma c02_write buf pid os l s : fault_free os ->
  exists cs w, run pid (write_stream buf) os l s = (Done (Ok (lenN buf)), add_out w l, s) /\
    wires (map PData cs ++ [PFlush]) w /\ concat cs = buf /\
    Forall (fun c => 1 <= lenN c <= 65516)%N cs.
Proof.
  intros Hos. destruct (chunks_small buf) as [H1 H2].
  exists (chunks (N.to_nat MAX_PACKET_LEN) buf),
    (enc_all (map PData (chunks (N.to_nat MAX_PACKET_LEN) buf) ++ [PFlush])).
  split_and!; [| |done|done].
  - apply wp_done_eq; [|done]. by apply wp_write_stream.
  - apply wires_enc. apply Forall_app. split; [|by repeat constructor].
    apply Forall_fmap. eapply Forall_impl; [exact H2|]. unfold small. simpl. intros. lia.
Qed.

Lemma c02 buf tl ns fuel pid os os' l l' s s' :
  fault_free os -> fault_free os' ->
  Forall (fun n => 1 <= n)%N ns -> (length buf < length ns)%nat ->
  (length (l_in l') < fuel)%nat ->
  exists cs w, run pid (write_stream buf) os l s = (Done (Ok (lenN buf)), add_out w l, s) /\
    wires (map PData cs ++ [PFlush]) w /\ concat cs = buf /\
    Forall (fun c => 1 <= lenN c <= 65516)%N cs /\
    (l_in l' = w ++ tl ->
     exists out, run pid (read_to_end fuel ns rb_empty) os' l' s' =
                 (Done (Some out), set_in tl l', s') /\
       concat out = buf /\ pieces_fit out ns).
Proof.
  intros Ho Ho' Hns Hlen Hfuel.
  destruct (c02_write buf pid os l s Ho) as (cs & w & H1 & H2 & H3 & H4).
  exists cs, w. split_and!; try done. intros Hin.
  rewrite <- H3. apply (c06_stream fuel ns rb_empty cs PFlush w tl); try done.
  - rewrite H3. done.
  - eapply Forall_impl; [exact H4|]. simpl. lia.
  - by left.
Qed.

(** The buffer invariant: whatever happens, [read] leaves a good buffer. *)
Lemma buffer_ok_preserved pid fuel n rb os l s r rb' l' s' :
  buffer_ok rb -> run pid (reader_read fuel n rb) os l s = (Done (r, rb'), l', s') -> buffer_ok rb'.
Proof.
  intros Hwf. unfold reader_read.
  destruct (0 <? N.min (rb_len rb - rb_off rb) n)%N eqn:E.
  - apply N.ltb_lt in E. unfold buffer_ok in *.
    destruct (_ =? _)%N eqn:E2; intros [= <- <- <- <-]; simpl; try lia.
  - clear E. revert os l s. induction fuel as [|f IH]; intros os l s; cbn [read_loop]; [done|].
    rewrite run_bind. destruct (run pid read_one os l s) as [[[[p|e]|]]]; try done.
    2: by intros [= <- <- <- <-].
    destruct p as [| |d]; try (by intros [= <- <- <- <-]).
    destruct (negb _).
    + destruct (0 <? lenN d)%N; [|apply IH].
      intros [= <- <- <- <-]. unfold buffer_ok. simpl. lia.
    + destruct (lenN d =? 0)%N; [apply IH|]. by intros [= <- <- <- <-].
Qed.

(** ** C03, C04, C08: headers *)

Lemma decode_header lim h v tl :
  hex4 h v ->
  decode lim (h ++ tl) =
  if (v =? 0)%N then (Ok PFlush, tl)
  else if (v =? 1)%N then (Ok PDelim, tl)
  else if ((v =? 2) || (v =? 3))%N then (Er (err_simple BadPktlineHeader), tl)
  else if (lim <? v)%N then (Er (err_simple BadPktlineHeader), tl)
  else if (v - 4 <=? lenN tl)%N
  then (Ok (PData (take (N.to_nat (v - 4)) tl)), drop (N.to_nat (v - 4)) tl)
  else (Er (err_of_io EEOF), []).
Proof.
  intros H. apply hex4_hex04 in H as [Hv ->].
  destruct (parse_header_hex04 v Hv) as (a & b & c & d & -> & Hp).
  unfold decode. rewrite (proj2 (N.leb_le _ _)) by (unfold lenN; simpl; lia).
  cbn [app take drop]. rewrite Hp. done.
Qed.

Lemma read_packet_run pid os l s : fault_free os ->
  run pid read_packet os l s =
  (Done (decode 65535 (l_in l)).1, set_in (decode 65535 (l_in l)).2 l, s).
Proof. intros H. apply wp_done_eq; [|done]. by apply wp_read_packet. Qed.

Lemma c03_good h v tl pid os l s : fault_free os -> hex4 h v -> l_in l = h ++ tl ->
  run pid read_packet os l s =
  if (v =? 0)%N then (Done (Ok PFlush), set_in tl l, s)
  else if (v =? 1)%N then (Done (Ok PDelim), set_in tl l, s)
  else if (v <? 4)%N then (Done (Er (err_simple BadPktlineHeader)), set_in tl l, s)
  else if (v - 4 <=? lenN tl)%N
  then (Done (Ok (PData (take (N.to_nat (v - 4)) tl))),
        set_in (drop (N.to_nat (v - 4)) tl) l, s)
  else (Done (Er (err_of_io EEOF)), set_in [] l, s).
Proof.
  intros Hos Hh Hin. rewrite read_packet_run by done. rewrite Hin.
  rewrite (decode_header 65535 h v tl Hh).
  assert (Hv : (v < 65536)%N) by (by apply hex4_hex04 in Hh as [? _]).
  destruct (v =? 0)%N eqn:E0; [done|]. destruct (v =? 1)%N eqn:E1; [done|].
  apply N.eqb_neq in E0, E1.
  destruct (v <? 4)%N eqn:E4.
  - apply N.ltb_lt in E4.
    replace ((v =? 2) || (v =? 3))%N with true; [done|].
    symmetry. apply orb_true_iff. rewrite !N.eqb_eq. lia.
  - apply N.ltb_ge in E4.
    replace ((v =? 2) || (v =? 3))%N with false.
    2: { symmetry. apply orb_false_iff. rewrite !N.eqb_neq. lia. }
    rewrite (proj2 (N.ltb_ge _ _)) by lia.
    destruct (_ <=? _)%N; done.
Qed.

(** The characters the header parser takes as digits. *)
Definition lenient (c : byte) : Prop := c ∈ bs "0123456789:abcdefg".

Lemma hdr_digit_lenient c : is_Some (hdr_digit c) <-> lenient c.
Proof.
  assert (G : bool_decide (is_Some (hdr_digit c)) = bool_decide (c ∈ bs "0123456789:abcdefg"));
    [by destruct c; vm_compute|].
  unfold lenient. rewrite <- (bool_decide_eq_true (is_Some _)), G. apply bool_decide_eq_true.
Qed.

Lemma parse_header_lenient a b c d :
  (exists v, parse_header (a, b, c, d) = Ok v) <->
  lenient a /\ lenient b /\ lenient c /\ lenient d.
Proof.
  rewrite <- !hdr_digit_lenient. unfold parse_header, is_Some.
  destruct (hdr_digit a), (hdr_digit b), (hdr_digit c), (hdr_digit d); naive_solver.
Qed.

Lemma c03_bad_rejected a b c d tl pid os l s :
  fault_free os -> l_in l = a :: b :: c :: d :: tl ->
  ~ (lenient a /\ lenient b /\ lenient c /\ lenient d) ->
  run pid read_packet os l s = (Done (Er (err_simple BadPktlineHeader)), set_in tl l, s).
Proof.
  intros Hos Hin Hbad. rewrite read_packet_run by done. rewrite Hin. unfold decode.
  rewrite (proj2 (N.leb_le _ _)) by (unfold lenN; simpl; lia). cbn [take drop].
  destruct (parse_header (a, b, c, d)) as [v|e] eqn:E.
  - destruct Hbad. apply parse_header_lenient. by exists v.
  - revert E. unfold parse_header.
    destruct (hdr_digit a), (hdr_digit b), (hdr_digit c), (hdr_digit d); intros [= <-]; done.
Qed.

Lemma c04_read pid os l s h v tl n fuel rb :
  fault_free os -> hex4 h v -> (65520 < v)%N -> l_in l = h ++ tl ->
  (1 <= n)%N -> buffer_ok rb -> unread rb = [] -> (length (l_in l) < fuel)%nat ->
  run pid (reader_read fuel n rb) os l s =
  (Done (IErr (IoErr KInvalidData (bs "malformed or unknown pkt-line header")), rb), set_in tl l, s).
Proof.
  intros Hos Hh Hv Hin Hn Hb Hu Hf. apply wp_done_eq; [|done].
  destruct fuel as [|f]; [lia|].
  apply wp_reader_read; [lia|done|done|by intros []|].
  intros _ r i'. rewrite Hin. cbn [next_data]. rewrite (decode_header 65520 h v tl Hh).
  rewrite (proj2 (N.eqb_neq v 0)), (proj2 (N.eqb_neq v 1)), (proj2 (N.eqb_neq v 2)),
    (proj2 (N.eqb_neq v 3)) by lia. cbn [orb].
  rewrite (proj2 (N.ltb_lt 65520 v)) by lia. by intros [= <- <-].
Qed.

Lemma c04_packet_bound pid os l s d l' s' : fault_free os ->
  run pid read_packet os l s = (Done (Ok (PData d)), l', s') -> (lenN d <= 65531)%N.
Proof.
  intros Hos. rewrite read_packet_run by done. intros [= H _ _].
  destruct (decode 65535 (l_in l)) as [r i] eqn:E. simpl in H. subst r.
  apply decode_data_len in E. lia.
Qed.

Lemma decode_cut lim p w a b : wire p w -> w = a ++ b -> b <> [] ->
  match p with PData d => (lenN d + 4 <= lim)%N | _ => True end ->
  decode lim a = (Er (err_of_io EEOF), []).
Proof.
  intros Hw -> Hb Hlim.
  destruct (decide (4 <= length a)%nat) as [H4|H4].
  2: { unfold decode. rewrite (proj2 (N.leb_gt _ _)) by (unfold lenN; lia). done. }
  inversion Hw as [E1 E2|E1 E2|h d Hh E1 E2].
  - apply (f_equal length) in E2. rewrite app_length in E2. simpl in E2.
    destruct b; [done|simpl in E2; lia].
  - apply (f_equal length) in E2. rewrite app_length in E2. simpl in E2.
    destruct b; [done|simpl in E2; lia].
  - subst p. assert (Hl : length h = 4%nat) by (destruct Hh as (?&?&?&?&?&?&?&?&->&_); done).
    assert (Ha : a = h ++ take (length a - 4) d).
    { apply (f_equal (take (length a))) in E2. rewrite take_app in E2.
      rewrite take_app_ge in E2 by lia. rewrite Hl in E2. by symmetry. }
    apply (f_equal length) in E2. rewrite !app_length in E2.
    assert (1 <= length b)%nat by (destruct b; [done|simpl; lia]).
    rewrite Ha, (decode_header lim h _ _ Hh).
    rewrite (proj2 (N.eqb_neq _ 0)), (proj2 (N.eqb_neq _ 1)), (proj2 (N.eqb_neq _ 2)),
      (proj2 (N.eqb_neq _ 3)) by lia. cbn [orb].
    rewrite (proj2 (N.ltb_ge _ _)) by lia.
    rewrite (proj2 (N.leb_gt _ _)); [done|].
    unfold lenN in *. rewrite take_length. lia.
Qed.

Lemma c08 p w a b pid os l s :
  fault_free os -> wire p w -> w = a ++ b -> b <> [] -> l_in l = a ->
  exists e, run pid read_packet os l s = (Done (Er e), set_in [] l, s) /\
    io_kind e = KUnexpectedEof.
Proof.
  intros Hos Hw Hab Hb Hin. exists (err_of_io EEOF). split; [|done].
  rewrite read_packet_run by done. rewrite Hin, (decode_cut 65535 p w a b); try done.
  destruct p; try done. inversion Hw as [| |h ? Hh]; subst.
  assert (Hv : (lenN d + 4 < 65536)%N) by (by apply hex4_hex04 in Hh as [? _]). lia.
Qed.

Lemma c08_read k p w a b n fuel rb pid os l s :
  fault_free os -> wire p w -> w = a ++ b -> b <> [] ->
  match p with PData d => (lenN d <= 65516)%N | _ => True end ->
  l_in l = concat (replicate k (bs "0004")) ++ a ->
  (1 <= n)%N -> buffer_ok rb -> unread rb = [] -> (length (l_in l) < fuel)%nat ->
  exists x, run pid (reader_read fuel n rb) os l s = (Done (IErr x, rb), set_in [] l, s) /\
    io_kind_of x = KUnexpectedEof.
Proof.
  intros Hos Hw Hab Hb Hlim Hin Hn Hbuf Hu Hf. exists (io_of_err (err_of_io EEOF)). split; [|done].
  apply wp_done_eq; [|done].
  apply wp_reader_read; [lia|done|done|by intros []|].
  intros _ r i'. rewrite Hin. rewrite Hin in Hf. clear Hin.
  assert (Hnext : next_data fuel (concat (replicate k (bs "0004")) ++ a) = Some (Er (err_of_io EEOF), [])).
  { revert fuel Hf. induction k as [|k IH]; intros [|f] Hf; try lia; cbn [next_data replicate concat app].
    - by rewrite (decode_cut 65520 p w a b) by (done || (destruct p; [done|done|lia])).
    - rewrite <- app_assoc. rewrite (decode_header 65520 (bs "0004") 4) by
        (exists Byte.x30, Byte.x30, Byte.x30, Byte.x34, 0%N, 0%N, 0%N, 4%N; done).
      change (4 - 4)%N with 0%N. rewrite (proj2 (N.leb_le 0 _)) by lia. cbn [N.eqb Pos.eqb orb].
      change (65520 <? 4)%N with false. cbn [N.to_nat take drop]. apply IH. cbn in Hf. cbn. lia. }
  rewrite Hnext. by intros [= <- <-].
Qed.

(** ** C07 *)

Lemma decode_limits i p i' : decode 65520 i = (Ok p, i') -> decode 65535 i = (Ok p, i').
Proof.
  unfold decode. destruct (4 <=? lenN i)%N; [|done].
  destruct (take 4 i) as [|a [|b [|c [|e [|]]]]]; try done.
  destruct (parse_header _) as [v|] eqn:E; [|done].
  destruct (v =? 0)%N; [done|]. destruct (v =? 1)%N; [done|]. destruct (_ || _); [done|].
  destruct (65520 <? v)%N eqn:E1; [done|]. apply N.ltb_ge in E1.
  rewrite (proj2 (N.ltb_ge 65535 v)) by lia. done.
Qed.

Lemma next_data_none_inv pid f i i' :
  next_data f i = Some (Ok None, i') ->
  exists k e, (e = PFlush \/ e = PDelim) /\
  forall os l s, fault_free os -> l_in l = i ->
  run pid (read_packets (S k)) os l s =
    (Done (Ok (replicate k (PData []) ++ [e])), set_in i' l, s).
Proof.
  revert i. induction f as [|f IH]; intros i; [done|]. cbn [next_data].
  destruct (decode 65520 i) as [[p|e] j] eqn:E; [|done].
  assert (G : (p = PFlush \/ p = PDelim) -> i' = j ->
    exists k e, (e = PFlush \/ e = PDelim) /\
    forall os l s, fault_free os -> l_in l = i ->
    run pid (read_packets (S k)) os l s =
    (Done (Ok (replicate k (PData []) ++ [e])), set_in i' l, s)).
  { intros Hp ->. exists 0%nat, p. split; [done|]. intros os l s Hos Hin.
    apply wp_done_eq; [|done]. cbn [read_packets]. apply wp_bindR, wp_read_packet.
    rewrite Hin, (decode_limits _ _ _ E). simpl. by apply wp_bindR, wp_ret, wp_ret. }
  destruct p as [| |[|x d]].
  - intros [= <-]. apply G; [by left|done].
  - intros [= <-]. apply G; [by right|done].
  - intros H. apply IH in H as (k & e & He & HR). exists (S k), e. split; [done|].
    intros os l s Hos Hin. change (read_packets (S (S k)))
      with (let? p := read_packet in let? ps := read_packets (S k) in Ret (Ok (p :: ps))).
    unfold bindR at 1. rewrite run_bind, read_packet_run by done.
    rewrite Hin, (decode_limits _ _ _ E). cbn [fst snd].
    unfold bindR at 1. rewrite run_bind, (HR _ (set_in j l)); [done|by apply ff_rest|done].
  - done.
Qed.

Lemma c07 pid os l s n fuel rb rb' l' s' :
  fault_free os -> (1 <= n)%N -> buffer_ok rb -> (length (l_in l) < fuel)%nat ->
  run pid (reader_read fuel n rb) os l s = (Done (IOk [], rb'), l', s') ->
  unread rb = [] /\ unread rb' = [] /\ s' = s /\
  exists k e, (e = PFlush \/ e = PDelim) /\
  forall os, fault_free os ->
  run pid (read_packets (S k)) os l s = (Done (Ok (replicate k (PData []) ++ [e])), l', s).
Proof.
  intros Hos Hn Hb Hf HR.
  destruct (wp_done pid (reader_read fuel n rb)
    (fun x y z => x.1 = IOk [] -> unread rb = [] /\ unread x.2 = [] /\ z = s /\
       exists i', next_data fuel (l_in l) = Some (Ok None, i') /\ y = set_in i' l) os l s)
    as (a & l1 & s1 & H1 & H2); [|done|].
  { apply wp_reader_read; [lia|done|done|..].
    - intros Hne rb1 _ _ H. injection H as H. exfalso.
      eapply take_nonempty; [|exact Hne|exact H]. lia.
    - intros He r i' Hnd. destruct r as [[d|]|e]; try done.
      + intros rb1 _ _ H. injection H as H. apply next_data_data in Hnd as (Hd & _).
        exfalso. eapply take_nonempty; [|exact Hd|exact H]. lia.
      + intros _. split_and!; try done. by exists i'. }
  rewrite HR in H1. injection H1 as <- <- <-.
  destruct (H2 eq_refl) as (Hu & Hu' & -> & i' & Hnd & ->).
  destruct (next_data_none_inv pid fuel (l_in l) i' Hnd) as (k & e & He & Hrun).
  split_and!; try done. exists k, e. split; [done|]. intros os' Hos'. by apply Hrun.
Qed.

Lemma c04_refuted :
  exists i d, lenN i = 65521%N /\
  run 0 read_packet calm (stdin i) no_files = (Done (Ok (PData d)), stdin [], no_files) /\
  lenN d = 65517%N.
Proof.
  pose (d := replicate (N.to_nat 65517) Byte.x61).
  assert (Hd : lenN d = 65517%N) by (unfold lenN, d; rewrite replicate_length; lia).
  clearbody d. exists (bs "fff1" ++ d), d. split_and!; [|..|done].
  - rewrite lenN_app, Hd. done.
  - rewrite (c03_good (bs "fff1") 65521 d); [|done| |done].
    + change (65521 =? 0)%N with false. change (65521 =? 1)%N with false.
      change (65521 <? 4)%N with false. cbv iota. change (65521 - 4)%N with 65517%N.
      rewrite Hd. change (65517 <=? 65517)%N with true. cbv iota.
      rewrite take_ge, drop_ge by (unfold lenN in Hd; lia). done.
    + exists Byte.x66, Byte.x66, Byte.x66, Byte.x31, 15%N, 15%N, 15%N, 1%N. done.
Qed.

Lemma c03_refuted :
  exists h, (forall v, ~ hex4 h v) /\ length h = 4%nat /\
  run 0 read_packet calm (stdin h) no_files = (Done (Ok PFlush), stdin [], no_files).
Proof.
  exists (bs "g000"). split_and!; [|done|by vm_compute].
  intros v (a & b & c & d & x & y & z & w & [= <- <- <- <-] & H & _).
  apply hex_digit_hexdig in H as [Hx H]. revert x Hx H.
  by apply (lt_16_cases (fun x => Byte.x67 = hexdig x -> False)).
Qed.

Lemma c06_refuted :
  exists i, wires [PData (bs "abc"); PData (bs "def"); PFlush] i /\
  run 0 (read_each 40 [1; 0; 9; 9]%N rb_empty) calm (stdin i) no_files
  = (Done (IOk [bs "a"; []; bs "def"; []]), stdin [], no_files).
Proof.
  exists (bs "0007abc0007def0000"). split; [|by vm_compute].
  change (bs "0007abc0007def0000")
    with ((bs "0007" ++ bs "abc") ++ (bs "0007" ++ bs "def") ++ bs "0000" ++ []).
  repeat constructor; exists Byte.x30, Byte.x30, Byte.x30, Byte.x37, 0%N, 0%N, 0%N, 7%N; done.
Qed.
