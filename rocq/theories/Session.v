(** Whole sessions of one server when no system call fails. *)
From Verif Require Import Bytes ByteFacts Err FS Prog Pktline Args Local Processor Transfer Wp PktFacts ReaderFacts
  Spec SpecStore SpecServer PktProofs TextProofs IoFacts FsFacts ObjProofs GetProofs SeqIo SeqFs SeqCmd.

Local Arguments parse_header : simpl never.
Local Opaque COPY_BUF pk MAX_PACKET_LEN.

(** ** Starting in a repository without directories *)
Section start.
Context (en : env) (lfs : path).

Lemma holds_of s w : represents en lfs s w -> holds en lfs s w.
Proof using Type.
  intros [H1 H2 H3 H4 H5 H6 H7 H8]. split; try done.
  intros d a b j Hd E Hne Ha. rewrite (H1 d Hd a b E Hne) in Ha. done.
Qed.

Lemma represents_of s w : holds en lfs s w -> lfs_dirs s lfs -> represents en lfs s w.
Proof using Type. by intros [? H2 H3 H4 H5 H6 H7 H8] ?. Qed.

Lemma prefix_len (a b c : path) : c = a ++ b -> (length a <= length c)%nat.
Proof using Type. intros ->. rewrite app_length. lia. Qed.

Lemma holds_mkdir s w d : d ∈ dir_names -> holds en lfs s w ->
  exists s', fs_mkdirs s [] (lfs ++ [d]) = inr s' /\ holds en lfs s' w /\ is_dir s' (lfs ++ [d]) /\
    (forall p, is_dir s p -> is_dir s' p).
Proof using Type.
  intros Hd [H1 H2 H3 H4 H5 H6 H7 H8].
  destruct (mkdirs_ok s [] (lfs ++ [d])) as [s' E].
  { intros a b k Ha Eab. by apply (H1 d a b k). }
  exists s'. split; [done|]. apply mkdirs_spec in E as (I & _ & M1 & M2).
  assert (Hlong : forall q, (length lfs + 1 < length q)%nat -> nodes s' !! q = nodes s !! q).
  { intros q Hq. destruct (M1 q) as [?|(_ & _ & a & b & _ & E & ->)]; [done|]. apply prefix_len in E.
    rewrite app_length in E. simpl in E, Hq. lia. }
  assert (Hlo : forall o, nodes s' !! object_path lfs o = nodes s !! object_path lfs o).
  { intros o. apply Hlong. unfold object_path. rewrite app_length. simpl. lia. }
  assert (Hl2 : forall x y, nodes s' !! (lfs ++ [x; y]) = nodes s !! (lfs ++ [x; y])).
  { intros x y. apply Hlong. rewrite app_length. simpl. lia. }
  assert (Hl3 : forall x y z, nodes s' !! (lfs ++ [x; y; z]) = nodes s !! (lfs ++ [x; y; z])).
  { intros x y z. apply Hlong. rewrite app_length. simpl. lia. }
  assert (Hfile : forall q j, nodes s' !! q = Some (NFile j) -> nodes s !! q = Some (NFile j)).
  { intros q j Hq. destruct (M1 q) as [E|(_ & E & _)]; congruence. }
  assert (Hdir : forall q, nodes s !! q = Some NDir -> nodes s' !! q = Some NDir).
  { intros q Hq. destruct (M1 q) as [E|(_ & E & _)]; congruence. }
  split_and!.
  - split.
    + intros d' a b j Hd' E Ha Hj. by apply (H1 d' a b j Hd' E Ha), Hfile.
    + intros q j Hj. rewrite I. by eapply H2, Hfile.
    + intros q c n Hn. destruct (M1 (q ++ [c])) as [E|(_ & _ & a & b & _ & E1 & E2)].
      * rewrite E in Hn. destruct (H3 _ _ _ Hn) as [?|?]; [by left|]. right. by apply Hdir.
      * destruct (decide (q = [])) as [->|Hq]; [by left|]. right. simpl in E2. subst a.
        rewrite <- (app_nil_l q). apply (M2 q ([c] ++ b)); [done|]. by rewrite app_assoc.
    + intros o d' Ho. rewrite (H4 o d' Ho). unfold has_file. by rewrite Hlo, I.
    + done.
    + intros o Ho. rewrite Hlo, Hl2, Hl3. by apply H6.
    + intros i p t u E. destruct (H7 i p t u E) as ((j & x & Hj & Hx & ?) & ? & ?). split; [|done].
      exists j, x. by rewrite Hl2, I.
    + intros i n. rewrite Hl2. apply H8.
  - intros a b E Ha. rewrite <- (app_nil_l a). by apply (M2 a b).
  - intros p Hp a b E Ha. apply Hdir. by eapply Hp.
Qed.
End start.

(** ** Commands *)
Lemma words0 c : SP ∉ c -> command_words (c ++ [NL]) = [c].
Proof.
  intros H. unfold command_words. rewrite last_is_snoc, bool_decide_eq_true_2, removelast_last by done.
  by apply split_on_none.
Qed.
Lemma words1 c a : SP ∉ c -> SP ∉ a -> command_words ((c ++ [SP]) ++ a ++ [NL]) = [c; a].
Proof.
  intros Hc Ha. unfold command_words.
  rewrite app_assoc, last_is_snoc, bool_decide_eq_true_2, removelast_last by done.
  rewrite <- app_assoc. change ([SP] ++ a) with (SP :: a). rewrite split_on_app by done.
  by rewrite split_on_none.
Qed.

Section session.
Context (en : env) (lfs : path) (umask : N) (ts : option Z) (clock : Z -> Prop) (m : mode).
Context (pid fuel : nat) (F : failure -> local -> fs -> Prop).
Context (HH : digest (en_hash en)) (Hlfs : Forall plain_name lfs).
Context (Hts : forall t, ts = Some t -> clock t) (Hclock : forall t, clock t -> time_ok en t).
Let be := Backend lfs umask ts.
Let ok := mild ts clock.
Notation WP := (wp pid ok F).
Notation rep := (represents en lfs).
Notation answers := (answers en lfs umask ts clock m pid fuel F).
Notation room := (room fuel).

Lemma ok_nf : forall o, ok o -> no_fault o.
Proof using Type. by intros o []. Qed.

(** The first packet of a request names a command that answers it. *)
Lemma first_packet r : well_formed m r ->
  exists b c, packets_of r = PData b :: tail (packets_of r) /\ b <> [] /\
    dispatch (command_words b) m = c /\ c <> CQuit /\ answers r c.
Proof using HH Hlfs Hts Hclock.
  assert (Hno : forall x : bytes, bool_decide (SP ∈ x) = false -> SP ∉ x) by (intros x; by apply bool_decide_eq_false).
  intros Hw. destruct r as [|kvs items|o kvs ds|o kvs|o kvs|kvs|kvs|i kvs]; cbn [packets_of tail].
  - eexists _, _. split_and!; [done|done|done|by vm_compute|]. 
    apply nf_version.
  - eexists _, _. split_and!; [done|done|done|by vm_compute|]. by apply nf_batch_cmd.
  - pose proof Hw as (-> & _ & Ho & _). eexists _, (CPut o). split_and!; [done|done| |done|by apply nf_put_cmd].
    change (bs "put-object ") with (bs "put-object" ++ [SP]).
    rewrite (words1 (bs "put-object") o) by first [by apply oid_no_sp | apply Hno; by vm_compute]. done.
  - pose proof Hw as (-> & _ & Ho). eexists _, (CVerify o). split_and!; [done|done| |done|by apply nf_verify_cmd].
    change (bs "verify-object ") with (bs "verify-object" ++ [SP]).
    rewrite (words1 (bs "verify-object") o) by (done || (apply Hno; by vm_compute)). done.
  - pose proof Hw as (-> & _ & Ho). eexists _, (CGet o). split_and!; [done|done| |done|by apply nf_get_cmd].
    change (bs "get-object ") with (bs "get-object" ++ [SP]).
    rewrite (words1 (bs "get-object") o) by (done || (apply Hno; by vm_compute)). done.
  - pose proof Hw as (-> & _). eexists _, CLock. split_and!; [done|done|by vm_compute|done|by apply nf_lock_cmd].
  - eexists _, CListLock. split_and!; [done|done|by destruct m; vm_compute|done|by apply nf_list_cmd].
  - pose proof Hw as (-> & _ & Hi & _). eexists _, (CUnlock i). split_and!; [done|done| |done|by apply nf_unlock_cmd].
    change (bs "unlock ") with (bs "unlock" ++ [SP]).
    rewrite (words1 (bs "unlock") i) by (done || (apply Hno; by vm_compute)). done.
Qed.

(** One round of the loop. *)
Lemma nf_round r w rb tl l s (Q : next -> local -> fs -> Prop) :
  well_formed m r -> rep s w -> room w -> rb_ok rb -> (2 * length (l_in l) + 2 <= fuel)%nat ->
  l_in l = enc_all (packets_of r) ++ tl -> short (packets_of r) ->
  (forall a w' ps rb' s', answer_of en m (l_uid l) clock w r a w' -> reply_sent a ps -> rep s' w' -> room w' ->
     rb_ok rb' -> Q (Next rb') (add_out (enc_all ps) (set_in tl l)) s') ->
  WP (process_one en be fuel m rb) Q l s.
Proof using HH Hlfs Hts Hclock.
  intros Hwf Hr Hw Hrb Hf Hin Hs HQ. destruct (first_packet r Hwf) as (b & c & Ep & Hb & Hd & Hc & Ha).
  assert (Hin' : l_in l = enc (PData b) ++ (enc_all (tail (packets_of r)) ++ tl)).
  { rewrite Hin, Ep at 1. cbn [enc_all flat_map]. change (flat_map enc) with enc_all. by rewrite <- app_assoc. }
  unfold process_one. apply wp_bind. eapply (nf_read_enc pid ok F ok_nf); [exact Hin'| |].
  { rewrite Ep in Hs. by apply Forall_cons in Hs as [? _]. }
  cbn [pkt_data]. destruct b as [|b0 b']; [done|]. rewrite Hd. set (l1 := set_in _ l).
  assert (Hgo : WP (let! (r0, rb') := handle_command en be fuel c m rb in and_go_on rb' (answer fuel (status_of r0))) Q l1 s).
  { apply wp_bind. eapply wp_mono; [|apply (Ha w rb tl l1 s); [done|done|done| |apply (given_enc m); [done|by destruct (packets_of r); [|apply Forall_cons in Hs as [_ ?]]]]].
    - intros [x rb'] l' s' (a & w' & H1 & H2 & H3 & H4 & H5 & -> & H6). cbn [fst snd] in *.
      unfold and_go_on. apply wp_bind. eapply (nf_answer ts clock); [done|done|].
      intros ps s'' Hps E1 E2. apply wp_ret. unfold l1. rewrite set_in_set_in.
      eapply HQ; [exact H1|done| |done|done].
      eapply rep_same; [exact H2|done|by apply ino_le_eq].
    - unfold l1. cbn [l_in set_in]. rewrite Hin' in Hf. rewrite app_length in Hf. lia. }
  destruct c; done || exact Hgo.
Qed.

Lemma req_len r : (1 <= length (enc_all (packets_of r)))%nat.
Proof using Type.
  assert (G : exists b ps, packets_of r = PData b :: ps) by (destruct r; by eexists _, _).
  destruct G as (b & ps & ->). cbn [enc_all flat_map]. rewrite app_length.
  cbn [enc]. rewrite app_length. assert (1 <= length (hex04 (lenN b + 4)))%nat; [|lia].
  unfold hex04, pad0. rewrite app_length, replicate_length. lia.
Qed.

Lemma nf_session reqs n w rb rest extra l s :
  Forall (well_formed m) reqs -> rep s w -> room w -> rb_ok rb ->
  (2 * length (l_in l) + 2 <= fuel)%nat -> (length reqs < n)%nat ->
  l_in l = enc_all (concat (map packets_of reqs)) ++ rest -> short (concat (map packets_of reqs)) -> ending rest extra ->
  WP (process_commands en be fuel n m rb)
    (fun r l' s' => r = Ok tt /\ exists answers w' ps, session_of en m (l_uid l) clock w reqs answers w' /\
       replies_sent (answers ++ extra) ps /\ rep s' w' /\ exists tl, l' = add_out (enc_all ps) (set_in tl l)) l s.
Proof using HH Hlfs Hts Hclock.
  revert n w rb l s. induction reqs as [|r reqs IH]; intros n w rb l s Hwf Hr Hw Hrb Hf Hn Hin Hs Hend;
    (destruct n as [|n]; [simpl in Hn; lia|]); cbn [process_commands]; apply wp_bind.
  - simpl in Hin. destruct Hend as [|w0 junk Hq].
    + unfold process_one. apply wp_bind, (nf_read_packet pid ok F ok_nf). rewrite Hin.
      change (decode 65535 []) with (Er (A := packet) (err_of_io EEOF), @nil byte).
      cbn [fst snd]. apply wp_ret. cbn. rewrite decide_True by done. apply wp_ret. split; [done|]. exists [], w, []. split_and!; [constructor|constructor|done|].
      exists []. by rewrite add_out_nil.
    + apply wire_inv in Hq as [-> Hq]. unfold process_one. apply wp_bind. eapply (nf_read_enc pid ok F ok_nf); [exact Hin|done|].
      assert (dispatch (command_words (bs "quit" ++ [NL])) m = CQuit) as E by (by destruct m).
      change (pkt_data (PData (bs "quit" ++ [NL]))) with (Some (bs "quit" ++ [NL])). 
      destruct (bs "quit" ++ [NL]) as [|b0 b] eqn:Eb; [done|]. rewrite E.
      apply wp_bind. eapply (nf_answer ts clock pid fuel F st_success (Reply 200 [] BNone)); [|done|].
      { by apply (sends_none s 200 None), is_code. }
      intros ps s' Hps E1 E2. apply wp_ret. split; [done|]. exists [], w, (ps ++ []). split_and!.
      * constructor.
      * by repeat constructor.
      * eapply rep_same; [exact Hr|done|by apply ino_le_eq].
      * exists junk. by rewrite app_nil_r.
  - apply Forall_cons in Hwf as [Hwf1 Hwf]. cbn [map concat] in Hin, Hs.
    rewrite enc_all_app, <- app_assoc in Hin. apply Forall_app in Hs as [Hs1 Hs].
    eapply nf_round; [done|exact Hr|exact Hw|done|done|exact Hin|done|].
    intros a w' ps rb' s' Ha Hps Hr' Hw' Hrb'. eapply wp_mono; [|eapply (IH n w' rb'); try done].
    + intros x l' s'' (-> & ans & w'' & qs & H1 & H2 & H3 & tl & ->). split; [done|].
      exists (a :: ans), w'', (ps ++ qs). split_and!; [|by constructor|done|].
      * econstructor; [done|]. exact H1.
      * exists tl. rewrite enc_all_app. rewrite <- add_out_app. done.
    + cbn [l_in add_out set_in]. rewrite Hin, app_length in Hf. lia.
    + simpl in Hn. lia.
Qed.


Lemma nf_create ds w (Q : res unit -> local -> fs -> Prop) l s : (forall d, d ∈ ds -> d ∈ dir_names) -> holds en lfs s w ->
  (forall s', holds en lfs s' w -> (forall d, d ∈ ds -> is_dir s' (lfs ++ [d])) ->
     (forall p, is_dir s p -> is_dir s' p) -> Q (Ok tt) l s') ->
  WP (create_directories_in lfs ds) Q l s.
Proof using Type.
  revert s Q. induction ds as [|d ds IH]; intros s Q Hds Hs HQ; cbn [create_directories_in].
  { apply wp_ret, HQ; [done| |done]. by intros d ?%elem_of_nil. }
  apply wp_bindR, wp_io_call, wp_call. intros o [Ho _]. cbn [handle_ev]. unfold faulty. rewrite Ho.
  destruct (holds_mkdir en lfs s w d) as (s1 & E & H1 & H2 & H3); [apply Hds; by left|done|].
  unfold with_l, fs_mkdir_all. rewrite E. cbn [fst snd res_of_io]. apply IH; [intros d' ?; apply Hds; by right|done|].
  intros s' G1 G2 G3. apply HQ; [done| |].
  - intros d' [->|?]%elem_of_cons; [by apply G3|by apply G2].
  - intros p Hp. by apply G3, H3.
Qed.

Lemma mode_operation : mode_of (operation m) = Some m.
Proof using Type. by destruct m. Qed.

Definition capabilities : list packet := [PData (bs "version=1" ++ [NL]); PFlush].

Lemma nf_run reqs w rest extra l s :
  Forall (well_formed m) reqs -> holds en lfs s w -> room w ->
  (2 * length (l_in l) + 2 <= fuel)%nat ->
  l_in l = enc_all (concat (map packets_of reqs)) ++ rest -> short (concat (map packets_of reqs)) -> ending rest extra ->
  WP (transfer_run en fuel lfs umask ts (operation m))
    (fun r l' s' => r = Ok tt /\ exists answers w' ps, session_of en m (l_uid l) clock w reqs answers w' /\
       replies_sent (answers ++ extra) ps /\ rep s' w' /\ exists tl, l' = add_out (enc_all (capabilities ++ ps)) (set_in tl l)) l s.
Proof using HH Hlfs Hts Hclock.
  intros Hwf Hr Hw Hf Hin Hs Hend. unfold transfer_run. apply wp_bindR. unfold create_directories.
  apply (nf_create dir_names w); [done|done|]. intros s1 H1 H2 _.
  apply wp_bindR. unfold send_capabilities. apply wp_bindR, (nf_send pid ok F ok_nf), (nf_flush pid ok F ok_nf).
  rewrite mode_operation. rewrite add_out_app. rewrite pk_short.
  2: { unfold small. by vm_compute. }
  replace (enc_all [PData (bs "version=1" ++ [NL])] ++ enc PFlush) with (enc_all capabilities) by done.
  assert (Hreqs : (length reqs <= length (enc_all (concat (map packets_of reqs))))%nat).
  { clear. induction reqs as [|r reqs IH]; [simpl; lia|]. cbn [map concat]. rewrite enc_all_app, app_length.
    pose proof (req_len r). simpl. lia. }
  eapply wp_mono; [|eapply (nf_session reqs fuel w rb_empty rest extra); try done].
  - intros r l' s' (-> & ans & w' & ps & G1 & G2 & G3 & tl & ->). split; [done|]. exists ans, w', ps.
    split_and!; try done. exists tl. rewrite enc_all_app, <- add_out_app. done.
  - by apply represents_of.
  - rewrite Hin, app_length in Hf. lia.
Qed.
End session.

(** ** The packets of the answers *)
Lemma line_small l ps : line_sent l ps -> Forall (fun p => lenN (payload p) <= 65531)%N ps.
Proof.
  intros (cs & -> & _ & H & _). apply Forall_map. eapply Forall_impl; [exact H|]. simpl. intros c. lia.
Qed.
Lemma lines_small ls ps : lines_sent ls ps -> Forall (fun p => lenN (payload p) <= 65531)%N ps.
Proof. induction 1; [constructor|]. apply Forall_app. split; [by eapply line_small|done]. Qed.
Lemma reply_small r ps : reply_sent r ps -> Forall (fun p => lenN (payload p) <= 65531)%N ps.
Proof.
  intros (code & qa & qb & _ & Hlen & Ha & Hb & ->). constructor.
  { cbn [payload]. unfold lenN. rewrite !app_length, Hlen. simpl. lia. }
  apply Forall_app. split; [by eapply lines_small|]. apply Forall_app. split; [|by repeat constructor].
  destruct (rp_body r); simpl in Hb.
  - subst. constructor.
  - destruct Hb as (qs & -> & H). constructor; [simpl; done|by eapply lines_small].
  - destruct Hb as (cs & -> & _ & H). constructor; [simpl; done|]. apply Forall_map. eapply Forall_impl; [exact H|]. simpl. intros c. lia.
  - destruct Hb as (qs & -> & H). constructor; [simpl; done|by eapply line_small].
Qed.
Lemma replies_small rs ps : replies_sent rs ps -> Forall (fun p => lenN (payload p) <= 65531)%N ps.
Proof. induction 1; [constructor|]. apply Forall_app. split; [by eapply reply_small|done]. Qed.

(** ** C13 *)
Lemma c13 en lfs umask ts (clock : Z -> Prop) m pid os l s w reqs extra fuel :
  setting en lfs ts clock os -> holds en lfs s w -> asks m l reqs extra -> enough fuel l w ->
  exists as_ w' s', served en lfs umask ts clock m pid fuel os l s w reqs as_ extra w' s'.
Proof.
  intros [HH Hlfs Hts Hclock Hos] Hr (Hwf & inp & rest & Hw & Hend & Hin) [Hf Hroom]. apply wires_inv in Hw as [-> Hs].
  pose proof (nf_run en lfs umask ts clock m pid fuel no_fail HH Hlfs Hts Hclock reqs w rest extra l s Hwf Hr Hroom) as G.
  specialize (G Hf Hin Hs Hend).
  apply wp_run with (os := os) in G; [|done].
  destruct (run pid (transfer_run en fuel lfs umask ts (operation m)) os l s) as [[[a|f] l'] s'] eqn:E; [|done].
  destruct G as (-> & ans & w' & ps & H1 & H2 & H3 & tl & ->). exists ans, w', s'.
  exists (add_out (enc_all (capabilities ++ ps)) (set_in tl l)), ps, (enc_all (capabilities ++ ps)). split_and!; try done.
  change (PData (bs "version=1" ++ [NL]) :: PFlush :: ps) with (capabilities ++ ps).
  apply wires_enc. apply Forall_app. split; [|by eapply replies_small]. by repeat constructor.
Qed.

(** ** Facts about the abstract server *)
Section abstract.
Context (en : env) (m : mode) (uid : N) (clock : Z -> Prop).
Notation session_of := (session_of en m uid clock).
Notation answer_of := (answer_of en m uid clock).

Lemma session_at w reqs as_ w' i r : session_of w reqs as_ w' -> reqs !! i = Some r ->
  exists w1 a w2, session_of w (take i reqs) (take i as_) w1 /\ as_ !! i = Some a /\ answer_of w1 r a w2 /\
    session_of w2 (drop (S i) reqs) (drop (S i) as_) w'.
Proof using Type.
  intros H. revert i. induction H as [w|w r0 a w1 rs as_ w2 Ha Hs IH]; intros i Hi; [done|].
  destruct i as [|i].
  - injection Hi as ->. exists w, a, w1. split_and!; try done. constructor.
  - destruct (IH i Hi) as (u & b & v & H1 & H2 & H3 & H4). exists u, b, v. split_and!; try done. by econstructor.
Qed.

Lemma session_app w r1 a1 w1 r2 a2 w2 : session_of w r1 a1 w1 -> session_of w1 r2 a2 w2 ->
  session_of w (r1 ++ r2) (a1 ++ a2) w2.
Proof using Type. induction 1; [done|]. intros. by econstructor; [|apply IHsession_of]. Qed.

Lemma session_length w reqs as_ w' : session_of w reqs as_ w' -> length as_ = length reqs.
Proof using Type. induction 1; simpl; congruence. Qed.

(** Objects stay, up to collisions of the hash function. *)
Definition keeps (o d : bytes) (w : world) : Prop :=
  exists d', w_objs w !! o = Some d' /\ (d' = d \/ (d' <> d /\ en_hash en d' = en_hash en d)).

Lemma hex_of_inj a b h : hex_of a h -> hex_of b h -> a = b.
Proof using Type.
  intros Ha. revert b. induction Ha as [|x l v1 v2 c d h H1 H2 Hb _ IH]; intros b Hbh.
  - by inversion Hbh.
  - inversion Hbh as [|y l' w1 w2 c' d' h' G1 G2 Gb Gh]; subst. f_equal; [|by apply IH].
    assert (v1 = w1) as -> by (apply hex_digit_hexdig in H1 as [? ->], G1 as [? G1]; by apply hexdig_inj).
    assert (v2 = w2) as -> by (apply hex_digit_hexdig in H2 as [? ->], G2 as [? G2]; by apply hexdig_inj).
    apply bN_inj. congruence.
Qed.

Lemma answer_keeps w r a w' o d : answer_of w r a w' -> hex_of (en_hash en d) o ->
  keeps o d w -> keeps o d w'.
Proof using Type.
  intros Ha Ho Hk. destruct Ha; try done. destruct Hk as (d' & E & Hd').
  destruct (decide (o0 = o)) as [->|Hne].
  - exists (concat ds). simpl. rewrite lookup_insert. split; [done|].
    destruct (decide (concat ds = d)) as [|Hd]; [by left|right]. split; [done|].
    by eapply hex_of_inj.
  - exists d'. simpl. by rewrite lookup_insert_ne.
Qed.
Lemma session_keeps w reqs as_ w' o d : session_of w reqs as_ w' -> hex_of (en_hash en d) o ->
  keeps o d w -> keeps o d w'.
Proof using Type. induction 1; [done|]. intros. apply IHsession_of; [done|]. by eapply answer_keeps. Qed.
End abstract.
