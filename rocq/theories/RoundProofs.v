(** Proofs for Props_Round.v. *)
From Verif Require Import Bytes ByteFacts Err FS Prog Pktline Args Local Processor Transfer Wp Rg PktFacts ReaderFacts Total ServerEv
  Spec SpecStore SpecServer SpecFrame SpecTalk SpecPerm SpecInput FsFacts PktProofs TextProofs IoFacts ObjProofs StoreProofs SeqIo SeqCmd
  OddProofs InputProofs TalkProofs PermProofs Session FrameProofs SpecRound RoundFacts.
From Verif Require SpecOdd SpecLockDir LockDirProofs.
From stdpp Require Import sorting.

Local Arguments parse_header : simpl never.
Lemma copy_pos : (0 < COPY_BUF)%N. Proof. done. Qed.
Local Opaque COPY_BUF pk MAX_PACKET_LEN.

(** ** Answers *)
(** [st] is sent as [a]; [ds] are the calls by which the contents are read. *)
Definition sendsd (st : status) (ds : list done_call) (a : reply) : Prop :=
  st_code st ∈ codes /\ rp_code a = st_code st /\ rp_args a = default [] (st_args st) /\
  match rp_body a with
  | BNone => st_msgs st = None /\ st_reader st = None
  | BLines ls => st_msgs st = Some ls
  | BText t => st_msgs st = Some [t]
  | BData d => st_msgs st = None /\ exists h, st_reader st = Some h /\ fetches h 0 ds d
  end.
Definition outs (st : status) (ds : list done_call) : Prop :=
  match st_msgs st, st_reader st with
  | None, Some h => exists d, fetches h 0 ds d
  | _, _ => ds = []
  end.
Lemma sd_text c t ds : c ∈ codes -> sendsd (st_failure c t) ds (Reply c [] (BText t)).
Proof. done. Qed.
Lemma sd_lines c a ls h ds : c ∈ codes -> sendsd (Status c a (Some ls) h) ds (Reply c (default [] a) (BLines ls)).
Proof. done. Qed.
Lemma sd_none c a ds : c ∈ codes -> sendsd (Status c a None None) ds (Reply c (default [] a) BNone).
Proof. done. Qed.
Lemma sd_error e ds : client_error (e_kind e) = true -> sendsd (status_of_error e) ds (refusal (display e)).
Proof. intros H. unfold status_of_error. rewrite H. apply sd_text. by apply is_code. Qed.
Lemma sd_fixed e code t ds : status_of_error e = st_failure code (t ++ [NL]) -> code ∈ codes -> sendsd (status_of_error e) ds (fixed code t).
Proof. intros -> H. by apply sd_text. Qed.
Lemma sd_io x ds : sendsd (status_of_error (err_of_io x)) ds (io_trouble x).
Proof.
  apply sd_fixed; [|by apply is_code]. unfold status_of_error, display. cbn. by rewrite !app_nil_r.
Qed.
Lemma sd_unreadable i ds : i = Garbled \/ (exists x, i = Lost x) -> sendsd (status_of_error (err_for i)) ds (unreadable i).
Proof. intros [->|[x ->]]; [apply (sd_error (err_simple BadPktlineHeader)); done|apply sd_io]. Qed.

(** ** Sending *)
Definition tells (tr : list done_call) (w : bytes) (ds : list done_call) : Prop :=
  reads tr = [] /\ deeds tr = ds /\ spoken tr = w /\ sent_well tr.
Lemma tells_app a b w1 w2 d1 d2 : tells a w1 d1 -> tells b w2 d2 -> tells (a ++ b) (w1 ++ w2) (d1 ++ d2).
Proof.
  intros (A1 & A2 & A3 & A4) (B1 & B2 & B3 & B4). unfold tells. rewrite reads_app, deeds_app, spoken_app, A1, A2, A3, B1, B2, B3.
  split_and!; try done. by apply Forall_app.
Qed.
Lemma tells_nil : tells [] [] []. Proof. split_and!; try done. constructor. Qed.
Lemma tells_out b tr w ds : tells tr w ds -> tells (existT (EOut b) (IOk tt) :: tr) (b ++ w) ds.
Proof.
  intros (A1 & A2 & A3 & A4). unfold tells, spoken in *. cbn. rewrite A3. split_and!; try done. constructor; [by intros [? ?]|done].
Qed.
Lemma c_out b tr r : calls (io_call (call (EOut b))) tr (Some r) -> exists y, tr = [existT (EOut b) y] /\ r = res_of_io y.
Proof. intros (z & (y & tr2 & -> & _ & [-> ->]%calls_ret)%calls_vis & ->)%calls_io_call. by exists y. Qed.
Lemma c_write_one d tr n : calls (write_one d) tr (Some (Ok n)) -> tells tr (enc (PData d)) [] /\ n = lenN d.
Proof.
  intros (tr1 & tr2 & y & -> & (x & -> & ->)%c_out & H)%calls_bindR. destruct x as [[]|x]; [|by destruct H]. cbn [res_of_io] in H.
  apply calls_bindR in H as (tr3 & tr4 & y & -> & (x & -> & ->)%c_out & H). destruct x as [[]|x]; [|by destruct H].
  apply calls_ret in H as [-> [= ->]]. split; [|done]. cbn [app enc].
  pose proof (tells_out (hex04 (lenN d + 4)) _ _ _ (tells_out d _ _ _ tells_nil)) as G. rewrite (app_nil_r d) in G. apply G.
Qed.
Lemma c_write_chunks cs t tr n : calls (write_chunks cs t) tr (Some (IOk n)) ->
  tells tr (enc_all (map PData cs)) [] /\ n = (t + lenN (concat cs))%N.
Proof.
  revert t tr. induction cs as [|c cs IH]; intros t tr H; cbn [write_chunks] in H.
  - apply calls_ret in H as [-> [= ->]]. split; [apply tells_nil|]. unfold lenN. cbn [concat length]. lia.
  - apply calls_bind in H as (tr1 & tr2 & y & -> & H1 & H). destruct y as [k|e]; [|by apply calls_ret in H as [_ ?]].
    apply c_write_one in H1 as [H1 ->]. apply IH in H as [H ->]. split.
    + cbn [map enc_all flat_map]. by apply (tells_app _ _ _ _ [] []).
    + cbn [concat]. rewrite lenN_app. lia.
Qed.
Lemma c_send msg tr : calls (send msg) tr (Some (Ok tt)) -> tells tr (enc_all (pk msg)) [].
Proof.
  intros (y & H & E)%calls_io_call. destruct msg as [|b msg].
  - apply calls_ret in H as [-> _]. apply tells_nil.
  - apply calls_bind in H as (tr1 & tr2 & z & -> & H1 & H). destruct z as [n|e].
    + apply c_write_chunks in H1 as [H1 ->]. destruct (_ =? _)%N; [|by destruct tr2]. apply calls_ret in H as [-> _]. by rewrite app_nil_r.
    + apply calls_ret in H as [-> ->]. done.
Qed.
Lemma c_send_all ms tr : calls (send_all ms) tr (Some (Ok tt)) -> tells tr (enc_all (pks ms)) [].
Proof.
  revert tr. induction ms as [|b ms IH]; intros tr H; cbn [send_all] in H.
  - apply calls_ret in H as [-> _]. apply tells_nil.
  - apply calls_bindR in H as (tr1 & tr2 & z & -> & H1 & H). destruct z as [[]|e]; [|by destruct H].
    cbn [pks flat_map]. rewrite enc_all_app. apply (tells_app _ _ _ _ [] []); [by apply c_send|by apply IH].
Qed.
Lemma c_delim tr : calls delim tr (Some (Ok tt)) -> tells tr (enc PDelim) [].
Proof.
  intros (tr1 & tr2 & y & -> & H1 & H)%calls_bindR. destruct y as [n|e]; [|by destruct H]. apply calls_ret in H as [-> _].
  apply calls_bindR in H1 as (tr3 & tr4 & y & -> & (x & -> & ->)%c_out & H). destruct x as [[]|x]; [|by destruct H].
  apply calls_ret in H as [-> _]. apply (tells_out (bs "0001") [] [] []), tells_nil.
Qed.
Lemma c_flush tr : calls flush tr (Some (Ok tt)) -> tells tr (enc PFlush) [].
Proof.
  intros (tr1 & tr2 & y & -> & H1 & H)%calls_bindR. destruct y as [n|e]; [|by destruct H]. apply calls_ret in H as [-> _].
  apply calls_bindR in H1 as (tr3 & tr4 & y & -> & (x & -> & ->)%c_out & H). destruct x as [[]|x]; [|by destruct H].
  apply calls_bindR in H as (tr5 & tr6 & y & -> & (z & (w & tr2 & -> & _ & [-> ->]%calls_ret)%calls_vis & ->)%calls_io_call & H).
  destruct w as [[]|x]; [|by destruct H]. apply calls_ret in H as [-> _]. cbn [app].
  apply (tells_out (bs "0000") _ [] []). split_and!; try done. constructor; [by intros [? ?]|constructor].
Qed.
Lemma c_copy_out f h off tr : calls (copy_out f h off) tr (Some (Ok tt)) ->
  exists cs ds, tells tr (enc_all (map PData cs)) ds /\ Forall small cs /\ fetches h off ds (concat cs).
Proof.
  revert off tr. induction f as [|f IH]; intros off tr H; cbn [copy_out] in H; [by destruct tr|].
  apply calls_bindR in H as (tr1 & tr2 & y & -> & (z & (w & tr0 & -> & _ & [-> ->]%calls_ret)%calls_vis & ->)%calls_io_call & H).
  destruct w as [d|x]; [|by destruct H]. cbn [res_of_io] in H. destruct d as [|b d].
  - apply calls_ret in H as [-> _]. exists [], [existT (EReadAt h off COPY_BUF) (IOk [])]. split_and!; [|constructor|by apply fe_end].
    split_and!; try done. constructor; [by intros []|constructor].
  - apply calls_bindR in H as (tr3 & tr4 & z & -> & H1 & H). destruct z as [[]|e]; [|by destruct H]. apply c_send in H1.
    apply IH in H as (cs & ds & H2 & Hs & Hf). destruct (pk_chunks (b :: d)) as (c0 & E0 & Ec & Hc).
    exists (c0 ++ cs), (existT (EReadAt h off COPY_BUF) (IOk (b :: d)) :: ds). split_and!.
    + rewrite map_app, enc_all_app, <- E0. cbn [app].
      pose proof (tells_app _ _ _ _ _ _ H1 H2) as (A1 & A2 & A3 & A4). split_and!; cbn; [done|by f_equal|done|].
      constructor; [by intros []|done].
    + by apply Forall_app.
    + rewrite concat_app, Ec. by apply fe_more.
Qed.

Definition chunk_of (x : done_call) : bytes :=
  match x with
  | existT e r => match e return resp e -> bytes with EReadAt _ _ _ => fun r => match r with IOk c => c | IErr _ => [] end | _ => fun _ => [] end r
  end.
Lemma fetches_data h off ds d : fetches h off ds d -> d = concat (map chunk_of ds).
Proof. induction 1 as [off n Hn|off n c ds d Hc H IH]; [done|]. cbn. by rewrite IH. Qed.
Lemma fetches_fun h off ds d1 d2 : fetches h off ds d1 -> fetches h off ds d2 -> d1 = d2.
Proof. by intros ->%fetches_data ->%fetches_data. Qed.
Lemma c_answer fuel st tr : st_code st ∈ codes -> calls (answer fuel st) tr (Some (Ok tt)) ->
  reads tr = [] /\ sent_well tr /\ outs st (deeds tr) /\
  forall a, sendsd st (deeds tr) a -> exists ps, reply_sent a ps /\ wires ps (spoken tr).
Proof.
  intros Hc ([] & tr2 & -> & _ & H)%calls_vis. cbn [bind] in H. unfold send_status in H.
  destruct (code_denotes _ Hc) as [Hden Hlen].
  assert (Hsm : small (status_line (st_code st))).
  { apply status_line_small. clear -Hc. unfold codes in Hc.
    repeat (apply elem_of_cons in Hc as [->|Hc]; [done|]). by apply elem_of_nil in Hc. }
  apply calls_bindR in H as (t1 & tr' & z & -> & H1 & H). destruct z as [[]|e]; [|by destruct H].
  apply calls_bindR in H as (t2 & tr'' & z & -> & H2 & H). destruct z as [[]|e]; [|by destruct H].
  apply calls_bindR in H as (t3 & t4 & z & -> & H3 & H). destruct z as [[]|e]; [|by destruct H].
  apply c_send in H1. apply c_send_all in H2. apply c_flush in H. rewrite pk_short in H1 by done.
  assert (exists qb ds, tells t3 (enc_all qb) ds /\ outs st ds /\ forall a, sendsd st ds a -> body_sent (rp_body a) qb) as (qb & ds & Hb & Ho & Hqb).
  { unfold outs, sendsd. destruct (st_msgs st) as [ls|]; [|destruct (st_reader st) as [h|]].
    - apply calls_bindR in H3 as (t5 & t6 & z & -> & H3 & H4). destruct z as [[]|e]; [|by destruct H4].
      apply c_delim in H3. apply c_send_all in H4. exists (PDelim :: pks ls), []. split_and!; [|done|].
      + by apply (tells_app _ _ _ _ [] []).
      + intros a (_ & _ & _ & Hs). destruct (rp_body a) as [|ls'|d|t]; [by destruct Hs| |by destruct Hs|]; injection Hs as ->.
        * eexists. split; [done|apply lines_sent_pks].
        * exists (pk t). split; [cbn; by rewrite app_nil_r|apply line_sent_pk].
    - apply calls_bindR in H3 as (t5 & t6 & z & -> & H3 & H4). destruct z as [[]|e]; [|by destruct H4].
      apply c_delim in H3. apply c_copy_out in H4 as (cs & ds & H4 & Hs & Hf). exists (PDelim :: map PData cs), ds.
      split_and!; [by apply (tells_app _ _ _ _ [] ds)|by eexists|].
      intros a (_ & _ & _ & Ha). destruct (rp_body a) as [|ls'|d|t]; [by destruct Ha|done| |done].
      destruct Ha as (_ & h' & [= <-] & Hf'). exists cs. split_and!; [done| |done]. by eapply fetches_fun.
    - apply calls_ret in H3 as [-> _]. exists [], []. split_and!; [apply tells_nil|done|].
      intros a (_ & _ & _ & Ha). destruct (rp_body a) as [|ls'|d|t]; [done|done| |done]. by destruct Ha as (_ & ? & ? & _). }
  pose proof (tells_app _ _ _ _ _ _ H1 (tells_app _ _ _ _ _ _ H2 (tells_app _ _ _ _ _ _ Hb H))) as (A1 & A2 & A3 & A4).
  cbn [app] in A2. rewrite app_nil_r in A2. 
  change (deeds (existT (ENote (st_code st) (default [] (st_args st))) tt :: ?l)) with (deeds l). rewrite A2.
  split_and!; [done|constructor; [by intros []|done]|done|].
  intros a Ha. pose proof (Hqb a Ha) as Hbody. destruct Ha as (_ & Ec & Ea & _).
  exists (PData (status_line (st_code st)) :: pks (default [] (st_args st)) ++ qb ++ [PFlush]).
  assert (Hr : reply_sent a (PData (status_line (st_code st)) :: pks (default [] (st_args st)) ++ qb ++ [PFlush])).
  { exists (pad0 3 (dec (st_code st))), (pks (default [] (st_args st))), qb. rewrite Ec, Ea. split_and!; try done. apply lines_sent_pks. }
  split; [done|]. change (spoken (existT (ENote _ _) tt :: ?l)) with (spoken l). rewrite A3.
  replace (_ ++ _) with (enc_all (PData (status_line (st_code st)) :: pks (default [] (st_args st)) ++ qb ++ [PFlush])).
  - apply wires_enc. apply (replies_small [a]). rewrite <- (app_nil_r (PData _ :: _)). by repeat constructor.
  - cbn [enc_all flat_map]. change (flat_map enc) with enc_all. rewrite !enc_all_app. cbn [enc_all flat_map]. by rewrite !app_nil_r.
Qed.
Lemma c_answer_error c t tr : c ∈ codes -> calls (answer_error c t) tr (Some (Ok tt)) ->
  reads tr = [] /\ sent_well tr /\ deeds tr = [] /\ exists ps, reply_sent (fixed c t) ps /\ wires ps (spoken tr).
Proof.
  intros Hc ([] & tr2 & -> & _ & H)%calls_vis. cbn [bind] in H. unfold send_error in H.
  destruct (code_denotes _ Hc) as [Hden Hlen].
  assert (Hsm : small (status_line c)).
  { apply status_line_small. clear -Hc. unfold codes in Hc.
    repeat (apply elem_of_cons in Hc as [->|Hc]; [done|]). by apply elem_of_nil in Hc. }
  apply calls_bindR in H as (t1 & tr' & z & -> & H1 & H). destruct z as [[]|e]; [|by destruct H].
  apply calls_bindR in H as (t2 & tr'' & z & -> & H2 & H). destruct z as [[]|e]; [|by destruct H].
  apply calls_bindR in H as (t3 & t4 & z & -> & H3 & H). destruct z as [[]|e]; [|by destruct H].
  apply c_send in H1, H3. apply c_delim in H2. apply c_flush in H. rewrite pk_short in H1 by done.
  pose proof (tells_app _ _ _ _ _ _ H1 (tells_app _ _ _ _ _ _ H2 (tells_app _ _ _ _ _ _ H3 H))) as (A1 & A2 & A3 & A4).
  split_and!; [done|constructor; [by intros []|done]|done|].
  assert (Hr : reply_sent (fixed c t) (PData (status_line c) :: [] ++ (PDelim :: pk (t ++ [NL])) ++ [PFlush])).
  { exists (pad0 3 (dec c)), [], (PDelim :: pk (t ++ [NL])). split_and!; [done|done|constructor|eexists; split; [done|apply line_sent_pk]|done]. }
  eexists. split; [exact Hr|]. change (spoken (existT (ENote _ _) tt :: ?l)) with (spoken l). rewrite A3.
  replace (enc_all [PData (status_line c)] ++ _) with (enc_all (PData (status_line c) :: [] ++ (PDelim :: pk (t ++ [NL])) ++ [PFlush])).
  - apply wires_enc. apply (replies_small [fixed c t]). rewrite <- (app_nil_r (PData _ :: _)). by repeat constructor.
  - cbn [enc_all flat_map app]. change (flat_map enc) with enc_all. rewrite !enc_all_app. cbn [enc_all flat_map]. by rewrite !app_nil_r.
Qed.

Section round.
Context (en : env) (lfs : path) (umask : N) (m : mode) (fuel : nat).
Notation be := (Backend lfs umask None).
Notation id p := (lock_id (en_hash en) p).
Context (HH : digest (en_hash en)).

(** ** Looking for a lock *)
Lemma push_target i : target lfs i (push_str (lock_dir be) i).
Proof using Type.
  exists (split_on SLASH i). split_and!; [apply split_on_not_nil|apply Forall_forall; intros w; apply split_on_pieces| |].
  - assert (E : forall cs, slashed cs = ByteFacts.join SLASH cs).
    { induction cs as [|c cs IH]; [done|]. destruct cs as [|c' cs]; [done|]. cbn [slashed ByteFacts.join] in IH |- *. by rewrite IH. }
    by rewrite E, join_split.
  - unfold push_str, lock_dir. cbn [be_lfs]. destruct i as [|b i]; [done|]. cbn [head].
    destruct (decide (b = SLASH)) as [->|Hb]; [by rewrite decide_True|rewrite decide_False by congruence]. done.
Qed.
Lemma push_hash p : push_str (lock_dir be) (hash_for en p) = lock_at en lfs p.
Proof using HH.
  destruct (lock_id_plain en HH p) as ((H1 & _ & _ & H4 & _) & _). change (hash_for en p) with (id p).
  unfold lock_at, push_str, lock_dir. cbn [be_lfs].
  destruct (id p) as [|c i]; [done|]. rewrite decide_False.
  - rewrite split_on_none by done. by rewrite <- app_assoc.
  - intros ->. apply H4. by constructor.
Qed.

Lemma c_user_for_file f tr o : calls (user_for_file en f) tr (Some o) -> exists r, tr = [existT (EStat f) r] /\ o = owner_name en r.
Proof using Type.
  intros (r & tr2 & -> & _ & [-> ->]%calls_ret)%calls_vis. exists r. split; [done|]. by destruct r as [[? ?]|].
Qed.
Definition finds (r : res (option lock)) (x : finding) : Prop :=
  match r with
  | Ok None => x = Absent
  | Ok (Some lk) => x = Found (lk_path lk) (lk_time lk) (lk_owner lk)
  | Er e => exists a, x = Unusable a /\ sendsd (status_of_error e) [] a
  end.
Lemma c_from_id i tr r : calls (lock_from_id en be i) tr (Some r) ->
  exists x, looks en (push_str (lock_dir be) i) tr x /\ finds r x.
Proof using Type.
  intros (y & tr2 & -> & _ & H)%calls_vis. cbn beta in H. cbn [bind] in H.
  destruct y as [h|x].
  - apply calls_bindR in H as (tr3 & tr4 & v & -> & (z & (z0 & tr0 & -> & _ & [-> ->]%calls_ret)%calls_vis & ->)%calls_io_call & H).
    destruct z0 as [d|x]; cbn [res_of_io] in H.
    + apply calls_bind in H as (tr5 & tr6 & o & -> & (r0 & -> & ->)%c_user_for_file & H).
      destruct (lock_parse d) as [[t p]|] eqn:E; apply calls_ret in H as [-> ->].
      * exists (Found p t (owner_name en r0)). split; [|done]. apply lk_found. by apply LockDirProofs.says_iff.
      * eexists. split; [apply lk_bad|].
        -- intros t p Hs. apply LockDirProofs.says_iff in Hs. congruence.
        -- eexists. split; [done|]. by apply (sd_error (err_msg CorruptData (bs "invalid parsed lock"))).
    + destruct H as [-> ->]. eexists. split; [apply lk_read|]. eexists. split; [done|apply sd_io].
  - case_decide as E; apply calls_ret in H as [-> ->].
    + exists Absent. split; [by apply lk_none|done].
    + eexists. split; [by apply lk_open|]. eexists. split; [done|apply sd_io].
Qed.
Lemma c_from_path p tr r : calls (lock_from_path en be p) tr (Some r) ->
  exists x, looks_for en lfs p tr x /\ finds r x /\ (forall lk, r = Ok (Some lk) -> lk_path lk = p).
Proof using HH.
  intros (tr1 & tr2 & y & -> & (x & Hx & Hf)%c_from_id & H)%calls_bind. rewrite push_hash in Hx.
  destruct y as [[lk|]|e].
  - cbn [finds] in Hf. subst x. case_decide as E; apply calls_ret in H as [-> ->]; rewrite app_nil_r.
    + eexists. split_and!; [by eapply lf_clash| |done]. eexists. split; [done|]. by apply (sd_error (err_msg CorruptData _)).
    + eexists. split_and!; [apply lf_same; [exact Hx|by intros q t o [= <- _ _]]|done|by intros lk' [= <-]].
  - apply calls_ret in H as [-> ->]. rewrite app_nil_r. cbn [finds] in Hf. subst x.
    eexists. split_and!; [apply lf_same; [exact Hx|done]|done|done].
  - apply calls_ret in H as [-> ->]. rewrite app_nil_r. destruct Hf as (a & -> & Ha).
    eexists. split_and!; [apply lf_same; [exact Hx|done]|by exists a|done].
Qed.
Lemma looks_took f tr x : looks en f tr x -> took tr [] tr.
Proof using Type. destruct 1; repeat (apply took_call; [done|]); apply took_nil. Qed.
Lemma looks_for_took p tr x : looks_for en lfs p tr x -> took tr [] tr.
Proof using Type. destruct 1; by eapply looks_took. Qed.

Lemma c_as_arguments lk tr a : calls (as_arguments en lk) tr (Some a) ->
  tr = [] /\ exists x, en_time en (lk_time lk) = Some x /\ a = info en (lk_path lk) x (lk_owner lk).
Proof using Type.
  intros (tr1 & tr2 & x & -> & H1 & [-> ->]%calls_ret)%calls_bind. unfold formatted_timestamp in H1.
  destruct (en_time en (lk_time lk)) as [b|]; [|by destruct tr1]. apply calls_ret in H1 as [-> ->]. split; [done|]. by exists b.
Qed.
Lemma c_as_lock_spec lk tr a : calls (as_lock_spec en (is_upload m) lk) tr (Some a) ->
  tr = [] /\ exists x, en_time en (lk_time lk) = Some x /\ a = info_lines en m (lk_path lk) x (lk_owner lk).
Proof using Type.
  intros (tr1 & tr2 & x & -> & H1 & [-> ->]%calls_ret)%calls_bind. unfold formatted_timestamp in H1.
  destruct (en_time en (lk_time lk)) as [b|]; [|by destruct tr1]. apply calls_ret in H1 as [-> ->]. split; [done|]. exists b.
  split; [done|]. by destruct m.
Qed.

(** ** What a handler must show *)
Definition good (r : res status) (is : list item) (ds : list done_call) : Prop :=
  forall ds2, outs (status_of r) ds2 -> exists a, sendsd (status_of r) ds2 a /\ responds en lfs m is (ds ++ ds2) a.
Definition speaks (r : res status) (a : reply) : Prop :=
  sendsd (status_of r) [] a /\ forall d, rp_body a <> BData d.
Lemma speaks_nothing r a ds2 : speaks r a -> outs (status_of r) ds2 -> ds2 = [].
Proof using Type.
  intros [Hs Hb] Ho. destruct Hs as (_ & _ & _ & Hs). unfold outs in Ho.
  destruct (rp_body a) as [|ls|d|t] eqn:E; [|by rewrite Hs in Ho|by destruct (Hb d)|by rewrite Hs in Ho].
  destruct Hs as [E1 E2]. by rewrite E1, E2 in Ho.
Qed.
Lemma good_plain r is ds a : speaks r a -> responds en lfs m is ds a -> good r is ds.
Proof using Type.
  intros Hs Hr ds2 Ho. assert (ds2 = []) as -> by (by eapply speaks_nothing). exists a. rewrite app_nil_r. by destruct Hs.
Qed.
Lemma speaks_error e t : client_error (e_kind e) = true -> display e = t -> speaks (Er e) (refusal t).
Proof using Type. intros H <-. split; [by apply sd_error|done]. Qed.
Lemma speaks_io x : speaks (Er (err_of_io x)) (io_trouble x).
Proof using Type. split; [apply sd_io|done]. Qed.
Lemma speaks_fixed e code t : status_of_error e = st_failure code (t ++ [NL]) -> code ∈ codes -> speaks (Er e) (fixed code t).
Proof using Type. intros H1 H2. split; [by apply sd_fixed|done]. Qed.
Lemma speaks_text code t : code ∈ codes -> speaks (Ok (st_failure code t)) (Reply code [] (BText t)).
Proof using Type. intros H. split; [by apply sd_text|done]. Qed.
Lemma speaks_broken stop is i : broken_part stop is i -> speaks (Er (err_for i)) (unreadable i).
Proof using Type.
  intros (qs & _ & _ & H). assert (i = Garbled \/ exists x, i = Lost x) as Hi by (destruct H as [->|(x & -> & _)]; eauto).
  split; [by apply sd_unreadable|]. by destruct Hi as [->|[x ->]].
Qed.
Lemma speaks_unparsable e : speaks (Er (wrap_parse_error e)) unparsable.
Proof using Type. apply speaks_fixed; [|by apply is_code]. by unfold status_of_error, display. Qed.

Definition reader_of (g : item -> error) (stop : packet) (P : prog (res (list bytes))) : Prop :=
  forall tr r, exact tr -> calls P tr (Some r) -> exists is, took tr is [] /\
    match r with
    | Ok ls => exists qs, part stop is qs /\ ls = map payload qs
    | Er e => exists i, broken_part stop is i /\ e = g i
    end.
Lemma reader_plain stop : reader_of err_for stop (read_to_type fuel stop).
Proof using Type. intros tr r. apply c_read_to_type. Qed.
Lemma reader_wrapped : reader_of (fun i => wrap_parse_error (err_for i)) PFlush (read_to_flush_wrapped fuel).
Proof using Type.
  intros tr r He (t1 & t2 & z & -> & H1 & [-> ->]%calls_ret)%calls_bind. apply exact_app in He as [He _].
  destruct (c_read_to_type _ _ _ _ He H1) as (is & Hi & Hz). exists is. rewrite app_nil_r. split; [done|].
  destruct z as [ls|e]; [done|]. destruct Hz as (i & Hb & ->). by exists i.
Qed.
Lemma c_args_of (g : item -> error) (stop : packet) (P : prog (res (list bytes))) (K : argmap -> prog (res status)) tr r : reader_of g stop P -> exact tr ->
  calls (let? lines := P in let? a := or_panic (parse_args lines) in K a) tr (Some r) ->
  exists t1 t2 is, tr = t1 ++ t2 /\ took t1 is [] /\
    ((exists i, broken_part stop is i /\ t2 = [] /\ r = Er (g i)) \/
     (exists qs code t, part stop is qs /\ SpecOdd.bad_args qs code t /\ t2 = [] /\ speaks r (fixed code t)) \/
     (exists kvs a, part stop is (args kvs) /\ args_ok kvs /\ (forall k v, a !! k = Some v <-> (k, v) ∈ kvs) /\ calls (K a) t2 (Some r))).
Proof using Type.
  intros HP He (t1 & t2 & z & -> & H1 & H)%calls_bindR. apply exact_app in He as [He1 He2].
  destruct (HP _ _ He1 H1) as (is & Hi & Hz). exists t1, t2, is. split_and!; [done|done|]. destruct z as [ls|e].
  - destruct Hz as (qs & Hp & ->). apply calls_bindR in H as (t3 & t4 & z & -> & H3 & H).
    destruct (args_cases qs) as [(kvs & -> & Hk)|(code & t & Hb)].
    + right; right. rewrite map_payload_args in H3. destruct Hk as [K1 K2]. destruct (c09 kvs K1 K2) as (a & Ea & Ha).
      rewrite Ea in H3. apply calls_ret in H3 as [-> ->]. by exists kvs, a.
    + right; left. destruct (bad_args_parse _ _ _ Hb) as (e & Ee & Es & Ec). rewrite Ee in H3. apply calls_ret in H3 as [-> ->].
      destruct H as [-> ->]. exists qs, code, t. split_and!; [done|done|done|by apply speaks_fixed].
  - destruct Hz as (i & Hb & ->). destruct H as [-> ->]. left. by exists i.
Qed.
Lemma took_ext t1 is t2 ds : took t1 is [] -> took t2 [] ds -> took (t1 ++ t2) is ds.
Proof using Type. intros H1 H2. pose proof (took_app _ _ _ _ _ _ H1 H2) as H. by rewrite app_nil_r in H. Qed.

Lemma took_ext_r t1 is t2 ds1 ds2 : took t1 is ds1 -> took t2 [] ds2 -> took (t1 ++ t2) is (ds1 ++ ds2).
Proof using Type. intros H1 H2. pose proof (took_app _ _ _ _ _ _ H1 H2) as H. by rewrite app_nil_r in H. Qed.

(** A request with arguments up to a flush packet. *)
Definition does (q : request) (r : res status) (is : list item) (ds : list done_call) : Prop :=
  forall b ws, SpecOdd.says b ws -> SpecOdd.named q ws -> SpecOdd.allowed m q -> good r (Got (PData b) :: is) ds.
Definition acting (q : request) (K : argmap -> prog (res status)) : Prop :=
  forall kvs a tr r, args_ok kvs -> (forall k v, a !! k = Some v <-> (k, v) ∈ kvs) -> calls (K a) tr (Some r) ->
    took tr [] tr /\ forall ds2, outs (status_of r) ds2 ->
      exists an, sendsd (status_of r) ds2 an /\ acts en lfs m (with_args kvs q) (tr ++ ds2) an.
Lemma c_request (g : item -> error) (P : prog (res (list bytes))) (q : request) (K : argmap -> prog (res status)) tr r :
  (plain_request q /\ g = err_for \/ lock_request q /\ g = fun i => wrap_parse_error (err_for i)) ->
  reader_of g PFlush P -> acting q K -> exact tr ->
  calls (let? lines := P in let? a := or_panic (parse_args lines) in K a) tr (Some r) ->
  exists is ds, took tr is ds /\ does q r is ds.
Proof using Type.
  intros Hg HP HK He H. assert (Hq : plain_request q \/ lock_request q) by (destruct Hg as [[? _]|[? _]]; auto).
  destruct (c_args_of _ _ _ _ _ _ HP He H) as (t1 & t2 & is & -> & Ht & [(i & Hb & -> & ->)|[(qs & code & t & Hp & Hb & -> & Hs)|(kvs & a & Hp & Hk & Ha & H2)]]).
  - exists is, []. rewrite app_nil_r. split; [done|]. intros b ws H1 H2 H3. destruct Hg as [[Hr ->]|[Hr ->]].
    + eapply good_plain; [by eapply speaks_broken|]. eapply re_broken; eauto.
    + eapply good_plain; [by eapply speaks_unparsable|]. eapply re_broken_lock; eauto.
  - exists is, []. rewrite app_nil_r. split; [done|]. intros b ws H1 H2 H3. eapply good_plain; [done|]. eapply re_args; eauto.
  - destruct (HK _ _ _ _ Hk Ha H2) as (Ht2 & Hg2). exists is, t2. split; [by apply took_ext|].
    intros b ws H1 H3 H4 ds2 Ho. destruct (Hg2 ds2 Ho) as (an & Hs & Hac). exists an. split; [done|]. eapply re_acts; eauto.
Qed.
Lemma acting_plain (q : request) (K : argmap -> prog (res status)) :
  (forall kvs a tr r, args_ok kvs -> (forall k v, a !! k = Some v <-> (k, v) ∈ kvs) -> calls (K a) tr (Some r) ->
    took tr [] tr /\ exists an, speaks r an /\ acts en lfs m (with_args kvs q) tr an) -> acting q K.
Proof using Type.
  intros H kvs a tr r Hk Ha Hc. destruct (H _ _ _ _ Hk Ha Hc) as (Ht & an & Hs & Hac). split; [done|]. intros ds2 Ho.
  assert (ds2 = []) as -> by (by eapply speaks_nothing). exists an. rewrite app_nil_r. by destruct Hs.
Qed.

(** ** Objects *)
Lemma c_verify o tr r : exact tr -> calls (p_verify_object be fuel o) tr (Some r) ->
  exists is ds, took tr is ds /\ does (RVerify o []) r is ds.
Proof using Type.
  intros He H. eapply (c_request _ _ (RVerify o [])); [by left|apply (reader_plain PFlush)| |done|exact H].
  apply acting_plain. clear. intros kvs a tr r Hk Ha H. destruct (oid_new o) as [o'|e] eqn:Eo.
  2: { destruct (oid_new_no _ _ Eo) as [Hc Ho]. apply calls_ret in H as [-> ->]. split; [apply took_nil|].
       exists (refusal bad_oid). split; [|by apply ac_verify_oid]. apply speaks_error; [done|].
       unfold oid_new in Eo. destruct (oid_valid o); [done|]. by injection Eo as <-. }
  apply oid_new_iff in Eo as [-> Ho].
  change (calls (backend_verify be o a) tr (Some r)) in H. unfold backend_verify, parse_value_as_integer in H.
  destruct (a !! bs "size") as [v|] eqn:Ev.
  2: { apply calls_ret in H as [-> ->]. split; [apply took_nil|]. eexists. split; [|apply ac_verify_size; [done|by eapply no_key_none]].
       by apply speaks_error. }
  apply Ha in Ev. destruct (parse_integer v) as [n|e] eqn:En.
  2: { apply calls_ret in H as [-> ->]. destruct (parse_number_er _ _ En) as (H1 & H2 & H3). split; [apply took_nil|].
       eexists. split; [|by eapply (ac_verify_number _ _ _ _ _ v)]. by apply speaks_error. }
  apply parse_number in En. apply calls_vis in H as (y & t2 & -> & _ & H). cbn [bind] in H.
  destruct y as [[k u]|x].
  - destruct (k =? n)%N eqn:E; apply calls_ret in H as [-> ->]; (split; [apply took_call; [done|apply took_nil]|]).
    + apply N.eqb_eq in E as ->. eexists. split; [|by eapply ac_verify_ok]. split; [apply (sd_none 200 None); by apply is_code|done].
    + apply N.eqb_neq in E. eexists. split; [|by eapply ac_verify_wrong]. by apply speaks_text, is_code.
  - case_decide as E; apply calls_ret in H as [-> ->]; (split; [apply took_call; [done|apply took_nil]|]).
    + eexists. split; [|by eapply ac_verify_none]. by apply speaks_text, is_code.
    + eexists. split; [|by eapply ac_verify_failed]. apply speaks_io.
Qed.

Lemma c_get o tr r : exact tr -> calls (p_get_object be fuel o) tr (Some r) ->
  exists is ds, took tr is ds /\ does (RGet o []) r is ds.
Proof using Type.
  intros He H. eapply (c_request _ _ (RGet o [])); [by left|apply (reader_plain PFlush)| |done|exact H].
  clear. intros kvs a tr r Hk Ha H. destruct (oid_new o) as [o'|e] eqn:Eo.
  2: { destruct (oid_new_no _ _ Eo) as [Hc Ho]. apply calls_ret in H as [-> ->]. split; [apply took_nil|]. intros ds2 Hd.
       assert (speaks (Er e) (refusal bad_oid)) as Hs.
       { apply speaks_error; [done|]. unfold oid_new in Eo. destruct (oid_valid o); [done|]. by injection Eo as <-. }
       pose proof (speaks_nothing _ _ _ Hs Hd) as ->. exists (refusal bad_oid). split; [apply Hs|]. by apply ac_get_oid. }
  apply oid_new_iff in Eo as [-> Ho].
  change (calls (let! d := backend_download be o in
    match d with
    | Ok (h, n) => Ret (Ok (st_new_reader [bs "size=" ++ dec n ++ [NL]] h))
    | Er e => if decide (io_kind e = KNotFound) then Ret (Ok (st_failure 404 (bs "not found" ++ [NL]))) else Ret (Er e)
    end) tr (Some r)) in H.
  apply calls_bind in H as (t1 & t2 & z & -> & H1 & H).
  assert (HR : forall x t2, calls (if decide (io_kind (err_of_io x) = KNotFound) then Ret (Ok (st_failure 404 (bs "not found" ++ [NL]))) else Ret (Er (err_of_io x))) t2 (Some r) ->
    t2 = [] /\ speaks r (if decide (missing x) then not_found else io_trouble x)).
  { intros x t H'. change (io_kind (err_of_io x)) with (io_kind_of x) in H'. unfold missing. case_decide; apply calls_ret in H' as [-> ->]; (split; [done|]).
    - by apply speaks_text, is_code.
    - apply speaks_io. }
  apply calls_bindR in H1 as (t3 & t4 & y & -> & (w & (w0 & t0 & -> & _ & [-> ->]%calls_ret)%calls_vis & ->)%calls_io_call & H1).
  destruct w0 as [h|x]; cbn [res_of_io] in H1.
  2: { destruct H1 as [-> ->]. apply HR in H as [-> Hs]. split; [apply took_call; [done|apply took_nil]|]. intros ds2 Hd.
       pose proof (speaks_nothing _ _ _ Hs Hd) as ->. eexists. split; [apply Hs|]. rewrite app_nil_r. by apply ac_get_open. }
  apply calls_bindR in H1 as (t5 & t6 & y & -> & (w & (w0 & t0 & -> & _ & [-> ->]%calls_ret)%calls_vis & ->)%calls_io_call & H1).
  destruct w0 as [n|x]; cbn [res_of_io] in H1.
  2: { destruct H1 as [-> ->]. apply HR in H as [-> Hs]. split; [do 2 (apply took_call; [done|]); apply took_nil|]. intros ds2 Hd.
       pose proof (speaks_nothing _ _ _ Hs Hd) as ->. eexists. split; [apply Hs|]. rewrite app_nil_r. by apply ac_get_stat. }
  apply calls_ret in H1 as [-> ->]. apply calls_ret in H as [-> ->]. split; [do 2 (apply took_call; [done|]); apply took_nil|].
  intros ds2 (d & Hf). exists (Reply 200 [bs "size=" ++ dec n ++ [NL]] (BData d)). split; [|by apply ac_get].
  split_and!; [by apply is_code|done|done|]. split; [done|]. by exists h.
Qed.

Lemma speaks_unusable f ds a e : looks en f ds (Unusable a) -> sendsd (status_of_error e) [] a -> speaks (Er e) a.
Proof using Type. intros H Hs. split; [done|]. inversion H; subst; done. Qed.
Lemma speaks_unusable_for p ds a e : looks_for en lfs p ds (Unusable a) -> sendsd (status_of_error e) [] a -> speaks (Er e) a.
Proof using Type. intros H Hs. inversion H; subst; [by eapply speaks_unusable|by split]. Qed.

(** ** Requests without arguments that count *)
Lemma c_version tr r : exact tr -> calls (p_version fuel) tr (Some r) -> exists is ds, took tr is ds /\ does RVersion r is ds.
Proof using Type.
  intros He (t1 & t2 & z & -> & H1 & H)%calls_bindR. apply exact_app in He as [He _].
  destruct (c_read_to_type _ _ _ _ He H1) as (is & Hi & Hz). exists is, []. destruct z as [ls|e].
  - apply calls_ret in H as [-> ->]. rewrite app_nil_r. split; [done|]. destruct Hz as (qs & Hp & _). intros b ws H2 H3 _.
    eapply good_plain; [|by eapply re_version]. split; [|done]. apply (sd_lines 200 None). by apply is_code.
  - destruct H as [-> ->]. rewrite app_nil_r. split; [done|]. destruct Hz as (i & Hb & ->). intros b ws H2 H3 H4.
    eapply good_plain; [by eapply speaks_broken|]. eapply re_broken; eauto.
Qed.

Lemma c_unlock i tr r : exact tr -> calls (p_unlock en be fuel i) tr (Some r) -> exists is ds, took tr is ds /\ does (RUnlock i []) r is ds.
Proof using HH.
  intros He (t1 & t2 & z & -> & H1 & H)%calls_bindR. apply exact_app in He as [He _].
  destruct (c_read_to_type _ _ _ _ He H1) as (is & Hi & Hz). destruct z as [ls|e].
  2: { exists is, []. destruct H as [-> ->]. rewrite app_nil_r. split; [done|]. destruct Hz as (j & Hb & ->). intros b ws H2 H3 H4.
       eapply good_plain; [by eapply speaks_broken|]. eapply re_broken; eauto. }
  destruct Hz as (qs & Hp & ->). exists is. destruct (utf8_valid i) eqn:Eu.
  2: { apply calls_ret in H as [-> ->]. exists []. rewrite app_nil_r. split; [done|]. intros b ws H2 H3 H4.
       eapply good_plain; [|by eapply re_unlock_bad]. by apply speaks_error. }
  assert (HU : forall an, took t2 [] t2 -> speaks r an -> unlocking en lfs (push_str (lock_dir be) i) t2 an ->
    exists ds, took (t1 ++ t2) is ds /\ does (RUnlock i []) r is ds).
  { intros an Ht Hs Hu. exists t2. split; [by apply took_ext|]. intros b ws H2 H3 H4. eapply good_plain; [done|].
    eapply re_unlock; eauto. apply push_target. }
  apply calls_bind in H as (t3 & t4 & z & -> & (x & Hx & Hf)%c_from_id & H). pose proof (looks_took _ _ _ Hx) as Ht3.
  destruct z as [[lk|]|e].
  - cbn [finds] in Hf. subst x.
    apply calls_bind in H as (t5 & t6 & a & -> & (-> & tx & Htx & ->)%c_as_arguments & H).
    apply calls_bind in H as (t5 & t7 & u & -> & (w & (w0 & t0 & -> & _ & [-> ->]%calls_ret)%calls_vis & ->)%calls_io_call & H).
    assert (lock_file be (lk_id en lk) = lock_at en lfs (lk_path lk)) as El.
    { unfold lock_file, lock_dir, lock_at. cbn [be_lfs]. by rewrite <- app_assoc. }
    rewrite El in HU |- *.
    assert (Ht : forall t7, t7 = [] -> took (t3 ++ existT (EUnlink (lock_at en lfs (lk_path lk))) w0 :: t7) [] (t3 ++ existT (EUnlink (lock_at en lfs (lk_path lk))) w0 :: t7)).
    { intros t ->. apply (took_app _ _ [] [] _ _); [done|]. apply took_call; [done|apply took_nil]. }
    cbn [app]. destruct w0 as [[]|y]; cbn [res_of_io] in H.
    + apply calls_ret in H as [-> ->]. eapply HU; [by apply Ht| |by eapply un_done].
      split; [|done]. apply (sd_none 200 (Some _)). by apply is_code.
    + change (io_kind (err_of_io y)) with (io_kind_of y) in H. case_decide as E1; [|case_decide as E2]; apply calls_ret in H as [-> ->].
      * eapply HU; [by apply Ht| |eapply un_gone; eauto]. by apply speaks_text, is_code.
      * eapply HU; [by apply Ht| |eapply un_denied; eauto]. by apply speaks_text, is_code.
      * eapply HU; [by apply Ht|apply speaks_io|eapply un_failed; eauto].
  - cbn [finds] in Hf. subst x. apply calls_ret in H as [-> ->]. rewrite app_nil_r in *. eapply HU; [done| |by apply un_none].
    by apply speaks_text, is_code.
  - destruct Hf as (an & -> & Hs). apply calls_ret in H as [-> ->]. rewrite app_nil_r in *. eapply HU; [done| |by apply un_useless].
    by eapply speaks_unusable.
Qed.

(** ** Batches *)
Lemma c_batch items ns tr its : Forall2 (fun x n => number x.2 n) items ns -> calls (backend_batch be (zip items.*1 ns)) tr (Some its) ->
  took tr [] tr /\
  checks lfs m items tr (map (batch_out (match m with Upload => bs "noop" | Download => bs "download" end)
                                   (match m with Upload => bs "upload" | Download => bs "noop" end)) its).
Proof using Type.
  intros H. revert tr its. induction H as [|[o v] n items ns Hn _ IH]; intros tr its H; cbn [backend_batch fmap list_fmap zip zip_with fst] in H.
  - apply calls_ret in H as [-> ->]. split; [apply took_nil|constructor].
  - apply calls_bind in H as (t1 & t2 & k & -> & (w & t0 & -> & _ & [-> ->]%calls_ret)%calls_vis & H).
    apply calls_bind in H as (t3 & t4 & its' & -> & H3 & [-> ->]%calls_ret). apply IH in H3 as [Ht Hc].
    rewrite app_nil_r. split; [by apply took_call|]. cbn [map app].
    replace (batch_out _ _ _) with (state_line m o n w); [by constructor|].
    unfold state_line, batch_out. destruct w as [[k u]|x]; by destruct m.
Qed.
Lemma c_p_batch tr r : exact tr ->
  calls (if is_upload m then p_upload_batch be fuel else p_download_batch be fuel) tr (Some r) ->
  exists is ds, took tr is ds /\ does (RBatch [] []) r is ds.
Proof using Type.
  intros He H.
  assert (calls (p_batch be fuel (match m with Upload => bs "noop" | Download => bs "download" end)
                                 (match m with Upload => bs "upload" | Download => bs "noop" end)) tr (Some r)) as H' by (by destruct m).
  clear H. apply calls_bindR in H' as (t0 & t9 & z & -> & H0 & H9). unfold read_batch in H0.
  apply exact_app in He as [He _].
  apply calls_bindR in H0 as (t1 & t2 & ls & -> & H1 & H). apply exact_app in He as [He1 He2].
  destruct (c_read_to_type _ _ _ _ He1 H1) as (is1 & Hi1 & Hz1). destruct ls as [ls|e].
  2: { destruct Hz1 as (i & Hb & ->). destruct H as [-> ->]. destruct H9 as [-> ->]. exists is1, []. rewrite !app_nil_r. split; [done|].
       intros b ws W1 W2 W3. eapply good_plain; [by eapply speaks_broken|]. by eapply re_batch_broken. }
  destruct Hz1 as (qs & Hp & ->). apply calls_bindR in H as (t3 & t4 & y & -> & H3 & H).
  destruct (args_cases qs) as [(kvs & -> & Hk)|(code & t & Hb)].
  2: { destruct (bad_args_parse _ _ _ Hb) as (e & Ee & Es & Ec). rewrite Ee in H3. apply calls_ret in H3 as [-> ->].
       destruct H as [-> ->]. destruct H9 as [-> ->]. exists is1, []. rewrite !app_nil_r. split; [done|].
       intros b ws W1 W2 W3. eapply good_plain; [by apply speaks_fixed|]. by eapply re_batch_args. }
  rewrite map_payload_args in H3. pose proof Hk as [K1 K2]. destruct (c09 kvs K1 K2) as (a & Ea & Ha).
  rewrite Ea in H3. apply calls_ret in H3 as [-> ->]. cbn [app] in *.
  apply calls_bindR in H as (t3 & t5 & y & -> & H3 & H). apply exact_app in He2 as [He2 _].
  destruct (reader_wrapped _ _ He2 H3) as (is2 & Hi2 & Hz2).
  assert (Ht : forall ds, took t5 [] ds -> took ((t1 ++ t3 ++ t5) ++ []) (is1 ++ is2) ds).
  { intros ds Hd. rewrite app_nil_r, app_assoc. apply took_ext; [|done]. by apply (took_app _ _ _ _ [] []). }
  exists (is1 ++ is2). destruct y as [data|e].
  2: { destruct Hz2 as (i & Hb & ->). destruct H as [-> ->]. destruct H9 as [-> ->]. exists []. split; [apply Ht, took_nil|].
       intros b ws W1 W2 W3. eapply good_plain; [apply speaks_unparsable|]. eapply re_batch_broken2; eauto. }
  destruct Hz2 as (qs & Hp2 & ->).
  assert (Halgo : (exists h, (bs "hash-algo", h) ∈ kvs /\ h <> bs "sha256" /\ t5 = [] /\ z = Er (err_msg NotAllowed (utf8_lossy h ++ bs " is not a permitted hash algorithm"))) \/
    exists h, key (bs "hash-algo") kvs h /\ (h = None \/ h = Some (bs "sha256")) /\
      calls (let? oids := Ret (batch_lines (map payload qs)) in let! items := backend_batch be oids in Ret (Ok items)) t5 (Some z)).
  { pose proof (key_lookup a kvs (bs "hash-algo") Ha) as Hkey. destruct (a !! bs "hash-algo") as [h|].
    - case_decide as E; [right; exists (Some h); subst h; eauto|]. apply calls_ret in H as [-> ->]. left. by exists h.
    - right. exists None. eauto. }
  clear H. destruct Halgo as [(h & Hh & Hne & -> & ->)|(h & Hh & Hh' & H)].
  { destruct H9 as [-> ->]. exists []. split; [apply Ht, took_nil|]. intros b ws W1 W2 W3.
    eapply good_plain; [by apply speaks_error|]. eapply re_batch_algo; eauto. }
  destruct (items_cases qs) as [(items & -> & Hit)|(code & t & Hb)].
  2: { destruct (bad_items_parse _ _ _ Hb) as (e & Ee & Es & Ec). rewrite Ee in H. apply calls_ret in H as [-> ->].
       destruct H9 as [-> ->]. exists []. split; [apply Ht, took_nil|]. intros b ws W1 W2 W3.
       eapply good_plain; [by apply speaks_fixed|]. eapply re_batch_items; eauto. }
  assert (exists ns, Forall2 (fun x n => number x.2 n) items ns) as (ns & Hns).
  { clear -Hit. induction Hit as [|x items [_ [n Hn]] _ [ns IH]]; [by exists []; constructor|]. exists (n :: ns). by constructor. }
  assert (Ho : Forall (fun x => is_oid x.1) items) by (eapply Forall_impl; [exact Hit|by intros x []]).
  replace (map payload (lines (map item_line items))) with (map item_line items) in H.
  2: { unfold lines. rewrite map_map. symmetry. apply map_id. }
  rewrite (batch_lines_items _ _ Hns Ho) in H.
  change (calls (let! items := backend_batch be (zip items.*1 ns) in Ret (Ok items)) t5 (Some z)) in H.
  apply calls_bind in H as (t6 & t7 & its & -> & H6 & [-> ->]%calls_ret). apply calls_ret in H9 as [-> ->].
  destruct (c_batch _ _ _ _ Hns H6) as [Hb1 Hb2]. exists t6. rewrite !app_nil_r in *.
  split; [by apply Ht|].
  intros b ws W1 W2 W3. eapply good_plain; [|eapply re_batch; eauto; by eapply ac_batch]. split; [|done].
  apply (sd_lines 200 None). by apply is_code.
Qed.

(** ** Locks *)
Lemma lock_file_at p : lock_file be (hash_for en p) = lock_at en lfs p.
Proof using Type. unfold lock_file, lock_dir, lock_at. cbn [be_lfs]. by rewrite <- app_assoc. Qed.
Lemma lock_temp_at p : lock_temp be (hash_for en p) = draft_at en lfs p.
Proof using Type. unfold lock_temp, lock_dir, draft_at. cbn [be_lfs]. by rewrite <- app_assoc. Qed.
Lemma c_drop t tr r : calls (lockfile_drop t) tr (Some r) -> exists y, tr = [existT (EUnlink t) y].
Proof using Type. intros (y & t2 & -> & _ & [-> ->]%calls_ret)%calls_vis. by exists y. Qed.

(** Making a lock: done, or an error and whether it means that there is one. *)
Lemma c_lock_create p tr r : calls (lock_create en be p) tr (Some r) ->
  took tr [] tr /\
  match r with
  | Ok lk => exists ds y t, tr = ds ++ [existT (EStat (lock_at en lfs p)) y; existT EClock t] /\ drafts en lfs p ds None /\
      lk = Lock p t (owner_name en y)
  | Er e =>
      if decide (e_kind e = Conflict) then exists x, drafts en lfs p tr (Some x) /\ io_kind_of x = KAlreadyExists
      else exists x, e = err_of_io x /\
        (drafts en lfs p tr (Some x) /\ io_kind_of x <> KAlreadyExists \/
         exists t fd r, tr = [existT EClock t; existT (ECreate (draft_at en lfs p)) (IOk fd);
           existT (EWriteFd fd (record_of t p)) (IErr x); existT (EUnlink (draft_at en lfs p)) r])
  end.
Proof using Type.
  intros (t & t2 & -> & _ & H)%calls_vis. cbn [bind] in H. cbv beta in H.
  apply calls_bind in H as (t3 & t4 & w & -> & H3 & H). rewrite lock_temp_at in H, H3. rewrite lock_file_at in H.
  apply calls_vis in H3 as (f & t5 & -> & _ & H3). cbn [bind] in H3. destruct f as [fd|x].
  2: { assert (t5 = [] /\ w = Er (if decide (io_kind_of x = KAlreadyExists) then err_simple Conflict else err_of_io x)) as [-> ->].
       { case_decide; by apply calls_ret in H3 as [-> ->]. }
       apply calls_bind in H as (t5 & t6 & y & -> & (y' & ->)%c_drop & [-> ->]%calls_ret). cbn [app]. split.
       { repeat (apply took_call; [done|]). apply took_nil. }
       destruct (decide (io_kind_of x = KAlreadyExists)) as [E|E].
       - rewrite decide_True by done. exists x. split; [apply dr_exists|done].
       - rewrite decide_False by done. exists x. split; [done|]. left. split; [apply dr_exists|done]. }
  apply calls_io_call in H3 as (z & (z0 & t0 & -> & _ & [-> ->]%calls_ret)%calls_vis & ->).
  change (lock_record t p) with (record_of t p) in *. destruct z0 as [[]|x]; cbn [res_of_io] in H.
  2: { apply calls_bind in H as (t5 & t6 & y & -> & (y' & ->)%c_drop & [-> ->]%calls_ret). cbn [app]. split.
       { repeat (apply took_call; [done|]). apply took_nil. }
       rewrite decide_False by done. exists x. split; [done|]. right. by exists t, fd, y'. }
  apply calls_bindR in H as (t5 & t6 & y & -> & H5 & H).
  apply calls_vis in H5 as (k & t7 & -> & _ & H5). cbn [bind] in H5. change (calls (let! _ := lockfile_drop (draft_at en lfs p) in
    match k with
    | IOk _ => Ret (Ok tt)
    | IErr e => if decide (io_kind_of e = KAlreadyExists) then Ret (Er (err_simple Conflict)) else Ret (Er (err_of_io e))
    end) t7 (Some y)) in H5.
  apply calls_bind in H5 as (t8 & t9 & y1 & -> & (y' & ->)%c_drop & H5). destruct k as [[]|x].
  - apply calls_ret in H5 as [-> ->]. apply calls_bind in H as (t5 & t7 & o & -> & (r0 & -> & ->)%c_user_for_file & H).
    apply calls_vis in H as (t' & t7' & -> & _ & [-> ->]%calls_ret). cbn [app]. split.
    { repeat (apply took_call; [done|]). apply took_nil. }
    eexists [_; _; _; _; _], r0, t'. split; [done|]. split; [apply dr_done|done].
  - assert (t9 = [] /\ y = Er (if decide (io_kind_of x = KAlreadyExists) then err_simple Conflict else err_of_io x)) as [-> ->].
    { case_decide; by apply calls_ret in H5 as [-> ->]. }
    destruct H as [-> ->]. cbn [app]. split.
    { repeat (apply took_call; [done|]). apply took_nil. }
    destruct (decide (io_kind_of x = KAlreadyExists)) as [E|E].
    + rewrite decide_True by done. exists x. split; [apply dr_link|done].
    + rewrite decide_False by done. exists x. split; [done|]. left. split; [apply dr_link|done].
Qed.

Lemma c_lock tr r : exact tr -> calls (p_lock en be fuel) tr (Some r) -> exists is ds, took tr is ds /\ does (RLock []) r is ds.
Proof using HH.
  intros He H. eapply (c_request _ _ (RLock [])); [by right|apply reader_wrapped| |done|exact H].
  apply acting_plain. clear tr r He H. intros kvs a tr r Hk Ha H.
  destruct (a !! bs "path") as [p|] eqn:Ep.
  2: { apply calls_ret in H as [-> ->]. split; [apply took_nil|]. eexists. split; [|apply ac_lock_bad; left; by eapply no_key_none].
       by apply speaks_error. }
  destruct (a !! bs "refname") as [rn|] eqn:Er0.
  2: { apply calls_ret in H as [-> ->]. split; [apply took_nil|]. eexists. split; [|apply ac_lock_bad; right; by eapply no_key_none].
       by apply speaks_error. }
  apply Ha in Ep, Er0.
  assert (HL : forall an, speaks r an -> locking en lfs p tr an -> exists an, speaks r an /\ acts en lfs m (with_args kvs (RLock [])) tr an).
  { intros an Hs Hl. exists an. split; [done|]. by eapply ac_lock. }
  apply calls_bind in H as (t1 & t2 & c & -> & [Ht1 Hc]%c_lock_create & H). destruct c as [lk|e].
  - destruct Hc as (ds & y & t & -> & Hd & ->). apply calls_bind in H as (t3 & t4 & a' & -> & (-> & x & Hx & ->)%c_as_arguments & [-> ->]%calls_ret).
    cbn [app] in *. rewrite !app_nil_r in *. split; [done|]. eapply HL; [|by apply lc_done]. split; [|done].
    apply (sd_none 201 (Some _)). by apply is_code.
  - destruct (decide (e_kind e = Conflict)) as [Ec|Ec].
    + destruct Hc as (x & Hd & Hx). apply calls_bind in H as (t3 & t4 & f & -> & (y & Hy & Hf & Hp)%c_from_path & H).
      pose proof (looks_for_took _ _ _ Hy) as Ht3. destruct f as [[lk|]|e'].
      * cbn [finds] in Hf. subst y. rewrite (Hp lk eq_refl) in Hy.
        apply calls_bind in H as (t5 & t6 & a' & -> & (-> & tx & Htx & ->)%c_as_arguments & [-> ->]%calls_ret).
        cbn [app] in *. rewrite !app_nil_r in *. split; [by apply (took_app _ _ [] [])|]. eapply HL; [|by eapply lc_held].
        rewrite (Hp lk eq_refl). split; [|done]. split_and!; try done. by apply is_code.
      * by destruct t4.
      * destruct Hf as (an & -> & Hs). apply calls_ret in H as [-> ->]. rewrite (app_nil_r t3) in *.
        split; [by apply (took_app _ _ [] [])|]. eapply HL; [by eapply speaks_unusable_for|by eapply lc_useless].
    + destruct Hc as (x & -> & Hc). apply calls_ret in H as [-> ->]. rewrite app_nil_r in *. split; [done|].
      eapply HL; [apply speaks_io|]. destruct Hc as [[Hd Hx]|(t & fd & r0 & ->)]; [by apply lc_failed|apply lc_write].
Qed.

Lemma c_specs ls tr out : calls (lock_specs en (is_upload m) ls) tr (Some out) ->
  tr = [] /\ all_lines en m (map (fun lk => (lk_path lk, lk_time lk, lk_owner lk)) ls) out.
Proof using Type.
  revert tr out. induction ls as [|lk ls IH]; intros tr out H; cbn [lock_specs] in H.
  - apply calls_ret in H as [-> ->]. split; [done|constructor].
  - apply calls_bind in H as (t1 & t2 & s & -> & (-> & x & Hx & ->)%c_as_lock_spec & H).
    apply calls_bind in H as (t3 & t4 & rest & -> & (-> & Hr)%IH & [-> ->]%calls_ret). split; [done|]. by constructor.
Qed.
Notation triple lk := (lk_path lk, lk_time lk, lk_owner lk).
Lemma c_collect c todo skip n tr out : calls (collect_locks en be c todo skip n) tr (Some out) ->
  exists is1 is2 before, todo = is1 ++ is2 /\ took tr [] tr /\
    visits en lfs is1 tr (before ++ map (fun lk => triple lk) out) /\
    Forall (fun x => SpecLockDir.passed c (id x.1.1)) before /\
    match map (fun lk => triple lk) out with x :: _ => skip = true -> ~ SpecLockDir.passed c (id x.1.1) | [] => True end /\
    (skip = false -> before = []) /\
    (length out <= n)%nat /\ (is2 = [] \/ length out = n).
Proof using Type.
  revert skip n tr out. induction todo as [|f todo IH]; intros skip n tr out H.
  { assert (calls (Ret []) tr (Some out)) as [-> ->]%calls_ret by (by destruct n). exists [], [], [].
    split_and!; [done|apply took_nil|constructor|constructor|done|done|cbn; lia|by left]. }
  destruct n as [|n].
  { apply calls_ret in H as [-> ->]. exists [], (f :: todo), [].
    split_and!; [done|apply took_nil|constructor|constructor|done|done|cbn; lia|by right]. }
  cbn [collect_locks] in H. apply calls_bind in H as (t1 & t2 & z & -> & (x & Hx & Hf)%c_from_id & H).
  pose proof (looks_took _ _ _ Hx) as Ht1.
  assert (Hskip : (forall p t o, x <> Found p t o) -> calls (collect_locks en be c todo skip (S n)) t2 (Some out) ->
    exists is1 is2 before, f :: todo = is1 ++ is2 /\ took (t1 ++ t2) [] (t1 ++ t2) /\
    visits en lfs is1 (t1 ++ t2) (before ++ map (fun lk => triple lk) out) /\
    Forall (fun x => SpecLockDir.passed c (id x.1.1)) before /\
    match map (fun lk => triple lk) out with x :: _ => skip = true -> ~ SpecLockDir.passed c (id x.1.1) | [] => True end /\
    (skip = false -> before = []) /\
    (length out <= S n)%nat /\ (is2 = [] \/ length out = S n)).
  { intros Hn (is1 & is2 & before & -> & Ht & Hv & Hb & Hh & Hs & Hl & He)%IH. exists (f :: is1), is2, before.
    split_and!; try done; [by apply (took_app _ _ [] [])|]. by eapply vi_other; [apply push_target| | |]. }
  destruct z as [[lk|]|e].
  - cbn [finds] in Hf. subst x. destruct (skip && _) eqn:E.
    + apply andb_true_iff in E as [-> E]. apply IH in H as (is1 & is2 & before & -> & Ht & Hv & Hb & Hh & Hs & Hl & He).
      exists (f :: is1), is2, (triple lk :: before). split_and!; try done; [by apply (took_app _ _ [] [])| |].
      * cbn [app]. by eapply vi_found; [apply push_target| |].
      * constructor; [|done]. unfold SpecLockDir.passed. cbn. by destruct c.
    + apply calls_bind in H as (t3 & t4 & ls & -> & H & [-> ->]%calls_ret).
      apply IH in H as (is1 & is2 & before & -> & Ht & Hv & Hb & Hh & Hs & Hl & He). rewrite (Hs eq_refl) in *. rewrite app_nil_r.
      exists (f :: is1), is2, []. split_and!; try done; [by apply (took_app _ _ [] [])| | |cbn; lia|].
      * cbn [app map]. by eapply vi_found; [apply push_target| |].
      * cbn [map]. intros ->. cbn in E |- *. unfold SpecLockDir.passed. destruct c; [|by intros []].
        change (lk_id en lk) with (id (lk_path lk)) in E. by rewrite E.
      * destruct He as [->|<-]; [by left|by right].
  - cbn [finds] in Hf. subst x. by apply Hskip.
  - destruct Hf as (an & -> & _). by apply Hskip.
Qed.

Lemma c_list tr r : exact tr -> calls (p_list_locks en be fuel (is_upload m)) tr (Some r) ->
  exists is ds, took tr is ds /\ does (RList []) r is ds.
Proof using HH.
  intros He H. eapply (c_request _ _ (RList [])); [by right|apply reader_wrapped| |done|exact H].
  apply acting_plain. clear tr r He H. intros kvs a tr r Hk Ha H.
  apply calls_bindR in H as (t1 & t2 & z & -> & [-> ->]%calls_ret & H). cbn [app].
  pose proof (key_lookup a kvs (bs "limit") Ha) as Klim. pose proof (key_lookup a kvs (bs "cursor") Ha) as Kcur.
  destruct (match a !! bs "limit" with Some x => parse_integer x | None => Ok 100%N end) as [lim|e] eqn:El.
  2: { destruct H as [-> ->]. split; [apply took_nil|]. destruct (a !! bs "limit") as [v|]; [|done].
       destruct (parse_number_er _ _ El) as (H1 & H2 & H3). eexists. split; [|by eapply (ac_list_number _ _ _ _ v)]. by apply speaks_error. }
  assert (Hlim : (lim = 0%N /\ exists v, (bs "limit", v) ∈ kvs /\ number v 0) \/
    (lim <> 0%N /\ limit_of (a !! bs "limit") (N.to_nat (if (100 <? lim)%N then 100 else lim)))).
  { destruct (a !! bs "limit") as [v|].
    - apply parse_number in El. destruct (decide (lim = 0%N)) as [->|Hl]; [left; split; [done|by exists v]|right].
      split; [done|]. replace (if (100 <? lim)%N then 100%N else lim) with (N.min lim 100) by (destruct (N.ltb_spec 100 lim); lia).
      by constructor.
    - injection El as <-. right. split; [done|]. constructor. }
  destruct Hlim as [(-> & v & Hv & Hn)|[Hl Hlim]].
  { rewrite N.eqb_refl in H. apply calls_ret in H as [-> ->]. split; [apply took_nil|]. eexists. split; [|by eapply ac_list_zero].
    by apply speaks_error. }
  apply N.eqb_neq in Hl. rewrite Hl in H. clear Hl El. revert Hlim H. generalize (N.to_nat (if (100 <? lim)%N then 100 else lim)%N) as n.
  intros n Hlim H. destruct (a !! bs "path") as [p|] eqn:Ep.
  - apply Ha in Ep.
    assert (HP : forall an, took t2 [] t2 -> speaks r an -> path_listing en lfs m p (a !! bs "cursor") t2 an ->
      took t2 [] t2 /\ exists an, speaks r an /\ acts en lfs m (with_args kvs (RList [])) t2 an).
    { intros an Ht Hs Hl. split; [done|]. exists an. split; [done|]. by eapply ac_list_path. }
    apply calls_bind in H as (t3 & t4 & f & -> & (y & Hy & Hf & Hp)%c_from_path & H).
    pose proof (looks_for_took _ _ _ Hy) as Ht3. destruct f as [[lk|]|e'].
    + cbn [finds] in Hf. subst y. pose proof (Hp lk eq_refl) as Elk. rewrite Elk in Hy.
      destruct (match a !! bs "cursor" with Some id => blt (lk_id en lk) id | None => false end) eqn:Ec.
      * apply calls_ret in H as [-> ->]. rewrite app_nil_r in *. eapply HP; [done| |eapply pl_passed; [exact Hy|]].
        -- by apply speaks_text, is_code.
        -- change (lk_id en lk) with (id (lk_path lk)) in Ec. rewrite Elk in Ec. unfold SpecLockDir.passed. by destruct (a !! bs "cursor").
      * apply calls_bind in H as (t5 & t6 & s & -> & (-> & x & Hx & ->)%c_as_lock_spec & [-> ->]%calls_ret).
        cbn [app]. rewrite app_nil_r in *. rewrite Elk in *. eapply HP; [done| |eapply pl_found; [exact Hy| |exact Hx]].
        -- split; [|done]. apply (sd_lines 200 None). by apply is_code.
        -- change (lk_id en lk) with (id (lk_path lk)) in Ec. rewrite Elk in Ec. unfold SpecLockDir.passed.
           destruct (a !! bs "cursor"); [by rewrite Ec|by intros []].
    + cbn [finds] in Hf. subst y. apply calls_ret in H as [-> ->]. rewrite app_nil_r in *.
      eapply HP; [done| |by apply pl_none]. by apply speaks_text, is_code.
    + destruct Hf as (an & -> & Hs). apply calls_ret in H as [-> ->]. rewrite app_nil_r in *.
      eapply HP; [done|by eapply speaks_unusable_for|by eapply pl_useless].
  - apply (no_key_none a kvs) in Ep; [|done].
    assert (HP : forall an, took t2 [] t2 -> speaks r an -> listing en lfs m (a !! bs "cursor") n t2 an ->
      took t2 [] t2 /\ exists an, speaks r an /\ acts en lfs m (with_args kvs (RList [])) t2 an).
    { intros an Ht Hs Hl. split; [done|]. exists an. split; [done|]. by eapply ac_list. }
    apply calls_bindR in H as (t3 & t4 & z & -> & H3 & H).
    apply calls_vis in H3 as (y & t5 & -> & _ & H3). cbn [bind] in H3. destruct y as [names|x].
    + apply calls_bind in H3 as (t6 & t7 & ls & -> & H6 & [-> ->]%calls_ret).
      apply calls_bind in H as (t8 & t9 & sp & -> & (-> & Hal)%c_specs & [-> ->]%calls_ret).
      apply c_collect in H6 as (is1 & is2 & before & Em & Ht & Hv & Hb & Hh & _ & Hlen & Hend). cbn [app] in *. rewrite !app_nil_r in *.
      replace (n + 1)%nat with (S n) in * by lia.
      set (next := match ls !! n with Some lk => if (length ls =? S n)%nat then [bs "next-cursor=" ++ lk_id en lk ++ [NL]] else [] | None => [] end) in *.
      assert (En : next = match map (fun lk => triple lk) ls !! n with Some (p, _, _) => [bs "next-cursor=" ++ id p ++ [NL]] | None => [] end).
      { unfold next. rewrite list_lookup_fmap. destruct (ls !! n) as [lk|] eqn:E; [|done]. cbn. apply lookup_lt_Some in E.
        assert (length ls = S n) as -> by lia. by rewrite Nat.eqb_refl. }
      eapply HP; [by apply took_call| |eapply (li_done _ _ _ _ _ names is1 is2 t6 before (map (fun lk => triple lk) ls) sp)].
      * split; [|done]. rewrite <- En. apply (sd_lines 200 (Some next)). by apply is_code.
      * rewrite <- Em. apply merge_sort_Permutation.
      * rewrite <- Em. apply (StronglySorted_merge_sort ble).
      * done.
      * done.
      * destruct ls; [done|]. by apply Hh.
      * by rewrite map_length.
      * by rewrite map_length.
      * done.
    + apply calls_ret in H3 as [-> ->]. destruct H as [-> ->]. eapply HP; [apply took_call; [done|apply took_nil]|apply speaks_io|apply li_failed].
Qed.

(** ** Uploads *)
Lemma c_read_loop f n rb tr r rb' : (0 < n)%N -> exact tr -> rb_wf rb -> pend rb = [] -> calls (read_loop f n rb) tr (Some (r, rb')) ->
  rb_wf rb' /\ exists ds,
  match r with
  | IOk [] => exists e, (e = PFlush \/ e = PDelim) /\ took tr (map Got (lines ds) ++ [Got e]) [] /\ concat ds = [] /\ pend rb' = []
  | IOk out => took tr (map Got (lines ds)) [] /\ concat ds = out ++ pend rb'
  | IErr x => exists i, (forall p, i <> Got p) /\ took tr (map Got (lines ds) ++ [i]) [] /\ concat ds = [] /\ pend rb' = [] /\ x = io_of_err (err_for i)
  end.
Proof using Type.
  intros Hn. revert tr. induction f as [|f IH]; intros tr He Hwf Hp H; cbn [read_loop] in H; [by destruct tr|].
  apply calls_bind in H as (t1 & t2 & z & -> & H1 & H). apply exact_app in He as [He1 He2].
  destruct (c_read_one _ _ He1 H1) as (i & Hi & Hz). destruct z as [p|e].
  2: { destruct Hz as [-> Hz]. apply calls_ret in H as [-> [= -> ->]]. split; [done|]. exists []. exists i. rewrite app_nil_r. by split_and!. }
  subst i. assert (Hagain : calls (read_loop f n rb) t2 (Some (r, rb')) -> p = PData [] ->
    rb_wf rb' /\ exists ds,
    match r with
    | IOk [] => exists e, (e = PFlush \/ e = PDelim) /\ took (t1 ++ t2) (map Got (lines ds) ++ [Got e]) [] /\ concat ds = [] /\ pend rb' = []
    | IOk out => took (t1 ++ t2) (map Got (lines ds)) [] /\ concat ds = out ++ pend rb'
    | IErr x => exists i, (forall p, i <> Got p) /\ took (t1 ++ t2) (map Got (lines ds) ++ [i]) [] /\ concat ds = [] /\ pend rb' = [] /\ x = io_of_err (err_for i)
    end).
  { intros H' ->. destruct (IH _ He2 Hwf Hp H') as (Hw' & ds & Hd). split; [done|]. exists ([] :: ds).
    assert (Ht : forall is, took t2 is [] -> took (t1 ++ t2) (Got (PData []) :: is) []) by (intros is Ht; by apply (took_app _ _ [_] is [] [])).
    destruct r as [[|x out]|x].
    - destruct Hd as (e & He' & Ht' & Hc & Hp'). exists e. split_and!; [done|by apply Ht|done|done].
    - destruct Hd as (Ht' & Hc). split; [by apply Ht|done].
    - destruct Hd as (j & Hj & Ht' & Hc & Hp' & ->). exists j. split_and!; try done. by apply Ht. }
  destruct p as [| |d].
  - apply calls_ret in H as [-> [= -> ->]]. split; [done|]. exists [], PFlush. rewrite app_nil_r. split_and!; try done. by left.
  - apply calls_ret in H as [-> [= -> ->]]. split; [done|]. exists [], PDelim. rewrite app_nil_r. split_and!; try done. by right.
  - destruct d as [|x d].
    { cbn [length] in H. change (lenN []) with 0%N in H. destruct (negb _); by apply Hagain. }
    assert (0 < lenN (x :: d))%N as Hl by (unfold lenN; cbn; lia).
    destruct (negb _).
    + apply N.ltb_lt in Hl as Hl'. rewrite Hl' in H. apply calls_ret in H as [-> [= -> ->]]. rewrite app_nil_r. split.
      { unfold rb_wf. simpl rb_off. simpl rb_len. simpl rb_data. lia. }
      exists [x :: d]. assert (Hpos : (0 < N.min (lenN (x :: d)) n)%N) by lia.
      destruct (take (N.to_nat (N.min (lenN (x :: d)) n)) (x :: d)) as [|y out] eqn:Et.
      { apply (f_equal length) in Et. rewrite take_length in Et. cbn in Et. lia. }
      split; [done|]. rewrite <- Et. cbn [concat]. rewrite app_nil_r. unfold pend. simpl rb_off. simpl rb_len. simpl rb_data.
      rewrite (take_ge (drop _ _)); [by rewrite take_drop|]. rewrite drop_length. unfold lenN. lia.
    + assert ((lenN (x :: d) =? 0)%N = false) as El by (apply N.eqb_neq; lia). rewrite El in H.
      apply calls_ret in H as [-> [= -> ->]]. rewrite app_nil_r. split; [done|]. exists [x :: d]. split; [done|]. rewrite Hp. done.
Qed.
Lemma c_reader_read f n rb tr r rb' : (0 < n)%N -> exact tr -> rb_wf rb -> calls (reader_read f n rb) tr (Some (r, rb')) ->
  rb_wf rb' /\ exists ds,
  match r with
  | IOk [] => exists e, (e = PFlush \/ e = PDelim) /\ took tr (map Got (lines ds) ++ [Got e]) [] /\ pend rb ++ concat ds = [] /\ pend rb' = []
  | IOk out => took tr (map Got (lines ds)) [] /\ pend rb ++ concat ds = out ++ pend rb'
  | IErr x => exists i, (forall p, i <> Got p) /\ took tr (map Got (lines ds) ++ [i]) [] /\ pend rb ++ concat ds = [] /\ pend rb' = [] /\ x = io_of_err (err_for i)
  end.
Proof using Type.
  intros Hn He Hwf H. unfold reader_read in H. pose proof (pend_length rb Hwf) as Hl.
  destruct (0 <? N.min (rb_len rb - rb_off rb) n)%N eqn:E.
  - apply N.ltb_lt in E.
    assert (Hne : pend rb <> []) by (intros H0; rewrite H0 in Hl; simpl in Hl; lia).
    assert (Eo : take (N.to_nat (N.min (rb_len rb - rb_off rb) n)) (drop (N.to_nat (rb_off rb)) (rb_data rb)) = take (N.to_nat n) (pend rb)).
    { unfold pend. rewrite take_take. f_equal. lia. }
    rewrite Eo in H. clear Eo.
    assert (tr = [] /\ r = IOk (take (N.to_nat n) (pend rb)) /\ rb_wf rb' /\ pend rb' = drop (N.to_nat n) (pend rb)) as (-> & -> & Hw' & Hp').
    { destruct (N.min _ _ =? _)%N eqn:E2; apply calls_ret in H as [-> [= -> ->]]; (split; [done|]); (split; [done|]).
      + apply N.eqb_eq in E2. split; [unfold rb_wf; simpl; lia|]. unfold pend at 1. simpl. symmetry. apply drop_ge. lia.
      + apply N.eqb_neq in E2. split; [unfold rb_wf in *; simpl; lia|]. unfold pend. simpl. rewrite N.min_r by lia.
        rewrite skipn_firstn_comm, drop_drop. f_equal; [lia|]. f_equal. lia. }
    split; [done|]. exists []. destruct (take (N.to_nat n) (pend rb)) as [|x out] eqn:Et.
    { destruct (pend rb) as [|y q]; [done|]. apply (f_equal length) in Et. rewrite take_length in Et. cbn in Et. lia. }
    split; [apply took_nil|]. rewrite <- Et, Hp', take_drop. by rewrite app_nil_r.
  - apply N.ltb_ge in E. assert (Hnil : pend rb = []) by (apply nil_length_inv; lia). rewrite Hnil.
    by apply (c_read_loop f n rb).
Qed.
Lemma c_copy f fd got rb tr r rb' : exact tr -> rb_wf rb -> calls (copy_to_file f fd got rb) tr (Some (r, rb')) ->
  rb_wf rb' /\ exists ds cs,
  match r with
  | Ok out => exists e, (e = PFlush \/ e = PDelim) /\ took tr (map Got (lines ds) ++ [Got e]) (written fd cs) /\
      concat cs = pend rb ++ concat ds /\ out = got ++ concat cs /\ pend rb' = []
  | Er e =>
      (exists c x, took tr (map Got (lines ds)) (written fd cs ++ [existT (EWriteFd fd c) (IErr x)]) /\
        concat cs ++ c ++ pend rb' = pend rb ++ concat ds /\ e = err_of_io x) \/
      (exists i, (forall p, i <> Got p) /\ took tr (map Got (lines ds) ++ [i]) (written fd cs) /\
        concat cs = pend rb ++ concat ds /\ pend rb' = [] /\ e = err_of_io (io_of_err (err_for i)))
  end.
Proof using Type.
  revert got rb tr. induction f as [|f IH]; intros got rb tr He Hwf H; cbn [copy_to_file] in H; [by destruct tr|].
  apply calls_bind in H as (t1 & t2 & [z rb1] & -> & H1 & H). apply exact_app in He as [He1 He2].
  destruct (c_reader_read _ _ _ _ _ _ copy_pos He1 Hwf H1) as (Hw1 & ds & Hd). destruct z as [[|x d]|x].
  - destruct Hd as (e & He & Ht & Hc & Hp). apply calls_ret in H as [-> [= -> ->]]. split; [done|]. exists ds, [], e.
    rewrite !app_nil_r. by split_and!.
  - destruct Hd as (Ht & Hc). apply calls_vis in H as (w & t3 & -> & _ & H). cbn [bind] in H. destruct w as [[]|y].
    + apply exact_cons in He2. destruct (IH _ _ _ He2 Hw1 H) as (Hw' & ds' & cs & Hr). split; [done|].
      exists (ds ++ ds'), ((x :: d) :: cs). unfold lines. rewrite !map_app, concat_app. cbn [concat written map].
      assert (HT : forall is dd, took t3 is dd -> took (t1 ++ existT (EWriteFd fd (x :: d)) (IOk tt) :: t3) (map Got (lines ds) ++ is) (existT (EWriteFd fd (x :: d)) (IOk tt) :: dd)).
      { intros is dd Ht'. apply (took_app _ _ _ _ [] (_ :: dd)); [done|]. by apply took_call. }
      assert (HC : forall y, y = pend rb1 ++ concat ds' -> (x :: d) ++ y = pend rb ++ concat ds ++ concat ds').
      { intros y ->. by rewrite app_assoc, <- Hc, <- app_assoc. }
      destruct r as [out|e].
      * destruct Hr as (e & He & Ht' & Hc' & -> & Hp). exists e. split_and!; [done| | |by rewrite <- app_assoc|done].
        -- rewrite <- app_assoc. by apply HT.
        -- by apply HC.
      * destruct Hr as [(c & y & Ht' & Hc' & ->)|(i & Hi & Ht' & Hc' & Hp & ->)]; [left|right].
        -- exists c, y. split_and!; [by apply HT| |done]. rewrite <- app_assoc. by apply HC.
        -- exists i. split_and!; [done| | |done|done]; [rewrite <- app_assoc; by apply HT|by apply HC].
    + apply calls_ret in H as [-> [= -> ->]]. split; [done|]. exists ds, []. left. exists (x :: d), y. split_and!; [|by rewrite Hc|done].
      rewrite <- (app_nil_r (map Got (lines ds))). apply (took_app _ _ _ _ [] [_]); [done|]. apply took_call; [done|apply took_nil].
  - destruct Hd as (i & Hi & Ht & Hc & Hp & ->). apply calls_ret in H as [-> [= -> ->]]. split; [done|]. exists ds, []. right. exists i.
    rewrite !app_nil_r. by split_and!.
Qed.
Lemma speaks_in i : (forall p, i <> Got p) ->
  speaks (Er (err_of_io (io_of_err (err_for i)))) (fixed 500 (bs "internal error: fatal: I/O error: " ++ what_is_wrong i)).
Proof using Type. 
  intros Hi. assert (what_is_wrong i = io_text (io_of_err (err_for i))) as ->; [|apply speaks_io].
  destruct i as [p|x| |]; [by destruct (Hi p)| |done|done]. cbn. unfold display. cbn. by rewrite app_nil_r.
Qed.

Lemma c_put_drop tmp tr r : calls (drop_temp tmp) tr (Some r) -> exists y, tr = [existT (EUnlink tmp) y].
Proof using Type. intros (y & t2 & -> & _ & [-> ->]%calls_ret)%calls_vis. by exists y. Qed.
Lemma c_finish o tmp n d tr f : lenN d = n -> hex_of (en_hash en d) o -> calls (finish_upload be (UploadState o tmp)) tr (Some f) ->
  took tr [] tr /\ exists a, finishing en lfs umask o n tmp d tr a /\ speaks (match f with Ok _ => Ok st_success | Er e => Er e end) a.
Proof using Type.
  intros Hn Hh H. unfold finish_upload in H. cbn [us_oid us_temp] in H. rewrite <- object_path_eq in H. cbn [be_lfs] in H.
  assert (removelast (object_path lfs o) = lfs ++ [bs "objects"; take 2 o; take 2 (drop 2 o)]) as Er0.
  { unfold object_path. rewrite removelast_app by done. done. }
  rewrite Er0 in H. clear Er0.
  apply calls_vis in H as (y & t2 & -> & _ & H). cbn [bind] in H. destruct y as [[]|x].
  2: { apply calls_bind in H as (t3 & t4 & ? & -> & (y & ->)%c_put_drop & [-> ->]%calls_ret). split.
       { repeat (apply took_call; [done|]). apply took_nil. }
       eexists. split; [by apply fi_mkdir|apply speaks_io]. }
  apply calls_vis in H as (y & t3 & -> & _ & H). cbn [bind] in H. destruct y as [[]|x].
  2: { apply calls_bind in H as (t4 & t5 & ? & -> & (y & ->)%c_put_drop & [-> ->]%calls_ret). split.
       { repeat (apply took_call; [done|]). apply took_nil. }
       eexists. split; [by apply fi_rename|]. apply speaks_fixed; [|by apply is_code].
       unfold status_of_error, display. cbn. by rewrite !app_nil_r. }
  apply calls_bindR in H as (t4 & t5 & y & -> & (w & (w0 & t0 & -> & _ & [-> ->]%calls_ret)%calls_vis & ->)%calls_io_call & H).
  destruct w0 as [y|x]; cbn [res_of_io] in H.
  2: { destruct H as [-> ->]. split; [repeat (apply took_call; [done|]); apply took_nil|]. eexists. split; [by apply fi_stat|apply speaks_io]. }
  apply calls_io_call in H as (w & (w0 & t0 & -> & _ & [-> ->]%calls_ret)%calls_vis & ->). cbn [be_umask app].
  destruct w0 as [[]|x]; cbn [res_of_io]; (split; [repeat (apply took_call; [done|]); apply took_nil|]).
  - eexists. split; [apply fi_done; [done|done|apply perm_bits_ldiff]|]. split; [|done]. apply (sd_none 200 None). by apply is_code.
  - eexists. split; [apply fi_chmod; [done|done|apply perm_bits_ldiff]|apply speaks_io].
Qed.

Definition puts (o : bytes) (r : res status) (is : list item) (ds : list done_call) (rb rb' : rbuf) : Prop :=
  rb_wf rb' /\ forall b ws, SpecOdd.says b ws -> SpecOdd.named (RPut o [] []) ws ->
    exists a, speaks r a /\
      (SpecOdd.turned_away m ws 400 (bs "error: " ++ bad_oid) /\ is = [] /\ ds = [] /\ rb' = rb /\ a = refusal bad_oid \/
       uploads en lfs umask (pend rb) (Got (PData b) :: is) ds a (pend rb')).
Lemma c_put o rb tr r rb' : m = Upload -> exact tr -> rb_wf rb -> calls (p_put_object en be fuel o rb) tr (Some (r, rb')) ->
  exists is ds, took tr is ds /\ puts o r is ds rb rb'.
Proof using HH.
  intros Hm He Hwf H. unfold p_put_object in H. destruct (oid_new o) as [o'|e] eqn:Eo.
  2: { destruct (oid_new_no _ _ Eo) as [Hc Ho]. apply calls_ret in H as [-> [= -> ->]]. exists [], []. split; [apply took_nil|].
       split; [done|]. intros b ws _ (more & -> & _). exists (refusal bad_oid). split.
       - apply speaks_error; [done|]. unfold oid_new in Eo. destruct (oid_valid o); [done|]. by injection Eo as <-.
       - left. split_and!; try done. by eapply SpecOdd.ta_oid. }
  apply oid_new_iff in Eo as [-> Ho].
  apply calls_bind in H as (t1 & t2 & z & -> & H1 & H). apply exact_app in He as [He1 He2].
  apply calls_bindR in H1 as (t3 & t4 & y & -> & H3 & H4). apply exact_app in He1 as [He1 _].
  destruct (c_read_to_type _ _ _ _ He1 H3) as (is & Hi & Hz).
  assert (HU : forall e a, t4 = [] -> z = Er e -> speaks (Er e) a ->
     (forall b ws, SpecOdd.says b ws -> SpecOdd.named (RPut o [] []) ws -> uploads en lfs umask (pend rb) (Got (PData b) :: is) [] a (pend rb)) ->
     exists is ds, took ((t3 ++ t4) ++ t2) is ds /\ puts o r is ds rb rb').
  { intros e a -> -> Hs Hu. apply calls_ret in H as [-> [= -> ->]]. exists is, []. rewrite !app_nil_r. split; [done|].
    split; [done|]. intros b ws W1 W2. exists a. split; [done|]. right. by eapply Hu. }
  destruct y as [ls|e].
  2: { destruct Hz as (i & Hb & ->). destruct H4 as [-> ->]. eapply HU; [done|done|by eapply speaks_broken|]. intros b ws W1 W2. by eapply up_broken. }
  destruct Hz as (qs & Hp & ->). apply calls_bindR in H4 as (t5 & t6 & y & -> & H5 & H6).
  destruct (args_cases qs) as [(kvs & -> & Hk)|(code & t & Hb)].
  2: { destruct (bad_args_parse _ _ _ Hb) as (e & Ee & Es & Ec). rewrite Ee in H5. apply calls_ret in H5 as [-> ->]. destruct H6 as [-> ->].
       eapply HU; [done|done|by apply speaks_fixed|]. intros b ws W1 W2. by eapply up_args. }
  rewrite map_payload_args in H5. pose proof Hk as [K1 K2]. destruct (c09 kvs K1 K2) as (a & Ea & Ha).
  rewrite Ea in H5. apply calls_ret in H5 as [-> ->]. apply calls_ret in H6 as [-> ->]. cbn [app] in *. unfold size_from_arguments in *.
  destruct (a !! bs "size") as [v|] eqn:Ev.
  2: { eapply HU; [done|done|by apply speaks_error|]. intros b ws W1 W2. eapply up_no_size; eauto. by eapply no_key_none. }
  apply Ha in Ev. destruct (parse_integer v) as [n|e] eqn:En.
  2: { destruct (parse_number_er _ _ En) as (P1 & P2 & P3). eapply HU; [done|done|by apply speaks_error|].
       intros b ws W1 W2. by eapply up_number. }
  apply parse_number in En. clear HU. rewrite app_nil_r.
  assert (HU : forall is2 ds2 an, took t2 is2 ds2 -> rb_wf rb' -> speaks r an -> storing en lfs umask o n (pend rb) is2 ds2 an (pend rb') ->
    exists is ds, took (t3 ++ t2) is ds /\ puts o r is ds rb rb').
  { intros is2 ds2 an Ht Hw Hs Hst. exists (is ++ is2), ds2. split; [by apply (took_app _ _ _ _ [] ds2)|]. split; [done|].
    intros b ws W1 W2. exists an. split; [done|]. right. by eapply up_data. }
  apply calls_bind in H as (t4 & t5 & [y rb1] & -> & H4 & H). apply exact_app in He2 as [He2 _].
  apply calls_vis in H4 as (w & t6 & -> & _ & H4). cbn [bind] in H4. destruct w as [[tmp fd]|x].
  2: { apply calls_ret in H4 as [-> [= -> ->]]. apply calls_ret in H as [-> [= -> ->]]. eapply HU; [apply took_call; [done|apply took_nil]|done|apply speaks_io|].
       apply so_temp. }
  apply exact_cons in He2.
  apply calls_bind in H4 as (t7 & t8 & [c rb2] & -> & H7 & H8). apply exact_app in He2 as [He2 _].
  destruct (c_copy _ _ _ _ _ _ _ He2 Hwf H7) as (Hw2 & ds & cs & Hr). destruct c as [got|e].
  - destruct Hr as (e & He & Ht & Hc & -> & Hp2). apply calls_ret in H8 as [-> [= -> ->]]. cbn [app] in *. rewrite app_nil_r in HU |- *.
    assert (HF : forall an, took t5 [] t5 -> speaks r an -> rb' = rb2 -> finishing en lfs umask o n tmp (concat cs) t5 an ->
      exists is ds, took (t3 ++ existT (EMktemp (lfs ++ [bs "incomplete"]) o) (IOk (tmp, fd)) :: t7 ++ t5) is ds /\ puts o r is ds rb rb').
    { intros an Ht5 Hs -> Hf. eapply HU; [|done|exact Hs|].
      - apply took_call; [done|]. by apply took_ext_r; [exact Ht|].
      - rewrite Hp2. apply so_data; [done|done|]. by rewrite <- Hc. }
    assert (HD : forall k an, calls (let! _ := drop_temp tmp in Ret (Er k, rb2)) t5 (Some (r, rb')) -> speaks (Er k) an ->
       (forall y, finishing en lfs umask o n tmp (concat cs) [existT (EUnlink tmp) y] an) ->
      exists is ds, took (t3 ++ existT (EMktemp (lfs ++ [bs "incomplete"]) o) (IOk (tmp, fd)) :: t7 ++ t5) is ds /\ puts o r is ds rb rb').
    { intros k an (t9 & t10 & ? & -> & (y & ->)%c_put_drop & [-> [= -> ->]]%calls_ret)%calls_bind Hs Hf.
      eapply HF; [apply took_call; [done|apply took_nil]|exact Hs|done|apply Hf]. }
    cbn [us_temp] in H. destruct (lenN (concat cs) <? n)%N eqn:E1.
    { apply N.ltb_lt in E1. eapply HD; [exact H|by apply speaks_error|]. intros y. by apply fi_less. }
    destruct (n <? lenN (concat cs))%N eqn:E2.
    { apply N.ltb_lt in E2. eapply HD; [exact H|by apply speaks_error|]. intros y. by apply fi_more. }
    apply N.ltb_ge in E1, E2. assert (En' : lenN (concat cs) = n) by lia.
    assert (Hoid : is_oid (hex_encode (en_hash en (concat cs)))) by (apply hex_encode_is_oid, HH).
    rewrite (proj2 (oid_new_iff _ _) (conj eq_refl Hoid)) in H.
    destruct (decide (hex_encode (en_hash en (concat cs)) = o)) as [Eo|Eo].
    + rewrite decide_False in H by (by intros []). apply calls_bind in H as (t9 & t10 & f & -> & H9 & [-> [= -> ->]]%calls_ret).
      destruct (c_finish _ _ _ _ _ _ En' (proj2 (hex_of_iff _ _) (eq_sym Eo)) H9) as (Ht9 & an & Hf & Hs). rewrite app_nil_r in *.
      by eapply HF.
    + rewrite decide_True in H by done. eapply HD; [exact H|by apply speaks_error|]. intros y. apply fi_other; [done|by apply hex_of_iff|done].
  - apply calls_bind in H8 as (t9 & t10 & ? & -> & (w & ->)%c_put_drop & [-> [= -> ->]]%calls_ret). apply calls_ret in H as [-> [= -> ->]].
    rewrite !app_nil_r in *. destruct Hr as [(c & x2 & Ht & Hc & ->)|(i2 & Hi2 & Ht & Hc & Hp2 & ->)].
    + pose proof (took_app _ _ _ _ _ _ Ht (took_call (EUnlink tmp) w [] [] [] eq_refl took_nil)) as G. rewrite app_nil_r, <- app_assoc in G.
      eapply HU; [apply took_call; [done|exact G]|done|apply speaks_io|]. by apply (so_write en lfs umask o n _ ds tmp fd cs c x2 w).
    + pose proof (took_app _ _ _ _ _ _ Ht (took_call (EUnlink tmp) w [] [] [] eq_refl took_nil)) as G. rewrite app_nil_r in G.
      eapply HU; [apply took_call; [done|exact G]|done|by apply speaks_in|]. rewrite Hp2. by apply (so_read en lfs umask o n _ ds tmp fd cs i2 w).
Qed.

(** ** Rounds *)
Lemma calls_leaves {A} (P : A -> Prop) (p : prog A) tr a : leaves P p -> calls p tr (Some a) -> P a.
Proof using Type.
  revert tr. induction p as [b|f|e k IH]; intros tr Hp Hc; destruct tr as [|d tr]; try done.
  - destruct Hc as [|[= ->]]; done.
  - destruct Hc as (r & -> & _ & Hc). eapply IH; [apply Hp|exact Hc].
Qed.
Definition silent (d : done_call) : Prop := wordless (projT1 d).
Lemma silent_spoken tr : Forall silent tr -> spoken tr = [].
Proof using Type. induction 1 as [|[e r] tr Hd _ IH]; [done|]. unfold spoken in *. cbn. rewrite IH, app_nil_r. by destruct e. Qed.
Lemma silent_well tr : Forall silent tr -> sent_well tr.
Proof using Type.
  intros H. eapply Forall_impl; [exact H|]. intros [e r] Hd. unfold silent in Hd. cbn in Hd. unfold failed_write. by destruct e; try intros [].
Qed.
Lemma calls_silent {A} (p : prog A) tr x : all_ev wordless p -> calls p tr x -> Forall silent tr.
Proof using Type. apply calls_all_ev. Qed.

(** A request has been heard and dealt with; the answer is sent. *)
Lemma round_of r rb t0 t1 t2 b is ds rb' : rb_wf rb ->
  took t0 [Got (PData b)] [] -> took t1 is ds -> Forall silent (t0 ++ t1) -> fine m (status_of r) ->
  calls (answer fuel (status_of r)) t2 (Some (Ok tt)) ->
  (good r (Got (PData b) :: is) ds /\ rb' = rb \/
   exists a, speaks r a /\ rb_wf rb' /\ m = Upload /\ uploads en lfs umask (pend rb) (Got (PData b) :: is) ds a (pend rb')) ->
  round en lfs umask m (pend rb) (t0 ++ t1 ++ t2) (pend rb') /\ rb_wf rb'.
Proof using Type.
  intros Hwf Ht0 Ht1 Hsil (Hc & _ & _) H2 Hg. destruct (c_answer _ _ _ Hc H2) as (A1 & A2 & A3 & A4).
  pose proof (took_app _ _ _ _ _ _ Ht0 Ht1) as [Th Td]. cbn [app] in Th, Td.
  assert (exists a, sendsd (status_of r) (deeds t2) a /\ rb_wf rb' /\
    (responds en lfs m (Got (PData b) :: is) (ds ++ deeds t2) a /\ pend rb' = pend rb \/
     m = Upload /\ uploads en lfs umask (pend rb) (Got (PData b) :: is) (ds ++ deeds t2) a (pend rb'))) as (a & Hs & Hw & Ha).
  { destruct Hg as [[Hg ->]|(a & Hs & Hw & Hm & Hu)].
    - destruct (Hg _ A3) as (a & Hs & Hr). exists a. split_and!; [done|done|]. by left.
    - pose proof (speaks_nothing _ _ _ Hs A3) as E. exists a. rewrite E, app_nil_r. split_and!; [apply Hs|done|]. by right. }
  split; [|done]. destruct (A4 a Hs) as (ps & Hps & Hw2). exists (Got (PData b) :: is), a, ps.
  rewrite app_assoc, reads_app, deeds_app, spoken_app, A1, Td, (silent_spoken _ Hsil), app_nil_r. cbn [app].
  split_and!; [done|done|done| |done]. apply Forall_app. split; [by apply silent_well|done].
Qed.
Lemma round_fixed p c t rb t0 t2 : c ∈ codes -> took t0 [Got p] [] -> Forall silent t0 ->
  calls (answer_error c t) t2 (Some (Ok tt)) -> responds en lfs m [Got p] [] (fixed c t) ->
  round en lfs umask m (pend rb) (t0 ++ t2) (pend rb).
Proof using Type.
  intros Hc [Th Td] Hsil H2 Hr. destruct (c_answer_error _ _ _ Hc H2) as (A1 & A2 & A3 & ps & A4 & A5).
  exists [Got p], (fixed c t), ps. rewrite reads_app, deeds_app, spoken_app, A1, A3, Td, (silent_spoken _ Hsil), app_nil_r. cbn [app].
  split_and!; [done|done|done| |by left]. apply Forall_app. split; [by apply silent_well|done].
Qed.

Lemma c_process_one rb tr x : exact tr -> rb_wf rb -> calls (process_one en be fuel m rb) tr (Some x) ->
  match x with
  | Next rb' => round en lfs umask m (pend rb) tr (pend rb') /\ rb_wf rb'
  | Return (Ok _) => farewell tr \/ hung_up tr
  | Return (Er _) => True
  end.
Proof using HH.
  intros He Hwf H. unfold process_one in H.
  apply calls_bind in H as (t0 & t9 & pk & -> & H0 & H). apply exact_app in He as [He0 He].
  assert (Hs0 : Forall silent t0) by (eapply calls_silent; [|exact H0]; by apply rd_read_packet).
  destruct (c_read_packet _ _ He0 H0) as (i & Ht0 & Hi). destruct pk as [p|e].
  2: { apply calls_ret in H as [-> ->]. rewrite app_nil_r. destruct Hi as [-> Hi]. case_decide as E; [|done]. right.
       exists i. destruct Ht0 as [Th Td].
       assert (Hr : Forall (fun d => match projT1 d with ERead _ => True | _ => False end) t0) by (eapply (calls_all_ev (fun e => match e with ERead _ => True | _ => False end)); [|exact H0]; by apply rd_read_packet).
       assert (Er0 : reads t0 = t0).
       { clear -Hr. induction Hr as [|[e r] t Hd Hr IH]; [done|]. unfold reads in *. cbn in *. destruct e; try done. by rewrite IH. }
       rewrite Er0 in Th. split; [|done].
       destruct Hi as [->|[y ->]]; [done|]. by exists y. }
  subst i.
  assert (Hgo : forall rb1 q, calls (and_go_on rb1 q) t9 (Some x) ->
    match x with Next rb' => rb' = rb1 /\ calls q t9 (Some (Ok tt)) | Return r => calls q t9 (Some r) /\ exists e, r = Er e end).
  { intros rb1 q (t1 & t2 & r & -> & H1 & [-> ->]%calls_ret)%calls_bind. rewrite app_nil_r. destruct r as [[]|e]; [done|].
    split; [done|by exists e]. }
  assert (Hfix : forall c t, c ∈ codes -> responds en lfs m [Got p] [] (fixed c t) -> calls (and_go_on rb (answer_error c t)) t9 (Some x) ->
    match x with
    | Next rb' => round en lfs umask m (pend rb) (t0 ++ t9) (pend rb') /\ rb_wf rb'
    | Return (Ok _) => farewell (t0 ++ t9) \/ hung_up (t0 ++ t9)
    | Return (Er _) => True
    end).
  { intros c t Hc Hr H'. apply Hgo in H'. destruct x as [rb'|r].
    - destruct H' as [-> H']. split; [|done]. by eapply round_fixed.
    - by destruct H' as [_ [e ->]]. }
  clear Hgo. destruct p as [| |b]; cbn [pkt_data] in H.
  { eapply Hfix; [|apply re_flush|exact H]. by apply is_code. }
  { eapply Hfix; [|apply re_delim|exact H]. by apply is_code. }
  destruct b as [|b0 b1].
  { eapply Hfix; [|apply re_empty|exact H]. by apply is_code. }
  clear Hfix. remember (b0 :: b1) as b eqn:Eb. assert (Hb : b <> []) by (by subst). clear Eb b0 b1.
  pose proof (says_some b Hb) as Hsay. set (ws := command_words b) in *.
  assert (Hcmd : dispatch ws m <> CQuit -> calls (let! (r, rb') := handle_command en be fuel (dispatch ws m) m rb in and_go_on rb' (answer fuel (status_of r))) t9 (Some x) ->
    match x with
    | Next rb' => round en lfs umask m (pend rb) (t0 ++ t9) (pend rb') /\ rb_wf rb'
    | Return (Ok _) => farewell (t0 ++ t9) \/ hung_up (t0 ++ t9)
    | Return (Er _) => True
    end).
  { clear H. intros Hnq (t1 & t2 & [r rb'] & -> & H1 & H2)%calls_bind. apply exact_app in He as [He1 _].
    apply calls_bind in H2 as (t3 & t4 & y & -> & H3 & [-> ->]%calls_ret). rewrite app_nil_r. destruct y as [[]|e]; [|done].
    pose proof (calls_silent _ _ _ (wl_handle en be fuel _ _ _) H1) as Hs1.
    pose proof (calls_leaves _ _ _ _ (fine_handle en be fuel ws m rb) H1) as Hfine. cbn [fst] in Hfine.
    apply (fine_status m) in Hfine.
    assert (HR : forall is ds, took t1 is ds ->
      (good r (Got (PData b) :: is) ds /\ rb' = rb \/
       exists a, speaks r a /\ rb_wf rb' /\ m = Upload /\ uploads en lfs umask (pend rb) (Got (PData b) :: is) ds a (pend rb')) ->
      round en lfs umask m (pend rb) (t0 ++ t1 ++ t3) (pend rb') /\ rb_wf rb').
    { intros is ds Ht Hg. eapply round_of; eauto. by apply Forall_app. }
    assert (HP : forall q (p : prog (res status)), SpecOdd.named q ws -> SpecOdd.allowed m q ->
      (forall tr r, exact tr -> calls p tr (Some r) -> exists is ds, took tr is ds /\ does q r is ds) ->
      calls (let! r := p in Ret (r, rb)) t1 (Some (r, rb')) ->
      round en lfs umask m (pend rb) (t0 ++ t1 ++ t3) (pend rb') /\ rb_wf rb').
    { intros q p Hn Ha Hp (t5 & t6 & z & -> & H5 & [-> [= -> ->]]%calls_ret)%calls_bind. rewrite app_nil_r in *.
      destruct (Hp _ _ He1 H5) as (is & ds & Ht & Hd). eapply HR; [exact Ht|]. left. split; [|done]. by eapply Hd. }
    destruct (words_cases m ws) as [(q & Ha & Hn)|[(code & t & Hta)|Hq]]; [apply Hsay| | |].
    - rewrite (named_dispatch _ _ _ Ha Hn) in H1.
      destruct q as [|kvs items|o kvs ds|o kvs|o kvs|kvs|kvs|j kvs]; cbn [command_for handle_command] in H1.
      + eapply HP; [exact Hn|exact Ha|apply c_version|exact H1].
      + eapply (HP (RBatch [] [])); [exact Hn|exact Ha|apply c_p_batch|exact H1].
      + destruct (c_put _ _ _ _ _ Ha He1 Hwf H1) as (is & dd & Ht & Hw & Hp). destruct (Hp b ws Hsay Hn) as (a & Hs & Hu).
        eapply HR; [exact Ht|]. destruct Hu as [(Hta & -> & -> & -> & ->)|Hu].
        * left. split; [|done]. eapply good_plain; [exact Hs|]. by apply (re_turned _ _ _ b ws 400 (bs "error: " ++ bad_oid)).
        * right. exists a. by split_and!.
      + eapply (HP (RVerify o [])); [exact Hn|exact Ha|apply c_verify|exact H1].
      + eapply (HP (RGet o [])); [exact Hn|exact Ha|apply c_get|exact H1].
      + eapply (HP (RLock [])); [exact Hn|exact Ha|apply c_lock|exact H1].
      + eapply (HP (RList [])); [exact Hn|exact Ha|apply c_list|exact H1].
      + eapply (HP (RUnlock j [])); [exact Hn|exact Ha|apply c_unlock|exact H1].
    - assert (HT : t1 = [] /\ rb' = rb /\ speaks r (fixed code t)).
      { destruct (turned_dispatch _ _ _ _ Hta) as [Hd|(o & Hd & Ho & -> & ->)].
        - destruct (dispatch ws m); try discriminate Hd; try done; injection Hd as <- <-;
            apply calls_ret in H1 as [-> [= -> ->]]; (split; [done|]); (split; [done|]); by apply speaks_text, is_code.
        - rewrite Hd in H1. cbn [handle_command] in H1. unfold p_put_object in H1. destruct (oid_new o) as [o'|e] eqn:Eo.
          { apply oid_new_iff in Eo as [_ Eo]. done. }
          apply calls_ret in H1 as [-> [= -> ->]]. split; [done|]. split; [done|]. destruct (oid_new_no _ _ Eo) as [Hc _].
          apply speaks_error; [done|]. unfold oid_new in Eo. destruct (oid_valid o); [done|]. by injection Eo as <-. }
      destruct HT as (-> & -> & Hs). eapply HR; [apply took_nil|]. left. split; [|done]. eapply good_plain; [exact Hs|].
      by eapply re_turned.
    - exfalso. apply Hnq. rewrite Hq. by destruct m. }
  destruct (decide (ws = [bs "quit"])) as [Hq|Hq].
  - clear Hcmd. assert (Ed : dispatch ws m = CQuit) by (rewrite Hq; by destruct m). destruct b as [|b0 b1]; [done|]. fold ws in H. rewrite Ed in H.
    apply calls_bind in H as (t1 & t2 & r & -> & H1 & [-> ->]%calls_ret). destruct r as [[]|e]; [|done]. left. rewrite app_nil_r.
    assert (Hc : 200%N ∈ codes) by (by apply is_code). destruct (c_answer fuel st_success t1 Hc H1) as (A1 & A2 & A3 & A4). cbn in A3. destruct Ht0 as [Th Td].
    destruct (A4 (Reply 200 [] BNone)) as (ps & P1 & P2); [by apply (sd_none 200 None)|].
    exists (b0 :: b1), ws, ps. rewrite reads_app, deeds_app, spoken_app, A1, A3, Td, (silent_spoken _ Hs0), app_nil_r. cbn [app].
    split_and!; try done. apply Forall_app. split; [by apply silent_well|done].
  - assert (Hnq : dispatch ws m <> CQuit).
    { intros E. destruct (words_cases m ws) as [(q & Ha & Hn)|[(code & t & Hta)|?]]; [apply Hsay| | |done].
      - rewrite (named_dispatch _ _ _ Ha Hn) in E. by destruct q.
      - destruct (turned_dispatch _ _ _ _ Hta) as [Hd|(o & Hd & _)]; rewrite E in Hd; done. }
    apply Hcmd; [done|]. destruct b as [|b0 b1]; [done|]. fold ws in H. destruct (dispatch ws m); try exact H. done.
Qed.
End round.
