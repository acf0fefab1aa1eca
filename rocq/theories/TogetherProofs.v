(** A session next to other servers. *)
From Verif Require Import Bytes ByteFacts Err FS Prog Pktline Args Local Processor Transfer Wp Rg Rgt PktFacts ReaderFacts
  Spec SpecStore SpecServer SpecSecret SpecLock SpecTogether FsFacts ServerEv PktProofs TextProofs IoFacts ObjProofs StoreProofs GetProofs
  SeqIo SeqFs SeqCmd Session LossyFacts Shape RgtSound TogetherCmd.
From stdpp Require Import relations sorting.

Local Arguments parse_header : simpl never.
Local Opaque COPY_BUF pk MAX_PACKET_LEN.

Lemma ending_inv rest extra : ending rest extra ->
  (rest = [] /\ extra = []) \/ exists w junk, wire (PData (bs "quit" ++ [NL])) w /\ rest = w ++ junk /\ extra = [Reply 200 [] BNone].
Proof. intros [|w junk Hw]; [by left|]. right. by exists w, junk. Qed.

Section proofs.
Context (en : env) (m : mode) (lfs : path) (umask : N) (i fuel n0 : nat).
Context (HH : digest (en_hash en)) (Hlfs : Forall plain_name lfs).
Context (ps : list (proc (Z * bytes))) (s0 : fs) (cs : list choice).
Context (inp0 : bytes) (reqs : list request) (extra : list reply).
Context (mild_some : exists o, mild None (shown cs i) o).
Local Notation H := (en_hash en).
Local Notation y0 := (Sys ps s0).
Local Notation be := (Backend lfs umask None).
Local Notation shown := (shown cs i).
Local Notation ok := (mild None shown).
Local Notation R := (rel H lfs n0 any_oid i).
Local Notation I := (always H lfs n0).
Local Notation V := (at_ ps s0 cs i).
Local Notation obj o := (expected_path lfs o).
Local Notation now := (now lfs y0 cs i).
Local Notation moment := (moment y0 cs i).
Local Notation reads := (reads en y0 cs i).
Local Notation lock_right := (lock_right en m lfs y0 cs i).
Local Notation seen := (seen m lfs y0 cs i).
Local Notation right := (right en m lfs y0 cs i).
Local Notation told := (told en m lfs y0 cs i).
Local Notation so_far := (so_far en m lfs y0 cs i inp0 reqs extra).
Local Notation frozen := (frozen lfs n0).
Local Notation owns := (owns lfs n0 i).

Lemma mild_nf o : ok o -> no_fault o.
Proof using Type. by intros []. Qed.

Definition J (out : bytes) (t : nat) : Prop := so_far out t False.
Local Notation F := (gives_up en lfs y0 cs i fuel reqs).
Local Notation RGT := (rgt i ok R I V J F).

Lemma J_mono w t t' : (t <= t')%nat -> J w t -> J w t'.
Proof using Type.
  intros Ht (caps & asked & later & as_ & k & inp & w0 & qs & we & H1 & H2 & H3 & H4 & H5).
  exists caps, asked, later, as_, k, inp, w0, qs, we. split_and!; try done; try apply H5. lia.
Qed.
Lemma J_prefix w w' t : J (w ++ w') t -> J w t.
Proof using Type.
  intros (caps & asked & later & as_ & k & inp & w0 & qs & we & H1 & H2 & H3 & H4 & H5 & H6 & H7 & H8).
  exists caps, asked, later, as_, k, inp, w0, qs, we. split_and!; try done.
  etrans; [|exact H7]. by exists w'.
Qed.

(** [asked] has been answered by moment [k]. *)
Definition stage (asked later : list request) (k : nat) (inp out : bytes) : Prop :=
  exists caps as_, wires capabilities caps /\ reqs = asked ++ later /\ told inp0 caps asked as_ k inp out.

Lemma stage_J asked later k inp out out' t : stage asked later k inp out -> (k <= t)%nat -> out' `prefix_of` out -> J out' t.
Proof using Type.
  intros (caps & as_ & H1 & H2 & H3) Hk Hp. exists caps, asked, later, as_, k, inp, out, [], [].
  split_and!; try done; [by left|apply wires_nil|by rewrite app_nil_r].
Qed.
Lemma stage_more asked later k r wr tl out a k' qs : stage asked (r :: later) k (wr ++ tl) out ->
  wires (packets_of r) wr -> right tl out k r a k' -> reply_sent a qs ->
  stage (asked ++ [r]) later k' tl (out ++ enc_all qs).
Proof using Type.
  intros (caps & as_ & H1 & H2 & H3) Hw Hr Hq. exists caps, (as_ ++ [a]). split_and!; [done| |].
  - by rewrite <- app_assoc.
  - eapply told_more; [exact H3|exact Hw|exact Hr|exact Hq|]. apply wires_enc. by eapply reply_small.
Qed.

Lemma at_now t s M l : V t s l -> stored lfs s M -> now t M (l_in l) (l_out l).
Proof using Type. intros (Ht & <- & p & Hp & <-) HM. split; [done|]. split; [done|]. by exists p. Qed.

Lemma rel_dirs s s' : R s s' -> dirs s s'.
Proof using Type. by intros []. Qed.
Lemma rel_rely s s' : R s s' -> Rely H lfs n0 any_oid i s s'.
Proof using Type. by intros []. Qed.
Lemma dirs_lfs s s' : dirs s s' -> lfs_dirs s lfs -> lfs_dirs s' lfs.
Proof using Type. intros Hd. by apply dirs_mono. Qed.
Lemma lfs_st : Forall stays lfs.
Proof using Hlfs mild_some. by apply plain_stays_all. Qed.
Lemma frozen_rel j d s s' : R s s' -> frozen j d s -> frozen j d s'.
Proof using Type. intros Hr. eapply stable_rely; [apply stable_frozen|by apply rel_rely]. Qed.

(** ** Calls *)
Lemma rgt_ev (e : ev) (Q : resp e -> local -> nat -> fs -> Prop) l t s : shapely lfs e -> lfs_dirs s lfs -> J (l_out l) t ->
  (forall t1 s1 o, (t <= t1)%nat -> V t1 s1 l -> R s s1 -> I s1 -> ok o -> lfs_dirs s1 lfs ->
   let '(r, l', s2) := handle_ev i e o l s1 in
   V (S t1) s2 l' -> I s2 -> lfs_dirs s2 lfs -> dirs s1 s2 -> Q r l' (S t1) s2) ->
  RGT (call e) Q l t s.
Proof using Hlfs mild_some.
  intros He Hd HJ HQ. apply rgt_call; [done|]. intros t1 s1 o Ht Hv Hr Hi Ho.
  assert (Hd1 : lfs_dirs s1 lfs) by (by eapply dirs_lfs; [apply rel_dirs|]).
  specialize (HQ t1 s1 o Ht Hv Hr Hi Ho Hd1). pose proof (shapely_ok lfs lfs_st i e o l s1 He (proj2 Hi)) as [_ Hd2].
  destruct (handle_ev i e o l s1) as [[r l'] s2]. intros. apply HQ; try done. by eapply dirs_lfs.
Qed.

Lemma rgt_io {A} (p : prog A) (Q : A -> local -> Prop) l t s : all_ev io_ev p -> lfs_dirs s lfs ->
  wp i ok (fun f l' _ => F f /\ J (l_out l') t) p (fun a l' _ => Q a l' /\ J (l_out l') t) l s ->
  RGT p (fun a l' t' s' => Q a l' /\ (t <= t')%nat /\ J (l_out l') t' /\ lfs_dirs s' lfs) l t s.
Proof using mild_some.
  intros Hp Hd Hw. apply (rgt_lift i ok R I V J F J_mono J_prefix mild_some io_ev (fun s => lfs_dirs s lfs) p Q l t s s); try done.
  - intros e o l1 s1 s2 He _ H1 _. by rewrite (io_handle i e o l1 s2 s1).
  - intros s1 s2 Hr _. apply dirs_lfs. by apply rel_dirs.
Qed.

Lemma rgt_read_lines stop ls tl (Q : res (list bytes) -> local -> nat -> fs -> Prop) l t s :
  (length (l_in l) < fuel)%nat -> upto stop (lines ls) (l_in l) tl -> lfs_dirs s lfs -> J (l_out l) t ->
  (forall t' s', (t <= t')%nat -> J (l_out l) t' -> lfs_dirs s' lfs -> Q (Ok ls) (set_in tl l) t' s') ->
  RGT (read_to_type fuel stop) Q l t s.
Proof using mild_some.
  intros Hf Hin Hd HJ HQ. eapply rgt_mono; [|apply (rgt_io _ (fun a l' => a = Ok ls /\ l' = set_in tl l))].
  - intros a l' t' s' ((-> & ->) & H1 & H2 & H3). by apply HQ.
  - by apply rd_read_to_type.
  - done.
  - apply (nf_read_lines None shown i fuel _ stop ls tl); [done|done|]. done.
Qed.

Lemma rgt_args (kvs : list (bytes * bytes)) (Q : res argmap -> local -> nat -> fs -> Prop) l t s :
  args_ok kvs -> (forall a, (forall k v, a !! k = Some v <-> (k, v) ∈ kvs) -> Q (Ok a) l t s) ->
  RGT (or_panic (parse_args (map arg_line kvs))) Q l t s.
Proof using Type.
  intros [H1 H2] HQ. destruct (c09 kvs H1 H2) as (a & -> & Ha). apply rgt_ret. by apply HQ.
Qed.

(** ** Looking at objects *)
Lemma look_now s o M : I s -> lfs_dirs s lfs -> is_oid o -> stored lfs s M ->
  match M !! o with
  | Some d => resolve s (obj o) = inr (obj o) /\
              exists j, nodes s !! obj o = Some (NFile j) /\ fs_data j s = d /\ frozen j d s
  | None => resolve s (obj o) = inl ENOENT \/
            resolve s (obj o) = inr (obj o) /\ nodes s !! obj o = None
  end.
Proof using Hlfs mild_some.
  intros [Hi Hsh] Hd Ho HM. pose proof (look_at lfs Hlfs s (M !! o) o Hd (sh_sane _ _ Hsh) (sh_tree _ _ Hsh) (sh_obj _ _ Hsh o Ho)) as G.
  rewrite object_path_eq in G. specialize (G ltac:(intros d; rewrite <- object_path_eq, (HM o d); tauto) Ho).
  destruct (M !! o) as [d|]; [|done]. destruct G as (G1 & j & x & G2 & G3 & G4). split; [done|]. exists j.
  destruct (object_frozen _ _ _ _ _ _ Hi Ho G2) as (d' & Hf & _). pose proof Hf as (x' & Hx' & Hd' & _).
  assert (x' = x) as -> by congruence. subst d. split_and!; [done| |congruence].
  unfold fs_data, inode_at. by rewrite G3.
Qed.

Lemma obj_cons o : obj o <> [].
Proof using Type. rewrite <- object_path_eq. apply object_path_cons. Qed.

Lemma rgt_stat_object o (Q : iores (N * N) -> local -> nat -> fs -> Prop) l t s :
  is_oid o -> lfs_dirs s lfs -> J (l_out l) t ->
  (forall t1 s1 M, (t <= t1)%nat -> now t1 M (l_in l) (l_out l) -> lfs_dirs s1 lfs ->
     match M !! o with
     | Some d => forall u, Q (IOk (lenN d, u)) l (S t1) s1
     | None => Q (IErr ENOENT) l (S t1) s1
     end) ->
  RGT (call (EStat (obj o))) Q l t s.
Proof using Hlfs mild_some.
  intros Ho Hd HJ HQ. apply rgt_ev; [done|done|done|]. intros t1 s1 or Ht Hv Hr Hi [Hor _] Hd1.
  cbn [handle_ev]. unfold faulty. rewrite Hor. intros _ _ _ _.
  destruct (stored_some lfs s1) as [M HM]. specialize (HQ t1 s1 M Ht (at_now _ _ _ _ Hv HM) Hd1).
  pose proof (look_now s1 o M Hi Hd1 Ho HM) as G. unfold fs_stat. destruct (M !! o) as [d|].
  - destruct G as (-> & j & Hj & <- & _). rewrite node_at_cons, Hj by apply obj_cons. apply HQ.
  - destruct G as [->|[-> Hn]]; [done|]. by rewrite node_at_cons, Hn by apply obj_cons.
Qed.

Lemma rgt_open_object o (Q : iores handle -> local -> nat -> fs -> Prop) l t s :
  is_oid o -> lfs_dirs s lfs -> J (l_out l) t ->
  (forall t1 s1 M, (t <= t1)%nat -> now t1 M (l_in l) (l_out l) -> lfs_dirs s1 lfs ->
     match M !! o with
     | Some d => forall j, frozen j d s1 -> Q (IOk (HFile j)) l (S t1) s1
     | None => Q (IErr ENOENT) l (S t1) s1
     end) ->
  RGT (call (EOpen (obj o))) Q l t s.
Proof using Hlfs mild_some.
  intros Ho Hd HJ HQ. apply rgt_ev; [done|done|done|]. intros t1 s1 or Ht Hv Hr Hi [Hor _] Hd1.
  cbn [handle_ev]. unfold faulty. rewrite Hor. intros _ _ _ _.
  destruct (stored_some lfs s1) as [M HM]. specialize (HQ t1 s1 M Ht (at_now _ _ _ _ Hv HM) Hd1).
  pose proof (look_now s1 o M Hi Hd1 Ho HM) as G. unfold fs_open. destruct (M !! o) as [d|].
  - destruct G as (-> & j & Hj & _ & Hf). rewrite node_at_cons, Hj by apply obj_cons. by apply HQ.
  - destruct G as [->|[-> Hn]]; [done|]. by rewrite node_at_cons, Hn by apply obj_cons.
Qed.

(** ** Outcomes *)

(** The file to be sent, if any, will not change. *)
Definition still (st : status) (c : option (nat * bytes)) (s : fs) : Prop :=
  match c with
  | Some (j, d) => st_reader st = Some (HFile j) /\ frozen j d s
  | None => st_reader st = None
  end.
Definition ready (st : status) (a : reply) (c : option (nat * bytes)) (s : fs) : Prop := still st c s /\ sends s st a.

Lemma ready_move st a c s s' : (forall j d, frozen j d s -> frozen j d s') -> ready st a c s -> ready st a c s'.
Proof using Type.
  intros Hf [H1 (H2 & H3 & H4 & H5)]. split.
  - destruct c as [[j d]|]; [|done]. destruct H1 as [H1 H1']. split; [done|]. by apply Hf.
  - split_and!; try done. destruct (rp_body a) as [| |d|]; try done. destruct H5 as (H5 & j & x & Hj & Hx & Hd).
    split; [done|]. destruct c as [[j' d']|]; simpl in H1; [|congruence]. destruct H1 as [H1 H1'].
    assert (j' = j) as -> by congruence. pose proof H1' as (x1 & Hx1 & Hd1 & _).
    assert (x1 = x) as -> by congruence. destruct (Hf _ _ H1') as (x2 & Hx2 & Hd2 & _). exists j, x2. split_and!; congruence.
Qed.
Lemma ready_rel st a c s s' : R s s' -> ready st a c s -> ready st a c s'.
Proof using Type. intros Hr. apply ready_move. intros j d. by apply frozen_rel. Qed.
Lemma ready_plain st a s : st_reader st = None -> sends s st a -> ready st a None s.
Proof using Type. by split. Qed.

(** Right whatever is stored. *)
Definition timeless (r : request) (a : reply) : Prop :=
  forall w, answer_of en m 0 (fun _ => False) w r a w.

Definition outcome (r : request) (k : nat) (tl : bytes) (l : local) (x : res status * rbuf) (l' : local) (t' : nat) (s' : fs) : Prop :=
  exists a c, l' = set_in tl l /\ rb_ok x.2 /\ lfs_dirs s' lfs /\ ready (status_of x.1) a c s' /\ J (l_out l) t' /\
    (k <= t')%nat /\ (timeless r a \/ exists k', right tl (l_out l) k r a k' /\ (k' <= t')%nat).

Definition together (r : request) (c : command) : Prop :=
  forall rb tl l t s k, lfs_dirs s lfs -> rb_ok rb -> (2 * length (l_in l) + 2 <= fuel)%nat ->
  given r (l_in l) tl -> J (l_out l) t -> (k <= t)%nat ->
  RGT (handle_command en be fuel c m rb) (outcome r k tl l) l t s.

Lemma outcome_400 r k tl l l' t e rb s : client_error (e_kind e) = true -> timeless r (refusal (display e)) ->
  lfs_dirs s lfs -> rb_ok rb -> J (l_out l) t -> (k <= t)%nat -> l' = set_in tl l -> outcome r k tl l (Er e, rb) l' t s.
Proof using Type.
  intros H1 H2 H3 H4 H5 H6 ->. exists (refusal (display e)), None. split_and!; try done; [|by left].
  apply ready_plain; [|by apply sends_error]. cbn [fst status_of]. unfold status_of_error. by destruct (client_error _).
Qed.

(** An answer that is right now and changes nothing. *)
Lemma outcome_now r a st M k tl l l' t1 t' rb s : about_objects r -> now t1 M tl (l_out l) -> (k <= t1)%nat -> (t1 < t')%nat ->
  answer_of en m 0 (fun _ => False) (only M) r a (only M) -> st_reader st = None -> sends s st a ->
  lfs_dirs s lfs -> rb_ok rb -> J (l_out l) t' -> l' = set_in tl l -> outcome r k tl l (Ok st, rb) l' t' s.
Proof using Type.
  intros H0 H1 H2 H2' H3 H4 H5 H6 H7 H8 ->. exists a, None. split_and!; try done; try lia.
  right. exists (S t1). split; [|lia]. eapply right_at; [exact H0|exact H2|exact H1|exact H3|by left].
Qed.

Lemma tg_version : together RVersion CVersion.
Proof using mild_some.
  intros rb tl l t s k Hd Hrb Hf Hin HJ Hk. cbn [handle_command]. apply rgt_bind. unfold p_version. apply rgt_bindR.
  apply (rgt_read_lines PFlush [] tl); [lia|done|done|done|]. intros t1 s1 Ht HJ1 Hd1.
  apply rgt_ret, rgt_ret. exists (Reply 200 [] (BLines [])), None. split_and!; try done; try lia.
  - apply ready_plain; [done|]. by apply (sends_lines s1 200 None), is_code.
  - left. intros M. constructor.
Qed.

Lemma J_S w t : J w t -> J w (S t).
Proof using Type. apply J_mono. lia. Qed.

Lemma tg_verify o kvs : well_formed m (RVerify o kvs) -> together (RVerify o kvs) (CVerify o).
Proof using Hlfs mild_some.
  intros (_ & Hargs & _) rb tl l t s k Hd Hrb Hf Hin HJ Hk. cbn [handle_command].
  apply rgt_bind. unfold p_verify_object. apply rgt_bindR.
  apply (rgt_read_lines PFlush (map arg_line kvs) tl); [lia|done|done|done|]. intros t1 s1 Ht HJ1 Hd1.
  assert (Hk1 : (k <= t1)%nat) by lia.
  apply rgt_bindR, (rgt_args kvs); [done|]. intros a Ha. apply rgt_bindR, rgt_ret.
  destruct (oid_new o) as [o'|e] eqn:Eo.
  2: { pose proof (oid_new_no _ _ Eo) as [E1 E2]. apply rgt_ret. apply outcome_400; try done. intros M.
       unfold oid_new in Eo. destruct (oid_valid o); [done|]. injection Eo as <-. by apply a_verify_oid. }
  apply oid_new_iff in Eo as [-> Ho]. unfold backend_verify, parse_value_as_integer.
  apply rgt_bindR, rgt_ret. destruct (a !! bs "size") as [b|] eqn:Eb.
  2: { apply rgt_ret. apply outcome_400; try done. intros M. apply a_verify_no_size; [done|]. by eapply no_key_none. }
  destruct (parse_integer b) as [n|e] eqn:En.
  2: { apply parse_number_er in En as (E1 & E2 & E3). apply rgt_ret. apply outcome_400; try done. intros M. rewrite E3.
       apply a_verify_number; [done|by apply Ha|done]. }
  apply parse_number in En. apply Ha in Eb. apply rgt_bind. cbn [be_lfs].
  apply (rgt_stat_object o); [done|done|done|].
  intros t2 s2 M Ht2 Hnow Hd2. cbn [l_in l_out set_in] in Hnow.
  assert (HJ2 : J (l_out l) (S t2)) by (eapply J_mono; [|exact HJ]; lia).
  destruct (M !! o) as [d|] eqn:Ed.
  - intros u. destruct (lenN d =? n)%N eqn:En'.
    + apply N.eqb_eq in En'. subst n. apply rgt_ret, rgt_ret.
      eapply (outcome_now _ (Reply 200 [] BNone)); [done|exact Hnow|lia|lia| |done| |done|done|done|done].
      * by eapply a_verify_ok.
      * by apply (sends_none s2 200 None), is_code.
    + apply N.eqb_neq in En'. apply rgt_ret, rgt_ret.
      eapply (outcome_now _ (Reply 409 [] (BText _))); [done|exact Hnow|lia|lia| |done| |done|done|done|done].
      * eapply a_verify_size; done || congruence.
      * by apply sends_fail, is_code.
  - rewrite decide_True by done. apply rgt_ret, rgt_ret.
    eapply (outcome_now _ (Reply 404 [] (BText _))); [done|exact Hnow|lia|lia| |done| |done|done|done|done].
    + by eapply a_verify_none.
    + by apply sends_fail, is_code.
Qed.

Lemma tg_get o kvs : well_formed m (RGet o kvs) -> together (RGet o kvs) (CGet o).
Proof using Hlfs mild_some.
  intros (_ & Hargs & _) rb tl l t s k Hd Hrb Hf Hin HJ Hk. cbn [handle_command].
  apply rgt_bind. unfold p_get_object. apply rgt_bindR.
  apply (rgt_read_lines PFlush (map arg_line kvs) tl); [lia|done|done|done|]. intros t1 s1 Ht HJ1 Hd1.
  assert (Hk1 : (k <= t1)%nat) by lia.
  apply rgt_bindR, (rgt_args kvs); [done|]. intros a Ha. apply rgt_bindR, rgt_ret.
  destruct (oid_new o) as [o'|e] eqn:Eo.
  2: { pose proof (oid_new_no _ _ Eo) as [E1 E2]. apply rgt_ret. apply outcome_400; try done. intros M.
       unfold oid_new in Eo. destruct (oid_valid o); [done|]. injection Eo as <-. by apply a_get_bad. }
  apply oid_new_iff in Eo as [-> Ho]. apply rgt_bind. unfold backend_download. apply rgt_bindR, rgt_io_call.
  cbn [be_lfs]. apply (rgt_open_object o); [done|done|done|].
  intros t2 s2 M Ht2 Hnow Hd2. cbn [l_in l_out set_in] in Hnow.
  assert (HJ2 : J (l_out l) (S t2)) by (eapply J_mono; [|exact HJ]; lia).
  destruct (M !! o) as [d|] eqn:Ed.
  - intros j Hfr. cbn [res_of_io]. apply rgt_bindR, rgt_io_call. apply rgt_ev; [done|done|done|].
    intros t3 s3 or Ht3 Hv3 Hr3 Hi3 [Hor _] Hd3. cbn [handle_ev]. unfold faulty. rewrite Hor. intros _ _ _ _.
    cbn [res_of_io fs_fstat]. apply (frozen_rel _ _ _ _ Hr3) in Hfr. pose proof Hfr as (x & Hx & Hxd & _).
    unfold fs_data, inode_at. rewrite Hx, Hxd. apply rgt_ret, rgt_ret, rgt_ret.
    exists (Reply 200 [bs "size=" ++ dec (lenN d) ++ [NL]] (BData d)), (Some (j, d)). split_and!; try done; try lia.
    + split; [done|]. cbn [fst status_of]. split; [by apply is_code|]. split; [done|]. split; [done|]. split; [done|]. exists j, x. done.
    + eapply J_mono; [|exact HJ]; lia.
    + right. exists (S t2). split; [|lia]. eapply right_at; [done| |exact Hnow|by apply a_get|by left]. lia.
  - cbn [res_of_io]. rewrite decide_True by done. apply rgt_ret, rgt_ret.
    eapply (outcome_now _ (Reply 404 [] (BText _))); [done|exact Hnow|lia|lia| |done| |done|done|done|done].
    + by eapply a_get_none.
    + by apply sends_fail, is_code.
Qed.

(** *** batch *)
Lemma rgt_batch (pr mi : bytes) :
  (forall b : bool, is_upload m = true -> (if b then pr else mi) = if b then bs "noop" else bs "upload") ->
  (forall b : bool, is_upload m = false -> (if b then pr else mi) = if b then bs "download" else bs "noop") ->
  forall os ns k (Q : list batch_item -> local -> nat -> fs -> Prop) l t s,
  Forall is_oid os -> length os = length ns -> lfs_dirs s lfs -> J (l_out l) t -> (k <= t)%nat ->
  (forall its ls k' t' s', seen (l_in l) (l_out l) k os ns ls k' -> (k' <= t')%nat -> (t <= t')%nat -> lfs_dirs s' lfs ->
     map (batch_out pr mi) its = ls -> Q its l t' s') ->
  RGT (backend_batch be (zip os ns)) Q l t s.
Proof using Hlfs mild_some.
  intros Hup Hdown. induction os as [|o os IH]; intros ns k Q l t s Hos Hlen Hd HJ Hk HQ; destruct ns as [|n ns]; try done.
  { apply rgt_ret. eapply (HQ [] []); [constructor|done|done|done|done]. }
  apply Forall_cons in Hos as [Ho Hos]. cbn [zip zip_with backend_batch]. apply rgt_bind. unfold size_at_path.
  apply rgt_bind. cbn [be_lfs]. apply (rgt_stat_object o); [done|done|done|].
  intros t1 s1 M Ht1 Hnow Hd1.
  assert (HJ1 : J (l_out l) (S t1)) by (eapply J_mono; [|exact HJ]; lia).
  assert (Hgo : forall mm, batch_out pr mi (BatchItem o (default n mm) (bool_decide (is_Some mm))) = batch_line_for m (only M) o n ->
    RGT (let! items := backend_batch be (zip os ns) in
         Ret (BatchItem o (default n mm) (bool_decide (is_Some mm)) :: items)) Q l (S t1) s1).
  { intros mm Emm. apply rgt_bind. apply (IH ns (S t1)); [done|by injection Hlen|done|done|done|].
    intros its ls k' t' s' Hseen Hk' Ht' Hd' Els. apply rgt_ret. eapply HQ; [|exact Hk'|lia|done|].
    - eapply seen_cons; [|exact Hnow|exact Hseen]. lia.
    - cbn [map]. by rewrite Emm, Els. }
  destruct (M !! o) as [d|] eqn:Ed.
  - intros u. apply rgt_ret, (Hgo (Some (lenN d))). unfold batch_out, batch_line_for. cbn [bi_oid bi_size bi_present w_objs only].
    rewrite Ed. cbn [default]. rewrite bool_decide_eq_true_2 by (by eexists).
    destruct m; [rewrite (Hup true eq_refl)|rewrite (Hdown true eq_refl)]; done.
  - apply rgt_ret, (Hgo None). unfold batch_out, batch_line_for. cbn [bi_oid bi_size bi_present w_objs only].
    rewrite Ed. cbn [default]. rewrite bool_decide_eq_false_2 by (by intros []).
    destruct m; [rewrite (Hup false eq_refl)|rewrite (Hdown false eq_refl)]; done.
Qed.

Lemma tg_batch kvs items : well_formed m (RBatch kvs items) -> together (RBatch kvs items) CBatch.
Proof using Hlfs mild_some.
  intros [Hargs Hitems] rb tl l t s k Hd Hrb Hf Hin HJ Hk. cbn [handle_command].
  destruct Hin as (tl1 & Hin1 & Hin2). pose proof (upto_shrink _ _ _ _ Hin1) as Hsh.
  apply rgt_bind.
  assert (Hgo : forall pr mi, (forall b : bool, is_upload m = true -> (if b then pr else mi) = if b then bs "noop" else bs "upload") ->
    (forall b : bool, is_upload m = false -> (if b then pr else mi) = if b then bs "download" else bs "noop") ->
    RGT (p_batch be fuel pr mi) (fun a => RGT (Ret (a, rb)) (outcome (RBatch kvs items) k tl l)) l t s).
  { intros pr mi Hup Hdown. unfold p_batch, read_batch. apply rgt_bindR, rgt_bindR.
    apply (rgt_read_lines PDelim (map arg_line kvs) tl1); [lia|done|done|done|]. intros t1 s1 Ht1 HJ1 Hd1.
    apply rgt_bindR, (rgt_args kvs); [done|]. intros a Ha.
    apply rgt_bindR. unfold read_to_flush_wrapped, read_to_flush. apply rgt_bind.
    apply (rgt_read_lines PFlush (map item_line items) tl); [cbn [l_in set_in]; lia|done|done|done|]. intros t2 s2 Ht2 HJ2 Hd2.
    apply rgt_ret. rewrite set_in_set_in.
    assert (exists ns, Forall2 (fun x n => number x.2 n) items ns) as [ns Hns].
    { clear -Hitems. induction Hitems as [|x items [_ [n Hn]] _ [ns IH]]; [by exists []|]. exists (n :: ns). by constructor. }
    assert (Hoid : Forall (fun x => is_oid x.1) items) by (eapply Forall_impl; [exact Hitems|]; by intros x []).
    assert (Hrun : (a !! bs "hash-algo" = None \/ a !! bs "hash-algo" = Some (bs "sha256")) ->
      RGT (let? oids := Ret (batch_lines (map item_line items)) in
          let! its := backend_batch be oids in Ret (Ok its))
        (fun r l' t' s' => match r with
          | Ok a0 => RGT (Ret (Ok (st_new_success (map (batch_out pr mi) a0)))) (fun a1 => RGT (Ret (a1, rb)) (outcome (RBatch kvs items) k tl l)) l' t' s'
          | Er e => RGT (Ret (Er e, rb)) (outcome (RBatch kvs items) k tl l) l' t' s' end) (set_in tl l) t2 s2).
    { intros Hh. apply rgt_bindR, rgt_ret. rewrite (batch_lines_items items ns) by done.
      apply rgt_bind, (rgt_batch pr mi Hup Hdown items.*1 ns k); [by apply Forall_fmap| |done|done|lia|].
      { rewrite fmap_length. by eapply Forall2_length. }
      intros its ls k' t' s' Hseen Hk' Ht' Hd' Els. cbn [l_in l_out set_in] in Hseen. apply rgt_ret, rgt_ret, rgt_ret. rewrite Els.
      exists (Reply 200 [] (BLines ls)), None. split_and!; try done; try lia.
      - apply ready_plain; [done|]. by apply (sends_lines s' 200 None), is_code.
      - eapply J_mono; [|exact HJ]. lia.
      - right. exists k'. split; [|done]. eapply (right_batch _ _ _ _ _ _ _ _ _ _ _ _ (a !! bs "hash-algo")); [by apply key_lookup|done|done|done]. }
    destruct (a !! bs "hash-algo") as [x|] eqn:Ex.
    - case_decide as Hx.
      + apply Hrun. right. congruence.
      + apply rgt_ret, rgt_ret. apply outcome_400; try done; [|lia]. intros M. eapply a_batch_algo; [by apply Ha|done].
    - apply Hrun. by left. }
  destruct (is_upload m) eqn:Em; apply Hgo; intros b; congruence || by destruct b.
Qed.

(** *** put-object *)
Lemma rgt_drop tmp (Q : unit -> local -> nat -> fs -> Prop) l t s : lfs_dirs s lfs -> J (l_out l) t ->
  (forall t' s', (t <= t')%nat -> J (l_out l) t' -> lfs_dirs s' lfs -> Q tt l t' s') -> RGT (drop_temp tmp) Q l t s.
Proof using Hlfs mild_some.
  intros Hd HJ HQ. unfold drop_temp. apply rgt_bind, rgt_ev; [done|done|done|].
  intros t1 s1 or Ht Hv Hr Hi [Hor _] Hd1. cbn [handle_ev]. unfold faulty. rewrite Hor. unfold with_l.
  destruct (fs_unlink i tmp s1) as [r s2]. cbn [fst snd]. intros _ _ Hd2 _. apply rgt_ret, HQ; [lia| |done].
  eapply J_mono; [|exact HJ]. lia.
Qed.

Definition has_inode (fd : nat) (s : fs) : Prop := is_Some (inodes s !! fd).
Lemma has_inode_rel fd s s' : R s s' -> has_inode fd s -> has_inode fd s'.
Proof using Type.
  intros Hr. eapply (stable_rely H lfs n0 any_oid i (has_inode fd)); [|by apply rel_rely].
  intros j a b _ _ _ HG [x Hx]. destruct (gu_ino _ _ _ _ _ _ HG fd x Hx) as (x' & Hx' & _). by exists x'.
Qed.

Definition copies (fd : nat) (e : ev) : Prop :=
  match e with ERead _ => True | EWriteFd j _ => j = fd | _ => False end.
Lemma cp_copy_to_file f fd got rb : all_ev (copies fd) (copy_to_file f fd got rb).
Proof using Type.
  revert got rb. induction f as [|f IH]; intros got rb; cbn [copy_to_file]; [done|].
  apply all_ev_bind; [by apply rd_reader_read|]. intros [[[|c d]|e] rb']; try done.
  apply all_ev_bind; [by apply all_ev_call|]. intros [u|e]; [apply IH|done].
Qed.

Lemma rgt_copy tmp fd rb ds tl l t s : lfs_dirs s lfs -> rb_ok rb -> J (l_out l) t -> owns tmp fd [] s ->
  (length (concat ds) + length (l_in l) + 1 < fuel)%nat -> datas (l_in l) ds (Ok tt) tl ->
  RGT (copy_to_file fuel fd [] rb) (fun x l' t' s' => x.1 = Ok (concat ds) /\ rb_ok x.2 /\ l' = set_in tl l /\
    (t <= t')%nat /\ J (l_out l) t' /\ lfs_dirs s' lfs /\ owns tmp fd (concat ds) s') l t s.
Proof using Hlfs mild_some.
  intros Hd [Hrb1 Hrb2] HJ Hown Hf Hin. eapply rgt_mono.
  2: { eapply (rgt_rg i ok R I V J F (Guar lfs n0 any_oid i) (Rely H lfs n0 any_oid i) (Inv H lfs n0)).
       - apply rel_rely.
       - by intros s' [].
       - apply (rg_copy_to_file H lfs n0 any_oid lfs_st i fuel tmp fd [] rb l s Hown).
       - apply (rgt_lift i ok R I V J F J_mono J_prefix mild_some (copies fd) (fun s => lfs_dirs s lfs /\ has_inode fd s) _
           (fun x l' => x.1 = Ok (concat ds) /\ rb_ok x.2 /\ l' = set_in tl l) l t s s).
         + intros e o l1 s1 s2 He [Ho _] [H1 [x1 H1']] [H2 [x2 H2']]. destruct e; try done; cbn [handle_ev].
           * unfold faulty. rewrite Ho. destruct (do_read n l1). cbn [fst snd]. split; [done|]. split; [done|]. by exists x1.
           * simpl in He. subst i0. rewrite Ho. unfold with_l, fs_write, inode_at. rewrite H1', H2'. cbn [fst snd].
             split; [done|]. split; [done|]. exists (append_data b x1). by apply inodes_upd_eq.
         + intros s1 s2 Hr _ [H1 H2]. split; [by eapply dirs_lfs; [apply rel_dirs|]|]. by eapply has_inode_rel.
         + apply cp_copy_to_file.
         + split; [done|]. destruct Hown as (_ & _ & _ & x & Hx & _). by exists x.
         + split; [done|]. destruct Hown as (_ & _ & _ & x & Hx & _). by exists x.
         + destruct Hown as (_ & _ & _ & x & Hx & _).
           eapply (nf_copy_to_file i ok _ mild_nf fuel fd [] rb ds (Ok tt) tl); [|done|done|exact Hx|].
           * rewrite Hrb2. simpl. lia.
           * intros rb' H1 H2. rewrite Hrb2. done. }
  intros [r rb'] l' t' s' [H1 ((H2 & H3 & H4) & H5 & H6 & H7 & _)]. cbn [fst snd] in *. subst r l'. done.
Qed.

Lemma easy_carry e o l s (P : fs -> Prop) : easy lfs e -> I s -> stable H lfs n0 any_oid i P -> P s -> P (handle_ev i e o l s).2.
Proof using Hlfs mild_some.
  intros He [Hi _] HP Hs. destruct (easy_ok H lfs n0 any_oid lfs_st i e o l s He Hi) as [Hi' HG].
  apply (HP (S i) s); try done; lia.
Qed.

(** An object's file, once there, stays. *)
Definition has_object (o : bytes) (s : fs) : Prop := exists j, nodes s !! obj o = Some (NFile j).
Lemma stable_object o : stable H lfs n0 any_oid i (has_object o).
Proof using Type.
  intros j s s' _ _ _ HG [k Hk]. destruct (gu_obj _ _ _ _ _ _ HG o) as [E|[[E _]|(_ & _ & k' & E)]].
  - exists k. congruence.
  - congruence.
  - by exists k'.
Qed.

Lemma stored_put s tmp o fd d x M : stored lfs s M -> is_oid o -> (exists c, tmp = (lfs ++ [bs "incomplete"]) ++ [c]) ->
  inodes s !! fd = Some x -> i_data x = d ->
  stored lfs (set_nodes (fun mm => <[obj o := NFile fd]> (delete tmp mm)) s) (<[o := d]> M).
Proof using Type.
  intros HM Ho [c ->] Hx Hd o' d'. unfold has_file. rewrite object_path_eq. cbn [nodes inodes set_nodes]. destruct (decide (o = o')) as [<-|Hne].
  - rewrite !lookup_insert. split.
    + intros [= <-]. split; [done|]. by exists fd, x.
    + intros (_ & j & y & [= <-] & Hy & <-). congruence.
  - rewrite lookup_insert_ne by done. rewrite lookup_insert_ne by (intros E; by apply expected_path_inj in E).
    rewrite lookup_delete_ne by apply inc_obj. rewrite (HM o' d'). unfold has_file. by rewrite object_path_eq.
Qed.

Lemma rgt_finish o nm fd d (Q : res unit -> local -> nat -> fs -> Prop) l t s :
  is_oid o -> stays nm -> no_nul nm -> hex_encode (H d) = o -> lfs_dirs s lfs -> J (l_out l) t ->
  owns (lfs ++ [bs "incomplete"; nm]) fd d s ->
  (forall t1 M t' s', (t <= t1)%nat -> now t1 M (l_in l) (l_out l) -> now (S t1) (<[o := d]> M) (l_in l) (l_out l) ->
     (S t1 <= t')%nat -> lfs_dirs s' lfs -> Q (Ok tt) l t' s') ->
  RGT (finish_upload be (UploadState o (lfs ++ [bs "incomplete"; nm]))) Q l t s.
Proof using Hlfs mild_some.
  intros Ho H1 H2 Hh Hd HJ Hown HQ. unfold finish_upload. cbn [us_oid us_temp be_lfs].
  set (tmp := lfs ++ [bs "incomplete"; nm]) in *.
  assert (Etmp : tmp = (lfs ++ [bs "incomplete"]) ++ [nm]) by (unfold tmp; by rewrite <- app_assoc).
  set (x := take 2 o). set (y := take 2 (drop 2 o)).
  set (a := lfs ++ [bs "objects"; x]). set (b := lfs ++ [bs "objects"; x; y]).
  assert (Eb : b = a ++ [y]) by (unfold a, b; by rewrite <- app_assoc).
  assert (Ea : a = (lfs ++ [bs "objects"]) ++ [x]) by (unfold a; by rewrite <- app_assoc).
  assert (Ep : obj o = b ++ [o]) by (rewrite <- object_path_eq; unfold b, object_path; by rewrite <- app_assoc).
  replace (removelast (obj o)) with b by (by rewrite Ep, removelast_last).
  assert (Ho0 : bs "objects" ∈ [bs "objects"; bs "incomplete"; bs "tmp"; bs "locks"]) by (by constructor).
  (* the directories *)
  apply rgt_bind, rgt_ev; [split; [unfold b; rewrite app_length; simpl; lia|]; intros c [w E]; unfold b in E; rewrite <- app_assoc in E; by apply app_inv_head in E|done|done|].
  intros t1 s1 or Ht1 Hv1 Hr1 Hi1 [Hor1 _] Hd1.
  apply (stable_rely _ _ _ _ _ _ _ _ (stable_owns H lfs n0 any_oid i _ _ _) (rel_rely _ _ Hr1)) in Hown.
  pose proof (easy_carry (EMkdir b) or l s1 _ Logic.I Hi1 (stable_owns H lfs n0 any_oid i _ _ _) Hown) as Hown2.
  cbn [handle_ev] in *. unfold faulty in *. rewrite Hor1 in *. unfold with_l, fs_mkdir_all in *.
  destruct (sh_obj _ _ (proj2 Hi1) o Ho) as (_ & D2 & D3). fold x a in D2. fold x y b in D3.
  destruct (mkdirs_ok s1 [] b) as [s2 Es2].
  { intros c c' k Hc Ebc. simpl. intros E. destruct c' as [|w1 c' _] using rev_ind.
    { rewrite app_nil_r in Ebc. rewrite <- Ebc in E. by apply D3 in E. }
    rewrite Eb, app_assoc in Ebc. apply app_inj_tail in Ebc as [Ebc _].
    destruct c' as [|w2 c' _] using rev_ind.
    { rewrite app_nil_r in Ebc. rewrite <- Ebc in E. by apply D2 in E. }
    rewrite Ea, app_assoc in Ebc. apply app_inj_tail in Ebc as [Ebc _].
    rewrite (Hd1 _ Ho0 c c') in E by done. done. }
  rewrite Es2 in *. cbn [fst snd] in *. apply mkdirs_spec in Es2 as (_ & _ & _ & M2).
  assert (Hb2 : nodes s2 !! b = Some NDir) by (apply (M2 b []); [by intros [_ ?]%app_eq_nil|by rewrite app_nil_r]).
  assert (Ha2 : nodes s2 !! a = Some NDir) by (apply (M2 a [y]); [by intros [_ ?]%app_eq_nil|done]).
  clear M2. intros _ _ Hd2 _.
  assert (HJ2 : J (l_out l) (S t1)) by (eapply J_mono; [|exact HJ]; lia).
  assert (Hres : forall s', dirs s2 s' -> resolve s' (obj o) = inr (obj o)).
  { intros s' Hs'. pose proof (dirs_lfs _ _ Hs' Hd2) as Hd'. rewrite Ep. apply resolve_dirs.
    - rewrite <- Ep. apply obj_stays; [apply lfs_st|done].
    - rewrite <- Ep, <- object_path_eq. unfold object_path.
      destruct (oid_parts o Ho) as (_ & N1 & _ & N2 & _ & N3). apply Forall_app. split; [by apply lfs_no_nul|].
      repeat first [apply Forall_nil_2 | apply Forall_cons_2; [try done|]].
      unfold no_nul. refine (bool_decide_eq_true_1 _ _). by vm_compute.
    - rewrite Eb. apply dirs_to_app. rewrite Ea. split.
      + apply dirs_to_app. split.
        * apply is_dir_to. by apply Hd'.
        * rewrite <- Ea, node_at_cons by (by intros [_ ?]%app_eq_nil). by apply Hs'.
      + rewrite <- Ea, <- Eb, node_at_cons by (by intros [_ ?]%app_eq_nil). by apply Hs'. }
  (* into place *)
  apply rgt_bind, rgt_ev; [by exists o|done|done|].
  intros t3 s3 or3 Ht3 Hv3 Hr3 Hi3 [Hor3 _] Hd3.
  apply (stable_rely _ _ _ _ _ _ _ _ (stable_owns H lfs n0 any_oid i _ _ _) (rel_rely _ _ Hr3)) in Hown2.
  cbn [handle_ev]. unfold faulty. rewrite Hor3. unfold with_l.
  pose proof Hown2 as (_ & Hn & _ & z & Hz & _ & _ & Hzd).
  pose proof (rel_dirs _ _ Hr3) as Hdir3.
  assert (fs_rename tmp (obj o) s3 = (IOk tt, set_nodes (fun mm => <[obj o := NFile fd]> (delete tmp mm)) s3)) as ->.
  { unfold fs_rename, file_at, tmp. rewrite (resolve_in lfs Hlfs); [|done|apply in_incomplete|done|done].
    rewrite node_at_cons by (by intros [_ ?]%app_eq_nil). fold tmp. rewrite Hn, (Hres s3) by done.
    rewrite node_at_cons by apply obj_cons. destruct (sh_obj _ _ (proj2 Hi3) o Ho) as (D1 & _ & _). rewrite object_path_eq in D1.
    by destruct (nodes s3 !! obj o) as [[|]|]. }
  cbn [fst snd]. set (s4 := set_nodes _ s3). intros Hv4 Hi4 Hd4 Hdir4.
  destruct (stored_some lfs s3) as [M HM].
  pose proof (at_now _ _ _ _ Hv3 HM) as Hnow3.
  pose proof (at_now _ _ _ _ Hv4 (stored_put s3 tmp o fd d z M HM Ho (ex_intro _ nm Etmp) Hz Hzd)) as Hnow4.
  assert (Hob : has_object o s4) by (exists fd; unfold s4; simpl; by rewrite lookup_insert).
  assert (HJ4 : J (l_out l) (S t3)) by (eapply J_mono; [|exact HJ]; lia).
  (* its mode *)
  unfold fix_permissions. apply rgt_bindR, rgt_io_call, rgt_ev; [done|done|done|].
  intros t5 s5 or5 Ht5 Hv5 Hr5 Hi5 [Hor5 _] Hd5. cbn [handle_ev]. unfold faulty. rewrite Hor5. intros _ _ _ _.
  apply (stable_rely _ _ _ _ _ _ _ _ (stable_object o) (rel_rely _ _ Hr5)) in Hob as [j5 Hj5].
  assert (Hdir5 : dirs s2 s5) by (eapply dirs_trans; [exact Hdir3|]; eapply dirs_trans; [exact Hdir4|by apply rel_dirs]).
  unfold fs_stat. rewrite (Hres s5) by done. rewrite node_at_cons, Hj5 by apply obj_cons. cbn [res_of_io].
  apply rgt_io_call, rgt_ev; [done|done|eapply J_mono; [|exact HJ]; lia|].
  intros t6 s6 or6 Ht6 Hv6 Hr6 Hi6 [Hor6 _] Hd6. cbn [handle_ev]. unfold faulty. rewrite Hor6. unfold with_l, fs_chmod.
  assert (Hob : has_object o s5) by (by exists j5).
  apply (stable_rely _ _ _ _ _ _ _ _ (stable_object o) (rel_rely _ _ Hr6)) in Hob as [j6 Hj6].
  assert (Hdir6 : dirs s2 s6) by (eapply dirs_trans; [exact Hdir5|by apply rel_dirs]).
  rewrite (Hres s6) by done. rewrite node_at_cons, Hj6 by apply obj_cons. cbn [fst snd res_of_io].
  intros _ _ Hd7 _. eapply (HQ t3 M); [lia|exact Hnow3|exact Hnow4|lia|done].
Qed.

Lemma tg_put o kvs ds : well_formed m (RPut o kvs ds) -> together (RPut o kvs ds) (CPut o).
Proof using HH Hlfs mild_some.
  intros (_ & Hargs & Ho & (b & n & Hb & Hn) & Hds) rb tl l t s k Hd Hrb Hf (inp & Hin & Hi) HJ Hk. cbn [handle_command].
  unfold p_put_object. rewrite (proj2 (oid_new_iff o o)) by done.
  pose proof (upto_shrink _ _ _ _ Hin) as Hl. pose proof (datas_len _ _ _ _ Hi) as Hl2.
  apply rgt_bind, rgt_bindR.
  apply (rgt_read_lines PDelim (map arg_line kvs) inp); [lia|done|done|done|]. intros t1 s1 Ht1 HJ1 Hd1.
  apply rgt_bindR, (rgt_args kvs); [done|]. intros a Ha. apply rgt_ret.
  unfold size_from_arguments. rewrite (proj2 (Ha _ _) Hb), (proj2 (parse_number b n)) by done.
  apply rgt_bind. unfold start_upload. cbn [be_lfs]. apply rgt_bind, rgt_ev; [done|done|done|].
  intros t2 s2 or Ht2 Hv2 Hr2 Hi2 (Hor & Hsfx & _) Hd2. cbn [handle_ev]. unfold faulty. rewrite Hor. unfold with_l.
  pose proof (mktemp_ok H lfs n0 any_oid lfs_st i (l_uid (set_in inp l)) o (o_sfx or) s2 (proj1 Ho) (proj1 Hi2)) as [_ Hown].
  unfold fs_mktemp in *.
  destruct (resolve_dir lfs Hlfs s2 (bs "incomplete") Hd2 in_incomplete) as [E1 E2]. rewrite E1, E2 in *.
  destruct (temp_name o (o_sfx or) s2 (lfs ++ [bs "incomplete"]) Ho Hsfx) as [Hn1 Hn2].
  cbn [alloc fst snd] in *. set (nm := free_name s2 _ _) in *.
  assert (En : (lfs ++ [bs "incomplete"]) ++ [nm] = lfs ++ [bs "incomplete"; nm]) by (by rewrite <- app_assoc).
  rewrite En in *. intros _ _ Hd3 _.
  assert (HJ3 : J (l_out l) (S t2)) by (eapply J_mono; [|exact HJ]; lia).
  apply rgt_bind. eapply rgt_mono.
  2: { eapply (rgt_copy _ _ rb ds tl); [exact Hd3|done|exact HJ3|exact Hown|cbn [l_in set_in]; lia|exact Hi]. }
  intros [r rb'] l' t4 s4 (Hr & Hrb' & -> & Ht4 & HJ4 & Hd4 & Hown4). cbn [fst snd l_out set_in] in *. subst r.
  rewrite set_in_set_in. apply rgt_ret. cbn [us_temp].
  assert (Hbad : forall er, client_error (e_kind er) = true -> timeless (RPut o kvs ds) (refusal (display er)) ->
    RGT (let! _ := drop_temp (lfs ++ [bs "incomplete"; nm]) in Ret (Er er, rb')) (outcome (RPut o kvs ds) k tl l) (set_in tl l) t4 s4).
  { intros er Her Hno. apply rgt_bind, rgt_drop; [done|done|]. intros t' s' Ht' HJ' Hd'. apply rgt_ret.
    apply outcome_400; try done. lia. }
  destruct (lenN (concat ds) <? n)%N eqn:F1.
  { apply N.ltb_lt in F1. apply Hbad; [done|]. intros M. by eapply a_put_less. }
  destruct (n <? lenN (concat ds))%N eqn:F2.
  { apply N.ltb_lt in F2. apply Hbad; [done|]. intros M. by eapply a_put_more. }
  apply N.ltb_ge in F1, F2. assert (n = lenN (concat ds)) as -> by lia.
  rewrite (proj2 (oid_new_iff _ (hex_encode (H (concat ds))))); [|split; [done|apply hex_encode_is_oid, HH]].
  case_decide as Hne.
  { apply Hbad; [done|]. intros M. eapply a_put_other; [done|done|by apply hex_of_iff|done]. }
  apply rgt_bind. eapply rgt_finish; [done|exact Hn1|exact Hn2|exact Hne|done|done|exact Hown4|].
  intros t5 M t' s' Ht5 Hnow Hnow' Ht' Hd'. cbn [l_in l_out set_in] in *. apply rgt_ret.
  exists (Reply 200 [] BNone), None. split_and!; try done; try lia.
  - apply ready_plain; [done|]. by apply (sends_none s' 200 None), is_code.
  - eapply J_mono; [|exact HJ]. lia.
  - right. exists (S t5). split; [|done]. eapply (right_at _ _ _ _ _ _ _ _ _ _ M (<[o := concat ds]> M)); [done| |exact Hnow| |by right]; [lia|].
    apply (a_put _ _ _ _ (only M) o kvs ds b); [done|done|]. by apply hex_of_iff.
Qed.

(** ** Locks *)
Lemma at_moment t s l : V t s l -> moment t s (l_in l) (l_out l).
Proof using Type. intros (Ht & <- & p & Hp & <-). split; [done|]. split; [done|]. by exists p. Qed.
Lemma moment_at t s inp out : moment t s inp out -> shared (sys_run (take t cs) y0) = s.
Proof using Type. by intros (_ & ? & _). Qed.

Lemma lock_path_eq c : lock_path lfs c = lfs ++ [bs "locks"; c].
Proof using Type. unfold lock_path. by rewrite <- app_assoc. Qed.
Lemma lock_push c : plain_name c -> push_str (lock_dir be) c = lock_path lfs c.
Proof using Type. intros Hc. rewrite push_plain by done. by rewrite lock_path_eq. Qed.
Lemma lock_resolve c s : plain_name c -> lfs_dirs s lfs ->
  resolve s (lock_path lfs c) = inr (lock_path lfs c) /\ node_at s (lock_path lfs c) = nodes s !! lock_path lfs c.
Proof using Hlfs.
  intros Hc Hd. rewrite lock_path_eq. split.
  - apply (resolve_in lfs Hlfs); [done|apply in_locks|by apply plain_stays|by apply (plain_no_nul)].
  - apply node_at_cons. by intros [_ ?]%app_eq_nil.
Qed.
Lemma lock_is_file c s nd : I s -> nodes s !! lock_path lfs c = Some nd ->
  exists j x, nd = NFile j /\ inodes s !! j = Some x.
Proof using Type.
  intros [_ Hsh] Hn. rewrite lock_path_eq in Hn. pose proof (proj2 (sh_lock _ _ Hsh _ _ Hn)) as Hf.
  destruct nd as [|j]; [done|]. apply (sh_sane _ _ Hsh) in Hn. apply lookup_lt_is_Some in Hn as [x Hx]. by exists j, x.
Qed.
Lemma lock_file_at c s : I s -> plain_name c -> lfs_dirs s lfs ->
  file_at s (lock_path lfs c) =
  match nodes s !! lock_path lfs c with Some (NFile j) => inr (lock_path lfs c, j) | _ => inl ENOENT end.
Proof using Hlfs.
  intros Hi Hc Hd. unfold file_at. destruct (lock_resolve c s Hc Hd) as [-> ->].
  destruct (nodes s !! lock_path lfs c) as [nd|] eqn:E; [|done].
  by destruct (lock_is_file c s nd Hi E) as (j & x & -> & _).
Qed.
Lemma id_plain p : plain_name (lock_id H p).
Proof using HH. apply (lock_id_plain en HH). Qed.
Lemma temp_plain p : plain_name (lock_id H p ++ bs ".lock").
Proof using HH.
  apply (hash_plain H HH en p); [done|refine (bool_decide_eq_true_1 _ _); by vm_compute..].
Qed.

Lemma rgt_owner c (Q : bytes -> local -> nat -> fs -> Prop) l t s : plain_name c -> lfs_dirs s lfs -> J (l_out l) t ->
  (forall t1 s1 who, (t <= t1)%nat -> moment t1 s1 (l_in l) (l_out l) -> whose en s1 (lock_path lfs c) who ->
     lfs_dirs s1 lfs -> Q who l (S t1) s1) ->
  RGT (user_for_file en (lock_path lfs c)) Q l t s.
Proof using Hlfs mild_some.
  intros Hc Hd HJ HQ. unfold user_for_file. apply rgt_bind, rgt_ev; [done|done|done|].
  intros t1 s1 o Ht Hv Hr Hi [Ho _] Hd1. cbn [handle_ev]. unfold faulty. rewrite Ho. intros _ _ _ _. apply rgt_ret.
  unfold fs_stat. destruct (lock_resolve c s1 Hc Hd1) as [-> ->].
  apply (HQ t1 s1); [done|by apply at_moment| |done].
  destruct (nodes s1 !! lock_path lfs c) as [nd|] eqn:E; [|by constructor].
  destruct (lock_is_file c s1 nd Hi E) as (j & x & -> & Hx). unfold inode_at. rewrite Hx. by eapply who_file.
Qed.

(** What reading a lock gives. *)
Definition result_of (x : finding) : res (option lock) :=
  match x with
  | Gone => Ok None
  | Corrupt => Er (err_msg CorruptData (bs "invalid parsed lock"))
  | Lock_of p tm who => Ok (Some (Lock p tm who))
  end.

Lemma rgt_from_id c k (Q : res (option lock) -> local -> nat -> fs -> Prop) l t s :
  plain_name c -> lfs_dirs s lfs -> J (l_out l) t -> (k <= t)%nat ->
  (forall x k' s', reads (l_in l) (l_out l) k (lock_path lfs c) x k' -> (t <= k')%nat -> J (l_out l) k' -> lfs_dirs s' lfs ->
     Q (result_of x) l k' s') ->
  RGT (lock_from_id en be c) Q l t s.
Proof using Hlfs mild_some.
  intros Hc Hd HJ Hk HQ. unfold lock_from_id. rewrite lock_push by done.
  apply rgt_bind, rgt_ev; [done|done|done|].
  intros t1 s1 o1 Ht1 Hv1 Hr1 Hi1 [Ho1 _] Hd1. cbn [handle_ev]. unfold faulty. rewrite Ho1. intros _ _ _ _.
  assert (HJ1 : J (l_out l) (S t1)) by (eapply J_mono; [|exact HJ]; lia).
  unfold fs_open. destruct (lock_resolve c s1 Hc Hd1) as [-> ->].
  destruct (nodes s1 !! lock_path lfs c) as [nd|] eqn:E.
  2: { cbn [io_kind_of ENOENT]. rewrite decide_True by done. apply rgt_ret. apply (HQ Gone); [|lia|done|done].
       eapply reads_gone; [|by apply at_moment|done]. lia. }
  destruct (lock_is_file c s1 nd Hi1 E) as (j & x & -> & Hx).
  apply rgt_bindR, rgt_io_call, rgt_ev; [done|done|done|].
  intros t2 s2 o2 Ht2 Hv2 Hr2 Hi2 [Ho2 _] Hd2. cbn [handle_ev]. unfold faulty. rewrite Ho2. intros _ _ _ _.
  destruct (has_inode_rel j s1 s2 Hr2 (ex_intro _ x Hx)) as [x2 Hx2].
  cbn [fs_read_all res_of_io]. unfold fs_data, inode_at. rewrite Hx2.
  assert (HJ2 : J (l_out l) (S t2)) by (eapply J_mono; [|exact HJ]; lia).
  apply rgt_bind, rgt_owner; [done|done|done|]. intros t3 s3 who Ht3 Hm3 Hw Hd3.
  assert (HJ3 : J (l_out l) (S t3)) by (eapply J_mono; [|exact HJ]; lia).
  destruct (lock_parse (i_data x2)) as [[tm p]|] eqn:Ep; apply rgt_ret.
  - apply (HQ (Lock_of p tm who)); [|lia|done|done].
    eapply (reads_lock en y0 cs i _ _ k _ t1 s1 t2 s2 t3 s3 j (i_data x2)); try done; try lia; try by apply at_moment.
    + by exists x2.
    + by apply lock_parse_iff.
  - apply (HQ Corrupt); [|lia|done|done].
    eapply (reads_corrupt en y0 cs i _ _ k _ t1 s1 t2 s2 t3 j (i_data x2)); try done; try lia; try by apply at_moment.
    + by exists x2.
    + intros (tm & p & Hr). apply lock_parse_iff in Hr. congruence.
Qed.

(** A time that cannot be displayed. *)
Lemma reads_bad inp out k c p tm who k' r : reads inp out k (lock_path lfs c) (Lock_of p tm who) k' ->
  r ∈ reqs -> ~ about_objects r -> en_time en tm = None -> F PBadTime.
Proof using Type.
  intros Hr Hin Hab Ht. inversion Hr as [| |k1 s1 k2 s2 k3 s3 j d t0 p0 who0 A1 A2 A3 A4 A5 A6 A7 A8 A9 A10]; subst.
  eapply (gu_record _ _ _ _ _ _ _ r k1 k2 c j d); try done.
  - by rewrite (moment_at _ _ _ _ A4).
  - by rewrite (moment_at _ _ _ _ A6).
Qed.

Lemma rgt_from_path p k (Q : res (option lock) -> local -> nat -> fs -> Prop) l t s :
  lfs_dirs s lfs -> J (l_out l) t -> (k <= t)%nat ->
  (forall x k' s', reads (l_in l) (l_out l) k (lock_path lfs (lock_id H p)) x k' -> (t <= k')%nat -> J (l_out l) k' -> lfs_dirs s' lfs ->
     match x with
     | Gone => Q (Ok None) l k' s'
     | Lock_of p' tm who => if decide (p' = p) then Q (Ok (Some (Lock p tm who))) l k' s'
                            else forall e a, unusable p x a -> client_error (e_kind e) = true -> a = refusal (display e) -> Q (Er e) l k' s'
     | Corrupt => forall e a, unusable p x a -> client_error (e_kind e) = true -> a = refusal (display e) -> Q (Er e) l k' s'
     end) ->
  RGT (lock_from_path en be p) Q l t s.
Proof using Hlfs HH mild_some.
  intros Hd HJ Hk HQ. unfold lock_from_path. change (hash_for en p) with (lock_id H p).
  apply rgt_bind, (rgt_from_id _ k); [apply id_plain|done|done|done|]. intros x k' s' Hx Ht HJ' Hd'.
  specialize (HQ x k' s' Hx Ht HJ' Hd'). destruct x as [| |p' tm who]; cbn [result_of].
  - by apply rgt_ret.
  - apply rgt_ret. eapply HQ; [constructor|done|done].
  - cbn [lk_path]. destruct (decide (p' = p)) as [->|Hne].
    + rewrite decide_False by (by intros []). by apply rgt_ret.
    + rewrite decide_True by done. apply rgt_ret. eapply HQ; [by apply un_other|done|done].
Qed.

(** A file this server has made, with its contents. *)
Definition mine (fd : nat) (d : bytes) (s : fs) : Prop :=
  exists x, inodes s !! fd = Some x /\ i_creator x = i /\ i_data x = d.
Lemma mine_rel fd d s s' : R s s' -> mine fd d s -> mine fd d s'.
Proof using Type.
  intros Hr. eapply (stable_rely H lfs n0 any_oid i (mine fd d)); [|by apply rel_rely].
  intros j a b Hj _ _ HG (x & Hx & Hc & Hd). destruct (gu_ino _ _ _ _ _ _ HG fd x Hx) as (x' & Hx' & E1 & _ & _ & E2).
  exists x'. split_and!; [done|congruence|]. destruct E2 as [E2|(_ & E2 & _)]; congruence.
Qed.

Lemma rgt_clock (Q : Z -> local -> nat -> fs -> Prop) l t s : lfs_dirs s lfs -> J (l_out l) t ->
  (forall tm t1 s1, shown tm -> (t <= t1)%nat -> R s s1 -> lfs_dirs s1 lfs -> Q tm l (S t1) s1) -> RGT (timestamp be) Q l t s.
Proof using Hlfs mild_some.
  intros Hd HJ HQ. unfold timestamp. cbn [be_ts]. apply rgt_ev; [done|done|done|].
  intros t1 s1 o Ht Hv Hr Hi (_ & _ & Ho) Hd1. cbn [handle_ev]. intros _ _ _ _. apply HQ; try done. by apply Ho.
Qed.

Lemma rgt_lock_drop tmp (Q : unit -> local -> nat -> fs -> Prop) l t s : lfs_dirs s lfs -> J (l_out l) t ->
  (forall t' s', (t < t')%nat -> J (l_out l) t' -> lfs_dirs s' lfs -> Q tt l t' s') -> RGT (lockfile_drop tmp) Q l t s.
Proof using Hlfs mild_some.
  intros Hd HJ HQ. unfold lockfile_drop. apply rgt_bind, rgt_ev; [done|done|done|].
  intros t1 s1 or Ht Hv Hr Hi [Hor _] Hd1. cbn [handle_ev]. unfold faulty. rewrite Hor. unfold with_l.
  destruct (fs_unlink i tmp s1) as [r s2]. cbn [fst snd]. intros _ _ Hd2 _. apply rgt_ret, HQ; [lia| |done].
  eapply J_mono; [|exact HJ]. lia.
Qed.

Lemma rgt_lock_create p k (Q : res lock -> local -> nat -> fs -> Prop) l t s :
  lfs_dirs s lfs -> J (l_out l) t -> (k <= t)%nat ->
  (forall tm who k' s', shown tm -> (t <= k')%nat -> J (l_out l) k' -> lfs_dirs s' lfs ->
     (forall kvs r x, (bs "path", p) ∈ kvs -> (bs "refname", r) ∈ kvs -> en_time en tm = Some x ->
        lock_right (l_in l) (l_out l) k (RLock kvs) (Reply 201 (info_of en p x who) BNone) k') ->
     Q (Ok (Lock p tm who)) l k' s') ->
  (forall k1 s1 t' s', (k <= k1)%nat -> (k1 < t')%nat -> moment k1 s1 (l_in l) (l_out l) ->
     is_Some (nodes s1 !! temp_path H lfs p) \/ is_Some (nodes s1 !! lock_path lfs (lock_id H p)) ->
     J (l_out l) t' -> lfs_dirs s' lfs -> Q (Er (err_simple Conflict)) l t' s') ->
  (forall e k' t' s', (k' <= t')%nat -> (t <= t')%nat -> J (l_out l) t' -> lfs_dirs s' lfs -> client_error (e_kind e) = false -> e_kind e <> Conflict ->
     (forall kvs r, (bs "path", p) ∈ kvs -> (bs "refname", r) ∈ kvs ->
        lock_right (l_in l) (l_out l) k (RLock kvs) (Reply 500 [] (BText (bs "internal error: " ++ display e ++ [NL]))) k') ->
     Q (Er e) l t' s') ->
  RGT (lock_create en be p) Q l t s.
Proof using Hlfs HH mild_some.
  intros Hd HJ Hk HQ1 HQ2 HQ3. unfold lock_create. change (hash_for en p) with (lock_id H p).
  assert (Hnt : lockname lfs (temp_path H lfs p)) by (exists (lock_id H p ++ bs ".lock"); split; [apply temp_plain|done]).
  assert (Hnf : lockname lfs (lock_path lfs (lock_id H p))) by (exists (lock_id H p); split; [apply id_plain|done]).
  change (lock_temp be (lock_id H p)) with (temp_path H lfs p). change (lock_file be (lock_id H p)) with (lock_path lfs (lock_id H p)).
  assert (HJm : forall t', (t <= t')%nat -> J (l_out l) t') by (intros t' Ht'; eapply J_mono; [exact Ht'|done]).
  apply rgt_bind, rgt_clock; [done|done|]. intros tm t0 s0' Htm Ht0 _ Hd0.
  apply rgt_bind. unfold lockfile_write. apply rgt_bind, rgt_ev; [done|done|apply HJm; lia|].
  intros t1 s1 o1 Ht1 Hv1 Hr1 Hi1 [Ho1 _] Hd1. cbn [handle_ev]. unfold faulty. rewrite Ho1. unfold with_l, fs_create_new.
  destruct (lock_resolve _ s1 (temp_plain p) Hd1) as [E1 E2]. fold (temp_path H lfs p) in E1, E2. rewrite E1, E2.
  destruct (nodes s1 !! temp_path H lfs p) as [nd|] eqn:Et.
  { cbn [fst snd]. intros _ _ _ _. cbn [io_kind_of EEXIST]. rewrite decide_True by done. apply rgt_ret.
    apply rgt_bind, rgt_lock_drop; [done|apply HJm; lia|]. intros t' s' Ht' HJ' Hd'. apply rgt_ret.
    apply (HQ2 t1 s1); try done; try lia; [by apply at_moment|]. left. rewrite Et. by eexists. }
  cbn [alloc fst snd]. set (j := length (inodes s1)). set (s2 := set_nodes _ _). intros Hv2 Hi2 Hd2 _.
  assert (En2 : nodes s2 !! temp_path H lfs p = Some (NFile j)) by (unfold s2; simpl; by rewrite lookup_insert).
  assert (Hm2 : mine j [] s2).
  { exists (Inode [] (l_uid l) (N.ldiff 438 (l_umask l)) i false). split; [|done]. unfold s2. cbn [set_nodes inodes].
    rewrite lookup_app_r by (unfold j; lia). unfold j. by rewrite Nat.sub_diag. }
  clearbody s2.
  apply rgt_io_call, rgt_ev; [done|done|apply HJm; lia|].
  intros t2 s3 o2 Ht2 Hv3 Hr3 Hi3 [Ho2 _] Hd3. cbn [handle_ev]. rewrite Ho2. unfold with_l, fs_write.
  destruct (mine_rel _ _ _ _ Hr3 Hm2) as (x & Hx & Hxc & Hxd). unfold inode_at. rewrite Hx. cbn [fst snd res_of_io].
  set (s4 := upd_inode _ _ _). intros Hv4 Hi4 Hd4 _.
  assert (Hm4 : holds_text s4 j (record_of tm p)).
  { unfold s4, upd_inode. eexists. cbn [inodes]. rewrite list_lookup_alter, Hx. split; [done|]. simpl. by rewrite Hxd. }
  clearbody s4.
  apply rgt_bindR. unfold lockfile_persist. apply rgt_bind, rgt_ev; [done|done|apply HJm; lia|].
  intros t3 s5 o3 Ht3 Hv5 Hr5 Hi5 [Ho3 _] Hd5. cbn [handle_ev]. unfold faulty. rewrite Ho3. unfold with_l, fs_link.
  pose proof (lock_file_at _ s5 Hi5 (temp_plain p) Hd5) as Ef. fold (temp_path H lfs p) in Ef. rewrite Ef.
  assert (Hlost : nodes s5 !! temp_path H lfs p = None ->
    Q (Er (err_of_io ENOENT)) l (S t3) s5 -> True) by done. clear Hlost.
  destruct (nodes s5 !! temp_path H lfs p) as [nd|] eqn:Et5.
  2: { cbn [fst snd]. intros _ _ _ _. apply rgt_bind, rgt_lock_drop; [done|apply HJm; lia|]. intros t' s' Ht' HJ' Hd'.
       cbn [io_kind_of ENOENT]. rewrite decide_False by done. apply rgt_ret.
       apply (HQ3 _ (S t3)); try done; try lia. intros kvs r Hp Hr.
       eapply (lr_lost en m lfs y0 cs i _ _ k kvs p r _ t1 s1 t3 s5); try done; try lia; try by apply at_moment.
       by eexists. }
  destruct (lock_is_file _ s5 nd Hi5 Et5) as (j' & x' & -> & Hx'). 
  destruct (lock_resolve _ s5 (id_plain p) Hd5) as [-> ->].
  destruct (nodes s5 !! lock_path lfs (lock_id H p)) as [nd|] eqn:El5.
  { cbn [fst snd]. intros _ _ _ _. apply rgt_bind, rgt_lock_drop; [done|apply HJm; lia|]. intros t' s' Ht' HJ' Hd'.
    cbn [io_kind_of EEXIST]. rewrite decide_True by done. apply rgt_ret.
    apply (HQ2 t3 s5); try done; try lia; [by apply at_moment|]. right. rewrite El5. by eexists. }
  cbn [fst snd]. set (s6 := log _ _ _). intros Hv6 Hi6 Hd6 _.
  assert (En6 : nodes s6 !! lock_path lfs (lock_id H p) = Some (NFile j')) by (unfold s6; simpl; by rewrite lookup_insert).
  clearbody s6.
  apply rgt_bind, rgt_lock_drop; [done|apply HJm; lia|]. intros t4 s7 Ht4 HJ4 Hd7. apply rgt_ret.
  apply rgt_bind, rgt_owner; [apply id_plain|done|done|]. intros t5 s8 who Ht5 Hm8 Hwho Hd8.
  apply rgt_bind, rgt_clock; [done|apply HJm; lia|]. intros tm' t6 s9 Htm' Ht6 _ Hd9. apply rgt_ret.
  apply HQ1; [done|lia|apply HJm; lia|done|]. intros kvs r tx Hp Hr Hx6.
  eapply (lr_lock en m lfs y0 cs i _ _ k kvs p r tm tm' tx who j j' t1 s1 s2 t2 s4 t3 s5 s6 t5 s8 (S t6)); try done; try lia; try by apply at_moment.
Qed.

(** Descriptions. *)
Lemma rgt_as_arguments p tm who (Q : list bytes -> local -> nat -> fs -> Prop) l t s :
  J (l_out l) t -> (en_time en tm = None -> F PBadTime) ->
  (forall x, en_time en tm = Some x -> Q (info_of en p x who) l t s) ->
  RGT (as_arguments en (Lock p tm who)) Q l t s.
Proof using Type.
  intros HJ HF HQ. unfold as_arguments, formatted_timestamp. cbn [lk_time]. apply rgt_bind.
  destruct (en_time en tm) as [x|]; [|split; [by apply HF|done]]. apply rgt_ret, rgt_ret. by apply HQ.
Qed.
Lemma rgt_as_lock_spec p tm who (Q : list bytes -> local -> nat -> fs -> Prop) l t s :
  J (l_out l) t -> (en_time en tm = None -> F PBadTime) ->
  (forall x, en_time en tm = Some x -> Q (lines_of en m p x who) l t s) ->
  RGT (as_lock_spec en (is_upload m) (Lock p tm who)) Q l t s.
Proof using Type.
  intros HJ HF HQ. unfold as_lock_spec, formatted_timestamp. cbn [lk_time]. apply rgt_bind.
  destruct (en_time en tm) as [x|]; [|split; [by apply HF|done]]. apply rgt_ret, rgt_ret.
  specialize (HQ x eq_refl). unfold lines_of in HQ. unfold lk_id. cbn [lk_path lk_owner]. by destruct m.
Qed.

(** An answer to a request about locks. *)
Lemma outcome_lock r a st k k' tl l l' t' rb s : lock_right tl (l_out l) k r a k' -> (k <= t')%nat -> (k' <= t')%nat ->
  st_reader (status_of st) = None -> sends s (status_of st) a ->
  lfs_dirs s lfs -> rb_ok rb -> J (l_out l) t' -> l' = set_in tl l -> outcome r k tl l (st, rb) l' t' s.
Proof using Type.
  intros H1 H2 H3 H4 H5 H6 H7 H8 ->. exists a, None. split_and!; try done.
  right. exists k'. split; [by apply right_lock|done].
Qed.

Lemma tg_lock kvs : well_formed m (RLock kvs) -> RLock kvs ∈ reqs -> together (RLock kvs) CLock.
Proof using Hlfs HH mild_some.
  intros (_ & Hargs) Hin' rb tl l t s k Hd Hrb Hf Hin HJ Hk. cbn [handle_command].
  apply rgt_bind. unfold p_lock. apply rgt_bindR. unfold read_to_flush_wrapped, read_to_flush. apply rgt_bind.
  apply (rgt_read_lines PFlush (map arg_line kvs) tl); [lia|done|done|done|]. intros t1 s1 Ht1 HJ1 Hd1. apply rgt_ret.
  apply rgt_bindR, (rgt_args kvs); [done|]. intros a Ha.
  destruct (a !! bs "path") as [p|] eqn:Ep.
  2: { apply rgt_ret, rgt_ret. apply outcome_400; try done; [|lia]. intros w. apply a_lock_bad. left. by eapply no_key_none. }
  destruct (a !! bs "refname") as [rn|] eqn:En.
  2: { apply rgt_ret, rgt_ret. apply outcome_400; try done; [|lia]. intros w. apply a_lock_bad. right. by eapply no_key_none. }
  apply Ha in Ep, En. apply rgt_bind, (rgt_lock_create p k); [done|done|lia| | |].
  - intros tm who k' s' Htm Hk' HJ' Hd' Hright. apply rgt_bind, rgt_as_arguments; [done|by eapply gu_clock|].
    intros x Hx. apply rgt_ret, rgt_ret. specialize (Hright kvs rn x Ep En Hx).
    eapply (outcome_lock _ (Reply 201 (info_of en p x who) BNone) _ _ k'); try done; try lia.
    by apply (sends_none s' 201 (Some _)), is_code.
  - intros k1 s2 t2 s3 Hk1 Ht2 Hm1 Hth HJ2 Hd3. cbn [e_kind err_simple]. rewrite decide_True by done.
    apply rgt_bind, (rgt_from_path p (S k1)); [done|done|lia|]. intros x k' s' Hreads Hk' HJ' Hd'.
    assert (Hbad : forall e a', unusable p x a' -> client_error (e_kind e) = true -> a' = refusal (display e) ->
      RGT (Ret (Er e, rb)) (outcome (RLock kvs) k tl l) (set_in tl l) k' s').
    { intros e a' Hun He ->. apply rgt_ret. eapply (outcome_lock _ (refusal (display e)) _ _ k'); try done; try lia.
      - by eapply lr_lock_bad.
      - cbn [status_of]. unfold status_of_error. by destruct (client_error _).
      - by apply sends_error. }
    destruct x as [| |p' tm who].
    + split; [|done]. inversion Hreads as [k2 s4 A1 A2 A3| |]; subst.
      eapply (gu_race _ _ _ _ _ _ _ kvs p k1 k2); try done.
      * by rewrite (moment_at _ _ _ _ Hm1).
      * by rewrite (moment_at _ _ _ _ A2).
    + intros e a' Hun He E. apply rgt_ret. by eapply Hbad.
    + destruct (decide (p' = p)) as [->|Hne].
      * apply rgt_bind, rgt_as_arguments; [done| |].
        { intros Ex. eapply (reads_bad _ _ _ _ _ _ _ _ (RLock kvs)); [exact Hreads|done|tauto|done]. }
        intros x Hx. apply rgt_ret, rgt_ret.
        eapply (outcome_lock _ (Reply 409 (info_of en p x who) (BText (bs "conflict" ++ [NL]))) _ _ k'); try done; try lia.
        -- by eapply lr_held.
        -- split_and!; try done. by apply is_code.
      * intros e a' Hun He E. apply rgt_ret. by eapply Hbad.
  - intros e k' t' s' Hk' Ht' HJ' Hd' He Hc Hright. rewrite decide_False by done. apply rgt_ret, rgt_ret.
    eapply (outcome_lock _ (Reply 500 [] (BText (bs "internal error: " ++ display e ++ [NL]))) _ _ k'); try done; try lia.
    + by apply Hright with rn.
    + cbn [status_of]. unfold status_of_error. by destruct (client_error _).
    + cbn [status_of]. unfold status_of_error. rewrite He. by apply sends_fail, is_code.
Qed.

Lemma tg_unlock id kvs : well_formed m (RUnlock id kvs) -> RUnlock id kvs ∈ reqs -> together (RUnlock id kvs) (CUnlock id).
Proof using Hlfs HH mild_some.
  intros (_ & Hargs & _ & Hid) Hin' rb tl l t s k Hd Hrb Hf Hin HJ Hk. cbn [handle_command].
  apply rgt_bind. unfold p_unlock. apply rgt_bindR. unfold read_to_flush.
  apply (rgt_read_lines PFlush (map arg_line kvs) tl); [lia|done|done|done|]. intros t1 s1 Ht1 HJ1 Hd1.
  destruct (utf8_valid id) eqn:Eu.
  2: { apply rgt_ret, rgt_ret. apply outcome_400; try done; [|lia]. intros w. by apply a_unlock_bad. }
  apply rgt_bind, (rgt_from_id id k); [done|done|done|lia|]. intros x k1 s2 Hreads Hk1 HJ2 Hd2. cbn [l_in l_out set_in] in *.
  destruct x as [| |p tm who]; cbn [result_of].
  - apply rgt_ret, rgt_ret. eapply (outcome_lock _ not_found _ _ k1); try done; try lia.
    + by apply lr_unlock_none.
    + by apply sends_fail, is_code.
  - apply rgt_ret, rgt_ret. eapply (outcome_lock _ (refusal bad_record) _ _ k1); try done; try lia.
    + by apply lr_unlock_corrupt.
    + by apply (sends_error s2 (err_msg CorruptData (bs "invalid parsed lock"))).
  - apply rgt_bind, rgt_as_arguments; [done| |].
    { intros Ex. eapply (reads_bad _ _ _ _ _ _ _ _ (RUnlock id kvs)); [exact Hreads|done|tauto|done]. }
    intros tx Hx. apply rgt_bind. unfold lock_unlock. unfold lk_id. cbn [lk_path].
    change (lock_file be (hash_for en p)) with (lock_path lfs (lock_id H p)).
    apply rgt_io_call, rgt_ev; [done|done|done|].
    intros t2 s3 o Ht2 Hv3 Hr3 Hi3 [Ho _] Hd3. cbn [handle_ev]. unfold faulty. rewrite Ho. unfold with_l, fs_unlink.
    rewrite (lock_file_at _ s3 Hi3 (id_plain p) Hd3).
    assert (HJ3 : J (l_out l) (S t2)) by (eapply J_mono; [|exact HJ]; lia).
    destruct (nodes s3 !! lock_path lfs (lock_id H p)) as [nd|] eqn:En.
    + destruct (lock_is_file _ s3 nd Hi3 En) as (j & y & -> & Hy). cbn [fst snd res_of_io].
      set (s4 := log _ _ _). intros Hv4 Hi4 Hd4 _.
      assert (En4 : nodes s4 !! lock_path lfs (lock_id H p) = None) by (unfold s4; simpl; by rewrite lookup_delete).
      clearbody s4. apply rgt_ret, rgt_ret.
      eapply (outcome_lock _ (Reply 200 (info_of en p tx who) BNone) _ _ (S t2)); try done; try lia.
      * eapply (lr_unlock en m lfs y0 cs i _ _ k id kvs p tm tx who k1 t2 s3 s4); try done; [|by eexists|].
        -- by apply (at_moment t2 s3 (set_in tl l)).
        -- by apply (at_moment (S t2) s4 (set_in tl l)).
      * by apply (sends_none s4 200 (Some _)), is_code.
    + cbn [fst snd res_of_io]. intros _ _ _ _. rewrite decide_True by done. apply rgt_ret, rgt_ret.
      eapply (outcome_lock _ not_found _ _ (S t2)); try done; try lia.
      * eapply (lr_unlock_late en m lfs y0 cs i _ _ k id kvs p tm tx who k1 t2 s3); try done.
        by apply (at_moment t2 s3 (set_in tl l)).
      * by apply sends_fail, is_code.
Qed.

(** *** list-lock *)
Definition lock_of_item (x : bytes * Z * bytes) : lock := let '(p, tm, who) := x in Lock p tm who.

Lemma from_cursor_in c ls x : x ∈ from_cursor en c ls -> x ∈ ls.
Proof using Type.
  induction ls as [|[[p tm] who] ls IH]; [by destruct c|]. destruct c as [c|]; cbn [from_cursor]; [|done].
  destruct (blt _ c); [|done]. intros Hx. right. by apply IH.
Qed.
Lemma visits_bad inp out k names xs k' r p tm who : visits en lfs y0 cs i inp out k names xs k' -> r ∈ reqs -> ~ about_objects r ->
  (p, tm, who) ∈ locks_found xs -> en_time en tm = None -> F PBadTime.
Proof using Type.
  intros Hv Hr Hab Hx Ht. induction Hv as [|k k1 k2 f fs x xs Hrd _ IH]; [by apply elem_of_nil in Hx|].
  unfold locks_found in Hx. cbn [omap list_omap] in Hx.
  destruct x as [| |p' t' w']; [by apply IH..|]. apply elem_of_cons in Hx as [[= -> -> ->]|Hx]; [|by apply IH].
  by eapply reads_bad.
Qed.

Lemma rgt_collect cursor : forall (names : list name) (skip : bool) (n k : nat) (Q : list lock -> local -> nat -> fs -> Prop) l t s,
  Forall plain_name names -> lfs_dirs s lfs -> J (l_out l) t -> (k <= t)%nat ->
  (forall now_ later xs ls k' t' s', names = now_ ++ later -> visits en lfs y0 cs i (l_in l) (l_out l) k now_ xs k' ->
     ls = (if skip then from_cursor en cursor (locks_found xs) else locks_found xs) ->
     (length ls <= n)%nat -> later = [] \/ length ls = n -> (t <= t')%nat -> (k' <= t')%nat -> J (l_out l) t' -> lfs_dirs s' lfs ->
     Q (map lock_of_item ls) l t' s') ->
  RGT (collect_locks en be cursor names skip n) Q l t s.
Proof using Hlfs mild_some.
  induction names as [|f names IH]; intros skip n k Q l t s Hpl Hd HJ Hk HQ.
  { assert (G : RGT (Ret ([] : list lock)) Q l t s).
    { apply rgt_ret. apply (HQ [] [] [] [] k); [done|constructor|by destruct skip, cursor|simpl; lia|by left|lia|lia|done|done]. }
    destruct n; exact G. }
  destruct n as [|n].
  { apply rgt_ret. apply (HQ [] (f :: names) [] [] k); [done|constructor|by destruct skip, cursor|simpl; lia|by right|lia|lia|done|done]. }
  apply Forall_cons in Hpl as [Hf Hpl]. cbn [collect_locks].
  apply rgt_bind, (rgt_from_id (utf8_lossy f) k); [by apply lossy_plain|done|done|done|].
  intros x k1 s1 Hrd Hk1 HJ1 Hd1.
  assert (Hskip : forall (skip' : bool) (ys : list (bytes * Z * bytes)), (forall xs : list finding, (if skip then from_cursor en cursor (locks_found (x :: xs)) else locks_found (x :: xs)) =
      ys ++ (if skip' then from_cursor en cursor (locks_found xs) else locks_found xs)) -> (length ys <= S n)%nat ->
    RGT (collect_locks en be cursor names skip' (S n - length ys)) (fun ls => Q (map lock_of_item ys ++ ls)) l k1 s1).
  { intros skip' ys Hys Hlen. apply (IH skip' _ k1); [done|done|done|done|].
    intros now_ later xs ls k' t' s' -> Hv -> Hl1 Hl2 Ht' Hk' HJ' Hd'. rewrite <- map_app.
    apply (HQ (f :: now_) later (x :: xs) _ k'); try done; try lia.
    - by eapply vi_cons.
    - rewrite app_length. lia.
    - rewrite app_length. destruct Hl2 as [?|Hl2]; [by left|right]. lia. }
  assert (Hno : locks_found [x] = [] -> RGT (collect_locks en be cursor names skip (S n)) Q l k1 s1).
  { intros E. eapply rgt_mono; [|apply (Hskip skip []); [|simpl; lia]]; [done|].
    intros xs. change (x :: xs) with ([x] ++ xs). unfold locks_found in *. rewrite omap_app, E. done. }
  destruct x as [| |p tm who]; cbn [result_of]; [by apply Hno..|].
  unfold lk_id. cbn [lk_path]. change (hash_for en p) with (lock_id H p).
  destruct (skip && match cursor with Some c => blt (lock_id H p) c | None => false end) eqn:Es.
  - apply andb_true_iff in Es as [-> Es]. destruct cursor as [c|]; [|done].
    eapply rgt_mono; [|apply (Hskip true []); [|simpl; lia]]; [done|]. intros xs.
    unfold locks_found. cbn [omap list_omap from_cursor]. by rewrite Es.
  - apply rgt_bind. pose proof (Hskip false [(p, tm, who)]) as G. cbn [length] in G. replace (S n - 1)%nat with n in G by lia.
    eapply rgt_mono; [|apply G; [|lia]].
    + intros ls l' t' s' HQ'. by apply rgt_ret.
    + intros xs. unfold locks_found. cbn [omap list_omap]. destruct skip; [|done]. cbn [from_cursor].
      destruct cursor as [c|]; [|done]. simpl in Es. by rewrite Es.
Qed.

Lemma rgt_specs : forall (ls : list (bytes * Z * bytes)) (Q : list bytes -> local -> nat -> fs -> Prop) l t s,
  J (l_out l) t -> (forall p tm who, (p, tm, who) ∈ ls -> en_time en tm = None -> F PBadTime) ->
  (forall out, list_lines en m ls out -> Q out l t s) ->
  RGT (lock_specs en (is_upload m) (map lock_of_item ls)) Q l t s.
Proof using Type.
  induction ls as [|[[p tm] who] ls IH]; intros Q l t s HJ HF HQ.
  { apply rgt_ret, HQ. constructor. }
  cbn [map lock_of_item lock_specs]. apply rgt_bind, rgt_as_lock_spec; [done| |].
  { apply (HF p tm who). by left. }
  intros x Hx. apply rgt_bind, IH; [done| |].
  - intros p' t' w' Hin. apply (HF p' t' w'). by right.
  - intros out Hout. apply rgt_ret, HQ. by constructor.
Qed.

Lemma tg_list kvs : well_formed m (RList kvs) -> RList kvs ∈ reqs -> together (RList kvs) CListLock.
Proof using Hlfs HH mild_some.
  intros Hargs Hin' rb tl l t s k Hd Hrb Hf Hin HJ Hk. cbn [handle_command].
  apply rgt_bind. unfold p_list_locks. apply rgt_bindR. unfold read_to_flush_wrapped, read_to_flush. apply rgt_bind.
  apply (rgt_read_lines PFlush (map arg_line kvs) tl); [lia|done|done|done|]. intros t1 s1 Ht1 HJ1 Hd1. apply rgt_ret.
  apply rgt_bindR, (rgt_args kvs); [done|]. intros a Ha. apply rgt_bindR, rgt_ret.
  assert (Hlim : match match a !! bs "limit" with Some x => parse_integer x | None => Ok 100%N end with
    | Ok n => n = 0%N /\ (exists b, (bs "limit", b) ∈ kvs /\ number b 0) \/
              n <> 0%N /\ limit_of (a !! bs "limit") (N.to_nat (if (100 <? n)%N then 100 else n))
    | Er e => client_error (e_kind e) = true /\ exists b, (bs "limit", b) ∈ kvs /\ (~ exists n, number b n) /\ display e = bad_number b end).
  { destruct (a !! bs "limit") as [b|] eqn:Eb.
    - apply Ha in Eb. destruct (parse_integer b) as [n|e] eqn:En.
      + apply parse_number in En. destruct (decide (n = 0%N)) as [->|Hn]; [left; split; [done|by exists b]|right].
        split; [done|]. replace (if (100 <? n)%N then 100%N else n) with (N.min n 100); [by constructor|].
        destruct (100 <? n)%N eqn:E; [apply N.ltb_lt in E|apply N.ltb_ge in E]; lia.
      + apply parse_number_er in En as (? & ? & ?). split; [done|]. by exists b.
    - right. split; [done|]. constructor. }
  destruct (match a !! bs "limit" with Some x => parse_integer x | None => Ok 100%N end) as [n|e].
  2: { destruct Hlim as (He & b & Hb1 & Hb2 & Hdis). apply rgt_ret. apply outcome_400; try done; [|lia].
       intros w. rewrite Hdis. by eapply a_list_number. }
  destruct Hlim as [(-> & b & Hb1 & Hb2)|[Hn Hlim]].
  { apply rgt_ret, rgt_ret. apply outcome_400; try done; [|lia]. intros w. by eapply a_list_zero. }
  rewrite (proj2 (N.eqb_neq n 0)) by done. set (lim := N.to_nat _) in *.
  pose proof (key_lookup a kvs (bs "limit") Ha) as Hkl. pose proof (key_lookup a kvs (bs "cursor") Ha) as Hkc.
  destruct (a !! bs "path") as [p|] eqn:Ep.
  - apply Ha in Ep. unfold p_list_for_path. apply rgt_bind, (rgt_from_path p k); [done|done|lia|].
    intros x k' s' Hreads Hk' HJ' Hd'. cbn [l_in l_out set_in] in *.
    assert (Hbad : forall e a', unusable p x a' -> client_error (e_kind e) = true -> a' = refusal (display e) ->
      RGT (Ret (Er e, rb)) (outcome (RList kvs) k tl l) (set_in tl l) k' s').
    { intros e a' Hun He ->. apply rgt_ret. eapply (outcome_lock _ (refusal (display e)) _ _ k'); try done; try lia.
      - by eapply lr_list_bad.
      - cbn [status_of]. unfold status_of_error. by destruct (client_error _).
      - by apply sends_error. }
    assert (Hnone : x = Gone \/ (exists tm who c', x = Lock_of p tm who /\ a !! bs "cursor" = Some c' /\ blt (lock_id H p) c' = true) ->
      RGT (p_error 404 (bs "not found")) (fun a1 => RGT (Ret (a1, rb)) (outcome (RList kvs) k tl l)) (set_in tl l) k' s').
    { intros Hx. apply rgt_ret, rgt_ret. eapply (outcome_lock _ not_found _ _ k'); try done; try lia.
      - by eapply lr_list_none.
      - by apply sends_fail, is_code. }
    destruct x as [| |p' tm who].
    + apply Hnone. by left.
    + intros e a' Hun He E. apply rgt_ret. by eapply Hbad.
    + destruct (decide (p' = p)) as [->|Hne].
      2: { intros e a' Hun He E. apply rgt_ret. by eapply Hbad. }
      unfold lk_id at 1. cbn [lk_path]. change (hash_for en p) with (lock_id H p).
      assert (Hyes : match a !! bs "cursor" with Some c => blt (lock_id H p) c = false | None => True end ->
        RGT (let! s0 := as_lock_spec en (is_upload m) (Lock p tm who) in Ret (Ok (st_new_success s0)))
          (fun a1 => RGT (Ret (a1, rb)) (outcome (RList kvs) k tl l)) (set_in tl l) k' s').
      { intros Hc. apply rgt_bind, rgt_as_lock_spec; [done| |].
        { intros Ex. eapply (reads_bad _ _ _ _ _ _ _ _ (RList kvs)); [exact Hreads|done|tauto|done]. }
        intros x Hx. apply rgt_ret, rgt_ret.
        eapply (outcome_lock _ (Reply 200 [] (BLines (lines_of en m p x who))) _ _ k'); try done; try lia.
        - by eapply lr_list_path.
        - by apply (sends_lines s' 200 None), is_code. }
      destruct (a !! bs "cursor") as [c|] eqn:Ec; [|by apply Hyes].
      destruct (blt (lock_id H p) c) eqn:Eb; [|by apply Hyes].
      apply Hnone. right. by exists tm, who, c.
  - apply rgt_bindR. unfold list_lock_items, lock_dir. cbn [be_lfs]. apply rgt_bind, rgt_ev; [done|done|done|].
    intros t2 s2 o Ht2 Hv2 Hr2 Hi2 [Ho _] Hd2. cbn [handle_ev]. unfold faulty. rewrite Ho. intros _ _ _ _.
    unfold fs_readdir. destruct (resolve_dir lfs Hlfs s2 (bs "locks") Hd2 in_locks) as [-> ->].
    set (names := merge_sort ble (children s2 (lfs ++ [bs "locks"]))).
    assert (Hmem : forall f, f ∈ names <-> is_Some (nodes s2 !! lock_path lfs f)).
    { intros f. unfold names. rewrite merge_sort_Permutation, elem_children. done. }
    assert (Hss : StronglySorted (fun a b => blt a b = true) names) by apply sorted_strict, nodup_children.
    assert (Hpl : Forall plain_name names).
    { apply Forall_forall. intros f [nd Hnd]%Hmem. rewrite lock_path_eq in Hnd. by apply (sh_lock _ _ (proj2 Hi2) _ _ Hnd). }
    clearbody names.
    assert (HJ2 : J (l_out l) (S t2)) by (eapply J_mono; [|exact HJ]; lia).
    apply rgt_bind, (rgt_collect _ _ _ _ (S t2)); [done|done|done|done|].
    intros now_ later xs ls k' t' s' -> Hvis -> Hl1 Hl2 Ht' Hk' HJ' Hd'. cbn [l_in l_out set_in] in *. apply rgt_ret.
    set (ls := from_cursor en (a !! bs "cursor") (locks_found xs)) in *.
    apply rgt_bind, rgt_specs; [done| |].
    { intros p tm who Hls Ex. apply from_cursor_in in Hls. eapply (visits_bad _ _ _ _ _ _ (RList kvs)); [exact Hvis|done|tauto|done|done]. }
    intros out Hout. apply rgt_ret, rgt_ret.
    match goal with |- outcome _ _ _ _ (Ok (st_success_with_data 200 ?nx _), _) _ _ _ =>
      replace nx with (match ls !! lim with Some (p, _, _) => [bs "next-cursor=" ++ lock_id H p ++ [NL]] | None => [] end) end.
    2: { rewrite list_lookup_fmap. destruct (ls !! lim) as [[[p tm] who]|] eqn:E; [|done]. cbn [fmap option_fmap option_map lock_of_item].
         apply lookup_lt_Some in E. rewrite map_length, (proj2 (Nat.eqb_eq _ _)) by lia. done. }
    eapply (outcome_lock _ (Reply 200 _ (BLines out)) _ _ k'); try done; try lia.
    + eapply (lr_list en m lfs y0 cs i _ _ k kvs (a !! bs "limit") lim (a !! bs "cursor") t2 s2 now_ later xs ls out k'); try done; try lia.
      * by eapply no_key_none.
      * by apply (at_moment t2 s2 (set_in tl l)).
      * destruct Hl2 as [?|Hl2]; [by left|right]. lia.
    + by apply (sends_lines s' 200 (Some _)), is_code.
Qed.

(** ** Answers *)
Definition sending (st : status) (e : ev) : Prop :=
  match e with EReadAt h _ _ => st_reader st = Some h | _ => io_ev e end.
Lemma sd_copy_out st f h off : st_reader st = Some h -> all_ev (sending st) (copy_out f h off).
Proof using Type.
  intros Hh. revert off. induction f as [|f IH]; intros off; cbn [copy_out]; [done|].
  apply all_ev_bindR; [by apply all_ev_io_call, all_ev_call|]. intros [|b d]; [done|].
  apply all_ev_bindR; [by apply wr_send|]. intros _. apply IH.
Qed.
Lemma sd_send_status st f : all_ev (sending st) (send_status f st).
Proof using Type.
  unfold send_status. apply all_ev_bindR; [by apply wr_send|]. intros _.
  apply all_ev_bindR; [by apply wr_send_all|]. intros _.
  apply all_ev_bindR; [|intros _; by apply wr_flush]. destruct (st_msgs st) as [ms|].
  - apply all_ev_bindR; [by apply wr_delim|]. intros _. by apply wr_send_all.
  - destruct (st_reader st) as [h|] eqn:Eh; [|done]. apply all_ev_bindR; [by apply wr_delim|]. intros _. by apply sd_copy_out.
Qed.

Lemma rgt_say st a c (Q : res unit -> local -> nat -> fs -> Prop) l t s :
  ready st a c s -> lfs_dirs s lfs -> J (l_out l) t ->
  (forall d, rp_body a = BData d -> (fuel <= length d)%nat -> F OutOfFuel) ->
  (forall t1 M, (t <= t1)%nat -> now t1 M (l_in l) (l_out l) ->
     (forall qs, reply_sent a qs -> J (l_out l ++ enc_all qs) (S t1)) /\
     (forall qs t' s', reply_sent a qs -> (S t1 <= t')%nat -> lfs_dirs s' lfs -> Q (Ok tt) (add_out (enc_all qs) l) t' s')) ->
  RGT (answer fuel st) Q l t s.
Proof using Hlfs mild_some.
  intros Hrd Hd HJ HF HQ. unfold answer. apply rgt_bind, rgt_ev; [done|done|done|].
  intros t1 s1 or Ht1 Hv1 Hr1 Hi1 _ Hd1. apply (ready_rel _ _ _ _ _ Hr1) in Hrd.
  assert (Hrd2 : ready st a c (handle_ev i (ENote (st_code st) (default [] (st_args st))) or l s1).2).
  { revert Hrd. apply ready_move. intros j d. by apply easy_carry; [| |apply stable_frozen]. }
  cbn [handle_ev] in *. cbn [fst snd] in Hrd2. intros _ _ Hd2 _. set (s2 := log _ _ _) in *.
  destruct (stored_some lfs s1) as [M HM]. destruct (HQ t1 M Ht1 (at_now _ _ _ _ Hv1 HM)) as [HJ1 HQ1]. clear HQ.
  eapply rgt_mono.
  2: { apply (rgt_lift i ok R I V J F J_mono J_prefix mild_some (sending st) (fun s => lfs_dirs s lfs /\ still st c s) _
         (fun r l' => r = Ok tt /\ exists qs, reply_sent a qs /\ l' = add_out (enc_all qs) l) l (S t1) s2 s2).
       - intros e o l1 sa sb He [Ho _] [A1 A2] [B1 B2].
         assert (Hio : io_ev e -> (handle_ev i e o l1 sa).1 = (handle_ev i e o l1 sb).1 /\
           lfs_dirs (handle_ev i e o l1 sa).2 lfs /\ still st c (handle_ev i e o l1 sa).2).
         { intros Hio. by rewrite (io_handle i e o l1 sb sa). }
         destruct e; try by apply Hio. simpl in He. cbn [handle_ev]. unfold faulty. rewrite Ho. cbn [fst snd].
         split; [|done]. destruct c as [[j d]|]; simpl in A2, B2; [|congruence].
         destruct A2 as [A2 (xa & Ha & Hda & _)], B2 as [_ (xb & Hb & Hdb & _)]. rewrite He in A2. injection A2 as ->.
         cbn [fs_read_at]. unfold fs_data, inode_at. by rewrite Ha, Hb, Hda, Hdb.
       - intros sa sb Hr _ [H1 H2]. split; [by eapply dirs_lfs; [apply rel_dirs|]|]. destruct c as [[j d]|]; [|done].
         destruct H2 as [H2 H2']. split; [done|]. by eapply frozen_rel.
       - apply sd_send_status.
       - split; [done|apply Hrd2].
       - split; [done|apply Hrd2].
       - eapply (nf_send_status i fuel ok _ mild_nf st a); [apply Hrd2|..].
         + intros qs Hqs. split; [|by apply HJ1]. split; [done|]. by exists qs.
         + intros l' qs w d Hqs E Eb Hlong. split; [by eapply HF|]. eapply (J_prefix _ w). rewrite E. by apply HJ1. }
  intros r l' t' s' ((-> & qs & Hqs & ->) & Ht' & _ & Hd' & _). by apply HQ1.
Qed.

Lemma answer_data M r a w' d : answer_of en m 0 (fun _ => False) (only M) r a w' -> rp_body a = BData d -> exists o, M !! o = Some d.
Proof using Type. intros [] E; try discriminate E. injection E as <-. by eexists. Qed.

(** The first packet of a request. *)
Lemma tg_first r : well_formed m r -> r ∈ reqs ->
  exists b c, packets_of r = PData b :: tail (packets_of r) /\ b <> [] /\
    dispatch (command_words b) m = c /\ c <> CQuit /\ together r c.
Proof using HH Hlfs mild_some.
  assert (Hno : forall x : bytes, bool_decide (SP ∈ x) = false -> SP ∉ x) by (intros x; by apply bool_decide_eq_false).
  intros Hw Hin. destruct r as [|kvs items|o kvs ds|o kvs|o kvs|kvs|kvs|id kvs]; cbn [packets_of tail].
  - eexists _, _. split_and!; [done|done|done|by vm_compute|]. apply tg_version.
  - eexists _, _. split_and!; [done|done|done|by vm_compute|]. by apply tg_batch.
  - pose proof Hw as (E & _ & Ho & _). eexists _, (CPut o). split_and!; [done|done| |done|by apply tg_put].
    change (bs "put-object ") with (bs "put-object" ++ [SP]).
    rewrite (words1 (bs "put-object") o) by first [by apply oid_no_sp | apply Hno; by vm_compute]. by rewrite E.
  - pose proof Hw as (E & _ & Ho). eexists _, (CVerify o). split_and!; [done|done| |done|by apply tg_verify].
    change (bs "verify-object ") with (bs "verify-object" ++ [SP]).
    rewrite (words1 (bs "verify-object") o) by (done || (apply Hno; by vm_compute)). by rewrite E.
  - pose proof Hw as (E & _ & Ho). eexists _, (CGet o). split_and!; [done|done| |done|by apply tg_get].
    change (bs "get-object ") with (bs "get-object" ++ [SP]).
    rewrite (words1 (bs "get-object") o) by (done || (apply Hno; by vm_compute)). by rewrite E.
  - pose proof Hw as (E & _). eexists _, CLock. split_and!; [done|done|rewrite E; by vm_compute|done|by apply tg_lock].
  - eexists _, CListLock. split_and!; [done|done|by destruct m; vm_compute|done|by apply tg_list].
  - pose proof Hw as (E & _ & Hi & _). eexists _, (CUnlock id). split_and!; [done|done| |done|by apply tg_unlock].
    change (bs "unlock ") with (bs "unlock" ++ [SP]).
    rewrite (words1 (bs "unlock") id) by (done || (apply Hno; by vm_compute)). by rewrite E.
Qed.

Lemma rgt_read_enc p tl (Q : res packet -> local -> nat -> fs -> Prop) l t s :
  l_in l = enc p ++ tl -> short [p] -> lfs_dirs s lfs -> J (l_out l) t ->
  (forall t' s', (t <= t')%nat -> J (l_out l) t' -> lfs_dirs s' lfs -> Q (Ok p) (set_in tl l) t' s') ->
  RGT read_packet Q l t s.
Proof using mild_some.
  intros Hin Hp Hd HJ HQ. eapply rgt_mono; [|apply (rgt_io _ (fun a l' => a = Ok p /\ l' = set_in tl l))].
  - intros a l' t' s' ((-> & ->) & H1 & H2 & H3). by apply HQ.
  - by apply rd_read_packet.
  - done.
  - apply (nf_read_enc i ok _ mild_nf p tl); [done|by apply Forall_cons in Hp as [? _]|done].
Qed.

Lemma about_dec r : about_objects r \/ ~ about_objects r.
Proof using Type. destruct r; simpl; tauto. Qed.
Lemma now_moment t M inp out : now t M inp out -> moment t (shared (sys_run (take t cs) y0)) inp out.
Proof using Type. by intros (? & _ & ?). Qed.
Lemma lock_no_data inp out k r a k' : lock_right inp out k r a k' -> match rp_body a with BData _ => False | _ => True end.
Proof using Type.
  destruct 1 as [k1 s1 r a Hab _ _ Ha| | | | | | | | | | | | ]; try done; try (by match goal with H : trouble _ |- _ => destruct H as [? ->] end);
    try (by match goal with H : unusable _ _ _ |- _ => destruct H end).
  specialize (Ha (only ∅)). destruct Ha; try done; by apply Hab.
Qed.

Lemma rgt_round r asked later k rb tl l t s (Q : next -> local -> nat -> fs -> Prop) :
  well_formed m r -> lfs_dirs s lfs -> rb_ok rb -> (2 * length (l_in l) + 2 <= fuel)%nat ->
  l_in l = enc_all (packets_of r) ++ tl -> short (packets_of r) ->
  stage asked (r :: later) k (l_in l) (l_out l) -> (k <= t)%nat ->
  (forall rb' k' qs t' s', rb_ok rb' -> lfs_dirs s' lfs -> stage (asked ++ [r]) later k' tl (l_out l ++ enc_all qs) -> (k' <= t')%nat ->
     Q (Next rb') (add_out (enc_all qs) (set_in tl l)) t' s') ->
  RGT (process_one en be fuel m rb) Q l t s.
Proof using HH Hlfs mild_some.
  intros Hwf Hd Hrb Hf Hin Hs Hst Hk HQ.
  assert (Hreq : r ∈ reqs).
  { destruct Hst as (? & ? & _ & -> & _). apply elem_of_app. right. by left. }
  destruct (tg_first r Hwf Hreq) as (b & c & Ep & Hb & Hdis & Hc & Ha).
  assert (Hin' : l_in l = enc (PData b) ++ (enc_all (tail (packets_of r)) ++ tl)).
  { rewrite Hin, Ep at 1. cbn [enc_all flat_map]. change (flat_map enc) with enc_all. by rewrite <- app_assoc. }
  assert (HJ : J (l_out l) t) by (by eapply stage_J; [exact Hst| |]).
  unfold process_one. apply rgt_bind. eapply rgt_read_enc; [exact Hin'| |done|done|].
  { rewrite Ep in Hs. apply Forall_cons in Hs as [? _]. by constructor. }
  intros t1 s1 Ht1 HJ1 Hd1.
  cbn [pkt_data]. destruct b as [|b0 b']; [done|]. rewrite Hdis. set (l1 := set_in _ l).
  assert (Hgo : RGT (let! (r0, rb') := handle_command en be fuel c m rb in and_go_on rb' (answer fuel (status_of r0))) Q l1 t1 s1).
  { apply rgt_bind. eapply rgt_mono; [|apply (Ha rb tl l1 t1 s1 k); [done|done| |apply (given_enc m); [done|by destruct (packets_of r); [|apply Forall_cons in Hs as [_ ?]]]|done|lia]].
    - intros [x rb'] l' t2 s2 (a & cc & -> & H2 & H3 & H4 & H5 & H6 & H7). cbn [fst snd] in *.
      unfold l1 in *. rewrite set_in_set_in. cbn [l_out set_in] in *.
      unfold and_go_on. apply rgt_bind. eapply (rgt_say _ a cc); [done|done|done| |].
      { intros d Eb Hlong. apply gu_long. split; [done|]. destruct H7 as [H7|(k' & H7 & Hk')].
        - by destruct (answer_data ∅ r a (only ∅) d (H7 ∅) Eb) as [o Ho].
        - destruct H7 as [k1 M M' r' a' _ G1 G2 G3 G4| |r' a' k' G]; [|done|by apply lock_no_data in G; rewrite Eb in G]. destruct (answer_data M r' a' _ d G3 Eb) as [o Ho].
          destruct G2 as (_ & G2 & _). apply G2 in Ho as [_ Ho]. by exists k1, o, d. }
      intros t3 M Ht3 Hnow. pose proof (now_moment _ _ _ _ Hnow) as Hmom. cbn [l_in l_out set_in] in *.
      assert (exists k', right tl (l_out l) k r a k' /\ (k' <= S t3)%nat) as (k' & Hright & Hk').
      { destruct H7 as [H7|(k' & H7 & Hk')].
        - exists (S t3). split; [|done]. destruct (about_dec r) as [Hob|Hob].
          + eapply right_at; [done| |exact Hnow|apply H7|by left]. lia.
          + apply right_lock. eapply lr_any; [done| |exact Hmom|exact H7]. lia.
        - exists k'. split; [done|lia]. }
      assert (Hnext : forall qs, reply_sent a qs -> stage (asked ++ [r]) later k' tl (l_out l ++ enc_all qs)).
      { intros qs Hqs. rewrite Hin in Hst. eapply stage_more; [exact Hst| |exact Hright|done].
        apply wires_enc. done. }
      split.
      + intros qs Hqs. eapply stage_J; [by apply Hnext|done|done].
      + intros qs t' s' Hqs Ht' Hd'. apply rgt_ret. eapply HQ; [done|done|by apply Hnext|lia].
    - unfold l1. cbn [l_in set_in]. rewrite Hin' in Hf. rewrite app_length in Hf. lia. }
  destruct c; done || exact Hgo.
Qed.

Definition finished (r : res unit) (l : local) (t : nat) (s : fs) : Prop := r = Ok tt /\ so_far (l_out l) t True.

Lemma rgt_session rest later asked n k rb l t s :
  Forall (well_formed m) later -> lfs_dirs s lfs -> rb_ok rb ->
  (2 * length (l_in l) + 2 <= fuel)%nat -> (length later < n)%nat ->
  l_in l = enc_all (concat (map packets_of later)) ++ rest -> short (concat (map packets_of later)) -> ending rest extra ->
  stage asked later k (l_in l) (l_out l) -> (k <= t)%nat ->
  RGT (process_commands en be fuel n m rb) finished l t s.
Proof using HH Hlfs mild_some.
  revert asked n k rb l t s. induction later as [|r later IH]; intros asked n k rb l t s Hwf Hd Hrb Hf Hn Hin Hs Hend Hst Hk;
    (destruct n as [|n]; [simpl in Hn; lia|]); cbn [process_commands]; apply rgt_bind.
  - assert (HJ : J (l_out l) t) by (by eapply stage_J; [exact Hst| |]).
    simpl in Hin. destruct Hst as (caps & as_ & H1 & H2 & H3).
    destruct (ending_inv _ _ Hend) as [[Ers Ee]|(w0 & junk & Hq & Ers & Ee)]; rewrite Ers in Hin.
    + unfold process_one. apply rgt_bind. eapply rgt_mono; [|apply (rgt_io _ (fun a l' => a = Er (err_of_io EEOF) /\ l' = set_in [] l)); [by apply rd_read_packet|done|]].
      2: { apply (nf_read_packet i ok _ mild_nf). rewrite Hin.
           change (decode 65535 []) with (Er (A := packet) (err_of_io EEOF), @nil byte). done. }
      intros a l' t' s' ((-> & ->) & Ht & HJ' & Hd'). apply rgt_ret. cbn. rewrite decide_True by done. apply rgt_ret. split; [done|].
      exists caps, asked, [], as_, k, (l_in l), (l_out l), [], []. cbn [l_out set_in]. rewrite (app_nil_r (l_out l)).
      split_and!; try done; [lia|by left|apply wires_nil|]. intros _. split_and!; try done. rewrite Ee. constructor.
    + apply wire_inv in Hq as [Ew Hq]. rewrite Ew in Hin. unfold process_one. apply rgt_bind. eapply rgt_read_enc; [exact Hin|by repeat constructor|done|done|].
      intros t1 s1 Ht1 HJ1 Hd1.
      assert (dispatch (command_words (bs "quit" ++ [NL])) m = CQuit) as E by (by destruct m).
      change (pkt_data (PData (bs "quit" ++ [NL]))) with (Some (bs "quit" ++ [NL])).
      destruct (bs "quit" ++ [NL]) as [|b0 b] eqn:Eb; [done|]. rewrite E.
      apply rgt_bind. eapply (rgt_say st_success (Reply 200 [] BNone) None); [|done|done|done|].
      { apply ready_plain; [done|]. by apply (sends_none s1 200 None), is_code. }
      intros t2 M Ht2 _. cbn [l_out set_in].
      assert (Hqs : forall qs t' all, reply_sent (Reply 200 [] BNone) qs -> (S t2 <= t')%nat -> so_far (l_out l ++ enc_all qs) t' all).
      { intros qs t' all Hqs Ht'. exists caps, asked, [], as_, k, (l_in l), (l_out l), (qs ++ []), (enc_all qs).
        assert (Hrs : replies_sent extra (qs ++ [])) by (rewrite Ee; by repeat constructor).
        split_and!; try done; [lia|by right|]. rewrite app_nil_r. apply wires_enc. by eapply reply_small. }
      split.
      * intros qs Hr. by apply Hqs.
      * intros qs t' s' Hr Ht' Hd'. apply rgt_ret, rgt_ret. split; [done|]. cbn [l_out add_out set_in]. by apply Hqs.
  - apply Forall_cons in Hwf as [Hwf1 Hwf]. cbn [map concat] in Hin, Hs.
    rewrite enc_all_app, <- app_assoc in Hin. apply Forall_app in Hs as [Hs1 Hs].
    eapply rgt_round; [done|done|done|done|exact Hin|done|exact Hst|done|].
    intros rb' k' qs t' s' Hrb' Hd' Hst' Hk'. eapply (IH (asked ++ [r])); try done.
    + cbn [l_in add_out set_in]. rewrite Hin, app_length in Hf. lia.
    + simpl in Hn. lia.
Qed.

(** ** The beginning *)
Lemma rgt_create ds (Q : res unit -> local -> nat -> fs -> Prop) l t s : (forall d, d ∈ ds -> d ∈ dir_names) -> J (l_out l) t ->
  (forall t' s', (t <= t')%nat -> (forall d, d ∈ ds -> is_dir s' (lfs ++ [d])) -> dirs s s' -> Q (Ok tt) l t' s') ->
  RGT (create_directories_in lfs ds) Q l t s.
Proof using Hlfs mild_some.
  revert t s Q. induction ds as [|d ds IH]; intros t s Q Hds HJ HQ; cbn [create_directories_in].
  { apply rgt_ret, HQ; [done| |apply dirs_refl]. by intros d ?%elem_of_nil. }
  apply rgt_bindR, rgt_io_call, rgt_call; [done|]. intros t1 s1 o Ht Hv Hr [_ Hsh] [Ho _].
  cbn [handle_ev]. unfold faulty. rewrite Ho. unfold with_l, fs_mkdir_all.
  destruct (mkdirs_ok s1 [] (lfs ++ [d])) as [s2 E].
  { intros a b k Ha Eab. apply (sh_way _ _ Hsh d a b k); [apply Hds; by left|done|done]. }
  rewrite E. cbn [fst snd res_of_io]. apply mkdirs_spec in E as (_ & _ & M1 & M2). intros _ _.
  assert (Hdir : dirs s1 s2).
  { intros q Hq. destruct (M1 q) as [E|(_ & E & _)]; congruence. }
  apply IH; [intros d' ?; apply Hds; by right|eapply J_mono; [|exact HJ]; lia|].
  intros t' s' Ht' G1 G2. apply HQ; [lia| |].
  - intros d' [->|?]%elem_of_cons; [|by apply G1]. intros a b Eab Ha. apply G2. rewrite <- (app_nil_l a). by apply (M2 a b).
  - eapply dirs_trans; [by apply rel_dirs|]. by eapply dirs_trans.
Qed.

Lemma caps_small : wires capabilities (enc_all capabilities).
Proof using Type. apply wires_enc. by repeat constructor. Qed.

Lemma rgt_run rest l t s :
  Forall (well_formed m) reqs -> (2 * length inp0 + 2 <= fuel)%nat ->
  l_in l = inp0 -> l_out l = [] -> inp0 = enc_all (concat (map packets_of reqs)) ++ rest ->
  short (concat (map packets_of reqs)) -> ending rest extra ->
  RGT (transfer_run en fuel lfs umask None (operation m)) finished l t s.
Proof using HH Hlfs mild_some.
  intros Hwf Hf Hl Hout Hin Hs Hend.
  assert (Hst : stage [] reqs 0 inp0 (enc_all capabilities)).
  { exists (enc_all capabilities), []. split_and!; [apply caps_small|done|constructor]. }
  assert (Hpre : forall w t, w `prefix_of` enc_all capabilities -> J w t).
  { intros w t' Hw. eapply stage_J; [exact Hst|lia|done]. }
  unfold transfer_run, create_directories. apply rgt_bindR, rgt_create; [done|rewrite Hout; apply Hpre, prefix_nil|].
  intros t1 s1 Ht1 Hd1 _. apply rgt_bindR.
  eapply rgt_mono; [|apply (rgt_io _ (fun a l' => a = Ok tt /\ l' = add_out (enc_all capabilities) l)); [|exact Hd1|]].
  2: { unfold send_capabilities. apply all_ev_bindR; [by apply wr_send|]. intros _. by apply wr_flush. }
  2: { unfold send_capabilities. apply wp_bindR, (nf_send i ok _ mild_nf), (nf_flush i ok _ mild_nf).
       rewrite add_out_app. rewrite pk_short by (unfold small; by vm_compute).
       replace (enc_all [PData (bs "version=1" ++ [NL])] ++ enc PFlush) with (enc_all capabilities) by done.
       split; [done|]. cbn [l_out add_out]. rewrite Hout. by apply Hpre. }
  intros a l' t2 s2 ((-> & ->) & Ht2 & HJ2 & Hd2). rewrite mode_operation.
  assert (Hreqs : (length reqs <= length (enc_all (concat (map packets_of reqs))))%nat).
  { clear. induction reqs as [|r rs IH]; [simpl; lia|]. cbn [map concat]. rewrite enc_all_app, app_length.
    pose proof (req_len r). simpl. lia. }
  eapply (rgt_session rest reqs [] fuel 0 rb_empty); try done.
  - cbn [l_in add_out]. by rewrite Hl.
  - rewrite Hin, app_length in Hf. lia.
  - cbn [l_in add_out]. by rewrite Hl.
  - cbn [l_in l_out add_out]. by rewrite Hl, Hout.
  - lia.
Qed.
End proofs.

(** ** The whole program *)
Section whole.
Context (en : env) (m : mode) (lfs : path) (i fuel n0 : nat).
Context (HH : digest (en_hash en)) (Hlfs : Forall plain_name lfs).
Context (ps : list (proc (Z * bytes))) (s0 : fs) (cs : list choice) (extra : list reply).
Context (mild_some : exists o, mild None (shown cs i) o).

Lemma rgt_main cfg l reqs s : readable cfg -> asks m l reqs extra ->
  l_out l = [] -> (2 * length (l_in l) + 2 <= fuel)%nat ->
  rgt i (mild None (shown cs i)) (rel (en_hash en) lfs n0 any_oid i) (always (en_hash en) lfs n0) (at_ ps s0 cs i)
    (J en m lfs i ps s0 cs (l_in l) reqs extra) (gives_up en lfs (Sys ps s0) cs i fuel reqs)
    (transfer_main en fuel lfs cfg (operation m))
    (fun x l' t' s' => x = (0%Z, []) /\ so_far en m lfs (Sys ps s0) cs i (l_in l) reqs extra (l_out l') t' True) l 0 s.
Proof using HH Hlfs mild_some.
  intros (c & -> & Hc) (Hwf & inp & rest & Hw & Hend & Hin) Hout Hf. apply wires_inv in Hw as [-> Hs].
  assert (HJ : forall t, J en m lfs i ps s0 cs (l_in l) reqs extra (l_out l) t).
  { intros t. rewrite Hout. eapply (stage_J _ _ _ _ _ _ _ _ _ _ [] reqs 0 (l_in l) (enc_all capabilities)); [|lia|apply prefix_nil].
    exists (enc_all capabilities), []. split_and!; [apply caps_small|done|constructor]. }
  assert (Hrun : forall umask l1 t s1, l_in l1 = l_in l -> l_out l1 = [] ->
    rgt i (mild None (shown cs i)) (rel (en_hash en) lfs n0 any_oid i) (always (en_hash en) lfs n0) (at_ ps s0 cs i)
      (J en m lfs i ps s0 cs (l_in l) reqs extra) (gives_up en lfs (Sys ps s0) cs i fuel reqs) (transfer_run en fuel lfs umask None (operation m))
      (finished en m lfs i ps s0 cs (l_in l) reqs extra) l1 t s1).
  { intros umask l1 t s1 E1 E2. by eapply rgt_run. }
  unfold transfer_main. apply rgt_bind. eapply rgt_mono.
  2: { unfold transfer_main_internal. apply rgt_bindR. unfold set_permissions. apply rgt_bindR, rgt_ret.
       assert (exists v, shared_perms c = Ok v) as [v ->].
       { unfold shared_perms. destruct (cf_str c) as [x|e] eqn:Ec.
         - repeat case_match; eauto.
         - rewrite (Hc e eq_refl). repeat case_match; eauto. }
       destruct v as [v|].
       - apply rgt_bind, rgt_call; [done|]. intros t1 s1 o _ _ _ _ _. cbn [handle_ev]. intros _ _. apply rgt_ret. by apply Hrun.
       - apply rgt_bind, rgt_call; [done|]. intros t1 s1 o _ _ _ _ _. cbn [handle_ev]. intros _ _.
         apply rgt_bind, rgt_call; [done|]. intros t2 s2 o2 _ _ _ _ _. cbn [handle_ev]. intros _ _. apply rgt_ret. by apply Hrun. }
  intros r l' t' s' [-> H]. by apply rgt_ret.
Qed.
End whole.

(** A server that is never let go does nothing. *)
Lemma idle {A} (cs : list choice) (y : sys A) i p : procs y !! i = Some p -> (forall o, Choice i (AGo o) ∉ cs) ->
  exists q, procs (sys_run cs y) !! i = Some q /\ pr_prog q = pr_prog p /\ pr_local q = pr_local p.
Proof.
  revert y p. induction cs as [|c cs IH]; intros y p Hp Hno; [by exists p|].
  assert (Hc : exists q, procs (sys_step y c) !! i = Some q /\ pr_prog q = pr_prog p /\ pr_local q = pr_local p).
  { unfold sys_step. destruct c as [j a]. cbn [c_pid c_act]. destruct (procs y !! j) as [pj|] eqn:Ej; [|by exists p].
    destruct (decide (j = i)) as [->|Hne].
    - assert (pj = p) as -> by congruence. destruct a as [o|]; [by destruct (Hno o); left|].
      unfold proc_step. destruct (pr_dead p); eexists; cbn [procs]; (split; [apply list_lookup_insert; by eapply lookup_lt_Some|done]).
    - destruct (proc_step j a pj (shared y)) as [p' s']. exists p. cbn [procs]. rewrite list_lookup_insert_ne by done. done. }
  destruct Hc as (q & Hq & E1 & E2). destruct (IH _ q Hq) as (q' & Hq' & E3 & E4).
  { intros o Ho. apply (Hno o). by right. }
  exists q'. change (sys_run (c :: cs) y) with (sys_run cs (sys_step y c)). split_and!; [done|congruence|congruence].
Qed.
Lemma goes_dec (cs : list choice) i : (exists o, Choice i (AGo o) ∈ cs) \/ forall o, Choice i (AGo o) ∉ cs.
Proof.
  induction cs as [|[j [o|]] cs [[o' IH]|IH]].
  - right. intros o. apply not_elem_of_nil.
  - left. exists o'. by right.
  - destruct (decide (j = i)) as [->|Hne]; [left; exists o; by left|]. right. intros o' [[= -> _]|Ho]%elem_of_cons; [done|by eapply IH].
  - left. exists o'. by right.
  - right. intros o' [?|Ho]%elem_of_cons; [done|by eapply IH].
Qed.

Lemma c74 en m lfs fuel cfg ps s0 cs i l dead reqs extra :
  digest (en_hash en) -> Forall plain_name lfs -> ordinary lfs s0 -> store_ok (en_hash en) lfs s0 ->
  Forall (fun p => is_server (en_hash en) lfs (pr_prog p)) ps ->
  ps !! i = Some (Proc (transfer_main en fuel lfs cfg (operation m)) l dead) -> readable cfg ->
  (forall o, Choice i (AGo o) ∈ cs -> o_fault o = None /\ Byte.x00 ∉ o_sfx o) ->
  asks m l reqs extra -> l_out l = [] -> (2 * length (l_in l) + 2 <= fuel)%nat ->
  exists q, procs (sys_run cs (Sys ps s0)) !! i = Some q /\
    so_far en m lfs (Sys ps s0) cs i (l_in l) reqs extra (l_out (pr_local q)) (length cs) (pr_prog q = Ret (0%Z, [])) /\
    (forall x, pr_prog q = Ret x -> x = (0%Z, [])) /\
    (forall f, pr_prog q = Fail f -> gives_up en lfs (Sys ps s0) cs i fuel reqs f).
Proof.
  intros HH Hlfs [O1 O2 O3 O4 O5] Hst Hps Hi Hcfg Hcs Hask Hout Hf.
  assert (Hlfs' : Forall stays lfs) by (by apply plain_stays_all).
  set (n0 := length (inodes s0)).
  assert (Hokk : forall o, Choice i (AGo o) ∈ cs -> mild None (shown cs i) o).
  { intros o Ho. destruct (Hcs o Ho). split_and!; [done|done|]. intros _. by exists o. }
  destruct (goes_dec cs i) as [[o0 Ho0]|Hno].
  2: { destruct (idle cs (Sys ps s0) i _ Hi Hno) as (q & Hq & Ep & El). cbn [pr_prog pr_local] in *.
       exists q. split; [done|]. rewrite Ep, El, Hout. destruct Hcfg as (c & -> & Hc).
       assert (Hvis : exists e kk, transfer_main en fuel lfs (GOk c) (operation m) = Vis e kk).
       { unfold transfer_main, transfer_main_internal, set_permissions, shared_perms. destruct (cf_str c) as [x|e] eqn:Ec.
         - repeat case_match; by eexists _, _.
         - rewrite (Hc e eq_refl). repeat case_match; by eexists _, _. }
       destruct Hvis as (e & kk & Hvis). rewrite Hvis. split; [|split; [by intros x|by intros f]].
       exists (enc_all capabilities), [], reqs, [], 0%nat, (l_in l), (enc_all capabilities), [], [].
       split_and!; [apply caps_small|done|constructor|lia|by left|apply wires_nil|apply prefix_nil|done]. }
  assert (mild_some : exists o, mild None (shown cs i) o) by (exists o0; by apply Hokk).
  destruct (rgt_sound (en_hash en) lfs n0 any_oid Hlfs' ps s0 cs i (mild None (shown cs i))) with
    (J := J en m lfs i ps s0 cs (l_in l) reqs extra) (F := gives_up en lfs (Sys ps s0) cs i fuel reqs)
    (Q := fun (x : Z * bytes) l' t' (s' : fs) => x = (0%Z, []) /\ so_far en m lfs (Sys ps s0) cs i (l_in l) reqs extra (l_out l') t' True)
    (p := Proc (transfer_main en fuel lfs cfg (operation m)) l dead) as (q & t & Hq & Ht & HJ & HQ & HF).
  - done.
  - intros a l' t' s' [_ (caps & asked & later & as_ & k & inp & w0 & qs & we & H1 & H2 & H3 & H4 & H5 & H6 & H7 & _)].
    by exists caps, asked, later, as_, k, inp, w0, qs, we.
  - by apply store_inv.
  - by split.
  - intros j p Hp. apply rg_server; [done|done|done|]. rewrite Forall_forall in Hps. apply Hps. by eapply elem_of_list_lookup_2.
  - intros j p Hp. eapply sv_server; [done|]. rewrite Forall_forall in Hps. apply Hps. by eapply elem_of_list_lookup_2.
  - done.
  - cbn [pr_prog pr_local]. by apply rgt_main.
  - exists q. split; [done|]. split; [|split; [intros x Hx; by destruct (HQ x Hx) as [s [? _]]|exact HF]].
    assert (Hmono : forall all all' : Prop, (all' -> all) -> so_far en m lfs (Sys ps s0) cs i (l_in l) reqs extra (l_out (pr_local q)) t all ->
      so_far en m lfs (Sys ps s0) cs i (l_in l) reqs extra (l_out (pr_local q)) (length cs) all').
    { intros all all' Hall (caps & asked & later & as_ & k & inp & w0 & qs & we & H1 & H2 & H3 & H4 & H5 & H6 & H7 & H8).
      exists caps, asked, later, as_, k, inp, w0, qs, we. split_and!; try done; [lia|]. intros Ha. by apply H8, Hall. }
    destruct (pr_prog q) as [x|f|e k] eqn:Ep.
    + destruct (HQ x eq_refl) as [s [_ H]]. by eapply Hmono; [|exact H].
    + by eapply Hmono; [|exact HJ].
    + by eapply Hmono; [|exact HJ].
Qed.

(** Requests about objects give no reason to give up but one. *)
Lemma c67 en m lfs fuel cfg ps s0 cs i l dead reqs extra :
  digest (en_hash en) -> Forall plain_name lfs -> ordinary lfs s0 -> store_ok (en_hash en) lfs s0 ->
  Forall (fun p => is_server (en_hash en) lfs (pr_prog p)) ps ->
  ps !! i = Some (Proc (transfer_main en fuel lfs cfg (operation m)) l dead) -> readable cfg ->
  (forall o, Choice i (AGo o) ∈ cs -> o_fault o = None /\ Byte.x00 ∉ o_sfx o) ->
  asks m l reqs extra -> Forall about_objects reqs -> l_out l = [] -> (2 * length (l_in l) + 2 <= fuel)%nat ->
  exists q, procs (sys_run cs (Sys ps s0)) !! i = Some q /\
    so_far en m lfs (Sys ps s0) cs i (l_in l) reqs extra (l_out (pr_local q)) (length cs) (pr_prog q = Ret (0%Z, [])) /\
    (forall x, pr_prog q = Ret x -> x = (0%Z, [])) /\
    (forall f, pr_prog q = Fail f -> too_long lfs (Sys ps s0) cs fuel f).
Proof.
  intros HH Hlfs Ho Hst Hps Hi Hcfg Hcs Hask Hob Hout Hf.
  destruct (c74 en m lfs fuel cfg ps s0 cs i l dead reqs extra HH Hlfs Ho Hst Hps Hi Hcfg Hcs Hask Hout Hf) as (q & H1 & H2 & H3 & H4).
  exists q. split_and!; try done. intros f Hq. rewrite Forall_forall in Hob.
  destruct (H4 f Hq) as [|kvs p k1 k2 Hin|kvs tm Hin|r k1 k2 c j d tm p Hin Hno]; [done|exfalso; by apply Hob in Hin..].
Qed.
