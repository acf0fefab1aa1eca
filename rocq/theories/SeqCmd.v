(** One request to a server that runs alone. *)
From Verif Require Import Bytes ByteFacts Err FS Prog Pktline Args Local Processor Transfer Wp PktFacts ReaderFacts
  Spec SpecStore SpecServer FsFacts PktProofs TextProofs IoFacts ObjProofs StoreProofs GetProofs SeqIo SeqFs.
From stdpp Require Import sorting.

Local Arguments parse_header : simpl never.
Local Opaque COPY_BUF pk MAX_PACKET_LEN.

(** ** Answers *)

Lemma line_sent_pk m : line_sent m (pk m).
Proof.
  destruct (pk_chunks m) as (cs & E & H1 & H2). exists cs. split_and!; [done|done|done|].
  intros Hm. rewrite pk_short in E by done. destruct cs as [|c [|c2 cs]]; try done. by injection E as ->.
Qed.
Lemma lines_sent_pks ms : lines_sent ms (pks ms).
Proof. induction ms as [|m ms IH]; simpl; constructor; [apply line_sent_pk|done]. Qed.

Definition codes : list N := [200; 201; 400; 403; 404; 409; 500]%N.
Lemma is_code c : bool_decide (c ∈ codes) = true -> c ∈ codes.
Proof. by intros ?%bool_decide_eq_true. Qed.
Lemma code_denotes c : c ∈ codes -> denotes (pad0 3 (dec c)) c /\ length (pad0 3 (dec c)) = 3%nat.
Proof.
  intros H. unfold codes in H.
  repeat (apply elem_of_cons in H as [->|H]; [split; [apply denotes_dval; split_and!; by vm_compute|by vm_compute]|]).
  by apply elem_of_nil in H.
Qed.

(** The answer [r] is what the server sends for the status [st]. *)
Definition sends (s : fs) (st : status) (r : reply) : Prop :=
  st_code st ∈ codes /\ rp_code r = st_code st /\ rp_args r = default [] (st_args st) /\
  match rp_body r with
  | BNone => st_msgs st = None /\ st_reader st = None
  | BLines ls => st_msgs st = Some ls
  | BText t => st_msgs st = Some [t]
  | BData d => st_msgs st = None /\ exists j x, st_reader st = Some (HFile j) /\
                 inodes s !! j = Some x /\ i_data x = d
  end.

(** ** Directory listings *)
Lemma elem_children s d n : n ∈ children s d <-> is_Some (nodes s !! (d ++ [n])).
Proof.
  unfold children. rewrite elem_of_list_omap. split.
  - intros ([p x] & Hin & E). apply elem_of_map_to_list in Hin. destruct (last p) as [m|] eqn:El; [|done].
    case_decide as Er; [|done]. injection E as <-. exists x.
    destruct p as [|y p'] using rev_ind; [done|]. rewrite last_snoc in El. injection El as ->.
    rewrite removelast_last in Er. by subst.
  - intros [x Hx]. exists (d ++ [n], x). split; [by apply elem_of_map_to_list|].
    rewrite last_snoc, removelast_last, decide_True by done. done.
Qed.

Lemma nodup_omap {A B} (f : A -> option B) l : NoDup l ->
  (forall x y b, x ∈ l -> y ∈ l -> f x = Some b -> f y = Some b -> x = y) -> NoDup (omap f l).
Proof.
  induction 1 as [|x l Hx Hl IH]; intros Hf; [constructor|]. simpl.
  assert (Hr : NoDup (omap f l)).
  { apply IH. intros y z b Hy Hz. apply Hf; by right. }
  destruct (f x) as [b|] eqn:E; [|done]. constructor; [|done].
  intros Hin. apply elem_of_list_omap in Hin as (y & Hy & Ey). apply Hx.
  rewrite (Hf x y b); [done|by left|by right|done|done].
Qed.

Lemma nodup_children s d : NoDup (children s d).
Proof.
  unfold children. apply nodup_omap; [apply NoDup_map_to_list|].
  intros [p x] [q y] b Hp Hq E1 E2. apply elem_of_map_to_list in Hp, Hq.
  destruct (last p) as [m|] eqn:El; [|done]. destruct (last q) as [m'|] eqn:El'; [|done].
  case_decide as D1; [|done]. case_decide as D2; [|done]. injection E1 as <-. injection E2 as ->.
  destruct p as [|z p] using rev_ind; [done|]. destruct q as [|z' q] using rev_ind; [done|].
  rewrite removelast_last in D1, D2. rewrite last_snoc in El, El'. subst. injection El as ->. injection El' as ->.
  congruence.
Qed.

Global Instance ble_total : Total ble.
Proof.
  intros a b. unfold ble. destruct (blt b a) eqn:E; [|by left]. right. by apply blt_asym.
Qed.
Lemma ble_cases a b : ble a b <-> blt a b = true \/ a = b.
Proof.
  unfold ble. split.
  - intros H. destruct (blt a b) eqn:E; [by left|]. right. by apply blt_total.
  - intros [H| ->]; [by apply blt_asym|apply blt_irrefl].
Qed.
Global Instance ble_trans : Transitive ble.
Proof.
  intros a b c. rewrite !ble_cases. intros [H1| ->] [H2| ->]; try (by right); left; try done.
  by eapply blt_trans.
Qed.

Lemma sorted_strict l : NoDup l -> StronglySorted (fun a b => blt a b = true) (merge_sort ble l).
Proof.
  intros Hn. assert (Hn' : NoDup (merge_sort ble l)) by (by rewrite merge_sort_Permutation).
  pose proof (StronglySorted_merge_sort ble l) as Hs. revert Hn' Hs. generalize (merge_sort ble l). clear.
  induction l as [|a l IH]; intros Hn Hs; [constructor|].
  apply NoDup_cons in Hn as [Ha Hn]. apply StronglySorted_inv in Hs as [Hs Hf]. constructor; [by apply IH|].
  rewrite Forall_forall in Hf |- *. intros b Hb. specialize (Hf b Hb). apply ble_cases in Hf as [?|<-]; done.
Qed.

Section cmd.
Context (en : env) (lfs : path) (umask : N) (ts : option Z) (clock : Z -> Prop).
Context (m : mode) (pid fuel : nat) (F : failure -> local -> fs -> Prop).
Context (HH : digest (en_hash en)) (Hlfs : Forall plain_name lfs).
Context (Hts : forall t, ts = Some t -> clock t) (Hclock : forall t, clock t -> time_ok en t).
Local Notation be := (Backend lfs umask ts).
Local Notation ok := (mild ts clock).
Local Notation rep := (represents en lfs).
Local Notation WP := (wp pid ok F).

Lemma ok_no_fault o : ok o -> no_fault o.
Proof using Type. by intros []. Qed.
Local Hint Resolve ok_no_fault : core.

Lemma nf_copy_out f j x d off (Q : res unit -> local -> fs -> Prop) l s :
  inodes s !! j = Some x -> i_data x = d -> (length d - off < f)%nat ->
  (forall cs, concat cs = drop off d -> Forall small cs ->
     Q (Ok tt) (add_out (enc_all (map PData cs)) l) s) ->
  WP (copy_out f (HFile j) off) Q l s.
Proof using Type.
  intros Hx Hd. revert off l Q. induction f as [|f IH]; intros off l Q Hf HQ; [lia|]. cbn [copy_out].
  apply wp_bindR, wp_io_call, wp_call. intros o Ho. apply ok_no_fault in Ho. unfold no_fault in Ho.
  cbn [handle_ev]. unfold faulty. rewrite Ho. cbn [res_of_io fs_read_at]. unfold fs_data, inode_at. rewrite Hx, Hd.
  set (c := take (N.to_nat COPY_BUF) (drop off d)). destruct copy_buf_pos as [k Ek].
  assert (Hc : c = [] -> drop off d = []).
  { unfold c. rewrite Ek. by destruct (drop off d). }
  destruct c as [|y c'] eqn:Ec.
  - apply wp_ret. specialize (HQ []). simpl in HQ. rewrite add_out_nil in HQ. apply HQ; [|constructor].
    by rewrite Hc.
  - rewrite <- Ec. apply wp_bindR, nf_send; [exact ok_no_fault|]. apply IH.
    + apply (f_equal length) in Ec. unfold c in Ec |- *. rewrite take_length, drop_length in Ec |- *.
      simpl in Ec. lia.
    + intros cs H1 H2. rewrite add_out_app.
      destruct (pk_chunks c) as (cs0 & E0 & E1 & E2). rewrite E0, <- enc_all_app, <- map_app.
      apply HQ; [|by apply Forall_app].
      rewrite concat_app, E1, H1. rewrite <- drop_drop.
      assert (Ek' : drop (length c) (drop off d) = drop (N.to_nat COPY_BUF) (drop off d)).
      { unfold c. rewrite take_length.
        destruct (decide (N.to_nat COPY_BUF <= length (drop off d))%nat); [by rewrite Nat.min_l by lia|].
        rewrite !drop_ge; [done|lia|lia]. }
      rewrite Ek'. unfold c. apply take_drop.
Qed.

Definition fits (r : reply) : Prop := match rp_body r with BData d => (length d < fuel)%nat | _ => True end.

Lemma nf_answer st r (Q : res unit -> local -> fs -> Prop) l s :
  sends s st r -> fits r ->
  (forall ps s', reply_sent r ps -> nodes s' = nodes s -> inodes s' = inodes s ->
     Q (Ok tt) (add_out (enc_all ps) l) s') ->
  WP (answer fuel st) Q l s.
Proof using Type.
  intros (Hc & Ec & Ea & Hb) Hfit HQ. unfold answer, send_status.
  apply wp_bind, wp_call. intros o _. cbn [handle_ev].
  destruct (code_denotes _ Hc) as [Hden Hlen].
  assert (Hsm : small (status_line (st_code st))).
  { apply status_line_small. clear -Hc. unfold codes in Hc.
    repeat (apply elem_of_cons in Hc as [->|Hc]; [done|]). by apply elem_of_nil in Hc. }
  assert (HQ' : forall qb, body_sent (rp_body r) qb ->
    Q (Ok tt) (add_out (enc PFlush) (add_out (enc_all qb) (add_out (enc_all (pks (default [] (st_args st))))
       (add_out (enc_all (pk (status_line (st_code st)))) l)))) (log pid (OAnswer (st_code st) (default [] (st_args st))) s)).
  { intros qb Hqb. rewrite pk_short by done. rewrite !add_out_app.
    match goal with |- Q _ (add_out ?w l) _ =>
      replace w with (enc_all (PData (status_line (st_code st)) :: pks (default [] (st_args st)) ++ qb ++ [PFlush])) end.
    - apply HQ; [|done|done]. exists (pad0 3 (dec (st_code st))), (pks (default [] (st_args st))), qb.
      rewrite Ec, Ea. split_and!; try done. apply lines_sent_pks.
    - cbn [enc_all flat_map]. change (flat_map enc) with enc_all. rewrite !enc_all_app. cbn [enc_all flat_map].
      by rewrite !app_nil_r, !app_assoc. }
  apply wp_bindR, nf_send; [exact ok_no_fault|]. apply wp_bindR, nf_send_all; [exact ok_no_fault|].
  destruct (rp_body r) as [|ls|d|] eqn:Eb.
  - destruct Hb as [-> ->]. apply wp_bindR, wp_ret. apply nf_flush; [exact ok_no_fault|].
    specialize (HQ' [] eq_refl). simpl in HQ'. by rewrite (add_out_nil (add_out _ _)) in HQ'.
  - rewrite Hb. apply wp_bindR, wp_bindR, nf_delim; [exact ok_no_fault|]. apply nf_send_all; [exact ok_no_fault|]. apply nf_flush; [exact ok_no_fault|].
    specialize (HQ' (PDelim :: pks ls)). cbn [enc_all flat_map] in HQ'.
    rewrite (add_out_app (enc PDelim)). apply HQ'. exists (pks ls). split; [done|apply lines_sent_pks].
  - destruct Hb as (-> & j & x & -> & Hx & Hd). apply wp_bindR, wp_bindR, nf_delim; [exact ok_no_fault|].
    eapply nf_copy_out; [exact Hx|exact Hd|unfold fits in Hfit; rewrite Eb in Hfit; lia|].
    intros cs H1 H2. apply nf_flush; [exact ok_no_fault|].
    specialize (HQ' (PDelim :: map PData cs)). cbn [enc_all flat_map] in HQ'.
    rewrite (add_out_app (enc PDelim)). apply HQ'. by exists cs.
  - rewrite Hb. apply wp_bindR, wp_bindR, nf_delim; [exact ok_no_fault|]. apply nf_send_all; [exact ok_no_fault|]. apply nf_flush; [exact ok_no_fault|].
    specialize (HQ' (PDelim :: pk t)). cbn [enc_all flat_map] in HQ'.
    rewrite (add_out_app (enc PDelim)). cbn [pks flat_map]. rewrite app_nil_r. apply HQ'.
    exists (pk t). split; [done|apply line_sent_pk].
Qed.

(** ** Calls that only look *)
Lemma nf_stat p (Q : iores (N * N) -> local -> fs -> Prop) l s :
  Q (fs_stat p s) l s -> WP (call (EStat p)) Q l s.
Proof using Type. intros H. apply wp_call. intros o [Ho _]. cbn [handle_ev]. unfold faulty. by rewrite Ho. Qed.
Lemma nf_open p (Q : iores handle -> local -> fs -> Prop) l s :
  Q (fs_open p s) l s -> WP (call (EOpen p)) Q l s.
Proof using Type. intros H. apply wp_call. intros o [Ho _]. cbn [handle_ev]. unfold faulty. by rewrite Ho. Qed.
Lemma nf_read_all h (Q : iores bytes -> local -> fs -> Prop) l s :
  Q (fs_read_all h s) l s -> WP (call (EReadAll h)) Q l s.
Proof using Type. intros H. apply wp_call. intros o [Ho _]. cbn [handle_ev]. unfold faulty. by rewrite Ho. Qed.
Lemma nf_fstat h (Q : iores N -> local -> fs -> Prop) l s :
  Q (fs_fstat h s) l s -> WP (call (EFstat h)) Q l s.
Proof using Type. intros H. apply wp_call. intros o [Ho _]. cbn [handle_ev]. unfold faulty. by rewrite Ho. Qed.
Lemma nf_readdir p (Q : iores (list name) -> local -> fs -> Prop) l s :
  Q (fs_readdir p s) l s -> WP (call (EReaddir p)) Q l s.
Proof using Type. intros H. apply wp_call. intros o [Ho _]. cbn [handle_ev]. unfold faulty. by rewrite Ho. Qed.

Lemma nf_timestamp (Q : Z -> local -> fs -> Prop) l s :
  (forall t, clock t -> Q t l s) -> WP (timestamp be) Q l s.
Proof using Hts.
  intros H. unfold timestamp. simpl. destruct ts as [t|] eqn:E.
  - apply wp_ret, H. by apply Hts.
  - apply wp_call. intros o (_ & _ & Ho). simpl. apply H. by apply Ho.
Qed.

(** ** Objects *)
Lemma object_path_cons o : object_path lfs o <> [].
Proof using Type. by intros [_ ?]%app_eq_nil. Qed.

Lemma stat_object s w o : rep s w -> is_oid o ->
  match w_objs w !! o with
  | Some d => exists u, fs_stat (expected_path lfs o) s = IOk (lenN d, u)
  | None => fs_stat (expected_path lfs o) s = IErr ENOENT
  end.
Proof using Hlfs.
  intros Hr Ho. rewrite <- object_path_eq. pose proof (look_object en lfs Hlfs s w o Hr Ho) as H.
  unfold fs_stat. destruct (w_objs w !! o) as [d|].
  - destruct H as (-> & j & x & Hj & Hx & Hd). rewrite node_at_cons, Hj by apply object_path_cons.
    unfold fs_data, inode_at. rewrite Hx, Hd. by eexists.
  - destruct H as [->|[-> Hn]]; [done|]. by rewrite node_at_cons, Hn by apply object_path_cons.
Qed.

Lemma open_object s w o : rep s w -> is_oid o ->
  match w_objs w !! o with
  | Some d => exists j x, fs_open (expected_path lfs o) s = IOk (HFile j) /\ inodes s !! j = Some x /\ i_data x = d
  | None => fs_open (expected_path lfs o) s = IErr ENOENT
  end.
Proof using Hlfs.
  intros Hr Ho. rewrite <- object_path_eq. pose proof (look_object en lfs Hlfs s w o Hr Ho) as H.
  unfold fs_open. destruct (w_objs w !! o) as [d|].
  - destruct H as (-> & j & x & Hj & Hx & Hd). rewrite node_at_cons, Hj by apply object_path_cons.
    by exists j, x.
  - destruct H as [->|[-> Hn]]; [done|]. by rewrite node_at_cons, Hn by apply object_path_cons.
Qed.

(** ** Reading a request *)
Definition short (ps : list packet) : Prop := Forall (fun p => lenN (payload p) <= 65531)%N ps.

Lemma nf_read_lines stop ls tl (Q : res (list bytes) -> local -> fs -> Prop) l s :
  (length (l_in l) < fuel)%nat -> upto stop (lines ls) (l_in l) tl ->
  Q (Ok ls) (set_in tl l) s -> WP (read_to_type fuel stop) Q l s.
Proof using Type.
  intros Hf Hin HQ. eapply (nf_read_to_type pid ok F ok_no_fault fuel stop (lines ls) tl); try done.
  replace (map payload (lines ls)) with ls; [done|]. unfold lines. rewrite map_map. simpl. symmetry. apply map_id.
Qed.

(** The input goes on with the packets of [r] after the first. *)
Definition given (r : request) (i tl : bytes) : Prop :=
  match r with
  | RVersion => upto PFlush [] i tl
  | RBatch kvs items => exists i1, upto PDelim (args kvs) i i1 /\ upto PFlush (lines (map item_line items)) i1 tl
  | RPut _ kvs ds => exists i1, upto PDelim (args kvs) i i1 /\ datas i1 ds (Ok tt) tl
  | RVerify _ kvs | RGet _ kvs | RLock kvs | RList kvs | RUnlock _ kvs => upto PFlush (args kvs) i tl
  end.
Lemma lines_data ls p : p = PFlush \/ p = PDelim -> p ∉ lines ls.
Proof using Type.
  intros Hp Hin. unfold lines in Hin. apply elem_of_list_fmap in Hin as (b & E & _). destruct Hp as [-> | ->]; done.
Qed.
Lemma given_enc r tl : well_formed m r -> short (tail (packets_of r)) -> given r (enc_all (tail (packets_of r)) ++ tl) tl.
Proof using Type.
  intros Hwf Hs.
  assert (G : forall kvs, short (args kvs ++ [PFlush]) -> upto PFlush (args kvs) (enc_all (args kvs ++ [PFlush]) ++ tl) tl).
  { intros kvs H. apply Forall_app in H as [H _]. apply upto_enc; [by left|apply lines_data; by left|done]. }
  destruct r as [|kvs items|o kvs ds|o kvs|o kvs|kvs|kvs|i kvs]; cbn [packets_of tail given] in *; try by apply G.
  - apply (upto_enc PFlush [] tl); [by left|apply not_elem_of_nil|constructor].
  - apply Forall_app in Hs as [H1 Hs]. apply Forall_cons in Hs as [_ Hs]. apply Forall_app in Hs as [H2 _].
    rewrite app_assoc, enc_all_app, <- app_assoc. eexists.
    split; (apply upto_enc; [by auto|apply lines_data; by auto|done]).
  - apply Forall_app in Hs as [H1 _]. rewrite (app_assoc (args kvs)), enc_all_app, <- app_assoc. eexists.
    split; [apply upto_enc; [by auto|apply lines_data; by auto|done]|]. apply datas_enc; [|by left]. apply Hwf.
Qed.

Lemma nf_args (kvs : list (bytes * bytes)) (Q : res argmap -> local -> fs -> Prop) l s :
  args_ok kvs -> (forall a, (forall k v, a !! k = Some v <-> (k, v) ∈ kvs) -> Q (Ok a) l s) ->
  WP (or_panic (parse_args (map arg_line kvs))) Q l s.
Proof using Type.
  intros [H1 H2] HQ. destruct (c09 kvs H1 H2) as (a & -> & Ha). apply wp_ret. by apply HQ.
Qed.

Lemma no_key_none (a : argmap) (kvs : list (bytes * bytes)) k : (forall k v, a !! k = Some v <-> (k, v) ∈ kvs) ->
  a !! k = None -> no_key k kvs.
Proof using Type.
  intros Ha Hn Hin. apply elem_of_list_fmap in Hin as ([k' v] & -> & Hin). apply Ha in Hin. simpl in Hn. congruence.
Qed.
Lemma key_lookup (a : argmap) (kvs : list (bytes * bytes)) k : (forall k v, a !! k = Some v <-> (k, v) ∈ kvs) -> key k kvs (a !! k).
Proof using Type.
  intros Ha. destruct (a !! k) eqn:E; [by apply Ha|]. by eapply no_key_none.
Qed.

Lemma parse_number b n : parse_integer b = Ok n <-> number b n.
Proof using Type. apply c11. Qed.
Lemma number_fun b n n' : number b n -> number b n' -> n = n'.
Proof using Type. rewrite <- !parse_number. congruence. Qed.
Lemma parse_number_er b e : parse_integer b = Er e ->
  client_error (e_kind e) = true /\ (~ exists n, number b n) /\ display e = bad_number b.
Proof using Type.
  intros E. split_and!.
  - unfold parse_integer in E. destruct (parse_u64 b); [done|]. by injection E as <-.
  - intros [n Hn]. apply parse_number in Hn. congruence.
  - unfold parse_integer in E. destruct (parse_u64 b); [done|]. by injection E as <-.
Qed.

(** ** The outcome of a request *)
Definition room (w : world) : Prop := forall o d, w_objs w !! o = Some d -> (length d < fuel)%nat.

Definition result (w : world) (r : request) (tl : bytes) (l : local) (x : res status * rbuf)
  (l' : local) (s' : fs) : Prop :=
  exists a w', answer_of en m (l_uid l) clock w r a w' /\ rep s' w' /\ room w' /\
    sends s' (status_of x.1) a /\ fits a /\ l' = set_in tl l /\ rb_wf x.2 /\ pend x.2 = [].

Definition rb_ok (rb : rbuf) : Prop := rb_wf rb /\ pend rb = [].

Lemma sends_fail s c t : c ∈ codes -> sends s (st_failure c t) (Reply c [] (BText t)).
Proof using Type. done. Qed.
Lemma sends_lines s c a ls h : c ∈ codes -> sends s (Status c a (Some ls) h) (Reply c (default [] a) (BLines ls)).
Proof using Type. done. Qed.
Lemma sends_none s c a : c ∈ codes -> sends s (Status c a None None) (Reply c (default [] a) BNone).
Proof using Type. done. Qed.
Lemma sends_error s e : client_error (e_kind e) = true -> sends s (status_of_error e) (refusal (display e)).
Proof using Type. intros H. unfold status_of_error. rewrite H. by apply sends_fail, is_code. Qed.

(** A client's mistake. *)
Lemma result_400 w r tl l l' e rb s : client_error (e_kind e) = true ->
  answer_of en m (l_uid l) clock w r (refusal (display e)) w -> rep s w -> room w -> rb_ok rb ->
  l' = set_in tl l -> result w r tl l (Er e, rb) l' s.
Proof using Type.
  intros H1 H2 H3 H4 [] ->. exists (refusal (display e)), w. split_and!; try done. by apply sends_error.
Qed.
Lemma result_text w r c tl l l' t rb s : c ∈ codes ->
  answer_of en m (l_uid l) clock w r (Reply c [] (BText t)) w -> rep s w -> room w -> rb_ok rb ->
  l' = set_in tl l -> result w r tl l (Ok (st_failure c t), rb) l' s.
Proof using Type.
  intros H1 H2 H3 H4 [] ->. exists (Reply c [] (BText t)), w. split_and!; try done.
Qed.

(** The server's answer to [r], of which the first packet has been read. *)
Definition answers (r : request) (c : command) : Prop :=
  forall w rb tl l s, rep s w -> room w -> rb_ok rb -> (2 * length (l_in l) + 2 <= fuel)%nat ->
  given r (l_in l) tl ->
  WP (handle_command en be fuel c m rb) (result w r tl l) l s.

Lemma nf_version : answers RVersion CVersion.
Proof using Type.
  intros w rb tl l s Hr Hw [Hrb1 Hrb2] Hf Hin. cbn [handle_command].
  apply wp_bind. unfold p_version. apply wp_bindR.
  apply (nf_read_lines PFlush [] tl); [lia|done|].
  apply wp_ret. apply wp_ret. exists (Reply 200 [] (BLines [])), w. split_and!; try done.
  - constructor.
  - by apply (sends_lines s 200 None), is_code.
Qed.

(** *** batch *)
Lemma number_no_sp b n : number b n -> SP ∉ b.
Proof using Type.
  intros [(ds & Hb & Hd) _].
  assert (G : SP ∉ ds).
  { apply denotes_dval in Hd as (_ & Hd & _). rewrite forallb_forall in Hd.
    intros Hc. apply elem_of_list_In in Hc. by apply Hd in Hc. }
  destruct Hb as [-> | ->]; [done|]. apply not_elem_of_cons. done.
Qed.
Lemma oid_no_sp o : is_oid o -> SP ∉ o.
Proof using Type.
  intros [_ H] Hin. rewrite Forall_forall in H. destruct (H _ Hin) as [v Hv].
  apply hex_digit_hexdig in Hv as [Hv E]. revert v Hv E.
  by apply (lt_16_cases (fun v => SP = hexdig v -> False)).
Qed.

Lemma batch_line_item o b n : is_oid o -> number b n -> batch_line (item_line (o, b)) = Ok (o, n).
Proof using Type.
  intros Ho Hb. unfold batch_line, item_line. cbn [fst snd].
  replace (o ++ [SP] ++ b ++ [NL]) with ((o ++ [SP] ++ b) ++ [NL]) by (by rewrite <- !app_assoc).
  rewrite last_is_snoc, bool_decide_eq_true_2 by done. rewrite <- !app_assoc.
  change (o ++ [SP] ++ b ++ [NL]) with (o ++ SP :: (b ++ [NL])).
  rewrite split_on_app by (by apply oid_no_sp).
  rewrite split_on_none.
  2: { apply not_elem_of_app. split; [by eapply number_no_sp|]. by intros ?%elem_of_list_singleton. }
  destruct (b ++ [NL]) as [|y b'] eqn:E; [by destruct b|]. rewrite <- E. rewrite removelast_last.
  assert (parse_u64 b = Some n) as ->.
  { apply parse_number in Hb. unfold parse_integer in Hb. destruct (parse_u64 b); congruence. }
  by rewrite (proj2 (oid_new_iff o o)).
Qed.

Lemma batch_lines_items items ns :
  Forall2 (fun x n => number x.2 n) items ns -> Forall (fun x => is_oid x.1) items ->
  batch_lines (map item_line items) = Ok (zip items.*1 ns).
Proof using Type.
  induction 1 as [|[o b] n items ns Hn _ IH]; intros Ho; [done|]. apply Forall_cons in Ho as [Ho1 Ho].
  cbn [map batch_lines]. rewrite (batch_line_item o b n) by done. by rewrite IH.
Qed.

Definition show (w : world) (x : bytes * N) : batch_item :=
  BatchItem x.1 (match w_objs w !! x.1 with Some d => lenN d | None => x.2 end)
    (bool_decide (is_Some (w_objs w !! x.1))).
Lemma nf_batch w xs (Q : list batch_item -> local -> fs -> Prop) l s :
  rep s w -> Forall (fun x => is_oid x.1) xs -> Q (map (show w) xs) l s -> WP (backend_batch be xs) Q l s.
Proof using Hlfs.
  intros Hr Hxs. revert Q. induction Hxs as [|[o n] xs Ho _ IH]; intros Q HQ; [by apply wp_ret|].
  cbn [backend_batch]. apply wp_bind. unfold size_at_path. apply wp_bind, nf_stat.
  cbn [be_lfs]. pose proof (stat_object s w o Hr Ho) as Hst. apply wp_ret.
  apply wp_bind. apply IH. apply wp_ret. cbn [map] in HQ. unfold show in HQ at 1. cbn [fst snd] in HQ.
  destruct (w_objs w !! o) as [d|].
  - destruct Hst as [u ->]. exact HQ.
  - rewrite Hst. exact HQ.
Qed.

Lemma nf_batch_cmd kvs items : well_formed m (RBatch kvs items) -> answers (RBatch kvs items) CBatch.
Proof using Hlfs.
  intros [Hargs Hitems] w rb tl l s Hr Hw [Hrb1 Hrb2] Hf Hin. cbn [handle_command].
  destruct Hin as (tl1 & Hin1 & Hin2). pose proof (upto_shrink _ _ _ _ Hin1) as Hsh.
  apply wp_bind.
  assert (Hgo : forall pr mi, (forall b : bool, is_upload m = true -> (if b then pr else mi) = if b then bs "noop" else bs "upload") ->
    (forall b : bool, is_upload m = false -> (if b then pr else mi) = if b then bs "download" else bs "noop") ->
    WP (p_batch be fuel pr mi) (fun a => WP (Ret (a, rb)) (result w (RBatch kvs items) tl l)) l s).
  { intros pr mi Hup Hdown. unfold p_batch, read_batch. apply wp_bindR, wp_bindR.
    apply (nf_read_lines PDelim (map arg_line kvs) tl1); [lia|done|].
    apply wp_bindR, (nf_args kvs); [done|]. intros a Ha.
    apply wp_bindR. unfold read_to_flush_wrapped, read_to_flush. apply wp_bind.
    apply (nf_read_lines PFlush (map item_line items) tl); [cbn [l_in set_in]; lia|done|].
    apply wp_ret. rewrite set_in_set_in.
    assert (exists ns, Forall2 (fun x n => number x.2 n) items ns) as [ns Hns].
    { clear -Hitems. induction Hitems as [|x items [_ [n Hn]] _ [ns IH]]; [by exists []|]. exists (n :: ns). by constructor. }
    assert (Hoid : Forall (fun x => is_oid x.1) items) by (eapply Forall_impl; [exact Hitems|]; by intros x []).
    assert (Hrun : (a !! bs "hash-algo" = None \/ a !! bs "hash-algo" = Some (bs "sha256")) ->
      WP (let? oids := Ret (batch_lines (map item_line items)) in
          let! its := backend_batch be oids in Ret (Ok its))
        (fun r l' s' => match r with
          | Ok a0 => WP (Ret (Ok (st_new_success (map (batch_out pr mi) a0)))) (fun a1 => WP (Ret (a1, rb)) (result w (RBatch kvs items) tl l)) l' s'
          | Er e => WP (Ret (Er e, rb)) (result w (RBatch kvs items) tl l) l' s' end) (set_in tl l) s).
    { intros Hh. apply wp_bindR, wp_ret. rewrite (batch_lines_items items ns) by done.
      apply wp_bind, (nf_batch w); [done| |].
      { apply Forall_forall. intros [o n] Hin'. apply elem_of_zip_l in Hin'.
        apply elem_of_list_fmap in Hin' as (x & -> & Hx). rewrite Forall_forall in Hoid. by apply Hoid. }
      apply wp_ret, wp_ret, wp_ret.
      exists (Reply 200 [] (BLines (zip_with (batch_line_for m w) items.*1 ns))), w.
      split_and!; try done.
      - eapply (a_batch _ _ _ _ _ _ _ _ (a !! bs "hash-algo")); [by apply key_lookup|done|done].
      - match goal with |- sends _ (status_of (Ok (st_new_success ?ls), _).1) (Reply _ _ (BLines ?ls')) => replace ls' with ls end.
        { by apply (sends_lines s 200 None), is_code. }
        clear -Hns Hup Hdown. induction Hns as [|x n items ns _ _ IH]; [done|].
        cbn [fmap list_fmap zip zip_with map]. f_equal; [|exact IH].
        unfold batch_out, batch_line_for, show. cbn [bi_oid bi_size bi_present fst snd].
        destruct (w_objs w !! x.1) as [d|].
        + rewrite bool_decide_eq_true_2 by (by eexists).
          destruct m; [rewrite (Hup true eq_refl)|rewrite (Hdown true eq_refl)]; done.
        + rewrite bool_decide_eq_false_2 by (by intros []).
          destruct m; [rewrite (Hup false eq_refl)|rewrite (Hdown false eq_refl)]; done. }
    destruct (a !! bs "hash-algo") as [x|] eqn:Ex.
    - case_decide as Hx.
      + apply Hrun. right. congruence.
      + apply wp_ret, wp_ret. apply result_400; try done. eapply a_batch_algo; [by apply Ha|done].
    - apply Hrun. by left. }
  destruct (is_upload m) eqn:Em; apply Hgo; intros b; congruence || by destruct b.
Qed.

(** *** verify-object and get-object *)
Lemma io_kind_enoent : io_kind (err_of_io ENOENT) = KNotFound.
Proof using Type. done. Qed.


Lemma oid_new_no o e : oid_new o = Er e -> client_error (e_kind e) = true /\ ~ is_oid o.
Proof using Type.
  intros E. split.
  - unfold oid_new in E. destruct (oid_valid o); [done|]. by injection E as <-.
  - intros Ho. rewrite (proj2 (oid_new_iff o o)) in E by done. done.
Qed.

Lemma nf_verify_cmd o kvs : well_formed m (RVerify o kvs) -> answers (RVerify o kvs) (CVerify o).
Proof using Hlfs.
  intros (_ & Hargs & _) w rb tl l s Hr Hw Hrb Hf Hin. cbn [handle_command].
  apply wp_bind. unfold p_verify_object. apply wp_bindR.
  apply (nf_read_lines PFlush (map arg_line kvs) tl); [lia|done|].
  apply wp_bindR, (nf_args kvs); [done|]. intros a Ha. apply wp_bindR, wp_ret.
  destruct (oid_new o) as [o'|e] eqn:Eo.
  2: { pose proof (oid_new_no _ _ Eo) as [E1 E2]. apply wp_ret. apply result_400; try done.
       unfold oid_new in Eo. destruct (oid_valid o); [done|]. injection Eo as <-. by apply a_verify_oid. }
  apply oid_new_iff in Eo as [-> Ho]. unfold backend_verify, parse_value_as_integer.
  apply wp_bindR, wp_ret. destruct (a !! bs "size") as [b|] eqn:Eb.
  2: { apply wp_ret. apply result_400; try done. apply a_verify_no_size; [done|]. by eapply no_key_none. }
  destruct (parse_integer b) as [n|e] eqn:En.
  2: { apply parse_number_er in En as (E1 & E2 & E3). apply wp_ret. apply result_400; try done. rewrite E3.
       apply a_verify_number; [done|by apply Ha|done]. }
  apply parse_number in En. apply Ha in Eb. apply wp_bind, nf_stat. cbn [be_lfs].
  pose proof (stat_object s w o Hr Ho) as Hst. destruct (w_objs w !! o) as [d|] eqn:Ed.
  - destruct Hst as [u ->]. destruct (lenN d =? n)%N eqn:En'.
    + apply N.eqb_eq in En'. subst n. apply wp_ret, wp_ret. destruct Hrb.
      exists (Reply 200 [] BNone), w. split_and!; try done.
      * by eapply a_verify_ok.
      * by apply (sends_none s 200 None), is_code.
    + apply N.eqb_neq in En'. apply wp_ret, wp_ret. apply result_text; try done; [by apply is_code|].
      eapply a_verify_size; done || congruence.
  - rewrite Hst. rewrite decide_True by done. apply wp_ret, wp_ret. apply result_text; try done; [by apply is_code|].
    by eapply a_verify_none.
Qed.

Lemma nf_get_cmd o kvs : well_formed m (RGet o kvs) -> answers (RGet o kvs) (CGet o).
Proof using Hlfs.
  intros (_ & Hargs & _) w rb tl l s Hr Hw Hrb Hf Hin. cbn [handle_command].
  apply wp_bind. unfold p_get_object. apply wp_bindR.
  apply (nf_read_lines PFlush (map arg_line kvs) tl); [lia|done|].
  apply wp_bindR, (nf_args kvs); [done|]. intros a Ha. apply wp_bindR, wp_ret.
  destruct (oid_new o) as [o'|e] eqn:Eo.
  2: { pose proof (oid_new_no _ _ Eo) as [E1 E2]. apply wp_ret. apply result_400; try done.
       unfold oid_new in Eo. destruct (oid_valid o); [done|]. injection Eo as <-. by apply a_get_bad. }
  apply oid_new_iff in Eo as [-> Ho]. apply wp_bind. unfold backend_download. apply wp_bindR, wp_io_call, nf_open.
  cbn [be_lfs]. pose proof (open_object s w o Hr Ho) as Hst. destruct (w_objs w !! o) as [d|] eqn:Ed.
  - destruct Hst as (j & x & -> & Hx & Hd). cbn [res_of_io]. apply wp_bindR, wp_io_call, nf_fstat.
    cbn [res_of_io fs_fstat]. apply wp_ret. unfold fs_data, inode_at. rewrite Hx, Hd. apply wp_ret, wp_ret.
    destruct Hrb. exists (Reply 200 [bs "size=" ++ dec (lenN d) ++ [NL]] (BData d)), w. split_and!; try done.
    + by apply a_get.
    + split; [by apply is_code|]. split; [done|]. split; [done|]. split; [done|]. exists j, x. done.
    + by apply (Hw o).
  - rewrite Hst. cbn [res_of_io]. rewrite decide_True by done. apply wp_ret, wp_ret.
    apply result_text; try done; [by apply is_code|]. by apply a_get_none.
Qed.

(** *** put-object *)

(** While an upload is under way: one more entry and one more inode. *)
Definition uploading (s s1 : fs) (n : name) (d : bytes) : Prop :=
  nodes s !! (lfs ++ [bs "incomplete"; n]) = None /\
  nodes s1 = <[lfs ++ [bs "incomplete"; n] := NFile (length (inodes s))]> (nodes s) /\
  exists x, inodes s1 = inodes s ++ [x] /\ i_data x = d.

Lemma in_incomplete : bs "incomplete" ∈ [bs "objects"; bs "incomplete"; bs "tmp"; bs "locks"].
Proof using Type. refine (bool_decide_eq_true_1 _ _). by vm_compute. Qed.
Lemma in_locks : bs "locks" ∈ [bs "objects"; bs "incomplete"; bs "tmp"; bs "locks"].
Proof using Type. refine (bool_decide_eq_true_1 _ _). by vm_compute. Qed.

Lemma temp_name o sfx s d : is_oid o -> Byte.x00 ∉ sfx ->
  stays (free_name s d (o ++ sfx)) /\ no_nul (free_name s d (o ++ sfx)).
Proof using Type.
  intros Ho Hs. destruct (oid_parts o Ho) as (_ & _ & _ & _ & _ & N3). destruct Ho as [Hl _].
  assert (Hst : forall z, stays ((o ++ sfx) ++ z)).
  { intros z. split_and!; intros E; apply (f_equal length) in E; rewrite !app_length, Hl in E; simpl in E; lia. }
  unfold free_name. destruct (nodes s !! _).
  - split; [apply Hst|]. unfold no_nul in *. rewrite !not_elem_of_app. split_and!; try done.
    intros Hin. apply elem_of_replicate in Hin as [Hin _]. done.
  - split; [rewrite <- (app_nil_r (o ++ sfx)); apply Hst|]. unfold no_nul in *. rewrite not_elem_of_app. done.
Qed.

Lemma uploading_dirs s s1 n d : uploading s s1 n d -> lfs_dirs s lfs -> lfs_dirs s1 lfs.
Proof using Type.
  intros (Hn & En & _). apply dirs_mono. intros q Hq. rewrite En, lookup_insert_ne; [done|]. intros <-. congruence.
Qed.

Lemma nf_start_upload w o ds r tl (Q : res (upload_state * bytes) * rbuf -> local -> fs -> Prop) rb l s :
  rep s w -> is_oid o -> rb_ok rb ->
  (2 * length (l_in l) + 1 < fuel)%nat -> datas (l_in l) ds r tl ->
  (forall s1 n rb', stays n -> no_nul n -> uploading s s1 n (concat ds) -> rb_ok rb' ->
     match r with
     | Ok _ => Q (Ok (UploadState o (lfs ++ [bs "incomplete"; n]), concat ds), rb') (set_in tl l) s1
     | Er e => WP (drop_temp (lfs ++ [bs "incomplete"; n])) (fun _ => Q (Er (err_of_io (io_of_err e)), rb')) (set_in tl l) s1
     end) ->
  WP (start_upload be fuel o rb) Q l s.
Proof using Hlfs.
  intros Hr Ho [Hrb1 Hrb2] Hf Hin HQ. pose proof (datas_len _ _ _ _ Hin) as Hlen. unfold start_upload. apply wp_bind, wp_call.
  intros or (Hor & Hsfx & _). cbn [handle_ev]. unfold faulty. rewrite Hor. unfold with_l, fs_mktemp. cbn [be_lfs].
  destruct (resolve_dir lfs Hlfs s (bs "incomplete") (r_dirs _ _ _ _ Hr) in_incomplete) as [-> ->].
  cbn [alloc fst snd]. set (n := free_name s _ _).
  assert (En : (lfs ++ [bs "incomplete"]) ++ [n] = lfs ++ [bs "incomplete"; n]) by (by rewrite <- app_assoc).
  rewrite En. destruct (temp_name o (o_sfx or) s (lfs ++ [bs "incomplete"]) Ho Hsfx) as [Hn1 Hn2].
  fold n in Hn1, Hn2.
  apply wp_bind. eapply (nf_copy_to_file pid ok F ok_no_fault fuel _ [] rb ds r tl); [|done|done| |].
  { rewrite Hrb2. simpl. lia. }
  { simpl. rewrite lookup_app_r by lia. by rewrite Nat.sub_diag. }
  intros rb' H1 H2. rewrite Hrb2. cbn [app].
  match goal with |- wp _ _ _ _ _ _ ?s1 => assert (Hu : uploading s s1 n (concat ds)) end.
  { split_and!.
    - rewrite <- En. apply free_name_free.
    - done.
    - eexists. split; [simpl; by rewrite alter_app_r_alt, Nat.sub_diag by lia|]. done. }
  specialize (HQ _ n rb' Hn1 Hn2 Hu). destruct r as [u|e]; [by apply wp_ret, HQ|].
  apply wp_bind. eapply wp_mono; [|by apply HQ]. intros [] l' s' H'. by apply wp_ret.
Qed.

Lemma upload_file s s1 w n d : rep s w -> uploading s s1 n d -> stays n -> no_nul n ->
  file_at s1 (lfs ++ [bs "incomplete"; n]) = inr (lfs ++ [bs "incomplete"; n], length (inodes s)).
Proof using Hlfs.
  intros Hr Hu H1 H2. unfold file_at.
  rewrite (resolve_in lfs Hlfs); [|eapply uploading_dirs; [exact Hu|apply Hr]|apply in_incomplete|done|done].
  rewrite node_at_cons by (by intros [_ ?]%app_eq_nil). destruct Hu as (_ & -> & _).
  by rewrite lookup_insert.
Qed.

Lemma nf_drop_temp w n d (Q : unit -> local -> fs -> Prop) l s s1 :
  rep s w -> uploading s s1 n d -> stays n -> no_nul n ->
  (forall s', rep s' w -> Q tt l s') -> WP (drop_temp (lfs ++ [bs "incomplete"; n])) Q l s1.
Proof using Hlfs.
  intros Hr Hu H1 H2 HQ. unfold drop_temp. apply wp_bind, wp_call. intros o [Ho _]. cbn [handle_ev].
  unfold faulty. rewrite Ho. unfold with_l, fs_unlink. rewrite (upload_file s s1 w n d) by done.
  cbn [fst snd]. apply wp_ret, HQ. destruct Hu as (Hn & En & x & Ex & _).
  eapply rep_same; [exact Hr| |].
  - simpl. rewrite En. by apply delete_insert.
  - by eapply ino_le_grow.
Qed.

Lemma nf_finish_upload w o n d (Q : res unit -> local -> fs -> Prop) l s s1 :
  rep s w -> uploading s s1 n d -> stays n -> no_nul n -> is_oid o ->
  (forall s', rep s' (World (<[o := d]> (w_objs w)) (w_locks w)) -> Q (Ok tt) l s') ->
  WP (finish_upload be (UploadState o (lfs ++ [bs "incomplete"; n]))) Q l s1.
Proof using Hlfs.
  intros Hr Hu H1 H2 Ho HQ. unfold finish_upload. cbn [us_oid us_temp be_lfs]. rewrite <- object_path_eq.
  destruct (oid_parts o Ho) as (S1 & N1 & S2 & N2 & S3 & N3).
  destruct (r_obj_dir _ _ _ _ Hr o Ho) as (D1 & D2 & D3).
  set (x := take 2 o) in *. set (y := take 2 (drop 2 o)) in *.
  set (tmp := lfs ++ [bs "incomplete"; n]) in *.
  set (a := lfs ++ [bs "objects"; x]) in *. set (b := lfs ++ [bs "objects"; x; y]) in *.
  assert (Eb : b = a ++ [y]) by (unfold a, b; by rewrite <- app_assoc).
  assert (Ea : a = (lfs ++ [bs "objects"]) ++ [x]) by (unfold a; by rewrite <- app_assoc).
  assert (Ep : object_path lfs o = b ++ [o]) by (unfold b, object_path; by rewrite <- app_assoc).
  rewrite Ep, removelast_last.
  pose proof Hu as (Hn & En & z & Ez & Hz). fold tmp in Hn, En.
  assert (Ho0 : bs "objects" ∈ [bs "objects"; bs "incomplete"; bs "tmp"; bs "locks"]) by (by constructor).
  pose proof (r_dirs _ _ _ _ Hr _ Ho0) as Hobj.
  assert (Hta : tmp <> a) by (intros E; by apply app_inv_head in E).
  assert (Htb : tmp <> b) by (intros E; by apply app_inv_head in E).
  assert (Htp : tmp <> b ++ [o]) by (rewrite <- Ep; intros E; by apply app_inv_head in E).
  apply wp_bind, wp_call. intros or [Hor _]. cbn [handle_ev]. unfold faulty. rewrite Hor.
  unfold with_l, fs_mkdir_all.
  destruct (mkdirs_ok s1 [] b) as [s2 Es2].
  { intros c c' k Hc Ebc. simpl. rewrite En. intros E. apply lookup_insert_Some in E as [[E _]|[_ E]].
    - rewrite <- E in Ebc. unfold b, tmp in Ebc. rewrite <- app_assoc in Ebc. by apply app_inv_head in Ebc.
    - destruct c' as [|w1 c' _] using rev_ind.
      { rewrite app_nil_r in Ebc. rewrite <- Ebc in E. by apply D3 in E. }
      rewrite Eb, app_assoc in Ebc. apply app_inj_tail in Ebc as [Ebc _].
      destruct c' as [|w2 c' _] using rev_ind.
      { rewrite app_nil_r in Ebc. rewrite <- Ebc in E. by apply D2 in E. }
      rewrite Ea, app_assoc in Ebc. apply app_inj_tail in Ebc as [Ebc _].
      rewrite (Hobj c c') in E by done. done. }
  rewrite Es2. cbn [fst snd]. apply mkdirs_spec in Es2 as (I2 & _ & M1 & M2).
  assert (Hb2 : nodes s2 !! b = Some NDir) by (apply (M2 b []); [by intros [_ ?]%app_eq_nil|by rewrite app_nil_r]).
  assert (Ha2 : nodes s2 !! a = Some NDir) by (apply (M2 a [y]); [by intros [_ ?]%app_eq_nil|done]).
  assert (Hq2 : forall q, q <> a -> q <> b -> nodes s2 !! q = nodes s1 !! q).
  { intros q Hqa Hqb. destruct (M1 q) as [?|(_ & _ & c & c' & Hc & Ebc & ->)]; [done|]. simpl in *.
    destruct c' as [|w1 c' _] using rev_ind; [by rewrite app_nil_r in Ebc|].
    rewrite Eb, app_assoc in Ebc. apply app_inj_tail in Ebc as [Ebc _].
    destruct c' as [|w2 c' _] using rev_ind; [by rewrite app_nil_r in Ebc|].
    rewrite Ea, app_assoc in Ebc. apply app_inj_tail in Ebc as [Ebc _].
    pose proof (uploading_dirs _ _ _ _ Hu (r_dirs _ _ _ _ Hr) _ Ho0) as Hd1.
    rewrite (Hd1 c c') by done. apply (M2 c (c' ++ [x; y])); [done|].
    rewrite Eb, Ea, Ebc. by rewrite <- !app_assoc. }
  apply wp_bind, wp_call. intros or2 [Hor2 _]. cbn [handle_ev]. unfold faulty. rewrite Hor2.
  unfold with_l.
  assert (Hmono : forall q, nodes s1 !! q = Some NDir -> nodes s2 !! q = Some NDir).
  { intros q Hq. destruct (M1 q) as [->|(E & _)]; [done|congruence]. }
  assert (Hd2 : lfs_dirs s2 lfs).
  { eapply dirs_mono; [exact Hmono|]. eapply uploading_dirs; [exact Hu|apply Hr]. }
  assert (Htmp2 : file_at s2 tmp = inr (tmp, length (inodes s))).
  { unfold file_at, tmp. rewrite (resolve_in lfs Hlfs); [|done|apply in_incomplete|done|done].
    rewrite node_at_cons by (by intros [_ ?]%app_eq_nil). fold tmp. rewrite Hq2 by done.
    by rewrite En, lookup_insert. }
  assert (Hres : forall s', (forall q, nodes s2 !! q = Some NDir -> nodes s' !! q = Some NDir) ->
    resolve s' (b ++ [o]) = inr (b ++ [o])).
  { intros s' Hs'. apply resolve_dirs.
    - rewrite <- Ep, object_path_eq. apply obj_stays; [by apply plain_stays_all|done].
    - rewrite <- Ep. unfold object_path. apply Forall_app. split; [by apply lfs_no_nul|].
      repeat first [apply Forall_nil_2 | apply Forall_cons_2; [try done|]].
      unfold no_nul. refine (bool_decide_eq_true_1 _ _). by vm_compute.
    - rewrite Eb. apply dirs_to_app. rewrite Ea. split.
      + apply dirs_to_app. split.
        * apply is_dir_to. intros p q E Hp. apply Hs'. by apply (Hd2 (bs "objects") Ho0 p q).
        * rewrite <- Ea, node_at_cons by (by intros [_ ?]%app_eq_nil). by apply Hs'.
      + rewrite <- Ea, <- Eb, node_at_cons by (by intros [_ ?]%app_eq_nil). by apply Hs'. }
  assert (Hpne : b ++ [o] <> []) by (by intros [_ ?]%app_eq_nil).
  assert (Hnd : nodes s2 !! (b ++ [o]) <> Some NDir).
  { rewrite Hq2.
    - rewrite En, lookup_insert_ne by done. by rewrite <- Ep.
    - rewrite Eb. intros E. apply (f_equal length) in E. rewrite !app_length in E. simpl in E. lia.
    - intros E. apply (f_equal length) in E. rewrite !app_length in E. simpl in E. lia. }
  set (s3 := set_nodes (fun mm => <[b ++ [o] := NFile (length (inodes s))]> (delete tmp mm)) s2).
  assert (fs_rename tmp (b ++ [o]) s2 = (IOk tt, s3)) as ->.
  { unfold fs_rename. rewrite Htmp2, (Hres s2), node_at_cons by done.
    by destruct (nodes s2 !! (b ++ [o])) as [[|]|]. }
  cbn [fst snd].
  assert (Hn3 : nodes s3 !! (b ++ [o]) = Some (NFile (length (inodes s)))) by (simpl; by rewrite lookup_insert).
  assert (Hm3 : forall q, nodes s2 !! q = Some NDir -> nodes s3 !! q = Some NDir).
  { intros q Hq. simpl. rewrite lookup_insert_ne by congruence. rewrite lookup_delete_ne; [done|].
    intros <-. rewrite Hq2, En, lookup_insert in Hq by done. done. }
  unfold fix_permissions. apply wp_bindR, wp_io_call, nf_stat. unfold fs_stat.
  rewrite (Hres s3) by done. rewrite node_at_cons, Hn3 by done. cbn [res_of_io].
  apply wp_io_call, wp_call. intros or3 [Hor3 _]. cbn [handle_ev]. unfold faulty. rewrite Hor3.
  unfold with_l, fs_chmod. rewrite (Hres s3) by done. rewrite node_at_cons, Hn3 by done. cbn [fst snd res_of_io].
  apply HQ. set (s4 := upd_inode _ _ s3).
  assert (Hi3 : inodes s3 = inodes s ++ [z]) by (simpl; by rewrite I2).
  eapply (rep_put en lfs s s4 w o d (length (inodes s)) (set_mode _ z)); try done.
  - eapply ino_le_trans; [by eapply ino_le_grow|]. by apply ino_le_upd.
  - by rewrite Ep.
  - apply inodes_upd_eq. rewrite Hi3, lookup_app_r by lia. by rewrite Nat.sub_diag.
  - by apply Hm3.
  - by apply Hm3.
  - rewrite Ep. intros q Q1 Q2 Q3. simpl. rewrite lookup_insert_ne by done.
    destruct (decide (q = tmp)) as [->|Hqt].
    + by rewrite lookup_delete, Hn.
    + rewrite lookup_delete_ne by done. rewrite Hq2 by done. by rewrite En, lookup_insert_ne.
Qed.


Lemma nf_put_cmd o kvs ds : well_formed m (RPut o kvs ds) -> answers (RPut o kvs ds) (CPut o).
Proof using Hlfs HH.
  intros (_ & Hargs & Ho & (b & n & Hb & Hn) & Hds) w rb tl l s Hr Hw Hrb Hf (i & Hin & Hi). cbn [handle_command].
  unfold p_put_object. rewrite (proj2 (oid_new_iff o o)) by done.
  pose proof (upto_shrink _ _ _ _ Hin) as Hl. pose proof (datas_len _ _ _ _ Hi) as Hl2.
  apply wp_bind, wp_bindR.
  apply (nf_read_lines PDelim (map arg_line kvs) i); [lia|done|].
  apply wp_bindR, (nf_args kvs); [done|]. intros a Ha. apply wp_ret.
  unfold size_from_arguments. rewrite (proj2 (Ha _ _) Hb), (proj2 (parse_number b n)) by done.
  apply wp_bind. eapply (nf_start_upload w o ds (Ok tt) tl); [done|done|done|cbn [l_in set_in]; lia|done|].
  intros s1 nm rb' Hn1 Hn2 Hu [Hrb1 Hrb2]. rewrite set_in_set_in. cbn [us_temp].
  assert (Hbad : forall er, client_error (e_kind er) = true ->
    answer_of en m (l_uid l) clock w (RPut o kvs ds) (refusal (display er)) w ->
    WP (let! _ := drop_temp (lfs ++ [bs "incomplete"; nm]) in Ret (Er er, rb')) (result w (RPut o kvs ds) tl l) (set_in tl l) s1).
  { intros er Her Hno. apply wp_bind. eapply nf_drop_temp; [exact Hr|exact Hu|done|done|].
    intros s' Hr'. apply wp_ret. by apply result_400. }
  destruct (lenN (concat ds) <? n)%N eqn:E1.
  { apply N.ltb_lt in E1. apply Hbad; [done|]. by eapply a_put_less. }
  destruct (n <? lenN (concat ds))%N eqn:E2.
  { apply N.ltb_lt in E2. apply Hbad; [done|]. by eapply a_put_more. }
  apply N.ltb_ge in E1, E2. assert (n = lenN (concat ds)) as -> by lia.
  rewrite (proj2 (oid_new_iff _ (hex_encode (en_hash en (concat ds))))); [|split; [done|apply hex_encode_is_oid, HH]].
  case_decide as Hne.
  { apply Hbad; [done|]. eapply a_put_other; [done|done|by apply hex_of_iff|done]. }
  apply wp_bind. eapply nf_finish_upload; [exact Hr|exact Hu|done|done|done|].
  intros s' Hr'. apply wp_ret. exists (Reply 200 [] BNone), (World (<[o := concat ds]> (w_objs w)) (w_locks w)).
  split_and!; try done.
  - eapply a_put; [done|done|]. by apply hex_of_iff.
  - intros o' d'. simpl. rewrite lookup_insert_Some. intros [[_ <-]|[_ Hd]]; [lia|by apply (Hw o')].
  - by apply (sends_none s' 200 None), is_code.
Qed.

(** ** Locks *)
Lemma lock_id_plain p : plain_name (lock_id (en_hash en) p) /\ length (lock_id (en_hash en) p) = 64%nat /\
  forallb ascii (lock_id (en_hash en) p) = true.
Proof using HH.
  destruct (hex_encode_is_oid (en_hash en (bs "v1:" ++ p))) as [H1 H2]; [apply HH|].
  unfold lock_id. split_and!; [|done|].
  - apply hex_plain_name; [|done]. by intros E; rewrite E in H1.
  - apply forallb_forall. intros c Hc. apply elem_of_list_In in Hc. rewrite Forall_forall in H2.
    destruct (H2 _ Hc) as [v Hv]. clear Hc. apply hex_digit_hexdig in Hv as [Hv ->]. revert v Hv.
    by apply (lt_16_cases (fun v => ascii (hexdig v) = true)).
Qed.

Lemma plain_no_nul c : plain_name c -> no_nul c.
Proof using Type. unfold plain_name, no_nul. naive_solver. Qed.

Lemma push_plain i : plain_name i -> push_str (lock_dir be) i = lfs ++ [bs "locks"; i].
Proof using Type.
  intros (H1 & _ & _ & H4 & _). unfold push_str, lock_dir. cbn [be_lfs].
  destruct i as [|c i]; [done|]. rewrite decide_False.
  - rewrite split_on_none by done. by rewrite <- app_assoc.
  - intros ->. apply H4. by constructor.
Qed.

Lemma lock_node s w i : rep s w ->
  match w_locks w !! i with
  | Some (p, t, u) => exists j x, nodes s !! (lfs ++ [bs "locks"; i]) = Some (NFile j) /\ inodes s !! j = Some x /\
      i_data x = record_of t p /\ i_uid x = u /\ i = lock_id (en_hash en) p /\ time_ok en t
  | None => nodes s !! (lfs ++ [bs "locks"; i]) = None
  end.
Proof using Type.
  intros Hr. destruct (w_locks w !! i) as [[[p t] u]|] eqn:E.
  - destruct (r_lock _ _ _ _ Hr _ _ _ _ E) as ((j & x & ?) & ? & ?). exists j, x. naive_solver.
  - apply eq_None_not_Some. intros [n Hn]. apply (r_lock_only _ _ _ _ Hr) in Hn as [? ?]. congruence.
Qed.

Lemma nf_lock_from_id w i (Q : res (option lock) -> local -> fs -> Prop) l s :
  rep s w -> plain_name i ->
  match w_locks w !! i with
  | Some (p, t, u) => Q (Ok (Some (Lock p t (user_name en u)))) l s
  | None => Q (Ok None) l s
  end -> WP (lock_from_id en be i) Q l s.
Proof using Hlfs.
  intros Hr Hi HQ. unfold lock_from_id. rewrite push_plain by done. apply wp_bind, nf_open.
  pose proof (resolve_in lfs Hlfs s (bs "locks") i (r_dirs _ _ _ _ Hr) in_locks (plain_stays _ Hi) (plain_no_nul _ Hi)) as Er.
  assert (Hne : lfs ++ [bs "locks"; i] <> []) by (by intros [_ ?]%app_eq_nil).
  unfold fs_open. rewrite Er, node_at_cons by done.
  pose proof (lock_node s w i Hr) as Hn. destruct (w_locks w !! i) as [[[p t] u]|].
  - destruct Hn as (j & x & Hj & Hx & Hd & Hu & _ & Ht). rewrite Hj.
    apply wp_bindR, wp_io_call, nf_read_all. cbn [fs_read_all res_of_io]. unfold fs_data, inode_at. rewrite Hx, Hd.
    apply wp_bind. unfold user_for_file. apply wp_bind, nf_stat, wp_ret.
    unfold fs_stat. rewrite Er, node_at_cons, Hj by done. unfold inode_at. rewrite Hx, Hu.
    change (record_of t p) with (lock_record t p). rewrite c33 by apply Ht. by apply wp_ret.
  - rewrite Hn. cbn [io_kind_of ENOENT]. rewrite decide_True by done. by apply wp_ret.
Qed.

Lemma nf_lock_from_path w p (Q : res (option lock) -> local -> fs -> Prop) l s :
  rep s w ->
  match w_locks w !! lock_id (en_hash en) p with
  | Some (p', t, u) =>
      if decide (p' = p) then Q (Ok (Some (Lock p t (user_name en u)))) l s
      else forall e, client_error (e_kind e) = true -> display e = clash -> Q (Er e) l s
  | None => Q (Ok None) l s
  end -> WP (lock_from_path en be p) Q l s.
Proof using Hlfs HH.
  intros Hr HQ. unfold lock_from_path. change (hash_for en p) with (lock_id (en_hash en) p).
  apply wp_bind, (nf_lock_from_id w); [done|apply lock_id_plain|].
  destruct (w_locks w !! lock_id (en_hash en) p) as [[[p' t] u]|]; [|by apply wp_ret].
  cbn [lk_path]. destruct (decide (p' = p)) as [->|Hne].
  - rewrite decide_False by (by intros []). by apply wp_ret.
  - rewrite decide_True by done. apply wp_ret. by apply HQ.
Qed.

Lemma nf_as_arguments p t u x (Q : list bytes -> local -> fs -> Prop) l s :
  en_time en t = Some x -> Q (lock_info en p x u) l s ->
  WP (as_arguments en (Lock p t (user_name en u))) Q l s.
Proof using Type.
  intros Hx HQ. unfold as_arguments, formatted_timestamp. cbn [lk_time]. rewrite Hx.
  apply wp_bind, wp_ret, wp_ret. exact HQ.
Qed.
Lemma nf_as_lock_spec p t u x (Q : list bytes -> local -> fs -> Prop) l s :
  en_time en t = Some x -> Q (lock_lines en m p x u) l s ->
  WP (as_lock_spec en (is_upload m) (Lock p t (user_name en u))) Q l s.
Proof using Type.
  intros Hx HQ. unfold as_lock_spec, formatted_timestamp. cbn [lk_time lk_path lk_owner]. rewrite Hx.
  apply wp_bind, wp_ret, wp_ret. unfold lock_lines in HQ. unfold lk_id. cbn [lk_path].
  destruct m; exact HQ.
Qed.

Lemma nf_lock_create w p (Q : res lock -> local -> fs -> Prop) l s : rep s w ->
  (w_locks w !! lock_id (en_hash en) p = None -> forall t t' s', clock t -> clock t' ->
   rep s' (World (w_objs w) (<[lock_id (en_hash en) p := (p, t, l_uid l)]> (w_locks w))) ->
   Q (Ok (Lock p t' (user_name en (l_uid l)))) l s') ->
  (is_Some (w_locks w !! lock_id (en_hash en) p) -> forall s', rep s' w -> Q (Er (err_simple Conflict)) l s') ->
  WP (lock_create en be p) Q l s.
Proof using Hlfs HH Hts Hclock.
  intros Hr HN HS. unfold lock_create. change (hash_for en p) with (lock_id (en_hash en) p).
  set (i := lock_id (en_hash en) p) in *. destruct (lock_id_plain p) as (Hpl & Hlen & _). fold i in Hpl, Hlen.
  unfold lock_temp, lock_file, lock_dir. cbn [be_lfs].
  replace ((lfs ++ [bs "locks"]) ++ [i ++ bs ".lock"]) with (lfs ++ [bs "locks"; i ++ bs ".lock"]) by (by rewrite <- app_assoc).
  replace ((lfs ++ [bs "locks"]) ++ [i]) with (lfs ++ [bs "locks"; i]) by (by rewrite <- app_assoc).
  set (tmp := lfs ++ [bs "locks"; i ++ bs ".lock"]). set (f := lfs ++ [bs "locks"; i]).
  assert (Hst : stays (i ++ bs ".lock") /\ no_nul (i ++ bs ".lock")).
  { split.
    - split_and!; intros E; apply (f_equal length) in E; rewrite app_length, Hlen in E; simpl in E; lia.
    - unfold no_nul. apply not_elem_of_app. split; [by apply plain_no_nul|].
      refine (bool_decide_eq_true_1 _ _). by vm_compute. }
  destruct Hst as [Hst1 Hst2].
  assert (Htne : tmp <> []) by (by intros [_ ?]%app_eq_nil).
  assert (Hfne : f <> []) by (by intros [_ ?]%app_eq_nil).
  assert (Htf : tmp <> f).
  { intros E. apply app_inv_head in E. injection E as E. apply (f_equal length) in E. rewrite app_length in E. simpl in E. lia. }
  assert (Hrt : forall s', lfs_dirs s' lfs -> resolve s' tmp = inr tmp).
  { intros s' Hs'. by apply (resolve_in lfs Hlfs); [|apply in_locks|..]. }
  assert (Hrf : forall s', lfs_dirs s' lfs -> resolve s' f = inr f).
  { intros s' Hs'. apply (resolve_in lfs Hlfs); [done|apply in_locks|by apply plain_stays|by apply plain_no_nul]. }
  assert (Htn : nodes s !! tmp = None).
  { apply eq_None_not_Some. intros [n Hn]. apply (r_lock_only _ _ _ _ Hr) in Hn as [[[p' t'] u'] E].
    apply (r_lock _ _ _ _ Hr) in E as (_ & E & _). apply (f_equal length) in E.
    rewrite (proj1 (proj2 (lock_id_plain p'))), app_length, Hlen in E. simpl in E. lia. }
  pose proof (r_dirs _ _ _ _ Hr) as Hd0.
  apply wp_bind, nf_timestamp. intros t Ht.
  apply wp_bind. unfold lockfile_write. apply wp_bind, wp_call. intros o1 [Ho1 _]. cbn [handle_ev].
  unfold faulty. rewrite Ho1. unfold with_l, fs_create_new. rewrite Hrt by done. rewrite node_at_cons, Htn by done.
  cbn [alloc fst snd]. set (j := length (inodes s)).
  apply wp_io_call, wp_call. intros o2 [Ho2 _]. cbn [handle_ev]. rewrite Ho2. unfold with_l, fs_write, inode_at.
  cbn [set_nodes inodes]. assert ((inodes s ++ [Inode [] (l_uid l) (N.ldiff 438 (l_umask l)) pid false]) !! j =
    Some (Inode [] (l_uid l) (N.ldiff 438 (l_umask l)) pid false)) as ->.
  { rewrite lookup_app_r by (unfold j; lia). unfold j. by rewrite Nat.sub_diag. }
  cbn [fst snd res_of_io]. set (s1 := upd_inode _ _ _).
  assert (En1 : nodes s1 = <[tmp := NFile j]> (nodes s)) by done.
  set (x := Inode (record_of t p) (l_uid l) (N.ldiff 438 (l_umask l)) pid false).
  assert (Ei1 : inodes s1 = inodes s ++ [x]).
  { simpl. rewrite alter_app_r_alt by (unfold j; lia). unfold j. by rewrite Nat.sub_diag. }
  assert (Hd1 : lfs_dirs s1 lfs).
  { eapply dirs_mono; [|exact Hd0]. intros q Hq. rewrite En1, lookup_insert_ne; [done|]. intros <-. congruence. }
  clearbody s1. apply wp_bindR. unfold lockfile_persist. apply wp_bind, wp_call. intros o3 [Ho3 _]. cbn [handle_ev].
  unfold faulty. rewrite Ho3. unfold with_l, fs_link, file_at. rewrite Hrt, node_at_cons, En1, lookup_insert by done.
  rewrite Hrf, node_at_cons, En1, lookup_insert_ne by done.
  pose proof (lock_node s w i Hr) as Hn. fold f in Hn.
  destruct (w_locks w !! i) as [[[p' t'] u']|] eqn:Ei.
  - destruct Hn as (k & z & -> & _). cbn [fst snd]. apply wp_bind. unfold lockfile_drop.
    apply wp_bind, wp_call. intros o4 [Ho4 _]. cbn [handle_ev]. unfold faulty. rewrite Ho4.
    unfold with_l, fs_unlink, file_at. rewrite Hrt, node_at_cons, En1, lookup_insert by done. cbn [fst snd].
    apply wp_ret. cbn [io_kind_of EEXIST]. rewrite decide_True by done. apply wp_ret. apply HS; [by eexists|].
    eapply rep_same; [exact Hr| |].
    + simpl. rewrite En1. by apply delete_insert.
    + by eapply ino_le_grow.
  - rewrite Hn. cbn [fst snd]. apply wp_bind. unfold lockfile_drop.
    set (s2 := log _ _ _).
    assert (Hd2 : lfs_dirs s2 lfs).
    { eapply dirs_mono; [|exact Hd1]. intros q Hq. simpl. rewrite lookup_insert_ne; [done|].
      intros <-. rewrite En1, lookup_insert_ne, Hn in Hq by done. done. }
    assert (En2 : nodes s2 = <[f := NFile j]> (<[tmp := NFile j]> (nodes s))) by (simpl; by rewrite En1).
    assert (Ei2 : inodes s2 = inodes s ++ [x]) by done. clearbody s2.
    apply wp_bind, wp_call. intros o4 [Ho4 _]. cbn [handle_ev]. unfold faulty. rewrite Ho4.
    unfold with_l, fs_unlink, file_at. rewrite Hrt, node_at_cons, En2, lookup_insert_ne, lookup_insert by done. cbn [fst snd].
    apply wp_ret, wp_ret. set (s3 := log _ _ _).
    assert (En3 : nodes s3 = <[f := NFile j]> (nodes s)).
    { simpl. rewrite En2, delete_insert_ne by done. by rewrite delete_insert. }
    assert (Ei3 : inodes s3 = inodes s ++ [x]) by done. clearbody s3.
    assert (Hxj : inodes s3 !! j = Some x).
    { rewrite Ei3, lookup_app_r by (unfold j; lia). unfold j. by rewrite Nat.sub_diag. }
    assert (Hr3 : rep s3 (World (w_objs w) (<[i := (p, t, l_uid l)]> (w_locks w)))).
    { eapply (rep_lock en lfs HH s s3 w p t (l_uid l) j x); try done; [by eapply ino_le_grow|by apply Hclock]. }
    apply wp_bind. unfold user_for_file. apply wp_bind, nf_stat, wp_ret.
    unfold fs_stat. rewrite Hrf, node_at_cons, En3, lookup_insert by (done || apply Hr3).
    unfold inode_at. rewrite Hxj. apply wp_bind, nf_timestamp. intros t' Ht'. apply wp_ret.
    by apply (HN eq_refl t t').
Qed.

(** *** lock *)
Lemma time_text en' t : time_ok en' t -> exists x, en_time en' t = Some x.
Proof using Type. intros [_ [x Hx]]. by exists x. Qed.

Lemma nf_lock_cmd kvs : well_formed m (RLock kvs) -> answers (RLock kvs) CLock.
Proof using Hlfs HH Hts Hclock.
  intros (_ & Hargs) w rb tl l s Hr Hw Hrb Hf Hin. cbn [handle_command].
  apply wp_bind. unfold p_lock. apply wp_bindR. unfold read_to_flush_wrapped, read_to_flush. apply wp_bind.
  apply (nf_read_lines PFlush (map arg_line kvs) tl); [lia|done|].
  apply wp_ret. apply wp_bindR, (nf_args kvs); [done|]. intros a Ha.
  destruct (a !! bs "path") as [p|] eqn:Ep.
  2: { apply wp_ret, wp_ret. apply result_400; try done. apply a_lock_bad. left. by eapply no_key_none. }
  destruct (a !! bs "refname") as [rn|] eqn:En.
  2: { apply wp_ret, wp_ret. apply result_400; try done. apply a_lock_bad. right. by eapply no_key_none. }
  apply Ha in Ep, En. apply wp_bind, (nf_lock_create w); [done| |].
  - intros Hnone t t' s' Ht Ht' Hr'. destruct (time_text _ _ (Hclock _ Ht')) as [x Hx].
    apply wp_bind. apply (nf_as_arguments p t' (l_uid l) x); [done|]. apply wp_ret, wp_ret. destruct Hrb.
    eexists (Reply 201 (lock_info en p x (l_uid l)) BNone), _. split_and!; [by apply (a_lock en m (l_uid l) clock w kvs p rn t t' x)|exact Hr'|done| |done..].
    by apply (sends_none s' 201 (Some _)), is_code.
  - intros [[[p' t'] u'] E] s' Hr'. cbn [e_kind err_simple]. rewrite decide_True by done.
    apply wp_bind, (nf_lock_from_path w); [done|]. rewrite E. destruct (decide (p' = p)) as [->|Hne].
    + destruct (r_lock _ _ _ _ Hr' _ _ _ _ E) as (_ & _ & Ht). destruct (time_text _ _ Ht) as [x Hx].
      apply wp_bind. apply (nf_as_arguments p t' u' x); [done|]. apply wp_ret, wp_ret. destruct Hrb.
      exists (Reply 409 (lock_info en p x u') (BText (bs "conflict" ++ [NL]))), w. split_and!; try done.
      * by eapply a_lock_held.
      * split_and!; try done. by apply is_code.
    + intros e He Hd. apply wp_ret, wp_ret. apply result_400; try done. rewrite Hd. by eapply a_lock_clash.
Qed.

(** *** unlock *)
Lemma nf_unlock_any i kvs w rb tl l s : plain_name i -> rep s w -> room w -> rb_ok rb ->
  (forall Q : res (list bytes) -> local -> fs -> Prop, (forall ls, Q (Ok ls) (set_in tl l) s) -> WP (read_to_flush fuel) Q l s) ->
  WP (handle_command en be fuel (CUnlock i) m rb) (result w (RUnlock i kvs) tl l) l s.
Proof using Hlfs HH Hclock.
  intros Hi Hr Hw Hrb Hread. cbn [handle_command].
  apply wp_bind. unfold p_unlock. apply wp_bindR. apply Hread. intros _.
  destruct (utf8_valid i) eqn:Eu.
  2: { apply wp_ret, wp_ret. apply result_400; try done. by apply a_unlock_bad. }
  apply wp_bind, (nf_lock_from_id w); [done|done|].
  destruct (w_locks w !! i) as [[[p t] u]|] eqn:E.
  2: { apply wp_ret, wp_ret. apply result_text; try done; [by apply is_code|]. by apply a_unlock_none. }
  destruct (r_lock _ _ _ _ Hr _ _ _ _ E) as ((j & x & Hj & _) & Ei & Ht). destruct (time_text _ _ Ht) as [tx Hx].
  apply wp_bind. apply (nf_as_arguments p t u tx); [done|]. apply wp_bind. unfold lock_unlock.
  unfold lk_id. cbn [lk_path]. change (hash_for en p) with (lock_id (en_hash en) p). rewrite <- Ei.
  unfold lock_file, lock_dir. cbn [be_lfs]. rewrite <- app_assoc. cbn [app].
  apply wp_io_call, wp_call. intros o [Ho _]. cbn [handle_ev]. unfold faulty. rewrite Ho. unfold with_l, fs_unlink, file_at.
  pose proof (resolve_in lfs Hlfs s (bs "locks") i (r_dirs _ _ _ _ Hr) in_locks (plain_stays _ Hi) (plain_no_nul _ Hi)) as Er.
  rewrite Er, node_at_cons by (by intros [_ ?]%app_eq_nil). rewrite Hj. cbn [fst snd res_of_io].
  apply wp_ret, wp_ret. destruct Hrb. eexists (Reply 200 (lock_info en p tx u) BNone), _.
  split_and!; [by eapply a_unlock| |done| |done..].
  - eapply (rep_unlock en lfs s _ w i); [exact Hr| |done|by eexists]. by apply ino_le_eq.
  - by apply (sends_none _ 200 (Some _)), is_code.
Qed.

Lemma nf_unlock_cmd i kvs : well_formed m (RUnlock i kvs) -> answers (RUnlock i kvs) (CUnlock i).
Proof using Hlfs HH Hclock.
  intros (_ & Hargs & _ & Hi) w rb tl l s Hr Hw Hrb Hf Hin. apply nf_unlock_any; try done. intros Q HQ. unfold read_to_flush.
  apply (nf_read_lines PFlush (map arg_line kvs) tl); [lia|done|]. apply HQ.
Qed.

(** *** list-lock *)
Definition below (cursor : option bytes) (i : bytes) : bool :=
  match cursor with Some c => blt i c | None => false end.
Definition rec_at (w : world) (i : bytes) : bytes * Z * N := default ([], 0%Z, 0%N) (w_locks w !! i).
Definition lock_at (w : world) (i : bytes) : lock :=
  let '(p, t, u) := rec_at w i in Lock p t (user_name en u).

Lemma lock_at_id s w i : rep s w -> is_Some (w_locks w !! i) -> lk_id en (lock_at w i) = i.
Proof using Type.
  intros Hr [[[p t] u] E]. destruct (r_lock _ _ _ _ Hr _ _ _ _ E) as (_ & Ei & _).
  unfold lock_at, rec_at. rewrite E. simpl. by rewrite Ei.
Qed.
Lemma lock_key s w i : rep s w -> is_Some (w_locks w !! i) -> plain_name i /\ forallb ascii i = true.
Proof using HH.
  intros Hr [[[p t] u] E]. destruct (r_lock _ _ _ _ Hr _ _ _ _ E) as (_ & -> & _).
  destruct (lock_id_plain p) as (? & _ & ?). done.
Qed.

Lemma nf_collect w cursor is skip n (Q : list lock -> local -> fs -> Prop) l s :
  rep s w -> StronglySorted (fun a b => blt a b = true) is -> Forall (fun i => is_Some (w_locks w !! i)) is ->
  (skip = false -> Forall (fun i => below cursor i = false) is) ->
  Q (take n (lock_at w <$> filter (fun i => below cursor i = false) is)) l s ->
  WP (collect_locks en be cursor is skip n) Q l s.
Proof using Hlfs HH.
  intros Hr. revert skip n Q. induction is as [|i is IH]; intros skip n Q Hs Hk Hskip HQ.
  { destruct n; apply wp_ret; exact HQ. }
  destruct n as [|n]; [by apply wp_ret|].
  apply StronglySorted_inv in Hs as [Hs Hlt]. apply Forall_cons in Hk as [Hki Hk].
  cbn [collect_locks]. destruct (lock_key s w i Hr Hki) as [Hpl Has]. rewrite utf8_lossy_ascii by done.
  pose proof (lock_at_id s w i Hr Hki) as Hid. assert (El : lock_at w i = lock_at w i) by done.
  unfold lock_at at 1, rec_at in El. destruct Hki as [[[p t] u] E]. rewrite E in El. simpl in El.
  apply wp_bind, (nf_lock_from_id w); [done|done|]. rewrite E, El.
  change (match cursor with Some c => blt (lk_id en (lock_at w i)) c | None => false end) with (below cursor (lk_id en (lock_at w i))).
  rewrite Hid. rewrite filter_cons in HQ. destruct (below cursor i) eqn:Eb.
  - rewrite decide_False in HQ by done. destruct skip.
    + cbn [andb]. apply IH; try done.
    + exfalso. specialize (Hskip eq_refl). apply Forall_cons in Hskip as [? _]. congruence.
  - rewrite decide_True in HQ by done. rewrite andb_false_r. apply wp_bind. apply IH; [done|done| |by apply wp_ret].
    + intros _. eapply Forall_impl; [exact Hlt|]. intros j Hj. unfold below in *. destruct cursor as [c|]; [|done].
      destruct (blt j c) eqn:Ejc; [|done]. by rewrite (blt_trans _ _ _ Hj Ejc) in Eb.
Qed.

Lemma nf_lock_specs w is (Q : list bytes -> local -> fs -> Prop) l s : rep s w ->
  Forall (fun i => is_Some (w_locks w !! i)) is ->
  (forall out, locks_lines en m ((fun i => (i, rec_at w i)) <$> is) out -> Q out l s) ->
  WP (lock_specs en (is_upload m) (lock_at w <$> is)) Q l s.
Proof using Type.
  intros Hr Hk. revert Q. induction Hk as [|i is [[[p t] u] E] _ IH]; intros Q HQ.
  { apply wp_ret, HQ. constructor. }
  cbn [fmap list_fmap lock_specs]. destruct (r_lock _ _ _ _ Hr _ _ _ _ E) as (_ & Ei & Ht).
  destruct (time_text _ _ Ht) as [x Hx]. apply wp_bind. unfold lock_at at 1, rec_at. rewrite E. cbn [default].
  apply (nf_as_lock_spec p t u x); [done|]. apply wp_bind, IH. intros out Hout. apply wp_ret, HQ.
  cbn [fmap list_fmap]. unfold rec_at at 1. rewrite E. by constructor.
Qed.

Lemma locks_children s w i : rep s w -> i ∈ children s (lfs ++ [bs "locks"]) <-> is_Some (w_locks w !! i).
Proof using Type.
  intros Hr. rewrite elem_children, <- app_assoc. cbn [app]. split.
  - intros [n Hn]. by eapply r_lock_only.
  - intros [[[p t] u] E]. destruct (r_lock _ _ _ _ Hr _ _ _ _ E) as ((j & x & Hj & _) & _). by eexists.
Qed.

Lemma nf_list_items w cursor n (Q : res (list lock) -> local -> fs -> Prop) l s : rep s w ->
  (forall ids, StronglySorted (fun a b => blt a b = true) ids ->
     (forall i, i ∈ ids <-> is_Some (w_locks w !! i) /\ below cursor i = false) ->
     Q (Ok (take n (lock_at w <$> ids))) l s) ->
  WP (list_lock_items en be cursor n) Q l s.
Proof using Hlfs HH.
  intros Hr HQ. unfold list_lock_items, lock_dir. cbn [be_lfs]. apply wp_bind, nf_readdir. unfold fs_readdir.
  destruct (resolve_dir lfs Hlfs s (bs "locks") (r_dirs _ _ _ _ Hr) in_locks) as [-> ->].
  set (names := children s (lfs ++ [bs "locks"])).
  assert (Hin : forall i, i ∈ merge_sort ble names <-> is_Some (w_locks w !! i)).
  { intros i. rewrite merge_sort_Permutation. by apply locks_children. }
  assert (Hss : StronglySorted (fun a b => blt a b = true) (merge_sort ble names)) by apply sorted_strict, nodup_children.
  apply wp_bind, (nf_collect w); [done|done| |done|].
  { apply Forall_forall. intros i. apply Hin. }
  apply wp_ret, HQ.
  - clear -Hss. induction Hss as [|a l Hl IH Hf]; [constructor|]. rewrite filter_cons. case_decide; [|done].
    constructor; [done|]. rewrite Forall_forall in Hf |- *. intros x Hx. apply elem_of_list_filter in Hx as [_ Hx]. by apply Hf.
  - intros i. rewrite elem_of_list_filter, Hin. tauto.
Qed.

Lemma nf_list_cmd kvs : well_formed m (RList kvs) -> answers (RList kvs) CListLock.
Proof using Hlfs HH.
  intros Hargs w rb tl l s Hr Hw Hrb Hf Hin. cbn [handle_command].
  apply wp_bind. unfold p_list_locks. apply wp_bindR. unfold read_to_flush_wrapped, read_to_flush. apply wp_bind.
  apply (nf_read_lines PFlush (map arg_line kvs) tl); [lia|done|].
  apply wp_ret. apply wp_bindR, (nf_args kvs); [done|]. intros a Ha. apply wp_bindR, wp_ret.
  assert (Hlim : match match a !! bs "limit" with Some x => parse_integer x | None => Ok 100%N end with
    | Ok n => n = 0%N /\ (exists b, (bs "limit", b) ∈ kvs /\ number b 0) \/
              n <> 0%N /\ limit_of (a !! bs "limit") (N.to_nat (if (100 <? n)%N then 100 else n))
    | Er e => client_error (e_kind e) = true /\ exists b, (bs "limit", b) ∈ kvs /\ (~ exists n, number b n) /\ display e = bad_number b end).
  { destruct (a !! bs "limit") as [b|] eqn:Eb.
    - apply Ha in Eb. destruct (parse_integer b) as [n|e] eqn:En.
      + apply parse_number in En. destruct (decide (n = 0%N)) as [->|Hn]; [left; split; [done|by exists b]|right].
        split; [done|]. replace (if (100 <? n)%N then 100%N else n) with (N.min n 100); [by constructor|].
        destruct (100 <? n)%N eqn:E; [apply N.ltb_lt in E|apply N.ltb_ge in E]; lia.
      + apply parse_number_er in En as (? & ? & ?). split; [done|]. by exists b.
    - right. split; [done|]. constructor. }
  destruct (match a !! bs "limit" with Some x => parse_integer x | None => Ok 100%N end) as [n|e].
  2: { destruct Hlim as (He & b & Hb1 & Hb2 & Hd). apply wp_ret. apply result_400; try done. rewrite Hd. by eapply a_list_number. }
  destruct Hlim as [(-> & b & Hb1 & Hb2)|[Hn Hlim]].
  { apply wp_ret, wp_ret. apply result_400; try done. by eapply a_list_zero. }
  rewrite (proj2 (N.eqb_neq n 0)) by done. set (lim := N.to_nat _) in *.
  pose proof (key_lookup a kvs (bs "limit") Ha) as Hkl. pose proof (key_lookup a kvs (bs "cursor") Ha) as Hkc.
  destruct (a !! bs "path") as [p|] eqn:Ep.
  - apply Ha in Ep. unfold p_list_for_path. apply wp_bind, (nf_lock_from_path w); [done|].
    assert (Hnone : w_locks w !! lock_id (en_hash en) p = None \/
      (exists t u c', w_locks w !! lock_id (en_hash en) p = Some (p, t, u) /\
       a !! bs "cursor" = Some c' /\ blt (lock_id (en_hash en) p) c' = true) ->
      WP (p_error 404 (bs "not found")) (fun a1 => WP (Ret (a1, rb)) (result w (RList kvs) tl l)) (set_in tl l) s).
    { intros H. apply wp_ret, wp_ret. apply result_text; try done; [by apply is_code|]. by eapply a_list_path_none. }
    destruct (w_locks w !! lock_id (en_hash en) p) as [[[p' t] u]|] eqn:E.
    2: { apply Hnone. by left. }
    destruct (decide (p' = p)) as [->|Hne].
    2: { intros e He Hd. apply wp_ret, wp_ret. apply result_400; try done. rewrite Hd. by eapply a_list_path_clash. }
    destruct (r_lock _ _ _ _ Hr _ _ _ _ E) as (_ & _ & Ht). destruct (time_text _ _ Ht) as [x Hx].
    unfold lk_id at 1. cbn [lk_path]. change (hash_for en p) with (lock_id (en_hash en) p).
    assert (Hyes : match a !! bs "cursor" with Some c => blt (lock_id (en_hash en) p) c = false | None => True end ->
      WP (let! s0 := as_lock_spec en (is_upload m) (Lock p t (user_name en u)) in Ret (Ok (st_new_success s0)))
        (fun a1 => WP (Ret (a1, rb)) (result w (RList kvs) tl l)) (set_in tl l) s).
    { intros Hc. apply wp_bind, (nf_as_lock_spec p t u x); [done|]. apply wp_ret, wp_ret. destruct Hrb.
      exists (Reply 200 [] (BLines (lock_lines en m p x u))), w. split_and!; try done.
      - by eapply a_list_path.
      - by apply (sends_lines s 200 None), is_code. }
    destruct (a !! bs "cursor") as [c|] eqn:Ec; [|by apply Hyes].
    destruct (blt (lock_id (en_hash en) p) c) eqn:Eb; [|by apply Hyes].
    apply Hnone. right. by exists t, u, c.
  - apply wp_bindR, (nf_list_items w); [done|]. intros ids Hss Hids.
    assert (Hk : Forall (fun i => is_Some (w_locks w !! i)) ids) by (apply Forall_forall; intros i Hi; by apply Hids).
    rewrite <- fmap_take. apply wp_bind, (nf_lock_specs w); [done|by apply Forall_take|]. intros out Hout.
    apply wp_ret, wp_ret. destruct Hrb. rewrite fmap_take in Hout.
    set (ls := (fun i => (i, rec_at w i)) <$> ids) in *.
    match goal with |- result _ _ _ _ (Ok (st_success_with_data 200 ?nx _), _) _ _ =>
      replace nx with (match ls !! lim with Some (i, _) => [bs "next-cursor=" ++ i ++ [NL]] | None => [] end) end.
    2: { rewrite fmap_take, lookup_take by lia. unfold ls. rewrite !list_lookup_fmap.
         destruct (ids !! lim) as [i|] eqn:Ei; [|done]. cbn [fmap option_fmap option_map].
         rewrite (lock_at_id s) by (done || (apply Hids; by eapply elem_of_list_lookup_2)).
         apply lookup_lt_Some in Ei. rewrite take_length, fmap_length, (proj2 (Nat.eqb_eq _ _)) by lia. done. }
    eexists (Reply 200 _ (BLines out)), w. split_and!; try done.
    + eapply (a_list en m (l_uid l) clock w kvs (a !! bs "limit") lim (a !! bs "cursor") ls out); try done.
      * by eapply no_key_none.
      * split.
        -- unfold ls. clear -Hss. induction Hss as [|i l Hl IH Hf]; [constructor|]. cbn [fmap list_fmap]. constructor; [exact IH|].
           apply Forall_fmap. exact Hf.
        -- intros i r. unfold ls. rewrite elem_of_list_fmap. split.
           ++ intros (j & [= <- ->] & Hj). apply Hids in Hj as [[r' Hr'] Hb]. unfold rec_at. rewrite Hr'. split; [done|].
              unfold below in Hb. by destruct (a !! bs "cursor").
           ++ intros [Hi Hb]. exists i. unfold rec_at. rewrite Hi. split; [done|]. apply Hids. split; [by eexists|].
              unfold below. by destruct (a !! bs "cursor").
      * by rewrite Nat.add_1_r in Hout.
    + by apply (sends_lines s 200 (Some _)), is_code.
Qed.
End cmd.
