(** Proofs for Props_All.v. *)
From Verif Require Import Bytes ByteFacts Err FS Prog Pktline Args Local Processor Transfer Wp PktFacts ReaderFacts
  Spec SpecStore SpecServer SpecFrame SpecOdd SpecSecret SpecInput SpecAll FsFacts PktProofs TextProofs IoFacts ObjProofs StoreProofs
  GetProofs SeqIo SeqFs SeqCmd Session FrameProofs OddProofs InputProofs.

Local Arguments parse_header : simpl never.
Local Opaque COPY_BUF pk MAX_PACKET_LEN.

Section all.
Context (en : env) (lfs : path) (umask : N) (ts : option Z) (clock : Z -> Prop) (m : mode).
Context (pid fuel : nat) (F : failure -> local -> fs -> Prop).
Context (HH : digest (en_hash en)) (Hlfs : Forall plain_name lfs).
Context (Hts : forall t, ts = Some t -> clock t) (Hclock : forall t, clock t -> time_ok en t).
Let be := Backend lfs umask ts.
Let ok := mild ts clock.
Notation WP := (wp pid ok F).
Notation rep := (represents en lfs).
Notation room := (room fuel).

(** ** What an id leads to *)
Definition found_at (s : fs) (p : path) : finding :=
  match fs_open p s with
  | IErr e => if decide (io_kind_of e = KNotFound) then Nothing else Blocked (io_text e)
  | IOk HDir => Blocked (io_text EISDIR)
  | IOk (HFile j) => Text (fs_data j s) (match inode_at s j with Some x => i_uid x | None => 0%N end)
  end.

Lemma walk_err s cur cs e : walk s cur cs = inl e -> e = ENOENT \/ e = ENOTDIR.
Proof using Type.
  revert cur. induction cs as [|c cs IH]; intros cur; simpl; [done|].
  destruct (node_at s cur) as [[|]|]; [|by intros [= <-]; auto..]. repeat case_decide; apply IH.
Qed.

(** From the directory of the locks to one beside it. *)
Lemma resolve_beside s d cs : lfs_dirs s lfs -> d ∈ [bs "objects"; bs "incomplete"; bs "tmp"; bs "locks"] -> Forall no_nul cs ->
  resolve s ((lfs ++ [bs "locks"]) ++ bs ".." :: d :: cs) = resolve s (lfs ++ d :: cs).
Proof using Hlfs.
  intros Hd Hin Hz. destruct (resolve_dir lfs Hlfs s (bs "locks") Hd in_locks) as [E1 E2].
  assert (Hzd : no_nul d).
  { repeat (apply elem_of_cons in Hin as [->|Hin]; [unfold no_nul; refine (bool_decide_eq_true_1 _ _); by vm_compute|]).
    by apply elem_of_nil in Hin. }
  assert (Hzl : no_nul (bs "locks")) by (unfold no_nul; refine (bool_decide_eq_true_1 _ _); by vm_compute).
  assert (Hzp : no_nul (bs "..")) by (unfold no_nul; refine (bool_decide_eq_true_1 _ _); by vm_compute).
  pose proof (lfs_no_nul lfs Hlfs) as Hzf.
  assert (Hn1 : has_nul ((lfs ++ [bs "locks"]) ++ bs ".." :: d :: cs) = false).
  { apply has_nul_false. rewrite !Forall_app. split_and!; [done|by constructor|]. by repeat constructor. }
  assert (Hn2 : has_nul (lfs ++ d :: cs) = false).
  { apply has_nul_false. rewrite !Forall_app. split_and!; [done|]. by constructor. }
  unfold resolve in *. rewrite Hn1, Hn2. clear Hn1 Hn2.
  destruct (has_nul (lfs ++ [bs "locks"])); [done|].
  rewrite walk_app, E1. rewrite walk_app. cbn [walk]. rewrite E2. rewrite decide_False by naive_solver. rewrite decide_True by done.
  rewrite removelast_last. rewrite walk_app in E1. destruct (walk s [] lfs) as [e|q] eqn:Eq; [done|].
  assert (q = lfs) as ->; [|done]. apply walk_stays in Eq; [done|]. apply (lfs_stays lfs Hlfs).
Qed.

Lemma push_beside d x : SLASH ∉ d ->
  push_str (lock_dir be) (bs "../" ++ d ++ [SLASH] ++ x) = (lfs ++ [bs "locks"]) ++ bs ".." :: d :: split_on SLASH x.
Proof using Type.
  intros Hd. assert (G : forall b y, b <> SLASH -> push_str (lock_dir be) (b :: y) = lock_dir be ++ split_on SLASH (b :: y)).
  { intros b y Hb. unfold push_str. by rewrite decide_False. }
  change (bs "../" ++ d ++ [SLASH] ++ x) with (bs ".." ++ SLASH :: (d ++ SLASH :: x)).
  transitivity (lock_dir be ++ split_on SLASH (bs ".." ++ SLASH :: (d ++ SLASH :: x))); [by apply G|].
  rewrite split_on_app, split_on_app; [done|done|]. refine (bool_decide_eq_true_1 _ _). by vm_compute.
Qed.
Lemma split_on_sub c b w l : w ∈ split_on c l -> b ∈ w -> b ∈ l.
Proof using Type.
  revert w. induction l as [|x l IH]; intros w; simpl.
  - by intros ->%elem_of_list_singleton.
  - case_decide as E.
    + intros [->|H]%elem_of_cons Hb; [by apply elem_of_nil in Hb|]. right. by eapply IH.
    + destruct (split_on c l) as [|v ws] eqn:Es; [by apply split_on_not_nil in Es|].
      intros [->|H]%elem_of_cons Hb.
      * apply elem_of_cons in Hb as [->|Hb]; [by left|]. right. eapply IH; [by left|done].
      * right. eapply IH; [by right|done].
Qed.
Lemma push_no_nul i : Byte.x00 ∉ i -> has_nul (push_str (lock_dir be) i) = false.
Proof using Hlfs.
  intros Hi. apply has_nul_false.
  assert (G : Forall no_nul (split_on SLASH i)).
  { apply Forall_forall. intros c Hc Hz. apply Hi. by eapply split_on_sub. }
  assert (Hl : Forall no_nul (lock_dir be)).
  { apply Forall_app. split; [apply (lfs_no_nul lfs Hlfs)|]. constructor; [|constructor]. unfold no_nul. refine (bool_decide_eq_true_1 _ _). by vm_compute. }
  unfold push_str. destruct i as [|b i]; [by apply Forall_app|]. case_decide; [done|]. by apply Forall_app.
Qed.

Lemma can_found s w i : rep s w -> Byte.x00 ∉ i -> can_find w i (found_at s (push_str (lock_dir be) i)).
Proof using Hlfs.
  intros Hr Hi. split.
  - intros o Ho ->.
    assert (Hh : forall n k, SLASH ∉ take n (drop k o) /\ no_nul (take n (drop k o))).
    { intros n k. assert (G : Forall (fun c => exists v, hex_digit c v) (take n (drop k o))) by (apply Forall_take, Forall_drop, Ho).
      split; [|by apply hex_no_nul]. intros Hin. rewrite Forall_forall in G. destruct (G _ Hin) as [v Hv].
      by apply hex_digit_plain in Hv as [? _]. }
    destruct (Hh 2%nat 0%nat) as [H1 H2], (Hh 2%nat 2%nat) as [H3 H4], (Hh 64%nat 0%nat) as [H5 H6].
    rewrite drop_0 in *. rewrite take_ge in H5, H6 by (destruct Ho as [-> _]; lia).
    unfold object_id. change (bs "../objects/" ++ ?x) with (bs "../" ++ bs "objects" ++ [SLASH] ++ x).
    rewrite push_beside by (refine (bool_decide_eq_true_1 _ _); by vm_compute).
    change (take 2 o ++ [SLASH] ++ ?x) with (take 2 o ++ SLASH :: x). rewrite split_on_app by done.
    change (take 2 (drop 2 o) ++ [SLASH] ++ ?x) with (take 2 (drop 2 o) ++ SLASH :: x). rewrite split_on_app by done.
    rewrite split_on_none by done.
    assert (E : resolve s ((lfs ++ [bs "locks"]) ++ bs ".." :: bs "objects" :: [take 2 o; take 2 (drop 2 o); o]) = resolve s (object_path lfs o)).
    { apply resolve_beside; [apply Hr|by left|by repeat constructor]. }
    pose proof (look_object en lfs Hlfs s w o Hr Ho) as H. unfold found_at, fs_open. rewrite E.
    destruct (w_objs w !! o) as [d|].
    + destruct H as (-> & j & x & Hj & Hx & Hd). rewrite node_at_cons, Hj by apply object_path_cons.
      unfold fs_data, inode_at. rewrite Hx, Hd. by eexists.
    + destruct H as [->|[-> Hn]]; [done|]. by rewrite node_at_cons, Hn by apply object_path_cons.
  - intros k Hk ->. change (lock_alias k) with (bs "../" ++ bs "locks" ++ [SLASH] ++ k).
    rewrite push_beside by (refine (bool_decide_eq_true_1 _ _); by vm_compute).
    rewrite split_on_none by apply Hk.
    assert (E : resolve s ((lfs ++ [bs "locks"]) ++ bs ".." :: bs "locks" :: [k]) = resolve s (lfs ++ [bs "locks"; k])).
    { apply resolve_beside; [apply Hr|apply in_locks|]. constructor; [by apply plain_no_nul|constructor]. }
    pose proof (resolve_in lfs Hlfs s (bs "locks") k (r_dirs _ _ _ _ Hr) in_locks (plain_stays _ Hk) (plain_no_nul _ Hk)) as Er.
    assert (Hne : lfs ++ [bs "locks"; k] <> []) by (by intros [_ ?]%app_eq_nil).
    unfold found_at, fs_open. rewrite E, Er, node_at_cons by done.
    pose proof (lock_node en lfs s w k Hr) as Hn. destruct (w_locks w !! k) as [[[p t] u]|].
    + destruct Hn as (j & x & Hj & Hx & Hd & Hu & _). rewrite Hj. unfold fs_data, inode_at. by rewrite Hx, Hd, Hu.
    + by rewrite Hn.
  - intros t. unfold found_at, fs_open, resolve.
    rewrite push_no_nul by done.
    destruct (walk s [] (push_str (lock_dir be) i)) as [e|q] eqn:Ew.
    + apply walk_err in Ew as [-> | ->]; [by rewrite decide_True|]. rewrite decide_False by done. intros [= <-]. by right; left.
    + destruct (node_at s q) as [[|j]|]; [intros [= <-]; by left|done|done].
Qed.

(** ** One request *)
Lemma nf_found s i (Q : res (option lock) -> local -> fs -> Prop) l :
  match found_at s (push_str (lock_dir be) i) with
  | Nothing => Q (Ok None) l s
  | Blocked t => forall e, io_text e = t -> Q (Er (err_of_io e)) l s
  | Text d u => match lock_parse d with
                | Some (t, p) => Q (Ok (Some (Lock p t (user_name en u)))) l s
                | None => Q (Er (err_msg CorruptData (bs "invalid parsed lock"))) l s
                end
  end -> WP (lock_from_id en be i) Q l s.
Proof using Type.
  intros H. unfold lock_from_id. set (f := push_str _ i) in *. apply wp_bind, nf_open. unfold found_at in H.
  unfold fs_open in *. destruct (resolve s f) as [e|q] eqn:Er.
  { destruct (decide _) as [Hk|Hk]; apply wp_ret; [exact H|by apply H]. }
  destruct (node_at s q) as [[|j]|] eqn:En.
  - apply wp_bindR, wp_io_call, nf_read_all. cbn [fs_read_all res_of_io]. by apply H.
  - apply wp_bindR, wp_io_call, nf_read_all. cbn [fs_read_all res_of_io].
    apply wp_bind. unfold user_for_file. apply wp_bind, nf_stat, wp_ret. unfold fs_stat. rewrite Er, En.
    destruct (lock_parse (fs_data j s)) as [[t p]|]; by apply wp_ret.
  - apply wp_ret. exact H.
Qed.

Lemma nf_unlock_slash i w rb tl l s (Q : res status * rbuf -> local -> fs -> Prop) :
  utf8_valid i = true -> Byte.x00 ∉ i -> rep s w -> room w -> rb_ok rb ->
  (forall Q' : res (list bytes) -> local -> fs -> Prop, (forall ls, Q' (Ok ls) (set_in tl l) s) -> WP (read_to_flush fuel) Q' l s) ->
  (undated en w i -> F PBadTime (set_in tl l) s) ->
  (forall y a w' s', reacts_all en m (l_uid l) clock w (Slash i) a w' -> rep s' w' -> room w' -> sends s' (status_of y) a ->
     fits fuel a -> Q (y, rb) (set_in tl l) s') ->
  WP (handle_command en be fuel (CUnlock i) m rb) Q l s.
Proof using HH Hlfs.
  intros Hu Hz Hr Hw Hrb Hread HF HQ. cbn [handle_command].
  apply wp_bind. unfold p_unlock. apply wp_bindR. apply Hread. intros _. rewrite Hu.
  apply wp_bind, nf_found. pose proof (can_found s w i Hr Hz) as Hf.
  destruct (found_at s (push_str (lock_dir be) i)) as [|t|d u] eqn:Ef.
  - apply wp_ret, wp_ret. eapply HQ; [eexists; split; [exact Hf|constructor]|done|done| |done]. by apply sends_fail, is_code.
  - intros e <-. apply wp_ret, wp_ret. eapply HQ; [eexists; split; [exact Hf|constructor]|done|done| |done].
    cbn [status_of]. unfold status_of_error. cbn [e_kind err_of_io err_new client_error]. unfold display.
    cbn [e_kind e_int e_msg err_of_io err_new kind_text internal_text]. rewrite !app_nil_r, <- !app_assoc. by apply (sends_fail _ 500), is_code.
  - destruct (lock_parse d) as [[t p]|] eqn:Ep.
    2: { apply wp_ret, wp_ret. eapply HQ; [eexists; split; [exact Hf|apply un_text]|done|done| |done].
         - intros t p Hrec. apply lock_parse_iff in Hrec. congruence.
         - by apply sends_error. }
    pose proof (proj1 (lock_parse_iff d t p) Ep) as Hrec. change (record_text d t p) in Hrec.
    apply wp_bind. destruct (en_time en t) as [x|] eqn:Et.
    2: { unfold as_arguments, formatted_timestamp. cbn [lk_time]. rewrite Et. apply wp_bind. apply HF. by exists d, u, t, p. }
    apply (nf_as_arguments en ts clock pid F p t u x); [done|].
    apply wp_bind. unfold lock_unlock, lk_id. cbn [lk_path]. change (hash_for en p) with (lock_id (en_hash en) p).
    unfold lock_file, lock_dir. cbn [be_lfs]. rewrite <- app_assoc. cbn [app].
    apply wp_io_call, wp_call. intros o [Ho _]. cbn [handle_ev]. unfold faulty. rewrite Ho. unfold with_l, fs_unlink, file_at.
    destruct (lock_id_plain en HH p) as (Hi & _).
    pose proof (resolve_in lfs Hlfs s (bs "locks") _ (r_dirs _ _ _ _ Hr) in_locks (plain_stays _ Hi) (plain_no_nul _ Hi)) as Er.
    change (be_lfs be) with lfs. rewrite Er, node_at_cons by (by intros [_ ?]%app_eq_nil).
    pose proof (lock_node en lfs s w (lock_id (en_hash en) p) Hr) as Hn.
    destruct (w_locks w !! lock_id (en_hash en) p) as [[[p' t'] u']|] eqn:E.
    + destruct Hn as (j & x' & Hj & _). rewrite Hj. cbn [fst snd res_of_io]. apply wp_ret, wp_ret.
      eapply HQ; [eexists; split; [exact Hf|eapply un_lock; [exact Hrec|exact Et|by eexists]]| |done| |done].
      * eapply (rep_unlock en lfs s _ w _); [exact Hr| |done|by eexists]. by apply ino_le_eq.
      * by apply (sends_none _ 200 (Some _)), is_code.
    + rewrite Hn. cbn [fst snd res_of_io io_kind e_int err_of_io err_new io_kind_of ENOENT]. rewrite decide_True by done.
      apply wp_ret, wp_ret. eapply HQ; [eexists; split; [exact Hf|by eapply un_none]|done|done| |done].
      by apply sends_fail, is_code.
Qed.

Lemma nf_slash b i i1 tl qs w rb l s (Q : next -> local -> fs -> Prop) :
  decode 65535 (l_in l) = (Ok (PData b), i1) -> slash m b i -> upto PFlush qs i1 tl ->
  rep s w -> room w -> rb_ok rb -> (2 * length (l_in l) + 2 <= fuel)%nat ->
  (undated en w i -> F PBadTime (set_in tl l) s) ->
  (forall a w' ps s', reacts_all en m (l_uid l) clock w (Slash i) a w' -> reply_sent a ps -> rep s' w' -> room w' ->
     Q (Next rb) (add_out (enc_all ps) (set_in tl l)) s') ->
  WP (process_one en be fuel m rb) Q l s.
Proof using HH Hlfs.
  intros Hin (ws & Hm & Hb & Hn & Hu & Hz & Hsl) Ht Hr Hw Hrb Hf HF HQ.
  unfold process_one. apply wp_bind, (nf_read_packet pid ok F (inp_nf ts clock)). rewrite Hin. cbn [fst snd].
  cbn [pkt_data]. pose proof (says_words b ws Hb) as Eb.
  assert (Hd : dispatch ws m = CUnlock i) by by apply (named_dispatch m (RUnlock i [])).
  destruct b as [|b0 b']; [by destruct Hb|]. rewrite Eb, Hd.
  set (l1 := set_in _ l). apply wp_bind. apply (nf_unlock_slash i w rb tl l1 s); try done.
  - intros Q' HQ'. unfold read_to_flush. eapply nf_read; [|exact Ht|apply HQ'].
    unfold l1. cbn [l_in set_in]. apply decode_shrink in Hin. lia.
  - intros y a w' s' H1 H2 H3 H4 H5. unfold and_go_on. apply wp_bind. eapply (nf_answer ts clock); [done|done|].
    intros ps s'' Hps E1 E2. apply wp_ret. unfold l1. rewrite set_in_set_in.
    eapply HQ; [exact H1|done| |done]. eapply rep_same; [exact H2|done|by apply ino_le_eq].
Qed.

Lemma nf_first_all x w rb i' l s (Q : next -> local -> fs -> Prop) :
  first_all m (l_in l) x i' -> rep s w -> room w -> rb_ok rb -> (2 * length (l_in l) + 2 <= fuel)%nat ->
  (forall i, x = Slash i -> undated en w i -> F PBadTime (set_in i' l) s) ->
  (forall a w' ps rb' s', reacts_all en m (l_uid l) clock w x a w' -> reply_sent a ps -> rep s' w' -> room w' ->
     rb_ok rb' -> Q (Next rb') (add_out (enc_all ps) (set_in i' l)) s') ->
  WP (process_one en be fuel m rb) Q l s.
Proof using HH Hlfs Hts Hclock.
  intros H Hr Hw Hrb Hf HF HQ. inversion H as [j y j' H1|b i qs v tl Hs Hq Hv|b i qs v f Hs Hq Hv Hfr]; subst.
  - eapply (nf_first en lfs umask ts clock m pid fuel F HH Hlfs Hts Hclock y w rb i'); try done.
  - apply seens_cons_inv in Hv as (v1 & v2 & -> & Hp & Hv).
    eapply (nf_slash b i _ i' qs); [|done| |done|done|done|done|by apply HF|].
    + rewrite <- H0, <- app_assoc. by apply seen_decode_any.
    + by apply seens_closed.
    + intros. by eapply HQ.
  - apply seens_cons_inv in Hv as (v1 & v2 & -> & Hp & Hv).
    eapply (nf_slash b i _ [] qs); [|done| |done|done|done|done|by apply HF|].
    + rewrite <- H0, <- app_assoc. by apply seen_decode_any.
    + by apply seens_cut.
    + intros. by eapply HQ.
Qed.

Lemma first_all_shrink i x i' : first_all m i x i' -> (length i' < length i)%nat.
Proof using Type.
  intros [j y j' H|b k qs v tl Hs Hq Hv|b k qs v f Hs Hq Hv Hfr].
  - by apply first_shrink in H.
  - apply seens_cons_inv in Hv as (v1 & v2 & -> & Hp & _). apply seen_len in Hp. rewrite !app_length. lia.
  - apply seens_cons_inv in Hv as (v1 & v2 & -> & Hp & _). apply seen_len in Hp. rewrite !app_length. simpl. lia.
Qed.

(** ** Sessions *)
Lemma nf_reading_all xs e n w rb l s (Q : res unit -> local -> fs -> Prop) :
  reading_all m (l_in l) xs e -> rep s w -> room w -> rb_ok rb ->
  (2 * length (l_in l) + 2 <= fuel)%nat -> (length (l_in l) < n)%nat ->
  (forall xs1 i xs2 answers w' ps tl s', xs = xs1 ++ Slash i :: xs2 -> reactions_all en m (l_uid l) clock w xs1 answers w' ->
     undated en w' i -> replies_sent answers ps -> rep s' w' -> F PBadTime (add_out (enc_all ps) (set_in tl l)) s') ->
  (forall answers w' ps tl s', reactions_all en m (l_uid l) clock w xs answers w' ->
     replies_sent (answers ++ last_answer e) ps -> rep s' w' -> Q (result_of e) (add_out (enc_all ps) (set_in tl l)) s') ->
  WP (process_commands en be fuel n m rb) Q l s.
Proof using HH Hlfs Hts Hclock.
  revert xs w rb l s. induction n as [|n IH]; intros xs w rb l s Hrd Hr Hw Hrb Hf Hn HF HQ; [lia|].
  inversion Hrd as [i e' Hov He|i x i' xs' e' Hx Hrd']; subst.
  - eapply wp_mono; [|eapply (nf_reading en lfs umask ts clock m pid fuel F HH Hlfs Hts Hclock [] e (S n) w rb); try done; by constructor].
    intros y l' s' (-> & ans & w' & ps & H1 & H2 & H3 & tl & ->). inversion H1; subst. eapply HQ; [constructor|done|done].
  - cbn [process_commands]. apply wp_bind. eapply (nf_first_all x w rb i'); try done.
    + intros i -> Hund. rewrite <- (add_out_nil (set_in i' l)). apply (HF [] i xs' [] w []); try done; constructor.
    + pose proof (first_all_shrink _ _ _ Hx) as Hsh. intros a w' ps rb' s' Ha Hps Hr' Hw' Hrb'.
      eapply (IH xs' w' rb'); try done; cbn [l_in l_uid add_out set_in]; [lia|lia|..].
      * intros xs1 i xs2 ans w'' qs tl s'' -> H1 H2 H3 H4.
        replace (add_out _ _) with (add_out (enc_all (ps ++ qs)) (set_in tl l)) by (rewrite enc_all_app, <- add_out_app; done).
        eapply (HF (x :: xs1) i xs2 (a :: ans) w''); [done|by econstructor|done|by constructor|done].
      * intros ans w'' qs tl s'' H1 H2 H3.
        replace (add_out _ _) with (add_out (enc_all (ps ++ qs)) (set_in tl l)) by (rewrite enc_all_app, <- add_out_app; done).
        eapply (HQ (a :: ans) w''); [by econstructor|by constructor|done].
Qed.

Lemma nf_run_all xs e w l s (Q : res unit -> local -> fs -> Prop) :
  reading_all m (l_in l) xs e -> holds en lfs s w -> room w -> (2 * length (l_in l) + 2 <= fuel)%nat ->
  (forall xs1 i xs2 answers w' ps tl s', xs = xs1 ++ Slash i :: xs2 -> reactions_all en m (l_uid l) clock w xs1 answers w' ->
     undated en w' i -> replies_sent answers ps -> rep s' w' -> F PBadTime (add_out (enc_all (capabilities ++ ps)) (set_in tl l)) s') ->
  (forall answers w' ps tl s', reactions_all en m (l_uid l) clock w xs answers w' ->
     replies_sent (answers ++ last_answer e) ps -> rep s' w' -> Q (result_of e) (add_out (enc_all (capabilities ++ ps)) (set_in tl l)) s') ->
  WP (transfer_run en fuel lfs umask ts (operation m)) Q l s.
Proof using HH Hlfs Hts Hclock.
  intros Hrd Hr Hw Hf HF HQ. unfold transfer_run. apply wp_bindR. unfold create_directories.
  apply (nf_create en lfs ts clock pid F dir_names w); [done|done|]. intros s1 H1 H2 _.
  apply wp_bindR. unfold send_capabilities.
  apply wp_bindR, (nf_send pid ok F (inp_nf ts clock)), (nf_flush pid ok F (inp_nf ts clock)).
  rewrite mode_operation. rewrite add_out_app. rewrite pk_short.
  2: { unfold small. by vm_compute. }
  replace (enc_all [PData (bs "version=1" ++ [NL])] ++ enc PFlush) with (enc_all capabilities) by done.
  eapply (nf_reading_all xs e fuel w rb_empty); try done.
  - by apply represents_of.
  - cbn [l_in add_out]. lia.
  - cbn [l_uid add_out]. intros xs1 i xs2 ans w' ps tl s' G1 G2 G3 G4 G5.
    replace (add_out _ _) with (add_out (enc_all (capabilities ++ ps)) (set_in tl l)) by (rewrite enc_all_app, <- add_out_app; done).
    by eapply HF.
  - cbn [l_uid add_out]. intros ans w' ps tl s' G1 G2 G3.
    replace (add_out _ _) with (add_out (enc_all (capabilities ++ ps)) (set_in tl l)) by (rewrite enc_all_app, <- add_out_app; done).
    by eapply HQ.
Qed.
End all.

Lemma c65 en lfs umask ts (clock : Z -> Prop) m pid os l s w xs e fuel :
  setting en lfs ts clock os -> holds en lfs s w -> reading_all m (l_in l) xs e -> enough fuel l w ->
  (exists as_ w' s', coped_all en lfs umask ts clock m pid fuel os l s w xs e as_ w' s') \/
  (exists xs1 i xs2 as_ w' s', xs = xs1 ++ Slash i :: xs2 /\
     panicked en lfs umask ts clock m pid fuel os l s w xs1 i as_ w' s').
Proof.
  intros [HH Hlfs Hts Hclock Hos] Hr Hrd [Hf Hroom].
  assert (Hw : forall ans ps, replies_sent ans ps ->
    wires (PData (bs "version=1" ++ [NL]) :: PFlush :: ps) (enc_all (capabilities ++ ps))).
  { intros ans ps Hps. change (PData (bs "version=1" ++ [NL]) :: PFlush :: ps) with (capabilities ++ ps).
    apply wires_enc. apply Forall_app. split; [|by eapply replies_small]. by repeat constructor. }
  pose proof (nf_run_all en lfs umask ts clock m pid fuel (fun f l' s' => f = PBadTime /\
      exists xs1 i xs2 as_ w' ps tl, xs = xs1 ++ Slash i :: xs2 /\ reactions_all en m (l_uid l) clock w xs1 as_ w' /\
        undated en w' i /\ replies_sent as_ ps /\ represents en lfs s' w' /\ l' = add_out (enc_all (capabilities ++ ps)) (set_in tl l))
    HH Hlfs Hts Hclock xs e w l s (fun r l' s' => r = result_of e /\
      exists as_ w' ps tl, reactions_all en m (l_uid l) clock w xs as_ w' /\
        replies_sent (as_ ++ last_answer e) ps /\ represents en lfs s' w' /\ l' = add_out (enc_all (capabilities ++ ps)) (set_in tl l))
    Hrd Hr Hroom Hf) as G.
  lazymatch type of G with ?A -> ?B -> _ => assert (GA : A); [|assert (GB : B); [|specialize (G GA GB)]] end.
  - intros xs1 i xs2 ans w' ps tl s' H1 H2 H3 H4 H5. split; [done|]. by exists xs1, i, xs2, ans, w', ps, tl.
  - intros ans w' ps tl s' H1 H2 H3. split; [done|]. by exists ans, w', ps, tl.
  - apply wp_run with (os := os) in G; [|done].
    destruct (run pid (transfer_run en fuel lfs umask ts (operation m)) os l s) as [[[a|f] l'] s'] eqn:E.
    + destruct G as (-> & ans & w' & ps & tl & H1 & H2 & H3 & ->). left. exists ans, w', s'.
      eexists _, ps, (enc_all (capabilities ++ ps)). split_and!; try done. by eapply Hw.
    + destruct G as (-> & xs1 & i & xs2 & ans & w' & ps & tl & H0 & H1 & H2 & H3 & H4 & ->). right.
      exists xs1, i, xs2, ans, w', s'. split; [done|].
      eexists _, ps, (enc_all (capabilities ++ ps)). split_and!; try done. by eapply Hw.
Qed.

(** ** Every input *)
Lemma one_request_all m i : (exists e, over m i e /\ e <> AtSlash) \/ exists x i', first_all m i x i'.
Proof.
  destruct (one_request m i) as [[e He]|(x & i' & H)]; [|right; exists (Known x), i'; by constructor].
  destruct He as [f Hf|b w tl Hb Hs|h tl Hh|k b ws w tl Hm Hb Hn Hu Hz Hsl Hs].
  - left. eexists. split; [by constructor|done].
  - left. eexists. split; [by econstructor|done].
  - left. eexists. split; [by constructor|done].
  - right. assert (Hk : slash m b k) by by exists ws.
    destruct (scan PFlush tl) as (qs & Hq & H); [by left|].
    destruct H as [(w' & tl' & -> & H)|[(w' & f & -> & H & Hf)|(w' & h & tl' & -> & H & Hh)]]; rewrite app_assoc.
    + eexists _, tl'. eapply fa_slash; [done|done|by constructor].
    + eexists _, []. eapply fa_slash_cut; [done|done|by constructor|done].
    + eexists _, tl'. eapply fa_known, (fi_broken m (PData b :: qs)); [|by constructor|done].
      by eapply (br_lines m (RUnlock k [])).
Qed.
Lemma c65_input m i : exists xs e, reading_all m i xs e.
Proof.
  remember (length i) as n eqn:Hn. revert i Hn. induction (lt_wf n) as [n _ IH]. intros i ->.
  destruct (one_request_all m i) as [[e [He Hne]]|(x & i' & Hx)]; [exists [], e; by constructor|].
  destruct (IH (length i')) with (i := i') as (xs & e & H); [by eapply first_all_shrink|done|].
  exists (x :: xs), e. by econstructor.
Qed.
