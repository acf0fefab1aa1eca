(** Proofs of the session properties. *)
From Verif Require Import Bytes ByteFacts Err FS Prog Pktline Args Local Processor Transfer
  Spec SpecStore SpecServer TextProofs GetProofs SeqFs SeqCmd Session SessionFacts.
From stdpp Require Import sorting.

Section props.
Context (en : env) (lfs : path).

(** ** C18 *)
Lemma c18 umask ts clock pid os l s w reqs extra fuel i o kvs ds b :
  setting en lfs ts clock os -> holds en lfs s w -> asks Upload l reqs extra -> enough fuel l w ->
  reqs !! i = Some (RPut o kvs ds) -> (bs "size", b) ∈ kvs ->
  exists as_ w1 s1 a, served en lfs umask ts clock Upload pid fuel os l s w reqs as_ extra w1 s1 /\ as_ !! i = Some a /\
    (rp_code a = 200%N <-> number b (lenN (concat ds)) /\ hex_of (en_hash en (concat ds)) o) /\
    (rp_code a = 200%N ->
     forall umask' ts' clock' m' pid' os' l' reqs' extra' fuel',
     setting en lfs ts' clock' os' -> asks m' l' reqs' extra' -> enough fuel' l' w1 ->
     exists as' w2 s2, served en lfs umask' ts' clock' m' pid' fuel' os' l' s1 w1 reqs' as' extra' w2 s2 /\
       (forall j kvs', reqs' !! j = Some (RGet o kvs') ->
          exists d, (d = concat ds \/ (d <> concat ds /\ en_hash en d = en_hash en (concat ds))) /\
            as' !! j = Some (Reply 200 [bs "size=" ++ dec (lenN d) ++ [NL]] (BData d))) /\
       (forall j kvs' b', reqs' !! j = Some (RVerify o kvs') -> (bs "size", b') ∈ kvs' ->
          number b' (lenN (concat ds)) -> exists a', as' !! j = Some a' /\
            (rp_code a' = 200%N \/ exists d, d <> concat ds /\ en_hash en d = en_hash en (concat ds)))).
Proof.
  intros Hset Hr Ha Hf Hi Hb. pose proof Ha as [Hwf _].
  destruct (c13 en lfs umask ts clock Upload pid os l s w reqs extra fuel Hset Hr Ha Hf) as (as_ & w1 & s1 & Hsv).
  pose proof Hsv as (l1 & ps & out & Hrun & Hss & Hrep & _).
  destruct (session_at _ _ _ _ _ _ _ _ i _ Hss Hi) as (u & a & v & H1 & H2 & H3 & H4).
  rewrite Forall_lookup in Hwf. pose proof (Hwf _ _ Hi) as (_ & Hargs & Ho & _).
  destruct (put_answer en Upload (l_uid l) clock u o kvs ds b a v Hargs Hb H3) as (P1 & P2 & _).
  exists as_, w1, s1, a. split_and!; try done.
  intros Hok umask' ts' clock' m' pid' os' l' reqs' extra' fuel' Hset' Ha' Hf'.
  assert (Hk : keeps en o (concat ds) w1).
  { eapply session_keeps; [exact H4|by apply P1|]. rewrite P2 by done. exists (concat ds).
    simpl. rewrite lookup_insert. split; [done|by left]. }
  destruct (c13 en lfs umask' ts' clock' m' pid' os' l' s1 w1 reqs' extra' fuel' Hset' (holds_of _ _ _ _ Hrep) Ha' Hf') as (as' & w2 & s2 & Hsv').
  exists as', w2, s2. split; [done|]. destruct Hsv' as (_ & _ & _ & _ & Hss' & _). split.
  - intros j kvs' Hj. destruct (session_at _ _ _ _ _ _ _ _ j _ Hss' Hj) as (u' & a' & v' & G1 & G2 & G3 & _).
    destruct (session_keeps _ _ _ _ _ _ _ _ o (concat ds) G1) as (d & Ed & Hd); [by apply P1|done|].
    apply get_answer in G3 as [G3 _]; [|done]. rewrite Ed in G3. subst a'. by exists d.
  - intros j kvs' b' Hj Hb' Hn. destruct (session_at _ _ _ _ _ _ _ _ j _ Hss' Hj) as (u' & a' & v' & G1 & G2 & G3 & _).
    destruct Ha' as [Hwf' _]. rewrite Forall_lookup in Hwf'. pose proof (Hwf' _ _ Hj) as (_ & Hargs' & _).
    destruct (session_keeps _ _ _ _ _ _ _ _ o (concat ds) G1) as (d & Ed & Hd); [by apply P1|done|].
    exists a'. split; [done|]. destruct Hd as [->|Hd]; [left|right; by exists d].
    eapply verify_answer; [done|exact Hargs'|exact Hb'|exact Hn|exact G3|]. by exists (concat ds).
Qed.

(** ** C21, C22 *)
Lemma c21 umask ts clock pid os l s w reqs extra fuel i o kvs b n :
  setting en lfs ts clock os -> holds en lfs s w -> asks Upload l reqs extra -> enough fuel l w ->
  reqs !! i = Some (RVerify o kvs) -> is_oid o -> (bs "size", b) ∈ kvs -> number b n ->
  exists as_ w1 s1 wi a, served en lfs umask ts clock Upload pid fuel os l s w reqs as_ extra w1 s1 /\
    session_of en Upload (l_uid l) clock w (take i reqs) (take i as_) wi /\ as_ !! i = Some a /\
    (rp_code a = 200%N <-> exists d, w_objs wi !! o = Some d /\ lenN d = n) /\
    (rp_code a = 409%N <-> exists d, w_objs wi !! o = Some d /\ lenN d <> n) /\
    (rp_code a = 404%N <-> w_objs wi !! o = None) /\
    session_of en Upload (l_uid l) clock wi (drop (S i) reqs) (drop (S i) as_) w1.
Proof.
  intros Hset Hr Ha Hf Hi Ho Hb Hn. pose proof Ha as [Hwf _].
  destruct (c13 en lfs umask ts clock Upload pid os l s w reqs extra fuel Hset Hr Ha Hf) as (as_ & w1 & s1 & Hsv).
  pose proof Hsv as (l1 & ps & out & Hrun & Hss & Hrep & _).
  destruct (session_at _ _ _ _ _ _ _ _ i _ Hss Hi) as (u & a & v & H1 & H2 & H3 & H4).
  rewrite Forall_lookup in Hwf. pose proof (Hwf _ _ Hi) as (_ & Hargs & _).
  destruct (verify_answer _ _ _ _ _ _ _ _ _ _ _ Ho Hargs Hb Hn H3) as (P1 & P2 & P3 & ->).
  by exists as_, w1, s1, u, a.
Qed.

Lemma c22 umask ts clock m pid os l s w reqs extra fuel i kvs items :
  setting en lfs ts clock os -> holds en lfs s w -> asks m l reqs extra -> enough fuel l w ->
  reqs !! i = Some (RBatch kvs items) -> no_key (bs "hash-algo") kvs \/ (bs "hash-algo", bs "sha256") ∈ kvs ->
  exists as_ w1 s1 wi ls, served en lfs umask ts clock m pid fuel os l s w reqs as_ extra w1 s1 /\
    session_of en m (l_uid l) clock w (take i reqs) (take i as_) wi /\ as_ !! i = Some (Reply 200 [] (BLines ls)) /\
    Forall2 (fun x line => exists size, match w_objs wi !! x.1 with
      | Some d => denotes size (lenN d) /\ line = x.1 ++ bs " " ++ size ++ bs " " ++
          match m with Upload => bs "noop" | Download => bs "download" end ++ [NL]
      | None => (exists n, number x.2 n /\ denotes size n) /\ line = x.1 ++ bs " " ++ size ++ bs " " ++
          match m with Upload => bs "upload" | Download => bs "noop" end ++ [NL]
      end) items ls /\
    session_of en m (l_uid l) clock wi (drop (S i) reqs) (drop (S i) as_) w1.
Proof.
  intros Hset Hr Ha Hf Hi Hh. pose proof Ha as [Hwf _].
  destruct (c13 en lfs umask ts clock m pid os l s w reqs extra fuel Hset Hr Ha Hf) as (as_ & w1 & s1 & Hsv).
  pose proof Hsv as (l1 & ps & out & Hrun & Hss & Hrep & _).
  destruct (session_at _ _ _ _ _ _ _ _ i _ Hss Hi) as (u & a & v & H1 & H2 & H3 & H4).
  rewrite Forall_lookup in Hwf. pose proof (Hwf _ _ Hi) as (Hargs & _).
  destruct (batch_answer _ _ _ _ _ _ _ _ _ Hh Hargs H3) as (-> & ls & -> & Hls).
  exists as_, w1, s1, u, ls. split_and!; try done. eapply Forall2_impl; [exact Hls|].
  intros x line (n & Hn & ->). unfold batch_line_for. destruct (w_objs u !! x.1) as [d|].
  - exists (dec (lenN d)). split; [apply denotes_dec|done].
  - exists (dec n). split; [|done]. exists n. split; [done|apply denotes_dec].
Qed.

(** ** C25 *)
Lemma lock_id_utf8 p : digest (en_hash en) -> utf8_valid (lock_id (en_hash en) p) = true.
Proof. intros HH. apply utf8_valid_ascii. by apply lock_id_plain. Qed.

Lemma c25_lock umask ts clock pid os l s w reqs extra fuel i kvs p r :
  setting en lfs ts clock os -> holds en lfs s w -> asks Upload l reqs extra -> enough fuel l w ->
  reqs !! i = Some (RLock kvs) -> (bs "path", p) ∈ kvs -> (bs "refname", r) ∈ kvs ->
  exists as_ w1 s1 wi a wi', served en lfs umask ts clock Upload pid fuel os l s w reqs as_ extra w1 s1 /\
    session_of en Upload (l_uid l) clock w (take i reqs) (take i as_) wi /\ as_ !! i = Some a /\
    session_of en Upload (l_uid l) clock wi' (drop (S i) reqs) (drop (S i) as_) w1 /\
    match w_locks wi !! lock_id (en_hash en) p with
    | None => exists t t' x, clock t /\ clock t' /\ en_time en t' = Some x /\
        a = Reply 201 (lock_info en p x (l_uid l)) BNone /\
        wi' = World (w_objs wi) (<[lock_id (en_hash en) p := (p, t, l_uid l)]> (w_locks wi))
    | Some (p', t, u) => wi' = wi /\
        (p' = p -> exists x, en_time en t = Some x /\ a = Reply 409 (lock_info en p x u) (BText (bs "conflict" ++ [NL]))) /\
        (p' <> p -> en_hash en (bs "v1:" ++ p') = en_hash en (bs "v1:" ++ p))
    end.
Proof.
  intros Hset Hr Ha Hf Hi Hp Hrn. pose proof Ha as [Hwf _].
  destruct (c13 en lfs umask ts clock Upload pid os l s w reqs extra fuel Hset Hr Ha Hf) as (as_ & w1 & s1 & Hsv).
  pose proof Hsv as (l1 & ps & out & Hrun & Hss & Hrep & _).
  destruct (session_at _ _ _ _ _ _ _ _ i _ Hss Hi) as (u & a & v & H1 & H2 & H3 & H4).
  rewrite Forall_lookup in Hwf. pose proof (Hwf _ _ Hi) as (_ & Hargs).
  pose proof (lock_answer _ _ _ _ _ _ _ _ _ _ Hargs Hp Hrn H3) as G.
  exists as_, w1, s1, u, a, v. split_and!; try done.
  destruct (w_locks u !! lock_id (en_hash en) p) as [[[p' t] u']|] eqn:E; [|done].
  destruct G as (-> & G1 & _). split_and!; try done. intros _.
  (* the table always files a lock under its own id *)
  assert (Hid : lock_id (en_hash en) p = lock_id (en_hash en) p').
  { assert (Hinv : forall w, (forall i p t u, w_locks w !! i = Some (p, t, u) -> i = lock_id (en_hash en) p) ->
      forall reqs as_ w', session_of en Upload (l_uid l) clock w reqs as_ w' ->
      (forall i p t u, w_locks w' !! i = Some (p, t, u) -> i = lock_id (en_hash en) p)).
    { intros w0 H0 rs as0 w0' Hs. induction Hs as [|w2 r2 a2 w3 rs2 as2 w4 Hans _ IH]; [done|]. apply IH.
      destruct Hans; try done; simpl.
      - intros z p1 t1 u1. rewrite lookup_insert_Some. intros [[<- [= <- _ _]]|[_ ?]]; [done|by eapply H0].
      - intros z p1 t1 u1. rewrite lookup_delete_Some. intros [_ ?]. by eapply H0. }
    eapply (Hinv w); [|exact H1|exact E]. intros z p1 t1 u1 H0. by destruct (h_lock _ _ _ _ Hr _ _ _ _ H0) as (_ & ? & _). }
  unfold lock_id in Hid. by apply hex_encode_inj in Hid.
Qed.

Lemma c25_unlock umask ts clock pid os l s w reqs extra fuel i id kvs :
  setting en lfs ts clock os -> holds en lfs s w -> asks Upload l reqs extra -> enough fuel l w ->
  reqs !! i = Some (RUnlock id kvs) -> utf8_valid id = true ->
  exists as_ w1 s1 wi a wi', served en lfs umask ts clock Upload pid fuel os l s w reqs as_ extra w1 s1 /\
    session_of en Upload (l_uid l) clock w (take i reqs) (take i as_) wi /\ as_ !! i = Some a /\
    session_of en Upload (l_uid l) clock wi' (drop (S i) reqs) (drop (S i) as_) w1 /\
    match w_locks wi !! id with
    | None => a = not_found /\ wi' = wi
    | Some (p, t, u) => wi' = World (w_objs wi) (delete id (w_locks wi)) /\
        exists x, en_time en t = Some x /\ a = Reply 200 (lock_info en p x u) BNone
    end.
Proof.
  intros Hset Hr Ha Hf Hi Hu. pose proof Ha as [Hwf _].
  destruct (c13 en lfs umask ts clock Upload pid os l s w reqs extra fuel Hset Hr Ha Hf) as (as_ & w1 & s1 & Hsv).
  pose proof Hsv as (l1 & ps & out & Hrun & Hss & Hrep & _).
  destruct (session_at _ _ _ _ _ _ _ _ i _ Hss Hi) as (u & a & v & H1 & H2 & H3 & H4).
  pose proof (unlock_answer _ _ _ _ _ _ _ _ _ Hu H3) as G.
  by exists as_, w1, s1, u, a, v.
Qed.

(** ** C26 *)
Lemma list_path_answer m uid clock w p t u x a w' :
  w_locks w !! lock_id (en_hash en) p = Some (p, t, u) -> en_time en t = Some x ->
  answer_of en m uid clock w (RList [(bs "path", p)]) a w' -> a = Reply 200 [] (BLines (lock_lines en m p x u)).
Proof.
  intros E Hx H. assert (Hargs : args_ok [(bs "path", p)]).
  { split; [|apply NoDup_singleton]. repeat constructor. refine (bool_decide_eq_true_1 _ _). by vm_compute. }
  assert (Hp : (bs "path", p) ∈ [(bs "path", p)]) by (by left).
  assert (Hc : key (bs "cursor") [(bs "path", p)] None) by (intros ?%elem_of_list_singleton; done).
  inversion H as [| | | | | | | | | | | | | | | | | | | | kvs b' Hb'|kvs b' Hb'|kvs lim n p' c t' u' x' H1 H2 Hp' Hc' E' Hx' H3|kvs lim n p' c H1 H2 Hp' Hc' H3
    |kvs lim n p' p2 t' u' H1 H2 Hp' E' Hne|kvs lim n' c' ls out Hl1 Hl2 Hnp| | |]; subst.
  - by apply elem_of_list_singleton in Hb'.
  - by apply elem_of_list_singleton in Hb'.
  - pose proof (args_fun _ _ _ _ Hargs Hp Hp'). subst p'. congruence.
  - pose proof (args_fun _ _ _ _ Hargs Hp Hp'). subst p'.
    destruct H3 as [H3|(? & ? & c' & _ & -> & _)]; [congruence|]. simpl in Hc'. by apply (args_no _ _ _ Hc) in Hc'.
  - pose proof (args_fun _ _ _ _ Hargs Hp Hp'). subst p'. congruence.
  - exfalso. by apply (args_no _ _ _ Hnp) in Hp.
Qed.

Lemma c26 umask ts clock pid os l s w reqs extra fuel i kvs p r :
  setting en lfs ts clock os -> holds en lfs s w -> asks Upload l reqs extra -> enough fuel l w ->
  reqs !! i = Some (RLock kvs) -> (bs "path", p) ∈ kvs -> (bs "refname", r) ∈ kvs ->
  exists as_ w1 s1, served en lfs umask ts clock Upload pid fuel os l s w reqs as_ extra w1 s1 /\
    forall a, as_ !! i = Some a -> rp_code a = 201%N ->
    exists x y t t', a = Reply 201 (lock_info en p x (l_uid l)) BNone /\
      clock t /\ en_time en t = Some y /\ clock t' /\ en_time en t' = Some x /\
      forall j, (i < j)%nat -> (forall kvs', RUnlock (lock_id (en_hash en) p) kvs' ∉ drop (S i) (take j reqs)) ->
      (forall kvs' r', reqs !! j = Some (RLock kvs') -> (bs "path", p) ∈ kvs' -> (bs "refname", r') ∈ kvs' ->
         as_ !! j = Some (Reply 409 (lock_info en p y (l_uid l)) (BText (bs "conflict" ++ [NL])))) /\
      (reqs !! j = Some (RList [(bs "path", p)]) ->
         as_ !! j = Some (Reply 200 [] (BLines (lock_lines en Upload p y (l_uid l))))) /\
      (forall kvs', reqs !! j = Some (RUnlock (lock_id (en_hash en) p) kvs') ->
         as_ !! j = Some (Reply 200 (lock_info en p y (l_uid l)) BNone)).
Proof.
  intros Hset Hr Ha Hf Hi Hp Hrn. pose proof Ha as [Hwf _].
  destruct (c13 en lfs umask ts clock Upload pid os l s w reqs extra fuel Hset Hr Ha Hf) as (as_ & w1 & s1 & Hsv).
  exists as_, w1, s1. split; [done|]. intros a Has Hok.
  pose proof Hsv as (l1 & ps & out & Hrun & Hss & Hrep & _).
  destruct (session_at _ _ _ _ _ _ _ _ i _ Hss Hi) as (u & a' & v & H1 & H2 & H3 & H4).
  assert (a' = a) as -> by congruence.
  rewrite Forall_lookup in Hwf. pose proof (Hwf _ _ Hi) as (_ & Hargs).
  pose proof (lock_answer _ _ _ _ _ _ _ _ _ _ Hargs Hp Hrn H3) as G.
  destruct (w_locks u !! lock_id (en_hash en) p) as [[[p' t0] u']|] eqn:E.
  { exfalso. destruct G as (_ & G1 & G2). destruct (decide (p' = p)) as [->|Hne].
    - destruct (G1 eq_refl) as (? & _ & ->). done.
    - by rewrite (G2 Hne) in Hok. }
  destruct G as (t & t' & x & Ht & Ht' & Hx & -> & Ev).
  destruct (set_clock _ _ _ _ _ Hset t Ht) as [_ [y Hy]].
  exists x, y, t, t'. split_and!; try done. intros j Hij Hno.
  assert (Hv : w_locks v !! lock_id (en_hash en) p = Some (p, t, l_uid l)) by (rewrite Ev; simpl; by rewrite lookup_insert).
  assert (Hj : forall q, reqs !! j = Some q -> exists wj b wj', w_locks wj !! lock_id (en_hash en) p = Some (p, t, l_uid l) /\
    as_ !! j = Some b /\ answer_of en Upload (l_uid l) clock wj q b wj').
  { intros q Hq. destruct (session_at _ _ _ _ _ _ _ _ (j - S i) q H4) as (wj & b & wj' & J1 & J2 & J3 & _).
    { rewrite lookup_drop. by replace (S i + (j - S i))%nat with j by lia. }
    exists wj, b, wj'. split_and!; [|rewrite lookup_drop in J2; by replace (S i + (j - S i))%nat with j in J2 by lia|done].
    eapply session_locks; [exact J1|done|]. intros kvs' Hin. apply (Hno kvs').
    by rewrite skipn_firstn_comm. }
  split_and!.
  - intros kvs' r' Hq Hp' Hr'. destruct (Hj _ Hq) as (wj & b & wj' & J1 & -> & J3).
    pose proof (Hwf _ _ Hq) as (_ & Hargs').
    pose proof (lock_answer _ _ _ _ _ _ _ _ _ _ Hargs' Hp' Hr' J3) as G. rewrite J1 in G.
    destruct G as (_ & G & _). destruct (G eq_refl) as (y' & Hy' & ->). by rewrite Hy in Hy'; injection Hy' as ->.
  - intros Hq. destruct (Hj _ Hq) as (wj & b & wj' & J1 & -> & J3). f_equal. by eapply list_path_answer.
  - intros kvs' Hq. destruct (Hj _ Hq) as (wj & b & wj' & J1 & -> & J3).
    apply unlock_answer in J3; [|apply lock_id_utf8, Hset]. rewrite J1 in J3.
    destruct J3 as (_ & y' & Hy' & ->). by rewrite Hy in Hy'; injection Hy' as ->.
Qed.

(** ** C30, C31 *)
Lemma some_locks w : exists ls, locks_from w None ls.
Proof.
  set (ids := merge_sort ble (map_to_list (w_locks w)).*1).
  assert (Hss : StronglySorted (fun a b => blt a b = true) ids) by (apply sorted_strict, NoDup_fst_map_to_list).
  assert (Hin : forall i, i ∈ ids <-> is_Some (w_locks w !! i)).
  { intros i. unfold ids. rewrite merge_sort_Permutation, elem_of_list_fmap. split.
    - intros ([j r] & -> & Hj%elem_of_map_to_list). by exists r.
    - intros [r Hr%elem_of_map_to_list]. by exists (i, r). }
  exists ((fun i => (i, rec_at w i)) <$> ids). split.
  - clear -Hss. induction Hss as [|i l Hl IH Hf]; [constructor|]. cbn [fmap list_fmap]. constructor; [exact IH|].
    by apply Forall_fmap.
  - intros i r. rewrite elem_of_list_fmap. split.
    + intros (j & [= <- ->] & Hj). apply Hin in Hj as [r' Hr']. unfold rec_at. by rewrite Hr'.
    + intros [Hi _]. exists i. unfold rec_at. rewrite Hi. split; [done|]. apply Hin. by eexists.
Qed.

Lemma some_lines m w ls : (forall i p t u, w_locks w !! i = Some (p, t, u) -> is_Some (en_time en t)) ->
  (forall i r, (i, r) ∈ ls -> w_locks w !! i = Some r) -> exists out, locks_lines en m ls out.
Proof.
  intros Ht. induction ls as [|[i [[p t] u]] ls IH]; intros Hls; [eexists; constructor|].
  destruct IH as [out Hout]; [intros j r Hj; apply Hls; by right|].
  destruct (Ht i p t u) as [x Hx]; [apply Hls; by left|]. eexists. by econstructor.
Qed.

Lemma some_pages m w b n c ls : number b n -> n <> 0%N ->
  (forall i p t u, w_locks w !! i = Some (p, t, u) -> is_Some (en_time en t)) -> locks_from w c ls ->
  exists reqs as_, follows b c reqs as_ /\ (forall uid clock, session_of en m uid clock w reqs as_ w) /\
    Forall (well_formed m) reqs /\ (length reqs <= S (length ls))%nat /\
    Forall (fun r => r = RList (list_args b c) \/ exists i, is_Some (w_locks w !! i) /\ r = RList (list_args b (Some i))) reqs.
Proof.
  intros Hn Hn0 Ht. set (k := N.to_nat (N.min n 100)). assert (Hk : (0 < k)%nat) by (unfold k; lia).
  remember (length ls) as z eqn:Ez. revert c ls Ez. induction (lt_wf z) as [z _ IH]. intros c ls -> Hls.
  assert (Hls' : forall i r, (i, r) ∈ ls -> w_locks w !! i = Some r) by (intros i r Hi; by apply Hls in Hi as [? _]).
  destruct (some_lines m w (take (S k) ls) Ht) as [out Hout].
  { intros i r Hi. apply Hls'. by eapply elem_of_take in Hi as (? & ? & _); eapply elem_of_list_lookup_2. }
  assert (Hans : forall uid clock, answer_of en m uid clock w (RList (list_args b c))
    (Reply 200 (match ls !! k with Some (i, _) => [bs "next-cursor=" ++ i ++ [NL]] | None => [] end) (BLines out)) w).
  { intros uid clock. apply (a_list en m uid clock w (list_args b c) (Some b) k c); try done.
    - simpl. by left.
    - by constructor.
    - destruct c as [c|]; unfold no_key; simpl; rewrite ?elem_of_cons, elem_of_nil; intros Hin; by destruct_or?.
    - destruct c as [c|]; simpl; [by right; left|]. intros Hin. apply elem_of_list_singleton in Hin. done. }
  destruct (ls !! k) as [[i r]|] eqn:E.
  - destruct (IH (length (drop k ls))) with (c := Some i) (ls := drop k ls) as (reqs & as_ & F1 & F2 & F3 & F4 & F5).
    { rewrite drop_length. apply lookup_lt_Some in E. lia. }
    { done. }
    { by eapply next_page. }
    eexists (RList (list_args b c) :: reqs), (Reply 200 [bs "next-cursor=" ++ i ++ [NL]] (BLines out) :: as_). split_and!.
    + by apply (f_more b c i).
    + intros uid clock. econstructor; [apply Hans|apply F2].
    + constructor; [|done]. apply list_args_ok.
    + rewrite drop_length in F4. apply lookup_lt_Some in E. simpl. lia.
    + constructor; [by left|]. eapply Forall_impl; [exact F5|]. intros q [->|?]; [|by right].
      right. exists i. split; [|done]. exists r. apply Hls'. by eapply elem_of_list_lookup_2.
  - exists [RList (list_args b c)], [Reply 200 [] (BLines out)]. split_and!.
    + apply f_last. simpl. intros x. apply not_elem_of_nil.
    + intros uid clock. econstructor; [apply Hans|constructor].
    + constructor; [|constructor]. apply list_args_ok.
    + simpl. lia.
    + constructor; [by left|constructor].
Qed.

Lemma locks_length w ls : locks_from w None ls -> length ls = size (w_locks w).
Proof.
  intros [Hs Hin]. transitivity (length (map_to_list (w_locks w))); [|done]. apply Permutation_length.
  apply NoDup_Permutation; [|apply NoDup_map_to_list|].
  - clear Hin. induction Hs as [|a l Hl IH Hf]; constructor; [|done]. intros Ha. rewrite Forall_forall in Hf.
    specialize (Hf _ Ha). by rewrite blt_irrefl in Hf.
  - intros [i r]. rewrite Hin, elem_of_map_to_list. tauto.
Qed.

Lemma list_fun m uid clock w b n c a1 w1 a2 w2 : number b n -> n <> 0%N ->
  answer_of en m uid clock w (RList (list_args b c)) a1 w1 -> answer_of en m uid clock w (RList (list_args b c)) a2 w2 ->
  a1 = a2 /\ w1 = w2.
Proof.
  intros Hn Hn0 H1 H2. apply (list_answer en m uid clock w b n c) in H1 as (-> & l1 & o1 & [S1 E1] & L1 & ->); [|done..].
  apply (list_answer en m uid clock w b n c) in H2 as (-> & l2 & o2 & [S2 E2] & L2 & ->); [|done..].
  assert (l1 = l2) as -> by (apply sorted_fun; [done|done|]; intros [i r]; by rewrite E1, E2).
  by rewrite (lines_fun _ _ _ _ _ L1 L2).
Qed.

Lemma lists_fun m uid clock w b n c reqs as1 as2 w1 w2 : number b n -> n <> 0%N -> follows b c reqs as1 ->
  session_of en m uid clock w reqs as1 w1 -> session_of en m uid clock w reqs as2 w2 -> as1 = as2.
Proof.
  intros Hn Hn0 Hf. revert as2 w w1 w2. induction Hf as [c a _|c c' a rs as_ _ _ IH]; intros as2 w w1 w2 H1 H2.
  - inversion H1 as [|? ? a1 v1 ? ? ? A1 B1]; inversion B1; subst. inversion H2 as [|? ? a2 v2 ? ? ? A2 B2]; inversion B2; subst.
    by destruct (list_fun m uid clock w b n c a w1 a2 w2) as [-> _].
  - inversion H1 as [|? ? a1 v1 ? ? ? A1 B1]; subst. inversion H2 as [|? ? a2 v2 ? ? ? A2 B2]; subst.
    destruct (list_fun m uid clock w b n c a v1 a2 v2) as [-> ->]; try done. f_equal. by eapply IH.
Qed.

(** Any client that follows the cursors to the end has seen all locks in order;
    and there is such a client. *)
Lemma c30 umask ts clock m pid os l s w reqs extra fuel b n :
  setting en lfs ts clock os -> holds en lfs s w -> asks m l reqs extra -> enough fuel l w ->
  number b n -> n <> 0%N ->
  exists as_ w' s', served en lfs umask ts clock m pid fuel os l s w reqs as_ extra w' s' /\
    (follows b None reqs as_ -> exists pgs, locks_from w None (concat pgs) /\
       shows en m (N.to_nat (N.min n 100)) as_ pgs).
Proof.
  intros Hset Hr Ha Hf Hn Hn0.
  destruct (c13 en lfs umask ts clock m pid os l s w reqs extra fuel Hset Hr Ha Hf) as (as_ & w1 & s1 & Hsv).
  exists as_, w1, s1. split; [done|]. intros Hfo. destruct Hsv as (_ & _ & _ & _ & Hss & _).
  by destruct (pages_of en m (l_uid l) clock w w1 b n None reqs as_ Hn Hn0 Hfo Hss) as (_ & pgs & ? & ?); exists pgs.
Qed.

Lemma shows_length m n as_ pgs : shows en m n as_ pgs -> Forall (fun ls => length ls <= n)%nat pgs.
Proof. induction 1 as [ls out _ H|ls e ls' out as_ pgs _ H _ IH]; constructor; [done|done|lia|done]. Qed.

Lemma c31 umask ts clock m pid os l s w reqs extra fuel b n :
  setting en lfs ts clock os -> holds en lfs s w -> asks m l reqs extra -> enough fuel l w ->
  number b n -> n <> 0%N ->
  exists as_ w' s', served en lfs umask ts clock m pid fuel os l s w reqs as_ extra w' s' /\
    (follows b None reqs as_ -> exists pgs, NoDup (concat pgs) /\
       Forall (fun ls => length ls <= N.to_nat (N.min n 100))%nat pgs /\
       shows en m (N.to_nat (N.min n 100)) as_ pgs).
Proof.
  intros Hset Hr Ha Hf Hn Hn0.
  destruct (c30 umask ts clock m pid os l s w reqs extra fuel b n Hset Hr Ha Hf Hn Hn0) as (as_ & w1 & s1 & Hsv & H).
  exists as_, w1, s1. split; [done|]. intros Hfo. destruct (H Hfo) as (pgs & [Hs _] & Hsh). exists pgs.
  split_and!; [|by eapply shows_length|done].
  induction Hs as [|a l' Hl IH Hf']; constructor; [|done]. intros Hin. rewrite Forall_forall in Hf'.
  specialize (Hf' _ Hin). by rewrite blt_irrefl in Hf'.
Qed.

Lemma c30_end ts clock m os s w b n :
  setting en lfs ts clock os -> holds en lfs s w -> number b n -> n <> 0%N ->
  exists reqs, Forall (well_formed m) reqs /\ (length reqs <= S (size (w_locks w)))%nat /\
    forall umask pid l extra fuel, asks m l reqs extra -> enough fuel l w ->
    exists as_ w' s', served en lfs umask ts clock m pid fuel os l s w reqs as_ extra w' s' /\ follows b None reqs as_.
Proof.
  intros Hset Hr Hn Hn0. destruct (some_locks w) as [ls Hls].
  assert (Ht : forall i p t u, w_locks w !! i = Some (p, t, u) -> is_Some (en_time en t)).
  { intros i p t u E. by destruct (h_lock _ _ _ _ Hr _ _ _ _ E) as (_ & _ & _ & ?). }
  destruct (some_pages m w b n None ls Hn Hn0 Ht Hls) as (reqs & as0 & Hfo & Hs0 & Hwf & Hlen & _).
  exists reqs. split; [done|]. split; [by rewrite <- (locks_length _ _ Hls)|].
  intros umask pid l extra fuel Ha Hf.
  destruct (c13 en lfs umask ts clock m pid os l s w reqs extra fuel Hset Hr Ha Hf) as (as_ & w1 & s1 & Hsv).
  exists as_, w1, s1. split; [done|]. destruct Hsv as (_ & _ & _ & _ & Hss & _).
  by rewrite <- (lists_fun m (l_uid l) clock w b n None reqs as0 as_ w w1 Hn Hn0 Hfo (Hs0 _ _) Hss).
Qed.
End props.
