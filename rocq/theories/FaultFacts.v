(** What follows when calls to the file system fail. *)
From Verif Require Import Bytes ByteFacts Err FS Prog Pktline Args Local Processor Transfer PktFacts
  Spec SpecStore SpecServer SpecFrame SpecTogether SpecFault PktProofs TextProofs IoFacts ObjProofs SeqCmd Session FaultProofs.
From stdpp Require Import sorting.

Section facts.
Context (en : env) (m : mode) (uid : N) (clock : Z -> Prop).
Notation H := (en_hash en).
Notation session_in := (session_in en m uid clock).
Notation answer_in := (answer_in en m uid clock).

Lemma in_at w reqs as_ w' i r : session_in w reqs as_ w' -> reqs !! i = Some r ->
  exists w1 a w2, session_in w (take i reqs) (take i as_) w1 /\ as_ !! i = Some a /\ answer_in w1 r a w2 /\
    session_in w2 (drop (S i) reqs) (drop (S i) as_) w'.
Proof using Type.
  intros G. revert i. induction G as [w|w r0 a w1 rs as_ w2 Ha Hs IH]; intros i Hi; [done|].
  destruct i as [|i].
  - injection Hi as ->. exists w, a, w1. split_and!; try done. constructor.
  - destruct (IH i Hi) as (u & b & v & H1 & H2 & H3 & H4). exists u, b, v. split_and!; try done. by econstructor.
Qed.
Lemma in_length w reqs as_ w' : session_in w reqs as_ w' -> length as_ = length reqs.
Proof using Type. induction 1; simpl; congruence. Qed.

Lemma in_keeps1 w r a w' o d : answer_in w r a w' -> hex_of (H d) o -> kept H w o d -> kept H w' o d.
Proof using Type.
  intros Ha Ho Hk.
  assert (Hput : forall o0 ds, hex_of (H (concat ds)) o0 -> kept H (World (<[o0 := concat ds]> (w_objs w)) (w_locks w)) o d).
  { intros o0 ds H0. destruct Hk as (d' & E & Hd'). destruct (decide (o0 = o)) as [->|Hne].
    - exists (concat ds). simpl. rewrite lookup_insert. split; [done|].
      destruct (decide (concat ds = d)) as [|Hd]; [by left|right]. split; [done|]. by eapply hex_of_inj.
    - exists d'. simpl. by rewrite lookup_insert_ne. }
  destruct Ha as [r a w' Ha| | | | | | | | |]; try done; [|by apply Hput].
  destruct Ha; try done. by apply Hput.
Qed.
Lemma in_keeps w reqs as_ w' o d : session_in w reqs as_ w' -> hex_of (H d) o -> kept H w o d -> kept H w' o d.
Proof using Type. induction 1; [done|]. intros. apply IHsession_in; [done|]. by eapply in_keeps1. Qed.

Lemma in_new1 w r a w' o d : answer_in w r a w' -> w_objs w' !! o = Some d ->
  w_objs w !! o = Some d \/ exists kvs ds, r = RPut o kvs ds /\ d = concat ds /\ hex_of (H d) o.
Proof using Type.
  intros Ha Ho.
  assert (Hput : forall o0 kvs ds, hex_of (H (concat ds)) o0 -> <[o0 := concat ds]> (w_objs w) !! o = Some d ->
    w_objs w !! o = Some d \/ exists kvs' ds', RPut o0 kvs ds = RPut o kvs' ds' /\ d = concat ds' /\ hex_of (H d) o).
  { intros o0 kvs ds H0. rewrite lookup_insert_Some. intros [[-> <-]|[_ ?]]; [right; by eexists _, _|by left]. }
  destruct Ha as [r a w' Ha| | | | | | | | |]; try (by left); [|by eapply Hput].
  destruct Ha; try (by left). by eapply Hput.
Qed.
Lemma in_new w reqs as_ w' o d : session_in w reqs as_ w' -> w_objs w' !! o = Some d ->
  w_objs w !! o = Some d \/ exists k kvs ds, reqs !! k = Some (RPut o kvs ds) /\ d = concat ds /\ hex_of (H d) o.
Proof using Type.
  induction 1 as [|w r a w1 rs as_ w2 Ha Hs IH]; [by left|]. intros Ho.
  destruct (IH Ho) as [E|(k & kvs & ds & Hk & Hd)]; [|right; by exists (S k), kvs, ds].
  destruct (in_new1 _ _ _ _ _ _ Ha E) as [?|(kvs & ds & -> & Hd)]; [by left|right]. by exists 0%nat, kvs, ds.
Qed.

Definition acted (i : bytes) (r : request) (a : reply) : Prop :=
  (exists kvs p, r = RLock kvs /\ (bs "path", p) ∈ kvs /\ i = lock_id H p /\ rp_code a = 201%N) \/
  (exists kvs, r = RUnlock i kvs /\ rp_code a = 200%N).
Lemma in_locks1 w r a w' i : answer_in w r a w' -> w_locks w' !! i <> w_locks w !! i -> acted i r a.
Proof using Type.
  intros Ha Hne.
  assert (Hlock : forall kvs p rec a', (bs "path", p) ∈ kvs -> rp_code a' = 201%N ->
    <[lock_id H p := rec]> (w_locks w) !! i <> w_locks w !! i -> acted i (RLock kvs) a').
  { intros kvs p rec a' Hp Ha' Hx. left. exists kvs, p. split_and!; try done.
    destruct (decide (i = lock_id H p)) as [|Hi]; [done|]. by rewrite lookup_insert_ne in Hx. }
  assert (Hun : forall j kvs a', rp_code a' = 200%N -> delete j (w_locks w) !! i <> w_locks w !! i -> acted i (RUnlock j kvs) a').
  { intros j kvs a' Ha' Hx. right. exists kvs. split; [|done].
    destruct (decide (i = j)) as [->|Hi]; [done|]. by rewrite lookup_delete_ne in Hx. }
  destruct Ha as [r a w' Ha| | | | | | | | |]; try done; [|by eapply Hlock|by eapply Hun].
  destruct Ha; try done; [by eapply Hlock|by eapply Hun].
Qed.
Lemma in_locks w reqs as_ w' i : session_in w reqs as_ w' -> w_locks w' !! i <> w_locks w !! i ->
  exists k r a, reqs !! k = Some r /\ as_ !! k = Some a /\ acted i r a.
Proof using Type.
  induction 1 as [|w r a w1 rs as_ w2 Ha Hs IH]; [done|]. intros Hne.
  destruct (decide (w_locks w2 !! i = w_locks w1 !! i)) as [E|E].
  - exists 0%nat, r, a. split_and!; try done. eapply in_locks1; [done|]. congruence.
  - destruct (IH E) as (k & r' & a' & ?). by exists (S k), r', a'.
Qed.

Lemma in_put w o kvs ds a w' : answer_in w (RPut o kvs ds) a w' -> rp_code a = 200%N ->
  w_objs w' !! o = Some (concat ds) /\ hex_of (H (concat ds)) o.
Proof using Type.
  intros Ha Hc. remember (RPut o kvs ds) as r eqn:E.
  destruct Ha as [r a w' Ha|r a _ [b ->]|? ? ? ? ? ? ? ? [x ->]| | | | | | |]; try done.
  destruct Ha; try done. injection E as -> -> ->. simpl. by rewrite lookup_insert.
Qed.

Lemma in_batch w kvs items a w' : answer_in w (RBatch kvs items) a w' -> rp_code a = 200%N ->
  exists ls, a = Reply 200 [] (BLines ls) /\ Forall2 (batch_seen m w) items ls.
Proof using Type.
  intros Ha Hc. remember (RBatch kvs items) as r eqn:E.
  destruct Ha as [r a w' Ha|r a Hm| |? ? ? ? _ _ Hls| | | | | |]; try done.
  - destruct Ha as [|kvs0 items0 ns h _ _ Hns | | | | | | | | | | | | | | | | | | | | | | | | | | | ]; try done.
    injection E as -> ->. eexists. split; [done|]. clear -Hns. induction Hns as [|x n items ns Hx _ IH]; [constructor|].
    cbn [fmap list_fmap zip_with]. constructor; [|exact IH]. exists n. split; [done|]. by left.
  - by subst.
  - injection E as -> ->. by eexists.
Qed.

Lemma seen_of ls out : locks_lines en m ls out -> seen_lines en m ls out.
Proof using Type. induction 1; [constructor|]. change (lock_lines en m p x u) with (lines_of en m p x (user_name en u)). econstructor; [done|by left|done]. Qed.

Lemma sub_elem {A} (x : A) ls ls' : x ∈ ls' -> ls' `sublist_of` ls -> x ∈ ls.
Proof using Type.
  intros Hx Hs. induction Hs as [|y ls' ls Hs IH|y ls' ls Hs IH]; [done| |right; by apply IH].
  apply elem_of_cons in Hx as [->|Hx]; [by left|right; by apply IH].
Qed.
Lemma nodup_key (kvs : list (bytes * bytes)) k x y : NoDup kvs.*1 -> (k, x) ∈ kvs -> (k, y) ∈ kvs -> x = y.
Proof using Type.
  induction kvs as [|[k0 z] kvs IH]; [by intros _ ?%elem_of_nil|]. rewrite fmap_cons. intros [Hn Hd]%NoDup_cons.
  assert (Hno : forall v, (k0, v) ∉ kvs) by (intros v Hv; apply Hn, elem_of_list_fmap; by exists (k0, v)).
  rewrite !elem_of_cons. intros [Ex|Hx] [Ey|Hy]; simplify_eq; [done| | |by apply IH].
  - by destruct (Hno y).
  - by destruct (Hno x).
Qed.
Lemma sorted_sub {A} (R : A -> A -> Prop) ls ls' : ls' `sublist_of` ls -> StronglySorted R ls -> StronglySorted R ls'.
Proof using Type.
  induction 1 as [|x ls' ls Hs IH|x ls' ls Hs IH]; intros Hl; [constructor| |].
  - apply StronglySorted_inv in Hl as [Hl Hf]. constructor; [by apply IH|]. apply Forall_forall. intros y Hy.
    rewrite Forall_forall in Hf. apply Hf. by eapply sub_elem.
  - apply StronglySorted_inv in Hl as [Hl _]. by apply IH.
Qed.

Lemma in_list w kvs c a w' : answer_in w (RList kvs) a w' -> args_ok kvs -> rp_code a = 200%N ->
  no_key (bs "path") kvs -> key (bs "cursor") kvs c ->
  exists ls out, rp_body a = BLines out /\ seen_lines en m ls out /\ StronglySorted (fun a b => blt a.1 b.1 = true) ls /\
    (length ls <= 101)%nat /\
    forall i r, (i, r) ∈ ls -> w_locks w !! i = Some r /\ match c with Some c => blt i c = false | None => True end.
Proof using Type.
  intros Ha [_ Hnd] Hc Hp Hk. remember (RList kvs) as r0 eqn:E.
  assert (Hlim : forall lim n, limit_of lim n -> (S n <= 101)%nat) by (intros ? ? []; lia).
  assert (Hkey : forall k x y, key k kvs x -> key k kvs y -> x = y).
  { clear -Hnd. intros k [x|] [y|] Hx Hy; try done.
    - f_equal. by eapply nodup_key.
    - destruct Hy. apply elem_of_list_fmap. by exists (k, x).
    - destruct Hx. apply elem_of_list_fmap. by exists (k, y). }
  assert (Hgo : forall lim n c' ls ls' out, limit_of lim n -> key (bs "cursor") kvs c' -> locks_from w c' ls -> ls' `sublist_of` ls ->
    (length ls' <= S n)%nat -> seen_lines en m ls' out ->
    exists ls0 out0, BLines out = BLines out0 /\ seen_lines en m ls0 out0 /\ StronglySorted (fun a b => blt a.1 b.1 = true) ls0 /\
    (length ls0 <= 101)%nat /\
    forall i r, (i, r) ∈ ls0 -> w_locks w !! i = Some r /\ match c with Some c => blt i c = false | None => True end).
  { intros lim n c' ls ls' out Hl Hc' [Hs Hin] Hsub Hlen Hout. rewrite (Hkey _ _ _ Hc' Hk) in Hin. exists ls', out.
    split_and!; [done|done|by eapply sorted_sub|specialize (Hlim _ _ Hl); lia|].
    intros i r Hi. apply Hin. by eapply sub_elem. }
  assert (Hno : forall p (kvs' : list (bytes * bytes)), RList kvs' = RList kvs -> (bs "path", p) ∈ kvs' -> False).
  { intros p kvs' [= ->] Hi. apply Hp. apply elem_of_list_fmap. by exists (bs "path", p). }
  destruct Ha as [r a w' Ha|r a _ [b ->]|? ? ? ? ? ? ? ? [b ->]| | | | | | |]; try done; try (by exfalso; eapply Hno).
  - destruct Ha; try done; try (by exfalso; eapply Hno).
    injection E as ->. cbn [rp_body]. eapply (Hgo lim n c0 ls (take (S n) ls)); try done.
    + apply sublist_take.
    + rewrite take_length. lia.
    + by apply seen_of.
  - injection E as ->. cbn [rp_body]. by eapply (Hgo lim n c0 ls ls').
Qed.
End facts.

Lemma dec_inj a b : dec a = dec b -> a = b.
Proof. intros E. pose proof (dec_spec a) as Ha. pose proof (dec_spec b) as Hb. rewrite E in Ha. naive_solver. Qed.

Lemma seen_there m w x line n : batch_seen m w x line -> line = there m x.1 n ->
  exists d, w_objs w !! x.1 = Some d /\ lenN d = n.
Proof.
  intros (n0 & _ & Hl) E.
  assert (Hno : forall n0, x.1 ++ [SP] ++ dec n0 ++ [SP] ++ match m with Upload => bs "upload" | Download => bs "noop" end ++ [NL] <> there m x.1 n).
  { clear. intros n0 E. unfold there in E. change (bs " ") with [SP] in E. do 2 apply app_inv_head in E.
    rewrite !app_assoc in E. apply app_inj_tail in E as [E _].
    apply (f_equal last) in E. destruct m; rewrite !last_app in E; by vm_compute in E. }
  destruct Hl as [-> | ->]; unfold batch_line_for in E.
  - destruct (w_objs w !! x.1) as [d|]; [|by apply Hno in E]. exists d. split; [done|].
    unfold there in E. change (bs " ") with [SP] in E. do 2 apply app_inv_head in E. apply app_inv_tail in E.
    by apply dec_inj.
  - cbn [w_objs] in E. rewrite lookup_empty in E. by apply Hno in E.
Qed.

Lemma replies_split rs rs' ps : replies_sent (rs ++ rs') ps -> exists qs qs', ps = qs ++ qs' /\ replies_sent rs qs /\ replies_sent rs' qs'.
Proof.
  revert ps. induction rs as [|r rs IH]; intros ps Hp.
  - exists [], ps. split_and!; [done|constructor|done].
  - simpl in Hp. inversion Hp as [|r0 rs0 qs0 qs1 H1 H2]; subst. destruct (IH _ H2) as (qs & qs' & -> & H3 & H4).
    exists (qs0 ++ qs), qs'. split_and!; [by rewrite app_assoc|by constructor|done].
Qed.

Section ends.
Context (en : env) (lfs : path) (umask : N) (ts : option Z) (clock : Z -> Prop) (wr : bool) (m : mode) (pid : nat) (os : orcs).
Context (l : local) (s : fs) (w : world) (reqs : list request) (extra : list reply) (fuel : nat).
Context (Hp : place en lfs ts clock) (Hh : holds en lfs s w) (Ha : asks m l reqs extra) (He : enough fuel l w).
Context (Hput : wr = true -> Forall no_put reqs).
Context (Hos : run_such (failing lfs ts clock wr) pid (transfer_run en fuel lfs umask ts (operation m)) os l s).

Lemma ends_in r l' s' : run pid (transfer_run en fuel lfs umask ts (operation m)) os l s = (Done r, l', s') ->
  exists n as_ w', session_in en m (l_uid l) clock w (take n reqs) as_ w' /\ holds en lfs s' w' /\ sent l l' as_ /\
    (r = Ok tt -> n = length reqs).
Proof using Hp Hh Ha He Hput Hos.
  intros E. pose proof (c79 en lfs umask ts clock wr m pid os l s w reqs extra fuel Hp Hh Ha He Hput Hos) as G.
  rewrite E in G. destruct r as [u|e].
  - destruct G as (as_ & w' & ps & out & H1 & H2 & H3 & H4 & H5). exists (length reqs), as_, w'.
    destruct (replies_split _ _ _ H3) as (qs & qs' & -> & H6 & _).
    split_and!; [by rewrite firstn_all|by apply holds_of| |done]. exists qs, qs', out. auto.
  - destruct G as [[H1 H2]|(k & o & kvs & d & as_ & w' & ps & qa & cs & rest & out & H0 & H1 & H2 & H3 & H4 & H5 & H6 & H7 & H8)].
    + exists 0%nat, [], w. split_and!; [constructor|done| |done]. exists [], [], []. rewrite app_nil_r. split_and!; [constructor|done|by left].
    + exists k, as_, w'. split_and!; [done|by apply holds_of| |done]. eexists ps, _, out. split_and!; [done|done|]. right. exact H7.
Qed.

Lemma c82 r l' s' : run pid (transfer_run en fuel lfs umask ts (operation m)) os l s = (Done r, l', s') ->
  exists as_ w', sent l l' as_ /\ holds en lfs s' w' /\ (length as_ <= length reqs)%nat /\ (r = Ok tt -> length as_ = length reqs) /\
    (forall i, w_locks w' !! i <> w_locks w !! i -> exists k q a, reqs !! k = Some q /\ as_ !! k = Some a /\
       ((exists kvs p, q = RLock kvs /\ (bs "path", p) ∈ kvs /\ i = lock_id (en_hash en) p /\ rp_code a = 201%N) \/
        (exists kvs, q = RUnlock i kvs /\ rp_code a = 200%N))) /\
    (forall o d, w_objs w !! o = Some d -> hex_of (en_hash en d) o -> kept (en_hash en) w' o d) /\
    (forall k o kvs ds a, reqs !! k = Some (RPut o kvs ds) -> as_ !! k = Some a -> rp_code a = 200%N ->
       kept (en_hash en) w' o (concat ds)) /\
    (forall o d, w_objs w' !! o = Some d -> w_objs w !! o = Some d \/
       exists k kvs ds, reqs !! k = Some (RPut o kvs ds) /\ d = concat ds /\ hex_of (en_hash en d) o).
Proof using Hp Hh Ha He Hput Hos.
  intros (n & as_ & w' & H1 & H2 & H3 & H4)%ends_in. exists as_, w'.
  pose proof (in_length _ _ _ _ _ _ _ _ H1) as Hlen. rewrite take_length in Hlen.
  assert (Htake : forall k (q : request), take n reqs !! k = Some q -> reqs !! k = Some q).
  { intros k q Hk. apply lookup_take_Some in Hk. apply Hk. }
  split_and!; [done|done|lia| | | | |].
  - intros Hr. specialize (H4 Hr). lia.
  - intros i Hi. destruct (in_locks _ _ _ _ _ _ _ _ _ H1 Hi) as (k & q & a & Hk & Hk' & Hact). exists k, q, a.
    split_and!; [by apply Htake|done|exact Hact].
  - intros o d Hd Hx. eapply in_keeps; [exact H1|done|]. exists d. auto.
  - intros k o kvs ds a Hk Hk' Hc. assert (Hk2 : take n reqs !! k = Some (RPut o kvs ds)).
    { apply lookup_take_Some. split; [done|]. apply lookup_lt_Some in Hk'. lia. }
    destruct (in_at _ _ _ _ _ _ _ _ _ _ H1 Hk2) as (w1 & a' & w2 & _ & Ea & Han & Hrest).
    assert (a' = a) as -> by congruence. apply in_put in Han as [Ho Hx]; [|done]. eapply in_keeps; [exact Hrest|done|].
    exists (concat ds). auto.
  - intros o d Hd. destruct (in_new _ _ _ _ _ _ _ _ _ _ H1 Hd) as [?|(k & kvs & ds & Hk & ?)]; [by left|right].
    exists k, kvs, ds. split; [by apply Htake|done].
Qed.

Lemma c80 l' s' k kvs items : run pid (transfer_run en fuel lfs umask ts (operation m)) os l s = (Done (Ok tt), l', s') ->
  reqs !! k = Some (RBatch kvs items) ->
  exists as_ a wk, sent l l' as_ /\ as_ !! k = Some a /\ session_in en m (l_uid l) clock w (take k reqs) (take k as_) wk /\
    (rp_code a = 200%N -> exists ls, rp_body a = BLines ls /\
       Forall2 (fun x line => forall n, line = there m x.1 n -> exists d, w_objs wk !! x.1 = Some d /\ lenN d = n) items ls).
Proof using Hp Hh Ha He Hput Hos.
  intros (n & as_ & w' & H1 & H2 & H3 & H4)%ends_in Hk. rewrite (H4 eq_refl), firstn_all in H1.
  destruct (in_at _ _ _ _ _ _ _ _ _ _ H1 Hk) as (w1 & a & w2 & G1 & G2 & G3 & _). exists as_, a, w1.
  split_and!; try done. intros Hc. apply in_batch in G3 as (ls & -> & Hls); [|done]. exists ls. split; [done|].
  eapply Forall2_impl; [exact Hls|]. intros x line Hx n'. by apply seen_there.
Qed.

Lemma c81 l' s' k kvs c : run pid (transfer_run en fuel lfs umask ts (operation m)) os l s = (Done (Ok tt), l', s') ->
  reqs !! k = Some (RList kvs) -> no_key (bs "path") kvs -> key (bs "cursor") kvs c ->
  exists as_ a wk, sent l l' as_ /\ as_ !! k = Some a /\ session_in en m (l_uid l) clock w (take k reqs) (take k as_) wk /\
    (rp_code a = 200%N -> exists ls out, rp_body a = BLines out /\ seen_lines en m ls out /\
       StronglySorted (fun a b => blt a.1 b.1 = true) ls /\ (length ls <= 101)%nat /\
       forall i r, (i, r) ∈ ls -> w_locks wk !! i = Some r /\ match c with Some c => blt i c = false | None => True end).
Proof using Hp Hh Ha He Hput Hos.
  intros (n & as_ & w' & H1 & H2 & H3 & H4)%ends_in Hk Hpath Hc. rewrite (H4 eq_refl), firstn_all in H1.
  destruct (in_at _ _ _ _ _ _ _ _ _ _ H1 Hk) as (w1 & a & w2 & G1 & G2 & G3 & _). exists as_, a, w1.
  split_and!; try done. intros Hcode. eapply in_list; [exact G3| |done|done|done].
  destruct Ha as (Hwf & _). rewrite Forall_forall in Hwf. apply elem_of_list_lookup_2 in Hk. exact (Hwf _ Hk).
Qed.
End ends.
