(** What C13 says about particular requests. *)
From Verif Require Import Bytes ByteFacts Err FS Prog Pktline Args Local Processor Transfer
  Spec SpecStore SpecServer TextProofs ObjProofs GetProofs SeqFs SeqCmd Session.
From stdpp Require Import sorting.

(** ** Requests determine their answers *)
Lemma nodup_fst (kvs : list (bytes * bytes)) k v v' : NoDup kvs.*1 -> (k, v) ∈ kvs -> (k, v') ∈ kvs -> v = v'.
Proof.
  induction kvs as [|[k0 v0] kvs IH]; intros Hn H1 H2; [by apply elem_of_nil in H1|].
  cbn [fmap list_fmap fst] in Hn. apply NoDup_cons in Hn as [Hk Hn].
  assert (Hx : forall v, (k0, v) ∈ kvs -> False).
  { intros x Hx. apply Hk. apply elem_of_list_fmap. by exists (k0, x). }
  apply elem_of_cons in H1 as [H1|H1]; apply elem_of_cons in H2 as [H2|H2].
  - congruence.
  - injection H1 as -> ->. by apply Hx in H2.
  - injection H2 as -> ->. by apply Hx in H1.
  - by apply IH.
Qed.
Lemma args_fun kvs k v v' : args_ok kvs -> (k, v) ∈ kvs -> (k, v') ∈ kvs -> v = v'.
Proof. intros [_ Hn]. by apply nodup_fst. Qed.
Lemma args_no kvs k (v : bytes) : no_key k kvs -> (k, v) ∈ kvs -> False.
Proof. intros H1 H2. apply H1. apply elem_of_list_fmap. by exists (k, v). Qed.
Lemma key_fun kvs k v v' : args_ok kvs -> key k kvs v -> key k kvs v' -> v = v'.
Proof.
  intros Ha. destruct v as [v|], v' as [v'|]; simpl; intros H1 H2; try done.
  - f_equal. by eapply args_fun.
  - by eapply args_no in H1.
  - by eapply args_no in H2.
Qed.
Lemma limit_fun b n n' : limit_of b n -> limit_of b n' -> n = n'.
Proof. intros [|c k H _] H'; inversion H' as [|c' k' G ? E]; subst; [done|]. by rewrite (number_fun _ _ _ H G). Qed.

Lemma sorted_fun (l1 l2 : list (bytes * (bytes * Z * N))) :
  StronglySorted (fun a b => blt a.1 b.1 = true) l1 -> StronglySorted (fun a b => blt a.1 b.1 = true) l2 ->
  (forall x, x ∈ l1 <-> x ∈ l2) -> l1 = l2.
Proof.
  assert (Hirr : forall a l, Forall (fun b : bytes * (bytes * Z * N) => blt a.1 b.1 = true) l -> a ∉ l).
  { intros a l H Hin. rewrite Forall_forall in H. specialize (H _ Hin). by rewrite blt_irrefl in H. }
  intros H1. revert l2. induction H1 as [|a l1 H1 IH Hf]; intros l2 H2 Heq.
  - destruct l2 as [|b l2]; [done|]. exfalso. apply (not_elem_of_nil b), Heq. by left.
  - destruct H2 as [|b l2 H2 Hf2]; [exfalso; apply (not_elem_of_nil a), Heq; by left|].
    assert (a = b) as <-.
    { assert (Ha : a ∈ b :: l2) by (apply Heq; by left). assert (Hb : b ∈ a :: l1) by (apply Heq; by left).
      apply elem_of_cons in Ha as [?|Ha]; [done|]. apply elem_of_cons in Hb as [?|Hb]; [done|].
      rewrite Forall_forall in Hf, Hf2. pose proof (Hf _ Hb) as G1. pose proof (Hf2 _ Ha) as G2.
      apply blt_asym in G1. congruence. }
    f_equal. apply IH; [done|]. intros x. specialize (Heq x). rewrite !elem_of_cons in Heq.
    destruct (decide (x = a)) as [->|Hx]; [|tauto]. split; intros Hin; by apply Hirr in Hin.
Qed.

Section det.
Context (en : env) (m : mode) (uid : N).
Lemma lines_fun ls out out' : locks_lines en m ls out -> locks_lines en m ls out' -> out = out'.
Proof using Type.
  intros H. revert out'. induction H as [|i p t u x ls out Hx _ IH]; intros out' H'; inversion H'; subst; [done|].
  match goal with G : en_time en t = Some ?y |- _ => assert (x = y) as -> by congruence end. f_equal. by apply IH.
Qed.


Lemma limit_bad kvs b lim n : args_ok kvs -> (bs "limit", b) ∈ kvs -> ~ (exists n, number b n) ->
  key (bs "limit") kvs lim -> limit_of lim n -> False.
Proof using Type.
  intros Ha Hb Hno Hk Hl. destruct Hl as [|b' n Hn Hn0].
  - by eapply args_no in Hk.
  - simpl in Hk. rewrite (args_fun _ _ _ _ Ha Hb Hk) in Hno. apply Hno. by exists n.
Qed.
Lemma numbers_fun (items : list (bytes * bytes)) ns ns' : Forall2 (fun x n => number x.2 n) items ns ->
  Forall2 (fun x n => number x.2 n) items ns' -> ns = ns'.
Proof using Type.
  intros H. revert ns'. induction H as [|x n items ns Hn _ IH]; intros ns' H'; inversion H'; subst; [done|].
  f_equal; [by eapply number_fun|by apply IH].
Qed.

(** With a clock that stands still the abstract server is a function. *)
Lemma answer_fun t0 w r a1 w1 a2 w2 : well_formed m r ->
  answer_of en m uid (eq t0) w r a1 w1 -> answer_of en m uid (eq t0) w r a2 w2 -> a1 = a2 /\ w1 = w2.
Proof using Type.
  intros Hwf H1 H2.
  assert (Hargs : match r with RVersion => True | RBatch kvs _ | RPut _ kvs _ | RVerify _ kvs | RGet _ kvs
    | RLock kvs | RList kvs | RUnlock _ kvs => args_ok kvs end) by (destruct r; simpl in Hwf; tauto).
  destruct H1; inversion H2; subst; simpl in Hwf;
    try done; try congruence;
    repeat match goal with H : _ /\ _ |- _ => destruct H | H : exists _, _ |- _ => destruct H | H : _ \/ _ |- _ => destruct H end;
    repeat match goal with
    | H1 : (?k, ?v) ∈ ?kvs, H2 : (?k, ?v') ∈ ?kvs |- _ =>
        lazymatch v with v' => fail | _ => assert (v = v') by (by eapply args_fun); simplify_eq; try clear H2 end
    | H1 : key ?k ?kvs ?v, H2 : key ?k ?kvs ?v' |- _ =>
        lazymatch v with v' => fail | _ => assert (v = v') by (by eapply key_fun); simplify_eq; try clear H2 end
    | H1 : number ?b ?n, H2 : number ?b ?n' |- _ =>
        lazymatch n with n' => fail | _ => assert (n = n') by (by eapply number_fun); simplify_eq; try clear H2 end
    | H1 : limit_of ?b ?n, H2 : limit_of ?b ?n' |- _ =>
        lazymatch n with n' => fail | _ => assert (n = n') by (by eapply limit_fun); simplify_eq; try clear H2 end
    | H1 : ?x = Some _, H2 : ?x = Some _ |- _ => rewrite H1 in H2; simplify_eq
    end; try done; try congruence;
    try (exfalso; match goal with H : no_key ?k ?kvs, G : (?k, _) ∈ ?kvs |- _ => by eapply args_no in H end);
    try (exfalso; by eapply limit_bad);
    try (exfalso; naive_solver); try (exfalso; lia).
  all: repeat match goal with H : hex_of _ _ |- _ => apply hex_of_iff in H end; simplify_eq; try done.
  all: try (exfalso; match goal with G : (bs "limit", ?b) ∈ ?kvs, K : key (bs "limit") ?kvs ?v, L : limit_of ?v _ |- _ =>
    pose proof (key_fun kvs (bs "limit") (Some b) v Hargs G K); subst v; inversion L; subst;
    match goal with N0 : number b 0, N1 : number b ?n |- _ => pose proof (number_fun _ _ _ N0 N1); congruence end end).
  all: try (split; [|done]; do 2 f_equal; f_equal; by eapply numbers_fun).
  all: try (exfalso; match goal with G : (bs "hash-algo", ?x) ∈ ?kvs, K : key (bs "hash-algo") ?kvs ?v |- _ =>
    pose proof (key_fun kvs (bs "hash-algo") (Some x) v Hargs G K); congruence end).
  match goal with H1 : locks_from _ _ ?l1, H2 : locks_from _ _ ?l2 |- _ => 
    assert (l1 = l2) as ->;
    [destruct H1 as [S1 E1], H2 as [S2 E2]; apply sorted_fun; [done|done|]; intros [i r]; by rewrite E1, E2|] end.
  match goal with H1 : locks_lines _ _ _ ?l1, H2 : locks_lines _ _ _ ?l2 |- _ =>
    assert (l1 = l2) as -> by (by eapply lines_fun) end. done.
Qed.

Lemma session_fun t0 w reqs a1 w1 a2 w2 : Forall (well_formed m) reqs ->
  session_of en m uid (eq t0) w reqs a1 w1 -> session_of en m uid (eq t0) w reqs a2 w2 -> a1 = a2 /\ w1 = w2.
Proof using Type.
  intros Hwf H1. revert a2 w2. induction H1 as [w|w r a w1 rs as_ w' Ha Hs IH]; intros a2 w2 H2;
    inversion H2 as [|? ? b v ? bs_ ? G1 G2]; subst; [done|].
  apply Forall_cons in Hwf as [Hr Hwf]. destruct (answer_fun t0 w r a w1 b v Hr Ha G1) as [<- <-].
  destruct (IH Hwf _ _ G2) as [<- <-]. done.
Qed.
End det.

(** ** Particular requests *)
Section requests.
Context (en : env) (m : mode) (uid : N) (clock : Z -> Prop).
Notation session_of := (session_of en m uid clock).
Notation answer_of := (answer_of en m uid clock).

Lemma put_answer w o kvs ds b a w' : args_ok kvs -> (bs "size", b) ∈ kvs -> answer_of w (RPut o kvs ds) a w' ->
  (rp_code a = 200%N <-> number b (lenN (concat ds)) /\ hex_of (en_hash en (concat ds)) o) /\
  (rp_code a = 200%N -> w' = World (<[o := concat ds]> (w_objs w)) (w_locks w)) /\
  (rp_code a <> 200%N -> (exists t, a = refusal t) /\ w' = w).
Proof using Type.
  intros Hargs Hb H. inversion H; subst; match goal with G : (_, ?c) ∈ kvs |- _ =>
    pose proof (args_fun _ _ _ _ Hargs Hb G); simplify_eq end; simpl; split_and!; try done.
  - split; [done|]. match goal with G : number _ ?k |- _ => intros [Hn _]; pose proof (number_fun _ _ _ Hn G) end. lia.
  - intros _. split; [by eexists|done].
  - split; [done|]. match goal with G : number _ ?k |- _ => intros [Hn _]; pose proof (number_fun _ _ _ Hn G) end. lia.
  - intros _. split; [by eexists|done].
  - split; [done|]. intros [_ Hx]. exfalso. apply hex_of_iff in Hx.
    match goal with G : hex_of _ ?c, N : ?c <> o |- _ => apply N; apply hex_of_iff in G; congruence end.
  - intros _. split; [by eexists|done].
Qed.

Lemma verify_answer w o kvs b n a w' : is_oid o -> args_ok kvs -> (bs "size", b) ∈ kvs -> number b n ->
  answer_of w (RVerify o kvs) a w' ->
  (rp_code a = 200%N <-> exists d, w_objs w !! o = Some d /\ lenN d = n) /\
  (rp_code a = 409%N <-> exists d, w_objs w !! o = Some d /\ lenN d <> n) /\
  (rp_code a = 404%N <-> w_objs w !! o = None) /\ w' = w.
Proof using Type.
  intros Ho Hargs Hb Hn H. inversion H; subst; try (exfalso; naive_solver);
    try (exfalso; match goal with G : no_key _ _ |- _ => by eapply args_no in G end);
    match goal with G : (_, ?c) ∈ kvs |- _ => pose proof (args_fun _ _ _ _ Hargs Hb G); simplify_eq end;
    match goal with G : number _ ?k |- _ => pose proof (number_fun _ _ _ Hn G); simplify_eq end; simpl;
    (split_and!; [| | |done]); naive_solver.
Qed.

Lemma get_answer w o kvs a w' : is_oid o -> answer_of w (RGet o kvs) a w' ->
  match w_objs w !! o with
  | Some d => a = Reply 200 [bs "size=" ++ dec (lenN d) ++ [NL]] (BData d)
  | None => a = not_found
  end /\ w' = w.
Proof using Type.
  intros Ho H. inversion H; subst; [done| |]; match goal with E : w_objs _ !! o = _ |- _ => by rewrite E end.
Qed.

Lemma batch_answer w kvs items a w' :
  key (bs "hash-algo") kvs None \/ (bs "hash-algo", bs "sha256") ∈ kvs -> args_ok kvs ->
  answer_of w (RBatch kvs items) a w' ->
  w' = w /\ exists ls, a = Reply 200 [] (BLines ls) /\
    Forall2 (fun x l => exists n, number x.2 n /\ l = batch_line_for m w x.1 n) items ls.
Proof using Type.
  intros Hh Hargs H. inversion H as [|? ? ns h Hk Hk2 Hns |  |  |  |  |  |  |  |  |  |  |  |  |  |  |  |  |  |  |  |  |  |  |  |  |  |  | ]; subst.
  - split; [done|]. eexists. split; [done|]. clear -Hns. induction Hns; cbn [fmap list_fmap zip_with]; constructor; [|done].
    by eexists.
  - exfalso. destruct Hh as [Hh|Hh].
    + by eapply args_no in Hh.
    + match goal with G : (_, ?c) ∈ kvs |- _ => pose proof (args_fun _ _ _ _ Hargs Hh G); congruence end.
Qed.

Lemma lock_answer w kvs p rn a w' : args_ok kvs -> (bs "path", p) ∈ kvs -> (bs "refname", rn) ∈ kvs ->
  answer_of w (RLock kvs) a w' ->
  match w_locks w !! lock_id (en_hash en) p with
  | None => exists t t' x, clock t /\ clock t' /\ en_time en t' = Some x /\
      a = Reply 201 (lock_info en p x uid) BNone /\
      w' = World (w_objs w) (<[lock_id (en_hash en) p := (p, t, uid)]> (w_locks w))
  | Some (p', t, u) => w' = w /\
      (p' = p -> exists x, en_time en t = Some x /\ a = Reply 409 (lock_info en p x u) (BText (bs "conflict" ++ [NL]))) /\
      (p' <> p -> a = refusal clash)
  end.
Proof using Type.
  intros Hargs Hp Hrn H. inversion H; subst.
  - exfalso. match goal with G : _ \/ _ |- _ => destruct G as [G|G]; [exact (args_no _ _ _ G Hp)|exact (args_no _ _ _ G Hrn)] end.
  - match goal with G : (bs "path", ?q) ∈ kvs, E : w_locks _ !! _ = None |- _ =>
      pose proof (args_fun _ _ _ _ Hargs Hp G); subst q; rewrite E end.
    eexists _, _, _. split_and!; [| | | |reflexivity]; cycle 2; done.
  - match goal with G : (bs "path", ?q) ∈ kvs, E : w_locks _ !! _ = Some _ |- _ =>
      pose proof (args_fun _ _ _ _ Hargs Hp G); subst q; rewrite E end.
    split_and!; [done| |done]. intros _. by eexists.
  - match goal with G : (bs "path", ?q) ∈ kvs, E : w_locks _ !! _ = Some _ |- _ =>
      pose proof (args_fun _ _ _ _ Hargs Hp G); subst q; rewrite E end.
    split_and!; done.
Qed.

Lemma unlock_answer w i kvs a w' : utf8_valid i = true -> answer_of w (RUnlock i kvs) a w' ->
  match w_locks w !! i with
  | None => a = not_found /\ w' = w
  | Some (p, t, u) => w' = World (w_objs w) (delete i (w_locks w)) /\
      exists x, en_time en t = Some x /\ a = Reply 200 (lock_info en p x u) BNone
  end.
Proof using Type.
  intros Hu H. inversion H; subst; [congruence| |];
    match goal with E : w_locks _ !! i = _ |- _ => rewrite E end; [done|]. split; [done|]. by eexists.
Qed.

(** A lock stays in the table until it is unlocked. *)
Lemma answer_locks w r a w' i e : answer_of w r a w' -> w_locks w !! i = Some e ->
  (forall kvs, r <> RUnlock i kvs) -> w_locks w' !! i = Some e.
Proof using Type.
  intros H Hi Hno. destruct H; try done.
  - simpl. rewrite lookup_insert_ne; [done|]. intros <-. congruence.
  - simpl. rewrite lookup_delete_ne; [done|]. intros <-. by eapply Hno.
Qed.
Lemma session_locks w reqs as_ w' i e : session_of w reqs as_ w' -> w_locks w !! i = Some e ->
  (forall kvs, RUnlock i kvs ∉ reqs) -> w_locks w' !! i = Some e.
Proof using Type.
  induction 1 as [|w r a w1 rs as_ w2 Ha Hs IH]; [done|]. intros Hi Hno. apply IH.
  - eapply answer_locks; [done|done|]. intros kvs ->. apply (Hno kvs). by left.
  - intros kvs Hin. apply (Hno kvs). by right.
Qed.

(** *** Listing *)
Lemma list_args_ok b c : args_ok (list_args b c).
Proof using Type.
  split.
  - destruct c; repeat first [apply Forall_nil_2 | apply Forall_cons_2]; refine (bool_decide_eq_true_1 _ _); by vm_compute.
  - destruct c; refine (bool_decide_eq_true_1 _ _); by vm_compute.
Qed.

Lemma list_answer w b n c a w' : number b n -> n <> 0%N -> answer_of w (RList (list_args b c)) a w' ->
  w' = w /\ exists ls out, locks_from w c ls /\ locks_lines en m (take (S (N.to_nat (N.min n 100))) ls) out /\
    a = Reply 200 (match ls !! N.to_nat (N.min n 100) with Some (i, _) => [bs "next-cursor=" ++ i ++ [NL]] | None => [] end)
          (BLines out).
Proof using Type.
  intros Hn Hn0 H. pose proof (list_args_ok b c) as Hargs.
  assert (Hb : (bs "limit", b) ∈ list_args b c) by (by left).
  assert (Hc : key (bs "cursor") (list_args b c) c).
  { destruct c as [c|]; simpl; [by right; left|]. intros Hin. apply elem_of_list_singleton in Hin. done. }
  assert (Hp : no_key (bs "path") (list_args b c)).
  { destruct c as [c|]; unfold no_key; simpl; rewrite ?elem_of_cons, elem_of_nil;
      intros Hin; by destruct_or?. }
  inversion H as [| | | | | | | | | | | | | | | | | | | | kvs b' Hb' Hno|kvs b' Hb' Hno| | | |kvs lim n' c' ls out Hl1 Hl2 Hnp Hc' Hf Hls| | |]; subst;
    try (exfalso; match goal with G : (bs "path", _) ∈ _ |- _ => exact (args_no _ _ _ Hp G) end).
  - exfalso. apply Hno. exists n. rewrite <- (args_fun _ _ _ _ Hargs Hb Hb'). done.
  - exfalso. rewrite <- (args_fun _ _ _ _ Hargs Hb Hb') in Hno. by pose proof (number_fun _ _ _ Hn Hno).
  - split; [done|]. rewrite <- (key_fun _ _ _ _ Hargs Hc Hc') in Hf.
    assert (lim = Some b) as ->.
    { by eapply key_fun; [exact Hargs|exact Hl1|exact Hb]. }
    assert (n' = N.to_nat (N.min n 100)) as ->.
    { eapply limit_fun; [exact Hl2|by constructor]. }
    by exists ls, out.
Qed.

Lemma sorted_lt (l : list (bytes * (bytes * Z * N))) k e x : StronglySorted (fun a b => blt a.1 b.1 = true) l ->
  l !! k = Some e -> x ∈ take k l -> blt x.1 e.1 = true.
Proof using Type.
  intros H. revert k. induction H as [|a l Hl IH Hf]; intros k Hk Hx; [done|]. destruct k as [|k]; [by apply elem_of_nil in Hx|].
  simpl in Hk, Hx. apply elem_of_cons in Hx as [->|Hx]; [|by eapply IH].
  rewrite Forall_forall in Hf. apply Hf. by eapply elem_of_list_lookup_2.
Qed.
Lemma sorted_ge (l : list (bytes * (bytes * Z * N))) k e x : StronglySorted (fun a b => blt a.1 b.1 = true) l ->
  l !! k = Some e -> x ∈ drop k l -> blt x.1 e.1 = false.
Proof using Type.
  intros H. revert k. induction H as [|a l Hl IH Hf]; intros k Hk Hx; [done|]. destruct k as [|k]; simpl in Hk, Hx; [|by eapply IH].
  injection Hk as ->. apply elem_of_cons in Hx as [->|Hx]; [apply blt_irrefl|].
  rewrite Forall_forall in Hf. by apply blt_asym, Hf.
Qed.
Lemma sorted_drop (l : list (bytes * (bytes * Z * N))) k : StronglySorted (fun a b => blt a.1 b.1 = true) l ->
  StronglySorted (fun a b => blt a.1 b.1 = true) (drop k l).
Proof using Type. intros H. rewrite <- (take_drop k l) in H. by eapply StronglySorted_app_inv_r. Qed.

Lemma next_page w c ls k i r : locks_from w c ls -> ls !! k = Some (i, r) -> locks_from w (Some i) (drop k ls).
Proof using Type.
  intros [Hs Hin] Hk. split; [by apply sorted_drop|]. intros j x.
  assert (Hi : match c with Some c0 => blt i c0 = false | None => True end) by (eapply Hin, elem_of_list_lookup_2, Hk).
  split.
  - intros Hx. split; [|by apply (sorted_ge ls k (i, r) (j, x))].
    apply (Hin j x). rewrite <- (take_drop k ls). apply elem_of_app. by right.
  - intros [Hj Hb]. assert (Hj2 : (j, x) ∈ ls).
    { apply Hin. split; [done|]. destruct c as [c|]; [|done]. destruct (blt j c) eqn:E; [|done].
      destruct (blt i j) eqn:E2; [by rewrite (blt_trans _ _ _ E2 E) in Hi|].
      assert (i = j) as -> by (by apply blt_total). congruence. }
    rewrite <- (take_drop k ls) in Hj2. apply elem_of_app in Hj2 as [Hj2|Hj2]; [|done].
    pose proof (sorted_lt ls k (i, r) (j, x) Hs Hk Hj2) as G. simpl in G. congruence.
Qed.

Lemma pages_of w w' b n c reqs as_ : number b n -> n <> 0%N -> follows b c reqs as_ -> session_of w reqs as_ w' ->
  w' = w /\ exists pgs, locks_from w c (concat pgs) /\ shows en m (N.to_nat (N.min n 100)) as_ pgs.
Proof using Type.
  intros Hn Hn0 H. revert w w'. set (k := N.to_nat (N.min n 100)).
  assert (Hk : (0 < k)%nat) by (unfold k; lia).
  induction H as [c a Hno|c c' a rs as_ Ha Hf IH]; intros w w' Hs; inversion Hs as [|? ? ? w1 ? ? ? G1 G2]; subst.
  - inversion G2; subst. destruct (list_answer _ _ _ _ _ _ Hn Hn0 G1) as (-> & ls & out & H1 & H2 & ->).
    split; [done|]. exists [ls]. simpl. rewrite app_nil_r. split; [done|]. fold k in H2, Hno |- *.
    destruct (ls !! k) as [[i r]|] eqn:E.
    + exfalso. apply (Hno i). simpl. by left.
    + apply lookup_ge_None in E. rewrite take_ge in H2 by lia. by constructor.
  - destruct (list_answer _ _ _ _ _ _ Hn Hn0 G1) as (-> & ls & out & H1 & H2 & ->). fold k in H2, Ha.
    simpl in Ha. destruct (ls !! k) as [[i r]|] eqn:E; [|done]. injection Ha as Ha. apply app_inv_tail in Ha as ->.
    destruct (IH _ _ G2) as (-> & pgs & P1 & P2). split; [done|].
    pose proof (next_page w c ls k c' r H1 E) as P3.
    assert (Ec : concat pgs = drop k ls).
    { destruct P1 as [S1 E1], P3 as [S2 E2]. apply sorted_fun; [done|done|]. intros [j x]. by rewrite E1, E2. }
    exists (take k ls :: pgs). simpl. rewrite Ec, take_drop. split; [done|].
    assert (exists ls' pgs', pgs = ((c', r) :: ls') :: pgs') as (ls' & pgs' & ->).
    { rewrite (drop_S ls (c', r) k E) in Ec. destruct P2 as [pg out' _ Hlen|pg e ls' out' as_ pgs' _ Hlen _].
      - simpl in Ec. rewrite app_nil_r in Ec. subst pg. by eexists _, [].
      - destruct pg as [|x pg]; [simpl in Hlen; lia|]. injection Ec as -> _. by eexists _, _. }
    fold k. rewrite E. apply (sh_more en m k (take k ls) (c', r) ls' out as_ pgs'); [|apply take_length_le; apply lookup_lt_Some in E; lia|done].
    by rewrite <- (take_S_r ls k (c', r) E).
Qed.
End requests.
