(** What a listing shows in a session of one server. *)
From Verif Require Import Bytes Err FS Prog Pktline Args Local Processor Transfer Wp
  ByteFacts PktFacts FsFacts Spec SpecStore SpecServer SpecLock Session SessionFacts SessionProps.
From stdpp Require Import relations.

Section s.
Context (en : env) (m : mode) (uid : N) (clock : Z -> Prop).
Local Notation session_of := (session_of en m uid clock).
Local Notation answer_of := (answer_of en m uid clock).

Lemma in_force_cons w w' r a reqs as_ i p t u : answer_of w r a w' ->
  in_force w' reqs as_ i p t u -> in_force w (r :: reqs) (a :: as_) i p t u.
Proof.
  intros Ha [[Hw Hno]|(j & kvs & b & Hr & Hp & Hb & Hc & Hno)].
  - assert (Hsame : w_locks w !! i = w_locks w' !! i -> (forall kvs, r = RUnlock i kvs -> rp_code a <> 200%N) ->
      in_force w (r :: reqs) (a :: as_) i p t u).
    { intros E Hr. left. split; [by rewrite E|]. intros k kvs b Hk Hq Hb. destruct k as [|k].
      - injection Hq as ->. injection Hb as <-. by apply (Hr kvs).
      - apply (Hno k kvs b); [lia|done|done]. }
    destruct Ha; simpl in *; try (by apply Hsame).
    + apply lookup_insert_Some in Hw as [[<- [= <- <- <-]]|[Hne Hw]].
      * right. exists 0%nat, kvs, (Reply 201 (lock_info en p0 x uid) BNone). split_and!; try done.
        intros k kvs' b Hk Hq Hb. destruct k as [|k]; [lia|]. apply (Hno k kvs' b); [lia|done|done].
      * apply Hsame; [by rewrite lookup_insert_ne|done].
    + apply lookup_delete_Some in Hw as [Hne Hw]. apply Hsame; [by rewrite lookup_delete_ne|].
      intros kvs' [= E _]. by subst.
  - right. exists (S j), kvs, b. split_and!; try done. intros k kvs' b' Hk Hq Hb'.
    destruct k as [|k]; [lia|]. apply (Hno k kvs' b'); [lia|done|done].
Qed.
Lemma session_in_force w reqs as_ w' i p t u : session_of w reqs as_ w' -> w_locks w' !! i = Some (p, t, u) ->
  in_force w reqs as_ i p t u.
Proof.
  induction 1 as [w|w r a w1 rs as_ w2 Ha _ IH]; intros Hw.
  - left. split; [done|]. intros k kvs a _ Hk. by destruct k.
  - eapply in_force_cons; [done|]. by apply IH.
Qed.

(** The table files a lock under its own id. *)
Lemma filed_under w reqs as_ w' : session_of w reqs as_ w' ->
  (forall i p t u, w_locks w !! i = Some (p, t, u) -> i = lock_id (en_hash en) p) ->
  forall i p t u, w_locks w' !! i = Some (p, t, u) -> i = lock_id (en_hash en) p.
Proof.
  induction 1 as [|w2 r2 a2 w3 rs2 as2 w4 Hans _ IH]; intros Hw; [done|]. apply IH.
  destruct Hans; try done; simpl.
  - intros j q t1 u1. rewrite lookup_insert_Some. intros [[<- [= <- _ _]]|[_ Hq]]; [done|]. by apply Hw in Hq.
  - intros j q t1 u1. rewrite lookup_delete_Some. intros [_ Hq]. by apply Hw in Hq.
Qed.

Lemma list_answer w kvs a w' : answer_of w (RList kvs) a w' -> rp_code a = 200%N ->
  exists ls out, rp_body a = BLines out /\ locks_lines en m ls out /\
    forall i r, (i, r) ∈ ls -> w_locks w !! i = Some r.
Proof.
  intros Ha. inversion Ha; subst; intros Hc; try done.
  - exists [(lock_id (en_hash en) p, (p, t, u))], (lock_lines en m p x u). split_and!; [done| |].
    + rewrite <- (app_nil_r (lock_lines _ _ _ _ _)). constructor; [done|constructor].
    + intros i r Hi. apply elem_of_list_singleton in Hi. by injection Hi as -> ->.
  - eexists _, out. split_and!; [done|done|]. intros i r Hi. apply elem_of_take in Hi as (k & Hk & _).
    apply elem_of_list_lookup_2 in Hk. match goal with X : locks_from _ _ _ |- _ => by apply X in Hk as [? _] end.
Qed.
End s.

Lemma c32 en lfs umask ts clock m pid os l s w reqs extra fuel i kvs :
  setting en lfs ts clock os -> holds en lfs s w -> asks m l reqs extra -> enough fuel l w ->
  reqs !! i = Some (RList kvs) ->
  exists as_ w1 s1, served en lfs umask ts clock m pid fuel os l s w reqs as_ extra w1 s1 /\
    forall a, as_ !! i = Some a -> rp_code a = 200%N ->
    exists ls out, rp_body a = BLines out /\ locks_lines en m ls out /\
      forall k p t u, (k, (p, t, u)) ∈ ls -> k = lock_id (en_hash en) p /\ in_force w (take i reqs) (take i as_) k p t u.
Proof.
  intros Hset Hr Ha Hf Hi.
  destruct (c13 en lfs umask ts clock m pid os l s w reqs extra fuel Hset Hr Ha Hf) as (as_ & w1 & s1 & Hsv).
  exists as_, w1, s1. split; [done|]. destruct Hsv as (l1 & ps & out & Hrun & Hss & _).
  destruct (session_at _ _ _ _ _ _ _ _ i _ Hss Hi) as (u & a & v & H1 & H2 & H3 & H4).
  intros a' Ha' Hc. assert (a' = a) as -> by congruence.
  destruct (list_answer _ _ _ _ _ _ _ _ H3 Hc) as (ls & o & E1 & E2 & E3). exists ls, o. split_and!; [done|done|].
  intros k p t uu Hk. apply E3 in Hk. split; [|by eapply session_in_force; [exact H1|]].
  revert Hk. apply (filed_under _ _ _ _ _ _ _ _ H1). intros i' p' t' u' Hi'.
  by destruct (h_lock _ _ _ _ Hr _ _ _ _ Hi') as (_ & ? & _).
Qed.
