(** Programs under any oracle: system calls may fail at any point. *)
From Verif Require Import Bytes ByteFacts Err FS Prog Pktline Args Local Processor Transfer
  Spec SpecStore SpecServer TextProofs FsFacts Wp Rg ServerEv SeqIo SeqCmd.

Definition may_fail (f : failure) (l : local) (s : fs) : Prop := True.

(** A program that makes only quiet calls changes no file. *)
Lemma wp_quiet {A} pid (F : failure -> local -> fs -> Prop) (p : prog A) (Q : A -> local -> fs -> Prop) l s :
  all_ev quiet p -> (forall f l' s', same s s' -> F f l' s') ->
  (forall a l' s', same s s' -> Q a l' s') -> wp pid any_orc F p Q l s.
Proof.
  intros Hp HF HQ. assert (G : forall s1, same s s1 -> wp pid any_orc F p Q l s1); [|by apply G].
  revert l Hp. induction p as [a|f|e k IH]; intros l Hp s1 Hs; [by apply HQ|by apply HF|].
  apply wp_vis. intros o _. destruct Hp as [He Hk]. pose proof (quiet_same pid e o l s1 He) as Hs'.
  pose proof (handle_resp_ok pid e o l s1) as Hr.
  destruct (handle_ev pid e o l s1) as [[r l'] s2]. simpl in *. apply IH; [by apply Hk|].
  destruct Hs, Hs'. split; congruence.
Qed.

(** ** C28, any id *)
Section unlock.
Context (en : env) (be : backend) (fuel : nat).

Lemma c28_any pid os l s id out l' s' : Forall plain_name (be_lfs be) -> digest (en_hash en) ->
  run pid (p_unlock en be fuel id) os l s = (out, l', s') ->
  inodes s' = inodes s /\
  ((exists st p x u, out = Done (Ok st) /\ st_code st = 200%N /\
      st_args st = Some [bs "id=" ++ lock_id (en_hash en) p ++ [NL]; bs "path=" ++ p ++ [NL];
        bs "locked-at=" ++ x ++ [NL]; bs "ownername=" ++ u ++ [NL]] /\
      nodes s' = delete (be_lfs be ++ [bs "locks"; lock_id (en_hash en) p]) (nodes s)) \/
   (nodes s' = nodes s /\ forall st, out = Done (Ok st) -> st_code st <> 200%N)).
Proof.
  intros Hlfs HH. set (R := fun (out : outcome (res status)) (s' : fs) => inodes s' = inodes s /\
  ((exists st p x u, out = Done (Ok st) /\ st_code st = 200%N /\
      st_args st = Some [bs "id=" ++ lock_id (en_hash en) p ++ [NL]; bs "path=" ++ p ++ [NL];
        bs "locked-at=" ++ x ++ [NL]; bs "ownername=" ++ u ++ [NL]] /\
      nodes s' = delete (be_lfs be ++ [bs "locks"; lock_id (en_hash en) p]) (nodes s)) \/
   (nodes s' = nodes s /\ forall st, out = Done (Ok st) -> st_code st <> 200%N))).
  assert (HR : forall out s', same s s' -> (forall st, out = Done (Ok st) -> st_code st <> 200%N) -> R out s').
  { intros o' s1 [H1 H2] H3. split; [done|]. right. done. }
  assert (G : wp pid any_orc (fun f _ s' => R (Failed f) s') (p_unlock en be fuel id) (fun r _ s' => R (Done r) s') l s).
  { unfold p_unlock. apply wp_bindR, wp_quiet; [apply ev_read_to_type; done|intros f l1 s1 Hs; by apply HR|].
    intros [x|e] l1 s1 Hs1; [|by apply HR].
    destruct (utf8_valid id); [|apply wp_ret; by apply HR].
    apply wp_bind, wp_quiet; [apply ev_lock_from_id; done|intros f l2 s2 Hs2; apply HR; [|done]; destruct Hs1, Hs2; split; congruence|].
    intros [[lk|]|e] l2 s2 Hs2; assert (Hs : same s s2) by (destruct Hs1, Hs2; split; congruence); clear Hs1 Hs2.
    - apply wp_bind. unfold as_arguments. apply wp_bind. unfold formatted_timestamp.
      destruct (en_time en (lk_time lk)) as [t|] eqn:Et; [|by apply HR].
      apply wp_ret, wp_ret, wp_bind. unfold lock_unlock. apply wp_io_call, wp_call. intros o _. cbn [handle_ev].
      unfold faulty. destruct (o_fault o) as [e|].
      { simpl. destruct (decide _) as [?|?]; [apply wp_ret; apply HR; [done|by intros ? [= <-]]|].
        destruct (decide _) as [?|?]; apply wp_ret; apply HR; try done; by intros ? [= <-]. }
      unfold with_l, fs_unlink. destruct (file_at s2 (lock_file be (lk_id en lk))) as [e|[q i]] eqn:Ef.
      { simpl. destruct (decide _) as [?|?]; [apply wp_ret; apply HR; [done|by intros ? [= <-]]|].
        destruct (decide _) as [?|?]; apply wp_ret; apply HR; try done; by intros ? [= <-]. }
      apply wp_ret. simpl. destruct Hs as [Hn Hi]. split; [done|]. left.
      assert (q = be_lfs be ++ [bs "locks"; lock_id (en_hash en) (lk_path lk)]) as ->.
      { unfold lock_file, lock_dir in Ef. eapply file_at_stays in Ef as [-> _].
        - by rewrite <- app_assoc.
        - rewrite <- app_assoc, Forall_app. assert (Hst : forall c, plain_name c -> stays c) by (unfold plain_name, stays; naive_solver).
          split; [by eapply Forall_impl|]. repeat constructor; try done. all: by apply Hst, (lock_id_plain en HH). }
      eexists _, (lk_path lk), t, (lk_owner lk). split_and!; [done|done|done|unfold log, set_nodes; simpl; by rewrite Hn].
    - apply wp_ret. apply HR; [done|]. by intros ? [= <-].
    - apply wp_ret. by apply HR. }
  intros Hrun. pose proof (wp_run _ _ _ _ _ _ _ G os ltac:(done)) as X. rewrite Hrun in X. by destruct out.
Qed.
End unlock.
