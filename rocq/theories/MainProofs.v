(** Proofs for Props_Main.v. *)
From stdpp Require Import sorting.
From Verif Require Import Bytes Err FS Prog Local Transfer GitAt RecentRefs Regex SpecGit GitProofs Main SpecMain.

Lemma program_utf8 a : at_utf8 a ->
  at_program a = Some (AtOpts (aa_summary a) (aa_show a) (aa_quiet a) (negb (aa_no_fixup a)) (starts_at a) (aa_pattern a)).
Proof.
  intros [H1 H2]. unfold at_program, value_of, starts_at. rewrite H1. destruct (aa_revision a) as [r|]; [|done].
  by rewrite (H2 r eq_refl).
Qed.

Section at_.
Context (g : git_view) (a : at_args).
Notation o := (AtOpts (aa_summary a) (aa_show a) (aa_quiet a) (negb (aa_no_fixup a)) (starts_at a) (aa_pattern a)).
Lemma hits_wanted r m : hits a r m <-> wanted o r m.
Proof using Type.
  unfold hits, wanted. cbn [ao_fixup]. destruct (aa_no_fixup a); naive_solver.
Qed.
Lemma misses_none r revs : Forall (misses g a r) revs <-> none_wanted g o r revs.
Proof using Type.
  unfold none_wanted, misses. split; intros H; eapply Forall_impl; try exact H; intros rev (id & m & H1 & H2); exists id, m;
    (split; [done|]); by rewrite ?hits_wanted, <- ?hits_wanted in *.
Qed.
Lemma searched_walked r revs : looks_for a r /\ searched g a revs <-> walked g o r revs.
Proof using Type. unfold looks_for, searched, walked, pattern_text, summary_prefix. cbn [ao_summary ao_text ao_head]. by destruct (aa_summary a). Qed.
Lemma finds_run id : finds g a id <-> at_run mini_pcre g o = Ok id.
Proof using Type.
  rewrite c42. unfold finds. setoid_rewrite <- misses_none. setoid_rewrite <- searched_walked. setoid_rewrite <- hits_wanted.
  split.
  - intros (r & pre & rev & post & m & H1 & H2 & H3 & H4 & H5). exists r, pre, rev, post. split_and!; try done. by exists m.
  - intros (r & pre & rev & post & [H1 H2] & H3 & m & H4 & H5). by exists r, pre, rev, post, m.
Qed.
Lemma finds_none_run : finds_none g a <-> at_run mini_pcre g o = Er (err_simple NoSuchRevision).
Proof using Type.
  rewrite c42_none. unfold finds_none. setoid_rewrite <- misses_none. setoid_rewrite <- searched_walked. naive_solver.
Qed.
End at_.

Lemma c53 g a id sc : at_utf8 a ->
  finds g a id <->
  at_process mini_pcre (GOk g) (Parsed a) sc =
    Some (if aa_show a then AtResult [] [] (Some id) (default 3%Z sc) else AtResult (id ++ [NL]) [] None 0).
Proof.
  intros Ha. rewrite finds_run. unfold at_process. rewrite (program_utf8 a Ha). cbn [fmap option_fmap option_map]. unfold at_main. cbn [ao_show].
  split.
  - intros ->. by destruct (aa_show a), sc.
  - destruct (at_run _ g _) as [id'|e] eqn:E.
    + destruct (aa_show a); intros H; injection H as H; [congruence|]. apply app_inj_2 in H as [-> _]; [done|done].
    + intros H. injection H as H. destruct (aa_show a); injection H; [done|]. intros Hc.
      destruct (err_exit_status e) eqn:Ee; try done. by destruct e as [[] ? ?].
Qed.
Lemma c53_none g a sc : at_utf8 a -> finds_none g a ->
  at_process mini_pcre (GOk g) (Parsed a) sc =
    Some (AtResult [] (if aa_quiet a then [] else bs "fatal: needed a single revision" ++ [NL]) None 1).
Proof.
  intros Ha H%finds_none_run. unfold at_process. rewrite (program_utf8 a Ha). cbn [fmap option_fmap option_map]. unfold at_main.
  rewrite H. by destruct (aa_quiet a).
Qed.

Lemma sorts_program s k : sorts_by s k -> recent_program s = Some k.
Proof. by intros []; vm_compute. Qed.
Lemma lines_flat ns : flat_map (fun s => s ++ [NL]) ns = as_lines ns.
Proof. induction ns as [|n ns IH]; [done|]. unfold as_lines in *. simpl. by rewrite IH. Qed.

Lemma c54_visited n s v out err code : sorts_by s Visited ->
  recent_process n (Parsed s) (GOk v) = RDone out err code <->
  exists l, out = as_lines l /\ err = [] /\ code = 0%Z /\
    (length l < n)%nat /\ (forall i x, l !! i = Some x -> shown_as v i x) /\ (forall x, ~ shown_as v (length l) x).
Proof.
  intros Hs. unfold recent_process, recent_main. rewrite (sorts_program _ _ Hs). split.
  - destruct (recent_run n Visited v) as [[l|e]|] eqn:E; cbn; [|unfold recent_run in E; apply fmap_Some in E as (? & _ & ?); done|done].
    intros [= <- <- <-]. exists l. rewrite lines_flat. apply c46 in E as (H1 & H2 & H3). by split_and!.
  - intros (l & -> & -> & -> & H). apply c46 in H. rewrite H. cbn. by rewrite lines_flat.
Qed.
Lemma c54_dated n s k v l : sorts_by s k -> k <> Visited -> rv_references v = GOk l ->
  exists ds out names, dated k l ds /\
    recent_process n (Parsed s) (GOk v) = RDone (as_lines names) [] 0 /\ named out.*2 names /\
    out ≡ₚ ds /\ StronglySorted not_older out /\
    forall t, filter (fun y => y.1 = t) out = filter (fun y => y.1 = t) ds.
Proof.
  intros Hs Hk Hl. destruct (c45 n k v l Hk Hl) as (ds & out & names & H1 & H2 & H3). exists ds, out, names. split; [done|]. split; [|done].
  unfold recent_process, recent_main. rewrite (sorts_program _ _ Hs), H2. cbn. by rewrite lines_flat.
Qed.
Lemma c54_error n s k v e : sorts_by s k -> k <> Visited -> rv_references v = GErr e ->
  recent_process n (Parsed s) (GOk v) =
    RDone [] (git_says e ++ [NL]) (match g_code e with GNotFound | GConflict => 1 | GOther => 2 end).
Proof.
  intros Hs Hk Hl. unfold recent_process, recent_main. rewrite (sorts_program _ _ Hs), <- display_git.
  destruct k; [done| |]; unfold recent_run; rewrite Hl; destruct e as [[] t]; done.
Qed.

Lemma c55_run pid en fuel dir op open git_dir cfg os l s :
  open dir = GOk (git_dir, cfg) -> utf8_valid op = true ->
  run pid (transfer_process en fuel (Parsed (dir, op)) open) os l s =
  match run pid (transfer_main en fuel (git_dir ++ [bs "lfs"]) cfg op) os l s with
  | (Done r, l', s') => (Done (Some r), l', s')
  | (Failed f, l', s') => (Failed f, l', s')
  end.
Proof.
  intros Ho Hu. unfold transfer_process, value_of. rewrite Ho, Hu. generalize (transfer_main en fuel (git_dir ++ [bs "lfs"]) cfg op). intros p.
  revert os l s. induction p as [a|f|e k IH]; intros os l s; cbn [run bind]; [done|done|].
  destruct (handle_ev pid e (os 0%nat) l s) as [[r l'] s']. apply IH.
Qed.
