(** Proofs about git at, git recent-refs and the pager choice. *)
From Verif Require Import Bytes ByteFacts Err Transfer GitAt RecentRefs Pager Regex RegexFacts SpecGit SpecRegex RegexRead.
From stdpp Require Import sorting.

(** ** git at *)

Section at_.
Context (lib : regex_lib) (g : git_view) (o : at_opts).
Context (regex fixup_regex : rx lib).
Notation wanted_by := (wanted_by lib g o regex fixup_regex).
Notation unwanted_by := (unwanted_by lib g o regex fixup_regex).

Lemma at_loop_ok revs id :
  at_loop lib g o regex fixup_regex revs = Ok id <->
  exists pre rev post, revs = map GOk pre ++ GOk rev :: post /\
    Forall unwanted_by pre /\ wanted_by rev id.
Proof.
  split.
  - induction revs as [|[rev|e] revs IH]; simpl; [done| |done].
    unfold rbind at 1; simpl. destruct (gv_find_commit g rev) as [[i m]|e] eqn:Ef; [|done].
    simpl. unfold rbind.
    assert (Hrec : unwanted_by rev -> at_loop lib g o regex fixup_regex revs = Ok id ->
      exists pre r post, GOk rev :: revs = map GOk pre ++ GOk r :: post /\
        Forall unwanted_by pre /\ wanted_by r id).
    { intros Hu H. destruct (IH H) as (pre & r & post & -> & H1 & H2).
      exists (rev :: pre), r, post. split_and!; [done|by constructor|done]. }
    destruct (ao_fixup o) eqn:Efx.
    + destruct (rx_is_match lib regex m) as [t|[|]] eqn:Em; simpl; [done| |].
      * intros [= <-]. exists [], rev, revs. split_and!; [done|done|]. exists m. rewrite Efx. auto.
      * apply Hrec. exists i, m. rewrite Efx. auto 6.
    + destruct (rx_is_match lib fixup_regex m) as [t|[|]] eqn:Efm; simpl; [done| |].
      * apply Hrec. exists i, m. auto 6.
      * destruct (rx_is_match lib regex m) as [t|[|]] eqn:Em; simpl; [done| |].
        -- intros [= <-]. exists [], rev, revs. split_and!; [done|done|]. exists m. auto.
        -- apply Hrec. exists i, m. auto 6.
  - intros (pre & rev & post & -> & Hpre & (m & Hf & Hfx & Hm)). induction Hpre as [|r pre Hr Hpre IH]; simpl.
    + rewrite Hf. simpl. unfold rbind.
      destruct (ao_fixup o) eqn:E; simpl; [by rewrite Hm|].
      destruct Hfx as [?|Hfx]; [done|]. rewrite Hfx. simpl. by rewrite Hm.
    + destruct Hr as (i & m' & Hf' & Hr). rewrite Hf'. simpl. unfold rbind.
      destruct (ao_fixup o) eqn:E; simpl.
      * destruct Hr as [[? _]|[_ Hr]]; [done|]. by rewrite Hr.
      * destruct Hr as [[_ Hr]|[[?|Hr1] Hr]]; [by rewrite Hr|done|]. rewrite Hr1. simpl. by rewrite Hr.
Qed.

(** The loop ends without a match. *)
Lemma at_loop_none revs :
  at_loop lib g o regex fixup_regex revs = Er (err_simple NoSuchRevision) <->
  exists pre, revs = map GOk pre /\ Forall unwanted_by pre.
Proof.
  assert (Hgit : forall e, err_of_git e <> err_simple NoSuchRevision) by done.
  assert (Hpcre : forall e, err_of_pcre e <> err_simple NoSuchRevision) by done.
  split.
  - induction revs as [|[rev|e] revs IH]; simpl.
    + intros _. by exists [].
    + unfold rbind at 1; simpl. destruct (gv_find_commit g rev) as [[i m]|e] eqn:Ef.
      2: done.
      simpl. unfold rbind.
      assert (Hrec : unwanted_by rev -> at_loop lib g o regex fixup_regex revs = Er (err_simple NoSuchRevision) ->
        exists pre, GOk rev :: revs = map GOk pre /\ Forall unwanted_by pre).
      { intros Hu H. destruct (IH H) as (pre & -> & H1). exists (rev :: pre). split; [done|by constructor]. }
      destruct (ao_fixup o) eqn:Efx.
      * destruct (rx_is_match lib regex m) as [t|[|]] eqn:Em; simpl; [|done|].
        { done. }
        apply Hrec. exists i, m. rewrite Efx. auto 6.
      * destruct (rx_is_match lib fixup_regex m) as [t|[|]] eqn:Efm; simpl.
        { done. }
        { apply Hrec. exists i, m. auto 6. }
        destruct (rx_is_match lib regex m) as [t|[|]] eqn:Em; simpl; [|done|].
        { done. }
        apply Hrec. exists i, m. auto 6.
    + done.
  - intros (pre & -> & Hpre). induction Hpre as [|r pre Hr Hpre IH]; simpl; [done|].
    destruct Hr as (i & m' & Hf' & Hr). rewrite Hf'. simpl. unfold rbind.
    destruct (ao_fixup o) eqn:E; simpl.
    + destruct Hr as [[? _]|[_ Hr]]; [done|]. by rewrite Hr.
    + destruct Hr as [[_ Hr]|[[?|Hr1] Hr]]; [by rewrite Hr|done|]. rewrite Hr1. simpl. by rewrite Hr.
Qed.

End at_.

Lemma c42_any lib g o id :
  at_run lib g o = Ok id <->
  exists regex fixup head pre rev post,
    rx_new lib (pattern_text (ao_summary o) (ao_text o)) = inr regex /\
    rx_new lib (pattern_text (ao_summary o) (bs "\A\s*(?:fixup|squash)!")) = inr fixup /\
    gv_revparse g (ao_head o) = GOk head /\
    gv_walk g head = GOk (map GOk pre ++ GOk rev :: post) /\
    Forall (unwanted_by lib g o regex fixup) pre /\ wanted_by lib g o regex fixup rev id.
Proof.
  unfold at_run, at_pattern. change (bs "\A\s*(?:fixup|squash)!") with fixup_text.
  destruct (rx_new lib (pattern_text (ao_summary o) (ao_text o))) as [t|regex]; simpl.
  { split; [done|]. by intros (? & ? & ? & ? & ? & ? & ? & _). }
  destruct (rx_new lib (pattern_text (ao_summary o) fixup_text)) as [t|fixup]; simpl.
  { split; [done|]. by intros (? & ? & ? & ? & ? & ? & _ & ? & _). }
  destruct (gv_revparse g (ao_head o)) as [head|x]; simpl.
  2: { split; [done|]. by intros (? & ? & ? & ? & ? & ? & _ & _ & ? & _). }
  destruct (gv_walk g head) as [revs|x] eqn:Ew; simpl.
  2: { split; [done|]. intros (? & ? & ? & ? & ? & ? & _ & _ & [= <-] & ? & _). congruence. }
  rewrite at_loop_ok. split.
  - intros (pre & rev & post & -> & H1 & H2). by exists regex, fixup, head, pre, rev, post.
  - intros (? & ? & ? & pre & rev & post & [= <-] & [= <-] & [= <-] & Hw & H1 & H2).
    rewrite Ew in Hw. injection Hw as ->. by exists pre, rev, post.
Qed.

(** With [mini_pcre]. *)
Global Instance git_code_eq_dec : EqDecision git_code.
Proof. solve_decision. Defined.

Lemma bool_not (b : bool) (P : Prop) : (b = true <-> P) -> (b = false <-> ~ P).
Proof. destruct b; naive_solver. Qed.

Lemma fixup_pattern o : exists f : rgx, at_pattern mini_pcre o fixup_text = Ok f /\ forall m, search f m = true <-> is_fixup m.
Proof.
  unfold at_pattern, pattern_text. destruct (ao_summary o).
  - eexists. split; [unfold mini_pcre; cbn [rx_new]; by rewrite fixup_parse_summary|].
    apply fixup_search_summary.
  - eexists. split; [unfold mini_pcre; cbn [rx_new]; by rewrite fixup_parse|]. apply fixup_search.
Qed.

Lemma wanted_mini g o r f rev id : (forall m, search f m = true <-> is_fixup m) ->
  wanted_by mini_pcre g o r f rev id <->
  exists m, gv_find_commit g rev = GOk (id, m) /\ wanted o r m.
Proof.
  intros Hf. unfold wanted_by, wanted. simpl.
  assert (Hm : forall m, has_match r m <-> search r m = true) by (intros; symmetry; apply search_spec).
  assert (Hf' : forall m, search f m = false <-> ~ is_fixup m) by (intros; by apply bool_not).
  setoid_rewrite Hm. setoid_rewrite <- Hf'.
  split; intros (m & H1 & H2 & H3); exists m; (split; [done|]).
  - split; [|congruence]. destruct H2; [by left|right; congruence].
  - split; [|congruence]. destruct H2; [by left|right; congruence].
Qed.

Lemma unwanted_mini g o r f rev : (forall m, search f m = true <-> is_fixup m) ->
  unwanted_by mini_pcre g o r f rev <->
  exists id m, gv_find_commit g rev = GOk (id, m) /\ ~ wanted o r m.
Proof.
  intros Hf. unfold unwanted_by, wanted. simpl.
  assert (Hm : forall m, has_match r m <-> search r m = true) by (intros; symmetry; apply search_spec).
  assert (Hf' : forall m, search f m = false <-> ~ is_fixup m) by (intros; by apply bool_not).
  setoid_rewrite Hm. setoid_rewrite <- Hf'.
  split; intros (i & m & H1 & H2); exists i, m; (split; [done|]).
  - intros [H3 H4]. destruct H2 as [[H5 H6]|[H5 H6]].
    + injection H6 as H6. destruct H3; congruence.
    + injection H6 as H6. congruence.
  - destruct (ao_fixup o), (search f m), (search r m); auto 6; exfalso; apply H2; auto.
Qed.

Lemma at_run_split g o :
  (exists r revs f, walked g o r revs /\ (forall m, search f m = true <-> is_fixup m) /\
     at_run mini_pcre g o = at_loop mini_pcre g o r f revs) \/
  (parse_regex (pattern_text (ao_summary o) (ao_text o)) = None /\
     exists t, at_run mini_pcre g o = Er (err_of_pcre t)) \/
  (exists x, at_run mini_pcre g o = Er (err_of_git x) /\
    (gv_revparse g (ao_head o) = GErr x \/
     exists head, gv_revparse g (ao_head o) = GOk head /\ gv_walk g head = GErr x)).
Proof.
  destruct (fixup_pattern o) as (f & Hf & Hfs).
  assert (Hp : at_pattern mini_pcre o (ao_text o) =
    match parse_regex (pattern_text (ao_summary o) (ao_text o)) with
    | Some r => Ok r | None => Er (err_of_pcre (bs "bad pattern")) end).
  { unfold at_pattern, mini_pcre. cbn [rx_new]. by destruct (parse_regex _). }
  unfold at_run. rewrite Hp, Hf.
  destruct (parse_regex (pattern_text (ao_summary o) (ao_text o))) as [r|] eqn:Hr.
  2: { right; left. split; [done|]. by eexists. }
  cbn [rbind]. destruct (gv_revparse g (ao_head o)) as [head|x] eqn:Eh.
  2: { right; right. exists x. auto. }
  cbn [res_of_git rbind]. destruct (gv_walk g head) as [revs|x] eqn:Ew.
  2: { right; right. exists x. split; [done|]. right. by exists head. }
  left. exists r, revs, f. split_and!; [|done|done]. split; [done|]. by exists head.
Qed.

Lemma c42 g o id :
  at_run mini_pcre g o = Ok id <->
  exists r pre rev post, walked g o r (map GOk pre ++ GOk rev :: post) /\
    none_wanted g o r pre /\
    exists m, gv_find_commit g rev = GOk (id, m) /\ wanted o r m.
Proof.
  destruct (at_run_split g o) as [(r & revs & f & Hw & Hf & ->)|[(Hp & t & ->)|(x & -> & Hx)]].
  - rewrite at_loop_ok. split.
    + intros (pre & rev & post & -> & H1 & H2). exists r, pre, rev, post. split; [done|]. split.
      * eapply Forall_impl; [exact H1|]. intros c Hc. by eapply unwanted_mini in Hc.
      * by eapply wanted_mini in H2.
    + intros (r' & pre & rev & post & [Hr' (h' & Hh' & Hw')] & H1 & H2).
      destruct Hw as [Hr (h & Hh & Hw)]. rewrite Hr in Hr'. injection Hr' as <-.
      rewrite Hh in Hh'. injection Hh' as <-. rewrite Hw in Hw'. injection Hw' as ->.
      exists pre, rev, post. split; [done|]. split.
      * eapply Forall_impl; [exact H1|]. intros c Hc. by apply unwanted_mini.
      * by apply wanted_mini.
  - split; [done|]. intros (r' & pre & rev & post & [Hr' _] & _). congruence.
  - split; [done|]. intros (r' & pre & rev & post & [Hr' (h & Hh & Hw)] & _).
    destruct Hx as [?|(h' & ? & ?)]; [congruence|]. rewrite Hh in *. congruence.
Qed.

Lemma c42_none g o :
  at_run mini_pcre g o = Er (err_simple NoSuchRevision) <->
  exists r revs, walked g o r (map GOk revs) /\ none_wanted g o r revs.
Proof.
  destruct (at_run_split g o) as [(r & revs & f & Hw & Hf & ->)|[(Hp & t & ->)|(x & -> & Hx)]].
  - rewrite at_loop_none. split.
    + intros (pre & -> & H1). exists r, pre. split; [done|].
      eapply Forall_impl; [exact H1|]. intros c Hc. by eapply unwanted_mini in Hc.
    + intros (r' & pre & [Hr' (h' & Hh' & Hw')] & H1).
      destruct Hw as [Hr (h & Hh & Hw)]. rewrite Hr in Hr'. injection Hr' as <-.
      rewrite Hh in Hh'. injection Hh' as <-. rewrite Hw in Hw'. injection Hw' as ->.
      exists pre. split; [done|].
      eapply Forall_impl; [exact H1|]. intros c Hc. by apply unwanted_mini.
  - split; [done|]. intros (r' & pre & [Hr' _] & _). congruence.
  - split; [done|]. intros (r' & pre & [Hr' (h & Hh & Hw)] & _).
    destruct Hx as [?|(h' & ? & ?)]; [congruence|]. rewrite Hh in *. congruence.
Qed.

Lemma at_loop_err g o r f revs e :
  at_loop mini_pcre g o r f revs = Er e ->
  e = err_simple NoSuchRevision \/
  exists x, e = err_of_git x /\
    (GErr x ∈ revs \/ exists rev, GOk rev ∈ revs /\ gv_find_commit g rev = GErr x).
Proof.
  induction revs as [|[rev|x] revs IH]; simpl.
  - intros [= <-]. by left.
  - unfold rbind at 1; simpl. destruct (gv_find_commit g rev) as [[i m]|x] eqn:Ef.
    2: { simpl. intros [= <-]. right. exists x. split; [done|]. right. exists rev. split; [by left|done]. }
    simpl. unfold rbind.
    assert (G : at_loop mini_pcre g o r f revs = Er e -> e = err_simple NoSuchRevision \/
      exists x, e = err_of_git x /\
       (GErr x ∈ GOk rev :: revs \/ exists rev0, GOk rev0 ∈ GOk rev :: revs /\ gv_find_commit g rev0 = GErr x)).
    { intros H. destruct (IH H) as [?|(x & ? & Hx)]; [by left|]. right. exists x. split; [done|].
      destruct Hx as [Hx|(rev0 & Hx & Hx')]; [left; by right|]. right. exists rev0. split; [by right|done]. }
    destruct (ao_fixup o); simpl.
    + destruct (search r m); [done|]. exact G.
    + destruct (search f m); simpl; [exact G|]. destruct (search r m); [done|]. exact G.
  - intros [= <-]. right. exists x. split; [done|]. left. by left.
Qed.

Lemma at_run_err g o e :
  at_run mini_pcre g o = Er e ->
  (e = err_simple NoSuchRevision /\ exists r revs, walked g o r (map GOk revs) /\ none_wanted g o r revs) \/
  (exists x, e = err_of_git x /\ git_failed g o x) \/
  (exists t, e = err_of_pcre t /\ parse_regex (pattern_text (ao_summary o) (ao_text o)) = None).
Proof.
  intros H.
  destruct (at_run_split g o) as [(r & revs & f & Hw & Hf & E)|[(Hp & t & E)|(x & E & Hx)]].
  - rewrite E in H. destruct (at_loop_err _ _ _ _ _ _ H) as [->|(x & -> & Hx)].
    + left. split; [done|]. apply c42_none. by rewrite E.
    + right; left. exists x. split; [done|]. destruct Hw as [_ (h & Hh & Hw)].
      right. exists h. split; [done|]. right. by exists revs.
  - right; right. rewrite E in H. injection H as <-. by exists t.
  - right; left. rewrite E in H. injection H as <-. exists x. split; [done|].
    destruct Hx as [?|(h & ? & ?)]; [by left|]. right. exists h. auto.
Qed.

Lemma c43 g o show_code out err shown code :
  at_main mini_pcre g o show_code = AtResult out err shown code ->
  (exists id, at_run mini_pcre g o = Ok id /\ err = [] /\
     if ao_show o then out = [] /\ shown = Some id /\ code = default 3%Z show_code
     else out = id ++ [NL] /\ shown = None /\ code = 0%Z) \/
  (code = 1%Z /\ out = [] /\ shown = None /\ (err = [] <-> ao_quiet o = true) /\
     ((exists r revs, walked g o r (map GOk revs) /\ none_wanted g o r revs) \/
      exists x, git_failed g o x /\ g_code x <> GOther)) \/
  (code = 2%Z /\ out = [] /\ shown = None /\ err <> [] /\
     (parse_regex (pattern_text (ao_summary o) (ao_text o)) = None \/
      exists x, git_failed g o x /\ g_code x = GOther)).
Proof.
  unfold at_main. destruct (at_run mini_pcre g o) as [id|e] eqn:E.
  - intros H. left. exists id. split; [done|].
    destruct (ao_show o); injection H as <- <- <- <-; [|done].
    split_and!; try done.
  - intros H. right.
    assert (Hd : display e ++ [NL] <> []) by (by destruct (display e)).
    destruct (at_run_err _ _ _ E) as [[-> Hn]|[(x & -> & Hx)|(t & -> & Hx)]].
    + left. change (err_fatal (err_simple NoSuchRevision)) with false in H.
      change (exit_code (err_exit_status (err_simple NoSuchRevision))) with 1%Z in H.
      injection H as <- <- <- <-. split_and!; try done; [|by left].
      destruct (ao_quiet o); naive_solver.
    + assert (Hc : err_fatal (err_of_git x) = bool_decide (g_code x = GOther) /\
        exit_code (err_exit_status (err_of_git x)) = if bool_decide (g_code x = GOther) then 2%Z else 1%Z).
      { destruct x as [[] t]; done. }
      destruct Hc as [Hc1 Hc2]. rewrite Hc1, Hc2 in H.
      case_bool_decide as Eg; injection H as <- <- <- <-.
      * right. split_and!; try done. right. by exists x.
      * left. split_and!; try done; [destruct (ao_quiet o); naive_solver|]. right. by exists x.
    + right. change (err_fatal (err_of_pcre t)) with true in H.
      injection H as <- <- <- <-. split_and!; try done. by left.
Qed.

Lemma display_git x : display (err_of_git x) = git_says x.
Proof.
  destruct x as [[] t]; try (by vm_compute).
  unfold display, git_says. cbn [err_of_git g_code g_text err_new e_kind e_int e_msg kind_text internal_text].
  by rewrite (right_id_L [] (++)).
Qed.

Lemma c43_messages g o show_code out err shown code :
  at_main mini_pcre g o show_code = AtResult out err shown code -> err <> [] ->
  (err = bs "fatal: needed a single revision" ++ [NL] /\
     exists r revs, walked g o r (map GOk revs) /\ none_wanted g o r revs) \/
  (exists x, git_failed g o x /\ err = git_says x ++ [NL]) \/
  (parse_regex (pattern_text (ao_summary o) (ao_text o)) = None /\
     exists t, err = bs "fatal: invalid regular expression: " ++ t ++ [NL]).
Proof.
  unfold at_main. destruct (at_run mini_pcre g o) as [id|e] eqn:E.
  - intros H. destruct (ao_show o); injection H as <- <- <- <-; done.
  - intros H Hne.
    assert (Herr : err = display e ++ [NL]).
    { destruct (err_fatal e), (ao_quiet o); injection H as <- <- <- <-; done. }
    rewrite Herr. clear H Hne Herr.
    destruct (at_run_err _ _ _ E) as [[-> Hn]|[(x & -> & Hx)|(t & -> & Hx)]].
    + left. split; [by vm_compute|done].
    + right; left. exists x. by rewrite display_git.
    + right; right. split; [done|]. exists t.
      unfold display. cbn [err_of_pcre err_new e_kind e_int e_msg kind_text internal_text].
      by rewrite (right_id_L [] (++)), <- (assoc_L (++)).
Qed.

Lemma c44 g o p id :
  ao_summary o = true -> parse_regex (ao_text o) = Some p -> (forall a b, p <> RAlt a b) ->
  at_run mini_pcre g o = Ok id ->
  exists rev m, gv_find_commit g rev = GOk (id, m) /\ has_match_in_first_line p m.
Proof.
  intros Hs Hp Ha H. apply c42 in H as (r & pre & rev & post & [Hr _] & _ & m & Hm & [_ Hw]).
  unfold pattern_text in Hr. rewrite Hs in Hr. rewrite (parse_summary _ _ Hp Ha) in Hr.
  injection Hr as <-. exists rev, m. split; [done|]. apply search_spec in Hw.
  apply summary_search in Hw as (i & j & H1 & H2 & H3). by exists i, j.
Qed.

(** Nothing in the first line is missed either. *)
Lemma c44_complete g o p revs :
  ao_summary o = true -> parse_regex (ao_text o) = Some p -> (forall a b, p <> RAlt a b) ->
  (exists head, gv_revparse g (ao_head o) = GOk head /\ gv_walk g head = GOk (map GOk revs)) ->
  at_run mini_pcre g o = Er (err_simple NoSuchRevision) ->
  Forall (fun rev => exists id m, gv_find_commit g rev = GOk (id, m) /\
    ~ ((ao_fixup o = true \/ ~ is_fixup m) /\ has_match_in_first_line p m)) revs.
Proof.
  intros Hs Hp Ha (h & Hh & Hw) H. apply c42_none in H as (r & revs' & [Hr (h' & Hh' & Hw')] & Hn).
  rewrite Hh in Hh'. injection Hh' as <-. rewrite Hw in Hw'. injection Hw' as Hw'.
  assert (revs' = revs) as ->.
  { clear - Hw'. revert revs' Hw'. induction revs as [|a l IH]; intros [|b l'] H; try done.
    simpl in H. injection H as -> H. f_equal. by apply IH. }
  unfold pattern_text in Hr. rewrite Hs in Hr. rewrite (parse_summary _ _ Hp Ha) in Hr.
  injection Hr as <-. eapply Forall_impl; [exact Hn|]. intros rev (id & m & H1 & H2).
  exists id, m. split; [done|]. intros [H3 (i & j & H4 & H5 & H6)]. apply H2. split; [done|].
  apply search_spec, summary_search. by exists i, j.
Qed.

(** Every pattern. *)
Lemma none_wanted_summary g o r revs :
  parse_regex (summary_prefix ++ ao_text o) = Some r ->
  (none_wanted g o r revs <->
   Forall (fun rev => exists id m, gv_find_commit g rev = GOk (id, m) /\ ~ wanted_with_summary o m) revs).
Proof.
  intros Hr. unfold none_wanted, wanted, wanted_with_summary.
  split; intros Hf; (eapply Forall_impl; [exact Hf|]); intros rev (id & m & H1 & H2); exists id, m;
    (split; [done|]); intros [H3 H4]; apply H2; (split; [done|]); by apply (found_summary _ _ _ Hr).
Qed.

Lemma c44_every g o id :
  ao_summary o = true ->
  (at_run mini_pcre g o = Ok id <->
   exists head pre rev post,
     gv_revparse g (ao_head o) = GOk head /\ gv_walk g head = GOk (map GOk pre ++ GOk rev :: post) /\
     Forall (fun rev => exists id m, gv_find_commit g rev = GOk (id, m) /\ ~ wanted_with_summary o m) pre /\
     exists m, gv_find_commit g rev = GOk (id, m) /\ wanted_with_summary o m).
Proof.
  intros Hs. rewrite c42. unfold walked, pattern_text. rewrite Hs. split.
  - intros (r & pre & rev & post & (Hr & head & Hh & Hw) & Hn & m & Hm & H1 & H2).
    exists head, pre, rev, post. split_and!; [done..|by eapply none_wanted_summary|].
    exists m. split; [done|]. split; [done|]. by apply (found_summary _ _ _ Hr).
  - intros (head & pre & rev & post & Hh & Hw & Hn & m & Hm & H1 & H2).
    destruct (found_is_pattern _ _ H2) as [r Hr].
    exists r, pre, rev, post. split_and!; [done|by exists head|by eapply none_wanted_summary|].
    exists m. split; [done|]. split; [done|]. by apply (found_summary _ _ _ Hr).
Qed.

Lemma c44_every_none g o :
  ao_summary o = true ->
  (at_run mini_pcre g o = Er (err_simple NoSuchRevision) <->
   (exists r, alts (ao_text o) r) /\
   exists head revs,
     gv_revparse g (ao_head o) = GOk head /\ gv_walk g head = GOk (map GOk revs) /\
     Forall (fun rev => exists id m, gv_find_commit g rev = GOk (id, m) /\ ~ wanted_with_summary o m) revs).
Proof.
  intros Hs. rewrite c42_none. unfold walked, pattern_text. rewrite Hs. rewrite <- summary_is_pattern. split.
  - intros (r & revs & (Hr & head & Hh & Hw) & Hn). split; [by exists r|].
    exists head, revs. split_and!; [done..|]. by eapply none_wanted_summary.
  - intros ([r Hr] & head & revs & Hh & Hw & Hn). exists r, revs.
    split_and!; [done|by exists head|]. by eapply none_wanted_summary.
Qed.

(** ** git recent-refs *)

Lemma time_lt_spec a b : time_lt a b = true <-> ~ ((b.1 < a.1)%Z \/ (b.1 = a.1 /\ (b.2 <= a.2)%Z)).
Proof.
  unfold time_lt. rewrite orb_true_iff, andb_true_iff, !Z.ltb_lt, Z.eqb_eq. lia.
Qed.

Lemma dated_refs_spec k l : k <> Visited -> dated k l (dated_refs k l).
Proof.
  intros Hk. induction l as [|[[n [t|] [[ct aut]|]]|e] l IH].
  - constructor.
  - destruct k; [done| |].
    + apply (dated_keep Committed). exact IH.
    + apply (dated_keep Authored). exact IH.
  - destruct k; [done| |]; apply dated_no_commit; exact IH.
  - apply dated_symbolic. exact IH.
  - apply dated_symbolic. exact IH.
  - apply dated_err. exact IH.
Qed.

Lemma dated_fun k l ds ds' : dated k l ds -> dated k l ds' -> ds = ds'.
Proof.
  intros H. revert ds'. induction H; intros ds' H'; inversion H'; subst; try done; auto.
  f_equal. auto.
Qed.

Lemma insert_perm x l : insert_desc x l ≡ₚ x :: l.
Proof.
  induction l as [|y l IH]; simpl; [done|]. destruct (time_lt x.1 y.1); [|done].
  rewrite IH. apply Permutation_swap.
Qed.
Lemma sort_perm l : sort_desc l ≡ₚ l.
Proof. induction l as [|x l IH]; simpl; [done|]. by rewrite insert_perm, IH. Qed.

Lemma not_older_trans a b c : not_older a b -> not_older b c -> not_older a c.
Proof. unfold not_older. lia. Qed.

Lemma insert_sorted x l : StronglySorted not_older l -> StronglySorted not_older (insert_desc x l).
Proof.
  induction 1 as [|y l Hs IH Hall]; simpl.
  - repeat constructor.
  - destruct (time_lt x.1 y.1) eqn:E.
    + constructor; [done|]. rewrite insert_perm. constructor; [|done].
      apply time_lt_spec in E. unfold not_older. lia.
    + assert (Hx : not_older x y).
      { unfold not_older. pose proof (time_lt_spec x.1 y.1) as H. rewrite E in H.
        assert (~ ~ ((y.1.1 < x.1.1)%Z \/ (y.1.1 = x.1.1 /\ (y.1.2 <= x.1.2)%Z))) by naive_solver. lia. }
      constructor; [by constructor|]. constructor; [done|].
      eapply Forall_impl; [exact Hall|]. intros z. by apply not_older_trans.
Qed.
Lemma sort_sorted l : StronglySorted not_older (sort_desc l).
Proof. induction l as [|x l IH]; simpl; [constructor|]. by apply insert_sorted. Qed.

Lemma insert_stable t x l :
  filter (fun y => y.1 = t) (insert_desc x l) = filter (fun y => y.1 = t) (x :: l).
Proof.
  induction l as [|y l IH]; [done|]. cbn [insert_desc].
  destruct (time_lt x.1 y.1) eqn:E; [|done].
  rewrite (filter_cons _ y), IH. rewrite !filter_cons.
  assert (Hne : x.1 <> y.1).
  { intros Heq. rewrite Heq in E. apply time_lt_spec in E. lia. }
  repeat case_decide; try done. congruence.
Qed.
Lemma sort_stable t l : filter (fun y => y.1 = t) (sort_desc l) = filter (fun y => y.1 = t) l.
Proof.
  induction l as [|x l IH]; [done|]. cbn [sort_desc]. rewrite insert_stable, !filter_cons, IH. done.
Qed.

Lemma named_omap (l : list (time * ref)) : named (l.*2) (omap (fun x => rf_name x.2) l).
Proof. induction l as [|[t [[n|] tg c]] l IH]; simpl; by constructor. Qed.

Lemma c45 n k v l :
  k <> Visited -> rv_references v = GOk l ->
  exists ds out names, dated k l ds /\
    recent_run n k v = Some (Ok names) /\ named out.*2 names /\
    out ≡ₚ ds /\ StronglySorted not_older out /\
    forall t, filter (fun y => y.1 = t) out = filter (fun y => y.1 = t) ds.
Proof.
  intros Hk Hl. exists (dated_refs k l), (sort_desc (dated_refs k l)),
    (omap (fun x => rf_name x.2) (sort_desc (dated_refs k l))).
  split_and!.
  - by apply dated_refs_spec.
  - unfold recent_run. rewrite Hl. by destruct k.
  - apply named_omap.
  - apply sort_perm.
  - apply sort_sorted.
  - intros t. apply sort_stable.
Qed.

(** The description determines the output. *)
Lemma named_fun l a b : named l a -> named l b -> a = b.
Proof. intros H. revert b. induction H; intros b H'; inversion H'; subst; f_equal; auto. Qed.

Lemma shown_visit v i n : shown_as v i n <-> visit v i = Some n.
Proof.
  unfold shown_as, visit. change (nth_rev i) with (visit_rev i).
  destruct (rv_revparse_ext v (visit_rev i)) as [[id [[m|]|]]|e]; simpl.
  - split; [intros [?|(id' & [= -> ->])]; congruence|]. intros [= ->]. right. by eexists.
  - split; [intros [?|(id' & ?)]; congruence|done].
  - split; [intros [?|(id' & ?)]; congruence|]. intros [= ->]. by left.
  - split; [intros [?|(id' & ?)]; congruence|done].
Qed.

Lemma visited_spec n v i l :
  visited n v i = Some l <->
  (length l < n)%nat /\ (forall j x, l !! j = Some x -> shown_as v (i + j) x) /\
  (forall x, ~ shown_as v (i + length l) x).
Proof.
  setoid_rewrite shown_visit. revert i l. induction n as [|n IH]; intros i l; simpl.
  { split; [done|lia]. }
  destruct (visit v i) as [x|] eqn:E.
  - rewrite fmap_Some. setoid_rewrite IH. split.
    + intros (l' & (H1 & H2 & H3) & ->). split_and!; [simpl; lia|..].
      * intros [|j] y Hy; simpl in Hy.
        -- rewrite Nat.add_0_r. congruence.
        -- rewrite <- Nat.add_succ_comm. by apply H2.
      * simpl. rewrite <- Nat.add_succ_comm. exact H3.
    + intros (H1 & H2 & H3). destruct l as [|y l].
      { simpl in H3. rewrite Nat.add_0_r in H3. by destruct (H3 x). }
      exists l. split_and!.
      * simpl in H1. lia.
      * intros j z Hz. rewrite Nat.add_succ_comm. by apply (H2 (S j)).
      * simpl in H3. rewrite Nat.add_succ_comm. exact H3.
      * specialize (H2 0%nat y eq_refl). rewrite Nat.add_0_r in H2. congruence.
  - split.
    + intros [= <-]. split_and!; [simpl; lia|done|]. simpl. rewrite Nat.add_0_r. congruence.
    + intros (H1 & H2 & H3). destruct l as [|y l]; [done|].
      specialize (H2 0%nat y eq_refl). rewrite Nat.add_0_r in H2. congruence.
Qed.

Lemma c46 n v l :
  recent_run n Visited v = Some (Ok l) <->
  (length l < n)%nat /\ (forall i x, l !! i = Some x -> shown_as v i x) /\
  (forall x, ~ shown_as v (length l) x).
Proof.
  unfold recent_run. rewrite fmap_Some. split.
  - intros (l' & H & [= ->]). by apply visited_spec in H.
  - intros H. exists l. split; [|done]. by apply visited_spec.
Qed.

(** ** Pager *)
Lemma choice_fun e p q : pager_choice e p -> pager_choice e q -> p = q.
Proof. intros H1 H2. inversion H1; inversion H2; congruence. Qed.

Lemma c47 e p : pager_choice e p ->
  pager_new e = if decide (pe_isatty e = 1%Z /\ p <> bs "cat")
                then ToPager [bs "sh"; bs "-c"; p] else ToStdout.
Proof.
  intros Hp. unfold pager_new, find_pager.
  assert (E : default (bs "less") (or (or (pe_git_pager e) (pe_core_pager e)) (pe_pager e)) = p).
  { inversion Hp; simpl;
      repeat match goal with H : _ = Some _ |- _ => rewrite H | H : _ = None |- _ => rewrite H end; done. }
  rewrite E. destruct (pe_isatty e =? 1)%Z eqn:Et; simpl.
  - apply Z.eqb_eq in Et. repeat case_decide; naive_solver.
  - apply Z.eqb_neq in Et. rewrite decide_False by naive_solver. done.
Qed.

Lemma choice_exists e : exists p, pager_choice e p.
Proof.
  destruct (pe_git_pager e) eqn:E1; [eexists; by apply pc_git|].
  destruct (pe_core_pager e) eqn:E2; [eexists; by apply pc_core|].
  destruct (pe_pager e) eqn:E3; [eexists; by apply pc_env|].
  eexists. by apply pc_less.
Qed.

(** ** Refutations *)
Lemma c44_refuted :
  exists g o r m, ao_summary o = true /\ parse_regex (ao_text o) = Some r /\
    (forall rev, exists id, gv_find_commit g rev = GOk (id, m)) /\
    (exists id, at_run mini_pcre g o = Ok id) /\ ~ has_match_in_first_line r m.
Proof.
  set (m := bs "bar" ++ [NL] ++ bs "foo").
  exists (GitView (fun _ => GOk (bs "c")) (fun _ => GOk [GOk (bs "c")]) (fun r => GOk (r, m))).
  exists (AtOpts true false false false (bs "HEAD") (bs "x|foo")).
  eexists. exists m. split; [done|]. split; [by vm_compute|].
  split; [intros rev; by exists rev|]. split; [exists (bs "c"); by vm_compute|].
  intros (i & j & Hi & Hl & H). apply ends_spec in H; [|done].
  assert (Hc : (i <= 3)%nat).
  { destruct (decide (i <= 3)%nat) as [|Hgt]; [done|]. destruct Hl. apply elem_of_list_lookup.
    exists 3%nat. apply lookup_take_Some. split; [done|lia]. }
  destruct i as [|[|[|[|i]]]]; [..|lia]; vm_compute in H; by apply elem_of_nil in H.
Qed.

Lemma c46_refuted :
  exists v, shown_as v 0 (bs "refs/heads/main") /\ shown_as v 2 (bs "refs/heads/dev") /\
    recent_run 3 Visited v = Some (Ok [bs "refs/heads/main"]).
Proof.
  exists (RefsView (GOk []) (fun r =>
    if decide (r = bs "HEAD") then GOk (bs "1", Some (Some (bs "refs/heads/main")))
    else if decide (r = bs "@{-2}") then GOk (bs "2", Some (Some (bs "refs/heads/dev")))
    else GErr (GitErr GNotFound []))).
  split_and!; [right; by eexists|right; by eexists|by vm_compute].
Qed.
