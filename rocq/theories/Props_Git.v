(** Theorems about git at (C42, C43, C44), git recent-refs (C45, C46) and the
    pager choice (C47). *)
From Verif Require Import Bytes Err Transfer GitAt RecentRefs Pager Regex SpecGit SpecRegex RegexRead GitProofs.
From stdpp Require Import sorting.

(** A repository of three commits c, b, a (newest first) for the examples. *)
Definition demo (ma mb mc : bytes) : git_view := GitView
  (fun h => if decide (h = bs "HEAD") then GOk (bs "c") else GErr (GitErr GNotFound (bs "gone")))
  (fun _ => GOk [GOk (bs "c"); GOk (bs "b"); GOk (bs "a")])
  (fun r => GOk (r, if decide (r = bs "a") then ma else if decide (r = bs "b") then mb else mc)).

(** C42.  git at finds [id] exactly when it is the id of the first wanted commit of
    the walk, and reports that there is none exactly when there is none. *)
Theorem C42_first_match g o id :
  at_run mini_pcre g o = Ok id <->
  exists r pre rev post, walked g o r (map GOk pre ++ GOk rev :: post) /\
    none_wanted g o r pre /\
    exists m, gv_find_commit g rev = GOk (id, m) /\ wanted o r m.
Proof. exact (c42 g o id). Qed.
Print Assumptions C42_first_match.

(** The same for any regular-expression library. *)
Theorem C42_first_match_any_library lib g o id :
  at_run lib g o = Ok id <->
  exists regex fixup head pre rev post,
    rx_new lib (pattern_text (ao_summary o) (ao_text o)) = inr regex /\
    rx_new lib (pattern_text (ao_summary o) (bs "\A\s*(?:fixup|squash)!")) = inr fixup /\
    gv_revparse g (ao_head o) = GOk head /\
    gv_walk g head = GOk (map GOk pre ++ GOk rev :: post) /\
    Forall (unwanted_by lib g o regex fixup) pre /\ wanted_by lib g o regex fixup rev id.
Proof. exact (c42_any lib g o id). Qed.
Print Assumptions C42_first_match_any_library.

Theorem C42_no_match g o :
  at_run mini_pcre g o = Er (err_simple NoSuchRevision) <->
  exists r revs, walked g o r (map GOk revs) /\ none_wanted g o r revs.
Proof. exact (c42_none g o). Qed.
Print Assumptions C42_no_match.

Example C42_case :
  let g := demo (bs "find me") (bs "I find you") (bs " squash! find") in
  at_run mini_pcre g (AtOpts false false false false (bs "HEAD") (bs "f(i|x)nd")) = Ok (bs "b") /\
  at_run mini_pcre g (AtOpts false false false true (bs "HEAD") (bs "find")) = Ok (bs "c") /\
  at_run mini_pcre g (AtOpts false false false false (bs "HEAD") (bs "\Afind")) = Ok (bs "a") /\
  at_run mini_pcre g (AtOpts false false false false (bs "HEAD") (bs "nothing"))
    = Er (err_simple NoSuchRevision).
Proof. split_and!; by vm_compute. Qed.

(** C43.  Refuted: a start revision that does not exist also gives exit status 1,
    and with --quiet no message. *)
Theorem C43_exit_status_refuted :
  exists g o, gv_revparse g (ao_head o) = GErr (GitErr GNotFound (bs "gone")) /\
    at_main mini_pcre g o None = AtResult [] [] None 1.
Proof.
  exact (ex_intro _ (demo [] [] []) (ex_intro _ (AtOpts false false true false (bs "nope") (bs "x"))
    (conj eq_refl eq_refl))).
Qed.
Print Assumptions C43_exit_status_refuted.

(** C43, what holds: success prints exactly the id line (or hands the id to git show
    and returns its status); status 1 means no match or an object libgit2 could not
    find, and is silent exactly with --quiet; everything else is status 2 with a
    message.  Nothing else is printed. *)
Theorem C43_exit_status_partial g o show_code out err shown code :
  at_main mini_pcre g o show_code = AtResult out err shown code ->
  (exists id, at_run mini_pcre g o = Ok id /\ err = [] /\
     if ao_show o then out = [] /\ shown = Some id /\ code = default 3%Z show_code
     else out = id ++ [NL] /\ shown = None /\ code = 0%Z) \/
  (code = 1%Z /\ out = [] /\ shown = None /\ (err = [] <-> ao_quiet o = true) /\
     ((exists r revs, walked g o r (map GOk revs) /\ none_wanted g o r revs) \/
      exists x, git_failed g o x /\ g_code x <> GOther)) \/
  (code = 2%Z /\ out = [] /\ shown = None /\ err <> [] /\
     (parse_regex (pattern_text (ao_summary o) (ao_text o)) = None \/
      exists x, git_failed g o x /\ g_code x = GOther)).
Proof. exact (c43 g o show_code out err shown code). Qed.
Print Assumptions C43_exit_status_partial.

(** C43: the messages. *)
Theorem C43_messages g o show_code out err shown code :
  at_main mini_pcre g o show_code = AtResult out err shown code -> err <> [] ->
  (err = bs "fatal: needed a single revision" ++ [NL] /\
     exists r revs, walked g o r (map GOk revs) /\ none_wanted g o r revs) \/
  (exists x, git_failed g o x /\ err = git_says x ++ [NL]) \/
  (parse_regex (pattern_text (ao_summary o) (ao_text o)) = None /\
     exists t, err = bs "fatal: invalid regular expression: " ++ t ++ [NL]).
Proof. exact (c43_messages g o show_code out err shown code). Qed.
Print Assumptions C43_messages.

Example C43_cases :
  let g := demo (bs "find me") (bs "I find you") (bs "x") in
  at_main mini_pcre g (AtOpts false false false false (bs "HEAD") (bs "find")) None
    = AtResult (bs "b" ++ [NL]) [] None 0 /\
  at_main mini_pcre g (AtOpts false false true false (bs "HEAD") (bs "lost")) None
    = AtResult [] [] None 1 /\
  ar_code (at_main mini_pcre g (AtOpts false false true false (bs "HEAD") (bs "(")) None) = 2%Z /\
  at_main mini_pcre g (AtOpts false true false false (bs "HEAD") (bs "find")) (Some 128%Z)
    = AtResult [] [] (Some (bs "b")) 128.
Proof. split_and!; by vm_compute. Qed.

(** C44.  Refuted: the pattern is pasted after "\A[^\n]*", so the second alternative
    of "x|foo" is searched everywhere. *)
Theorem C44_summary_refuted :
  exists g o r m, ao_summary o = true /\ parse_regex (ao_text o) = Some r /\
    (forall rev, exists id, gv_find_commit g rev = GOk (id, m)) /\
    (exists id, at_run mini_pcre g o = Ok id) /\ ~ has_match_in_first_line r m.
Proof. exact c44_refuted. Qed.
Print Assumptions C44_summary_refuted.

(** C44, what holds: for a pattern that is not an alternation at the top level, the
    commit reported has a match that begins in its first line; and if none is
    reported then none has. *)
Theorem C44_summary_partial g o p id :
  ao_summary o = true -> parse_regex (ao_text o) = Some p -> (forall a b, p <> RAlt a b) ->
  at_run mini_pcre g o = Ok id ->
  exists rev m, gv_find_commit g rev = GOk (id, m) /\ has_match_in_first_line p m.
Proof. exact (c44 g o p id). Qed.
Print Assumptions C44_summary_partial.

Theorem C44_summary_complete_partial g o p revs :
  ao_summary o = true -> parse_regex (ao_text o) = Some p -> (forall a b, p <> RAlt a b) ->
  (exists head, gv_revparse g (ao_head o) = GOk head /\ gv_walk g head = GOk (map GOk revs)) ->
  at_run mini_pcre g o = Er (err_simple NoSuchRevision) ->
  Forall (fun rev => exists id m, gv_find_commit g rev = GOk (id, m) /\
    ~ ((ao_fixup o = true \/ ~ is_fixup m) /\ has_match_in_first_line p m)) revs.
Proof. exact (c44_complete g o p revs). Qed.
Print Assumptions C44_summary_complete_partial.

(** C44: what a pattern is.  The reader of patterns takes exactly the texts of the
    grammar in SpecRegex.v, each with the structure that the grammar gives it. *)
Theorem C44_patterns t r : parse_regex t = Some r <-> alts t r.
Proof. exact (read_pattern t r). Qed.
Print Assumptions C44_patterns.

(** C44, what holds for every pattern: the commit found is the first one of the walk
    that is wanted, where the first alternative of the pattern counts in the first
    line only and the others count anywhere. *)
Theorem C44_every_pattern_partial g o id :
  ao_summary o = true ->
  (at_run mini_pcre g o = Ok id <->
   exists head pre rev post,
     gv_revparse g (ao_head o) = GOk head /\ gv_walk g head = GOk (map GOk pre ++ GOk rev :: post) /\
     Forall (fun rev => exists id m, gv_find_commit g rev = GOk (id, m) /\ ~ wanted_with_summary o m) pre /\
     exists m, gv_find_commit g rev = GOk (id, m) /\ wanted_with_summary o m).
Proof. exact (c44_every g o id). Qed.
Print Assumptions C44_every_pattern_partial.

Theorem C44_every_pattern_none_partial g o :
  ao_summary o = true ->
  (at_run mini_pcre g o = Er (err_simple NoSuchRevision) <->
   (exists r, alts (ao_text o) r) /\
   exists head revs,
     gv_revparse g (ao_head o) = GOk head /\ gv_walk g head = GOk (map GOk revs) /\
     Forall (fun rev => exists id m, gv_find_commit g rev = GOk (id, m) /\ ~ wanted_with_summary o m) revs).
Proof. exact (c44_every_none g o). Qed.
Print Assumptions C44_every_pattern_none_partial.

(** A dot does not match the end of a line. *)
Example C44_pattern_case :
  alts (bs "a.*(b|[^cd])") (RSeq (RClass false (bs "a")) (RSeq (RStar (RClass true [NL]))
    (RSeq (RAlt (RSeq (RClass false (bs "b")) REps) (RSeq (RClass true (bs "cd")) REps)) REps))) /\
  (forall r, ~ alts (bs "a**") r) /\ (forall r, ~ alts (bs "(a") r).
Proof.
  split_and!.
  - apply read_pattern. by vm_compute.
  - intros r H. apply read_pattern in H. by vm_compute in H.
  - intros r H. apply read_pattern in H. by vm_compute in H.
Qed.

Example C44_every_pattern_case :
  let o := AtOpts true false false false (bs "HEAD") (bs "x|foo") in
  let g := demo (bs "x") (bs "bar" ++ [NL] ++ bs "foo") (bs "bar" ++ [NL] ++ bs "x") in
  ao_summary o = true /\ at_run mini_pcre g o = Ok (bs "b").
Proof. split; by vm_compute. Qed.

Example C44_case :
  let o := AtOpts true false false false (bs "HEAD") (bs "(x|foo)") in
  let g := demo (bs "some foo") (bs "bar" ++ [NL] ++ bs "foo") (bs "fixup! foo") in
  (exists p, parse_regex (ao_text o) = Some p /\ forall a b, p <> RAlt a b) /\
  at_run mini_pcre g o = Ok (bs "a").
Proof. split; [|by vm_compute]. eexists. split; [by vm_compute|done]. Qed.

(** C45.  With committerdate or authordate the output is the valid names of the
    direct references to commits, each as often as it occurs, not older before
    older, and those of equal date in repository order. *)
Theorem C45_date_order n k v l :
  k <> Visited -> rv_references v = GOk l ->
  exists ds out names, dated k l ds /\
    recent_run n k v = Some (Ok names) /\ named out.*2 names /\
    out ≡ₚ ds /\ StronglySorted not_older out /\
    forall t, filter (fun y => y.1 = t) out = filter (fun y => y.1 = t) ds.
Proof. exact (c45 n k v l). Qed.
Print Assumptions C45_date_order.

Example C45_case :
  let r n t := GOk (Ref (Some n) (Some (bs "id")) (Some ((t, 0), (0 - t, 0))%Z)) in
  let l := [r (bs "old") 1%Z; GErr (GitErr GOther []); r (bs "new") 3%Z; r (bs "old2") 1%Z;
            GOk (Ref (Some (bs "HEAD")) None (Some ((9, 0), (9, 0))%Z));
            GOk (Ref (Some (bs "tree")) (Some (bs "id")) None);
            GOk (Ref None (Some (bs "id")) (Some ((2, 0), (2, 0))%Z))] in
  let v := RefsView (GOk l) (fun _ => GErr (GitErr GNotFound [])) in
  recent_run 0 Committed v = Some (Ok [bs "new"; bs "old"; bs "old2"]) /\
  recent_run 0 Authored v = Some (Ok [bs "old"; bs "old2"; bs "new"]).
Proof. split; by vm_compute. Qed.

(** C46.  Refuted: the output ends at the first position that cannot be shown, e.g. a
    branch deleted since, although the history goes on. *)
Theorem C46_visit_order_refuted :
  exists v, shown_as v 0 (bs "refs/heads/main") /\ shown_as v 2 (bs "refs/heads/dev") /\
    recent_run 3 Visited v = Some (Ok [bs "refs/heads/main"]).
Proof. exact c46_refuted. Qed.
Print Assumptions C46_visit_order_refuted.

(** C46, what holds: the output is what HEAD, @{-1}, @{-2}, ... are shown as, in this
    order, up to the first that cannot be shown; [n] bounds the search. *)
Theorem C46_visit_order_partial n v l :
  recent_run n Visited v = Some (Ok l) <->
  (length l < n)%nat /\ (forall i x, l !! i = Some x -> shown_as v i x) /\
  (forall x, ~ shown_as v (length l) x).
Proof. exact (c46 n v l). Qed.
Print Assumptions C46_visit_order_partial.

Example C46_case :
  let v := RefsView (GOk []) (fun r =>
    if decide (r = bs "HEAD") then GOk (bs "1", Some (Some (bs "refs/heads/a")))
    else if decide (r = bs "@{-1}") then GOk (bs "2", None)
    else GErr (GitErr GNotFound [])) in
  recent_run 9 Visited v = Some (Ok [bs "refs/heads/a"; bs "2"]).
Proof. by vm_compute. Qed.

(** C47.  The pager started, if any; every environment has exactly one choice. *)
Theorem C47_pager_choice e p : pager_choice e p ->
  pager_new e = if decide (pe_isatty e = 1%Z /\ p <> bs "cat")
                then ToPager [bs "sh"; bs "-c"; p] else ToStdout.
Proof. exact (c47 e p). Qed.
Print Assumptions C47_pager_choice.

Theorem C47_choice_exists e : exists p, pager_choice e p.
Proof. exact (choice_exists e). Qed.
Print Assumptions C47_choice_exists.

Example C47_case :
  pager_choice (PagerEnv 1 None (Some (bs "more")) (Some (bs "cat"))) (bs "more") /\
  pager_new (PagerEnv 1 None (Some (bs "more")) (Some (bs "cat")))
    = ToPager [bs "sh"; bs "-c"; bs "more"] /\
  pager_new (PagerEnv 1 None None (Some (bs "cat"))) = ToStdout.
Proof. split; [by apply pc_core|]. split; by vm_compute. Qed.
