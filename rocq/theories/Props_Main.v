(** The programs from the command line on: C53 to C57. *)
From stdpp Require Import sorting.
From Verif Require Import Bytes Err FS Prog Local Transfer Sha256 Rfc3339 Transcripts GitAt RecentRefs Regex
  SpecGit Main SpecMain SpecStore SpecTalk MainProofs Props_Store Props_Git.

(** ** C53 *)

(** git at finds the commit its manual page promises, and prints it or gives it to
    git show. *)
Theorem C53_found g a id show_code : at_utf8 a ->
  finds g a id <->
  at_process mini_pcre (GOk g) (Parsed a) show_code =
    Some (if aa_show a then AtResult [] [] (Some id) (default 3%Z show_code) else AtResult (id ++ [NL]) [] None 0).
Proof. exact (c53 g a id show_code). Qed.
Print Assumptions C53_found.

(** If there is none it exits with status 1, silently if asked to. *)
Theorem C53_not_found g a show_code : at_utf8 a -> finds_none g a ->
  at_process mini_pcre (GOk g) (Parsed a) show_code =
    Some (AtResult [] (if aa_quiet a then [] else bs "fatal: needed a single revision" ++ [NL]) None 1).
Proof. exact (c53_none g a show_code). Qed.
Print Assumptions C53_not_found.

Example C53_case :
  let g := demo (bs "find me") (bs "I find you") (bs " squash! find") in
  at_utf8 (AtArgs false false false true None (bs "find")) /\
  at_process mini_pcre (GOk g) (Parsed (AtArgs false false false true None (bs "find"))) None =
    Some (AtResult (bs "b" ++ [NL]) [] None 0) /\
  at_process mini_pcre (GOk g) (Parsed (AtArgs false false false false None (bs "find"))) None =
    Some (AtResult (bs "c" ++ [NL]) [] None 0) /\
  at_process mini_pcre (GOk g) (Parsed (AtArgs false true false true (Some (bs "HEAD")) (bs "find"))) (Some 7%Z) =
    Some (AtResult [] [] (Some (bs "b")) 7).
Proof. split_and!; [by split|by vm_compute..]. Qed.
Example C53_none_case :
  let g := demo (bs "find me") (bs "I find you") (bs " squash! find") in
  finds_none g (AtArgs false false false true None (bs "lost")).
Proof. apply finds_none_run. by vm_compute. Qed.

(** ** C54 *)

(** git recent-refs, by default or with --sort=visitdate: HEAD, @{-1}, @{-2}, ... up
    to the first that cannot be shown, one on a line. *)
Theorem C54_visited n s v out err code : sorts_by s Visited ->
  recent_process n (Parsed s) (GOk v) = RDone out err code <->
  exists l, out = as_lines l /\ err = [] /\ code = 0%Z /\
    (length l < n)%nat /\ (forall i x, l !! i = Some x -> shown_as v i x) /\ (forall x, ~ shown_as v (length l) x).
Proof. exact (c54_visited n s v out err code). Qed.
Print Assumptions C54_visited.

(** With --sort=committerdate or --sort=authordate: the names of the direct references
    to commits, by that date. *)
Theorem C54_dated n s k v l : sorts_by s k -> k <> Visited -> rv_references v = GOk l ->
  exists ds out names, dated k l ds /\
    recent_process n (Parsed s) (GOk v) = RDone (as_lines names) [] 0 /\ named out.*2 names /\
    out ≡ₚ ds /\ StronglySorted not_older out /\
    forall t, filter (fun y => y.1 = t) out = filter (fun y => y.1 = t) ds.
Proof. exact (c54_dated n s k v l). Qed.
Print Assumptions C54_dated.

(** If references cannot be read: nothing but this message on standard error. *)
Theorem C54_error n s k v e : sorts_by s k -> k <> Visited -> rv_references v = GErr e ->
  recent_process n (Parsed s) (GOk v) =
    RDone [] (git_says e ++ [NL]) (match g_code e with GNotFound | GConflict => 1 | GOther => 2 end).
Proof. exact (c54_error n s k v e). Qed.
Print Assumptions C54_error.

Definition two_refs : refs_view :=
  RefsView (GOk [GOk (Ref (Some (bs "old")) (Some (bs "1")) (Some ((1, 0), (4, 0))%Z));
                 GOk (Ref (Some (bs "new")) (Some (bs "2")) (Some ((3, 0), (2, 0))%Z))])
    (fun r => if decide (r = bs "HEAD") then GOk (bs "1", Some (Some (bs "refs/heads/a")))
              else if decide (r = bs "@{-1}") then GOk (bs "2", None)
              else GErr (GitErr GNotFound [])).
Example C54_case :
  recent_process 9 (Parsed None) (GOk two_refs) = RDone (bs "refs/heads/a
2
") [] 0 /\
  recent_process 9 (Parsed (Some (bs "committerdate"))) (GOk two_refs) = RDone (bs "new
old
") [] 0 /\
  recent_process 9 (Parsed (Some (bs "authordate"))) (GOk two_refs) = RDone (bs "old
new
") [] 0.
Proof. split_and!; by vm_compute. Qed.

(** ** C55 *)

(** Without a repository the programs print the error of libgit2 on standard error and
    exit with status 4; a server makes no system call. *)
Theorem C55_no_repository :
  (forall lib e a c, at_process lib (GErr e) (Parsed a) c = Some (AtResult [] (g_text e ++ [NL]) None 4)) /\
  (forall n s e, recent_process n (Parsed s) (GErr e) = RDone [] (g_text e ++ [NL]) 4) /\
  (forall en fuel dir op open e tr x, open dir = GErr e ->
     calls (transfer_process en fuel (Parsed (dir, op)) open) tr x ->
     tr = [] /\ (x = None \/ x = Some (Some (4%Z, g_text e ++ [NL])))).
Proof.
  split_and!; [done|done|]. intros en fuel dir op open e tr x Ho. unfold transfer_process. rewrite Ho.
  destruct tr; [by intros [-> | ->]; auto|done].
Qed.
Print Assumptions C55_no_repository.

(** Otherwise the process is that of [transfer_main] in the directory lfs of the
    git directory. *)
Theorem C55_server pid en fuel dir op open git_dir cfg os l s :
  open dir = GOk (git_dir, cfg) -> utf8_valid op = true ->
  run pid (transfer_process en fuel (Parsed (dir, op)) open) os l s =
  match run pid (transfer_main en fuel (git_dir ++ [bs "lfs"]) cfg op) os l s with
  | (Done r, l', s') => (Done (Some r), l', s')
  | (Failed f, l', s') => (Failed f, l', s')
  end.
Proof. exact (c55_run pid en fuel dir op open git_dir cfg os l s). Qed.
Print Assumptions C55_server.

Definition open_repo (dir : bytes) : gres (path * gres config) :=
  if decide (dir = bs "/repo") then GOk ([bs "repo"; bs ".git"], no_config) else GErr (GitErr GNotFound (bs "no repository")).
Example C55_case :
  (run 0 (transfer_process test_env 300 (Parsed (bs "/nowhere", bs "upload")) open_repo) quiet (stdin2 put_abc) fs0).1.1 =
    Done (Some (4%Z, bs "no repository" ++ [NL])) /\
  [bs "repo"; bs ".git"] ++ [bs "lfs"] = lfs_dir /\
  nodes (run 0 (transfer_process test_env 300 (Parsed (bs "/repo", bs "upload")) open_repo) quiet (stdin2 put_abc) fs0).2
    !! object_path lfs_dir abc_oid = Some (NFile 0).
Proof. split_and!; by vm_compute. Qed.

(** ** C56 *)

(** Refuted: git at looks for a repository before it looks at its options, so that
    --help fails outside of one. *)
Theorem C56_help_refuted :
  exists lib repo out, at_process lib repo (Exits out [] 0) None = Some (AtResult [] (bs "could not find repository" ++ [NL]) None 4).
Proof. exists mini_pcre, (GErr (GitErr GNotFound (bs "could not find repository"))), (bs "git-at"). done. Qed.
Print Assumptions C56_help_refuted.

(** The other two print what they are asked for anywhere, and so does git at in a
    repository. *)
Theorem C56_help_partial out err code :
  (forall lib g c, at_process lib (GOk g) (Exits out err code) c = Some (AtResult out err None code)) /\
  (forall n repo, recent_process n (Exits out err code) repo = RDone out err code) /\
  (forall pid en fuel open os l s, o_fault (os 0%nat) = None ->
     exists l', run pid (transfer_process en fuel (Exits out err code) open) os l s = (Done (Some (code, err)), l', s) /\
       l_out l' = l_out l ++ out).
Proof.
  split_and!; [done|done|]. intros pid en fuel open os l s H. unfold transfer_process, call, bind. cbn [run].
  cbn [handle_ev]. rewrite H. by eexists.
Qed.
Print Assumptions C56_help_partial.
Example C56_case : o_fault (quiet 0%nat) = None.
Proof. done. Qed.

(** ** C57 *)

(** Refuted: git at and git-lfs-transfer panic if an argument is not UTF-8. *)
Theorem C57_no_panic_refuted :
  (exists lib g a c, at_process lib (GOk g) (Parsed a) c = None) /\
  (exists en fuel dir op open pid os l s, (run pid (transfer_process en fuel (Parsed (dir, op)) open) os l s).1.1 = Done None).
Proof.
  split.
  - exists mini_pcre, (demo [] [] []), (AtArgs false false false false None [Byte.xff]), None. by vm_compute.
  - exists test_env, 300%nat, (bs "/repo"), [Byte.xff], open_repo, 0%nat, quiet, (stdin2 []), fs0. by vm_compute.
Qed.
Print Assumptions C57_no_panic_refuted.

(** With arguments in UTF-8, as clap has let them through, none of the three does. *)
Theorem C57_no_panic_partial :
  (forall lib repo args c, (forall a, args = Parsed a -> at_utf8 a) -> at_process lib repo args c <> None) /\
  (forall n args repo, (forall s, args = Parsed s -> exists k, sorts_by s k) -> recent_process n args repo <> RPanic) /\
  (forall en fuel args open pid os l s, (forall dir op, args = Parsed (dir, op) -> utf8_valid op = true) ->
     (run pid (transfer_process en fuel args open) os l s).1.1 <> Done None).
Proof.
  split_and!.
  - intros lib [g|e] [a|out err code] c H; try done. unfold at_process. by rewrite (program_utf8 a (H a eq_refl)).
  - intros n [s|out err code] [v|e] H; try done. destruct (H s eq_refl) as [k Hk]. unfold recent_process.
    rewrite (sorts_program _ _ Hk). by destruct (recent_main n k v) as [[[? ?] ?]|].
  - intros en fuel [[dir op]|out err code] open pid os l s H.
    + specialize (H dir op eq_refl). destruct (open dir) as [[gd cfg]|e] eqn:Eo.
      * rewrite (C55_server _ _ _ _ _ _ _ _ _ _ _ Eo H). by destruct (run _ _ _ _ _) as [[[r|f] l'] s'].
      * unfold transfer_process. by rewrite Eo.
    + unfold transfer_process, call, bind. cbn [run]. by destruct (handle_ev pid (EOut out) (os 0%nat) l s) as [[r l'] s'].
Qed.
Print Assumptions C57_no_panic_partial.
Example C57_case :
  (forall a, Parsed (AtArgs true true true true (Some (bs "v1")) (bs "fix")) = Parsed a -> at_utf8 a) /\
  (forall s, Parsed (Some (bs "authordate")) = Parsed s -> exists k, sorts_by s k) /\
  (forall dir op, Parsed (bs "/repo", bs "upload") = Parsed (dir, op) -> utf8_valid op = true).
Proof.
  split_and!.
  - intros a [= <-]. split; [done|]. by intros r [= <-].
  - intros s [= <-]. exists Authored. constructor.
  - by intros dir op [= <- <-].
Qed.
