(** What a server says of locks was so while it worked on the request, whatever fails
    and whoever else is at work. *)
From Verif Require Import Bytes Err FS Prog Pktline Args Local Processor Transfer Sha256 Rfc3339 Spec SpecStore SpecServer SpecLock
  SpecFrame SpecTalk SpecPerm SpecInput SpecStart SpecTogether SpecRound SpecTruth SpecHeld SpecWorn TruthProofs WornProofs HeldProofs Transcripts
  Props_Store Props_Server Props_End Props_Start Props_Together Props_Talk.
From Verif Require Import SpecRound SpecWorn SpecHeld.

(** ** C99 *)

(** A server is one of many at work on a repository whose objects may hold anything.
    Calls may fail and servers may be killed at any time, this one too.  The steps are some of those before
    the first request, or all of those, then those of requests with answers, and then
    steps in which this server flushes no output, or answers "quit".  In the steps of
    each request its server has found or done what the answer says of locks, one after
    the other: a lock is granted when the draft of the record gets the free name of the
    lock; one that is told of had its name, then its record, then its owner; a list has
    the names of the directory of one moment, and then all locks under them that were
    still there and could be read; one that was removed had its name, and then lost it;
    and one that is not there had no name, or was gone when its name was to be removed,
    or the system said so when a call failed. *)
Theorem C99_said_was_so en fuel lfs v m l ps s0 i cs :
  workers (en_hash en) lfs ps s0 ->
  ps !! i = Some (Proc (transfer_main en fuel lfs (GOk (libgit2 v)) (operation m)) l false) ->
  let y0 := Sys ps s0 in
  (forall e r, existT e r ∈ history i cs y0 -> introduces lfs e) \/
  exists um u c1 c2 c3 new p, cs = c1 ++ c2 ++ c3 /\ history i c1 y0 = um ++ announced lfs /\ masks (asked v) um u /\
    honest_rounds en lfs u m i c2 (sys_run c1 y0) [] new /\
    (let rest := history i c3 (sys_run (c1 ++ c2) y0) in flushed ∉ rest \/ farewell rest) /\
    procs (sys_run cs y0) !! i = Some p /\
    (l_out l ++ bs "000eversion=1" ++ [NL] ++ bs "0000" ++ spoken (history i c2 (sys_run c1 y0))) `prefix_of` l_out (pr_local p).
Proof. intros Hsv Hi. exact (c99 en lfs ps s0 Hsv fuel v m l i cs Hi). Qed.
Print Assumptions C99_said_was_so.

(** A lock that has its name has it until the file is removed. *)
Theorem C99_stands en lfs ps s0 cs1 cs2 p j :
  workers (en_hash en) lfs ps s0 ->
  nodes (shared (sys_run cs1 (Sys ps s0))) !! lock_at en lfs p = Some (NFile j) ->
  nodes (shared (sys_run (cs1 ++ cs2) (Sys ps s0))) !! lock_at en lfs p = Some (NFile j) \/
  exists t c t', cs2 = t ++ c :: t' /\ nodes (shared (sys_run (cs1 ++ t) (Sys ps s0))) !! lock_at en lfs p = Some (NFile j) /\
    nodes (shared (sys_run (cs1 ++ t ++ [c]) (Sys ps s0))) !! lock_at en lfs p = None.
Proof. intros Hsv. exact (c99_stands en lfs ps s0 Hsv cs1 cs2 p j). Qed.
Print Assumptions C99_stands.

Definition locker (m : mode) (reqs : list request) : proc (Z * bytes) :=
  Proc (server_with Unset (operation m)) (input_of reqs) false.
(** A server whose first attempt to lock "b" fails locks it at the second attempt and is
    killed.  Another one is told of the lock, lists it, removes it and is told that it
    is not there. *)
Definition two_lockers : list (proc (Z * bytes)) :=
  [locker Upload [lock_of (bs "b"); lock_of (bs "b")];
   locker Upload [lock_of (bs "b"); RList []; RUnlock (id_of (bs "b")) []; RUnlock (id_of (bs "b")) []]].
Definition locked_first : list choice := map (fun n => Choice 0 (AGo (fails_at 20 n))) (seq 0 60) ++ [Choice 0 ACrash].
Definition asked_then : list choice := map (fun n => Choice 1 (AGo (quiet 0))) (seq 0 120).
Example C99_case :
  workers sha256 lfs_dir two_lockers fs0 /\
  two_lockers !! 0%nat = Some (Proc (transfer_main test_env 300 lfs_dir (GOk (libgit2 Unset)) (operation Upload)) (input_of [lock_of (bs "b"); lock_of (bs "b")]) false) /\
  two_lockers !! 1%nat = Some (Proc (transfer_main test_env 300 lfs_dir (GOk (libgit2 Unset)) (operation Upload))
    (input_of [lock_of (bs "b"); RList []; RUnlock (id_of (bs "b")) []; RUnlock (id_of (bs "b")) []]) false) /\
  out_of (sys_run (locked_first ++ asked_then) (Sys two_lockers fs0)) 0 = Some (bs "000eversion=1
0000000fstatus 500
00010046internal error: fatal: I/O error: Input/output error (os error 5)
0000000fstatus 201
0048id=73b6a671c66efeb43a35cd79a0057df1a2c0ea8a5141e341101728e3179b5f04
000bpath=b
0028locked-at=1970-01-01T00:00:00+00:00
0018ownername=test user
0000") /\
  out_of (sys_run (locked_first ++ asked_then) (Sys two_lockers fs0)) 1 = Some (bs "000eversion=1
0000000fstatus 409
0048id=73b6a671c66efeb43a35cd79a0057df1a2c0ea8a5141e341101728e3179b5f04
000bpath=b
0028locked-at=1970-01-01T00:00:00+00:00
0018ownername=test user
0001000dconflict
0000000fstatus 200
0001004alock 73b6a671c66efeb43a35cd79a0057df1a2c0ea8a5141e341101728e3179b5f04
004cpath 73b6a671c66efeb43a35cd79a0057df1a2c0ea8a5141e341101728e3179b5f04 b
0069locked-at 73b6a671c66efeb43a35cd79a0057df1a2c0ea8a5141e341101728e3179b5f04 1970-01-01T00:00:00+00:00
0059ownername 73b6a671c66efeb43a35cd79a0057df1a2c0ea8a5141e341101728e3179b5f04 test user
0050owner 73b6a671c66efeb43a35cd79a0057df1a2c0ea8a5141e341101728e3179b5f04 ours
0000000fstatus 200
0048id=73b6a671c66efeb43a35cd79a0057df1a2c0ea8a5141e341101728e3179b5f04
000bpath=b
0028locked-at=1970-01-01T00:00:00+00:00
0018ownername=test user
0000000fstatus 404
0001000enot found
0000") /\
  nodes (shared (sys_run locked_first (Sys two_lockers fs0))) !! lock_at test_env lfs_dir (bs "b") = Some (NFile 1) /\
  nodes (shared (sys_run (locked_first ++ asked_then) (Sys two_lockers fs0))) !! lock_at test_env lfs_dir (bs "b") = None.
Proof.
  split_and!; [|done|done|vm_compute; reflexivity..].
  split.
  - exact sha256_ok.
  - repeat constructor; try done; by (refine (bool_decide_eq_true_1 _ _); vm_compute).
  - exact fs0_ordinary.
  - repeat constructor; by eexists test_env, 300%nat, (GOk (libgit2 Unset)), _.
Qed.
