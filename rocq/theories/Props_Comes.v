(** Where locks come from and where they go: C104. *)
From Verif Require Import Bytes Err FS Prog Pktline Args Local Processor Transfer Sha256 Rfc3339 Spec SpecStore SpecServer SpecLock
  SpecFrame SpecTalk SpecPerm SpecInput SpecStart SpecTogether SpecRound SpecTruth SpecHeld SpecWorn TruthProofs WornProofs HeldProofs Transcripts
  Props_Store Props_Server Props_End Props_Start Props_Together Props_Talk Props_Held.
From Verif Require Import SpecRound SpecWorn SpecHeld SpecWho SpecComes ComesProofs.

(** ** C104 *)

(** One server, whatever the others do and however its calls end: where it gives a file
    the name of the lock on [p], or takes the name away, it runs the operation "upload".
    The call belongs to a round in which the client asked for the lock and was told that
    it has it (201), or asked for the removal of a lock and was told that this one is
    removed (200); or to the last round, whose answer is not finished. *)
Theorem C104_calls en fuel lfs v m ta d tb x p :
  digest (en_hash en) -> exact (ta ++ d :: tb) ->
  calls (transfer_main en fuel lfs (GOk (libgit2 v)) (operation m)) (ta ++ d :: tb) x ->
  (linked (en_hash en) lfs p d -> m = Upload /\ in_round (locked_as en p) ta d tb) /\
  (unlinked (en_hash en) lfs p d -> m = Upload /\ in_round (unlocked_as en p) ta d tb).
Proof. apply comes_calls. Qed.
Print Assumptions C104_calls.

(** Any number of servers is at work on a repository.  Calls may fail and any of them may
    be killed.  If a file has the name of a lock that it did not have at an earlier
    moment, then one of the servers gave it this name in between, as above. *)
Theorem C104_comes H lfs ps s0 cs1 cs2 p j :
  crew H lfs ps s0 ->
  let s1 := shared (sys_run cs1 (Sys ps s0)) in
  let s2 := shared (sys_run cs2 (sys_run cs1 (Sys ps s0))) in
  nodes s1 !! lock_name H lfs p <> Some (NFile j) -> nodes s2 !! lock_name H lfs p = Some (NFile j) ->
  by_server H lfs ps s0 cs1 cs2 (linked H lfs p) (fun en => locked_as en p).
Proof. intros Hcr. apply (c104 H lfs ps s0 Hcr cs1 cs2 p j). Qed.
Print Assumptions C104_comes.

(** If a file had the name of a lock and has it no more, one of the servers took the name
    away in between, as above. *)
Theorem C104_goes H lfs ps s0 cs1 cs2 p j :
  crew H lfs ps s0 ->
  let s1 := shared (sys_run cs1 (Sys ps s0)) in
  let s2 := shared (sys_run cs2 (sys_run cs1 (Sys ps s0))) in
  nodes s1 !! lock_name H lfs p = Some (NFile j) -> nodes s2 !! lock_name H lfs p <> Some (NFile j) ->
  by_server H lfs ps s0 cs1 cs2 (unlinked H lfs p) (fun en => unlocked_as en p).
Proof. intros Hcr. apply (c104 H lfs ps s0 Hcr cs1 cs2 p j). Qed.
Print Assumptions C104_goes.

(** The servers of C99_case: the first one locks "b" and is killed, the other one removes
    the lock. *)
Example C104_case :
  crew sha256 lfs_dir two_lockers fs0 /\
  let y1 := sys_run locked_first (Sys two_lockers fs0) in
  let y2 := sys_run asked_then y1 in
  nodes fs0 !! lock_name sha256 lfs_dir (bs "b") = None /\
  nodes (shared y1) !! lock_name sha256 lfs_dir (bs "b") = Some (NFile 1) /\
  nodes (shared y2) !! lock_name sha256 lfs_dir (bs "b") = None.
Proof.
  cbn zeta. pose proof (proj1 C99_case) as Hw. split_and!; [split; [exact Hw|]|vm_compute; reflexivity..].
  repeat constructor; exists Upload; by exists test_env, 300%nat, Unset.
Qed.
(** While the answer is not finished: the call is made, and the server is killed. *)
Example C104_open :
  let y1 := sys_run (map (fun n => Choice 0 (AGo (fails_at 20 n))) (seq 0 41) ++ [Choice 0 ACrash]) (Sys two_lockers fs0) in
  nodes (shared y1) !! lock_name sha256 lfs_dir (bs "b") = Some (NFile 1) /\
  out_of y1 0 = Some (bs "000eversion=1
0000000fstatus 500
00010046internal error: fatal: I/O error: Input/output error (os error 5)
0000").
Proof. cbn zeta. split; vm_compute; reflexivity. Qed.
