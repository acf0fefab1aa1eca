(** Objects in the order of the calls that put and remove them: C108. *)
From Verif Require Import Bytes Err FS Prog Pktline Args Local Processor Transfer Sha256 Rfc3339 Spec SpecStore SpecServer
  SpecFrame SpecTalk SpecPerm SpecInput SpecStart SpecTogether SpecRound SpecTruth SpecPower SpecWorn SpecPrune SpecWho SpecComes TextProofs PowerProofs WornProofs PruneProofs WhoProofs ExactProofs Rg RoundFacts Transcripts
  Props_Store Props_Server Props_End Props_Together Props_Power Props_Worn Props_Prune.
From Verif Require Import SpecWho SpecComes SpecLedger.

(** ** C108 *)

(** Any number of servers is at work on a repository, beside any number of programs that
    may remove objects at any time.  Calls may fail and any of them may be killed.  An
    object is there at a later moment if and only if, of the calls made in between, the
    last one that puts it in its place or removes it puts it there, or there is none and
    the object was there before. *)
Theorem C108_now H lfs ps s0 cs1 cs2 o :
  company H lfs ps s0 -> is_oid o ->
  let y1 := sys_run cs1 (Sys ps s0) in
  (exists d, has_file (shared (sys_run cs2 y1)) (object_path lfs o) d) <->
  still_there lfs o (exists d, has_file (shared y1) (object_path lfs o) d) (everyone cs2 y1).
Proof. apply c108_now. Qed.
Print Assumptions C108_now.

(** An object that is removed twice was put in its place in between. *)
Theorem C108_alternate H lfs ps s0 cs1 c cs2 c' o i j d d' :
  company H lfs ps s0 -> is_oid o ->
  let y1 := sys_run cs1 (Sys ps s0) in
  let y2 := sys_run cs2 (sys_step y1 c) in
  d ∈ made i y1 c -> taken lfs o d -> d' ∈ made j y2 c' -> taken lfs o d' ->
  exists k, placed lfs o (history k cs2 (sys_step y1 c)).
Proof. apply c108_alternate. Qed.
Print Assumptions C108_alternate.

(** The servers of C101_case: "abc" is put in its place, removed, put there again and
    removed again. *)
Local Notation abc_place := (object_path lfs_dir abc_oid).
Example C108_case :
  company sha256 lfs_dir beside fs0 /\ is_oid abc_oid /\
  let y0 := Sys beside fs0 in
  let y1 := sys_run (goes 1 22 ++ goes 2 1) y0 in
  let y2 := sys_run (goes 1 60 ++ goes 3 1) (sys_step y1 (go 2)) in
  made 2 y1 (go 2) = [existT (EUnlink abc_place) (IOk tt)] /\
  made 3 y2 (go 3) = [existT (EUnlink abc_place) (IOk tt)] /\
  is_Some (nodes (shared y1) !! abc_place) /\
  nodes (shared (sys_step y1 (go 2))) !! abc_place = None /\
  is_Some (nodes (shared y2) !! abc_place) /\
  nodes (shared (sys_step y2 (go 3))) !! abc_place = None.
Proof.
  destruct C101_case as (Hc & _ & Ho & _). cbn zeta.
  split_and!; [done|done|vm_compute; reflexivity|vm_compute; reflexivity| |vm_compute; reflexivity| |vm_compute; reflexivity];
    eexists; vm_compute; reflexivity.
Qed.
