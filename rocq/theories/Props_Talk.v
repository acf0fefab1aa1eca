(** Properties of the dialogue between a server and its client, for any answers of
    the system. *)
From Verif Require Import Bytes Err FS Prog Pktline Args Local Processor Transfer Sha256 Rfc3339
  Spec SpecStore SpecServer SpecEnd SpecTalk TalkProofs GoneProofs Transcripts Props_Store Props_Server Props_End.

(** ** C49 *)

(** Whatever the system answers: between a write to the client and the next attempt
    to read from it, the output has been flushed successfully. *)
Theorem C49_flushed_before_waiting en fuel lfs cfg op tr w tr' d x :
  calls (transfer_main en fuel lfs cfg op) (tr ++ w :: tr' ++ [d]) x -> writes w -> waits d -> flushed ∈ tr'.
Proof. exact (c49 en fuel lfs cfg op tr w tr' d x). Qed.
Print Assumptions C49_flushed_before_waiting.

(** A server that exits with status 0 has flushed all it has written. *)
Theorem C49_flushed_at_end en fuel lfs cfg op tr w tr' msg :
  calls (transfer_main en fuel lfs cfg op) (tr ++ w :: tr') (Some (0%Z, msg)) -> writes w -> flushed ∈ tr'.
Proof. exact (c49_end en fuel lfs cfg op tr w tr' msg). Qed.
Print Assumptions C49_flushed_at_end.

(** Every run makes such calls.  In a download of one object the server writes
    after its first request and reads again afterwards; it ends with status 0. *)
Definition kind_of_call (d : done_call) : nat :=
  match projT1 d with EOut _ => 1 | ERead _ => 2 | EFlush => 3 | _ => 0 end.
Fixpoint result_of {A} (pid : nat) (p : prog A) (os : orcs) (l : local) (s : fs) : option A :=
  match p with
  | Ret a => Some a
  | Fail _ => None
  | Vis e k => let '(r, l', s') := handle_ev pid e (os 0%nat) l s in result_of pid (k r) (fun n => os (S n)) l' s'
  end.
Lemma calls_of_result {A} pid (p : prog A) os l s : calls p (calls_of pid p os l s) (result_of pid p os l s).
Proof.
  revert os l s. induction p as [a|f|e k IH]; intros os l s; cbn [calls_of result_of].
  - by right.
  - done.
  - pose proof (Rg.handle_resp_ok pid e (os 0%nat) l s) as Hr. destruct (handle_ev pid e (os 0%nat) l s) as [[r l'] s']. exists r. by split_and!.
Qed.
Example C49_case :
  calls (server (bs "download")) (calls_of 0 (server (bs "download")) quiet (stdin2 get_abc) fs_abc) (Some (0%Z, [])) /\
  filter (fun n => n <> 0)%nat (map kind_of_call (calls_of 0 (server (bs "download")) quiet (stdin2 get_abc) fs_abc)) =
    [1; 1; 1; 3; 2; 2; 2; 1; 1; 1; 1; 1; 1; 1; 1; 3; 2]%nat.
Proof.
  split.
  - assert (E : result_of 0 (server (bs "download")) quiet (stdin2 get_abc) fs_abc = Some (0%Z, [])) by by vm_compute.
    rewrite <- E. apply calls_of_result.
  - by vm_compute.
Qed.

(** ** C50 *)

(** A server among any number of other processes of any kind, in any interleaving,
    with any failing calls, killed at any point or stopped by a panic: what it has
    written is the beginning of the line of capabilities followed by well-formed
    answers. *)
Theorem C50_output_well_begun y cs i p p' :
  procs y !! i = Some p -> fresh_server p -> procs (sys_run cs y) !! i = Some p' ->
  well_begun (l_out (pr_local p')).
Proof. exact (c50 y cs i p p'). Qed.
Print Assumptions C50_output_well_begun.

(** If it has ended with status 0, its answers are complete. *)
Theorem C50_output_complete y cs i p p' msg :
  procs y !! i = Some p -> fresh_server p -> procs (sys_run cs y) !! i = Some p' ->
  pr_prog p' = Ret (0%Z, msg) -> exists rs, answer_stream rs (l_out (pr_local p')).
Proof. exact (c50_end y cs i p p' msg). Qed.
Print Assumptions C50_output_complete.

(** Two downloads take turns; the first is killed while it answers, a write of the
    second fails halfway. *)
Definition two_downloads : sys (Z * bytes) :=
  let p := Proc (server (bs "download")) (stdin2 get_abc) false in Sys [p; p] fs_abc.
Definition turns (n : nat) : list choice :=
  concat (replicate n [Choice 0 (AGo quiet_orc); Choice 1 (AGo quiet_orc)]).
Definition ended_by (i : nat) (y : sys (Z * bytes)) : option (Z * bytes) :=
  match pr_prog <$> procs y !! i with Some (Ret x) => Some x | _ => None end.
Definition told_by (i : nat) (y : sys (Z * bytes)) : option bytes :=
  (fun p => l_out (pr_local p)) <$> procs y !! i.
Example C50_case :
  let y := sys_run (turns 22 ++ [Choice 0 ACrash; Choice 1 (AGo (Orc (Some EIO) 3 (bs "A") 0))] ++ turns 9) two_downloads in
  Forall fresh_server (procs two_downloads) /\
  told_by 0 y = Some (bs "000eversion=1
0000000fstatus 200
000bsize=3
0001") /\
  told_by 1 y = Some (bs "000eversion=1
0000000fstatus 200
000bsize=3
0001000").
Proof.
  split; [|split; by vm_compute].
  repeat constructor; exists test_env, 300%nat, lfs_dir, no_config, (bs "download"); done.
Qed.
Example C50_complete_case :
  let y := sys_run (turns 40) two_downloads in
  ended_by 0 y = Some (0%Z, []) /\ ended_by 1 y = Some (0%Z, []) /\
  told_by 0 y = Some (bs "000eversion=1
0000000fstatus 200
000bsize=3
00010007abc0000").
Proof. split_and!; by vm_compute. Qed.

(** ** C83 *)

(** Whatever the system answers: a write to the client or a flush that fails is the last
    call the server makes.  If it ends, then with status 2 and a message. *)
Theorem C83_stops_when_output_fails en fuel lfs cfg op tr d tr' x :
  calls (transfer_main en fuel lfs cfg op) (tr ++ d :: tr') x -> failed_write d ->
  tr' = [] /\ forall r, x = Some r -> exists t, r = (2%Z, bs "fatal: I/O error: " ++ t ++ [NL]).
Proof. exact (c83 en fuel lfs cfg op tr d tr' x). Qed.
Print Assumptions C83_stops_when_output_fails.

(** The client of a download leaves after the size has been sent. *)
Definition leaves_at (n : nat) : orcs := fun k =>
  if (k =? n)%nat then Orc (Some (IoErr KOther (bs "Broken pipe (os error 32)"))) 0 [] 0 else quiet k.
Example C83_case :
  let tr := calls_of 0 (server (bs "download")) (leaves_at 22) (stdin2 get_abc) fs_abc in
  calls (server (bs "download")) tr (Some (2%Z, bs "fatal: I/O error: fatal: I/O error: Broken pipe (os error 32)" ++ [NL])) /\
  length tr = 23%nat /\ match last tr with Some d => failed_write d | None => False end.
Proof.
  cbv zeta. split; [|split; [by vm_compute|vm_compute; eexists; reflexivity]].
  assert (E : result_of 0 (server (bs "download")) (leaves_at 22) (stdin2 get_abc) fs_abc =
    Some (2%Z, bs "fatal: I/O error: fatal: I/O error: Broken pipe (os error 32)" ++ [NL])) by by vm_compute.
  rewrite <- E. apply calls_of_result.
Qed.
