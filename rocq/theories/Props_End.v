(** Properties of whole sessions for any input and any failure of system calls:
    they end, with which exit status, and their answers are well formed. *)
From Verif Require Import Bytes Err FS Prog Pktline Args Local Processor Transfer Sha256 Rfc3339
  Spec SpecStore SpecServer SpecEnd PktFacts PktProofs Session Total Transcripts Props_Store Props_Server.

(** ** C35 *)

(** Whatever the input, the file system and the outcomes of system calls: some
    number of steps is enough for every loop, so that a larger bound makes no
    difference.  Two bytes more than the input and one more than the longest file
    are enough. *)
Theorem C35_terminates en lfs cfg op pid os l s bound :
  (length (l_in l) + 2 <= bound)%nat -> files_below bound s ->
  exists out l' s', out <> Failed OutOfFuel /\
    (forall fuel, (bound <= fuel)%nat -> run pid (transfer_main en fuel lfs cfg op) os l s = (out, l', s')).
Proof. exact (c35 en lfs cfg op pid os l s bound). Qed.
Print Assumptions C35_terminates.

(** The exit status is 0 or 2, with a message in the second case; 1 only if the
    configuration of the repository cannot be read. *)
Theorem C35_exit_status en lfs cfg op pid os l s fuel code msg l' s' :
  run pid (transfer_main en fuel lfs cfg op) os l s = (Done (code, msg), l', s') ->
  (code = 0%Z /\ msg = []) \/ (code = 2%Z /\ msg <> []) \/ (code = 1%Z /\ msg <> [] /\ config_failed cfg).
Proof. exact (c35_code en lfs cfg op pid os l s fuel code msg l' s'). Qed.
Print Assumptions C35_exit_status.

(** Sessions with a request cut off, with a broken packet, with a failing write,
    with a failing read in the middle of a request, and with an unreadable
    configuration. *)
Definition main_of (op input : bytes) (os : orcs) (s : fs) : outcome (Z * bytes) * local * fs :=
  run 0 (server op) os (stdin2 input) s.
Definition EIO : ioerr := IoErr KOther (bs "Input/output error (os error 5)").
Definition fails_at (n : nat) : orcs :=
  fun i => if (i =? n)%nat then Orc (Some EIO) 3 (bs "A") 0 else quiet_orc.
Definition no_file : gres config := GErr (GitErr GNotFound (bs "no such file")).
Definition files_belowb (n : nat) (s : fs) : bool := forallb (fun x => length (i_data x) <? n)%nat (inodes s).
Lemma files_below_check n s : files_belowb n s = true -> files_below n s.
Proof.
  unfold files_belowb. rewrite forallb_forall. intros H. apply Forall_forall. intros x Hx.
  apply Nat.ltb_lt, H. by apply elem_of_list_In.
Qed.
Example C35_cases :
  (length (l_in (stdin2 (take 60 put_abc))) + 2 <= 300)%nat /\ files_below 300 fs0 /\ files_below 300 fs_abc /\
  (main_of (bs "upload") (take 60 put_abc) quiet fs0).1.1 = Done (0%Z, []) /\
  (main_of (bs "upload") (bs "000xversion 1") quiet fs0).1.1 =
    Done (2%Z, bs "malformed or unknown pkt-line header" ++ [NL]) /\
  (main_of (bs "download") get_abc (fails_at 8) fs_abc).1.1 =
    Done (2%Z, bs "fatal: I/O error: Input/output error (os error 5)" ++ [NL]) /\
  (main_of (bs "download") get_abc (fails_at 12) fs_abc).1.1 = Done (0%Z, []) /\
  (run 0 (transfer_main test_env 300 lfs_dir no_file (bs "upload")) quiet (stdin2 put_abc) fs0).1.1 =
    Done (1%Z, bs "fatal: needed a single revision" ++ [NL]) /\
  config_failed no_file.
Proof.
  split; [vm_compute; lia|].
  split; [by apply files_below_check; vm_compute|].
  split; [by apply files_below_check; vm_compute|].
  do 5 (split; [by vm_compute|]).
  eexists. split; [|by left]. done.
Qed.

(** ** C39 *)

(** However malformed the requests, and whichever system calls fail: a session
    that exits with status 0 has written the line of capabilities followed by
    complete answers.  Each has one of the statuses of the protocol, argument lines
    "key=value" and no empty line; [replies_sent] says which packets these are. *)
Theorem C39_answers_well_formed en lfs cfg op pid os l s fuel msg l' s' :
  run pid (transfer_main en fuel lfs cfg op) os l s = (Done (0%Z, msg), l', s') ->
  exists rs out, answer_stream rs out /\ l_out l' = l_out l ++ out.
Proof. exact (c39 en lfs cfg op pid os l s fuel msg l' s'). Qed.
Print Assumptions C39_answers_well_formed.

(** An unknown version, an unknown command, a bad number, a malformed argument, an
    object id that is none, and packets that are no commands. *)
Definition bad_requests : bytes :=
  bs "000dversion 20000" ++ bs "000afrobni" ++ bs "0000" ++ bs "000dlist-lock000flimit=many
0000" ++ bs "000dlist-lock000abogus
0000" ++ bs "0012get-object abc0000" ++ bs "0001".
Example C39_case :
  (main_of (bs "download") bad_requests quiet fs0).1.1 = Done (0%Z, []) /\
  l_out (main_of (bs "download") bad_requests quiet fs0).1.2 = bs "000eversion=1
0000000fstatus 400
00010014unknown version
0000000fstatus 400
00010014unknown command
0000000fstatus 400
00010014unknown command
0000000fstatus 400
00010014unknown command
0000000fstatus 400
00010061error: invalid or malformed integer or size value: unexpected value parsing integer: b""many""
0000000fstatus 500
00010054internal error: parse error: unexpected value parsing argument (missing equals)
0000000fstatus 400
00010028error: invalid or malformed LFS oid
0000000fstatus 400
00010014unknown command
0000".
Proof. by vm_compute. Qed.

(** ** C41 *)

(** The exit statuses are in [C35_exit_status].

    Refuted for the answers: a malformed argument, the client's mistake, is
    answered 500 although every system call succeeds; a lock file with corrupt
    contents, the server's trouble, is answered 400. *)
Definition corrupt_lock : fs :=
  FS (<[lfs_dir := NDir]> (<[lfs_dir ++ [bs "locks"] := NDir]>
     (<[lfs_dir ++ [bs "locks"; bs "x"] := NFile 0%nat]> (nodes fs0))))
     [Inode (bs "junk") 1000 420 0%nat false] [].
Theorem C41_status_classes_refuted :
  (exists input, l_out (main_of (bs "download") input quiet fs0).1.2 = bs "000eversion=1
0000000fstatus 500
00010054internal error: parse error: unexpected value parsing argument (missing equals)
0000") /\
  (exists s, l_out (main_of (bs "upload") (bs "000cunlock x0000") quiet s).1.2 = bs "000eversion=1
0000000fstatus 400
0001002derror: corrupt data: invalid parsed lock
0000").
Proof.
  split; [exists (bs "000dlist-lock000abogus
0000")|exists corrupt_lock]; by vm_compute.
Qed.
Print Assumptions C41_status_classes_refuted.

(** What holds: well-formed requests on a repository the server can represent are
    never answered 500 as long as no system call fails.  Missing: malformed
    requests, for which the above is the complete list of exceptions only by
    inspection of the code. *)
Theorem C41_no_internal_error_partial en lfs umask ts (clock : Z -> Prop) m pid os l s w reqs extra fuel :
  setting en lfs ts clock os -> holds en lfs s w -> asks m l reqs extra -> enough fuel l w ->
  exists as_ w' s', served en lfs umask ts clock m pid fuel os l s w reqs as_ extra w' s' /\
    Forall (fun a => rp_code a <> 500%N) as_.
Proof. exact (c41_well_formed en lfs umask ts clock m pid os l s w reqs extra fuel). Qed.
Print Assumptions C41_no_internal_error_partial.
Example C41_case :
  setting test_env lfs_dir (Some noon) (eq noon) quiet /\
  holds test_env lfs_dir fs0 (World ∅ ∅) /\ asks Upload (input_of demo) demo [] /\
  enough 4000 (input_of demo) (World ∅ ∅) /\
  l_out (main_of (bs "download") get_abc (fails_at 13) fs_abc).1.2 = bs "000eversion=1
0000000fstatus 500
00010046internal error: fatal: I/O error: Input/output error (os error 5)
0000".
Proof. 
  split_and!; [exact demo_setting|exact fs0_holds|apply asks_of; by vm_compute|apply enough_of; by vm_compute
              |by vm_compute].
 Qed.
