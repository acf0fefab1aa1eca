(** How a server begins, and which permissions it gives. *)
From Verif Require Import Bytes Err FS Prog Pktline Args Local Processor Transfer Sha256 Rfc3339 Spec SpecStore SpecServer SpecTalk
  SpecPerm SpecStart StartProofs Transcripts Props_Upload Props_Store Props_Server Props_Lock Props_Calls Props_Talk.

(** ** C40 *)

(** Whatever the server is asked and whatever calls fail: the permissions it gives a
    file are those of 0777 left by the umask which core.sharedRepository asks for, or
    which was there before, and that umask has been set and not been changed since. *)
Theorem C40_chmod en fuel lfs v op tr p m r tr' x :
  calls (transfer_main en fuel lfs (GOk (libgit2 v)) op) (tr ++ existT (EChmod p m) r :: tr') x ->
  exists u, started lfs (asked v) tr u /\ perm_bits m u.
Proof. by intros [[]|H]%c94. Qed.
Print Assumptions C40_chmod.

(** An upload in a shared repository, and in one that is not, with the umask 022. *)
Definition server_with (v : setting_value) (op : bytes) : prog (Z * bytes) :=
  transfer_main test_env 300 lfs_dir (GOk (libgit2 v)) op.
Example C40_chmod_case :
  (exists tr tr', calls (server_with (Text (bs "group")) (bs "upload"))
     (tr ++ existT (EChmod (object_path lfs_dir abc_oid) 504) (IOk tt) :: tr')
     (result_of 0 (server_with (Text (bs "group")) (bs "upload")) quiet (stdin2 put_abc) fs0) /\ length tr = 22%nat) /\
  (exists tr tr', calls (server_with Unset (bs "upload"))
     (tr ++ existT (EChmod (object_path lfs_dir abc_oid) 493) (IOk tt) :: tr')
     (result_of 0 (server_with Unset (bs "upload")) quiet (stdin2 put_abc) fs0) /\ length tr = 23%nat) /\
  l_umask (stdin2 put_abc) = 18%N /\ asked (Text (bs "group")) = Some 7%N /\ asked Unset = None.
Proof. split_and!; [apply run_split; vm_compute; reflexivity..|done|done|done]. Qed.

(** ** C93 *)

(** Nothing but the umask, the directories and the line of capabilities before all of
    these are done without an error: no byte is read from the client and no file is
    opened or made. *)
Theorem C93_first_things_first en fuel lfs v op tr e r tr' x :
  calls (transfer_main en fuel lfs (GOk (libgit2 v)) op) (tr ++ existT e r :: tr') x ->
  introduces lfs e \/ exists u, started lfs (asked v) tr u.
Proof.
  intros [H|H]%c94; [by left|]. right. destruct e; try done. destruct H as (u & H & _). by exists u.
Qed.
Print Assumptions C93_first_things_first.

(** The tenth call is the end of the beginning, the eleventh reads. *)
Example C93_case :
  exists tr n r tr', calls (server_with Unset (bs "upload")) (tr ++ existT (ERead n) r :: tr')
     (result_of 0 (server_with Unset (bs "upload")) quiet (stdin2 put_abc) fs0) /\ length tr = 10%nat.
Proof.
  edestruct run_split as (tr & tr' & H & L); [|eexists tr, _, _, tr'; split; [exact H|exact L]]. vm_compute. reflexivity.
Qed.

(** ** C94 *)

(** With any other operation than these two, a server does nothing but this, and then
    fails: because a call has failed, or else with this message. *)
Theorem C94_other_operation en fuel lfs v op tr x :
  op <> bs "upload" -> op <> bs "download" ->
  calls (transfer_main en fuel lfs (GOk (libgit2 v)) op) tr x ->
  (forall e r, existT e r ∈ tr -> introduces lfs e) /\
  forall code msg, x = Some (code, msg) ->
    code <> 0%Z /\ msg <> [] /\
    (stopped tr \/ exists um u, tr = um ++ announced lfs /\ masks (asked v) um u /\
       code = 2%Z /\ msg = bs "unknown command or operation" ++ [NL]).
Proof.
  intros H1 H2 H. pose proof (other_main en fuel lfs v op H1 H2) as Hm. split.
  - intros e r Hin. apply elem_of_list_split in Hin as (tr1 & tr2 & ->). apply (hist_calls _ _ _ _ _ _ _ _ Hm H).
  - intros code msg ->. pose proof (hist_end _ _ _ _ _ _ Hm H) as (Hc & Hs & Ho). cbn [app fst snd] in Hc, Hs, Ho. split_and!; [done|done|].
    destruct Ho as [Ho|(um & u & -> & Hu & [= -> ->])]; [by left|]. right. by exists um, u.
Qed.
Print Assumptions C94_other_operation.

Example C94_case :
  bs "Upload" <> bs "upload" /\ bs "Upload" <> bs "download" /\
  calls (server_with Unset (bs "Upload")) (calls_of 0 (server_with Unset (bs "Upload")) quiet (stdin2 put_abc) fs0)
    (Some (2%Z, bs "unknown command or operation" ++ [NL])) /\
  length (calls_of 0 (server_with Unset (bs "Upload")) quiet (stdin2 put_abc) fs0) = 10%nat.
Proof.
  split_and!; [done|done| |by vm_compute].
  assert (E : result_of 0 (server_with Unset (bs "Upload")) quiet (stdin2 put_abc) fs0 = Some (2%Z, bs "unknown command or operation" ++ [NL]))
    by by vm_compute.
  rewrite <- E. apply calls_of_result.
Qed.
