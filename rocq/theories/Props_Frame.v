(** Which packets a request takes from the input: C14. *)
From Verif Require Import Bytes Err FS Prog Pktline Args Local Processor Transfer Sha256 Rfc3339 Transcripts
  PktFacts PktProofs Spec SpecStore SpecServer SpecEnd SpecLock SpecFrame TextProofs Wpr FrameProofs SeqCmd Props_Store Props_Server
  Props_End Props_Lock.

(** ** C14 *)

(** The repository with a lock for "a". *)
Notation fs_locked := (run 0 up quiet (input_of [lock_a]) fs_dirs).2.
(** An upload of the 71 bytes "unlock ..." under a name that is no object id. *)
Definition hidden : request := RPut (bs "none") [(bs "size", bs "71")] [bs "unlock " ++ id_of (bs "a")].

(** Refuted: after refusing the name the server does not read the rest of the
    upload, and takes its packets for commands.  Here it gives four answers instead
    of one, and the uploaded data removes a lock. *)
Theorem C14_refused_upload_refuted : exists o kvs data s l' s',
  ~ is_oid o /\ nodes s !! file_a <> None /\
  run 0 up quiet (input_of [RPut o kvs [data]]) s = (Done (0%Z, []), l', s') /\
  nodes s' !! file_a = None /\
  exists more, l_out l' = bs "000eversion=1
0000000fstatus 400
00010028error: invalid or malformed LFS oid
0000000fstatus 400
00010014unknown command
0000000fstatus 400
00010014unknown command
0000000fstatus 200
" ++ more.
Proof.
  exists (bs "none"), [(bs "size", bs "71")], (bs "unlock " ++ id_of (bs "a")), fs_locked.
  assert (E : exists l' s', run 0 up quiet (input_of [hidden]) fs_locked = (Done (0%Z, []), l', s')).
  { destruct (run 0 up quiet (input_of [hidden]) fs_locked) as [[o l'] s'] eqn:E. exists l', s'. f_equal. f_equal.
    change o with (o, l').1. change (o, l') with (o, l', s').1. rewrite <- E. by vm_compute. }
  destruct E as (l' & s' & E). exists l', s'. split; [by intros [? _]|]. split; [by vm_compute|]. split; [exact E|].
  assert (Es : s' = (run 0 up quiet (input_of [hidden]) fs_locked).2) by by rewrite E.
  assert (El : l' = (run 0 up quiet (input_of [hidden]) fs_locked).1.2) by by rewrite E.
  rewrite Es, El. clear. split; [by vm_compute|]. eexists. vm_compute. done.
Qed.
Print Assumptions C14_refused_upload_refuted.

(** What holds: if the input is a sequence of [takes], i.e. commands of any kind
    with any packets as arguments up to the flush packet, batches, and refused
    commands without what a client may have sent behind them, then a session that
    exits with status 0 gives exactly one answer to each (and one to "quit"),
    whatever system calls fail other than reading the input.  In particular the
    server is never out of step after arguments that do not parse, paths that are
    missing, unknown ids, files that cannot be opened and so on.
    Missing from the property: packets that follow a refused upload, the items of
    a batch with a malformed argument, and arguments of an unknown command.
    (Uploads with a size are in [C71_in_step_partial].) *)
Theorem C14_one_answer_partial en lfs cfg m pid os l s fuel msg l' s' gs inp rest extra :
  run_such reads_well pid (transfer_main en fuel lfs cfg (operation m)) os l s ->
  Forall (takes m) gs -> wires (concat gs) inp -> ending rest extra -> l_in l = inp ++ rest ->
  run pid (transfer_main en fuel lfs cfg (operation m)) os l s = (Done (0%Z, msg), l', s') ->
  exists rs out, answer_stream rs out /\ l_out l' = l_out l ++ out /\ length rs = (length gs + length extra)%nat.
Proof. exact (c14_takes en lfs cfg m pid os l s fuel msg l' s' gs inp rest extra). Qed.
Print Assumptions C14_one_answer_partial.

Definition out_of_order : list (list packet) :=
  [ [PData (bs "frobnicate it")];
    [PData (bs "list-lock"); PData (bs "limit=x"); PDelim; PData []; PFlush];
    [PData (bs "lock"); PData (bs "refname=r"); PFlush];
    [PData (bs "put-object " ++ abc_oid ++ [NL]); PData (bs "size=three" ++ [NL]); PDelim];
    [PData (bs "batch"); PData (bs "transfer"); PDelim];
    [PFlush];
    [PData (bs "verify-object none"); PFlush];
    [PData (bs "unlock ../x" ++ [NL]); PFlush];
    [PData (bs "get-object " ++ abc_oid)] ].
Lemma is_text c : bool_decide (NL ∉ c) = true -> text c c.
Proof. intros H%bool_decide_eq_true. by right. Qed.
Lemma are_before stop qs : forallb (fun q => bool_decide (q <> stop /\ (lenN (payload q) <= 65531)%N)) qs = true -> before stop qs.
Proof. rewrite forallb_forall. intros H. apply Forall_forall. intros q Hq. by apply elem_of_list_In, H, bool_decide_eq_true in Hq. Qed.
Lemma without (x : byte) (y : bytes) : bool_decide (x ∈ y) = false -> x ∉ y.
Proof. by apply bool_decide_eq_false. Qed.
Lemma out_of_order_takes : Forall (takes Upload) out_of_order.
Proof.
  unfold out_of_order. apply Forall_cons. split.
  { apply t_refused with (c := bs "frobnicate it"); [|by apply is_text; vm_compute|by vm_compute].
    apply (rf_unknown_args Upload (bs "frobnicate") (bs "it")); [by apply without; vm_compute|].
    refine (bool_decide_eq_false_1 _ _). by vm_compute. }
  apply Forall_cons. split.
  { apply (t_lines Upload (bs "list-lock") _ [PData (bs "limit=x"); PDelim; PData []]);
      [constructor|by apply is_text; vm_compute|by vm_compute|by apply are_before; vm_compute]. }
  apply Forall_cons. split.
  { apply (t_lines Upload (bs "lock") _ [PData (bs "refname=r")]);
      [constructor|by apply is_text; vm_compute|by vm_compute|by apply are_before; vm_compute]. }
  apply Forall_cons. split.
  { apply (t_put_size Upload abc_oid _ [(bs "size", bs "three")]);
      [done|by apply oid_valid_iff|by left| | |by apply are_before; vm_compute].
    - split; [|apply NoDup_singleton]. apply Forall_singleton. by apply without; vm_compute.
    - intros v n Hv Hn. apply elem_of_list_singleton in Hv. injection Hv as ->.
      assert (Hp : exists e, parse_integer (bs "three") = Er e) by (eexists; by vm_compute).
      destruct Hp as [e Hp]. apply parse_number_er in Hp as [_ Hp]. apply Hp. by exists n. }
  apply Forall_cons. split.
  { apply (t_batch_bad Upload (bs "batch") [PData (bs "transfer")] (PData (bs "transfer")));
      [by apply is_text; vm_compute|by apply are_before; vm_compute|by left|by apply without; vm_compute]. }
  apply Forall_cons. split; [by apply t_control|].
  apply Forall_cons. split.
  { apply (t_lines Upload (bs "verify-object none") _ []);
      [apply (lc_verify (bs "none")); by apply without; vm_compute|by apply is_text; vm_compute|by vm_compute|constructor]. }
  apply Forall_cons. split.
  { apply (t_lines Upload (bs "unlock ../x") _ []);
      [apply (lc_unlock (bs "../x")); by apply without; vm_compute|by left|by vm_compute|constructor]. }
  apply Forall_cons. split; [|constructor].
  apply t_refused with (c := bs "get-object " ++ abc_oid); [|by apply is_text; vm_compute|by vm_compute].
  apply rf_get. by apply without; vm_compute.
Qed.
Example C14_case :
  Forall (takes Upload) out_of_order /\
  run_such reads_well 0 up quiet (stdin2 (enc_all (concat out_of_order))) fs_dirs /\ wires (concat out_of_order) (enc_all (concat out_of_order)) /\
  ending [] [] /\ (main_of (bs "upload") (enc_all (concat out_of_order)) quiet fs_dirs).1.1 = Done (0%Z, []) /\
  l_out (main_of (bs "upload") (enc_all (concat out_of_order)) quiet fs_dirs).1.2 = bs "000eversion=1
0000000fstatus 400
00010014unknown command
0000000fstatus 500
00010055internal error: parse error: unexpected value parsing argument (missing newline)
0000000fstatus 500
00010055internal error: parse error: unexpected value parsing argument (missing newline)
0000000fstatus 400
00010062error: invalid or malformed integer or size value: unexpected value parsing integer: b""three""
0000000fstatus 500
00010054internal error: parse error: unexpected value parsing argument (missing equals)
0000000fstatus 400
00010014unknown command
0000000fstatus 400
00010028error: invalid or malformed LFS oid
0000000fstatus 404
0001000enot found
0000000fstatus 403
00010010not allowed
0000".
Proof.
  split; [apply out_of_order_takes|]. split; [by apply reads_well_ff|].
  split; [apply wires_enc; refine (bool_decide_eq_true_1 _ _); by vm_compute|].
  split; [constructor|]. split; by vm_compute.
Qed.
