(** System calls that fail: C71, C72, C73. *)
From Verif Require Import Bytes Err FS Prog Pktline Args Local Processor Transfer Sha256 Rfc3339 Transcripts
  PktFacts PktProofs Spec SpecStore SpecServer SpecEnd SpecLock SpecFrame TextProofs Wpr FrameProofs UploadSure FailProofs SeqCmd
  Props_Store Props_Server Props_End Props_Lock Props_Frame Props_Together.

(** The call number [n] of the server fails for want of space. *)
Definition full (n : nat) : orcs :=
  fun k => if decide (k = n) then Orc (Some (IoErr KOther (bs "No space left on device (os error 28)"))) 0 (bs "x") 0 else quiet k.

(** ** C71 *)

(** A well-formed upload of a file with the text "unlock ...". *)
Definition sly_text : bytes := bs "unlock " ++ id_of (bs "a").
Definition sly : request := upload_of sly_text.
Lemma sly_well_formed : well_formed Upload sly.
Proof.
  unfold sly, upload_of. split; [done|]. split; [apply args_of; by vm_compute|]. split; [apply oid_valid_iff; by vm_compute|].
  split.
  - destruct (number_of (dec (lenN sly_text))) as [n Hn]; [by vm_compute|]. exists (dec (lenN sly_text)), n. split; [by left|done].
  - apply Forall_singleton. by vm_compute.
Qed.

(** Refuted: when no temporary file can be created, the server answers 500 without
    reading the data, and takes the data for commands.  Here a file uploaded to a full
    disk removes a lock, and one request has two answers. *)
Theorem C71_in_step_refuted : exists d r os s l' s',
  r = RPut (hex_encode (sha256 d)) [(bs "size", dec (lenN d))] [d] /\ well_formed Upload r /\
  run_such reads_well 0 up os (input_of [r]) s /\ nodes s !! file_a <> None /\
  run 0 up os (input_of [r]) s = (Done (0%Z, []), l', s') /\
  nodes s' !! file_a = None /\
  exists more, l_out l' = bs "000eversion=1
0000000fstatus 500
0001004cinternal error: fatal: I/O error: No space left on device (os error 28)
0000000fstatus 200
" ++ more.
Proof.
  exists sly_text, sly, (full 15), fs_locked.
  assert (E : exists l' s', run 0 up (full 15) (input_of [sly]) fs_locked = (Done (0%Z, []), l', s')).
  { destruct (run 0 up (full 15) (input_of [sly]) fs_locked) as [[o l'] s'] eqn:E. exists l', s'. f_equal. f_equal.
    change o with (o, l').1. change (o, l') with (o, l', s').1. rewrite <- E. by vm_compute. }
  destruct E as (l' & s' & E). exists l', s'. split; [reflexivity|]. split; [apply sly_well_formed|].
  split; [vm_compute; repeat split|].
  split; [by vm_compute|]. split; [exact E|].
  assert (Es : s' = (run 0 up (full 15) (input_of [sly]) fs_locked).2) by by rewrite E.
  assert (El : l' = (run 0 up (full 15) (input_of [sly]) fs_locked).1.2) by by rewrite E.
  rewrite Es, El. clear. split; [by vm_compute|]. eexists. vm_compute. reflexivity.
Qed.
Print Assumptions C71_in_step_refuted.

(** What holds: if the input is read, temporary files can be created and written,
    then whatever other calls fail, the server stays in step: a session that exits
    with status 0 gives one answer to each request, uploads of any content included.
    Missing from the property: failures to create the temporary file or to write
    to it, after which the rest of the upload is taken for commands; failures to read. *)
Theorem C71_in_step_partial en lfs cfg m pid os l s fuel msg l' s' gs inp rest extra :
  run_such stores_well pid (transfer_main en fuel lfs cfg (operation m)) os l s ->
  Forall (fun g => takes m g \/ takes_upload m g) gs -> wires (concat gs) inp -> ending rest extra -> l_in l = inp ++ rest ->
  run pid (transfer_main en fuel lfs cfg (operation m)) os l s = (Done (0%Z, msg), l', s') ->
  exists rs out, answer_stream rs out /\ l_out l' = l_out l ++ out /\ length rs = (length gs + length extra)%nat.
Proof. exact (c71 en lfs cfg m pid os l s fuel msg l' s' gs inp rest extra). Qed.
Print Assumptions C71_in_step_partial.

(** The rename of the first upload fails, and its data is not taken for a command. *)
Definition after_sly : list (list packet) := [packets_of sly; [PFlush]].
Example C71_case :
  run_such stores_well 0 up (full 21) (stdin2 (enc_all (concat after_sly))) fs_locked /\
  Forall (fun g => takes Upload g \/ takes_upload Upload g) after_sly /\
  wires (concat after_sly) (enc_all (concat after_sly)) /\ ending [] [] /\
  (main_of (bs "upload") (enc_all (concat after_sly)) (full 21) fs_locked).1.1 = Done (0%Z, []) /\
  l_out (main_of (bs "upload") (enc_all (concat after_sly)) (full 21) fs_locked).1.2 = bs "000eversion=1
0000000fstatus 500
0001006einternal error: fatal: I/O error: failed to persist temporary path: No space left on device (os error 28)
0000000fstatus 400
00010014unknown command
0000".
Proof.
  split; [vm_compute; repeat (split; [by eauto|]); done|].
  split.
  { apply Forall_cons. split; [right|apply Forall_singleton; left; by apply t_control].
    destruct (number_of (dec (lenN sly_text))) as [n Hn]; [by vm_compute|].
    apply (tu Upload (oid_of sly_text) _ [(bs "size", dec (lenN sly_text))] (dec (lenN sly_text)) n [sly_text] PFlush);
      [done|apply oid_valid_iff; by vm_compute|by left|apply args_of; by vm_compute|by left|done|by apply are_before; vm_compute| |by left].
    apply Forall_singleton. by vm_compute. }
  split; [apply wires_enc; refine (bool_decide_eq_true_1 _ _); by vm_compute|].
  split; [constructor|]. split; by vm_compute.
Qed.

(** ** C72 *)

(** One server among any others, while any calls of any server fail: if a put-object
    is answered with 200, the object is in the store and has the right content when
    all is said and done, whatever the others do afterwards. *)
Theorem C72_answered_is_stored H lfs cs ps s0 i en umask ts fuel rb l0 o tl w wl :
  digest H -> Forall plain_name lfs -> sane s0 -> store_ok H lfs s0 -> en_hash en = H ->
  Forall (fun p => exists q, is_server H lfs q /\ pr_prog p = (let! _ := q in Ret None)) (delete i ps) ->
  ps !! i = Some (Proc (let! x := process_one en (Backend lfs umask ts) fuel Upload rb in Ret (Some x)) l0 false) ->
  wire (PData (bs "put-object " ++ o ++ [NL])) w -> SP ∉ o -> l_in l0 = w ++ tl ->
  wire (PData (bs "status 200" ++ [NL])) wl ->
  forall rb' l' dead wt,
  procs (sys_run cs (Sys ps s0)) !! i = Some (Proc (Ret (Some (Next rb'))) l' dead) ->
  l_out l' = l_out l0 ++ wl ++ wt ->
  is_oid o /\ exists d, has_file (shared (sys_run cs (Sys ps s0))) (object_path lfs o) d /\ hex_of (H d) o.
Proof. exact (c72 H lfs cs ps s0 i en umask ts fuel rb l0 o tl w wl). Qed.
Print Assumptions C72_answered_is_stored.

(** Two uploads of one object at a time. *)
Definition two_up : list (proc (option next)) :=
  [Proc (let! x := process_one test_env (Backend lfs_dir 18 None) 300 Upload rb_empty in Ret (Some x))
     (stdin2 put_abc) false;
   Proc (let! _ := server (bs "upload") in Ret None) (stdin2 put_abc) false].
Example C72_case :
  Forall (fun p => exists q, is_server sha256 lfs_dir q /\ pr_prog p = (let! _ := q in Ret None)) (delete 0%nat two_up) /\
  wire (PData (bs "put-object " ++ abc_oid ++ [NL])) (take 80 put_abc) /\
  exists rb' l', procs (sys_run (turns 40) (Sys two_up fs_dirs)) !! 0%nat = Some (Proc (Ret (Some (Next rb'))) l' false) /\
  l_out l' = bs "000fstatus 200
0000".
Proof.
  split; [|split].
  - repeat constructor. exists (server (bs "upload")). split; [|done]. by eexists test_env, 300%nat, no_config, _.
  - assert (E : take 80 put_abc = enc (PData (bs "put-object " ++ abc_oid ++ [NL]))) by by vm_compute.
    rewrite E. apply wire_enc. by vm_compute.
  - eexists _, _. split; by vm_compute.
Qed.

(** ** C73 *)

(** A server alone answers the upload of "abc", and the calls number [n] fails. *)
Definition put_round : prog next := process_one test_env (Backend lfs_dir 18 None) 300 Upload rb_empty.

(** Refuted: setting the permissions happens after the object is in place. *)
Theorem C73_refused_is_unchanged_refuted : exists os s s' l' rb',
  sane s /\ run 0 put_round os (stdin2 put_abc) s = (Done (Next rb'), l', s') /\
  l_out l' = bs "000fstatus 500
0001004cinternal error: fatal: I/O error: No space left on device (os error 28)
0000" /\
  (forall d, ~ has_file s (object_path lfs_dir abc_oid) d) /\
  has_file s' (object_path lfs_dir abc_oid) (bs "abc").
Proof.
  exists (full 13), fs_dirs.
  destruct (run 0 put_round (full 13) (stdin2 put_abc) fs_dirs) as [[r l'] s'] eqn:E.
  assert (Es : s' = (run 0 put_round (full 13) (stdin2 put_abc) fs_dirs).2) by by rewrite E.
  assert (El : l' = (run 0 put_round (full 13) (stdin2 put_abc) fs_dirs).1.2) by by rewrite E.
  assert (Ed : exists rb', r = Done (Next rb')).
  { assert (Ed : exists rb', (run 0 put_round (full 13) (stdin2 put_abc) fs_dirs).1.1 = Done (Next rb')) by (eexists; vm_compute; reflexivity).
    by rewrite E in Ed. }
  destruct Ed as [rb' ->].
  exists s', l', rb'. split; [apply dirs_sane|]. split; [done|]. rewrite Es, El. clear. split; [by vm_compute|]. split.
  - intros d (j & x & Hj & _). revert Hj. by vm_compute.
  - eexists _, _. split; [by vm_compute|]. split; by vm_compute.
Qed.
Print Assumptions C73_refused_is_unchanged_refuted.

(** What holds: a server alone, any calls may fail but those that set permissions
    (and what they need to know): if the put-object is answered, and not with 200,
    the objects are what they were.
    Missing from the property: failures to set permissions; other servers, which
    may of course store the object themselves. *)
Theorem C73_refused_is_unchanged_partial en lfs umask ts fuel pid os rb l0 s0 o w tl wl rb' l' s' :
  Forall plain_name lfs -> sane s0 ->
  wire (PData (bs "put-object " ++ o ++ [NL])) w -> SP ∉ o -> l_in l0 = w ++ tl ->
  wire (PData (bs "status 200" ++ [NL])) wl ->
  let p := process_one en (Backend lfs umask ts) fuel Upload rb in
  run_such permits_well pid p os l0 s0 -> run pid p os l0 s0 = (Done (Next rb'), l', s') ->
  (forall wt, l_out l' <> l_out l0 ++ wl ++ wt) ->
  forall o' d, is_oid o' -> has_file s' (object_path lfs o') d <-> has_file s0 (object_path lfs o') d.
Proof. exact (c73 en lfs umask ts fuel pid os rb l0 s0 o w tl wl rb' l' s'). Qed.
Print Assumptions C73_refused_is_unchanged_partial.

(** The rename fails, so that the answer is 500. *)
Example C73_case :
  run_such permits_well 0 put_round (full 11) (stdin2 put_abc) fs_dirs /\
  (exists rb' l', (run 0 put_round (full 11) (stdin2 put_abc) fs_dirs).1 = (Done (Next rb'), l') /\
    l_out l' = bs "000fstatus 500
0001006einternal error: fatal: I/O error: failed to persist temporary path: No space left on device (os error 28)
0000") /\
  nodes (run 0 put_round (full 11) (stdin2 put_abc) fs_dirs).2 !! object_path lfs_dir abc_oid = None.
Proof.
  split; [vm_compute; repeat (split; [by eauto|]); done|]. split; [|by vm_compute]. eexists _, _. split; by vm_compute.
Qed.
