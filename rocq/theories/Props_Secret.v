(** Uploading clients and the contents of objects: C16. *)
From Verif Require Import Bytes Err FS Prog Pktline Args Local Processor Transfer Sha256 Rfc3339 Transcripts
  PktFacts PktProofs TextProofs Spec SpecStore SpecServer SpecLock SpecSecret SecretProofs Props_Store Props_Server Props_Lock.

(** ** C16 *)

(** An object that looks like the record of a lock for "a", and its id. *)
Definition record5 : bytes := bs "v1:5:a".
Definition oid5 : bytes := bs "c4c3998d845399dd84185aa454c5593b3da9c70095f6b4856d5ba0d5ca59c1ac".
Notation fs_record := (run 0 up quiet (input_of [RPut oid5 [(bs "size", bs "6")] [record5]; lock_a]) fs_dirs).2.
(** The same with other contents in file [j]. *)
Definition with_data (j : nat) (d : bytes) (s : fs) : fs :=
  FS (nodes s) (alter (fun x => Inode d (i_uid x) (i_mode x) (i_creator x) (i_temp x)) j (inodes s)) (hist s).
(** A request to unlock the object. *)
Definition unlock_object (o : bytes) : request :=
  RUnlock (bs "../objects/" ++ take 2 o ++ bs "/" ++ take 2 (drop 2 o) ++ bs "/" ++ o) [].

(** Refuted: the id in an unlock request may lead to an object; if its contents are
    a record of a lock that is held, the answer shows them.  The two repositories
    differ in one byte of one object; the first is the result of an upload. *)
Theorem C16_contents_refuted : exists o j d1 d2 s l,
  is_oid o /\ o = hex_encode (sha256 d1) /\ nodes s !! object_path lfs_dir o = Some (NFile j) /\ fs_data j s = d1 /\ length d1 = length d2 /\
  l_out (run 0 up quiet l s).1.2 <> l_out (run 0 up quiet l (with_data j d2 s)).1.2.
Proof.
  exists oid5, 0%nat, record5, (bs "v1:6:a"), fs_record, (input_of [unlock_object oid5]).
  split; [by apply oid_valid_iff|]. do 4 (split; [by vm_compute|]).
  refine (bool_decide_eq_false_1 _ _). by vm_compute.
Qed.
Print Assumptions C16_contents_refuted.

(** What holds, for any input, any schedule of any number of upload servers, failing
    calls and crashes: the contents of the files make no difference to what the
    servers do and answer, but for the length, and for which lock they are a record
    of, if any.  In particular nothing but its length is seen of an object that does not have
    the form "v1:number:path". *)
Theorem C16_contents_partial cs ps s1 s2 :
  Forall (fun p => is_upload_server (pr_prog p)) ps -> alike_files s1 s2 ->
  procs (sys_run cs (Sys ps s1)) = procs (sys_run cs (Sys ps s2)).
Proof. exact (c16 cs ps s1 s2). Qed.
Print Assumptions C16_contents_partial.

(** An object with the contents "abc" or "xyz" and requests to verify it, upload it
    again, unlock it, and download it. *)
Notation fs_abc_locked := (run 0 up quiet (input_of [RPut abc_oid [(bs "size", bs "3")] [bs "abc"]; lock_a]) fs_dirs).2.
Lemma not_record d : lock_parse d = None -> forall t p, ~ record_text d t p.
Proof. intros H t p Hr. apply lock_parse_iff in Hr. congruence. Qed.
Lemma alike_no_records d1 d2 : length d1 = length d2 -> lock_parse d1 = None -> lock_parse d2 = None -> alike d1 d2.
Proof. intros Hl H1 H2. split; [done|]. intros t p. split; intros H; by apply not_record in H. Qed.
Lemma alike_with_data j d s : length (fs_data j s) = length d -> lock_parse (fs_data j s) = None -> lock_parse d = None ->
  alike_files s (with_data j d s).
Proof.
  intros H1 H2 H3. split; [done|]. split; [done|]. unfold with_data. cbn [inodes]. unfold fs_data, inode_at in *.
  apply Forall2_same_length_lookup. split; [by rewrite alter_length|]. intros i x y Hx Hy.
  destruct (decide (j = i)) as [->|Hne].
  - rewrite list_lookup_alter, Hx in Hy. injection Hy as <-. rewrite Hx in H1, H2. split; [|done].
    by apply alike_no_records.
  - rewrite list_lookup_alter_ne, Hx in Hy by done. injection Hy as <-. by split.
Qed.
Definition snooping : list request :=
  [RVerify abc_oid [(bs "size", bs "3")]; RPut abc_oid [(bs "size", bs "3")] [bs "abc"]; unlock_object abc_oid;
   RList []; RGet abc_oid []].
Example C16_case :
  alike_files fs_abc_locked (with_data 0 (bs "xyz") fs_abc_locked) /\
  fs_data 0 fs_abc_locked = bs "abc" /\ fs_data 0 (with_data 0 (bs "xyz") fs_abc_locked) = bs "xyz" /\
  Forall (fun p => is_upload_server (pr_prog p)) [client snooping; client [lock_a]] /\
  l_out (run 0 up quiet (input_of snooping) fs_abc_locked).1.2 = bs "000eversion=1
0000000fstatus 200
0000000fstatus 200
0000000fstatus 400
0001002derror: corrupt data: invalid parsed lock
0000000fstatus 200
0001004alock c9eac6694eb5c5074c7ded2bd29424e7d2d4e4f1a45b15ba44bdeeeb272fdf5d
004cpath c9eac6694eb5c5074c7ded2bd29424e7d2d4e4f1a45b15ba44bdeeeb272fdf5d a
0069locked-at c9eac6694eb5c5074c7ded2bd29424e7d2d4e4f1a45b15ba44bdeeeb272fdf5d 1970-01-01T00:00:00+00:00
0059ownername c9eac6694eb5c5074c7ded2bd29424e7d2d4e4f1a45b15ba44bdeeeb272fdf5d test user
0050owner c9eac6694eb5c5074c7ded2bd29424e7d2d4e4f1a45b15ba44bdeeeb272fdf5d ours
0000000fstatus 403
00010010not allowed
0000000fstatus 400
00010014unknown command
0000".
Proof.
  split; [apply alike_with_data; by vm_compute|].
  split; [by vm_compute|]. split; [by vm_compute|]. split.
  - repeat apply Forall_cons_2; [..|apply Forall_nil_2]; by exists test_env, 300%nat, lfs_dir, no_config.
  - by vm_compute.
Qed.
