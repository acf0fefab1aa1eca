(** Properties of uploads for any input: what a refused upload leaves behind, what
    a cut-off request does, and the permissions of stored files. *)
From Verif Require Import Bytes Err FS Prog Pktline Args Local Processor Transfer Sha256
  Spec SpecStore SpecServer SpecUpload SpecPerm Wp PktFacts PktProofs ReaderFacts Eof UploadAny PermProofs
  Transcripts Props_Store Props_Server.

(** ** C19 *)

(** put-object, whatever the id and the rest of the input: if it is refused, there
    is no new file, in particular no temporary one, and all files are as before;
    directories are as before too, unless storing the object itself failed. *)
Theorem C19_refused_upload en lfs umask ts fuel o rb pid os l s e rb' l' s' :
  Forall plain_name lfs -> lfs_dirs s lfs -> (forall n, works (os n)) ->
  run pid (p_put_object en (Backend lfs umask ts) fuel o rb) os l s = (Done (Er e, rb'), l', s') ->
  same_files s s' /\ (nodes s' = nodes s \/ e_kind e = IOError).
Proof.
  intros Hlfs Hd Hos E.
  pose proof (wp_run _ _ _ _ _ l s (er_put en lfs umask ts pid fuel Hlfs o rb l s Hd) os Hos) as H.
  rewrite E in H. destruct (H e eq_refl) as [? ?]. done.
Qed.
Print Assumptions C19_refused_upload.

(** Accepting is the only other result: the object is then stored, with the right
    hash, whatever system calls failed. *)
Theorem C19_accepted_upload en lfs umask ts fuel o rb pid os l s st rb' l' s' :
  Forall plain_name lfs ->
  run pid (p_put_object en (Backend lfs umask ts) fuel o rb) os l s = (Done (Ok st, rb'), l', s') ->
  is_oid o /\ exists d, has_file s' (object_path lfs o) d /\ hex_of (en_hash en d) o.
Proof.
  intros Hlfs E.
  pose proof (wp_run _ _ _ _ _ l s (ok_put en lfs umask ts pid fuel Hlfs o rb l s) os (fun _ => I)) as H.
  rewrite E in H. destruct (H st eq_refl) as (_ & Ho & j & x & H1 & H2 & H3 & _).
  split; [done|]. exists (i_data x). split; [|done]. by exists j, x.
Qed.
Print Assumptions C19_accepted_upload.

(** Wrong size, wrong hash, no size, no end, a broken packet, a bad id. *)
Definition put_on (o input : bytes) : outcome (res status * rbuf) * local * fs :=
  run 0 (p_put_object test_env (Backend lfs_dir 18 None) 300 o rb_empty) quiet (stdin2 input) fs_dirs.
Definition refused (x : outcome (res status * rbuf) * local * fs) : option ekind :=
  match x.1.1 with Done (Er e, _) => Some (e_kind e) | _ => None end.
Example C19_cases :
  map (fun x => refused (put_on x.1 x.2))
    [(abc_oid, bs "000bsize=4
00010007abc0000"); (zero_oid, bs "000bsize=3
00010007abc0000"); (abc_oid, bs "0007a=b00010007abc0000"); (abc_oid, bs "000bsize=3
00010007abc"); (abc_oid, bs "000bsize=3
000100x7abc0000"); (bs "abc", bs "000bsize=3
00010007abc0000"); (abc_oid, bs "000bsize=3
00010007abc0000")] =
    [Some MissingData; Some CorruptData; Some ParseError; Some IOError; Some IOError; Some InvalidLFSOid; None] /\
  lfs_dirs fs_dirs lfs_dir /\ works quiet_orc.
Proof.
  split; [by vm_compute|]. split; [exact C15_directories|]. split; [done|].
  refine (bool_decide_eq_true_1 _ _). by vm_compute.
Qed.

(** ** C36 *)

(** A lock request is carried out although its flush packet never came. *)
Theorem C36_complete_requests_refuted :
  exists ps kvs, packets_of (RLock kvs) = ps ++ [PFlush] /\ PFlush ∉ ps /\
    let x := session (bs "upload") (enc_all (packets_of RVersion ++ ps)) fs0 in
    finished x = true /\ contents (lfs_dir ++ [bs "locks"; id_of (bs "a")]) fs0 = None /\
    contents (lfs_dir ++ [bs "locks"; id_of (bs "a")]) (final_fs x) = Some (bs "v1:1000684800:a").
Proof.
  exists (removelast (packets_of (lock_of (bs "a")))), [(bs "path", bs "a"); (bs "refname", bs "refs/heads/main")]. split; [by vm_compute|].
  split; [|cbv zeta; by split_and!; vm_compute].
  intros H. repeat (apply elem_of_cons in H as [?|H]; [done|]). by apply elem_of_nil in H.
Qed.
Print Assumptions C36_complete_requests_refuted.

(** An upload is accepted only if all of its input was there: if put-object
    accepts after having consumed the bytes [c], it accepts no proper prefix of
    [c], the system behaving the same.  [rb] are bytes read ahead. *)
Theorem C36_upload_complete_partial en lfs umask ts fuel o rb pid os l s st rb' l' s' :
  buffer_ok rb ->
  run pid (p_put_object en (Backend lfs umask ts) fuel o rb) os l s = (Done (Ok st, rb'), l', s') ->
  exists c, l_in l = c ++ l_in l' /\
    forall c1 c2, c = c1 ++ c2 -> c2 <> [] -> forall st2 rb2 l2 s2,
      run pid (p_put_object en (Backend lfs umask ts) fuel o rb) os (set_in c1 l) s <> (Done (Ok st2, rb2), l2, s2).
Proof. exact (c36_put en (Backend lfs umask ts) fuel o rb pid os l s st rb' l' s'). Qed.
Print Assumptions C36_upload_complete_partial.

Definition accepted (x : outcome (res status * rbuf) * local * fs) : bool :=
  match x.1.1 with Done (Ok _, _) => true | _ => false end.
Example C36_cases :
  let inp := bs "000bsize=3
00010006ab0005c0000" in
  buffer_ok rb_empty /\ accepted (put_on abc_oid inp) = true /\ l_in (put_on abc_oid inp).1.2 = [] /\
  map (fun n => accepted (put_on abc_oid (take n inp))) (seq 0 30) = replicate 30 false.
Proof. split_and!; [done|done|by vm_compute..]. Qed.

(** ** C40 *)

(** For core.sharedRepository = 0640 the umask should be 0027, it is 0007. *)
Theorem C40_umask_refuted :
  exists v u, documented v = ByMode 416 /\ umask_for (documented v) 18 = 23%N /\
    run 0 (set_permissions (GOk (libgit2 v))) quiet (stdin2 []) fs0 = (Done (Ok u), set_umask u (stdin2 []), fs0) /\
    u = 7%N.
Proof. exists (Text (bs "0640")). eexists. split_and!; by vm_compute. Qed.
Print Assumptions C40_umask_refuted.

(** For every value but an octal mode, the umask is the documented one; for a mode
    other than 0000 it is that of "group", for 0000 it is left as it is. *)
Theorem C40_umask_partial v pid os l s :
  let u := match documented v with
           | ByMode m => umask_for (if (m =? 0)%N then ByUmask else ByGroup) (l_umask l)
           | x => umask_for x (l_umask l)
           end in
  run pid (set_permissions (GOk (libgit2 v))) os l s = (Done (Ok u), set_umask u l, s).
Proof. exact (run_set_permissions v pid os l s). Qed.
Print Assumptions C40_umask_partial.

Example C40_values :
  map (fun v => documented v)
    [Unset; NoValue; Text (bs "group"); Text (bs "TRUE"); Text (bs "1"); Text (bs "umask"); Text (bs "off"); Text (bs "0");
     Text (bs "all"); Text (bs "everybody"); Text (bs "0664"); Text (bs "nonsense"); Text (bs "0x10k")] =
  [ByUmask; ByGroup; ByGroup; ByGroup; ByGroup; ByUmask; ByUmask; ByUmask; ByAll; ByAll; ByMode 436; ByUmask; ByGroup].
Proof. by vm_compute. Qed.

(** An accepted object has the bits of 0777 that the umask leaves, whatever
    system calls failed. *)
Theorem C40_object_mode en lfs umask ts fuel o rb pid os l s st rb' l' s' :
  Forall plain_name lfs ->
  run pid (p_put_object en (Backend lfs umask ts) fuel o rb) os l s = (Done (Ok st, rb'), l', s') ->
  exists j x, nodes s' !! object_path lfs o = Some (NFile j) /\ inodes s' !! j = Some x /\ perm_bits (i_mode x) umask.
Proof.
  intros Hlfs E.
  pose proof (wp_run _ _ _ _ _ l s (ok_put en lfs umask ts pid fuel Hlfs o rb l s) os (fun _ => I)) as H.
  rewrite E in H. destruct (H st eq_refl) as (_ & _ & j & x & H1 & H2 & _ & H4).
  exists j, x. rewrite H4. split_and!; [done..|]. apply perm_bits_ldiff.
Qed.
Print Assumptions C40_object_mode.

Example C40_mode_case :
  let s := (put_on abc_oid (bs "000bsize=3
00010007abc0000")).2 in
  contents (object_path lfs_dir abc_oid) s = Some (bs "abc") /\
  match nodes s !! object_path lfs_dir abc_oid with Some (NFile j) => option_map i_mode (inodes s !! j) | _ => None end = Some 493%N.
Proof. split; by vm_compute. Qed.
