(** Locks with many processes and with crashes: C24, C27, C29, C32, C34, C38. *)
From Verif Require Import Bytes Err FS Prog Pktline Args Local Processor Transfer Sha256 Rfc3339 Transcripts
  PktFacts Spec SpecStore SpecServer SpecLock Props_Store Props_Server TextProofs LockProofs LockLive LockLog LockSession.

(** ** Examples *)

(** The server for uploads with the given requests as its input. *)
Definition up : prog (Z * bytes) := server (bs "upload").
Definition client (reqs : list request) : proc (Z * bytes) := Proc up (input_of reqs) false.
Definition lock_a : request := lock_of (bs "a").
Definition unlock_a : request := RUnlock (id_of (bs "a")) [].
Definition file_a : path := lock_path lfs_dir (id_of (bs "a")).
(** [n] calls of process [i] while the clock shows [t]. *)
Definition steps (t : Z) (i n : nat) : list choice := replicate n (Choice i (AGo (Orc None 0 (bs "AAAAAAAAAAAA") t))).

Lemma up_server : is_server sha256 lfs_dir up.
Proof. by eexists test_env, 300%nat, no_config, _. Qed.
Lemma clients rs : Forall (fun p => is_server sha256 lfs_dir (pr_prog p)) (map client rs).
Proof. apply Forall_forall. intros p Hp. apply elem_of_list_fmap in Hp as (r & -> & _). apply up_server. Qed.
Lemma lfs_plain : Forall plain_name lfs_dir.
Proof. apply demo_setting. Qed.

Lemma dirs_no_files : forall p j, nodes fs_dirs !! p <> Some (NFile j).
Proof.
  assert (E : forallb (fun x => match x.2 with NDir => true | NFile _ => false end) (map_to_list (nodes fs_dirs)) = true) by by vm_compute.
  intros p j Hp. rewrite forallb_forall in E. apply elem_of_map_to_list, elem_of_list_In, E in Hp. done.
Qed.
Lemma dirs_sane : sane fs_dirs.
Proof. intros p j Hp. by apply dirs_no_files in Hp. Qed.
Lemma dirs_fresh : hist fs_dirs = [].
Proof. by vm_compute. Qed.
Lemma dirs_partial H : partial_records H lfs_dir fs_dirs.
Proof. intros c d (j & x & Hj & _). by apply dirs_no_files in Hj. Qed.
Lemma dirs_complete H : complete_records H lfs_dir fs_dirs.
Proof. intros c d (j & x & Hj & _). by apply dirs_no_files in Hj. Qed.

Definition info_a (x : bytes) : list bytes := lock_info test_env (bs "a") x 1000.
Definition second (n : bytes) : bytes := bs "1970-01-01T00:00:0" ++ n ++ bs "+00:00".
Lemma info_described x : described sha256 (bs "a") (info_a x).
Proof. by exists x, (user_name test_env 1000). Qed.

(** Process 0 locks "a" at time 1; process 1 begins to unlock it; process 2 unlocks
    it; process 3 locks it again at time 2. *)
Definition four_clients : list (proc (Z * bytes)) := map client [[lock_a]; [unlock_a]; [unlock_a]; [lock_a]].
Definition relocked : list choice := steps 1 0 25 ++ steps 1 1 16 ++ steps 1 2 18 ++ steps 2 3 25.
Notation s_relocked := (shared (sys_run relocked (Sys four_clients fs_dirs))).
(** Now process 1 goes on. *)
Notation s_raced := (shared (sys_run (relocked ++ steps 2 1 2) (Sys four_clients fs_dirs))).

(** ** C24 *)

(** A lock is granted by making its file, in the same request. *)
Theorem C24_granted_by_link H lfs cs ps s0 :
  digest H -> Forall plain_name lfs -> Forall (fun p => is_server H lfs (pr_prog p)) ps -> sane s0 -> hist s0 = [] ->
  let s := shared (sys_run cs (Sys ps s0)) in
  forall n i a, log_at s n i (OAnswer 201 a) -> exists p m, described H p a /\ (m < n)%nat /\
  log_at s m i (OLink (lock_path lfs (lock_id H p))) /\ no_answer_between s i m n.
Proof. intros HH Hlfs Hps Hs Hh. exact (granted H lfs HH Hlfs cs ps s0 Hps Hs Hh). Qed.
Print Assumptions C24_granted_by_link.

(** Two different answers 201 for one path, by whatever processes: the file of the
    lock was removed between the two moments at which it was made. *)
Theorem C24_mutual_exclusion H lfs cs ps s0 :
  digest H -> Forall plain_name lfs -> Forall (fun p => is_server H lfs (pr_prog p)) ps -> sane s0 -> hist s0 = [] ->
  let s := shared (sys_run cs (Sys ps s0)) in let f p := lock_path lfs (lock_id H p) in
  forall p n1 i1 a1 n2 i2 a2, n1 <> n2 -> log_at s n1 i1 (OAnswer 201 a1) -> log_at s n2 i2 (OAnswer 201 a2) ->
  described H p a1 -> described H p a2 ->
  exists m1 m2, log_at s m1 i1 (OLink (f p)) /\ (m1 < n1)%nat /\ no_answer_between s i1 m1 n1 /\
    log_at s m2 i2 (OLink (f p)) /\ (m2 < n2)%nat /\ no_answer_between s i2 m2 n2 /\
    exists k j, log_at s k j (OUnlink (f p)) /\ (m1 < k < m2 \/ m2 < k < m1)%nat.
Proof. intros HH Hlfs Hps Hs Hh. exact (c24 H lfs HH Hlfs cs ps s0 Hps Hs Hh). Qed.
Print Assumptions C24_mutual_exclusion.

(** The file stays until it is removed, and a lock that was there at the start
    keeps others out until then. *)
Theorem C24_held H lfs cs ps s0 :
  digest H -> Forall plain_name lfs -> Forall (fun p => is_server H lfs (pr_prog p)) ps -> sane s0 -> hist s0 = [] ->
  let s := shared (sys_run cs (Sys ps s0)) in let f p := lock_path lfs (lock_id H p) in
  (forall p m i, log_at s m i (OLink (f p)) -> (forall k j, (m < k)%nat -> ~ log_at s k j (OUnlink (f p))) ->
     nodes s !! f p <> None) /\
  (forall p, nodes s0 !! f p <> None -> (forall k j, ~ log_at s k j (OUnlink (f p))) -> nodes s !! f p <> None) /\
  (forall p n i, nodes s0 !! f p <> None -> log_at s n i (OLink (f p)) ->
     exists k j, (k < n)%nat /\ log_at s k j (OUnlink (f p))).
Proof.
  intros HH Hlfs Hps Hs Hh. split_and!.
  - exact (kept H lfs HH Hlfs cs ps s0 Hps Hs Hh).
  - exact (kept_old H lfs HH Hlfs cs ps s0 Hps Hs Hh).
  - exact (first_after H lfs HH Hlfs cs ps s0 Hps Hs Hh).
Qed.
Print Assumptions C24_held.

Example C24_case :
  Forall (fun p => is_server sha256 lfs_dir (pr_prog p)) four_clients /\ sane fs_dirs /\ hist fs_dirs = [] /\
  log_at s_relocked 0 0 (OLink file_a) /\ log_at s_relocked 2 0 (OAnswer 201 (info_a (second (bs "1")))) /\
  log_at s_relocked 3 2 (OUnlink file_a) /\
  log_at s_relocked 5 3 (OLink file_a) /\ log_at s_relocked 7 3 (OAnswer 201 (info_a (second (bs "2")))) /\
  length (hist s_relocked) = 8%nat.
Proof. split_and!; [apply clients|apply dirs_sane|apply dirs_fresh|..]; by vm_compute. Qed.

(** With no removal the second request is refused: two clients, one lock. *)
Example C24_refused :
  let s := shared (sys_run (steps 0 0 21 ++ steps 0 1 60 ++ steps 0 0 60) (Sys (map client [[lock_a]; [lock_a]]) fs_dirs)) in
  omap (fun e => match e.2 with OAnswer c _ => Some (e.1, c) | _ => None end) (rev (hist s)) = [(1%nat, 409%N); (0%nat, 201%N)].
Proof. by vm_compute. Qed.

(** ** C29 *)

(** Refuted.  Process 1 answers 200 with the lock taken at time 1, but the lock it
    removes is the one granted to process 3 at time 2. *)
Lemma race :
  described sha256 (bs "a") (info_a (second (bs "2"))) /\ described sha256 (bs "a") (info_a (second (bs "1"))) /\
  info_a (second (bs "2")) <> info_a (second (bs "1")) /\
  has_file s_relocked file_a (record_of 2 (bs "a")) /\ en_time test_env 2 = Some (second (bs "2")) /\
  info_a (second (bs "2")) !! 2%nat = Some (bs "locked-at=" ++ second (bs "2") ++ [NL]) /\
  info_a (second (bs "1")) !! 2%nat = Some (bs "locked-at=" ++ second (bs "1") ++ [NL]) /\
  log_at s_relocked (length (hist s_relocked) - 3) 3 (OLink file_a) /\
  log_at s_relocked (length (hist s_relocked) - 1) 3 (OAnswer 201 (info_a (second (bs "2")))) /\
  log_at s_raced (length (hist s_relocked)) 1 (OUnlink file_a) /\
  log_at s_raced (S (length (hist s_relocked))) 1 (OAnswer 200 (info_a (second (bs "1")))) /\ nodes s_raced !! file_a = None.
Proof.
  split; [apply info_described|]. split; [apply info_described|]. split; [intros E; by vm_compute in E|].
  split; [apply (owned_has _ _ _ 1000), file_at_owned; vm_cast_no_check (eq_refl (Some (record_of 2 (bs "a"), 1000%N)))|].
  split_and!; vm_compute; reflexivity.
Qed.

Theorem C29_unlock_refuted :
  exists cs1 cs2 ps s0 a3 a1, Forall (fun p => is_server sha256 lfs_dir (pr_prog p)) ps /\ sane s0 /\ hist s0 = [] /\
  let s := shared (sys_run cs1 (Sys ps s0)) in let s' := shared (sys_run (cs1 ++ cs2) (Sys ps s0)) in
  let n := length (hist s) in
  described sha256 (bs "a") a3 /\ described sha256 (bs "a") a1 /\ a3 <> a1 /\
  has_file s file_a (record_of 2 (bs "a")) /\ en_time test_env 2 = Some (second (bs "2")) /\
  a3 !! 2%nat = Some (bs "locked-at=" ++ second (bs "2") ++ [NL]) /\
  a1 !! 2%nat = Some (bs "locked-at=" ++ second (bs "1") ++ [NL]) /\
  log_at s (n - 3) 3 (OLink file_a) /\ log_at s (n - 1) 3 (OAnswer 201 a3) /\
  log_at s' n 1 (OUnlink file_a) /\ log_at s' (S n) 1 (OAnswer 200 a1) /\ nodes s' !! file_a = None.
Proof.
  exists relocked, (steps 2 1 2), four_clients, fs_dirs, (info_a (second (bs "2"))), (info_a (second (bs "1"))).
  split; [apply clients|]. split; [apply dirs_sane|]. split; [apply dirs_fresh|]. exact race.
Qed.
Print Assumptions C29_unlock_refuted.

(** What holds: an answer 200 with a description is given right after the file of
    the lock of that path was removed.  (What is not: that the removed file is the
    one that was read.) *)
Theorem C29_unlock_partial H lfs cs ps s0 :
  digest H -> Forall plain_name lfs -> Forall (fun p => is_server H lfs (pr_prog p)) ps -> sane s0 -> hist s0 = [] ->
  let s := shared (sys_run cs (Sys ps s0)) in
  forall n i a x rest, log_at s n i (OAnswer 200 a) -> a = (bs "id=" ++ x) :: rest ->
  exists p m, described H p a /\ (m < n)%nat /\ log_at s m i (OUnlink (lock_path lfs (lock_id H p))) /\
    no_event_between s i m n.
Proof. intros HH Hlfs Hps Hs Hh. exact (unlocked H lfs HH Hlfs cs ps s0 Hps Hs Hh). Qed.
Print Assumptions C29_unlock_partial.

Example C29_case :
  log_at s_raced 4 2 (OAnswer 200 (info_a (second (bs "1")))) /\
  exists x rest, info_a (second (bs "1")) = (bs "id=" ++ x) :: rest.
Proof. split; [by vm_compute|]. by eexists _, _. Qed.

(** ** C34 *)

(** Refuted.  Process 0 makes its temporary file; process 1 finds it there and, giving
    up, removes it; process 2 makes a new one of the same name; process 0 writes
    its record into the file that is gone and links the empty one. *)
Definition three_clients : list (proc (Z * bytes)) := map client [[lock_a]; [lock_a]; [lock_a]].
Definition mixed_up : list choice := steps 0 0 19 ++ steps 0 1 20 ++ steps 0 2 19 ++ steps 0 0 6.
Theorem C34_records_refuted :
  exists cs ps s0 a, Forall (fun p => is_server sha256 lfs_dir (pr_prog p)) ps /\ sane s0 /\ hist s0 = [] /\
  complete_records sha256 lfs_dir s0 /\
  let s := shared (sys_run cs (Sys ps s0)) in
  has_file s file_a [] /\ ~ complete_records sha256 lfs_dir s /\
  log_at s 3 0 (OAnswer 201 a) /\ described sha256 (bs "a") a.
Proof.
  exists mixed_up, three_clients, fs_dirs, (info_a (second (bs "0"))).
  split_and!; [apply clients|apply dirs_sane|apply dirs_fresh|apply dirs_complete|]. cbv zeta.
  assert (Hf : has_file (shared (sys_run mixed_up (Sys three_clients fs_dirs))) file_a []).
  { apply (owned_has _ _ _ 1000), file_at_owned. by vm_compute. }
  split_and!; [done| |by vm_compute|apply info_described].
  intros Hc. apply (Hc (bs "a")) in Hf as (q & t & _ & E). discriminate E.
Qed.
Print Assumptions C34_records_refuted.

(** What holds in every interleaving, with faults and crashes: a file in the lock
    directory has the beginning of a record for its own name, never anything else. *)
Theorem C34_records_partial H lfs cs ps s0 :
  digest H -> Forall plain_name lfs -> Forall (fun p => is_server H lfs (pr_prog p)) ps -> sane s0 -> hist s0 = [] ->
  partial_records H lfs s0 -> partial_records H lfs (shared (sys_run cs (Sys ps s0))).
Proof. intros HH Hlfs Hps Hs Hh. exact (records H lfs HH Hlfs cs ps s0 Hps Hs Hh). Qed.
Print Assumptions C34_records_partial.

(** And with one server at a time, which may meet faults and die at any moment, the
    records are complete. *)
Theorem C34_alone_partial H lfs p n pid os l s :
  digest H -> Forall plain_name lfs -> is_server H lfs p -> sane s -> complete_records H lfs s ->
  sane (run_crash n pid p os l s).2 /\ complete_records H lfs (run_crash n pid p os l s).2.
Proof. intros HH Hlfs. exact (crash_records H lfs HH Hlfs p n pid os l s). Qed.
Print Assumptions C34_alone_partial.

(** A complete record can be parsed. *)
Theorem C34_parsed t p : (- 2 ^ 63 <= t < 2 ^ 63)%Z -> lock_parse (record_of t p) = Some (t, p).
Proof. exact (c33 t p). Qed.
Print Assumptions C34_parsed.

(** A lock request of one server, killed before and after the link. *)
Definition killed (n : nat) : fs := (run_crash n 0 up quiet (input_of [lock_a]) fs_dirs).2.
Definition temp_a : path := temp_path sha256 lfs_dir (bs "a").
Example C34_case :
  partial_records sha256 lfs_dir fs_dirs /\ complete_records sha256 lfs_dir fs_dirs /\
  contents temp_a (killed 19) = Some [] /\ contents file_a (killed 19) = None /\
  contents temp_a (killed 20) = Some (record_of 0 (bs "a")) /\ contents file_a (killed 20) = None /\
  contents temp_a (killed 21) = Some (record_of 0 (bs "a")) /\ contents file_a (killed 21) = Some (record_of 0 (bs "a")) /\
  contents temp_a (killed 22) = None /\ contents file_a (killed 22) = Some (record_of 0 (bs "a")).
Proof. split_and!; [apply dirs_partial|apply dirs_complete|..]; by vm_compute. Qed.

(** ** C27 and C38 *)

(** Both refuted by the same run: a server dies in the middle of a lock request, and
    the next lock request for the path aborts the server that gets it. *)
Theorem C27_lock_answers_refuted :
  exists n l, asks Upload l [lock_a] [] /\ fault_free quiet /\ is_server sha256 lfs_dir up /\
  sane fs_dirs /\ hist fs_dirs = [] /\
  (run 1 up quiet l (run_crash n 0 up quiet l fs_dirs).2).1.1 = Failed PUnreachable.
Proof.
  exists 20%nat, (input_of [lock_a]). split_and!; [apply asks_of; by vm_compute|done|apply up_server|apply dirs_sane|apply dirs_fresh|].
  by vm_compute.
Qed.
Print Assumptions C27_lock_answers_refuted.

(** Two processes suffice, without a crash. *)
Theorem C27_race_refuted :
  exists cs l, asks Upload l [lock_a] [] /\ Forall (fun c => exists o, c_act c = AGo o /\ o_fault o = None) cs /\
  (pr_prog <$> procs (sys_run cs (Sys [Proc up l false; Proc up l false] fs_dirs)) !! 1%nat) = Some (Fail PUnreachable).
Proof.
  exists (steps 0 0 19 ++ steps 0 1 40), (input_of [lock_a]). split_and!; [apply asks_of; by vm_compute| |by vm_compute].
  apply Forall_app. split; apply Forall_replicate; by eexists.
Qed.
Print Assumptions C27_race_refuted.

(** What holds: a server that is alone and meets no fault reaches that point only
    if a temporary file was left over for some path; and it leaves none itself. *)
Theorem C27_lock_answers_partial H lfs p pid os l s :
  digest H -> Forall plain_name lfs -> is_server H lfs p -> sane s -> fault_free os ->
  (forall q, nodes s !! temp_path H lfs q = None) ->
  (run pid p os l s).1.1 <> Failed PUnreachable /\
  forall a, (run pid p os l s).1.1 = Done a -> forall q, nodes (run pid p os l s).2 !! temp_path H lfs q = None.
Proof.
  intros HH Hlfs Hp Hs Hos Hno. split.
  - intros E. destruct (session_panic H lfs HH Hlfs p pid os l s Hp Hs Hos E) as (_ & q & Hq & _). by apply Hq, Hno.
  - intros a E q. pose proof (session_clean H lfs HH Hlfs p pid os l s a Hp Hs Hos E q) as Hn.
    destruct (nodes (run pid p os l s).2 !! temp_path H lfs q) eqn:Eq; [|done].
    unfold temp_path in *. change (nodes (run pid p os l s).2 !! tempfile H lfs q = Some n) in Eq.
    rewrite Hn in Eq by (by rewrite Eq). by rewrite <- Eq, <- (Hno q).
Qed.
Print Assumptions C27_lock_answers_partial.

Example C27_case :
  (forall q, nodes fs_dirs !! temp_path sha256 lfs_dir q = None) /\
  exists a, (run 0 up quiet (input_of [lock_a; lock_a; unlock_a; lock_a]) fs_dirs).1.1 = Done a.
Proof.
  split.
  - assert (E : forallb (fun x => length x.1 <? 5)%nat (map_to_list (nodes fs_dirs)) = true) by by vm_compute.
    intros q. destruct (nodes fs_dirs !! temp_path sha256 lfs_dir q) eqn:Eq; [|done].
    rewrite forallb_forall in E. apply elem_of_map_to_list, elem_of_list_In, E in Eq. simpl in Eq.
    done.
  - eexists. by vm_compute.
Qed.

(** C38, what holds.  (1) However the server dies, the path is free or has a complete
    record: [C34_alone_partial].  (2) A later session without faults ends in the
    panic only if a temporary file had been left over and is gone now; so every
    panic uses up a leftover file, and no session adds one. *)
Theorem C38_lock_crash_refuted :
  exists n l, asks Upload l [lock_a] [] /\
  let s := (run_crash n 0 up quiet l fs_dirs).2 in
  nodes s !! file_a = None /\ (run 1 up quiet l s).1.1 = Failed PUnreachable.
Proof. exists 20%nat, (input_of [lock_a]). split; [apply asks_of; by vm_compute|]. split; by vm_compute. Qed.
Print Assumptions C38_lock_crash_refuted.

Theorem C38_lock_crash_partial H lfs p q n pid pid' os os' l l' s :
  digest H -> Forall plain_name lfs -> is_server H lfs p -> is_server H lfs q ->
  sane s -> complete_records H lfs s -> fault_free os' ->
  let s1 := (run_crash n pid p os l s).2 in let r := run pid' q os' l' s1 in
  complete_records H lfs s1 /\
  (r.1.1 = Failed PUnreachable -> (forall x, nodes s1 !! temp_path H lfs x <> Some NDir) ->
     exists x, nodes s1 !! temp_path H lfs x <> None /\ nodes r.2 !! temp_path H lfs x = None) /\
  (r.1.1 = Failed PUnreachable \/ (exists a, r.1.1 = Done a) ->
     forall x, nodes r.2 !! temp_path H lfs x <> None -> nodes r.2 !! temp_path H lfs x = nodes s1 !! temp_path H lfs x).
Proof.
  intros HH Hlfs Hp Hq Hs Hc Hos s1 r. destruct (crash_records H lfs HH Hlfs p n pid os l s Hp Hs Hc) as [Hs1 Hc1].
  split_and!; [done| |].
  - intros E Hd. destruct (session_panic H lfs HH Hlfs q pid' os' l' s1 Hq Hs1 Hos E) as (_ & x & Hx & Hx').
    exists x. split; [exact Hx|]. destruct Hx' as [Hx'|Hx']; [exact Hx'|]. by destruct (Hd x).
  - intros [E|[a E]].
    + by destruct (session_panic H lfs HH Hlfs q pid' os' l' s1 Hq Hs1 Hos E) as (Hn & _).
    + exact (session_clean H lfs HH Hlfs q pid' os' l' s1 a Hq Hs1 Hos E).
Qed.
Print Assumptions C38_lock_crash_partial.

(** After the panic the next request works. *)
Example C38_case :
  let s1 := killed 20 in let s2 := (run 1 up quiet (input_of [lock_a]) s1).2 in
  nodes s1 !! temp_a <> None /\ nodes s2 !! temp_a = None /\
  contents file_a (run 2 up quiet (input_of [lock_a]) s2).2 = Some (record_of 0 (bs "a")).
Proof. split_and!; by vm_compute. Qed.

(** ** C32 *)

(** Refuted: the temporary file of a request that was cut short is listed as a lock. *)
Theorem C32_listed_refuted :
  exists n, let s := (run_crash n 0 up quiet (input_of [lock_a]) fs_dirs).2 in
  let r := run 1 up quiet (input_of [RList []]) s in
  hist s = [] /\ nodes s !! file_a = None /\ r.1.1 = Done (0%Z, []) /\
  l_out r.1.2 = enc_all ([PData (bs "version=1" ++ [NL]); PFlush; PData (bs "status 200" ++ [NL]); PDelim] ++
    lines (lock_lines test_env Upload (bs "a") (second (bs "0")) 1000) ++ [PFlush]).
Proof. exists 20%nat. split_and!; by vm_compute. Qed.
Print Assumptions C32_listed_refuted.

(** What holds: one server in a repository without leftovers lists only locks that
    were there at the start or were granted by an earlier request, and were not
    removed since. *)
Theorem C32_listed_partial en lfs umask ts (clock : Z -> Prop) m pid os l s w reqs extra fuel i kvs :
  setting en lfs ts clock os -> holds en lfs s w -> asks m l reqs extra -> enough fuel l w ->
  reqs !! i = Some (RList kvs) ->
  exists as_ w1 s1, served en lfs umask ts clock m pid fuel os l s w reqs as_ extra w1 s1 /\
    forall a, as_ !! i = Some a -> rp_code a = 200%N ->
    exists ls out, rp_body a = BLines out /\ locks_lines en m ls out /\
      forall k p t u, (k, (p, t, u)) ∈ ls ->
      k = lock_id (en_hash en) p /\ in_force w (take i reqs) (take i as_) k p t u.
Proof. exact (c32 en lfs umask ts clock m pid os l s w reqs extra fuel i kvs). Qed.
Print Assumptions C32_listed_partial.

(** [demo2] lists two locks. *)
Example C32_case :
  holds test_env lfs_dir fs_demo w_demo /\ asks Upload (input_of demo2) demo2 [] /\ enough 4000 (input_of demo2) w_demo /\
  exists kvs, demo2 !! 0%nat = Some (RList kvs).
Proof. split_and!; [exact demo_holds|apply asks_of; by vm_compute|apply enough_of; by vm_compute|by eexists]. Qed.
