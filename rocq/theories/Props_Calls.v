(** Properties of the system calls of a server, for any answers of the system. *)
From Verif Require Import Bytes Err FS Prog Pktline Args Local Processor Transfer Sha256 Rfc3339
  Spec SpecStore SpecServer SpecEnd SpecTalk SpecLockDir SpecCalls TalkProofs CallsProofs Transcripts Props_Store Props_Server Props_Lock Props_LockDir Props_Talk.

(** ** C87 *)

(** Whatever the system answers: every call a server makes has its reason in the calls
    before it (SpecCalls.v). *)
Theorem C87_every_call_has_its_reason en fuel lfs cfg op tr e r tr' x :
  calls (transfer_main en fuel lfs cfg op) (tr ++ existT e r :: tr') x -> justified en lfs tr e.
Proof. exact (c87 en fuel lfs cfg op tr e r tr' x). Qed.
Print Assumptions C87_every_call_has_its_reason.

(** So a file gets another name only if everything written to it, all of it with
    success, has the hash that is its new name. *)
Theorem C87_objects en fuel lfs cfg op tr a b r tr' x :
  calls (transfer_main en fuel lfs cfg op) (tr ++ existT (ERename a b) r :: tr') x ->
  exists tr1 o fd mid c, tr = tr1 ++ existT (EMktemp (lfs ++ [bs "incomplete"]) o) (IOk (a, fd)) :: mid ++ [existT (EMkdir (fan_out lfs o)) (IOk tt)] /\
    written fd mid c /\ is_oid o /\ hex_of (en_hash en c) o /\ b = object_path lfs o.
Proof.
  intros H%c87. inversion H as [| | | |tr0 o tmp c E Ho (tr1 & fd & mid & -> & Hw) Hh| | | | | | | | | |? F]; [|done].
  subst. exists tr1, o, fd, mid, c. by rewrite <- app_assoc.
Qed.
Print Assumptions C87_objects.

(** And a file is linked into the directory of locks only right after the whole record
    with the time just read has been written to it, and it was new. *)
Theorem C87_locks en fuel lfs cfg op tr a b r tr' x :
  calls (transfer_main en fuel lfs cfg op) (tr ++ existT (ELink a b) r :: tr') x ->
  exists tr0 t q fd, tr = tr0 ++ [existT EClock t; existT (ECreate a) (IOk fd); existT (EWriteFd fd (record_of t q)) (IOk tt)] /\
    a = draft_path en lfs q /\ b = lock_path en lfs q.
Proof.
  intros H%c87. inversion H as [| | | | | | | |tr0 t q fd E| | | | | |? F]; [|done].
  by exists tr0, t, q, fd.
Qed.
Print Assumptions C87_locks.

(** The only files a server removes: files of its own, and the file of a lock after it
    has read a record about the same path. *)
Theorem C87_removals en fuel lfs cfg op tr p r tr' x :
  calls (transfer_main en fuel lfs cfg op) (tr ++ existT (EUnlink p) r :: tr') x ->
  pending tr p \/ exists tr0 f h c r0 t q, tr = tr0 ++ [existT (EOpen f) (IOk h); existT (EReadAll h) (IOk c); existT (EStat f) r0] /\
    says c t q /\ p = lock_path en lfs q.
Proof.
  intros H%c87. inversion H as [| | | | | | | | |tr0 f h c r0 t q E Hs| | | | |? F]; [|by left|done].
  right. by exists tr0, f, h, c, r0, t, q.
Qed.
Print Assumptions C87_removals.

(** The calls of a server that runs alone, split at the nth. *)
Definition big_server : prog (Z * bytes) := transfer_main test_env 4000 lfs_dir no_config (bs "upload").
Lemma run_split p l s n d : calls_of 0 p quiet l s !! n = Some d ->
  exists tr tr', @calls (Z * bytes) p (tr ++ d :: tr') (result_of 0 p quiet l s) /\ length tr = n.
Proof.
  intros H. exists (take n (calls_of 0 p quiet l s)), (drop (S n) (calls_of 0 p quiet l s)). split.
  - rewrite take_drop_middle by exact H. apply calls_of_result.
  - rewrite take_length. apply lookup_lt_Some in H. lia.
Qed.

(** An upload: the file is renamed after 21 other calls, with success.  A lock is made,
    its draft removed; and it is removed. *)
Definition locks_a : local := input_of [lock_a; RUnlock (id_of (bs "a")) []].
Example C87_case :
  (exists tr a tr', calls (server (bs "upload")) (tr ++ existT (ERename a (object_path lfs_dir abc_oid)) (IOk tt) :: tr')
     (result_of 0 (server (bs "upload")) quiet (stdin2 put_abc) fs0) /\ length tr = 21%nat) /\
  (exists tr tr', calls big_server (tr ++ existT (ELink (draft_path test_env lfs_dir (bs "a")) (lock_path test_env lfs_dir (bs "a"))) (IOk tt) :: tr')
     (result_of 0 big_server quiet locks_a fs0) /\ length tr = 20%nat) /\
  (exists tr tr', calls big_server (tr ++ existT (EUnlink (draft_path test_env lfs_dir (bs "a"))) (IOk tt) :: tr')
     (result_of 0 big_server quiet locks_a fs0) /\ length tr = 21%nat) /\
  (exists tr tr', calls big_server (tr ++ existT (EUnlink (lock_path test_env lfs_dir (bs "a"))) (IOk tt) :: tr')
     (result_of 0 big_server quiet locks_a fs0) /\ length tr = 43%nat) /\
  result_of 0 (server (bs "upload")) quiet (stdin2 put_abc) fs0 = Some (0%Z, []) /\ result_of 0 big_server quiet locks_a fs0 = Some (0%Z, []).
Proof.
  split_and!.
  - edestruct run_split as (tr & tr' & H & L); [|eexists tr, _, tr'; split; [exact H|exact L]]. vm_compute. reflexivity.
  - apply run_split. vm_compute. reflexivity.
  - apply run_split. vm_compute. reflexivity.
  - apply run_split. vm_compute. reflexivity.
  - vm_compute. reflexivity.
  - vm_compute. reflexivity.
Qed.

(** ** C88 *)

(** Whatever the system answers: when a server ends, it has tried to remove every
    temporary file it has made and every draft it has tried to create, unless it has
    given it its place as an object. *)
Theorem C88_no_file_forgotten en fuel lfs cfg op tr a :
  calls (transfer_main en fuel lfs cfg op) tr (Some a) -> tidied tr.
Proof. exact (c88 en fuel lfs cfg op tr a). Qed.
Print Assumptions C88_no_file_forgotten.

(** And before it says anything to the client, and before it makes another file. *)
Theorem C88_before_the_answer en fuel lfs cfg op tr e r tr' x :
  calls (transfer_main en fuel lfs cfg op) (tr ++ existT e r :: tr') x ->
  match e with EOut _ | EFlush | EMktemp _ _ | ECreate _ => True | _ => False end -> tidied tr.
Proof. intros H%c87 He. destruct H as [| | | | | | | | | | | | | |e F]; try done. by destruct e. Qed.
Print Assumptions C88_before_the_answer.

(** An upload that is refused, since its data has another hash: the temporary file is
    made, written two calls later, and then removed. *)
Definition put_wrong : local := input_of [RPut abc_oid [(bs "size", bs "3")] [bs "abd"]].
Example C88_case :
  let tr := calls_of 0 big_server quiet put_wrong fs0 in
  calls big_server tr (Some (0%Z, [])) /\
  exists p fd, tr !! 15%nat = Some (existT (EMktemp (lfs_dir ++ [bs "incomplete"]) abc_oid) (IOk (p, fd))) /\
    tr !! 20%nat = Some (existT (EUnlink p) (IOk tt)) /\
    forall d, d ∈ drop 16 (take 20 tr) -> ~ closes d p.
Proof.
  cbv zeta. split.
  - assert (E : result_of 0 big_server quiet put_wrong fs0 = Some (0%Z, [])) by (vm_compute; reflexivity). rewrite <- E. apply calls_of_result.
  - eexists _, _. split_and!; [vm_compute; reflexivity|vm_compute; reflexivity|].
    assert (E : forallb (fun d => match closed d with Some _ => false | None => true end) (drop 16 (take 20 (calls_of 0 big_server quiet put_wrong fs0))) = true)
      by (vm_compute; reflexivity).
    rewrite forallb_forall in E. intros d Hd Hc%closes_fun. apply elem_of_list_In, E in Hd. by rewrite Hc in Hd.
Qed.

(** ** C89 *)

(** Files other than those of locks that a server removes need not be its own: if it cannot create a draft since there is
    one under the same name, by another server, it removes that one. *)
Inductive makes : done_call -> path -> Prop :=
| m_temp d pre p fd : makes (existT (EMktemp d pre) (IOk (p, fd))) p
| m_draft p fd : makes (existT (ECreate p) (IOk fd)) p.
Definition maker (d : done_call) : bool :=
  match d with
  | existT (EMktemp _ _) (IOk _) | existT (ECreate _) (IOk _) => true
  | _ => false
  end.
Lemma makes_maker d p : makes d p -> maker d = true. Proof. by destruct 1. Qed.
Theorem C89_only_its_own_refuted :
  exists en fuel lfs cfg op tr q tr' x,
    calls (transfer_main en fuel lfs cfg op) (tr ++ existT (EUnlink (draft_path en lfs q)) (IOk tt) :: tr') x /\
    forall d, d ∈ tr -> ~ makes d (draft_path en lfs q).
Proof.
  set (tr := calls_of 0 big_server quiet (input_of [lock_of (bs "b")]) messy).
  exists test_env, 4000%nat, lfs_dir, no_config, (bs "upload"), (take 19 tr), (bs "b"), (drop 20 tr), (result_of 0 big_server quiet (input_of [lock_of (bs "b")]) messy).
  split.
  - rewrite take_drop_middle; [apply calls_of_result|]. vm_compute. reflexivity.
  - assert (E : forallb (fun d => negb (maker d)) (take 19 tr) = true) by (vm_compute; reflexivity).
    rewrite forallb_forall in E. intros d Hd Hm%makes_maker. apply elem_of_list_In, E in Hd. by rewrite Hm in Hd.
Qed.
Print Assumptions C89_only_its_own_refuted.

(** It has at least tried to make every file it removes, or read the record of a lock on
    the same path under the name it has been given. *)
Theorem C89_own_or_tried en fuel lfs cfg op tr p r tr' x :
  calls (transfer_main en fuel lfs cfg op) (tr ++ existT (EUnlink p) r :: tr') x ->
  (exists d, d ∈ tr /\ (makes d p \/ exists e q, d = existT (ECreate p) (IErr e) /\ p = draft_path en lfs q)) \/
  exists f h c r0 t q, existT (EOpen f) (IOk h) ∈ tr /\ existT (EReadAll h) (IOk c) ∈ tr /\ existT (EStat f) r0 ∈ tr /\
    says c t q /\ p = lock_path en lfs q.
Proof.
  intros H. destruct (C87_removals _ _ _ _ _ _ _ _ _ _ H) as [(tr1 & d & tr2 & -> & Ho & _)|(tr0 & f & h & c & r0 & t & q & -> & Hs & Hp)].
  - left. exists d. split; [apply elem_of_app; right; by left|]. destruct Ho as [d pre p fd|p [fd|e]].
    + left. constructor.
    + left. constructor.
    + right. rewrite <- app_assoc in H. cbn [app] in H. apply c87 in H. inversion H as [| | | | | |? t q| | | | | | | |? F]; [|done].
      by exists e, q.
  - right. exists f, h, c, r0, t, q. split_and!; try done; apply elem_of_app; right; [by left|right; by left|right; right; by left].
Qed.
Print Assumptions C89_own_or_tried.
Example C89_case : exists tr tr', calls big_server (tr ++ existT (EUnlink (lock_path test_env lfs_dir (bs "a"))) (IOk tt) :: tr')
  (result_of 0 big_server quiet locks_a fs0) /\ length tr = 43%nat.
Proof. exact (proj1 (proj2 (proj2 (proj2 C87_case)))). Qed.
