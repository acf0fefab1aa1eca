(** A server alone when calls to the file system fail: C79 to C82. *)
From Verif Require Import Bytes Err FS Prog Pktline Args Local Processor Transfer Sha256 Rfc3339 Transcripts
  PktFacts PktProofs Spec SpecStore SpecServer SpecEnd SpecFrame SpecTogether SpecFault TextProofs SeqCmd Session
  FaultProofs FaultFacts Props_Store Props_Server.
From stdpp Require Import sorting.

(** ** C79 *)

(** While the calls that [failing] tells of fail, as often as they like, the server
    never panics, and either serves all requests, each with the right answer, an error,
    or one of the deviations in [answer_in]; or says nothing, or breaks off a download. *)
Theorem C79_failing_calls en lfs umask ts (clock : Z -> Prop) writes m pid os l s w reqs extra fuel :
  place en lfs ts clock -> holds en lfs s w -> asks m l reqs extra -> enough fuel l w ->
  (writes = true -> Forall no_put reqs) ->
  run_such (failing lfs ts clock writes) pid (transfer_run en fuel lfs umask ts (operation m)) os l s ->
  match run pid (transfer_run en fuel lfs umask ts (operation m)) os l s with
  | (Done (Ok _), l', s') => served_in en lfs clock m l w reqs extra l' s'
  | (Done (Er _), l', s') => not_begun en lfs l w l' s' \/ cut_off en lfs clock m l w reqs l' s'
  | (Failed _, _, _) => False
  end.
Proof. exact (c79 en lfs umask ts clock writes m pid os l s w reqs extra fuel). Qed.
Print Assumptions C79_failing_calls.

(** Calls number [fst x] fail, for lack of permission or another reason. *)
Definition fails (xs : list (nat * bool)) : orcs := fun k =>
  match list_find (fun x => x.1 = k) xs with
  | Some (_, (_, true)) => Orc (Some (IoErr KPermissionDenied (bs "Permission denied (os error 13)"))) 2 (bs "x") 0
  | Some (_, (_, false)) => Orc (Some (IoErr KOther (bs "Input/output error (os error 5)"))) 2 (bs "x") 0
  | None => quiet k
  end.
Notation serving m xs reqs := (run 0 (transfer_run test_env 4000 lfs_dir 63 (Some noon) (operation m)) (fails xs) (input_of reqs) fs_demo).
Notation calls_fail m writes xs reqs := (run_such (failing lfs_dir (Some noon) (eq noon) writes) 0
  (transfer_run test_env 4000 lfs_dir 63 (Some noon) (operation m)) (fails xs) (input_of reqs) fs_demo).

(** A check of [failing]. *)
Definition failing_b (lfs : path) (writes : bool) (e : ev) (o : orc) : bool :=
  bool_decide (Byte.x00 ∉ o_sfx o) &&
  match o_fault o with
  | None => true
  | Some x => bool_decide (io_kind_of x <> KNotFound /\ io_kind_of x <> KAlreadyExists) &&
    match e with
    | ERead _ | EOut _ | EFlush | EClock | EUmask _ | ENote _ _ => false
    | EMktemp _ _ | EWriteFd _ _ => writes
    | EUnlink p => match reverse p with i :: q => bool_decide (reverse q = lfs ++ [bs "locks"] /\ length i = 64%nat) | _ => false end
    | _ => true
    end
  end.
Fixpoint such_b {A} (P : ev -> orc -> bool) (pid : nat) (p : prog A) (os : orcs) (l : local) (s : fs) : bool :=
  match p with
  | Vis e k => let '(r, l', s') := handle_ev pid e (os 0%nat) l s in P e (os 0%nat) && such_b P pid (k r) (Prog.shift os) l' s'
  | _ => true
  end.
Lemma such_of {A} lfs t clock writes pid (p : prog A) os l s :
  such_b (failing_b lfs writes) pid p os l s = true -> run_such (failing lfs (Some t) clock writes) pid p os l s.
Proof.
  revert os l s. induction p as [a|f|e k IH]; intros os l s; [done|done|]. cbn [such_b run_such].
  destruct (handle_ev pid e (os 0%nat) l s) as [[r l'] s']. intros [Hb Hr]%andb_true_iff. split; [|by apply IH].
  clear -Hb. unfold failing_b in Hb. apply andb_true_iff in Hb as [H1%bool_decide_eq_true Hb].
  split; [done|]. split; [done|]. intros x Hx. rewrite Hx in Hb. apply andb_true_iff in Hb as [[G1 G2]%bool_decide_eq_true Hb].
  split_and!; [done|done|]. destruct e; try done.
  destruct (reverse p) as [|i q] eqn:Ep; [done|]. apply bool_decide_eq_true in Hb as [E Hi]. exists i. split; [|done].
  rewrite <- (reverse_involutive p), Ep, reverse_cons, E. by rewrite <- app_assoc.
Qed.

Lemma demo_place : place test_env lfs_dir (Some noon) (eq noon).
Proof. destruct demo_setting. by split. Qed.

(** The failures: the size of an object, opening a lock, the owner of a lock, the link
    that makes a lock, the removal of a lock, the owner again, and the renaming of an upload. *)
Definition rough : list request :=
  [RBatch [] [(abc_oid, bs "1")]; RList []; lock_of (bs "a"); lock_of (bs "b"); RUnlock (id_of (bs "a")) [];
   RUnlock (id_of (bs "c")) []; RPut abc_oid [(bs "size", bs "3")] [bs "abc"]; RVerify abc_oid [(bs "size", bs "3")]].
Definition rough_fails : list (nat * bool) :=
  [(14, false); (27, false); (60, false); (86, false); (102, true); (116, false); (142, false)]%nat.
Example C79_case :
  place test_env lfs_dir (Some noon) (eq noon) /\ holds test_env lfs_dir fs_demo w_demo /\
  asks Upload (input_of rough) rough [] /\ enough 4000 (input_of rough) w_demo /\
  calls_fail Upload false rough_fails rough /\
  output (serving Upload rough_fails rough) = bs "000eversion=1
0000000fstatus 200
0001004eba7816bf8f01cfea414140de5dae2223b00361a396177a9cb410ff61f20015ad 1 upload
0000000fstatus 200
0001004alock c9eac6694eb5c5074c7ded2bd29424e7d2d4e4f1a45b15ba44bdeeeb272fdf5d
004cpath c9eac6694eb5c5074c7ded2bd29424e7d2d4e4f1a45b15ba44bdeeeb272fdf5d a
0069locked-at c9eac6694eb5c5074c7ded2bd29424e7d2d4e4f1a45b15ba44bdeeeb272fdf5d 2001-09-17T00:00:00+00:00
0059ownername c9eac6694eb5c5074c7ded2bd29424e7d2d4e4f1a45b15ba44bdeeeb272fdf5d test user
0050owner c9eac6694eb5c5074c7ded2bd29424e7d2d4e4f1a45b15ba44bdeeeb272fdf5d ours
0000000fstatus 409
0048id=c9eac6694eb5c5074c7ded2bd29424e7d2d4e4f1a45b15ba44bdeeeb272fdf5d
000bpath=a
0028locked-at=2001-09-17T00:00:00+00:00
0016ownername=unknown
0001000dconflict
0000000fstatus 500
00010046internal error: fatal: I/O error: Input/output error (os error 5)
0000000fstatus 403
0001000eforbidden
0000000fstatus 200
0048id=9fb1da1b1b39374af2e737d1f8d3d6f8590892b31778af9513e578fba8fbaccb
000bpath=c
0028locked-at=2001-09-17T00:00:00+00:00
0016ownername=unknown
0000000fstatus 500
00010068internal error: fatal: I/O error: failed to persist temporary path: Input/output error (os error 5)
0000000fstatus 200
0000".
Proof.
  split; [exact demo_place|]. split; [exact demo_holds|]. split; [apply asks_of; by vm_compute|].
  split; [apply enough_of; by vm_compute|]. split; [apply such_of; by vm_compute|]. by vm_compute.
Qed.

(** The other two ends; and a lock whose file cannot be written. *)
Definition one_get : list request := [RVersion; RGet abc_oid []; RGet abc_oid []].
Example C79_case_ends :
  asks Download (input_of one_get) one_get [] /\ enough 4000 (input_of one_get) w_demo /\
  calls_fail Download false [(48, false)]%nat one_get /\
  (exists e, (serving Download [(48, false)]%nat one_get).1.1 = Done (Er e)) /\
  output (serving Download [(48, false)]%nat one_get) = bs "000eversion=1
0000000fstatus 200
00010000000fstatus 200
000bsize=3
00010007abc0000000fstatus 200
000bsize=3
00010007abc" /\
  calls_fail Download false [(2, false)]%nat one_get /\
  (exists e, (serving Download [(2, false)]%nat one_get).1.1 = Done (Er e)) /\
  output (serving Download [(2, false)]%nat one_get) = bs "" /\
  asks Upload (input_of [lock_of (bs "b")]) [lock_of (bs "b")] [] /\ enough 4000 (input_of [lock_of (bs "b")]) w_demo /\
  Forall no_put [lock_of (bs "b")] /\
  calls_fail Upload true [(16, false)]%nat [lock_of (bs "b")] /\
  output (serving Upload [(16, false)]%nat [lock_of (bs "b")]) = bs "000eversion=1
0000000fstatus 500
00010046internal error: fatal: I/O error: Input/output error (os error 5)
0000".
Proof.
  split; [apply asks_of; by vm_compute|]. split; [apply enough_of; by vm_compute|].
  split; [apply such_of; by vm_compute|]. split; [eexists; vm_compute; reflexivity|]. split; [by vm_compute|].
  split; [apply such_of; by vm_compute|]. split; [eexists; vm_compute; reflexivity|]. split; [by vm_compute|].
  split; [apply asks_of; by vm_compute|]. split; [apply enough_of; by vm_compute|]. split; [by repeat constructor|].
  split; [apply such_of; by vm_compute|]. by vm_compute.
Qed.

(** ** C80 *)

(** The claim that a batch tells the truth about every object also when calls fail is
    wrong: a stored object is said to be missing if its size cannot be got. *)
Definition one_batch : list request := [RBatch [] [(abc_oid, bs "1")]].
Theorem C80_batch_refuted :
  place test_env lfs_dir (Some noon) (eq noon) /\ holds test_env lfs_dir fs_demo w_demo /\
  asks Download (input_of one_batch) one_batch [] /\ enough 4000 (input_of one_batch) w_demo /\
  calls_fail Download false [(14, true)]%nat one_batch /\
  w_objs w_demo !! abc_oid = Some (bs "abc") /\
  (serving Download [(14, true)]%nat one_batch).1.1 = Done (Ok tt) /\
  output (serving Download [(14, true)]%nat one_batch) = bs "000eversion=1
0000000fstatus 200
0001004cba7816bf8f01cfea414140de5dae2223b00361a396177a9cb410ff61f20015ad 1 noop
0000" /\
  output (serving Download [] one_batch) = bs "000eversion=1
0000000fstatus 200
00010050ba7816bf8f01cfea414140de5dae2223b00361a396177a9cb410ff61f20015ad 3 download
0000".
Proof.
  split; [exact demo_place|]. split; [exact demo_holds|]. split; [apply asks_of; by vm_compute|].
  split; [apply enough_of; by vm_compute|]. split; [apply such_of; by vm_compute|]. split; [by vm_compute|].
  split; [vm_compute; reflexivity|]. split; by vm_compute.
Qed.
Print Assumptions C80_batch_refuted.

(** True is the half of it: what a batch says to be there is there, of that size. *)
Theorem C80_batch_partial en lfs umask ts (clock : Z -> Prop) writes m pid os l s w reqs extra fuel l' s' k kvs items :
  place en lfs ts clock -> holds en lfs s w -> asks m l reqs extra -> enough fuel l w ->
  (writes = true -> Forall no_put reqs) ->
  run_such (failing lfs ts clock writes) pid (transfer_run en fuel lfs umask ts (operation m)) os l s ->
  run pid (transfer_run en fuel lfs umask ts (operation m)) os l s = (Done (Ok tt), l', s') ->
  reqs !! k = Some (RBatch kvs items) ->
  exists as_ a wk, sent l l' as_ /\ as_ !! k = Some a /\
    session_in en m (l_uid l) clock w (take k reqs) (take k as_) wk /\
    (rp_code a = 200%N -> exists ls, rp_body a = BLines ls /\
       Forall2 (fun x line => forall n, line = there m x.1 n -> exists d, w_objs wk !! x.1 = Some d /\ lenN d = n) items ls).
Proof. intros Hp Hh Ha He Hput Hos. exact (c80 en lfs umask ts clock writes m pid os l s w reqs extra fuel Hp Hh Ha He Hput Hos l' s' k kvs items). Qed.
Print Assumptions C80_batch_partial.

(** ** C81 *)

(** The claim that a listing without a further page has all locks is wrong: a lock whose
    file cannot be opened is passed over. *)
Theorem C81_list_refuted :
  place test_env lfs_dir (Some noon) (eq noon) /\ holds test_env lfs_dir fs_demo w_demo /\
  asks Upload (input_of [RList []]) [RList []] [] /\ enough 4000 (input_of [RList []]) w_demo /\
  calls_fail Upload false [(12, false)]%nat [RList []] /\
  is_Some (w_locks w_demo !! id_of (bs "c")) /\
  (serving Upload [(12, false)]%nat [RList []]).1.1 = Done (Ok tt) /\
  output (serving Upload [(12, false)]%nat [RList []]) = bs "000eversion=1
0000000fstatus 200
0001004alock c9eac6694eb5c5074c7ded2bd29424e7d2d4e4f1a45b15ba44bdeeeb272fdf5d
004cpath c9eac6694eb5c5074c7ded2bd29424e7d2d4e4f1a45b15ba44bdeeeb272fdf5d a
0069locked-at c9eac6694eb5c5074c7ded2bd29424e7d2d4e4f1a45b15ba44bdeeeb272fdf5d 2001-09-17T00:00:00+00:00
0059ownername c9eac6694eb5c5074c7ded2bd29424e7d2d4e4f1a45b15ba44bdeeeb272fdf5d test user
0050owner c9eac6694eb5c5074c7ded2bd29424e7d2d4e4f1a45b15ba44bdeeeb272fdf5d ours
0000".
Proof.
  split; [exact demo_place|]. split; [exact demo_holds|]. split; [apply asks_of; by vm_compute|].
  split; [apply enough_of; by vm_compute|]. split; [apply such_of; by vm_compute|]. split; [eexists; vm_compute; reflexivity|].
  split; [vm_compute; reflexivity|]. by vm_compute.
Qed.
Print Assumptions C81_list_refuted.

(** True is that the locks listed are held, each listed once and in order, and start at
    the cursor. *)
Theorem C81_list_partial en lfs umask ts (clock : Z -> Prop) writes m pid os l s w reqs extra fuel l' s' k kvs c :
  place en lfs ts clock -> holds en lfs s w -> asks m l reqs extra -> enough fuel l w ->
  (writes = true -> Forall no_put reqs) ->
  run_such (failing lfs ts clock writes) pid (transfer_run en fuel lfs umask ts (operation m)) os l s ->
  run pid (transfer_run en fuel lfs umask ts (operation m)) os l s = (Done (Ok tt), l', s') ->
  reqs !! k = Some (RList kvs) -> no_key (bs "path") kvs -> key (bs "cursor") kvs c ->
  exists as_ a wk, sent l l' as_ /\ as_ !! k = Some a /\
    session_in en m (l_uid l) clock w (take k reqs) (take k as_) wk /\
    (rp_code a = 200%N -> exists ls out, rp_body a = BLines out /\ seen_lines en m ls out /\
       StronglySorted (fun a b => blt a.1 b.1 = true) ls /\ (length ls <= 101)%nat /\
       forall i r, (i, r) ∈ ls -> w_locks wk !! i = Some r /\ match c with Some c => blt i c = false | None => True end).
Proof. intros Hp Hh Ha He Hput Hos. exact (c81 en lfs umask ts clock writes m pid os l s w reqs extra fuel Hp Hh Ha He Hput Hos l' s' k kvs c). Qed.
Print Assumptions C81_list_partial.

(** ** C82 *)

(** Whatever fails: locks appear and vanish only by requests that are answered with
    success, objects stay, accepted uploads are there, and no object is there that has
    not been uploaded. *)
Theorem C82_acknowledged_changes en lfs umask ts (clock : Z -> Prop) writes m pid os l s w reqs extra fuel r l' s' :
  place en lfs ts clock -> holds en lfs s w -> asks m l reqs extra -> enough fuel l w ->
  (writes = true -> Forall no_put reqs) ->
  run_such (failing lfs ts clock writes) pid (transfer_run en fuel lfs umask ts (operation m)) os l s ->
  run pid (transfer_run en fuel lfs umask ts (operation m)) os l s = (Done r, l', s') ->
  exists as_ w', sent l l' as_ /\ holds en lfs s' w' /\ (length as_ <= length reqs)%nat /\
    (r = Ok tt -> length as_ = length reqs) /\
    (forall i, w_locks w' !! i <> w_locks w !! i -> exists k q a, reqs !! k = Some q /\ as_ !! k = Some a /\
       ((exists kvs p, q = RLock kvs /\ (bs "path", p) ∈ kvs /\ i = lock_id (en_hash en) p /\ rp_code a = 201%N) \/
        (exists kvs, q = RUnlock i kvs /\ rp_code a = 200%N))) /\
    (forall o d, w_objs w !! o = Some d -> hex_of (en_hash en d) o -> kept (en_hash en) w' o d) /\
    (forall k o kvs ds a, reqs !! k = Some (RPut o kvs ds) -> as_ !! k = Some a -> rp_code a = 200%N ->
       kept (en_hash en) w' o (concat ds)) /\
    (forall o d, w_objs w' !! o = Some d -> w_objs w !! o = Some d \/
       exists k kvs ds, reqs !! k = Some (RPut o kvs ds) /\ d = concat ds /\ hex_of (en_hash en d) o).
Proof. intros Hp Hh Ha He Hput Hos. exact (c82 en lfs umask ts clock writes m pid os l s w reqs extra fuel Hp Hh Ha He Hput Hos r l' s'). Qed.
Print Assumptions C82_acknowledged_changes.

(** In the session of [C79_case] the server ends well, and of the locks only that of "c"
    is gone. *)
Example C80_C81_C82_case :
  (serving Upload rough_fails rough).1.1 = Done (Ok tt) /\
  rough !! 0%nat = Some (RBatch [] [(abc_oid, bs "1")]) /\ rough !! 1%nat = Some (RList []) /\
  no_key (bs "path") [] /\ key (bs "cursor") [] None /\
  children (final_fs (serving Upload rough_fails rough)) (lfs_dir ++ [bs "locks"]) = [id_of (bs "a")] /\
  length (children fs_demo (lfs_dir ++ [bs "locks"])) = 2%nat.
Proof.
  split; [vm_compute; reflexivity|]. split; [done|]. split; [done|].
  split; [by apply not_elem_of_nil|]. split; [by apply not_elem_of_nil|].
  split; by vm_compute.
Qed.
