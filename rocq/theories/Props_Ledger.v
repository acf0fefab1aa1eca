(** Locks in the order of the calls that make and remove them: C106. *)
From Verif Require Import Bytes Err FS Prog Pktline Args Local Processor Transfer Sha256 Rfc3339 Spec SpecStore SpecServer SpecLock
  SpecFrame SpecTalk SpecPerm SpecInput SpecStart SpecTogether SpecRound SpecTruth SpecHeld SpecWorn TruthProofs WornProofs HeldProofs Transcripts
  Props_Store Props_Server Props_End Props_Start Props_Together Props_Talk Props_Held.
From Verif Require Import SpecRound SpecWorn SpecHeld SpecWho SpecComes ComesProofs SpecLedger LedgerProofs.

(** ** C106 *)

(** Any number of servers is at work on a repository.  Calls may fail and any of them may
    be killed.  There is a lock on [p] at a later moment if and only if, of the calls made
    in between, the last one that makes or removes it makes it, or there is none and there
    was a lock before. *)
Theorem C106_now H lfs ps s0 cs1 cs2 p :
  crew H lfs ps s0 ->
  let y1 := sys_run cs1 (Sys ps s0) in
  is_locked H lfs p (shared (sys_run cs2 y1)) <-> still H lfs p (is_locked H lfs p (shared y1)) (everyone cs2 y1).
Proof. intros Hcr. exact (c106_now H lfs ps s0 Hcr cs1 cs2 p). Qed.
Print Assumptions C106_now.

(** Between two calls that make it there is one that removes it, in a round in which the
    client asked for this and was told so, or whose answer is not finished (C104); and
    between two that remove it there is one that makes it, likewise. *)
Theorem C106_alternate H lfs ps s0 cs1 c cs2 c' p i j d d' :
  crew H lfs ps s0 ->
  let y1 := sys_run cs1 (Sys ps s0) in
  let y2 := sys_run cs2 (sys_step y1 c) in
  d ∈ made i y1 c -> d' ∈ made j y2 c' ->
  (linked H lfs p d -> linked H lfs p d' ->
     by_server H lfs ps s0 (cs1 ++ [c]) cs2 (unlinked H lfs p) (fun en => unlocked_as en p)) /\
  (unlinked H lfs p d -> unlinked H lfs p d' ->
     by_server H lfs ps s0 (cs1 ++ [c]) cs2 (linked H lfs p) (fun en => locked_as en p)).
Proof. intros Hcr. exact (c106_alternate H lfs ps s0 Hcr cs1 c cs2 c' p i j d d'). Qed.
Print Assumptions C106_alternate.

(** As the clients see it: two rounds, one after the other, of the same server or of two,
    in which a client is told that it has the lock on [p] (C99: then it is as [granted]
    says).  In between, from within the first round to within the second, the lock is
    removed, as above. *)
Theorem C106_clients en en' lfs ps s0 c1 ca cb cc i j p a b :
  en_hash en = en_hash en' -> crew (en_hash en) lfs ps s0 ->
  granted en lfs i ca (sys_run c1 (Sys ps s0)) p a ->
  granted en' lfs j cc (sys_run (c1 ++ ca ++ cb) (Sys ps s0)) p b ->
  exists t t' u u', ca = t ++ t' /\ cc = u ++ u' /\
    by_server (en_hash en) lfs ps s0 (c1 ++ t) (t' ++ cb ++ u) (unlinked (en_hash en) lfs p) (fun en => unlocked_as en p).
Proof. apply c106_clients. Qed.
Print Assumptions C106_clients.

(** One server locks "b", another removes the lock, and a third locks "b" again. *)
Definition three_lockers : list (proc (Z * bytes)) :=
  [locker Upload [lock_of (bs "b")]; locker Upload [RUnlock (id_of (bs "b")) []]; locker Upload [lock_of (bs "b")]].
Definition answer_b : reply := Reply 201 (info test_env (bs "b") (bs "1970-01-01T00:00:00+00:00") (bs "test user")) BNone.
Lemma three_crew : crew sha256 lfs_dir three_lockers fs0.
Proof.
  destruct C99_case as ([? ? ? _] & _). split.
  - constructor; try done. repeat constructor; by eexists test_env, 300%nat, (GOk (libgit2 Unset)), _.
  - repeat constructor; exists Upload; by exists test_env, 300%nat, Unset.
Qed.
Lemma turn_at {A} i t c t' (y : sys A) (P : fs -> fs -> Prop) Ps : c_pid c = i ->
  P (shared (sys_run t y)) (shared (sys_run (t ++ [c]) y)) ->
  in_turn i t' (sys_run (t ++ [c]) y) Ps -> in_turn i (t ++ c :: t') y (P :: Ps).
Proof.
  revert y. induction t as [|c' t IH]; intros y Hc HP Ht; [by apply it_now|]. apply it_later. by apply (IH (sys_step y c')).
Qed.
Lemma granted_at {A} en lfs i t c t2 c' t' (y : sys A) p x who : c_pid c = i -> c_pid c' = i ->
  wins en lfs p (shared (sys_run t y)) (shared (sys_run (t ++ [c]) y)) ->
  whose en (shared (sys_run t2 (sys_run (t ++ [c]) y))) (SpecRound.lock_at en lfs p) who ->
  granted en lfs i (t ++ c :: t2 ++ c' :: t') y p (Reply 201 (info en p x who) BNone).
Proof.
  intros Hc Hc' Hw Hb. exists x, who. split; [done|]. apply turn_at; [done|exact Hw|]. apply turn_at; [done| |constructor]. by left.
Qed.
Local Notation b_lock := (lock_name sha256 lfs_dir (bs "b")).
Local Notation b_draft := (lfs_dir ++ [bs "locks"; id_of (bs "b") ++ bs ".lock"]).
Example C106_case :
  crew sha256 lfs_dir three_lockers fs0 /\
  let y0 := Sys three_lockers fs0 in
  let y2 := sys_run (goes 0 60 ++ goes 1 60) y0 in
  made 0 (sys_run (goes 0 20) y0) (go 0) = [existT (ELink b_draft b_lock) (IOk tt)] /\
  made 1 (sys_run (goes 0 60 ++ goes 1 16) y0) (go 1) = [existT (EUnlink b_lock) (IOk tt)] /\
  made 2 (sys_run (goes 2 20) y2) (go 2) = [existT (ELink b_draft b_lock) (IOk tt)] /\
  nodes (shared (sys_run (goes 0 60) y0)) !! b_lock = Some (NFile 0) /\
  nodes (shared y2) !! b_lock = None /\
  nodes (shared (sys_run (goes 2 60) y2)) !! b_lock = Some (NFile 1).
Proof. cbn zeta. split; [apply three_crew|]. split_and!; vm_compute; reflexivity. Qed.

(** Both clients are told so, with the name of the owner. *)
Definition in_full (i : nat) : list choice := goes i 20 ++ go i :: goes i 1 ++ go i :: goes i 37.
Example C106_clients_case :
  crew (en_hash test_env) lfs_dir three_lockers fs0 /\
  granted test_env lfs_dir 0 (in_full 0) (sys_run [] (Sys three_lockers fs0)) (bs "b") answer_b /\
  granted test_env lfs_dir 2 (in_full 2) (sys_run ([] ++ in_full 0 ++ goes 1 60) (Sys three_lockers fs0)) (bs "b") answer_b /\
  out_of (sys_run (in_full 0 ++ goes 1 60 ++ in_full 2) (Sys three_lockers fs0)) 2 = Some (bs "000eversion=1
0000000fstatus 201
0048id=73b6a671c66efeb43a35cd79a0057df1a2c0ea8a5141e341101728e3179b5f04
000bpath=b
0028locked-at=1970-01-01T00:00:00+00:00
0018ownername=test user
0000").
Proof.
  split_and!; [exact three_crew|..|vm_compute; reflexivity].
  - apply granted_at; [done|done| |].
    + exists 0%nat. split_and!; vm_compute; reflexivity.
    + replace (bs "test user") with (user_name test_env 1000) by (vm_compute; reflexivity).
      assert (E : exists x, inodes (shared (sys_run (goes 0 1) (sys_run (goes 0 20 ++ [go 0]) (sys_run [] (Sys three_lockers fs0))))) !! 0%nat = Some x /\ i_uid x = 1000%N)
        by (eexists; split; vm_compute; reflexivity).
      destruct E as (x & Hx & <-). eapply who_file; [|exact Hx]. vm_compute. reflexivity.
  - apply granted_at; [done|done| |].
    + exists 1%nat. split_and!; vm_compute; reflexivity.
    + replace (bs "test user") with (user_name test_env 1000) by (vm_compute; reflexivity).
      assert (E : exists x, inodes (shared (sys_run (goes 2 1) (sys_run (goes 2 20 ++ [go 2]) (sys_run ([] ++ in_full 0 ++ goes 1 60) (Sys three_lockers fs0))))) !! 1%nat = Some x /\ i_uid x = 1000%N)
        by (eexists; split; vm_compute; reflexivity).
      destruct E as (x & Hx & <-). eapply who_file; [|exact Hx]. vm_compute. reflexivity.
Qed.
