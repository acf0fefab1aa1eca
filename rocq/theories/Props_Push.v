(** Sending and fetching objects. *)
From Verif Require Import Bytes Err FS Prog Pktline Args Local Processor Transfer Sha256 Rfc3339
  Spec SpecStore SpecServer SpecTogether SpecPush PktFacts PktProofs IoFacts TextProofs GetProofs ObjProofs StoreProofs SeqIo SeqCmd TogetherProofs TogetherFacts PushProofs Transcripts Props_Store Props_Server Props_Together.

(** ** C102 *)

(** A client sends batches and uploads to a server, next to any other servers, which
    may fail and die.  Every request has been answered after [K] choices.  Each object
    of a batch was said to be there or asked for, each upload of an object was answered
    with 200; and if the client has uploaded what it was asked for, then all objects of
    all its batches are stored with the right contents from then on. *)
Theorem C102_push en fuel lfs ps s0 cs i l reqs extra K q :
  servers (en_hash en) lfs ps s0 -> asker en fuel Upload lfs ps (take K cs) i l reqs extra ->
  procs (sys_run (take K cs) (Sys ps s0)) !! i = Some q -> answered (l_out (pr_local q)) (length reqs) ->
  so_far_such en Upload lfs (Sys ps s0) (take K cs) i (l_in l) reqs extra (l_out (pr_local q)) (fun asked as_ =>
    asked = reqs /\ served (en_hash en) reqs as_ /\
    (obeys (en_hash en) reqs as_ -> forall n kvs items o b k, reqs !! n = Some (RBatch kvs items) -> fair_batch kvs ->
      (o, b) ∈ items -> (K <= k)%nat ->
      exists d, has_file (shared (sys_run (take k cs) (Sys ps s0))) (object_path lfs o) d /\ hex_of (en_hash en d) o)).
Proof. intros Hs Hc Hq Ha. exact (c102_push en fuel lfs ps s0 cs i l reqs extra K q Hs Hc Hq Ha). Qed.
Print Assumptions C102_push.

(** From then on the others can fetch them: a request that a server has not read when
    the object is there is answered with it. *)
Theorem C102_fetch en fuel lfs ps s0 cs K o d m j l reqs extra q :
  servers (en_hash en) lfs ps s0 -> is_oid o -> has_file (shared (sys_run (take K cs) (Sys ps s0))) (object_path lfs o) d ->
  asker en fuel m lfs ps cs j l reqs extra -> procs (sys_run cs (Sys ps s0)) !! j = Some q ->
  so_far_such en m lfs (Sys ps s0) cs j (l_in l) reqs extra (l_out (pr_local q)) (fun asked as_ =>
    forall n r a, asked !! n = Some r -> as_ !! n = Some a -> unread (Sys ps s0) cs j (l_in l) reqs K n -> knows en m o d r a).
Proof. exact (c102_fetch en fuel lfs ps s0 cs K o d m j l reqs extra q). Qed.
Print Assumptions C102_fetch.

(** Two clients have the object "abc".  The second client's batch comes when the first
    has uploaded it, so that it is asked for "de" only.  The third client fetches both. *)
Definition pull : list request := [both; RGet abc_oid []; RGet de_oid []].
Definition push : list request := [both; upload_of (bs "de")].
Definition three_clients : list (proc (Z * bytes)) :=
  [serving Upload push; serving Upload [upload_of (bs "abc")]; serving Download pull].
Definition in_turn : list choice := goes 1 45 ++ goes 0 70 ++ goes 2 80.

Example C102_case :
  let K := 115%nat in exists q q2,
  servers sha256 lfs_dir three_clients fs0 /\
  asker test_env 1000 Upload lfs_dir three_clients (take K in_turn) 0 (input_of push) push [] /\
  procs (sys_run (take K in_turn) (Sys three_clients fs0)) !! 0%nat = Some q /\
  l_out (pr_local q) = bs "000eversion=1
0000000fstatus 200
0001004c" ++ abc_oid ++ bs " 3 noop
004e" ++ de_oid ++ bs " 2 upload
0000000fstatus 200
0000" /\ answered (l_out (pr_local q)) (length push) /\ fair_batch [] /\ sends_it sha256 de_oid (upload_of (bs "de")) /\
  has_file (shared (sys_run (take K in_turn) (Sys three_clients fs0))) (object_path lfs_dir de_oid) (bs "de") /\
  asker test_env 1000 Download lfs_dir three_clients in_turn 2 (input_of pull) pull [] /\
  procs (sys_run in_turn (Sys three_clients fs0)) !! 2%nat = Some q2 /\
  unread (Sys three_clients fs0) in_turn 2 (l_in (input_of pull)) pull K 0 /\
  l_out (pr_local q2) = bs "000eversion=1
0000000fstatus 200
00010050" ++ abc_oid ++ bs " 3 download
0050" ++ de_oid ++ bs " 2 download
0000000fstatus 200
000bsize=3
00010007abc0000000fstatus 200
000bsize=2
00010006de0000".
Proof.
  intros K.
  set (ans := [PData (bs "version=1" ++ [NL]); PFlush; PData (bs "status 200" ++ [NL]); PDelim;
    PData (abc_oid ++ bs " 3 noop" ++ [NL]); PData (de_oid ++ bs " 2 upload" ++ [NL]); PFlush; PData (bs "status 200" ++ [NL]); PFlush]).
  assert (E : l_out ∘ pr_local <$> procs (sys_run (take K in_turn) (Sys three_clients fs0)) !! 0%nat = Some (enc_all ans)) by (vm_compute; reflexivity).
  assert (E2 : l_out ∘ pr_local <$> procs (sys_run in_turn (Sys three_clients fs0)) !! 2%nat = Some (bs "000eversion=1
0000000fstatus 200
00010050" ++ abc_oid ++ bs " 3 download
0050" ++ de_oid ++ bs " 2 download
0000000fstatus 200
000bsize=3
00010007abc0000000fstatus 200
000bsize=2
00010006de0000")) by (vm_compute; reflexivity).
  assert (E3 : l_in ∘ pr_local <$> procs (sys_run (take K in_turn) (Sys three_clients fs0)) !! 2%nat = Some (l_in (input_of pull)))
    by (vm_compute; reflexivity).
  apply fmap_Some in E as (q & Eq & E), E2 as (q2 & Eq2 & E2), E3 as (q3 & Eq3 & E3). unfold compose in E, E2, E3.
  exists q, q2. split_and!.
  - apply servers_of. repeat constructor; by eexists _, _.
  - apply asker_of; [done|by vm_compute..|]. by repeat constructor.
  - exact Eq.
  - rewrite <- E. by vm_compute.
  - exists ans, (enc_all ans). rewrite <- E. split_and!; [|done|apply Nat.ltb_lt; vm_compute; reflexivity].
    apply wires_enc. repeat constructor; by vm_compute.
  - exists None. split; [apply not_elem_of_nil|by left].
  - exists [(bs "size", bs "2")], [bs "de"], (bs "2"). split_and!.
    + by vm_compute.
    + by left.
    + apply parse_number. by vm_compute.
    + apply hex_of_iff. by vm_compute.
  - apply has_of. vm_compute. reflexivity.
  - apply asker_of; [done|by vm_compute..|]. by repeat constructor.
  - exact Eq2.
  - exists q3, []. split_and!; [exact Eq3|constructor|]. rewrite <- E3. exact (le_n _).
  - exact (eq_sym E2).
Qed.
