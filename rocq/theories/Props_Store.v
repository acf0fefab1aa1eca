(** Properties of the object store that hold for any number of concurrent servers,
    crashes and failing system calls. *)
From Verif Require Import Bytes Err FS Prog Pktline Args Local Processor Transfer Sha256 Rfc3339
  Spec SpecStore StoreProofs GetProofs ReadOnly Transcripts.

(** ** Values for the examples *)
Definition abc_oid : bytes := bs "ba7816bf8f01cfea414140de5dae2223b00361a396177a9cb410ff61f20015ad".
Definition put_abc : bytes :=
  bs "0050put-object ba7816bf8f01cfea414140de5dae2223b00361a396177a9cb410ff61f20015ad
000bsize=3
00010007abc0000".
Definition get_abc : bytes :=
  bs "0050get-object ba7816bf8f01cfea414140de5dae2223b00361a396177a9cb410ff61f20015ad
0000".
Definition go (i : nat) : choice := Choice i (AGo quiet_orc).
Definition kill (i : nat) : choice := Choice i ACrash.
Definition no_config : gres config := GOk (Config (GErr (GitErr GNotFound [])) (GErr (GitErr GNotFound []))).
Definition server (op : bytes) : prog (Z * bytes) := transfer_main test_env 300 lfs_dir no_config op.
Definition fs_dirs : fs := final_fs (session (bs "upload") [] fs0).
Definition fs_abc : fs := final_fs (session (bs "upload") put_abc fs0).

(** A boolean test of [store_ok] for the examples. *)
Lemma fs0_ok : sane fs0 /\ store_ok sha256 lfs_dir fs0.
Proof.
  assert (G : forall p j, nodes fs0 !! p <> Some (NFile j)).
  { intros p j H. unfold fs0 in H. simpl in H. rewrite lookup_insert_Some, lookup_singleton_Some in H. naive_solver. }
  split; [intros p j H; by apply G in H|]. intros o d _ (j & x & H & _). by apply G in H.
Qed.

Lemma sha256_ok : digest sha256.
Proof. exact sha256_length. Qed.

(** Two uploads of the same object and one download, taking turns; the third
    upload is killed while it copies. *)
Definition stdin2 (b : bytes) : local := Local b [] 18 1000.
Definition four : list (proc (Z * bytes)) :=
  [Proc (server (bs "upload")) (stdin2 put_abc) false;
   Proc (server (bs "upload")) (stdin2 put_abc) false;
   Proc (server (bs "download")) (stdin2 get_abc) false;
   Proc (server (bs "upload")) (stdin2 put_abc) false].
Definition turns (n : nat) : list choice :=
  concat (replicate n [go 0; go 1; go 2; go 3]).
Definition schedule : list choice := turns 19 ++ [kill 3] ++ turns 40.
Definition after : sys (Z * bytes) := sys_run schedule (Sys four fs0).

Lemma four_servers : Forall (fun p => is_server sha256 lfs_dir (pr_prog p)) four.
Proof. unfold four, is_server, server. repeat constructor; simpl; by eexists test_env, 300%nat, no_config, _. Qed.

(** C17.  Whatever servers run, however their calls interleave, fail or are cut
    short by crashes, every object file has the contents its name promises. *)
Theorem C17_store_integrity H lfs cs ps s0 :
  digest H -> Forall plain_name lfs -> Forall (fun p => is_server H lfs (pr_prog p)) ps ->
  sane s0 -> store_ok H lfs s0 -> store_ok H lfs (shared (sys_run cs (Sys ps s0))).
Proof. exact (c17 H lfs cs ps s0). Qed.
Print Assumptions C17_store_integrity.

Example C17_case :
  digest sha256 /\ Forall plain_name lfs_dir /\
  Forall (fun p => is_server sha256 lfs_dir (pr_prog p)) four /\
  sane fs0 /\ store_ok sha256 lfs_dir fs0 /\
  (* the object is there afterwards, and the killed upload left its copy *)
  contents (object_path lfs_dir abc_oid) (shared after) = Some (bs "abc") /\
  length (children (shared after) (lfs_dir ++ [bs "incomplete"])) = 1%nat.
Proof.
  split_and!; [exact sha256_ok| |exact four_servers|exact (proj1 fs0_ok)|exact (proj2 fs0_ok)| |].
  - repeat constructor; try done; by (refine (bool_decide_eq_true_1 _ _); vm_compute).
  - by vm_compute.
  - by vm_compute.
Qed.

(** C20.  A stored object stays, with the same bytes unless somebody has found a
    collision of the hash function. *)
Theorem C20_objects_persist H lfs cs ps s0 o d :
  digest H -> Forall plain_name lfs -> Forall (fun p => is_server H lfs (pr_prog p)) ps ->
  sane s0 -> store_ok H lfs s0 -> is_oid o -> has_file s0 (object_path lfs o) d ->
  exists d', has_file (shared (sys_run cs (Sys ps s0))) (object_path lfs o) d' /\
    (d' = d \/ (d' <> d /\ H d' = H d)).
Proof. exact (c20 H lfs cs ps s0 o d). Qed.
Print Assumptions C20_objects_persist.

Example C20_case :
  has_file fs_abc (object_path lfs_dir abc_oid) (bs "abc") /\
  contents (object_path lfs_dir abc_oid) (shared (sys_run schedule (Sys four fs_abc))) = Some (bs "abc").
Proof. split; [|by vm_compute]. exists 0%nat, (Inode (bs "abc") 1000 448 0 true). split_and!; by vm_compute. Qed.

(** C23.  A get-object round of a download server next to any other servers: if
    its answer starts with "status 200", the id is well-formed and the answer is
    the size and exactly the bytes of contents with that hash. *)
Theorem C23_download_contents H lfs cs ps s0 i en umask ts fuel rb l0 o tl w wl :
  digest H -> Forall plain_name lfs -> sane s0 -> store_ok H lfs s0 -> en_hash en = H ->
  Forall (fun p => exists q, is_server H lfs q /\ pr_prog p = (let! _ := q in Ret None)) (delete i ps) ->
  ps !! i = Some (Proc (let! x := process_one en (Backend lfs umask ts) fuel Download rb in Ret (Some x)) l0 false) ->
  wire (PData (bs "get-object " ++ o ++ [NL])) w -> SP ∉ o -> l_in l0 = w ++ tl ->
  wire (PData (bs "status 200" ++ [NL])) wl ->
  forall rb' l' dead wt,
  procs (sys_run cs (Sys ps s0)) !! i = Some (Proc (Ret (Some (Next rb'))) l' dead) ->
  l_out l' = l_out l0 ++ wl ++ wt ->
  is_oid o /\ exists d n ds, hex_of (H d) o /\ denotes n (lenN d) /\ concat ds = d /\
    ((lenN d < 2 ^ 64)%N ->
     wires (PData (bs "status 200" ++ [NL]) :: PData (bs "size=" ++ n ++ [NL]) :: PDelim ::
            map PData ds ++ [PFlush]) (wl ++ wt)).
Proof. exact (c23 H lfs cs ps s0 i en umask ts fuel rb l0 o tl w wl). Qed.
Print Assumptions C23_download_contents.

(** A download while another server replaces the object. *)
Definition two : list (proc (option next)) :=
  [Proc (let! x := process_one test_env (Backend lfs_dir 18 None) 300 Download rb_empty in Ret (Some x))
     (stdin2 get_abc) false;
   Proc (let! _ := server (bs "upload") in Ret None) (stdin2 put_abc) false].
Example C23_case :
  Forall (fun p => exists q, is_server sha256 lfs_dir q /\ pr_prog p = (let! _ := q in Ret None)) (delete 0%nat two) /\
  exists rb' l', procs (sys_run (turns 40) (Sys two fs_abc)) !! 0%nat = Some (Proc (Ret (Some (Next rb'))) l' false) /\
  l_out l' = bs "000fstatus 200
000bsize=3
00010007abc0000".
Proof.
  split.
  - repeat constructor. exists (server (bs "upload")). split; [|done]. by eexists test_env, 300%nat, no_config, _.
  - eexists _, _. split; by vm_compute.
Qed.

(** C37.  A put-object killed after any number of system calls: the other objects
    are as before, and the object itself is as before or complete. *)
Theorem C37_upload_atomic H lfs en umask ts fuel o0 rb n pid os l s :
  digest H -> Forall plain_name lfs -> en_hash en = H -> sane s -> store_ok H lfs s ->
  let s' := (run_crash n pid (p_put_object en (Backend lfs umask ts) fuel o0 rb) os l s).2 in
  (forall o d, is_oid o -> o <> o0 -> has_file s' (object_path lfs o) d <-> has_file s (object_path lfs o) d) /\
  ((forall d, has_file s' (object_path lfs o0) d <-> has_file s (object_path lfs o0) d) \/
   exists d, has_file s' (object_path lfs o0) d /\ hex_of (H d) o0).
Proof. exact (c37 H lfs en umask ts fuel o0 rb n pid os l s). Qed.
Print Assumptions C37_upload_atomic.

(** Both outcomes occur. *)
Example C37_case :
  let put := p_put_object test_env (Backend lfs_dir 18 None) 300 abc_oid rb_empty in
  let inp := stdin2 (bs "000bsize=3
00010007abc0000") in
  let at_ n := contents (object_path lfs_dir abc_oid) (run_crash n 0 put quiet inp fs_dirs).2 in
  at_ 9%nat = None /\ at_ 10%nat = Some (bs "abc") /\ at_ 20%nat = Some (bs "abc").
Proof. split_and!; by vm_compute. Qed.

(** C15.  With the four directories in place, download servers, however many and
    whatever their input, change no directory entry and no file. *)
Theorem C15_download_read_only lfs cs ps s0 :
  lfs_dirs s0 lfs ->
  Forall (fun p => exists en fuel cfg, pr_prog p = transfer_main en fuel lfs cfg (bs "download")) ps ->
  let s := shared (sys_run cs (Sys ps s0)) in nodes s = nodes s0 /\ inodes s = inodes s0.
Proof. exact (c15 lfs cs ps s0). Qed.
Print Assumptions C15_download_read_only.

Example C15_case :
  let bad := stdin2 (put_abc ++ bs "0009lock
000bpath=a
000ex") in
  let ps := [Proc (server (bs "download")) bad false; Proc (server (bs "download")) (stdin2 get_abc) false] in
  Forall (fun p => exists en fuel cfg, pr_prog p = transfer_main en fuel lfs_dir cfg (bs "download")) ps /\
  (* the server does answer something *)
  map (fun p => (50 <? lenN (l_out (pr_local p)))%N) (procs (sys_run (turns 60) (Sys ps fs_dirs))) = [true; true].
Proof. split; [repeat constructor; simpl; by eexists _, _, _|]. by vm_compute. Qed.

Example C15_directories : lfs_dirs fs_dirs lfs_dir.
Proof.
  intros d Hd a b E Ha. rewrite !elem_of_cons, elem_of_nil in Hd.
  destruct a as [|c1 a]; [done|]. destruct a as [|c2 a]; [injection E as <- E; by vm_compute|].
  destruct a as [|c3 a]; [injection E as <- <- E; by vm_compute|].
  destruct a as [|c4 a]; [injection E as <- <- <- E; by vm_compute|].
  destruct a as [|c5 a]; [|by destruct a]. injection E as <- <- <- <- E.
  destruct Hd as [->|[->|[->|[->|[]]]]]; by vm_compute.
Qed.
