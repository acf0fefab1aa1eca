(** Which files servers change and which they look at: C51, C52. *)
From Verif Require Import Bytes Err FS Prog Pktline Args Local Processor Transfer Sha256 Rfc3339
  Spec SpecStore SpecServer SpecEnd SpecTalk SpecBounds BoundsProofs LookProofs Transcripts
  Props_Store Props_Server Props_End Props_Lock Props_Talk.

(** ** C51 *)

(** Whatever servers run for the repositories [L], however their calls interleave,
    fail or are cut short by crashes: outside of [L] no name appears, disappears or
    changes, but for missing directories above [L]; and no file with a name outside
    changes in contents, owner or permissions. *)
Theorem C51_changes_only_inside L cs ps s0 :
  Forall (Forall plain_name) L -> Forall (fun p => exists lfs, lfs ∈ L /\ server_at lfs (pr_prog p)) ps ->
  sane s0 -> apart L s0 -> untouched L s0 (shared (sys_run cs (Sys ps s0))).
Proof. exact (c51 L cs ps s0). Qed.
Print Assumptions C51_changes_only_inside.

(** A file outside of the repository, and an upload session that asks to unlock it. *)
Definition hosts : path := [bs "etc"; bs "hosts"].
Definition hosts_inode : inode := Inode (bs "127.0.0.1 localhost") 0 420 0 false.
Definition fs_etc : fs := FS (<[hosts := NFile 0]> (<[[bs "etc"] := NDir]> (nodes fs0))) [hosts_inode] [].
Definition unlock_hosts : bytes := bs "0016unlock /etc/hosts
0000".
Definition etc_procs : list (proc (Z * bytes)) :=
  [Proc (server (bs "upload")) (stdin2 (unlock_hosts ++ put_abc)) false;
   Proc (server (bs "upload")) (stdin2 put_abc) false].
Notation s_etc := (shared (sys_run (Props_Talk.turns 16 ++ [kill 1] ++ Props_Talk.turns 60) (Sys etc_procs fs_etc))).

Lemma etc_files q j : nodes fs_etc !! q = Some (NFile j) -> q = hosts /\ j = 0%nat.
Proof.
  unfold fs_etc, fs0. cbn [nodes]. rewrite !lookup_insert_Some, lookup_singleton_Some. naive_solver.
Qed.
Example C51_case :
  Forall (Forall plain_name) [lfs_dir] /\
  Forall (fun p => exists lfs, lfs ∈ [lfs_dir] /\ server_at lfs (pr_prog p)) etc_procs /\
  sane fs_etc /\ apart [lfs_dir] fs_etc /\ ~ inside [lfs_dir] hosts /\
  length (inodes s_etc) = 3%nat /\ nodes s_etc !! object_path lfs_dir abc_oid = Some (NFile 2) /\
  nodes s_etc !! hosts = Some (NFile 0) /\ inodes s_etc !! 0%nat = Some hosts_inode.
Proof.
  assert (Ho : ~ inside [lfs_dir] hosts).
  { intros (lfs & H%elem_of_list_singleton & x & E). subst. apply (f_equal head) in E. by vm_compute in E. }
  split_and!; [constructor; [exact lfs_plain|done]| | | |exact Ho|by vm_compute..].
  - repeat constructor; exists lfs_dir; (split; [by left|by eexists _, _, _, _]).
  - intros q j [-> ->]%etc_files. by vm_compute; lia.
  - intros q q' j Hq _ [-> ->]%etc_files. done.
Qed.

(** ** C52 *)

(** Refuted: the id of an unlock request is taken for a path, and the server opens
    it, here outside of the repository. *)
Theorem C52_looks_inside_refuted :
  exists en fuel cfg tr d tr' x q,
    calls (transfer_main en fuel lfs_dir cfg (bs "upload")) (tr ++ d :: tr') x /\ Forall true_names tr /\
    looks_at d = Some q /\ resolve fs_etc q = inr hosts /\ ~ lfs_dir `prefix_of` hosts.
Proof.
  pose (tr := calls_of 0 (server (bs "upload")) quiet (stdin2 unlock_hosts) fs_etc).
  pose (n := 13%nat).
  assert (E : looks_at <$> tr !! n = Some (Some [[]; bs "etc"; bs "hosts"])) by by vm_compute.
  destruct (tr !! n) as [d|] eqn:Ed; [|done]. injection E as E.
  exists test_env, 300%nat, no_config, (take n tr), d, (drop (S n) tr), (result_of 0 (server (bs "upload")) quiet (stdin2 unlock_hosts) fs_etc), [[]; bs "etc"; bs "hosts"].
  split_and!; [|  |done|by vm_compute|].
  - rewrite (take_drop_middle _ _ _ Ed). apply calls_of_result.
  - assert (F : forallb (fun d => match projT1 d with EReaddir _ => false | _ => true end) (take n tr) = true) by by vm_compute.
    apply Forall_forall. intros c Hc p ns ->. rewrite forallb_forall in F. apply elem_of_list_In, F in Hc. done.
  - intros [x E']. apply (f_equal head) in E'. by vm_compute in E'.
Qed.
Print Assumptions C52_looks_inside_refuted.

(** True instead, whatever the system answers as long as names of directory entries
    have no "/": a server looks at something outside of its repository only after it
    has read an unlock command whose id has a "/". *)
Theorem C52_looks_inside_partial en fuel lfs cfg op tr d tr' x q :
  Forall plain_name lfs -> calls (transfer_main en fuel lfs cfg op) (tr ++ d :: tr') x -> Forall true_names tr ->
  looks_at d = Some q -> leads_inside lfs q \/ (op = bs "upload" /\ exists d', d' ∈ tr /\ asks_beyond d').
Proof. exact (c52 en fuel lfs cfg op tr d tr' x q). Qed.
Print Assumptions C52_looks_inside_partial.

(** A download server never does. *)
Theorem C52_download_looks_inside en fuel lfs cfg tr d tr' x q :
  Forall plain_name lfs -> calls (transfer_main en fuel lfs cfg (bs "download")) (tr ++ d :: tr') x -> Forall true_names tr ->
  looks_at d = Some q -> leads_inside lfs q.
Proof. intros H1 H2 H3 H4. by destruct (c52 _ _ _ _ _ _ _ _ _ _ H1 H2 H3 H4) as [|[? _]]. Qed.
Print Assumptions C52_download_looks_inside.

(** A listing and a download look at two paths. *)
Definition list_get : bytes := bs "000elist-lock
0000" ++ get_abc.
Example C52_case :
  let tr := calls_of 0 (server (bs "download")) quiet (stdin2 list_get) fs_abc in
  Forall plain_name lfs_dir /\ calls (server (bs "download")) tr (Some (0%Z, [])) /\ Forall true_names tr /\
  omap looks_at tr = [lfs_dir ++ [bs "locks"]; object_path lfs_dir abc_oid].
Proof.
  intros tr. split_and!; [exact lfs_plain| | |by vm_compute].
  - assert (E : result_of 0 (server (bs "download")) quiet (stdin2 list_get) fs_abc = Some (0%Z, [])) by by vm_compute.
    rewrite <- E. apply calls_of_result.
  - assert (F : forallb (fun d => match d with existT (EReaddir _) (IOk (_ :: _)) => false | _ => true end) tr = true) by by vm_compute.
    apply Forall_forall. intros c Hc p ns ->. rewrite forallb_forall in F. apply elem_of_list_In, F in Hc. by destruct ns.
Qed.
