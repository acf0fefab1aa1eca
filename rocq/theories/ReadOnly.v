(** Download mode changes nothing. *)
From Verif Require Import Bytes Err FS Prog Pktline Args Local Processor Transfer Wp Rg
  FsFacts SpecStore ServerEv.
From stdpp Require Import relations.

Lemma mkdirs_exist s cur comps :
  (forall a b, comps = a ++ b -> a <> [] -> nodes s !! (cur ++ a) = Some NDir) ->
  fs_mkdirs s cur comps = inr s.
Proof.
  revert cur. induction comps as [|c comps IH]; intros cur H; simpl; [done|].
  rewrite (H [c] comps eq_refl ltac:(done)). apply IH. intros a b -> Ha.
  rewrite <- app_assoc. by apply (H (c :: a) b).
Qed.

(** Calls a download server makes. *)
Definition harmless (lfs : path) (e : ev) : Prop :=
  quiet e \/ exists d, d ∈ dir_names /\ e = EMkdir (lfs ++ [d]).

Lemma ev_download_main en fuel lfs cfg :
  all_ev (harmless lfs) (transfer_main en fuel lfs cfg (bs "download")).
Proof.
  assert (Hq : forall A (p : prog A), all_ev quiet p -> all_ev (harmless lfs) p).
  { intros A p. apply all_ev_mono. by left. }
  unfold transfer_main, transfer_main_internal, transfer_run.
  apply all_ev_bind; [|intros a; exact I].
  apply all_ev_bindR; [by apply Hq, ev_set_permissions|]. intros um.
  apply all_ev_bindR.
  { unfold create_directories. assert (G : forall ds, (forall d, d ∈ ds -> d ∈ dir_names) ->
      all_ev (harmless lfs) (create_directories_in lfs ds)); [|by apply G].
    induction ds as [|d ds IH]; intros Hd; simpl; [exact I|].
    apply all_ev_bindR.
    - apply all_ev_io_call, all_ev_call. right. exists d. split; [|done]. apply Hd. left.
    - intros _. apply IH. intros d' Hd'. apply Hd. by right. }
  intros _. apply all_ev_bindR; [by apply Hq, ev_send_capabilities|]. intros _.
  change (mode_of (bs "download")) with (Some Download). apply Hq, ev_process_commands_download.
Qed.

Definition untouched (s0 s : fs) : Prop := nodes s = nodes s0 /\ inodes s = inodes s0.

Lemma rg_harmless {A} pid s0 lfs (p : prog A) l s :
  lfs_dirs s0 lfs -> all_ev (harmless lfs) p ->
  rg pid (fun _ _ => True) (fun _ _ => True) (untouched s0) p (fun _ _ _ => True) l s.
Proof.
  intros Hd. revert l s. induction p as [a|f|e k IH]; intros l s Hp; [done|done|].
  destruct Hp as [He Hk]. apply rg_vis. intros s1 o _ [H1 H2].
  pose proof (handle_resp_ok pid e o l s1) as Hr.
  assert (Hs : same s1 (handle_ev pid e o l s1).2).
  { destruct He as [He|(d & Hdd & ->)]; [by apply quiet_same|].
    simpl. unfold faulty. destruct (o_fault o); [done|]. simpl. unfold fs_mkdir_all.
    rewrite mkdirs_exist; [done|]. intros a b E Ha. rewrite H1. by apply (Hd d Hdd a b). }
  destruct (handle_ev pid e o l s1) as [[r l'] s2]. destruct Hs as [H3 H4]. simpl in *.
  split_and!; [split; congruence|done|]. apply IH. by apply Hk.
Qed.

Lemma c15 lfs cs ps s0 :
  lfs_dirs s0 lfs ->
  Forall (fun p => exists en fuel cfg, pr_prog p = transfer_main en fuel lfs cfg (bs "download")) ps ->
  let s := shared (sys_run cs (Sys ps s0)) in nodes s = nodes s0 /\ inodes s = inodes s0.
Proof.
  intros Hd Hps.
  destruct (sys_run_sound (fun _ _ _ => True) (fun _ _ _ => True) (untouched s0)
    (fun _ (_ : Z * bytes) _ _ => True) ltac:(done) ltac:(done) ltac:(done) cs (Sys ps s0)) as [[H _] _]; [|exact H].
  split; [done|]. intros i p Hp. exists s0. split; [done|].
  rewrite Forall_lookup in Hps. destruct (Hps i p Hp) as (en & fuel & cfg & ->).
  apply (rg_harmless i s0 lfs); [done|]. apply ev_download_main.
Qed.
