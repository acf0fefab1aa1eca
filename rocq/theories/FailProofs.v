(** Refused uploads while system calls fail: proofs for Props_Fail.v. *)
From Verif Require Import Bytes Err FS Prog Pktline Args Local Processor Transfer Wp Rg Wpr
  ByteFacts PktFacts FsFacts Spec SpecStore SpecFrame ServerEv PktProofs TextProofs IoFacts ObjProofs StoreProofs
  GetProofs UploadAny UploadSure.

Section put.
Context (en : env) (lfs : path) (umask : N) (ts : option Z) (fuel pid : nat) (s0 : fs).
Context (Hlfs : Forall stays lfs) (Hs0 : sane s0).
Let F (f : failure) (l : local) (s : fs) : Prop := True.
Notation WP := (wpr permits_well pid F).
Local Notation inc := (lfs ++ [bs "incomplete"]).
Local Notation be := (Backend lfs umask ts).

(** The objects are those of [s0]. *)
Definition kept (s : fs) : Prop :=
  (forall o j, is_oid o -> nodes s !! expected_path lfs o = Some (NFile j) <-> nodes s0 !! expected_path lfs o = Some (NFile j)) /\
  (length (inodes s0) <= length (inodes s))%nat /\
  (forall j x, inodes s0 !! j = Some x -> exists x', inodes s !! j = Some x' /\ i_data x' = i_data x).
Lemma kept_refl : kept s0.
Proof using Type. split_and!; [done|done|]. intros j x Hx. by exists x. Qed.
Lemma kept_files s o d : kept s -> is_oid o -> has_file s (expected_path lfs o) d <-> has_file s0 (expected_path lfs o) d.
Proof using Hs0.
  intros (H1 & _ & H2) Ho. split; intros (j & x & Hj & Hx & Hd).
  - apply H1 in Hj; [|done]. destruct (inodes s0 !! j) as [y|] eqn:E.
    + destruct (H2 j y E) as (x' & Hx' & Hd'). exists j, y. split_and!; [done|done|]. congruence.
    + apply lookup_ge_None in E. pose proof (Hs0 _ _ Hj). lia.
  - destruct (H2 j x Hx) as (x' & Hx' & Hd'). exists j, x'. split_and!; [by apply H1|done|congruence].
Qed.
Lemma kept_nodes f s : kept s -> (forall o, is_oid o -> f (nodes s) !! expected_path lfs o = nodes s !! expected_path lfs o) ->
  kept (set_nodes f s).
Proof using Type. intros (H1 & H2 & H3) Hf. split_and!; [|done|done]. intros o j Ho. cbn [nodes set_nodes]. rewrite Hf by done. by apply H1. Qed.
Lemma kept_log p x s : kept s -> kept (log p x s).
Proof using Type. done. Qed.

(** Calls about one's temporary file. *)
Definition temp (tmp : path) : Prop := exists c, stays c /\ tmp = inc ++ [c].
Lemma kept_write fd b s : (length (inodes s0) <= fd)%nat -> kept s -> kept (fs_write fd b s).2.
Proof using Type.
  intros Hfd (H1 & H2 & H3). unfold fs_write. destruct (inode_at s fd); [|done]. split_and!; [done| |].
  - simpl. by rewrite alter_length.
  - intros j x Hx. destruct (H3 j x Hx) as (x' & Hx' & Hd). exists x'. split; [|done].
    cbn [snd]. rewrite inodes_upd_ne; [done|]. apply lookup_lt_Some in Hx. lia.
Qed.
Lemma kept_drop tmp (Q : unit -> local -> fs -> Prop) l s : temp tmp -> kept s -> (forall l s, kept s -> Q tt l s) -> WP (drop_temp tmp) Q l s.
Proof using Hlfs.
  intros (c & Hc & ->) Hk HQ. unfold drop_temp. apply wpr_bind, wpr_call. intros o. cbn [handle_ev]. unfold faulty, with_l.
  destruct (o_fault o); [intros _; by apply wpr_ret, HQ|]. unfold fs_unlink.
  destruct (file_at s (inc ++ [c])) as [e|[q i]] eqn:E; [intros _; by apply wpr_ret, HQ|].
  apply file_at_stays in E as [-> _]; [|apply Forall_app; split; [by apply inc_stays|by constructor]].
  intros _. apply wpr_ret, HQ. apply kept_log. apply kept_nodes; [done|]. intros o' Ho'. apply lookup_delete_ne. apply inc_obj.
Qed.
Lemma wpr_kept {A} (p : prog A) (Q : A -> local -> fs -> Prop) l s :
  all_ev quiet p -> kept s -> (forall a l s, kept s -> Q a l s) -> WP p Q l s.
Proof using Type.
  intros Hp Hk HQ. revert l s Hk. induction p as [a|f|e k IH]; intros l s Hk; [by apply HQ|exact I|]. destruct Hp as [He Hp].
  apply wpr_vis. intros o. pose proof (quiet_same pid e o l s He) as [E1 E2]. pose proof (handle_resp_ok pid e o l s) as Hr.
  destruct (handle_ev pid e o l s) as [[r l'] s']. intros _. apply IH; [by apply Hp|]. cbn in E1, E2. unfold kept. by rewrite E1, E2.
Qed.
Lemma kept_copy f fd got rb (Q : res bytes * rbuf -> local -> fs -> Prop) l s : (length (inodes s0) <= fd)%nat -> kept s ->
  (forall a l s, kept s -> Q a l s) -> WP (copy_to_file f fd got rb) Q l s.
Proof using Type.
  intros Hfd. revert got rb l s. induction f as [|f IH]; intros got rb l s Hk HQ; [exact I|]. cbn [copy_to_file].
  apply wpr_bind, wpr_kept; [by apply rd_reader_read|done|]. intros [[d|e] rb'] l1 s1 Hk1; [|by apply wpr_ret, HQ].
  destruct d as [|b d]; [by apply wpr_ret, HQ|]. apply wpr_bind, wpr_call. intros o. cbn [handle_ev].
  destruct (o_fault o).
  { intros _. apply wpr_ret, HQ. by apply kept_write. }
  pose proof (kept_write fd (b :: d) s1 Hfd Hk1) as Hk2. unfold with_l.
  destruct (fs_write fd (b :: d) s1) as [[[]|e] s2]; intros _; [|by apply wpr_ret, HQ]. by apply IH.
Qed.

Lemma permits p l s : WP (fix_permissions be p) (fun r _ _ => r = Ok tt) l s.
Proof using Type.
  unfold fix_permissions. apply wpr_bindR. unfold io_call. apply wpr_bind, wpr_call. intros o3.
  destruct (handle_ev pid (EStat p) o3 l s) as [[r l3] s3]. intros [x ->]. apply wpr_ret. cbn [res_of_io].
  apply wpr_bind, wpr_call. intros o4. destruct (handle_ev pid (EChmod p _) o4 l3 s3) as [[r l4] s4].
  intros Hr. cbn in Hr. subst r. by apply wpr_ret.
Qed.
Lemma kept_finish o tmp l s : is_oid o -> temp tmp -> kept s ->
  WP (finish_upload be (UploadState o tmp)) (fun r _ s' => forall e, r = Er e -> kept s') l s.
Proof using Hlfs.
  intros Ho Ht Hk. unfold finish_upload. cbn [us_oid us_temp be_lfs]. apply wpr_bind, wpr_call. intros o1. cbn [handle_ev].
  assert (Hdrop : forall e l s, kept s -> WP (let! _ := drop_temp tmp in Ret (@Er unit e)) (fun r _ s' => forall e, r = Er e -> kept s') l s).
  { intros e l1 s1 Hk1. apply wpr_bind, kept_drop; [done|done|]. intros l2 s2 Hk2. by apply wpr_ret. }
  unfold faulty, with_l. destruct (o_fault o1); [intros _; by apply Hdrop|]. unfold fs_mkdir_all.
  destruct (fs_mkdirs s [] _) as [e|s1] eqn:E; intros _; [by apply Hdrop|].
  apply mkdirs_spec in E as (E1 & _ & E2 & _).
  assert (Hk1 : kept s1).
  { destruct Hk as (H1 & H2 & H3). split_and!; [|by rewrite E1|by rewrite E1]. intros o' j Ho'.
    destruct (E2 (expected_path lfs o')) as [->|(_ & _ & a & b & Ha & Hab & Ep)]; [by apply H1|].
    exfalso. simpl in Ep. subst a. apply (f_equal length) in Hab. unfold expected_path in Hab.
    rewrite removelast_app in Hab by done. rewrite !app_length in Hab. simpl in Hab. lia. }
  cbn [fst snd]. apply wpr_bind, wpr_call. intros o2. cbn [handle_ev]. unfold faulty, with_l. destruct (o_fault o2); [intros _; by apply Hdrop|].
  destruct (fs_rename tmp (expected_path lfs o) s1) as [r s2] eqn:Er'. intros _. destruct r as [[]|e].
  - cbn [fst snd]. eapply wpr_mono; [|apply permits]. by intros r l' s' -> e.
  - cbn [fst snd]. apply Hdrop. unfold fs_rename in Er'. destruct (file_at s1 tmp) as [e1|[q i]]; [by injection Er' as _ <-|].
    destruct (resolve s1 _) as [e1|q']; [by injection Er' as _ <-|].
    destruct (node_at s1 q') as [[|]|]; try done. by injection Er' as _ <-.
Qed.

Lemma kept_put o0 rb l s : kept s -> WP (p_put_object en be fuel o0 rb) (fun (x : res status * rbuf) _ s' => forall e, x.1 = Er e -> kept s') l s.
Proof using Hlfs.
  intros Hk. unfold p_put_object. destruct (oid_new o0) as [o|e] eqn:Eo; [|by apply wpr_ret].
  apply oid_new_iff in Eo as [-> Ho]. apply wpr_bind, wpr_kept; [|done|].
  { unfold read_to_delim, or_panic. ev; by apply rd_read_to_type. }
  intros [expected|e] l1 s1 Hk1; [|by apply wpr_ret].
  apply wpr_bind. unfold start_upload. apply wpr_bind, wpr_call. intros o1. cbn [handle_ev be_lfs]. unfold faulty, with_l.
  destruct (o_fault o1); [intros _; by repeat apply wpr_ret|].
  destruct (fs_mktemp pid (l_uid l1) inc o0 (o_sfx o1) s1) as [r s2] eqn:Em. intros _.
  assert (Hm : kept s2 /\ match r with IOk (tmp, fd) => temp tmp /\ (length (inodes s0) <= fd)%nat | IErr _ => True end).
  { unfold fs_mktemp in Em. destruct (resolve s1 inc) as [e|d] eqn:E; [by injection Em as <- <-|].
    apply resolve_stays in E as ->; [|by apply inc_stays].
    destruct (node_at s1 inc) as [[|]|]; try by injection Em as <- <-. simpl in Em.
    set (c := free_name s1 inc (o0 ++ o_sfx o1)) in Em.
    assert (Hc : stays c).
    { assert (64 <= length c)%nat.
      { destruct Ho as [Ho _]. unfold c, free_name. destruct (nodes s1 !! (inc ++ [o0 ++ o_sfx o1])); rewrite !app_length; lia. }
      clearbody c. split_and!; intros ->; vm_compute in H; lia. }
    clearbody c. injection Em as <- <-. destruct Hk1 as (H1 & H2 & H3). split; [split_and!|split].
    - intros o' j Ho'. cbn [nodes set_nodes]. rewrite lookup_insert_ne by apply inc_obj. by apply H1.
    - simpl. rewrite app_length. lia.
    - intros j x Hx. destruct (H3 j x Hx) as (x' & Hx' & Hd). exists x'. split; [|done]. simpl. by apply lookup_app_l_Some.
    - by exists c.
    - done. }
  destruct Hm as [Hk2 Hm]. destruct r as [[tmp fd]|e]; [|by repeat apply wpr_ret]. destruct Hm as [Ht Hfd].
  assert (Hdrop : forall e rb' l s, kept s -> WP (let! _ := drop_temp tmp in Ret (@Er status e, rb')) (fun (x : res status * rbuf) _ s' => forall e, x.1 = Er e -> kept s') l s).
  { intros e rb' l3 s3 Hk3. apply wpr_bind, kept_drop; [done|done|]. intros l4 s4 Hk4. by apply wpr_ret. }
  apply wpr_bind, kept_copy; [done|done|]. intros [[got|e] rb'] l3 s3 Hk3.
  2: { apply wpr_bind, kept_drop; [done|done|]. intros l4 s4 Hk4. by repeat apply wpr_ret. }
  apply wpr_ret. cbn [us_temp]. destruct (_ <? expected)%N; [by apply Hdrop|]. destruct (expected <? _)%N; [by apply Hdrop|].
  destruct (oid_new _) as [ao|e]; [|by apply Hdrop]. destruct (decide (ao <> o0)); [by apply Hdrop|].
  apply wpr_bind. eapply wpr_mono; [|by apply kept_finish]. intros [[]|e] l4 s4 H4; apply wpr_ret; [done|].
  intros e' _. by eapply H4.
Qed.

Lemma wpr_noout {A} (p : prog A) (Q : A -> local -> fs -> Prop) l s : all_ev noout p -> WP p Q l s ->
  WP p (fun a l' s' => l_out l' = l_out l /\ Q a l' s') l s.
Proof using Type.
  cut (forall w, l_out l = w -> all_ev noout p -> WP p Q l s -> WP p (fun a l' s' => l_out l' = w /\ Q a l' s') l s).
  { intros Hc. by apply Hc. }
  intros w. revert l s. induction p as [a|f|e k IH]; intros l s Hl Hp Hr; [done|done|].
  destruct Hp as [He Hk]. apply wpr_vis. intros o. specialize (Hr o).
  pose proof (handle_resp_ok pid e o l s) as Ho. pose proof (noout_out pid e o l s He) as Hout.
  destruct (handle_ev pid e o l s) as [[r l'] s2]. simpl in Ho, Hout. intros Hg.
  apply IH; [congruence|by apply Hk|by apply Hr].
Qed.

Context (Hplain : Forall plain_name lfs).
Lemma kept_process line o w tl rb l : dispatch (command_words line) Upload = CPut o -> line <> [] -> (lenN line <= 65531)%N ->
  l_in l = enc (PData line) ++ tl -> w = l_out l ->
  WP (process_one en be fuel Upload rb)
     (fun x l' s' => forall rb', x = Next rb' -> (exists t, l_out l' = w ++ enc_all (pk (status_line 200)) ++ t) \/ kept s') l s0.
Proof using Hlfs Hplain.
  intros Hdisp Hne Hlen Hin ->. unfold process_one. apply wpr_bind.
  eapply wpr_mono; [|apply wpr_conj; [apply wpr_noout; [by apply rd_read_packet|
    apply (wpr_any _ _ _ _ (fun r _ _ => r = Ok (PData line) \/ exists e, r = Er e))]|
    apply (wpr_kept _ (fun _ _ s => kept s)); [by apply rd_read_packet|apply kept_refl|done]]].
  2: { apply any_read_packet.
    + rewrite Hin, decode_enc; [|simpl; lia|lia]. simpl. auto.
    + intros e i _. simpl. eauto. }
  intros r l1 s1 [[E Hr] Hk]. destruct Hr as [-> | [e ->]]; [|by apply wpr_ret].
  cbn [pkt_data]. destruct line as [|b line]; [done|]. rewrite Hdisp. rewrite <- E.
  apply wpr_bind. cbn [handle_command].
  eapply wpr_mono; [|apply wpr_noout; [apply no_put|apply wpr_conj; [apply wpr_any, (ok_put en lfs umask ts pid fuel Hplain)|by apply kept_put]]].
  intros [r rb'] l2 s2 (E2 & Hst & Hke). simpl in Hst, Hke. rewrite <- E2. unfold and_go_on. apply wpr_bind.
  destruct r as [st|e].
  - destruct (Hst st eq_refl) as [-> _]. apply wpr_any. unfold answer, send_status. apply wp_bind, wp_call. intros or _. cbn [handle_ev].
    apply wp_bindR, any_send; [|intros; by apply wpr_ret]. cbn [st_success st_args st_msgs st_reader st_code default from_option send_all].
    apply wp_bindR, wp_ret, wp_bindR, wp_ret. apply any_flush; [|intros; by apply wpr_ret].
    apply wpr_ret. intros rb2 _. left. eexists. simpl. by rewrite <- app_assoc.
  - apply wpr_kept; [apply ev_answer; done|by eapply Hke|]. intros [[]|e'] l3 s3 Hk3; apply wpr_ret; [|done]. intros; by right.
Qed.
End put.

Lemma c73 en lfs umask ts fuel pid os rb l0 s0 o w tl wl x l' s' : Forall plain_name lfs -> sane s0 ->
  wire (PData (bs "put-object " ++ o ++ [NL])) w -> SP ∉ o -> l_in l0 = w ++ tl ->
  wire (PData (bs "status 200" ++ [NL])) wl ->
  let p := process_one en (Backend lfs umask ts) fuel Upload rb in
  run_such permits_well pid p os l0 s0 -> run pid p os l0 s0 = (Done (Next x), l', s') ->
  (forall wt, l_out l' <> l_out l0 ++ wl ++ wt) ->
  forall o' d, is_oid o' -> has_file s' (object_path lfs o') d <-> has_file s0 (object_path lfs o') d.
Proof.
  intros Hl Hs Hw Hsp Hin Hwl p Hsuch Hrun Hno o' d Ho'.
  apply wire_inv in Hw as [-> Hlen]. apply wire_inv in Hwl as [-> _]. simpl in Hlen.
  pose proof (plain_stays_all _ Hl) as Hst.
  assert (Hk : kept lfs s0 s').
  { eapply wpr_run in Hsuch; [|eapply (kept_process en lfs umask ts fuel pid s0 Hst Hl (bs "put-object " ++ o ++ [NL]) o _ tl); [by rewrite put_words|done|exact Hlen|exact Hin|done]].
    rewrite Hrun in Hsuch. destruct (Hsuch x eq_refl) as [[t Ht]|Hk]; [|done]. exfalso. eapply Hno. rewrite Ht.
    rewrite pk_short by (by apply status_line_small). cbn [enc_all flat_map]. by rewrite app_nil_r. }
  rewrite object_path_eq. by apply kept_files.
Qed.
