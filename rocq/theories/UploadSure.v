(** Uploads next to other servers while any system call may fail. *)
From Verif Require Import Bytes Err FS Prog Pktline Args Local Processor Transfer Wp Rg
  ByteFacts PktFacts FsFacts Spec SpecStore ServerEv PktProofs TextProofs IoFacts ObjProofs StoreProofs GetProofs.
From stdpp Require Import relations.
Local Opaque COPY_BUF pk MAX_PACKET_LEN.

Section put.
Context (H : bytes -> bytes) (lfs : path) (n0 : nat) (W : nat -> bytes -> Prop).
Context (Hlfs : Forall stays lfs) (HH : digest H) (pid : nat).
Local Notation RG := (rg pid (Rely H lfs n0 W pid) (Guar lfs n0 W pid) (Inv H lfs n0)).
Local Notation stable := (stable H lfs n0 W pid).
Local Notation inc := (lfs ++ [bs "incomplete"]).

(** The object is in the store. *)
Definition there (o : bytes) (s : fs) : Prop := exists j, nodes s !! expected_path lfs o = Some (NFile j).
Lemma stable_there o : stable (there o).
Proof using Type.
  intros i s s' _ _ _ HG [j Hj]. unfold there.
  destruct (gu_obj _ _ _ _ _ _ HG o) as [E|[[E _]|(_ & _ & E)]]; [|congruence|done]. exists j. congruence.
Qed.

Lemma rename_there o tmp fd got s : is_oid o -> owns lfs n0 pid tmp fd got s ->
  match (fs_rename tmp (expected_path lfs o) s).1 with
  | IOk _ => there o (fs_rename tmp (expected_path lfs o) s).2
  | IErr _ => True
  end.
Proof using Hlfs.
  intros Ho ((c & Hc & ->) & Hn & Hn0 & x & Hx & Ht & Hcr & Hd). unfold fs_rename.
  destruct (file_at s (inc ++ [c])) as [e|[q i]] eqn:E; [done|].
  destruct (resolve s (expected_path lfs o)) as [e|q'] eqn:E'; [done|].
  apply resolve_stays in E' as ->; [|by apply obj_stays].
  destruct (node_at s (expected_path lfs o)) as [[|k]|]; simpl; [done| |]; exists i; simpl; by rewrite lookup_insert.
Qed.

(** Programs that put nothing out. *)
Definition noout (e : ev) : Prop := match e with EOut _ => False | _ => True end.
Lemma noout_out e o l s : noout e -> l_out (handle_ev pid e o l s).1.2 = l_out l.
Proof using Type.
  destruct e; intros Hn; try done; simpl; unfold faulty, with_l; try (by destruct (o_fault o)).
  destruct (o_fault o); [done|]. unfold do_read. by destruct (n <=? lenN (l_in l))%N.
Qed.
Lemma rg_noout {A} (p : prog A) (Q : A -> local -> fs -> Prop) l s :
  all_ev noout p -> RG p Q l s -> RG p (fun a l' s' => l_out l' = l_out l /\ Q a l' s') l s.
Proof using Type.
  cut (forall w, l_out l = w -> all_ev noout p -> RG p Q l s -> RG p (fun a l' s' => l_out l' = w /\ Q a l' s') l s).
  { intros Hc. by apply Hc. }
  intros w. revert l s. induction p as [a|f|e k IH]; intros l s Hl Hp Hr; [done|done|].
  destruct Hp as [He Hk]. apply rg_vis. intros s1 o HR HI. specialize (Hr s1 o HR HI).
  pose proof (handle_resp_ok pid e o l s1) as Ho. pose proof (noout_out e o l s1 He) as Hout.
  destruct (handle_ev pid e o l s1) as [[r l'] s2]. simpl in Ho, Hout. destruct Hr as (H1 & H2 & H3).
  split_and!; [done|done|]. apply IH; [congruence|by apply Hk|exact H3].
Qed.
Lemma rg_grows {A} (p : prog A) (Q : A -> local -> fs -> Prop) l s :
  RG p Q l s -> RG p (fun a l' s' => (exists more, l_out l' = l_out l ++ more) /\ Q a l' s') l s.
Proof using Type.
  cut (forall w, (exists more, l_out l = w ++ more) -> RG p Q l s ->
    RG p (fun a l' s' => (exists more, l_out l' = w ++ more) /\ Q a l' s') l s).
  { intros Hc. apply Hc. exists []. by rewrite app_nil_r. }
  intros w. revert l s. induction p as [a|f|e k IH]; intros l s Hl Hr; [done|done|].
  apply rg_vis. intros s1 o HR HI. specialize (Hr s1 o HR HI).
  pose proof (handle_grows pid e o l s1) as [more Hm].
  destruct (handle_ev pid e o l s1) as [[r l'] s2]. simpl in Hm. destruct Hr as (H1 & H2 & H3).
  split_and!; [done|done|]. apply IH; [|exact H3]. destruct Hl as [m0 Hl]. exists (m0 ++ more). by rewrite Hm, Hl, app_assoc.
Qed.
Hint Extern 1 (noout _) => exact I : ev.
Lemma no_copy f fd got rb : all_ev noout (copy_to_file f fd got rb).
Proof using Type. revert got rb. induction f as [|f IH]; intros got rb; simpl; ev. by apply rd_reader_read. Qed.
Lemma no_put en be fuel o rb : all_ev noout (p_put_object en be fuel o rb).
Proof using Type.
  unfold p_put_object, read_to_delim, start_upload, finish_upload, fix_permissions, drop_temp, or_panic.
  ev; first [by apply rd_read_to_type|apply no_copy].
Qed.

Lemma rg_finish_sure be o tmp fd got l s : be_lfs be = lfs -> W pid o -> is_oid o -> hex_encode (H got) = o ->
  owns lfs n0 pid tmp fd got s ->
  RG (finish_upload be (UploadState o tmp)) (fun r _ s' => r = Ok tt -> there o s') l s.
Proof using Hlfs.
  intros Hbe HW Ho Hh Hown. unfold finish_upload. simpl. rewrite Hbe.
  apply rg_bind. eapply rg_mono; [|apply (rg_easy H lfs n0 W Hlfs pid (owns lfs n0 pid tmp fd got)); [apply stable_owns|by apply all_ev_call|done]].
  intros [u|e] l1 s1 Ho1; simpl.
  2: { apply rg_bind, (rg_drop_temp H lfs n0 W Hlfs); [by intros; apply rg_ret|eauto]. }
  apply rg_bind, rg_call. intros s2 orc HR HI.
  pose proof (stable_rely H lfs n0 W _ _ _ _ (stable_owns H lfs n0 W pid tmp fd got) HR Ho1) as Ho2.
  simpl. unfold faulty, with_l. destruct (o_fault orc).
  { destruct (same_ok H lfs n0 W s2 s2) as [H1 H2]; [done|done|]. split_and!; [done|done|].
    apply rg_bind, (rg_drop_temp H lfs n0 W Hlfs); [by intros; apply rg_ret|eauto]. }
  pose proof (rename_ok H lfs n0 W Hlfs pid o tmp fd got s2 HW Ho Hh Ho2 HI) as Hr.
  pose proof (rename_there o tmp fd got s2 Ho Ho2) as Ht.
  destruct (fs_rename tmp (expected_path lfs o) s2) as [r s3]. simpl in *. destruct Hr as (H1 & H2 & H3).
  split_and!; [done|done|]. destruct r as [u'|e].
  - eapply rg_mono; [|apply (rg_easy H lfs n0 W Hlfs pid (there o)); [apply stable_there| |done]]; [done|].
    unfold fix_permissions. ev.
  - apply rg_bind, (rg_drop_temp H lfs n0 W Hlfs); [by intros; apply rg_ret|eauto].
Qed.

Lemma rg_put_sure en be fuel o0 rb l s : be_lfs be = lfs -> en_hash en = H -> (is_oid o0 -> W pid o0) ->
  RG (p_put_object en be fuel o0 rb)
     (fun x _ s' => match x.1 with Ok st => st = st_success /\ is_oid o0 /\ there o0 s' | Er _ => True end) l s.
Proof using Hlfs.
  intros Hbe Hen HW. unfold p_put_object. destruct (oid_new o0) as [o|e] eqn:Eo; [|done].
  apply oid_new_iff in Eo as [-> Ho].
  apply rg_bind, (rg_true H lfs n0 W Hlfs).
  2: { unfold read_to_delim, or_panic. ev; by apply rd_read_to_type. }
  intros [expected|e] l1 s1; [|done].
  apply rg_bind. unfold start_upload. rewrite Hbe. apply rg_bind, rg_call.
  intros s2 orc HR HI. simpl. unfold faulty, with_l.
  destruct (o_fault orc).
  { destruct (same_ok H lfs n0 W s2 s2) as [H1 H2]; [done|done|]. split_and!; done. }
  pose proof (mktemp_ok H lfs n0 W Hlfs pid (l_uid l1) o0 (o_sfx orc) s2 (proj1 Ho) HI) as Hm.
  destruct (fs_mktemp pid (l_uid l1) inc o0 (o_sfx orc) s2) as [r s3]. simpl in *.
  destruct Hm as ((H1 & H2) & H3). split_and!; [done|done|].
  destruct r as [[tmp fd]|e]; [|done].
  apply rg_bind. eapply rg_mono; [|by apply (rg_copy_to_file H lfs n0 W Hlfs pid fuel tmp fd)].
  intros [r rb'] l3 s4. simpl. destruct r as [got|e].
  2: { intros Hown. apply rg_bind. apply (rg_drop_temp H lfs n0 W Hlfs); [done|]. destruct Hown. eauto. }
  intros Hown. apply rg_ret. simpl.
  assert (Hfail : forall e, RG (let! _ := drop_temp tmp in Ret (@Er status e, rb'))
    (fun x _ s' => match x.1 with Ok st => st = st_success /\ is_oid o0 /\ there o0 s' | Er _ => True end) l3 s4).
  { intros e. apply rg_bind, (rg_drop_temp H lfs n0 W Hlfs); [by intros; apply rg_ret|eauto]. }
  destruct (lenN got <? expected)%N; [apply Hfail|].
  destruct (expected <? lenN got)%N; [apply Hfail|].
  destruct (oid_new (hex_encode (en_hash en got))) as [ao|e] eqn:Ea; [|apply Hfail].
  apply oid_new_iff in Ea as [-> Ha]. case_decide as Hd; [apply Hfail|].
  rewrite Hen in Hd.
  apply rg_bind. eapply rg_mono; [|apply (rg_finish_sure be o0 tmp fd got); auto].
  intros [[]|e] l4 s5 Hf; apply rg_ret; [|done]. simpl. auto.
Qed.

(** What is put out for an upload says 200 only if the object is there. *)
Definition put_result (o : bytes) (w : bytes) (s : fs) : Prop := (is_oid o /\ there o s) \/ other_answer w.

Lemma rg_process_put en be fuel line o w tl rb l s : be_lfs be = lfs -> en_hash en = H -> (is_oid o -> W pid o) ->
  dispatch (command_words line) Upload = CPut o -> line <> [] -> (lenN line <= 65531)%N ->
  l_in l = enc (PData line) ++ tl -> w = l_out l ->
  RG (process_one en be fuel Upload rb)
     (fun x l' s' => forall rb', x = Next rb' -> exists w', l_out l' = w ++ w' /\ put_result o w' s') l s.
Proof using Hlfs.
  intros Hbe Hen HW Hdisp Hne Hlen Hin ->. unfold process_one. apply rg_bind.
  eapply rg_mono; [|apply (rg_io H lfs n0 W pid (fun _ => True) _ (fun r l' => l_out l' = l_out l /\ (r = Ok (PData line) \/ exists e, r = Er e)) _ _ s);
    [done|by apply rd_read_packet|done|]].
  2: { apply any_read_packet.
    + rewrite Hin, decode_enc; [|simpl; lia|lia]. simpl. auto.
    + intros e i _. simpl. eauto. }
  intros r l1 s1 [[E [-> | [e ->]]] _]; [|by apply rg_ret].
  cbn [pkt_data]. destruct line as [|b line]; [done|]. rewrite Hdisp. rewrite <- E.
  apply rg_bind. cbn [handle_command].
  eapply rg_mono; [|apply rg_noout; [apply no_put|by apply rg_put_sure]].
  intros [r rb'] l2 s2 [E2 Hr]. simpl in Hr. rewrite <- E2. unfold and_go_on. apply rg_bind.
  destruct r as [st|e].
  - destruct Hr as (-> & Ho & Ht).
    eapply rg_mono; [|apply rg_grows, (rg_easy H lfs n0 W Hlfs pid (there o)); [apply stable_there| |exact Ht]].
    + intros [[]|e] l' s' [[w Hw] Ht']; apply rg_ret; [|done]. intros rb2 _. exists w. split; [done|by left].
    + apply ev_answer. apply quiet_easy.
  - destruct (client_or_server e) as (c & m & Ec & Hc & Hc'). simpl. rewrite Ec.
    eapply rg_mono; [|by apply (rg_send_status_other H lfs n0 W Hlfs)].
    intros [[]|e'] l' s' Hx; apply rg_ret; [|done]. intros rb2 _. destruct (Hx eq_refl) as (w & Ew & Hw).
    exists w. split; [done|by right].
Qed.
End put.

Lemma put_words o : SP ∉ o -> command_words (bs "put-object " ++ o ++ [NL]) = [bs "put-object"; o].
Proof.
  intros Ho. unfold command_words.
  rewrite app_assoc, last_is_snoc, bool_decide_eq_true_2, removelast_last by done.
  change (bs "put-object ") with (bs "put-object" ++ [SP]).
  rewrite <- app_assoc. change ([SP] ++ o) with (SP :: o). rewrite split_on_app.
  - by rewrite split_on_none.
  - refine (bool_decide_eq_true_1 _ _). by vm_compute.
Qed.

Lemma c72 H lfs cs ps s0 i en umask ts fuel rb l0 o tl w wl :
  digest H -> Forall plain_name lfs -> sane s0 -> store_ok H lfs s0 -> en_hash en = H ->
  Forall (fun p => exists q, is_server H lfs q /\ pr_prog p = (let! _ := q in Ret None)) (delete i ps) ->
  ps !! i = Some (Proc (let! x := process_one en (Backend lfs umask ts) fuel Upload rb in Ret (Some x)) l0 false) ->
  wire (PData (bs "put-object " ++ o ++ [NL])) w -> SP ∉ o -> l_in l0 = w ++ tl ->
  wire (PData (bs "status 200" ++ [NL])) wl ->
  forall rb' l' dead wt,
  procs (sys_run cs (Sys ps s0)) !! i = Some (Proc (Ret (Some (Next rb'))) l' dead) ->
  l_out l' = l_out l0 ++ wl ++ wt ->
  is_oid o /\ exists d, has_file (shared (sys_run cs (Sys ps s0))) (object_path lfs o) d /\ hex_of (H d) o.
Proof.
  intros HH Hl Hs Ho Hen Hps Hi Hw Hsp Hin Hwl rb' l' dead wt Hend Hout.
  set (n0 := length (inodes s0)).
  set (Q := fun (j : nat) (x : option next) (l : local) (s : fs) =>
    j = i -> forall rb', x = Some (Next rb') -> exists w', l_out l = l_out l0 ++ w' /\ put_result lfs o w' s).
  apply wire_inv in Hw as [-> Hlen]. apply wire_inv in Hwl as [-> _]. simpl in Hlen.
  destruct (servers_sound H lfs n0 any_oid Q cs ps s0) as [[HI Hy] _].
  - by apply store_inv.
  - intros j p Hj. destruct (decide (j = i)) as [->|Hne].
    + rewrite Hi in Hj. injection Hj as <-. simpl. apply rg_bind.
      eapply rg_mono; [|eapply (rg_process_put H lfs n0 any_oid)].
      * intros x l s Hx. apply rg_ret. intros _ rb2 [= ->]. by eapply Hx.
      * by apply plain_stays_all.
      * done.
      * done.
      * done.
      * by rewrite put_words.
      * done.
      * exact Hlen.
      * exact Hin.
      * done.
    + rewrite Forall_lookup in Hps.
      assert (exists k, delete i ps !! k = Some p) as [k Hk].
      { destruct (decide (j < i)%nat).
        - exists j. by rewrite lookup_delete_lt.
        - exists (Nat.pred j). rewrite lookup_delete_ge by lia. by replace (S (Nat.pred j)) with j by lia. }
      destruct (Hps _ _ Hk) as (q & Hq & ->). apply rg_bind.
      eapply rg_mono; [|apply rg_server; [by apply plain_stays_all|done|done|exact Hq]].
      intros a l s _. by apply rg_ret.
  - destruct (Hy _ _ Hend) as (s1 & HR & HQ). simpl in HQ. destruct (HQ eq_refl rb' eq_refl) as (w' & E & Hw').
    rewrite Hout in E. apply app_inv_head in E as <-.
    destruct Hw' as [[Hio Ht]|(c & t & Hc & Hc' & Ew)].
    2: { change (bs "status 200" ++ [NL]) with (status_line 200) in Ew. symmetry in Ew.
         apply first_line in Ew; [done|lia|done]. }
    split; [done|].
    pose proof (stable_rely _ _ _ _ _ _ _ _ (stable_there H lfs n0 any_oid i o) HR Ht) as [j Hj].
    destruct (inv_obj _ _ _ _ HI o j Hio Hj) as (x & Hx & Eh & _). exists (i_data x). split.
    + exists j, x. rewrite object_path_eq. done.
    + by apply hex_of_iff.
Qed.
