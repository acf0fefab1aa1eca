(** Downloads next to other servers. *)
From Verif Require Import Bytes Err FS Prog Pktline Args Local Processor Transfer Wp Rg
  ByteFacts PktFacts FsFacts Spec SpecStore ServerEv PktProofs TextProofs IoFacts ObjProofs StoreProofs.
From stdpp Require Import relations.

Lemma copy_buf_pos : exists k, N.to_nat COPY_BUF = S k.
Proof. exists (Nat.pred (N.to_nat COPY_BUF)). unfold COPY_BUF. lia. Qed.
Local Opaque COPY_BUF pk MAX_PACKET_LEN.

Section get.
Context (H : bytes -> bytes) (lfs : path) (n0 : nat) (W : nat -> bytes -> Prop).
Context (Hlfs : Forall stays lfs) (HH : digest H) (pid : nat).
Local Notation RG := (rg pid (Rely H lfs n0 W pid) (Guar lfs n0 W pid) (Inv H lfs n0)).
Local Notation stable := (stable H lfs n0 W pid).
Local Notation inc := (lfs ++ [bs "incomplete"]).

(** Programs that do not look at the file system. *)
Lemma rg_io {A} (P : fs -> Prop) (p : prog A) (Q : A -> local -> Prop) l s sx :
  stable P -> all_ev io_ev p -> P s ->
  wp pid any_orc (fun _ _ _ => True) p (fun a l' _ => Q a l') l sx ->
  RG p (fun a l' s' => Q a l' /\ P s') l s.
Proof using Type.
  intros HP. revert l s. induction p as [a|f|e k IH]; intros l s Hp Hs Hw; [done|done|].
  destruct Hp as [He Hk]. apply rg_vis. intros s1 o HR HI.
  pose proof (stable_rely _ _ _ _ _ _ _ _ HP HR Hs) as Hs1.
  pose proof (handle_resp_ok pid e o l s1) as Hr.
  pose proof (Hw o Logic.I) as Hw'.
  rewrite (io_handle pid e o l sx s1 He) in Hr |- *.
  pose proof (io_handle pid e o l sx sx He) as E.
  destruct (handle_ev pid e o l sx) as [[r l'] s2]. simpl in *. injection E as ->.
  destruct (same_ok H lfs n0 W s1 s1) as [H1 H2]; [done|done|].
  split_and!; [done|done|]. apply IH; try done. by apply Hk.
Qed.

(** Programs that write nothing. *)
Definition silent (e : ev) : Prop := match e with EOut _ => False | _ => quiet e end.
Lemma silent_out e o l s : silent e -> l_out (handle_ev pid e o l s).1.2 = l_out l.
Proof using Type.
  destruct e; intros []; simpl; unfold faulty; try (by destruct (o_fault o)); try done.
  destruct (o_fault o); [done|]. unfold do_read. by destruct (n <=? lenN (l_in l))%N.
Qed.
Lemma rg_silent {A} (P : fs -> Prop) (p : prog A) l s :
  stable P -> all_ev silent p -> P s -> RG p (fun _ l' s' => l_out l' = l_out l /\ P s') l s.
Proof using Hlfs.
  intros HP. cut (forall w, all_ev silent p -> l_out l = w -> P s -> RG p (fun _ l' s' => l_out l' = w /\ P s') l s).
  { intros Hc Hp Hs. by apply Hc. }
  intros w. revert l s. induction p as [a|f|e k IH]; intros l s Hp Hl Hs; [done|done|].
  destruct Hp as [He Hk]. apply rg_vis. intros s1 o HR HI.
  pose proof (stable_rely _ _ _ _ _ _ _ _ HP HR Hs) as Hs1.
  pose proof (handle_resp_ok pid e o l s1) as Hr.
  pose proof (silent_out e o l s1 He) as Hout.
  assert (Hq : quiet e) by (by destruct e).
  pose proof (quiet_same pid e o l s1 Hq) as Hsame.
  destruct (handle_ev pid e o l s1) as [[r l'] s2]. simpl in *.
  destruct (same_ok H lfs n0 W s1 s2) as [H1 H2]; [done|done|].
  split_and!; [done|done|]. apply IH; [by apply Hk|congruence|].
  apply (HP (S pid) s1 s2); try done; lia.
Qed.

(** A file nobody will write to any more. *)
Definition frozen (j : nat) (d : bytes) (s : fs) : Prop :=
  exists x, inodes s !! j = Some x /\ i_data x = d /\
    ((j < n0)%nat \/ i_temp x = true /\ forall c, nodes s !! (inc ++ [c]) <> Some (NFile j)).

Lemma stable_frozen j d : stable (frozen j d).
Proof using Type.
  intros i s s' Hi HI HI' HG (x & Hx & Hd & Hf).
  destruct (gu_ino _ _ _ _ _ _ HG j x Hx) as (x' & Hx' & E1 & E2 & E3 & E4). exists x'.
  split_and!; [done| |].
  - destruct E4 as [->|(Hn & _ & Hc)]; [done|]. destruct Hf as [Hf|[Ht Hf]]; [lia|].
    destruct (Hc Ht) as [c Hc']. by destruct (Hf c).
  - destruct Hf as [Hf|[Ht Hf]]; [by left|right]. split; [congruence|].
    intros c Hc. apply (Hf c). apply (gu_new _ _ _ _ _ _ HG c j Hc). by apply lookup_lt_Some in Hx.
Qed.

Lemma object_frozen s o j : Inv H lfs n0 s -> is_oid o -> nodes s !! expected_path lfs o = Some (NFile j) ->
  exists d, frozen j d s /\ hex_encode (H d) = o.
Proof using Type.
  intros HI Ho Hj. destruct (inv_obj _ _ _ _ HI o j Ho Hj) as (x & Hx & E & Ht).
  exists (i_data x). split; [|done]. exists x. split_and!; try done.
  destruct (decide (j < n0)%nat) as [?|Hn]; [by left|right]. assert (Hn' : (n0 <= j)%nat) by lia.
  split; [auto|]. intros c Hc.
  pose proof (inv_one _ _ _ _ HI _ _ _ _ Hj Hc Hx Hn' (Ht Hn')) as E2.
  symmetry in E2. by apply inc_obj in E2.
Qed.

(** A quiet call that looks at the file system. *)
Lemma rg_look (P : fs -> Prop) e (Q : resp e -> local -> fs -> Prop) l s :
  stable P -> quiet e -> P s ->
  (forall o s1, Inv H lfs n0 s1 -> P s1 -> Q (handle_ev pid e o l s1).1.1 (handle_ev pid e o l s1).1.2
     (handle_ev pid e o l s1).2) -> RG (call e) Q l s.
Proof using Type.
  intros HP He Hs HQ. apply rg_call. intros s1 o HR HI.
  pose proof (stable_rely _ _ _ _ _ _ _ _ HP HR Hs) as Hs1.
  pose proof (HQ o s1 HI Hs1) as Hq. pose proof (quiet_same pid e o l s1 He) as Hsame.
  destruct (handle_ev pid e o l s1) as [[r l'] s2]. simpl in *.
  destruct (same_ok H lfs n0 W s1 s2) as [H1 H2]; [done|done|]. done.
Qed.

(** Copying a file out. *)
Lemma rg_copy_out f j d off l s : frozen j d s ->
  RG (copy_out f (HFile j) off) (fun r l' _ => r = Ok tt ->
    exists ds, concat ds = drop off d /\ Forall small ds /\ l_out l' = l_out l ++ enc_all (map PData ds)) l s.
Proof using Hlfs.
  revert off l s. induction f as [|f IH]; intros off l s Hs; cbn [copy_out]; [done|].
  apply rg_bindR, rg_io_call, (rg_look (frozen j d)); [apply stable_frozen|done|done|].
  intros o s1 HI (x & Hx & Hd & Hf). simpl. unfold faulty. destruct (o_fault o); [done|]. simpl.
  assert (Hfz : frozen j d s1) by (by exists x).
  unfold fs_data, inode_at. rewrite Hx, Hd.
  set (c := take (N.to_nat COPY_BUF) (drop off d)). destruct c as [|y c'] eqn:Ec.
  - apply rg_ret. intros _. exists []. simpl. rewrite app_nil_r.
    split_and!; [|constructor|done]. unfold c in Ec. symmetry.
    destruct (drop off d); [done|]. destruct copy_buf_pos as [k Ek]. by rewrite Ek in Ec.
  - rewrite <- Ec. clear y c' Ec. apply rg_bindR.
    eapply rg_mono; [|apply (rg_io (frozen j d) _ (fun r l' => r = Ok tt -> l_out l' = l_out l ++ enc_all (pk c)) _ _ s1);
      [apply stable_frozen|by apply wr_send|done|by apply any_send]].
    intros [[]|e] l2 s2 [Hout Hfz2]; [|done]. specialize (Hout eq_refl).
    eapply rg_mono; [|by apply IH]. intros r l3 s3 HQ Hr. destruct (HQ Hr) as (ds & E1 & E2 & E3).
    destruct (pk_chunks c) as (cs & C0 & C1 & C2). exists (cs ++ ds).
    split_and!.
    + rewrite concat_app, E1, C1. rewrite <- drop_drop.
      assert (Ek : drop (length c) (drop off d) = drop (N.to_nat COPY_BUF) (drop off d)).
      { unfold c. rewrite take_length.
        destruct (decide (N.to_nat COPY_BUF <= length (drop off d))%nat); [by rewrite Nat.min_l|].
        rewrite !drop_ge; [done|lia|lia]. }
      rewrite Ek. unfold c. apply take_drop.
    + apply Forall_app. done.
    + rewrite E3, Hout, map_app, enc_all_app, C0. by rewrite app_assoc.
Qed.

(** ** The answer to one get-object request *)
Definition get_answer (o : bytes) (w : bytes) : Prop :=
  exists d ds, hex_encode (H d) = o /\ concat ds = d /\ Forall small ds /\
    w = enc_all (pk (status_line 200)) ++ enc_all (pk (bs "size=" ++ dec (lenN d) ++ [NL])) ++
        enc PDelim ++ enc_all (map PData ds) ++ enc PFlush.

Lemma rg_send_status_reader fuel j d l s o : frozen j d s -> hex_encode (H d) = o ->
  RG (answer fuel (st_new_reader [bs "size=" ++ dec (lenN d) ++ [NL]] (HFile j)))
     (fun r l' _ => r = Ok tt -> exists w, l_out l' = l_out l ++ w /\ get_answer o w) l s.
Proof using Hlfs.
  intros Hs Ho. unfold answer, send_status.
  apply rg_bind. eapply rg_mono; [|apply (rg_silent (frozen j d)); [apply stable_frozen|by apply all_ev_call|done]].
  intros _ l1 s1 [E1 Hs1].
  assert (Hsend : forall m la sa, frozen j d sa -> RG (send m) (fun r l' s' =>
    (r = Ok tt -> l_out l' = l_out la ++ enc_all (pk m)) /\ frozen j d s') la sa).
  { intros m la sa Hsa. apply (rg_io (frozen j d) _ (fun r l' => r = Ok tt -> l_out l' = l_out la ++ enc_all (pk m)) _ _ sa);
      [apply stable_frozen|by apply wr_send|done|by apply any_send]. }
  apply rg_bindR. eapply rg_mono; [|by apply Hsend].
  intros [[]|e] l2 s2 [E2 Hs2]; [|done]. specialize (E2 eq_refl). cbn [st_args st_new_reader default from_option].
  cbn [send_all]. apply rg_bindR, rg_bindR. eapply rg_mono; [|by apply Hsend].
  intros [[]|e] l3 s3 [E3 Hs3]; [|done]. specialize (E3 eq_refl). apply rg_ret.
  cbn [st_msgs st_reader st_new_reader].
  apply rg_bindR, rg_bindR. eapply rg_mono; [|apply (rg_io (frozen j d) _
    (fun r l' => r = Ok tt -> l_out l' = l_out l3 ++ enc PDelim) _ _ s3);
      [apply stable_frozen|by apply wr_delim|done|by apply any_delim]].
  intros [[]|e] l4 s4 [E4 Hs4]; [|done]. specialize (E4 eq_refl).
  eapply rg_mono; [|by apply (rg_copy_out fuel j d 0)].
  intros [[]|e] l5 s5 E5; [|done]. destruct (E5 eq_refl) as (ds & D1 & D2 & D3).
  eapply rg_mono; [|apply (rg_io (fun _ => True) _
    (fun r l' => r = Ok tt -> l_out l' = l_out l5 ++ enc PFlush) _ _ s5);
      [done|by apply wr_flush|done|by apply any_flush]].
  intros r l6 s6 [E6 _] ->. specialize (E6 eq_refl).
  eexists. split; [|exists d, ds; split_and!; [done|by rewrite D1|done|done]].
  rewrite E6, D3, E4, E3, E2, E1. by rewrite <- !app_assoc.
Qed.

(** Answers other than a success. *)
Definition other_answer (w : bytes) : Prop :=
  exists c tl, c <> 200%N /\ (100 <= c < 1000)%N /\ w = enc_all (pk (status_line c)) ++ tl.

Lemma rg_send_status_other fuel c m l s : c <> 200%N -> (100 <= c < 1000)%N ->
  RG (answer fuel (st_failure c m))
     (fun r l' _ => r = Ok tt -> exists w, l_out l' = l_out l ++ w /\ other_answer w) l s.
Proof using Hlfs.
  intros Hc Hc'. unfold answer, send_status.
  apply rg_bind. eapply rg_mono; [|apply (rg_silent (fun _ => True)); [done|by apply all_ev_call|done]].
  intros _ l1 s1 [E1 _]. cbn [st_failure st_args st_msgs st_code default from_option].
  eapply rg_mono; [|eapply (rg_io (fun _ => True) _
    (fun r l' => r = Ok tt -> exists tl, l_out l' = l_out l1 ++ enc_all (pk (status_line c)) ++ tl) _ _ s1); [done| |done|]].
  - intros r l2 s2 [E2 _] ->. destruct (E2 eq_refl) as [tl ->]. rewrite E1. eexists. split; [done|].
    exists c, tl. done.
  - ev; first [by apply wr_send|by apply wr_send_all|by apply wr_delim|by apply wr_flush|
      by apply all_ev_bindR; intros; [apply wr_send|]].
  - apply wp_bindR, any_send; [|done]. cbn [send_all]. apply wp_bindR, wp_ret.
    apply wp_bindR, wp_bindR, any_delim; [|done].
    apply wp_bindR, any_send; [|done]. apply wp_ret.
    apply any_flush; [|done]. intros _. eexists. simpl. rewrite <- !app_assoc. done.
Qed.

Definition get_result (o : bytes) (w : bytes) : Prop := (is_oid o /\ get_answer o w) \/ other_answer w.

Lemma client_or_server e : exists c m, status_of_error e = st_failure c m /\ c <> 200%N /\ (100 <= c < 1000)%N.
Proof using Type. unfold status_of_error. destruct (client_error _); eexists _, _; split; try done; lia. Qed.

Lemma rg_get en be fuel o rb l s : be_lfs be = lfs ->
  RG (let! (r, rb') := handle_command en be fuel (CGet o) Download rb in
      and_go_on rb' (answer fuel (status_of r)))
     (fun x l' _ => forall rb', x = Next rb' -> exists w, l_out l' = l_out l ++ w /\ get_result o w) l s.
Proof using Hlfs.
  intros Hbe.
  assert (Hend : forall (r : res status) w0 la sa,
    l_out la = w0 ->
    (match r with
     | Ok st => (exists c m, st = st_failure c m /\ c <> 200%N /\ (100 <= c < 1000)%N) \/
                (is_oid o /\ exists j d, st = st_new_reader [bs "size=" ++ dec (lenN d) ++ [NL]] (HFile j) /\
                   frozen j d sa /\ hex_encode (H d) = o) \/
                (exists n, st = st_new_reader [bs "size=" ++ dec n ++ [NL]] HDir)
     | Er _ => True end) ->
    RG (and_go_on rb (answer fuel (status_of r)))
     (fun x l' _ => forall rb', x = Next rb' -> exists w, l_out l' = w0 ++ w /\ get_result o w) la sa).
  { intros r w0 la sa <- Hr. unfold and_go_on. apply rg_bind.
    assert (Hfail : forall c m, c <> 200%N -> (100 <= c < 1000)%N ->
      RG (answer fuel (st_failure c m)) (fun a l' s' => RG (Ret match a with Ok _ => Next rb | Er e => Return (Er e) end)
        (fun x l'' _ => forall rb', x = Next rb' -> exists w, l_out l'' = l_out la ++ w /\ get_result o w) l' s') la sa).
    { intros c m Hc Hc'. eapply rg_mono; [|by apply rg_send_status_other].
      intros [[]|e] l' s' Hx; apply rg_ret; [|done]. intros rb' _. destruct (Hx eq_refl) as (w & E & Hw).
      exists w. split; [done|by right]. }
    destruct r as [st|e].
    2: { destruct (client_or_server e) as (c & m & E & Hc & Hc'). simpl. rewrite E. by apply Hfail. }
    simpl. destruct Hr as [(c & m & -> & Hc & Hc')|[(Hio & j & d & -> & Hf & Hh)|(n & ->)]].
    - by apply Hfail.
    - eapply rg_mono; [|by apply rg_send_status_reader].
      intros [[]|e] l' s' Hx; apply rg_ret; [|done]. intros rb' _. destruct (Hx eq_refl) as (w & E & Hw).
      exists w. split; [done|by left].
    - (* a directory: reading it fails *)
      eapply (rg_mono _ _ _ _ _ (fun a _ _ => a <> Ok tt)).
      { intros [[]|e] l' s' Hx; apply rg_ret; done. }
      unfold answer, send_status.
      assert (Ht : forall A (p : prog A) (Q : A -> local -> fs -> Prop) lx sx,
        (forall a l s, Q a l s) -> all_ev quiet p -> RG p Q lx sx).
      { intros A p Q lx sx HQ Hp. apply rg_true; [done..|]. eapply all_ev_mono; [apply quiet_easy|done]. }
      apply rg_bind, Ht; [|by apply all_ev_call]. intros _ l1 s1.
      apply rg_bindR, Ht; [|by apply ev_send]. intros [?|?] l2 s2; [|done].
      apply rg_bindR, Ht; [|by apply ev_send_all]. intros [?|?] l3 s3; [|done].
      cbn [st_msgs st_reader st_new_reader].
      apply rg_bindR, rg_bindR, Ht; [|by apply ev_delim]. intros [?|?] l4 s4; [|done].
      destruct fuel as [|f]; [done|]. cbn [copy_out].
      apply rg_bindR, rg_io_call, (rg_look (fun _ => True)); [done..|].
      intros o1 s5 _ _. simpl. unfold faulty. by destruct (o_fault o1). }
  unfold handle_command. apply rg_bind, rg_bind.
  assert (Hret : forall w0 (r : res status) la sa,
    RG (and_go_on rb (answer fuel (status_of r)))
     (fun x l' _ => forall rb', x = Next rb' -> exists w, l_out l' = w0 ++ w /\ get_result o w) la sa ->
    RG (Ret (r, rb)) (fun a l' s' => RG (let '(r, rb') := a in and_go_on rb' (answer fuel (status_of r)))
      (fun x l'' _ => forall rb', x = Next rb' -> exists w, l_out l'' = w0 ++ w /\ get_result o w) l' s') la sa).
  { intros w0 r la sa Hx. by apply rg_ret. }
  unfold p_get_object.
  apply rg_bindR. eapply rg_mono; [|apply (rg_silent (fun _ => True)); [done|by apply rd_read_to_type|done]].
  intros [lines|e] l1 s1 [E1 _].
  2: { apply Hret, Hend; done. }
  apply rg_bindR. unfold or_panic. destruct (parse_args lines) as [[args|e]|]; [|by apply rg_ret, Hret, Hend|done].
  apply rg_ret. apply rg_bindR, rg_ret.
  destruct (oid_new o) as [o'|e] eqn:Eo; [|by apply Hret, Hend].
  apply oid_new_iff in Eo as [-> Hio].
  apply rg_bind. unfold backend_download. rewrite Hbe.
  set (QQ := fun (d : res (handle * N)) (l : local) (s : fs) => l_out l = l_out l1 /\
    match d with
    | Ok (HFile j, n) => exists dd, n = lenN dd /\ frozen j dd s /\ hex_encode (H dd) = o
    | _ => True
    end).
  eapply (rg_mono _ _ _ _ _ QQ).
  { intros d l2 s2 [E2 Hd]. rewrite <- E1, <- E2. destruct d as [[h n]|e].
    - apply rg_ret, Hret. apply Hend; [done|].
      destruct h as [|j].
      + right. right. by exists n.
      + right. left. destruct Hd as (dd & -> & Hf & Hh). split; [done|]. by exists j, dd.
    - case_decide.
      + apply rg_ret, Hret. apply Hend; [done|]. left. eexists _, _. split; [done|]. split; [done|lia].
      + apply rg_ret, Hret. by apply Hend. }
  apply rg_bindR, rg_io_call, (rg_look (fun _ => True)); [done..|].
  intros o1 s2 HI _. simpl. unfold faulty. destruct (o_fault o1); [by split|]. simpl.
  unfold fs_open. destruct (resolve s2 (expected_path lfs o)) as [e|q] eqn:Er; [by split|].
  apply resolve_stays in Er as ->; [|by apply obj_stays].
  assert (Hnd : node_at s2 (expected_path lfs o) = nodes s2 !! expected_path lfs o)
    by (unfold expected_path; by destruct lfs).
  rewrite Hnd. destruct (nodes s2 !! expected_path lfs o) as [[|j]|] eqn:Ej; [| |by split].
  - simpl. apply rg_bindR, rg_io_call, (rg_look (fun _ => True)); [done..|].
    intros o2 s3 _ _. simpl. unfold faulty. destruct (o_fault o2); by split.
  - destruct (object_frozen s2 o j HI Hio Ej) as (d & Hf & Hh).
    simpl. apply rg_bindR, rg_io_call, (rg_look (frozen j d)); [apply stable_frozen|done|done|].
    intros o2 s3 _ Hf3. simpl. unfold faulty. destruct (o_fault o2); [by split|]. simpl. apply rg_ret.
    split; [done|]. exists d. split_and!; [|done|done].
    destruct Hf3 as (x & Hx & Hd & _). unfold fs_data, inode_at. by rewrite Hx, Hd.
Qed.

Lemma rg_process_get en be fuel line o w tl rb l s : be_lfs be = lfs ->
  dispatch (command_words line) Download = CGet o -> line <> [] -> (lenN line <= 65531)%N ->
  l_in l = enc (PData line) ++ tl ->
  w = l_out l ->
  RG (process_one en be fuel Download rb)
     (fun x l' _ => forall rb', x = Next rb' -> exists w', l_out l' = w ++ w' /\ get_result o w') l s.
Proof using Hlfs.
  intros Hbe Hdisp Hne Hlen Hin ->. unfold process_one. apply rg_bind.
  eapply rg_mono; [|apply (rg_io (fun _ => True) _ (fun r l' => l_out l' = l_out l /\ (r = Ok (PData line) \/ exists e, r = Er e)) _ _ s);
    [done|by apply rd_read_packet|done|]].
  - intros r l1 s1 [[E [-> | [e ->]]] _]; [|by apply rg_ret].
    cbn [pkt_data]. destruct line as [|b line]; [done|]. rewrite Hdisp. rewrite <- E. by apply rg_get.
  - apply any_read_packet.
    + rewrite Hin, decode_enc; [|simpl; lia|lia]. simpl. auto.
    + intros e i _. simpl. eauto.
Qed.
End get.

(** ** C23 *)
Lemma denotes_dec n : denotes (dec n) n.
Proof. apply denotes_dval. destruct (dec_spec n) as (H1 & H2 & H3). done. Qed.

Lemma get_words o : SP ∉ o -> command_words (bs "get-object " ++ o ++ [NL]) = [bs "get-object"; o].
Proof.
  intros Ho. unfold command_words.
  rewrite app_assoc, last_is_snoc, bool_decide_eq_true_2, removelast_last by done.
  change (bs "get-object ") with (bs "get-object" ++ [SP]).
  rewrite <- app_assoc. change ([SP] ++ o) with (SP :: o). rewrite split_on_app.
  - by rewrite split_on_none.
  - refine (bool_decide_eq_true_1 _ _). by vm_compute.
Qed.

(** The first line of an answer decides its kind. *)
Lemma first_line c d tl tl' : (c < 1000)%N -> (d < 1000)%N ->
  enc_all (pk (status_line c)) ++ tl = enc (PData (status_line d)) ++ tl' -> c = d.
Proof.
  intros Hc Hd. rewrite pk_short by (by apply status_line_small). cbn [enc_all flat_map].
  rewrite app_nil_r. intros E. apply status_line_inj.
  pose proof (status_line_small c Hc). pose proof (status_line_small d Hd). unfold small in *.
  pose proof (decode_enc 65535 (PData (status_line c)) tl) as E1.
  pose proof (decode_enc 65535 (PData (status_line d)) tl') as E2. cbn [pkt_len] in E1, E2.
  rewrite E, E2 in E1 by lia. specialize (E1 ltac:(lia) ltac:(lia)). congruence.
Qed.

Lemma size_line_small n : (n < 2 ^ 64)%N -> small (bs "size=" ++ dec n ++ [NL]).
Proof.
  intros Hn. unfold small, lenN. rewrite !app_length. pose proof (dec_length n 64 Hn) as Hd.
  change (N.to_nat 64) with 64%nat in Hd. simpl. lia.
Qed.

Lemma c23 H lfs cs ps s0 i en umask ts fuel rb l0 o tl w wl :
  digest H -> Forall plain_name lfs -> sane s0 -> store_ok H lfs s0 -> en_hash en = H ->
  Forall (fun p => exists q, is_server H lfs q /\ pr_prog p = (let! _ := q in Ret None)) (delete i ps) ->
  ps !! i = Some (Proc (let! x := process_one en (Backend lfs umask ts) fuel Download rb in Ret (Some x)) l0 false) ->
  wire (PData (bs "get-object " ++ o ++ [NL])) w -> SP ∉ o -> l_in l0 = w ++ tl ->
  wire (PData (bs "status 200" ++ [NL])) wl ->
  forall rb' l' dead wt,
  procs (sys_run cs (Sys ps s0)) !! i = Some (Proc (Ret (Some (Next rb'))) l' dead) ->
  l_out l' = l_out l0 ++ wl ++ wt ->
  is_oid o /\ exists d n ds, hex_of (H d) o /\ denotes n (lenN d) /\ concat ds = d /\
    ((lenN d < 2 ^ 64)%N ->
     wires (PData (bs "status 200" ++ [NL]) :: PData (bs "size=" ++ n ++ [NL]) :: PDelim ::
            map PData ds ++ [PFlush]) (wl ++ wt)).
Proof.
  intros HH Hl Hs Ho Hen Hps Hi Hw Hsp Hin Hwl rb' l' dead wt Hend Hout.
  set (n0 := length (inodes s0)).
  set (Q := fun (j : nat) (x : option next) (l : local) (s : fs) =>
    j = i -> forall rb', x = Some (Next rb') -> exists w', l_out l = l_out l0 ++ w' /\ get_result H o w').
  apply wire_inv in Hw as [-> Hlen]. apply wire_inv in Hwl as [-> _]. simpl in Hlen.
  destruct (servers_sound H lfs n0 any_oid Q cs ps s0) as [[_ Hy] _].
  - by apply store_inv.
  - intros j p Hj. destruct (decide (j = i)) as [->|Hne].
    + rewrite Hi in Hj. injection Hj as <-. simpl. apply rg_bind.
      eapply rg_mono; [|eapply (rg_process_get H lfs n0 any_oid)].
      * intros x l s Hx. apply rg_ret. intros _ rb2 [= ->]. by eapply Hx.
      * by apply plain_stays_all.
      * done.
      * by rewrite get_words.
      * done.
      * exact Hlen.
      * exact Hin.
      * done.
    + rewrite Forall_lookup in Hps.
      assert (exists k, delete i ps !! k = Some p) as [k Hk].
      { destruct (decide (j < i)%nat).
        - exists j. by rewrite lookup_delete_lt.
        - exists (Nat.pred j). rewrite lookup_delete_ge by lia. by replace (S (Nat.pred j)) with j by lia. }
      destruct (Hps _ _ Hk) as (q & Hq & ->). apply rg_bind.
      eapply rg_mono; [|apply rg_server; [by apply plain_stays_all|done|done|exact Hq]].
      intros a l s _. by apply rg_ret.
  - destruct (Hy _ _ Hend) as (s1 & _ & HQ). simpl in HQ. destruct (HQ eq_refl rb' eq_refl) as (w' & E & Hw').
    rewrite Hout in E. apply app_inv_head in E as <-.
    destruct Hw' as [[Hio (d & ds & Hh & Hds & Hsm & Ew)]|(c & t & Hc & Hc' & Ew)].
    2: { change (bs "status 200" ++ [NL]) with (status_line 200) in Ew. symmetry in Ew.
         apply first_line in Ew; [done|lia|done]. }
    split; [done|]. exists d, (dec (lenN d)), ds. split_and!.
    + by apply hex_of_iff.
    + apply denotes_dec.
    + done.
    + intros Hn. rewrite Ew. rewrite !pk_short.
      * match goal with |- wires ?ps ?w => replace w with (enc_all ps) end.
        -- apply wires_enc.
           constructor; [done|]. constructor.
           { cbn [payload]. pose proof (size_line_small _ Hn) as Hz. unfold small in Hz. lia. }
           constructor; [done|]. apply Forall_app. split; [|by constructor].
           clear -Hsm. induction Hsm as [|c l H _ IH]; constructor; [|done]. unfold small in H. simpl. lia.
        -- cbn [enc_all flat_map]. rewrite !app_nil_r. do 3 f_equal.
           change (flat_map enc) with enc_all. rewrite enc_all_app. cbn [enc_all flat_map].
           by rewrite app_nil_r.
      * by apply size_line_small.
      * by apply status_line_small.
Qed.
