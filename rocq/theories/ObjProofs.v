(** The object store under any number of server processes. *)
From Verif Require Import Bytes Err FS Prog Pktline Args Local Processor Transfer Wp Rg
  ByteFacts PktFacts FsFacts Spec SpecStore ServerEv PktProofs TextProofs.
From stdpp Require Import relations.

Local Arguments N.ldiff : simpl never.

(** ** Hexadecimal *)
Lemma hex_of_encode l : hex_of l (hex_encode l).
Proof.
  induction l as [|b l IH]; [constructor|]. rewrite hex_encode_cons.
  destruct (hex_nibbles b) as [H1 H2].
  apply (hex_of_cons b l (bN b / 16) (bN b mod 16)); [by apply hex_digit_hexdig..| |done].
  apply N.div_mod. lia.
Qed.

Lemma hex_of_iff l h : hex_of l h <-> h = hex_encode l.
Proof.
  split; [|intros ->; apply hex_of_encode].
  induction 1 as [|b l x y c d h Hx Hy Hb _ IH]; [done|]. rewrite hex_encode_cons.
  apply hex_digit_hexdig in Hx as [Hx ->]. apply hex_digit_hexdig in Hy as [Hy ->].
  rewrite Hb, IH. f_equal; [|f_equal].
  - f_equal. apply (N.div_unique _ 16 _ y); lia.
  - f_equal. apply (N.mod_unique _ 16 x); lia.
Qed.

Lemma oid_stays o : is_oid o -> stays o.
Proof. intros [H _]. split_and!; intros ->; by vm_compute in H. Qed.

Lemma hex_encode_is_oid b : length b = 32%nat -> is_oid (hex_encode b).
Proof.
  intros Hb. split; [rewrite hex_encode_length; lia|].
  clear Hb. induction b as [|x b IH]; [constructor|]. rewrite hex_encode_cons.
  destruct (hex_nibbles x). constructor; [|constructor; [|done]].
  - exists (bN x / 16)%N. by apply hex_digit_hexdig.
  - exists (bN x mod 16)%N. by apply hex_digit_hexdig.
Qed.

(** Whether objects that were there before the servers may be damaged.  Where nothing is
    said they may not, see [no_damage] below. *)
Class damage := dam : Prop.
(** The processes that may remove objects.  Where nothing is said there are none, see
    [no_pruning] below. *)
Class pruning := prn : nat -> Prop.

Section store.
Context {Dam : damage} {Prn : pruning}.
Context (H : bytes -> bytes) (lfs : path) (n0 : nat).
(** The objects a process may store. *)
Context (W : nat -> bytes -> Prop).
Context (Hlfs : Forall stays lfs) (HH : digest H).

Local Notation inc := (lfs ++ [bs "incomplete"]).
Local Notation lockdir := (lfs ++ [bs "locks"]).
Local Notation obj o := (expected_path lfs o).

Lemma inc_stays : Forall stays inc.
Proof using Hlfs. apply Forall_app. split; [done|]. repeat constructor; by vm_compute. Qed.
Lemma lockdir_stays : Forall stays lockdir.
Proof using Hlfs. apply Forall_app. split; [done|]. repeat constructor; by vm_compute. Qed.

Lemma inc_lock c d : inc ++ [c] <> lockdir ++ [d].
Proof using Type. rewrite <- !app_assoc. intros E%app_inv_head. by vm_compute in E. Qed.
Lemma inc_obj c o : inc ++ [c] <> obj o.
Proof using Type. unfold expected_path. rewrite <- !app_assoc. intros E%app_inv_head. discriminate. Qed.
Lemma lock_obj c o : lockdir ++ [c] <> obj o.
Proof using Type. unfold expected_path. rewrite <- !app_assoc. intros E%app_inv_head. discriminate. Qed.

Lemma obj_stays o : is_oid o -> Forall stays (obj o).
Proof using Hlfs.
  intros Ho. unfold expected_path. apply Forall_app. split; [done|].
  constructor; [by vm_compute|]. destruct Ho as [Hl Hd].
  do 5 (destruct o as [|? o]; [done|]).
  assert (Hx : forall c d v w, hex_digit c v -> hex_digit d w -> stays [c; d]).
  { intros c d v w Hc Hd'. apply hex_digit_hexdig in Hc as [Hc ->].
    split_and!; try done. intros [= E _].
    revert E. pattern v. by apply lt_16_cases. }
  repeat (apply Forall_cons in Hd as [[? ?] Hd]).
  constructor; [simpl; by eapply Hx|]. constructor; [simpl; by eapply Hx|].
  constructor; [|done]. done.
Qed.

(** ** The invariant *)
Record Inv (s : fs) : Prop := {
  inv_file : forall o j, is_oid o -> nodes s !! obj o = Some (NFile j) ->
    exists x, inodes s !! j = Some x /\ (hex_encode (H (i_data x)) = o \/ dam /\ (j < n0)%nat) /\
              ((n0 <= j)%nat -> i_temp x = true);
  inv_ref : forall p j, nodes s !! p = Some (NFile j) -> (j < length (inodes s))%nat;
  inv_one : forall p q j x, nodes s !! p = Some (NFile j) -> nodes s !! q = Some (NFile j) ->
    inodes s !! j = Some x -> (n0 <= j)%nat -> i_temp x = true -> p = q;
  inv_lock : forall c j x, nodes s !! (lockdir ++ [c]) = Some (NFile j) ->
    inodes s !! j = Some x -> (n0 <= j)%nat -> i_temp x = false;
  inv_len : (n0 <= length (inodes s))%nat }.

(** What process [i] may do. *)
Record Guar (i : nat) (s s' : fs) : Prop := {
  gu_len : (length (inodes s) <= length (inodes s'))%nat;
  gu_ino : forall j x, inodes s !! j = Some x -> exists x', inodes s' !! j = Some x' /\
    i_creator x' = i_creator x /\ i_temp x' = i_temp x /\ i_uid x' = i_uid x /\
    (i_data x' = i_data x \/
     (n0 <= j)%nat /\ i_creator x = i /\
     (i_temp x = true -> exists c, nodes s !! (inc ++ [c]) = Some (NFile j)));
  gu_own : forall c j x, nodes s !! (inc ++ [c]) = Some (NFile j) -> inodes s !! j = Some x ->
    i_creator x <> i -> nodes s' !! (inc ++ [c]) = Some (NFile j);
  gu_new : forall c j, nodes s' !! (inc ++ [c]) = Some (NFile j) -> (j < length (inodes s))%nat ->
    nodes s !! (inc ++ [c]) = Some (NFile j);
  gu_node : forall o, nodes s' !! obj o = nodes s !! obj o \/
    (nodes s !! obj o = None /\ nodes s' !! obj o = Some NDir) \/
    (W i o /\ nodes s !! obj o <> Some NDir /\ exists j, nodes s' !! obj o = Some (NFile j)) \/
    (prn i /\ (exists j, nodes s !! obj o = Some (NFile j)) /\ nodes s' !! obj o = None);
  gu_back : forall o j, nodes s' !! obj o = Some (NFile j) -> nodes s !! obj o = Some (NFile j) \/ (n0 <= j)%nat }.

Definition Rely (i : nat) : fs -> fs -> Prop :=
  rtc (fun s s' => exists j, i <> j /\ Inv s /\ Inv s' /\ Guar j s s').

(** Assertions that survive what others do. *)
Definition stable (i : nat) (P : fs -> Prop) : Prop :=
  forall j s s', i <> j -> Inv s -> Inv s' -> Guar j s s' -> P s -> P s'.

Lemma stable_rely i P s s' : stable i P -> Rely i s s' -> P s -> P s'.
Proof using Type. intros HP. induction 1 as [|a b c (j & ? & ? & ? & ?) _ IH]; [done|]. intros Ha. eauto. Qed.

(** ** Calls that do no harm *)
Definition lockpath (p : path) : Prop := exists c, stays c /\ p = lockdir ++ [c].
Definition easy (e : ev) : Prop :=
  match e with
  | EMkdir _ | EChmod _ _ => True
  | ECreate p | EUnlink p => lockpath p
  | ELink a b => lockpath a /\ lockpath b
  | _ => quiet e
  end.

Lemma quiet_easy e : quiet e -> easy e.
Proof using Type. by destruct e. Qed.

Lemma lockpath_stays p : lockpath p -> Forall stays p.
Proof using Hlfs.
  intros (c & Hc & ->). apply Forall_app. split; [apply lockdir_stays|by constructor].
Qed.

Lemma same_ok s s' : same s s' -> Inv s -> Inv s' /\ forall j, Guar j s s'.
Proof using Type.
  destruct s as [m ns h], s' as [m' ns' h']. intros [E1 E2]. simpl in *. subst.
  intros HI. split; [by destruct HI|]. intros j. split; simpl; try done.
  - intros i x Hx. eauto 10.
  - intros o. by left.
  - intros o k Hk. by left.
Qed.

(** A change of entries outside inc and objects that adds no link to a
    temporary file. *)
Lemma entries_ok s s' :
  inodes s' = inodes s ->
  (forall p, nodes s' !! p = nodes s !! p \/
     (nodes s !! p = None /\ nodes s' !! p = Some NDir) \/
     (exists c, p = lockdir ++ [c] /\
        (nodes s' !! p = None \/
         exists j d, nodes s' !! p = Some (NFile j) /\ nodes s !! (lockdir ++ [d]) = Some (NFile j)))) ->
  Inv s -> Inv s' /\ forall j, Guar j s s'.
Proof using Type.
  intros Ei Hn HI.
  assert (Hinc : forall c j, nodes s' !! (inc ++ [c]) = Some (NFile j) <-> nodes s !! (inc ++ [c]) = Some (NFile j)).
  { intros c j. destruct (Hn (inc ++ [c])) as [->|[[E1 E2]|(d & E & _)]]; [done|by rewrite E1, E2|].
    by apply inc_lock in E. }
  assert (Hobj : forall o j, nodes s' !! obj o = Some (NFile j) <-> nodes s !! obj o = Some (NFile j)).
  { intros o j. destruct (Hn (obj o)) as [->|[[E1 E2]|(d & E & _)]]; [done|by rewrite E1, E2|].
    symmetry in E. by apply lock_obj in E. }
  assert (Hold : forall p j, nodes s' !! p = Some (NFile j) -> exists q, nodes s !! q = Some (NFile j) /\
            (q = p \/ exists c, q = lockdir ++ [c])).
  { intros p j E. destruct (Hn p) as [E'|[[E1 E2]|(d & -> & [E'|(j' & d' & E' & E'')])]].
    - exists p. split; [congruence|by left].
    - congruence.
    - congruence.
    - exists (lockdir ++ [d']). split; [congruence|eauto]. }
  split.
  - split.
    + intros o j Ho Hj. rewrite Ei. apply Hobj in Hj. by apply (inv_file s).
    + intros p j Hp. rewrite Ei. destruct (Hold p j Hp) as (q & Hq & _). by apply (inv_ref s HI q).
    + intros p q j x Hp Hq Hj Hn0 Ht. rewrite Ei in Hj.
      destruct (Hold p j Hp) as (p' & Hp' & [-> | (c & ->)]);
        [|pose proof (inv_lock s HI _ _ _ Hp' Hj Hn0); congruence].
      destruct (Hold q j Hq) as (q' & Hq' & [-> | (c & ->)]);
        [|pose proof (inv_lock s HI _ _ _ Hq' Hj Hn0); congruence].
      by eapply (inv_one s HI).
    + intros c j x Hc Hj Hn0. rewrite Ei in Hj.
      destruct (Hold _ _ Hc) as (q & Hq & [-> | (d & ->)]); by eapply (inv_lock s HI).
    + rewrite Ei. apply HI.
  - intros i. split.
    + by rewrite Ei.
    + intros j x Hj. exists x. rewrite Ei. split_and!; auto.
    + intros c j x Hc _ _. by apply Hinc.
    + intros c j Hc _. by apply Hinc.
    + intros o. destruct (Hn (obj o)) as [->|[[E1 E2]|(d & E & _)]]; [by left|by right; left|].
      symmetry in E. by apply lock_obj in E.
    + intros o j Hj. left. by apply Hobj.
Qed.

Lemma lockpath_file s p q i :
  lockpath p -> file_at s p = inr (q, i) -> q = p /\ nodes s !! p = Some (NFile i).
Proof using Hlfs.
  intros Hp E. pose proof (lockpath_stays p Hp) as Hs. destruct Hp as (c & Hc & ->).
  by apply file_at_stays in E.
Qed.

Lemma create_ok pid uid umask p s : lockpath p -> Inv s ->
  let s' := (fs_create_new pid uid umask p s).2 in
  (Inv s' /\ forall j, Guar j s s') /\
  match (fs_create_new pid uid umask p s).1 with
  | IOk j => (n0 <= j)%nat /\ exists x, inodes s' !! j = Some x /\ i_creator x = pid /\ i_temp x = false
  | IErr _ => True
  end.
Proof using Hlfs.
  intros Hp HI. pose proof (lockpath_stays p Hp) as Hs. unfold fs_create_new.
  destruct (resolve s p) as [e|q] eqn:E; [split; [by apply same_ok|done]|].
  apply resolve_stays in E as ->; [|done].
  destruct Hp as (c & Hc & ->). rewrite node_at_app.
  destruct (nodes s !! (lockdir ++ [c])) eqn:En; [split; [by apply same_ok|done]|].
  simpl. set (x := Inode [] uid (N.ldiff 438 umask) pid false).
  assert (Hl : forall j y, inodes s !! j = Some y -> (inodes s ++ [x]) !! j = Some y).
  { intros j y Hj. by apply lookup_app_l_Some. }
  assert (Hx : (inodes s ++ [x]) !! length (inodes s) = Some x).
  { by apply list_lookup_middle. }
  assert (Hr : forall j y, (j < length (inodes s))%nat -> (inodes s ++ [x]) !! j = Some y -> inodes s !! j = Some y).
  { intros j y Hj. by rewrite lookup_app_l. }
  split.
  2: { split; [apply HI|]. by exists x. }
  split.
  - split; simpl.
    + intros o j Ho. rewrite lookup_insert_ne by apply lock_obj. intros Hj.
      destruct (inv_file s HI o j Ho Hj) as (y & Hy & Ho' & Ht). exists y. split; [by apply Hl|done].
    + intros p j Hj. rewrite app_length. simpl.
      apply lookup_insert_Some in Hj as [[_ [= <-]]|[_ Hj]]; [lia|].
      apply (inv_ref s HI) in Hj. lia.
    + intros p q j y Hp Hq Hj Hn Ht.
      apply lookup_insert_Some in Hp as [[<- [= <-]]|[_ Hp]].
      { rewrite Hx in Hj. injection Hj as <-. done. }
      apply lookup_insert_Some in Hq as [[<- [= <-]]|[_ Hq]].
      { rewrite Hx in Hj. injection Hj as <-. done. }
      eapply (inv_one s HI); try done. apply Hr; [by eapply (inv_ref s HI)|done].
    + intros d j y Hd Hj Hn. apply lookup_insert_Some in Hd as [[_ [= <-]]|[_ Hd]].
      { rewrite Hx in Hj. by injection Hj as <-. }
      eapply (inv_lock s HI); try done. apply Hr; [by eapply (inv_ref s HI)|done].
    + rewrite app_length. pose proof (inv_len s HI). lia.
  - intros i. split; simpl.
    + rewrite app_length. lia.
    + intros j y Hj. exists y. split; [by apply Hl|split_and!; auto].
    + intros d j y Hd _ _. rewrite lookup_insert_ne; [done|]. intros Ex. symmetry in Ex. by apply inc_lock in Ex.
    + intros d j Hd _. rewrite lookup_insert_ne in Hd; [done|]. intros Ex. symmetry in Ex. by apply inc_lock in Ex.
    + intros o. left. rewrite lookup_insert_ne; [done|]. apply lock_obj.
    + intros o j Hj. left. rewrite lookup_insert_ne in Hj; [done|]. apply lock_obj.
Qed.

Lemma mode_ok i f s : (forall x, i_data (f x) = i_data x) -> (forall x, i_creator (f x) = i_creator x) ->
  (forall x, i_temp (f x) = i_temp x) -> (forall x, i_uid (f x) = i_uid x) ->
  Inv s -> Inv (upd_inode i f s) /\ forall j, Guar j s (upd_inode i f s).
Proof using Type.
  intros Hd Hc Ht Hu HI.
  assert (Hf : forall j x, inodes s !! j = Some x -> exists x', inodes (upd_inode i f s) !! j = Some x' /\
     i_data x' = i_data x /\ i_creator x' = i_creator x /\ i_temp x' = i_temp x /\ i_uid x' = i_uid x).
  { intros j x Hx. destruct (decide (i = j)) as [->|Hne].
    - exists (f x). by rewrite (inodes_upd_eq _ _ _ x).
    - exists x. by rewrite inodes_upd_ne. }
  assert (Hb : forall j x', inodes (upd_inode i f s) !! j = Some x' -> exists x, inodes s !! j = Some x /\
     i_temp x' = i_temp x).
  { intros j x' Hx'. destruct (inodes s !! j) as [x|] eqn:E.
    - exists x. split; [done|]. destruct (Hf j x E) as (x2 & E2 & _ & _ & E3 & _). congruence.
    - apply lookup_ge_None in E. apply lookup_lt_Some in Hx'. simpl in Hx'.
      rewrite alter_length in Hx'. lia. }
  split.
  - split.
    + intros o j Ho Hj. destruct (inv_file s HI o j Ho Hj) as (x & Hx & Ho' & Htx).
      destruct (Hf j x Hx) as (x' & Hx' & E1 & E2 & E3 & E4).
      exists x'. rewrite E1, E3. done.
    + intros p j Hj. simpl. rewrite alter_length. by eapply (inv_ref s HI).
    + intros p q j x' Hp Hq Hj Hn Hx. destruct (Hb j x' Hj) as (x & Hx' & E).
      eapply (inv_one s HI p q j x); try done. congruence.
    + intros c j x' Hc' Hj Hn. destruct (Hb j x' Hj) as (x & Hx' & E). rewrite E.
      by eapply (inv_lock s HI).
    + simpl. rewrite alter_length. apply HI.
  - intros k. split; try done.
    + simpl. by rewrite alter_length.
    + intros j x Hx. destruct (Hf j x Hx) as (x' & Hx' & E1 & E2 & E3 & E4). exists x'. split_and!; auto.
    + intros o. by left.
    + intros o j Hj. by left.
Qed.

Lemma easy_ok pid e o l s : easy e -> Inv s ->
  let s' := (handle_ev pid e o l s).2 in Inv s' /\ forall j, Guar j s s'.
Proof using Hlfs.
  intros He HI. destruct (match e with EMkdir _ | EChmod _ _ | ECreate _ | EUnlink _ | ELink _ _ => false | _ => true end) eqn:Hq.
  { simpl. apply same_ok; [|done]. apply quiet_same. by destruct e. }
  destruct e; try discriminate Hq; clear Hq; simpl; unfold faulty, with_l;
    destruct (o_fault o) as [x|]; try (by apply same_ok).
  - (* mkdir *) unfold fs_mkdir_all. destruct (fs_mkdirs s [] p) as [x|s'] eqn:E; [by apply same_ok|].
    apply mkdirs_spec in E as (E1 & E2 & E3 & E4). simpl. apply entries_ok; [done| |done].
    intros q. destruct (E3 q) as [?|(H1 & H2 & _)]; auto.
  - (* unlink *) simpl in He. unfold fs_unlink. destruct (file_at s p) as [x|[q i]] eqn:E; [by apply same_ok|].
    apply lockpath_file in E as [-> E]; [|done]. destruct He as (c & Hc & ->).
    apply entries_ok; [done| |done]. intros q. simpl.
    destruct (decide (q = lockdir ++ [c])) as [->|Hne].
    + right. right. exists c. split; [done|]. left. apply lookup_delete.
    + left. by rewrite lookup_delete_ne.
  - (* link *) destruct He as [Ha Hb]. unfold fs_link.
    destruct (file_at s a) as [x|[q i]] eqn:E; [by apply same_ok|].
    apply lockpath_file in E as [-> E]; [|done].
    destruct (resolve s b) as [x|q] eqn:Eb; [by apply same_ok|].
    apply resolve_stays in Eb as ->; [|by apply lockpath_stays].
    destruct Ha as (ca & Hca & ->), Hb as (cb & Hcb & ->). rewrite node_at_app.
    destruct (nodes s !! (lockdir ++ [cb])) eqn:En; [by apply same_ok|].
    apply entries_ok; [done| |done]. intros q. simpl.
    destruct (decide (q = lockdir ++ [cb])) as [->|Hne].
    + right. right. exists cb. split; [done|]. right. exists i, ca.
      split; [apply lookup_insert|done].
    + left. by rewrite lookup_insert_ne.
  - (* create *) apply create_ok; done.
  - (* chmod *) unfold fs_chmod. destruct (resolve s p) as [x|q]; [by apply same_ok|].
    destruct (node_at s q) as [[|i]|]; [by apply same_ok| |by apply same_ok].
    by apply mode_ok.
Qed.

Section one.
Context (pid : nat).
Local Notation RG := (rg pid (Rely pid) (Guar pid) Inv).

Lemma rg_easy {A} (P : fs -> Prop) (p : prog A) l s :
  stable pid P -> all_ev easy p -> P s -> RG p (fun _ _ s' => P s') l s.
Proof using Hlfs.
  intros HP. revert l s. induction p as [a|f|e k IH]; intros l s Hp Hs; [done|done|].
  destruct Hp as [He Hk]. apply rg_vis. intros s1 o HR HI.
  pose proof (stable_rely _ _ _ _ HP HR Hs) as Hs1.
  pose proof (easy_ok pid e o l s1 He HI) as Ho. pose proof (handle_resp_ok pid e o l s1) as Hr.
  destruct (handle_ev pid e o l s1) as [[r l'] s2]. simpl in Ho, Hr. destruct Ho as [HI2 HG].
  split_and!; [done|done|]. apply IH; [by apply Hk|].
  apply (HP (S pid) s1 s2); try done; lia.
Qed.

Lemma stable_true : stable pid (fun _ => True).
Proof using Type. done. Qed.

Lemma rg_easy_true {A} (p : prog A) l s : all_ev easy p -> RG p (fun _ _ _ => True) l s.
Proof using Hlfs. intros Hp. by apply (rg_easy (fun _ => True)). Qed.

Lemma rg_true {A} (p : prog A) (Q : A -> local -> fs -> Prop) l s :
  (forall a l s, Q a l s) -> all_ev easy p -> RG p Q l s.
Proof using Hlfs. intros HQ Hp. eapply rg_mono; [|by apply rg_easy_true]. intros. apply HQ. Qed.

(** ** Uploading *)

(** Process [pid] owns the temporary file [tmp], which holds [got]. *)
Definition owns (tmp : path) (fd : nat) (got : bytes) (s : fs) : Prop :=
  (exists c, stays c /\ tmp = inc ++ [c]) /\ nodes s !! tmp = Some (NFile fd) /\ (n0 <= fd)%nat /\
  exists x, inodes s !! fd = Some x /\ i_temp x = true /\ i_creator x = pid /\ i_data x = got.

Lemma stable_owns tmp fd got : stable pid (owns tmp fd got).
Proof using Type.
  intros j s s' Hj HI HI' HG ((c & Hc & ->) & Hn & Hn0 & x & Hx & Ht & Hcr & Hd).
  split_and!; [by exists c| |done|].
  - apply (gu_own _ _ _ HG c fd x); congruence.
  - destruct (gu_ino _ _ _ HG fd x Hx) as (x' & Hx' & E1 & E2 & E3 & [E4|(_ & E4 & _)]); [|congruence].
    exists x'. split_and!; congruence.
Qed.

Lemma stable_owns_ex tmp : stable pid (fun s => exists fd got, owns tmp fd got s).
Proof using Type. intros j s s' H1 H2 H3 H4 (fd & got & Ho). exists fd, got. exact (stable_owns tmp fd got j s s' H1 H2 H3 H4 Ho). Qed.

(** Appending to a file. *)
Lemma write_ok fd b s x : Inv s -> inodes s !! fd = Some x -> (n0 <= fd)%nat ->
  i_creator x = pid ->
  (i_temp x = true -> exists c, nodes s !! (inc ++ [c]) = Some (NFile fd)) ->
  Inv (fs_write fd b s).2 /\ Guar pid s (fs_write fd b s).2.
Proof using Type.
  intros HI Hx Hn Hc Ht. unfold fs_write, inode_at. rewrite Hx. simpl.
  set (s' := upd_inode fd (append_data b) s).
  assert (Hf : forall j y, inodes s !! j = Some y -> exists y', inodes s' !! j = Some y' /\
     (j <> fd -> y' = y) /\ i_creator y' = i_creator y /\ i_temp y' = i_temp y /\ i_uid y' = i_uid y).
  { intros j y Hy. destruct (decide (fd = j)) as [<-|Hne].
    - exists (append_data b y). unfold s'. by rewrite (inodes_upd_eq _ _ _ y).
    - exists y. unfold s'. by rewrite inodes_upd_ne. }
  assert (Hb : forall j y', inodes s' !! j = Some y' -> exists y, inodes s !! j = Some y /\ i_temp y' = i_temp y).
  { intros j y' Hy'. destruct (inodes s !! j) as [y|] eqn:E.
    - exists y. split; [done|]. destruct (Hf j y E) as (y2 & E2 & _ & _ & E3 & _). congruence.
    - apply lookup_ge_None in E. apply lookup_lt_Some in Hy'. simpl in Hy'.
      rewrite alter_length in Hy'. lia. }
  split.
  - split.
    + intros o j Ho Hj. destruct (inv_file s HI o j Ho Hj) as (y & Hy & Ho' & Hty).
      destruct (Hf j y Hy) as (y' & Hy' & E1 & E2 & E3 & E4). exists y'.
      destruct (decide (j = fd)) as [->|Hne].
      * assert (y = x) by congruence. subst y. destruct (Ht (Hty Hn)) as [c Hc'].
        pose proof (inv_one s HI _ _ _ _ Hj Hc' Hx Hn (Hty Hn)) as E.
        symmetry in E. by apply inc_obj in E.
      * pose proof (E1 Hne) as ->. done.
    + intros p j Hj. simpl. rewrite alter_length. by eapply (inv_ref s HI).
    + intros p q j x' Hp Hq Hj Hn' Hx'. destruct (Hb j x' Hj) as (y & Hy & E).
      eapply (inv_one s HI p q j y); try done. congruence.
    + intros c j x' Hc' Hj Hn'. destruct (Hb j x' Hj) as (y & Hy & E). rewrite E.
      by eapply (inv_lock s HI).
    + simpl. rewrite alter_length. apply HI.
  - split; try done.
    + simpl. by rewrite alter_length.
    + intros j y Hy. destruct (Hf j y Hy) as (y' & Hy' & E1 & E2 & E3 & E4). exists y'.
      split_and!; try done. destruct (decide (j = fd)) as [->|Hne].
      * right. assert (y = x) by congruence. subst y. done.
      * left. by rewrite E1.
    + intros o. by left.
    + intros o j Hj. by left.
Qed.

Lemma write_owns tmp fd got b s : owns tmp fd got s -> Inv s ->
  Inv (fs_write fd b s).2 /\ Guar pid s (fs_write fd b s).2 /\ owns tmp fd (got ++ b) (fs_write fd b s).2.
Proof using Type.
  intros ((c & Hc & ->) & Hn & Hn0 & x & Hx & Ht & Hcr & Hd) HI.
  destruct (write_ok fd b s x HI Hx Hn0 Hcr) as [H1 H2]; [eauto|].
  split_and!; [done|done|]. unfold fs_write, inode_at. rewrite Hx. simpl.
  split_and!; [by exists c|done|done|]. exists (append_data b x).
  rewrite (inodes_upd_eq _ _ _ x) by done. simpl. by rewrite Hd.
Qed.

Lemma rg_copy_to_file f tmp fd got rb l s : owns tmp fd got s ->
  RG (copy_to_file f fd got rb)
     (fun r _ s' => match r.1 with Ok d => owns tmp fd d s' | Er _ => exists d, owns tmp fd d s' end) l s.
Proof using Hlfs.
  revert got rb l s. induction f as [|f IH]; intros got rb l s Ho; simpl; [done|].
  apply rg_bind. eapply rg_mono; [|apply (rg_easy (owns tmp fd got)); [apply stable_owns| |done]].
  2: { apply ev_reader_read. apply quiet_easy. }
  intros [r rb'] l1 s1 Ho1. destruct r as [d|e]; simpl; [|by exists got].
  destruct d as [|x d]; [done|]. apply rg_bind, rg_call. intros s2 o HR HI.
  pose proof (stable_rely _ _ _ _ (stable_owns tmp fd got) HR Ho1) as Ho2.
  destruct (o_fault o) as [e|] eqn:Ef.
  - simpl. rewrite Ef.
    destruct (write_owns tmp fd got (take (o_part o) (x :: d)) s2 Ho2 HI) as (H1 & H2 & H3).
    split_and!; [done|done|]. apply rg_ret. simpl. eauto.
  - simpl. rewrite Ef.
    destruct (write_owns tmp fd got (x :: d) s2 Ho2 HI) as (H1 & H2 & H3).
    unfold fs_write, inode_at in *. destruct (inodes s2 !! fd) eqn:Ei; simpl in *.
    + split_and!; [done|done|]. by apply IH.
    + destruct Ho2 as (_ & _ & _ & x0 & Hx0 & _). congruence.
Qed.

(** Removing one's temporary file. *)
Lemma rg_drop_temp tmp (Q : unit -> local -> fs -> Prop) l s :
  (forall l s, Q tt l s) -> (exists fd got, owns tmp fd got s) -> RG (drop_temp tmp) Q l s.
Proof using Hlfs.
  intros HQ Ho. unfold drop_temp. apply rg_bind, rg_call. intros s1 o HR HI.
  pose proof (stable_rely _ _ _ _ (stable_owns_ex tmp) HR Ho) as (fd & got & Ho1).
  simpl. unfold faulty, with_l. destruct (o_fault o).
  { destruct (same_ok s1 s1) as [H1 H2]; [done|done|]. split_and!; [done|done|]. apply HQ. }
  unfold fs_unlink. destruct (file_at s1 tmp) as [e|[q i]] eqn:E; simpl.
  { destruct (same_ok s1 s1) as [H1 H2]; [done|done|]. split_and!; [done|done|]. apply HQ. }
  destruct Ho1 as ((c & Hc & ->) & Hn & Hn0 & x & Hx & Ht & Hcr & Hd).
  apply file_at_stays in E as [-> Ei].
  2: { apply Forall_app. split; [apply inc_stays|by constructor]. }
  rewrite Hn in Ei. injection Ei as <-.
  assert (Hsub : forall p j, delete (inc ++ [c]) (nodes s1) !! p = Some (NFile j) -> nodes s1 !! p = Some (NFile j)).
  { intros p j. rewrite lookup_delete_Some. naive_solver. }
  split_and!; [| |apply HQ].
  - split; simpl.
    + intros ob j Hob Hj%Hsub. by apply (inv_file s1).
    + intros p j Hj%Hsub. by eapply (inv_ref s1 HI).
    + intros p q j y Hp%Hsub Hq%Hsub. by eapply (inv_one s1 HI).
    + intros d j y Hd'%Hsub. by eapply (inv_lock s1 HI).
    + apply HI.
  - split; simpl; try done.
    + intros j y Hy. exists y. split_and!; auto.
    + intros d j y Hd' Hy Hne. rewrite lookup_delete_ne; [done|].
      intros [= Ed]%app_inv_head. subst d. rewrite Hn in Hd'. injection Hd' as <-. congruence.
    + intros d j Hd' _. by apply Hsub.
    + intros ob. left. rewrite lookup_delete_ne; [done|]. apply inc_obj.
    + intros ob j Hj%Hsub. by left.
Qed.

Lemma mktemp_ok uid pre sfx s : length pre = 64%nat -> Inv s ->
  let s' := (fs_mktemp pid uid inc pre sfx s).2 in
  (Inv s' /\ Guar pid s s') /\
  match (fs_mktemp pid uid inc pre sfx s).1 with
  | IOk (tmp, fd) => owns tmp fd [] s'
  | IErr _ => True
  end.
Proof using Hlfs.
  intros Hpre HI. unfold fs_mktemp.
  assert (Hsame : Inv s /\ Guar pid s s). { destruct (same_ok s s) as [? Hg]; [done|done|]. auto. }
  destruct (resolve s inc) as [e|d] eqn:E; [done|].
  apply resolve_stays in E as ->; [|apply inc_stays].
  destruct (node_at s inc) as [[|i]|]; try done. simpl.
  set (c := free_name s inc (pre ++ sfx)).
  pose proof (free_name_free s inc (pre ++ sfx)) as Hfree. fold c in Hfree.
  assert (Hc : stays c).
  { assert (64 <= length c)%nat.
    { unfold c, free_name. destruct (nodes s !! (inc ++ [pre ++ sfx])); rewrite !app_length, ?app_length; lia. }
    clearbody c. split_and!; intros ->; by vm_compute in H0; lia. }
  set (x := Inode [] uid 384 pid true).
  assert (Hl : forall j y, inodes s !! j = Some y -> (inodes s ++ [x]) !! j = Some y).
  { intros j y Hj. by apply lookup_app_l_Some. }
  assert (Hx : (inodes s ++ [x]) !! length (inodes s) = Some x).
  { by apply list_lookup_middle. }
  assert (Hr : forall j y, (j < length (inodes s))%nat -> (inodes s ++ [x]) !! j = Some y -> inodes s !! j = Some y).
  { intros j y Hj. by rewrite lookup_app_l. }
  split; [split|].
  - split; simpl.
    + intros o j Ho. rewrite lookup_insert_ne by apply inc_obj. intros Hj.
      destruct (inv_file s HI o j Ho Hj) as (y & Hy & Ho' & Ht). exists y. split; [by apply Hl|done].
    + intros p j Hj. rewrite app_length. simpl.
      apply lookup_insert_Some in Hj as [[_ [= <-]]|[_ Hj]]; [lia|].
      apply (inv_ref s HI) in Hj. lia.
    + intros p q j y Hp Hq Hj Hn Ht.
      apply lookup_insert_Some in Hp as [[<- [= <-]]|[_ Hp]];
        apply lookup_insert_Some in Hq as [[<- Eq]|[_ Hq]].
      * done.
      * apply (inv_ref s HI) in Hq. lia.
      * injection Eq as <-. apply (inv_ref s HI) in Hp. lia.
      * eapply (inv_one s HI); try done. apply Hr; [by eapply (inv_ref s HI)|done].
    + intros d j y Hd Hj Hn. apply lookup_insert_Some in Hd as [[Ed _]|[_ Hd]].
      { by apply inc_lock in Ed. }
      eapply (inv_lock s HI); try done. apply Hr; [by eapply (inv_ref s HI)|done].
    + rewrite app_length. pose proof (inv_len s HI). lia.
  - split; simpl.
    + rewrite app_length. lia.
    + intros j y Hj. exists y. split; [by apply Hl|split_and!; auto].
    + intros d j y Hd _ _. rewrite lookup_insert_ne; [done|]. intros Ed. rewrite Ed in Hfree. congruence.
    + intros d j Hd Hj. apply lookup_insert_Some in Hd as [[_ [= <-]]|[_ Hd]]; [lia|done].
    + intros o. left. rewrite lookup_insert_ne; [done|]. apply inc_obj.
    + intros o j Hj. left. rewrite lookup_insert_ne in Hj; [done|]. apply inc_obj.
  - split_and!; simpl.
    + by exists c.
    + by rewrite lookup_insert.
    + apply HI.
    + by exists x.
Qed.

Lemma rename_ok o tmp fd got s : W pid o -> is_oid o -> hex_encode (H got) = o -> owns tmp fd got s -> Inv s ->
  let s' := (fs_rename tmp (obj o) s).2 in
  Inv s' /\ Guar pid s s' /\
  match (fs_rename tmp (obj o) s).1 with IOk _ => True | IErr _ => owns tmp fd got s' end.
Proof using Hlfs.
  intros HW Ho Hh Hown HI.
  assert (Hsame : Inv s /\ Guar pid s s). { destruct (same_ok s s) as [? Hg]; [done|done|]. auto. }
  destruct Hsame as [Hs1 Hs2]. unfold fs_rename.
  destruct (file_at s tmp) as [e|[q i]] eqn:E; [done|].
  pose proof Hown as ((c & Hc & ->) & Hn & Hn0 & x & Hx & Ht & Hcr & Hd).
  apply file_at_stays in E as [-> Ei].
  2: { apply Forall_app. split; [apply inc_stays|by constructor]. }
  rewrite Hn in Ei. injection Ei as <-.
  destruct (resolve s (obj o)) as [e|q] eqn:E; [done|].
  apply resolve_stays in E as ->; [|by apply obj_stays].
  assert (Hok : nodes s !! obj o <> Some NDir -> let s' := set_nodes (fun m => <[obj o:=NFile fd]> (delete (inc ++ [c]) m)) s in
    Inv s' /\ Guar pid s s').
  { intros Hdir. assert (Hsub : forall p j, <[obj o:=NFile fd]> (delete (inc ++ [c]) (nodes s)) !! p = Some (NFile j) ->
       (p = obj o /\ j = fd) \/ (p <> inc ++ [c] /\ p <> obj o /\ nodes s !! p = Some (NFile j))).
    { intros p j. rewrite lookup_insert_Some, lookup_delete_Some. naive_solver. }
    split; [split|split]; simpl; try done.
    - intros o' j Ho' Hj. apply Hsub in Hj as [[E ->]|(_ & _ & Hj)].
      + apply expected_path_inj in E as ->. exists x. rewrite Hd. auto.
      + by apply (inv_file s HI).
    - intros p j Hj. apply Hsub in Hj as [[_ ->]|(_ & _ & Hj)]; by eapply (inv_ref s HI).
    - intros p q j y Hp Hq Hy Hjn Hyt. apply Hsub in Hp, Hq.
      destruct Hp as [[-> ->]|(Hp1 & Hp2 & Hp)], Hq as [[-> E]|(Hq1 & Hq2 & Hq)].
      + done.
      + destruct Hq1. by apply (inv_one s HI q (inc ++ [c]) fd y).
      + subst j. destruct Hp1. by apply (inv_one s HI p (inc ++ [c]) fd y).
      + by apply (inv_one s HI p q j y).
    - intros d j y Hj. apply Hsub in Hj as [[E _]|(_ & _ & Hj)].
      + by apply lock_obj in E.
      + by apply (inv_lock s HI d).
    - apply HI.
    - intros j y Hy. exists y. split_and!; auto.
    - intros d j y Hd' Hy Hne.
      rewrite lookup_insert_ne by (intros Ed; symmetry in Ed; by apply inc_obj in Ed).
      rewrite lookup_delete_ne; [done|].
      intros [= Ed]%app_inv_head. subst d. rewrite Hn in Hd'. injection Hd' as <-. congruence.
    - intros d j Hj _. apply Hsub in Hj as [[E _]|(_ & _ & Hj)]; [by apply inc_obj in E|done].
    - intros o'. destruct (decide (o' = o)) as [->|Hne].
      + right. right. left. split_and!; [done|done|]. exists fd. by rewrite lookup_insert.
      + left. rewrite lookup_insert_ne by (intros Ed; by apply expected_path_inj in Ed).
        rewrite lookup_delete_ne; [done|]. apply inc_obj.
    - intros o' j Hj. apply Hsub in Hj as [[_ ->]|(_ & _ & Hj)]; [by right|by left]. }
  assert (Hnd : node_at s (obj o) = nodes s !! obj o) by (unfold expected_path; by destruct lfs).
  rewrite Hnd. destruct (nodes s !! obj o) as [[|k]|]; simpl; [done| |]; destruct Hok; done.
Qed.

Lemma rg_finish_upload be o tmp fd got l s : be_lfs be = lfs -> W pid o -> is_oid o -> hex_encode (H got) = o ->
  owns tmp fd got s -> RG (finish_upload be (UploadState o tmp)) (fun _ _ _ => True) l s.
Proof using Hlfs.
  intros Hbe HW Ho Hh Hown. unfold finish_upload. simpl. rewrite Hbe.
  apply rg_bind. eapply rg_mono; [|apply (rg_easy (owns tmp fd got)); [apply stable_owns|by apply all_ev_call|done]].
  intros [u|e] l1 s1 Ho1; simpl.
  2: { apply rg_bind, rg_drop_temp; [done|eauto]. }
  apply rg_bind, rg_call. intros s2 orc HR HI.
  pose proof (stable_rely _ _ _ _ (stable_owns tmp fd got) HR Ho1) as Ho2.
  simpl. unfold faulty, with_l. destruct (o_fault orc).
  { destruct (same_ok s2 s2) as [H1 H2]; [done|done|]. split_and!; [done|done|].
    apply rg_bind, rg_drop_temp; [done|eauto]. }
  pose proof (rename_ok o tmp fd got s2 HW Ho Hh Ho2 HI) as Hr.
  destruct (fs_rename tmp (obj o) s2) as [r s3]. simpl in *. destruct Hr as (H1 & H2 & H3).
  split_and!; [done|done|]. destruct r as [u'|e].
  - apply rg_easy_true. unfold fix_permissions. ev.
  - apply rg_bind, rg_drop_temp; [done|eauto].
Qed.

Lemma rg_put_object en be fuel o0 rb l s : be_lfs be = lfs -> en_hash en = H ->
  (is_oid o0 -> W pid o0) ->
  RG (p_put_object en be fuel o0 rb) (fun _ _ _ => True) l s.
Proof using Hlfs.
  intros Hbe Hen HW. unfold p_put_object. destruct (oid_new o0) as [o|e] eqn:Eo; [|done].
  apply oid_new_iff in Eo as [-> Ho].
  apply rg_bind, rg_true.
  2: { unfold read_to_delim. ev; apply ev_read_to_type; apply quiet_easy. }
  intros [expected|e] l1 s1; [|done].
  apply rg_bind. unfold start_upload. rewrite Hbe. apply rg_bind, rg_call.
  intros s2 orc HR HI. simpl. unfold faulty, with_l.
  destruct (o_fault orc).
  { destruct (same_ok s2 s2) as [H1 H2]; [done|done|]. split_and!; done. }
  pose proof (mktemp_ok (l_uid l1) o0 (o_sfx orc) s2 (proj1 Ho) HI) as Hm.
  destruct (fs_mktemp pid (l_uid l1) inc o0 (o_sfx orc) s2) as [r s3]. simpl in *.
  destruct Hm as ((H1 & H2) & H3). split_and!; [done|done|].
  destruct r as [[tmp fd]|e]; [|done].
  apply rg_bind. eapply rg_mono; [|by apply (rg_copy_to_file fuel tmp fd)].
  intros [r rb'] l3 s4. simpl. destruct r as [got|e].
  2: { intros Hown. apply rg_bind. apply rg_drop_temp; [done|]. destruct Hown. eauto. }
  intros Hown. apply rg_ret. simpl.
  assert (Hfail : forall e, RG (let! _ := drop_temp tmp in Ret (@Er status e, rb')) (fun _ _ _ => True) l3 s4).
  { intros e. apply rg_bind, rg_drop_temp; [done|eauto]. }
  destruct (lenN got <? expected)%N; [apply Hfail|].
  destruct (expected <? lenN got)%N; [apply Hfail|].
  destruct (oid_new (hex_encode (en_hash en got))) as [ao|e] eqn:Ea; [|apply Hfail].
  apply oid_new_iff in Ea as [-> Ha]. case_decide as Hd; [apply Hfail|].
  rewrite Hen in Hd.
  apply rg_bind. eapply rg_mono; [|apply (rg_finish_upload be o0 tmp fd got); auto]. done.
Qed.

(** ** Locking *)
Lemma hash_stays en p c : en_hash en = H -> stays (hash_for en p ++ c).
Proof using HH.
  intros Hen. assert (64 <= length (hash_for en p ++ c))%nat.
  { unfold hash_for. rewrite app_length, hex_encode_length, Hen, HH. lia. }
  split_and!; intros E; rewrite E in *; by vm_compute in H0; lia.
Qed.

Lemma lock_file_path be en p : be_lfs be = lfs -> en_hash en = H -> lockpath (lock_file be (hash_for en p)).
Proof using HH.
  intros Hbe Hen. unfold lock_file, lock_dir. rewrite Hbe. exists (hash_for en p). split; [|done].
  rewrite <- (app_nil_r (hash_for en p)). by apply hash_stays.
Qed.
Lemma lock_temp_path be en p : be_lfs be = lfs -> en_hash en = H -> lockpath (lock_temp be (hash_for en p)).
Proof using HH.
  intros Hbe Hen. unfold lock_temp, lock_dir. rewrite Hbe. exists (hash_for en p ++ bs ".lock").
  split; [|done]. by apply hash_stays.
Qed.

(** A lock file under construction. *)
Definition owns_lock (fd : nat) (s : fs) : Prop :=
  (n0 <= fd)%nat /\ exists x, inodes s !! fd = Some x /\ i_creator x = pid /\ i_temp x = false.

Lemma stable_owns_lock fd : stable pid (owns_lock fd).
Proof using Type.
  intros j s s' Hj HI HI' HG (Hn & x & Hx & Hc & Ht). split; [done|].
  destruct (gu_ino _ _ _ HG fd x Hx) as (x' & Hx' & E1 & E2 & _). exists x'. split_and!; congruence.
Qed.

Lemma rg_lockfile_write temp data l s : lockpath temp ->
  RG (lockfile_write temp data) (fun _ _ _ => True) l s.
Proof using Hlfs.
  intros Ht. unfold lockfile_write. apply rg_bind, rg_call. intros s1 o HR HI.
  simpl. unfold faulty, with_l. destruct (o_fault o).
  { destruct (same_ok s1 s1) as [H1 H2]; [done|done|]. split_and!; [done|done|]. by case_decide. }
  pose proof (create_ok pid (l_uid l) (l_umask l) temp s1 Ht HI) as Hc.
  destruct (fs_create_new pid (l_uid l) (l_umask l) temp s1) as [r s2]. simpl in *.
  destruct Hc as ((H1 & H2) & H3). split_and!; [done|done|].
  destruct r as [fd|e]; [|by case_decide].
  assert (Ho : owns_lock fd s2). { destruct H3 as (H3 & x & ? & ? & ?). split; [done|]. by exists x. }
  apply rg_io_call, rg_call. intros s3 o' HR' HI'.
  destruct (stable_rely _ _ _ _ (stable_owns_lock fd) HR' Ho) as (Hn & x & Hx & Hc & Htx).
  assert (Hw : forall b, Inv (fs_write fd b s3).2 /\ Guar pid s3 (fs_write fd b s3).2).
  { intros b. apply (write_ok fd b s3 x); try done. congruence. }
  simpl. destruct (o_fault o'); [destruct (Hw (take (o_part o') data)); done|].
  destruct (Hw data). destruct (fs_write fd data s3); done.
Qed.

Lemma rg_lock_create en be p l s : be_lfs be = lfs -> en_hash en = H ->
  RG (lock_create en be p) (fun _ _ _ => True) l s.
Proof using Hlfs HH.
  intros Hbe Hen. unfold lock_create.
  apply rg_bind, rg_true; [|apply ev_timestamp; apply quiet_easy]. intros t l1 s1.
  apply rg_bind. eapply rg_mono; [|apply rg_lockfile_write; by apply lock_temp_path].
  intros [u|e] l2 s2 _.
  - apply rg_true; [done|]. unfold lockfile_persist, lockfile_drop.
    ev; try (by apply lock_temp_path); try (split; [by apply lock_temp_path|by apply lock_file_path]);
      first [apply ev_user_for_file | apply ev_timestamp]; apply quiet_easy.
  - apply rg_true; [done|]. unfold lockfile_drop. ev. by apply lock_temp_path.
Qed.

Lemma rg_p_lock en be fuel l s : be_lfs be = lfs -> en_hash en = H ->
  RG (p_lock en be fuel) (fun _ _ _ => True) l s.
Proof using Hlfs HH.
  intros Hbe Hen. unfold p_lock.
  apply rg_bindR, rg_true; [|apply ev_read_wrapped; apply quiet_easy].
  intros [d|e] l1 s1; [|done].
  apply rg_bindR, rg_true; [|apply ev_or_panic]. intros [args|e] l2 s2; [|done].
  destruct (args !! bs "path") as [p|]; [|done]. destruct (args !! bs "refname"); [|done].
  apply rg_bind. eapply rg_mono; [|by apply rg_lock_create].
  intros c l3 s3 _. apply rg_true; [done|].
  ev; first [apply ev_as_arguments | apply ev_lock_from_path]; apply quiet_easy.
Qed.

Lemma rg_p_unlock en be fuel id l s : be_lfs be = lfs -> en_hash en = H ->
  RG (p_unlock en be fuel id) (fun _ _ _ => True) l s.
Proof using Hlfs HH.
  intros Hbe Hen. apply rg_true; [done|]. unfold p_unlock, lock_unlock, lk_id, read_to_flush.
  ev; try (by apply lock_file_path);
    first [apply ev_as_arguments | apply ev_read_to_type | apply ev_lock_from_id | apply ev_error]; apply quiet_easy.
Qed.

(** ** The whole server *)
Context (HW : forall o, W pid o).

Lemma rg_handle_command en be fuel c m rb l s : be_lfs be = lfs -> en_hash en = H ->
  RG (handle_command en be fuel c m rb) (fun _ _ _ => True) l s.
Proof using Hlfs HH HW.
  intros Hbe Hen. unfold handle_command, p_upload_batch, p_download_batch.
  destruct c; try (apply rg_true; [done|]; ev;
    first [apply ev_version|apply ev_batch|apply ev_verify_object|apply ev_get_object|apply ev_list_locks|apply ev_error];
    apply quiet_easy).
  - by apply rg_put_object.
  - apply rg_bind. eapply rg_mono; [|by apply rg_p_lock]. done.
  - apply rg_bind. eapply rg_mono; [|by apply rg_p_unlock]. done.
Qed.

Lemma ev_and_go_on rb p : all_ev easy p -> all_ev easy (and_go_on rb p).
Proof using Type. intros. unfold and_go_on. ev. Qed.

Lemma rg_process_one en be fuel m rb l s : be_lfs be = lfs -> en_hash en = H ->
  RG (process_one en be fuel m rb) (fun _ _ _ => True) l s.
Proof using Hlfs HH HW.
  intros Hbe Hen. unfold process_one.
  apply rg_bind, rg_true; [|apply ev_read_packet; apply quiet_easy]. intros [p|e] l1 s1; [|done].
  destruct (pkt_data p) as [[|x b]|];
    try (apply rg_true; [done|]; apply ev_and_go_on, ev_answer_error, quiet_easy).
  assert (Hgo : forall c, RG (let! (r, rb') := handle_command en be fuel c m rb in
    and_go_on rb' (answer fuel (status_of r))) (fun _ _ _ => True) l1 s1).
  { intros c. apply rg_bind. eapply rg_mono; [|by apply rg_handle_command].
    intros [r rb'] l2 s2 _. apply rg_true; [done|]. apply ev_and_go_on, ev_answer, quiet_easy. }
  destruct (dispatch (command_words (x :: b)) m); try (apply Hgo).
  apply rg_true; [done|]. ev. apply ev_answer, quiet_easy.
Qed.

Lemma rg_process_commands en be fuel n m rb l s : be_lfs be = lfs -> en_hash en = H ->
  RG (process_commands en be fuel n m rb) (fun _ _ _ => True) l s.
Proof using Hlfs HH HW.
  intros Hbe Hen. revert rb l s. induction n as [|n IH]; intros rb l s; simpl; [done|].
  apply rg_bind. eapply rg_mono; [|by apply rg_process_one].
  intros [rb'|r] l1 s1 _; [apply IH|done].
Qed.

Lemma rg_server p l s : is_server H lfs p -> RG p (fun _ _ _ => True) l s.
Proof using Hlfs HH HW.
  intros (en & fuel & cfg & op & Hen & ->). unfold transfer_main, transfer_main_internal, transfer_run.
  apply rg_bind. eapply (rg_mono _ _ _ _ _ (fun _ _ _ => True)); [done|].
  apply rg_bindR, rg_true; [|apply ev_set_permissions; apply quiet_easy].
  intros [um|e] l1 s1; [|done].
  apply rg_bindR, rg_true.
  2: { unfold create_directories. induction dir_names as [|d ds IH]; simpl; ev. }
  intros [u|e] l2 s2; [|done].
  apply rg_bindR, rg_true; [|apply ev_send_capabilities; apply quiet_easy].
  intros [u'|e] l3 s3; [|done].
  destruct (mode_of op); [|done]. by apply rg_process_commands.
Qed.
End one.

(** ** Systems of servers *)
Lemma rely_refl i s : Rely i s s.
Proof using Type. apply rtc_refl. Qed.
Lemma rely_trans i a b c : Rely i a b -> Rely i b c -> Rely i a c.
Proof using Type. apply rtc_transitive. Qed.
Lemma guar_rely i j s s' : i <> j -> Inv s -> Inv s' -> Guar j s s' -> Rely i s s'.
Proof using Type. intros. apply rtc_once. by exists j. Qed.

Lemma servers_sound {A} (Q : nat -> A -> local -> fs -> Prop) cs (ps : list (proc A)) s0 :
  Inv s0 ->
  (forall i p, ps !! i = Some p -> rg i (Rely i) (Guar i) Inv (pr_prog p) (Q i) (pr_local p) s0) ->
  sys_ok Rely Guar Inv Q (sys_run cs (Sys ps s0)) /\
  rtc (moved Guar Inv) s0 (shared (sys_run cs (Sys ps s0))).
Proof using Type.
  intros HI Hp. apply (sys_run_sound Rely Guar Inv Q rely_refl rely_trans guar_rely cs (Sys ps s0)).
  split; [done|]. intros i p Hi. exists s0. split; [apply rely_refl|by apply Hp].
Qed.

End store.

Global Instance no_pruning : pruning := fun _ => False.
Lemma gu_obj lfs n0 W i s s' : Guar lfs n0 W i s s' -> forall o,
  nodes s' !! expected_path lfs o = nodes s !! expected_path lfs o \/
  (nodes s !! expected_path lfs o = None /\ nodes s' !! expected_path lfs o = Some NDir) \/
  (W i o /\ nodes s !! expected_path lfs o <> Some NDir /\ exists j, nodes s' !! expected_path lfs o = Some (NFile j)).
Proof. intros HG o. destruct (gu_node _ _ _ _ _ _ HG o) as [E|[E|[E|[[] _]]]]; auto. Qed.

Lemma moved_objects {Dam : damage} H lfs n0 W s s' o : rtc (moved (Guar lfs n0 W) (Inv H lfs n0)) s s' -> is_oid o ->
  (exists j, nodes s !! expected_path lfs o = Some (NFile j)) -> exists j, nodes s' !! expected_path lfs o = Some (NFile j).
Proof.
  intros Hm Ho. induction Hm as [|a b c (_ & _ & i & HG) _ IH]; [done|].
  intros [j Hj]. apply IH. destruct (gu_obj _ _ _ _ _ _ HG o) as [E|[[E _]|(_ & _ & E)]]; [|congruence|done].
  exists j. congruence.
Qed.

Global Instance no_damage : damage := False.
Lemma inv_obj H lfs n0 s : Inv H lfs n0 s -> forall o j, is_oid o -> nodes s !! expected_path lfs o = Some (NFile j) ->
  exists x, inodes s !! j = Some x /\ hex_encode (H (i_data x)) = o /\ ((n0 <= j)%nat -> i_temp x = true).
Proof. intros HI o j Ho Hj. destruct (inv_file H lfs n0 s HI o j Ho Hj) as (x & Hx & [E|[[] _]] & Ht). by exists x. Qed.

Lemma inv_store H lfs n0 s : Inv H lfs n0 s -> store_ok H lfs s.
Proof.
  intros HI o d Ho (j & x & Hj & Hx & <-). apply hex_of_iff.
  destruct (inv_obj H lfs n0 s HI o j Ho Hj) as (x' & Hx' & E & _). congruence.
Qed.

Lemma store_inv H lfs s : sane s -> store_ok H lfs s -> Inv H lfs (length (inodes s)) s.
Proof.
  intros Hs Ho. split.
  - intros o j Hio Hj. pose proof (Hs _ _ Hj) as Hl.
    destruct (inodes s !! j) as [x|] eqn:Ex; [|apply lookup_ge_None in Ex; lia].
    exists x. split_and!; [done| |lia]. left. symmetry. apply hex_of_iff. apply Ho; [done|]. by exists j, x.
  - done.
  - intros p q j x _ _ Hj Hn. apply lookup_lt_Some in Hj. lia.
  - intros c j x _ Hj Hn. apply lookup_lt_Some in Hj. lia.
  - done.
Qed.
