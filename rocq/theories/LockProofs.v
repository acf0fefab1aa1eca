(** Locks under any number of server processes: the history of links and
    removals, the answers given, and the contents of the lock directory. *)
From Verif Require Import Bytes Err FS Prog Pktline Args Local Processor Transfer Wp Rg
  ByteFacts PktFacts FsFacts Spec SpecStore SpecServer SpecLock ServerEv PktProofs TextProofs ObjProofs StoreProofs Total.
From stdpp Require Import relations.

Local Arguments N.ldiff : simpl never.
Local Arguments acts : simpl never.

Section locks.
Context (H : bytes -> bytes) (lfs : path) (s0 : fs).
(** Whether the records of the initial state are known to be good. *)
Context (K : Prop).
Context (Hlfs : Forall stays lfs) (HH : digest H).

Local Notation inc := (lfs ++ [bs "incomplete"]).
Local Notation lockdir := (lfs ++ [bs "locks"]).
Local Notation lk c := (lock_path lfs c).
Local Notation obj o := (expected_path lfs o).
Local Notation n0 := (length (inodes s0)).

Lemma lk_inj c d : lk c = lk d -> c = d.
Proof using Type. unfold lock_path. intros E%app_inj_tail. naive_solver. Qed.

(** ** The history *)
Record HInv (s : fs) : Prop := {
  hi_alt : forall c h1 i h2 j h3, hist s = h1 ++ (i, OLink (lk c)) :: h2 ++ (j, OLink (lk c)) :: h3 ->
    exists k, (k, OUnlink (lk c)) ∈ h2;
  hi_last : forall c h1 i h2, hist s = h1 ++ (i, OLink (lk c)) :: h2 -> (forall k, (k, OUnlink (lk c)) ∉ h1) ->
    nodes s !! lk c <> None;
  hi_old : forall c, nodes s0 !! lk c <> None -> (forall k, (k, OUnlink (lk c)) ∉ hist s) -> nodes s !! lk c <> None;
  hi_first : forall c h1 i h2, nodes s0 !! lk c <> None -> hist s = h1 ++ (i, OLink (lk c)) :: h2 ->
    exists k, (k, OUnlink (lk c)) ∈ h2 }.

Definition is_removal (f : path) (e : obs) : bool := match e with OUnlink q => bool_decide (q = f) | _ => false end.
Lemma removal_dec f (h : list (nat * obs)) : (exists k, (k, OUnlink f) ∈ h) \/ (forall k, (k, OUnlink f) ∉ h).
Proof using Type.
  destruct (decide (Exists (fun e => is_removal f e.2 = true) h)) as [E|E].
  - left. apply Exists_exists in E as ([k e] & Hin & He). exists k. destruct e as [|q|]; try done.
    simpl in He. apply bool_decide_eq_true in He as ->. done.
  - right. intros k Hk. apply E, Exists_exists. exists (k, OUnlink f). split; [done|]. simpl. by apply bool_decide_eq_true.
Qed.

Lemma hinv_same s s' : hist s' = hist s -> (forall c, nodes s !! lk c <> None -> nodes s' !! lk c <> None) ->
  HInv s -> HInv s'.
Proof using Type.
  intros Eh Hn [H1 H2 H3 H4]. split; rewrite Eh.
  - done.
  - intros c h1 i h2 E Hu. by apply Hn, (H2 c h1 i h2).
  - intros c Hc Hu. by apply Hn, (H3 c).
  - done.
Qed.

Lemma hinv_answer s s' i c a : hist s' = (i, OAnswer c a) :: hist s -> nodes s' = nodes s -> HInv s -> HInv s'.
Proof using Type.
  intros Eh En [H1 H2 H3 H4]. split; rewrite Eh.
  - intros d [|e h1] j h2 k h3 E; [done|]. injection E as <- E. by apply (H1 d h1 j h2 k h3).
  - rewrite En. intros d [|e h1] j h2 E Hu; [done|]. injection E as <- E. apply (H2 d h1 j h2 E).
    intros k Hk. apply (Hu k). by right.
  - intros d Hd Hu. rewrite En. apply (H3 d Hd). intros k Hk. apply (Hu k). by right.
  - intros d [|e h1] j h2 Hd E; [done|]. injection E as <- E. by apply (H4 d h1 j h2).
Qed.

Lemma hinv_unlink s s' i q : hist s' = (i, OUnlink q) :: hist s -> nodes s' = delete q (nodes s) -> HInv s -> HInv s'.
Proof using Type.
  intros Eh En [H1 H2 H3 H4]. split; rewrite Eh.
  - intros d [|e h1] j h2 k h3 E; [done|]. injection E as <- E. by apply (H1 d h1 j h2 k h3).
  - rewrite En. intros d [|e h1] j h2 E Hu; [done|]. injection E as <- E.
    destruct (decide (q = lk d)) as [->|Hne]; [destruct (Hu i); by left|]. rewrite lookup_delete_ne by done.
    apply (H2 d h1 j h2 E). intros k Hk. apply (Hu k). by right.
  - intros d Hd Hu. rewrite En. destruct (decide (q = lk d)) as [->|Hne]; [destruct (Hu i); by left|].
    rewrite lookup_delete_ne by done. apply (H3 d Hd). intros k Hk. apply (Hu k). by right.
  - intros d [|e h1] j h2 Hd E; [done|]. injection E as <- E. by apply (H4 d h1 j h2).
Qed.

Lemma hinv_link s s' i q n : hist s' = (i, OLink q) :: hist s -> nodes s !! q = None -> nodes s' = <[q := n]> (nodes s) ->
  HInv s -> HInv s'.
Proof using Type.
  intros Eh Eq En [H1 H2 H3 H4]. split; rewrite Eh.
  - intros d [|e h1] j h2 k h3 E; [|injection E as <- E; by apply (H1 d h1 j h2 k h3)].
    injection E as -> -> E. destruct (removal_dec (lk d) h2) as [?|Hno]; [done|]. by destruct (H2 d h2 k h3 E Hno).
  - rewrite En. intros d [|e h1] j h2 E Hu.
    + injection E as -> -> E. by rewrite lookup_insert.
    + injection E as <- E. destruct (decide (q = lk d)) as [->|Hne]; [by rewrite lookup_insert|].
      rewrite lookup_insert_ne by done. apply (H2 d h1 j h2 E). intros k Hk. apply (Hu k). by right.
  - intros d Hd Hu. rewrite En. destruct (decide (q = lk d)) as [->|Hne]; [by rewrite lookup_insert|].
    rewrite lookup_insert_ne by done. apply (H3 d Hd). intros k Hk. apply (Hu k). by right.
  - intros d [|e h1] j h2 Hd E; [|injection E as <- E; by apply (H4 d h1 j h2)].
    injection E as -> -> E. subst h2. destruct (removal_dec (lk d) (hist s)) as [?|Hno]; [done|]. by destruct (H3 d Hd Hno).
Qed.

(** ** What a process may answer *)
Definition lockfile (p : bytes) : path := lk (lock_id H p).

Definition warranted (c : N) (a : list bytes) (h : list obs) : Prop :=
  (c = 201%N -> exists p, described H p a /\ exists h1 h2, h = h1 ++ OLink (lockfile p) :: h2 /\
                Forall (fun e => is_answer e = false) h1) /\
  (c = 200%N -> forall x rest, a = (bs "id=" ++ x) :: rest ->
     exists p, described H p a /\ exists h2, h = OUnlink (lockfile p) :: h2).

Definition proper (h : list obs) : Prop :=
  forall h1 c a h2, h = h1 ++ OAnswer c a :: h2 -> warranted c a h2.

Lemma proper_cons e h : proper h -> match e with OAnswer c a => warranted c a h | _ => True end -> proper (e :: h).
Proof using Type.
  intros Hh He [|e' h1] c a h2 E; [by injection E as -> ->|]. injection E as <- E. by apply (Hh h1 c a h2).
Qed.

Lemma acts_cons i j e h : acts i ((j, e) :: h) = if decide (j = i) then e :: acts i h else acts i h.
Proof using Type. unfold acts. simpl. by case_decide. Qed.

(** ** Contents of the lock directory *)
Definition base (c id : bytes) : Prop := length id = 64%nat /\ (c = id \/ c = id ++ bs ".lock").

Lemma base_inj c d i j : base c i -> base d i -> base c j -> base d j.
Proof using Type.
  intros [Hi1 Hi] [_ Hd] [Hj1 Hj]. assert (i = j) as ->; [|by split].
  destruct Hi as [->| ->], Hj as [E|E]; [done| | |].
  - apply (f_equal length) in E. rewrite app_length in E. simpl in E. lia.
  - apply (f_equal length) in E. rewrite app_length in E. simpl in E. lia.
  - by apply app_inv_tail in E.
Qed.

Lemma lock_id_length p : length (lock_id H p) = 64%nat.
Proof using HH. unfold lock_id. rewrite hex_encode_length, HH. lia. Qed.

Lemma partial_base c d x id : partial_record H c x -> base c id -> base d id -> partial_record H d x.
Proof using HH.
  intros (p & t & Hc & Hx) H1 H2. exists p, t. split; [|done].
  apply (base_inj c d id (lock_id H p)); [done|done|]. split; [apply lock_id_length|done].
Qed.

Record LInv (s : fs) : Prop := {
  li_hist : HInv s;
  li_own : forall i, proper (acts i (hist s));
  li_rec : K -> forall c j x, nodes s !! lk c = Some (NFile j) -> inodes s !! j = Some x -> partial_record H c (i_data x);
  li_tmp : forall c j x, nodes s !! lk c = Some (NFile j) -> inodes s !! j = Some x -> (n0 <= j)%nat -> i_temp x = false;
  li_ref : forall p j, nodes s !! p = Some (NFile j) -> (j < length (inodes s))%nat;
  li_len : (n0 <= length (inodes s))%nat }.

Record LGuar (i : nat) (s s' : fs) : Prop := {
  lg_hist : exists es, hist s' = map (pair i) es ++ hist s;
  lg_len : (length (inodes s) <= length (inodes s'))%nat;
  lg_ino : forall j x, inodes s !! j = Some x -> exists x', inodes s' !! j = Some x' /\
    i_creator x' = i_creator x /\ i_temp x' = i_temp x /\
    (i_data x' = i_data x \/ (n0 <= j)%nat /\ i_creator x = i);
  lg_name : forall c j, nodes s' !! lk c = Some (NFile j) -> (j < length (inodes s))%nat ->
    exists d, nodes s !! lk d = Some (NFile j) /\ (d = c \/ exists id, base d id /\ base c id) }.

Definition LRely (i : nat) : fs -> fs -> Prop :=
  rtc (fun s s' => exists j, i <> j /\ LInv s /\ LInv s' /\ LGuar j s s').
Definition lstable (i : nat) (P : fs -> Prop) : Prop :=
  forall j s s', i <> j -> LInv s -> LInv s' -> LGuar j s s' -> P s -> P s'.
Lemma lstable_rely i P s s' : lstable i P -> LRely i s s' -> P s -> P s'.
Proof using Type. intros HP. induction 1 as [|a b c (j & ? & ? & ? & ?) _ IH]; [done|]. intros Ha. eauto. Qed.

Lemma acts_other i j es h : i <> j -> acts i (map (pair j) es ++ h) = acts i h.
Proof using Type.
  intros Hne. induction es as [|e es IH]; [done|]. simpl. rewrite acts_cons. by rewrite decide_False.
Qed.
Lemma acts_self i es h : acts i (map (pair i) es ++ h) = es ++ acts i h.
Proof using Type.
  induction es as [|e es IH]; [done|]. simpl. rewrite acts_cons. rewrite decide_True by done. by rewrite IH.
Qed.

Lemma lstable_acts i (P : list obs -> Prop) : lstable i (fun s => P (acts i (hist s))).
Proof using Type.
  intros j s s' Hne _ _ HG. destruct (lg_hist _ _ _ HG) as [es ->]. by rewrite acts_other.
Qed.
Lemma lstable_and i P Q : lstable i P -> lstable i Q -> lstable i (fun s => P s /\ Q s).
Proof using Type. intros HP HQ j s s' H1 H2 H3 H4 [H5 H6]. split; [exact (HP j s s' H1 H2 H3 H4 H5)|exact (HQ j s s' H1 H2 H3 H4 H6)]. Qed.

(** Own events other than answers. *)
Lemma proper_app es h : Forall (fun e => is_answer e = false) es -> proper h -> proper (es ++ h).
Proof using Type.
  induction 1 as [|e es He _ IH]; [done|]. intros Hh. apply proper_cons; [by apply IH|]. by destruct e.
Qed.

(** ** A step that adds no file to the lock directory and writes to none *)
Lemma step_ok i s s' es : LInv s ->
  hist s' = map (pair i) es ++ hist s -> HInv s' -> Forall (fun e => is_answer e = false) es ->
  (forall c j, nodes s' !! lk c = Some (NFile j) -> nodes s !! lk c = Some (NFile j)) ->
  (length (inodes s) <= length (inodes s'))%nat ->
  (forall j x, inodes s !! j = Some x -> exists x', inodes s' !! j = Some x' /\
    i_creator x' = i_creator x /\ i_temp x' = i_temp x /\ i_data x' = i_data x) ->
  (forall p j, nodes s' !! p = Some (NFile j) -> (j < length (inodes s'))%nat) ->
  LInv s' /\ LGuar i s s'.
Proof using Type.
  intros HI Eh Hh Hes Hn Hlen Hi Href.
  assert (Hb : forall c j x', nodes s' !! lk c = Some (NFile j) -> inodes s' !! j = Some x' ->
    exists x, inodes s !! j = Some x /\ i_temp x' = i_temp x /\ i_data x' = i_data x).
  { intros c j x' Hc Hx'. pose proof (li_ref s HI _ _ (Hn c j Hc)) as Hl.
    destruct (inodes s !! j) as [x|] eqn:E; [|apply lookup_ge_None in E; lia].
    exists x. split; [done|]. destruct (Hi j x E) as (x2 & E2 & _ & E3 & E4). split; congruence. }
  split; [split|split].
  - done.
  - intros k. rewrite Eh. destruct (decide (k = i)) as [->|Hne].
    + rewrite acts_self. apply proper_app; [done|]. apply HI.
    + rewrite acts_other by done. apply HI.
  - intros HK c j x' Hc Hx'. destruct (Hb c j x' Hc Hx') as (x & Hx & _ & ->). by apply (li_rec s HI HK c j x (Hn c j Hc)).
  - intros c j x' Hc Hx' Hj. destruct (Hb c j x' Hc Hx') as (x & Hx & -> & _). by apply (li_tmp s HI c j x (Hn c j Hc)).
  - done.
  - pose proof (li_len s HI). lia.
  - by exists es.
  - done.
  - intros j x Hx. destruct (Hi j x Hx) as (x' & E1 & E2 & E3 & E4). exists x'. auto.
  - intros c j Hc _. exists c. split; [by apply Hn|by left].
Qed.

Lemma lsame_ok i s s' : hist s' = hist s -> same s s' -> LInv s -> LInv s' /\ LGuar i s s'.
Proof using Type.
  intros Eh [En Ei] HI. apply (step_ok i s s' []); [done|done| |done|by rewrite En|by rewrite Ei| |].
  - apply (hinv_same s); [done|by rewrite En|apply HI].
  - rewrite Ei. intros j x Hx. exists x. auto.
  - rewrite En, Ei. apply HI.
Qed.

(** ** Calls that need no knowledge *)
Definition tame (e : ev) : Prop :=
  match e with
  | EChmod _ _ | EUnlink _ | EUmask _ => True
  | EMkdir p => forall c b, p <> lk c ++ b
  | EMktemp d pre => d = inc
  | ERename a b => (exists n, a = inc ++ [n] /\ stays n) /\ exists o, is_oid o /\ b = obj o
  | _ => calm e
  end.

Lemma calm_tame e : calm e -> tame e.
Proof using Type. by destruct e. Qed.

Lemma lk_inc c d : lk c <> inc ++ [d].
Proof using Type. unfold lock_path. rewrite <- !app_assoc. intros E%app_inv_head. by vm_compute in E. Qed.
Lemma lk_obj c o : lk c <> obj o.
Proof using Type. unfold lock_path, expected_path. rewrite <- !app_assoc. intros E%app_inv_head. discriminate. Qed.

Lemma calm_same pid e o l s : calm e -> hist (handle_ev pid e o l s).2 = hist s /\ same s (handle_ev pid e o l s).2.
Proof using Type.
  intros He. split; [|by apply quiet_same, calm_quiet].
  destruct e; try (by destruct He); simpl; unfold faulty; try (by destruct (o_fault o)); try done.
  destruct (o_fault o); [done|]. by destruct (do_read n l).
Qed.

(** What such a call changes: no new file in the lock directory, no contents. *)
Record tame_step (s s' : fs) (i : nat) (es : list obs) : Prop := {
  ts_hist : hist s' = map (pair i) es ++ hist s;
  ts_es : (es = [] /\ forall c, nodes s !! lk c <> None -> nodes s' !! lk c <> None) \/
          exists q, es = [OUnlink q] /\ nodes s' = delete q (nodes s);
  ts_name : forall c n, nodes s' !! lk c = Some n -> nodes s !! lk c = Some n;
  ts_len : (length (inodes s) <= length (inodes s'))%nat;
  ts_ino : forall j x, inodes s !! j = Some x -> exists x', inodes s' !! j = Some x' /\
    i_creator x' = i_creator x /\ i_temp x' = i_temp x /\ i_data x' = i_data x;
  ts_ref : sane s' }.

Lemma tame_ev pid e o l s : tame e -> sane s -> exists es, tame_step s (handle_ev pid e o l s).2 pid es.
Proof using Hlfs.
  intros He HI.
  assert (Hsame : forall s', hist s' = hist s -> same s s' -> exists es, tame_step s s' pid es).
  { intros s' Eh [En Ei]. exists []. split; rewrite ?Eh, ?En, ?Ei; try done.
    - left. done.
    - intros j x Hx. exists x. auto.
    - intros q j. rewrite En, Ei. apply HI. }
  destruct (match e with EMkdir _ | EChmod _ _ | EUnlink _ | EUmask _ | EMktemp _ _ | ERename _ _ => false | _ => true end) eqn:Hq.
  { assert (Hc : calm e) by (by destruct e). destruct (calm_same pid e o l s Hc) as [E1 E2]. by apply Hsame. }
  destruct e; try discriminate Hq; clear Hq; simpl; unfold faulty, with_l; destruct (o_fault o) as [x|]; try (by apply Hsame).
  - (* mkdir *) unfold fs_mkdir_all. destruct (fs_mkdirs s [] p) as [x|s'] eqn:E; [by apply Hsame|].
    apply mkdirs_spec in E as (E1 & E2 & E3 & E4). simpl. exists []. split; [done| | |by rewrite E1| |].
    + left. split; [done|]. intros c Hc. destruct (E3 (lk c)) as [->|(Ex & _)]; congruence.
    + intros c n Hj. destruct (E3 (lk c)) as [<-|(_ & Hd & a & b & _ & E & Ea)]; [done|]. simpl in Ea. subst a. by apply He in E.
    + rewrite E1. intros j x Hx. exists x. auto.
    + intros q j Hj. rewrite E1. destruct (E3 q) as [Eq|(_ & Hd & _)]; [|congruence]. apply (HI q). congruence.
  - (* mktemp *) simpl in He. subst dir. unfold fs_mktemp.
    destruct (resolve s inc) as [x|d] eqn:E; [by apply Hsame|].
    apply resolve_stays in E as ->; [|by apply inc_stays].
    destruct (node_at s inc) as [[|i]|]; [|by apply Hsame|by apply Hsame]. simpl. exists [].
    assert (Hl : forall c (n : node), <[inc ++ [free_name s inc (prefix ++ o_sfx o)] := n]> (nodes s) !! lk c = nodes s !! lk c).
    { intros c n. rewrite lookup_insert_ne; [done|]. intros Ex. symmetry in Ex. by apply lk_inc in Ex. }
    split; simpl; [done| | | | |].
    + left. split; [done|]. intros c. by rewrite Hl.
    + intros c n. by rewrite Hl.
    + rewrite app_length. lia.
    + intros j x Hx. exists x. split; [by apply lookup_app_l_Some|done].
    + intros p j. simpl. rewrite app_length. simpl. rewrite lookup_insert_Some. intros [[_ [= <-]]|[_ Hj]]; [lia|].
      apply HI in Hj. lia.
  - (* rename *) destruct He as [(n & -> & Hn) (oid & Ho & ->)]. unfold fs_rename.
    destruct (file_at s (inc ++ [n])) as [x|[q i]] eqn:E; [by apply Hsame|].
    apply file_at_stays in E as [-> Ei].
    2: { apply Forall_app. split; [by apply inc_stays|by constructor]. }
    destruct (resolve s (obj oid)) as [x|q] eqn:Eb; [by apply Hsame|].
    apply resolve_stays in Eb as ->; [|by apply obj_stays].
    assert (Hok : exists es, tame_step s (set_nodes (fun m => <[obj oid:=NFile i]> (delete (inc ++ [n]) m)) s) pid es).
    { assert (Hl : forall c, <[obj oid:=NFile i]> (delete (inc ++ [n]) (nodes s)) !! lk c = nodes s !! lk c).
      { intros c. rewrite lookup_insert_ne by (intros Ex; symmetry in Ex; by apply lk_obj in Ex).
        rewrite lookup_delete_ne by (intros Ex; symmetry in Ex; by apply lk_inc in Ex). done. }
      exists []. split; simpl; [done| | |done| |].
      - left. split; [done|]. intros c. by rewrite Hl.
      - intros c j. by rewrite Hl.
      - intros j x Hx. exists x. auto.
      - intros p j. simpl. rewrite lookup_insert_Some, lookup_delete_Some. intros [[_ [= <-]]|[_ [_ Hj]]]; by eapply HI. }
    destruct (node_at s (obj oid)) as [[|k]|]; [by apply Hsame|exact Hok|exact Hok].
  - (* unlink *) unfold fs_unlink. destruct (file_at s p) as [x|[q i]] eqn:E; [by apply Hsame|]. simpl.
    exists [OUnlink q]. split; simpl; [done| | |done| |].
    + right. by exists q.
    + intros c n. rewrite lookup_delete_Some. naive_solver.
    + intros j x Hx. exists x. auto.
    + intros p' j. simpl. rewrite lookup_delete_Some. intros [_ Hj]. by eapply HI.
  - (* chmod *) unfold fs_chmod. destruct (resolve s p) as [x|q]; [by apply Hsame|].
    destruct (node_at s q) as [[|i]|]; [by apply Hsame| |by apply Hsame]. simpl. exists []. split; simpl; [done| |done| | |].
    + by left.
    + by rewrite alter_length.
    + intros j x Hx. destruct (decide (i = j)) as [->|Hne].
      * exists (set_mode m x). rewrite list_lookup_alter, Hx. done.
      * exists x. by rewrite list_lookup_alter_ne.
    + intros p' j Hj. simpl. rewrite alter_length. by eapply HI.
Qed.

Lemma tame_ok pid e o l s : tame e -> LInv s ->
  let s' := (handle_ev pid e o l s).2 in LInv s' /\ LGuar pid s s' /\
  exists es, acts pid (hist s') = es ++ acts pid (hist s) /\ Forall (fun e => is_answer e = false) es.
Proof using Hlfs.
  intros He HI. destruct (tame_ev pid e o l s He) as [es Ht]; [exact (li_ref s HI)|].
  set (s' := (handle_ev pid e o l s).2) in *. destruct Ht as [T1 T2 T3 T4 T5 T6].
  assert (Hes : Forall (fun e => is_answer e = false) es).
  { destruct T2 as [[-> _]|(q & -> & _)]; by constructor. }
  destruct (step_ok pid s s' es) as [HI' HG]; try done.
  - destruct T2 as [[-> Hn]|(q & -> & Hn)].
    + apply (hinv_same s); [done|done|apply HI].
    + apply (hinv_unlink s _ pid q); [done|done|apply HI].
  - intros c j. apply T3.
  - cbv zeta. split_and!; [done|done|]. exists es. split; [|done]. by rewrite T1, acts_self.
Qed.

Section one.
Context (pid : nat).
Local Notation RG := (rg pid (LRely pid) (LGuar pid) LInv).
Local Notation own s := (acts pid (hist s)).

(** Since the events [h] this process has given no answer. *)
Definition since (h : list obs) (s : fs) : Prop :=
  exists es, own s = es ++ h /\ Forall (fun e => is_answer e = false) es.
Lemma since_stable h : lstable pid (since h).
Proof using Type. apply (lstable_acts pid (fun x => exists es, x = es ++ h /\ Forall (fun e => is_answer e = false) es)). Qed.
Lemma since_refl s : since (own s) s.
Proof using Type. exists []. split; [done|constructor]. Qed.
Lemma since_trans h s s' : (exists es, own s' = es ++ own s /\ Forall (fun e => is_answer e = false) es) ->
  since h s -> since h s'.
Proof using Type.
  intros (es & E & He) (es' & E' & He'). exists (es ++ es'). split; [|by apply Forall_app]. by rewrite E, E', app_assoc.
Qed.

Lemma rg_tame {A} (P : fs -> Prop) (p : prog A) h l s :
  (forall i s s', LGuar i s s' -> P s -> P s') -> all_ev tame p -> P s -> since h s ->
  RG p (fun _ _ s' => P s' /\ since h s') l s.
Proof using Hlfs.
  intros HP. revert l s. induction p as [a|f|e k IH]; intros l s Hp Hs Hh; [done|done|].
  destruct Hp as [He Hk]. apply rg_vis. intros s1 o HR HI.
  assert (Hs1 : P s1). { revert HR Hs. clear -HP. apply lstable_rely. intros j a b _ _ _ HG. by apply (HP j). }
  pose proof (lstable_rely _ _ _ _ (since_stable h) HR Hh) as Hh1.
  pose proof (tame_ok pid e o l s1 He HI) as Ho. pose proof (handle_resp_ok pid e o l s1) as Hr.
  destruct (handle_ev pid e o l s1) as [[r l'] s2]. simpl in Ho, Hr. destruct Ho as (HI2 & HG & Hes).
  split_and!; [done|done|]. apply IH; [by apply Hk|by apply (HP pid s1)|by apply (since_trans h s1)].
Qed.

Lemma rg_tame_true {A} (p : prog A) (Q : A -> local -> fs -> Prop) l s :
  (forall a l s, Q a l s) -> all_ev tame p -> RG p Q l s.
Proof using Hlfs.
  intros HQ Hp. eapply rg_mono; [|apply (rg_tame (fun _ => True) p (own s)); [done|done|done|apply since_refl]].
  intros. apply HQ.
Qed.

Lemma rg_tame_since {A} (p : prog A) h l s : all_ev tame p -> since h s -> RG p (fun _ _ s' => since h s') l s.
Proof using Hlfs. intros Hp Hh. eapply rg_mono; [|by apply (rg_tame (fun _ => True) p h)]. by intros a l' s' []. Qed.

(** ** Writing to a file made by this process *)
Lemma lwrite_ok fd b s x : LInv s -> inodes s !! fd = Some x -> (n0 <= fd)%nat -> i_creator x = pid ->
  (i_temp x = true \/ forall c, nodes s !! lk c = Some (NFile fd) -> partial_record H c (i_data x ++ b)) ->
  let s' := (fs_write fd b s).2 in LInv s' /\ LGuar pid s s' /\ own s' = own s.
Proof using Type.
  intros HI Hx Hn Hc Ht. unfold fs_write, inode_at. rewrite Hx. simpl.
  set (s' := upd_inode fd (append_data b) s).
  assert (Hf : forall j y, inodes s !! j = Some y -> exists y', inodes s' !! j = Some y' /\
     (j <> fd -> y' = y) /\ (j = fd -> i_data y' = i_data y ++ b) /\ i_creator y' = i_creator y /\ i_temp y' = i_temp y).
  { intros j y Hy. destruct (decide (fd = j)) as [<-|Hne].
    - exists (append_data b y). unfold s'. by rewrite (inodes_upd_eq _ _ _ y).
    - exists y. unfold s'. by rewrite inodes_upd_ne. }
  assert (Hb : forall j y', inodes s' !! j = Some y' -> exists y, inodes s !! j = Some y /\ i_temp y' = i_temp y /\
     (j <> fd -> y' = y) /\ (j = fd -> i_data y' = i_data y ++ b)).
  { intros j y' Hy'. destruct (inodes s !! j) as [y|] eqn:E.
    - exists y. split; [done|]. destruct (Hf j y E) as (y2 & E2 & E3 & E4 & _ & E5).
      assert (y2 = y') as -> by congruence. done.
    - apply lookup_ge_None in E. apply lookup_lt_Some in Hy'. simpl in Hy'. rewrite alter_length in Hy'. lia. }
  assert (Hlen : length (inodes s') = length (inodes s)) by (simpl; by rewrite alter_length).
  split_and!; [| |done].
  - split.
    + apply (hinv_same s); [done|done|apply HI].
    + apply HI.
    + intros HK c j y' Hc' Hy'. change (nodes s !! lk c = Some (NFile j)) in Hc'.
      destruct (Hb j y' Hy') as (y & Hy & E1 & E2 & E3). destruct (decide (j = fd)) as [->|Hne].
      * assert (y = x) as -> by congruence. rewrite (E3 eq_refl). destruct Ht as [Ht|Ht]; [|by apply Ht].
        pose proof (li_tmp s HI c fd x Hc' Hx Hn). congruence.
      * rewrite (E2 Hne). by apply (li_rec s HI HK c j y).
    + intros c j y' Hc' Hy' Hj. destruct (Hb j y' Hy') as (y & Hy & -> & _). by apply (li_tmp s HI c j y).
    + intros p j Hj. rewrite Hlen. by eapply (li_ref s HI).
    + rewrite Hlen. apply HI.
  - split.
    + by exists [].
    + by rewrite Hlen.
    + intros j y Hy. destruct (Hf j y Hy) as (y' & E1 & E2 & E3 & E4 & E5). exists y'. split_and!; [done|done|done|].
      destruct (decide (j = fd)) as [->|Hne]; [|left; by rewrite E2]. right. split; [done|]. congruence.
    + intros c j Hc' _. exists c. split; [done|by left].
Qed.

(** ** Uploading *)
Definition mine (fd : nat) (s : fs) : Prop :=
  (n0 <= fd)%nat /\ exists x, inodes s !! fd = Some x /\ i_creator x = pid /\ i_temp x = true.
Lemma mine_guar fd i s s' : LGuar i s s' -> mine fd s -> mine fd s'.
Proof using Type.
  intros HG (Hn & x & Hx & Hc & Ht). split; [done|]. destruct (lg_ino _ _ _ HG fd x Hx) as (x' & E1 & E2 & E3 & _).
  exists x'. split_and!; congruence.
Qed.
Lemma mine_stable fd : lstable pid (mine fd).
Proof using Type. intros j s s' _ _ _ HG. by apply (mine_guar fd j). Qed.

Lemma rg_copy_to_file_l f fd got rb l s : mine fd s -> RG (copy_to_file f fd got rb) (fun _ _ s' => True) l s.
Proof using Hlfs.
  revert got rb l s. induction f as [|f IH]; intros got rb l s Ho; simpl; [done|].
  apply rg_bind. eapply rg_mono; [|apply (rg_tame (mine fd) _ (own s)); [apply mine_guar| |done|apply since_refl]].
  2: { apply cv_reader_read. apply calm_tame. }
  intros [r rb'] l1 s1 [Ho1 _]. destruct r as [d|e]; simpl; [|done].
  destruct d as [|x d]; [done|]. apply rg_bind, rg_call. intros s2 o HR HI.
  pose proof (lstable_rely _ _ _ _ (mine_stable fd) HR Ho1) as (Hn & y & Hy & Hc & Ht).
  assert (Hw : forall b, LInv (fs_write fd b s2).2 /\ LGuar pid s2 (fs_write fd b s2).2).
  { intros b. destruct (lwrite_ok fd b s2 y) as (? & ? & _); auto. }
  simpl. destruct (o_fault o).
  - destruct (Hw (take (o_part o) (x :: d))). split_and!; done.
  - destruct (Hw (x :: d)) as [H1 H2]. destruct (fs_write fd (x :: d) s2) as [[u|e] s3]; simpl in *; split_and!; try done.
    apply IH. apply (mine_guar fd pid s2); [done|]. split; [done|]. eauto.
Qed.

(** ** Which answers need no lock *)
Definition free_of (st : status) : Prop :=
  st_code st <> 201%N /\ (st_code st = 200%N -> forall x rest, default [] (st_args st) <> (bs "id=" ++ x) :: rest).
Definition due (r : res status) (s : fs) : Prop :=
  warranted (st_code (status_of r)) (default [] (st_args (status_of r))) (own s).
Lemma free_due r s : free_of (status_of r) -> due r s.
Proof using Type. intros [H1 H2]. split; [done|]. intros Hc x rest E. by apply (H2 Hc) in E. Qed.

Lemma due_stable r : lstable pid (due r).
Proof using Type. apply (lstable_acts pid (warranted _ _)). Qed.
Definition free_ok (r : res status) : Prop := match r with Ok st => free_of st | Er _ => True end.
Lemma free_ok_of r : free_ok r -> free_of (status_of r).
Proof using Type.
  destruct r as [st|e]; [done|]. intros _. unfold status_of, status_of_error. by destruct (client_error _).
Qed.

Lemma rg_leaves {A} (P : A -> Prop) (p : prog A) (Q : A -> local -> fs -> Prop) l s :
  leaves P p -> RG p (fun a l s => P a -> Q a l s) l s -> RG p Q l s.
Proof using Type.
  revert l s. induction p as [a|f|e k IH]; intros l s Hl Hr; [by apply Hr|done|].
  apply rg_vis. intros s1 o HR HI. pose proof (Hr s1 o HR HI) as Hr1. destruct (handle_ev pid e o l s1) as [[r l'] s2].
  destruct Hr1 as (H1 & H2 & H3). split_and!; [done|done|]. apply IH; [apply Hl|exact H3].
Qed.

Section prog.
Context (en : env) (be : backend) (fuel : nat).
Context (Hbe : be_lfs be = lfs) (Hen : en_hash en = H).

Lemma free_msg c t : c <> 201%N -> free_of (Status c None t None).
Proof using Type. intros Hc. by split. Qed.
Lemma free_version : leaves free_ok (p_version fuel).
Proof using Type. unfold p_version. lv. apply leaves_all. intros [x|e]; lv; [|done]. by apply free_msg. Qed.
Lemma free_error c t : c <> 201%N -> leaves free_ok (p_error c t).
Proof using Type. intros Hc. unfold p_error. lv. by apply free_msg. Qed.
Lemma free_batch a b : leaves free_ok (p_batch be fuel a b).
Proof using Type. unfold p_batch. lv. apply leaves_all. intros [x|e]; lv; [|done]. by apply free_msg. Qed.
Lemma free_verify o : leaves free_ok (p_verify_object be fuel o).
Proof using Type.
  unfold p_verify_object. lv. apply leaves_all. intros [x|e]; lv; [|done]. apply leaves_all. intros [a|e]; [|done]. lv.
  destruct (oid_new o); [|done]. unfold backend_verify. lv. destruct (parse_value_as_integer _ _); [|done].
  lv; first [exact I|by apply free_msg].
Qed.
Lemma free_get o : leaves free_ok (p_get_object be fuel o).
Proof using Type.
  unfold p_get_object. lv. apply leaves_all. intros [x|e]; lv; [|done]. apply leaves_all. intros [a|e]; [|done]. lv.
  destruct (oid_new o); [|done]. lv. apply leaves_all. intros [[h n]|e]; lv; [|by apply free_msg|done].
  split; [done|]. intros _ x2 rest E. by vm_compute in E.
Qed.
Lemma free_list o : leaves free_ok (p_list_locks en be fuel o).
Proof using Type.
  unfold p_list_locks. lv. apply leaves_all. intros [x|e]; [|done]. lv. apply leaves_all. intros [a|e]; [|done]. lv.
  destruct (match a !! bs "limit" with Some x0 => parse_integer x0 | None => Ok 100%N end) as [limit|e]; [|done].
  destruct (limit =? 0)%N; [done|]. cbv zeta. destruct (a !! bs "path") as [p|].
  - unfold p_list_for_path. lv. apply leaves_all. intros [[lk|]|e]; [|by apply free_error|done].
    destruct (match a !! bs "cursor" with Some c => _ | None => _ end); [by apply free_error|].
    lv. apply leaves_all. intros sp. lv. by apply free_msg.
  - lv. apply leaves_all. intros [items|e]; [|done]. lv. apply leaves_all. intros specs. lv.
    split; [done|]. intros _ x' rest. cbn [default st_args st_success_with_data]. destruct (items !! _); [|done].
    destruct (_ =? _)%nat; [|done]. intros [= E].
Qed.
Lemma free_put o rb : leaves (fun x => free_ok x.1) (p_put_object en be fuel o rb).
Proof using Type.
  unfold p_put_object. destruct (oid_new o); [|done]. apply leaves_bind, leaves_all. intros [n|e]; [|done].
  apply leaves_bind, leaves_all.
  intros [[[st got]|e] rb']; [|done]. lv; try done; apply leaves_all; intros x; lv; try exact I.
  destruct x; [|done]. by apply free_msg.
Qed.

(** ** put-object *)
Lemma rg_put_object_l o0 rb l s : RG (p_put_object en be fuel o0 rb) (fun _ _ _ => True) l s.
Proof using Hlfs Hbe.
  unfold p_put_object. destruct (oid_new o0) as [o|e] eqn:Eo; [|done].
  apply oid_new_iff in Eo as [-> Ho].
  apply rg_bind, rg_tame_true.
  2: { unfold read_to_delim. ev; apply cv_read_to_type; apply calm_tame. }
  intros [expected|e] l1 s1; [|done].
  apply rg_bind. unfold start_upload. rewrite Hbe. apply rg_bind, rg_call.
  intros s2 orc HR HI. pose proof (tame_ok pid (EMktemp inc o0) orc l1 s2 eq_refl HI) as Hm.
  pose proof (handle_resp_ok pid (EMktemp inc o0) orc l1 s2) as Hres.
  assert (Hfd : match (handle_ev pid (EMktemp inc o0) orc l1 s2).1.1 with
                | IOk (_, fd) => mine fd (handle_ev pid (EMktemp inc o0) orc l1 s2).2 | IErr _ => True end).
  { simpl. unfold faulty, with_l. destruct (o_fault orc); [done|]. unfold fs_mktemp.
    destruct (resolve s2 inc) as [?|q]; [done|]. destruct (node_at s2 q) as [[|]|]; [|done|done]. simpl. split; [apply HI|].
    eexists. split; [by apply list_lookup_middle|done]. }
  destruct (handle_ev pid (EMktemp inc o0) orc l1 s2) as [[r l2] s3]. simpl in *.
  destruct Hm as (H1 & H2 & _). split_and!; [done|done|].
  destruct r as [[tmp fd]|e]; [|done].
  assert (Htmp : exists n, tmp = inc ++ [n] /\ stays n).
  { destruct Hres as [sfx ->]. exists (o0 ++ sfx). split; [done|]. destruct Ho as [Hl _].
    assert (64 <= length (o0 ++ sfx))%nat by (rewrite app_length; lia).
    split_and!; intros E; rewrite E in H0; by vm_compute in H0; lia. }
  assert (Hdrop : forall B (x : B) l s, RG (let! _ := drop_temp tmp in Ret x) (fun _ _ _ => True) l s).
  { intros B x l' s'. apply rg_tame_true; [done|]. unfold drop_temp. ev. }
  apply rg_bind. eapply rg_mono; [|by apply (rg_copy_to_file_l fuel fd)].
  intros [r rb'] l3 s4 _. destruct r as [got|e]; [|apply rg_bind; eapply rg_mono; [|apply Hdrop]; done].
  apply rg_ret. destruct (lenN got <? expected)%N; [apply Hdrop|].
  destruct (expected <? lenN got)%N; [apply Hdrop|].
  destruct (oid_new (hex_encode (en_hash en got))) as [ao|e] eqn:Ea; [|apply Hdrop].
  case_decide as Hd; [apply Hdrop|].
  apply rg_tame_true; [done|]. unfold finish_upload, drop_temp, fix_permissions. simpl. rewrite Hbe. ev.
  - intros c b. unfold expected_path, lock_path. rewrite removelast_app by done. rewrite <- !app_assoc.
    intros E%app_inv_head. by vm_compute in E.
  - split; [done|]. by exists o0.
Qed.

(** ** lock *)
Lemma lock_id_hash p : hash_for en p = lock_id H p.
Proof using Hen. unfold hash_for. by rewrite Hen. Qed.
Lemma lock_file_eq p : lock_file be (hash_for en p) = lockfile p.
Proof using Hbe Hen. unfold lock_file, lock_dir, lockfile, lock_path. by rewrite Hbe, lock_id_hash. Qed.
Definition tempfile (p : bytes) : path := lk (lock_id H p ++ bs ".lock").
Lemma lock_temp_eq p : lock_temp be (hash_for en p) = tempfile p.
Proof using Hbe Hen. unfold lock_temp, lock_dir, tempfile, lock_path. by rewrite Hbe, lock_id_hash. Qed.
Lemma lock_id_stays p x : stays (lock_id H p ++ x).
Proof using HH.
  assert (64 <= length (lock_id H p ++ x))%nat by (rewrite app_length, lock_id_length; lia).
  split_and!; intros E; rewrite E in *; by vm_compute in H0; lia.
Qed.
Lemma lk_stays p x : Forall stays (lk (lock_id H p ++ x)).
Proof using Hlfs HH. unfold lock_path. apply Forall_app. split; [by apply lockdir_stays|]. constructor; [apply lock_id_stays|done]. Qed.
Lemma lockfile_stays p : Forall stays (lockfile p).
Proof using Hlfs HH. unfold lockfile. rewrite <- (app_nil_r (lock_id H p)). apply lk_stays. Qed.
Lemma base_of p : base (lock_id H p) (lock_id H p) /\ base (lock_id H p ++ bs ".lock") (lock_id H p).
Proof using HH. split; (split; [apply lock_id_length|]); auto. Qed.

(** A lock record being written for [p]. *)
Definition writing (p : bytes) (fd : nat) (s : fs) : Prop :=
  (n0 <= fd)%nat /\ (exists x, inodes s !! fd = Some x /\ i_creator x = pid /\ i_data x = []) /\
  forall c, nodes s !! lk c = Some (NFile fd) -> base c (lock_id H p).
Lemma writing_stable p fd : lstable pid (writing p fd).
Proof using Type.
  intros j s s' Hj HI HI' HG (Hn & (x & Hx & Hc & Hd) & Hb). split_and!; [done| |].
  - destruct (lg_ino _ _ _ HG fd x Hx) as (x' & E1 & E2 & E3 & [E4|[_ E4]]); [|congruence].
    exists x'. split_and!; congruence.
  - intros c Hc'. destruct (lg_name _ _ _ HG c fd Hc') as (d & Hd' & [->|(id & Hid1 & Hid2)]).
    + by apply lookup_lt_Some in Hx.
    + by apply Hb.
    + apply (base_inj d c id); [done|done|by apply Hb].
Qed.

Lemma lcreate_ok uid um p s : LInv s ->
  let '(r, s') := fs_create_new pid uid um (tempfile p) s in
  LInv s' /\ LGuar pid s s' /\ own s' = own s /\ match r with IOk fd => writing p fd s' | IErr _ => True end.
Proof using Hlfs HH.
  intros HI. assert (Hid : LInv s /\ LGuar pid s s) by (apply lsame_ok; done). destruct Hid as [Hid1 Hid2].
  unfold fs_create_new. destruct (resolve s (tempfile p)) as [e|q] eqn:E; [done|].
  apply resolve_stays in E as ->; [|apply lk_stays]. unfold tempfile, lock_path. rewrite node_at_app.
  destruct (nodes s !! (lockdir ++ [lock_id H p ++ bs ".lock"])) eqn:En; [done|]. simpl.
  change (lockdir ++ [lock_id H p ++ bs ".lock"]) with (tempfile p) in *.
  set (x := Inode [] uid (N.ldiff 438 um) pid false).
  set (s' := FS (<[tempfile p:=NFile (length (inodes s))]> (nodes s)) (inodes s ++ [x]) (hist s)).
  change (set_nodes _ _) with s'.
  assert (Hl : forall j y, inodes s !! j = Some y -> inodes s' !! j = Some y).
  { intros j y Hj. by apply lookup_app_l_Some. }
  assert (Hx : inodes s' !! length (inodes s) = Some x) by (by apply list_lookup_middle).
  assert (Hr : forall j y, (j < length (inodes s))%nat -> inodes s' !! j = Some y -> inodes s !! j = Some y).
  { intros j y Hj. simpl. by rewrite lookup_app_l. }
  assert (Hnode : forall q j, nodes s' !! q = Some (NFile j) ->
    (q = tempfile p /\ j = length (inodes s)) \/ (nodes s !! q = Some (NFile j) /\ (j < length (inodes s))%nat)).
  { intros q j. simpl. rewrite lookup_insert_Some. intros [[<- [= <-]]|[_ Hj]]; [by left|]. right. split; [done|]. by eapply (li_ref s HI). }
  assert (Hlen : length (inodes s') = S (length (inodes s))) by (simpl; rewrite app_length; simpl; lia).
  split_and!; [| |done|].
  - split.
    + apply (hinv_same s); [done| |apply HI]. intros c Hc. simpl. destruct (decide (tempfile p = lk c)) as [->|Hne].
      * by rewrite lookup_insert.
      * by rewrite lookup_insert_ne.
    + apply HI.
    + intros HK c j y Hc Hy. destruct (Hnode _ _ Hc) as [[E ->]|[Hj Hlt]].
      * rewrite Hx in Hy. injection Hy as <-. apply lk_inj in E as ->. exists p, 0%Z. split; [by right|]. apply prefix_nil.
      * by apply (li_rec s HI HK c j y Hj), Hr.
    + intros c j y Hc Hy Hj'. destruct (Hnode _ _ Hc) as [[E ->]|[Hj Hlt]].
      * rewrite Hx in Hy. by injection Hy as <-.
      * by apply (li_tmp s HI c j y Hj), Hj'; [apply Hr].
    + intros q j Hj. rewrite Hlen. destruct (Hnode _ _ Hj) as [[_ ->]|[_ ?]]; lia.
    + rewrite Hlen. pose proof (li_len s HI). lia.
  - split.
    + by exists [].
    + lia.
    + intros j y Hy. exists y. split_and!; auto.
    + intros c j Hc Hlt. destruct (Hnode _ _ Hc) as [[E ->]|[Hj _]]; [lia|]. exists c. auto.
  - split_and!; [apply HI|by exists x|]. intros c Hc. destruct (Hnode _ _ Hc) as [[E _]|[_ ?]]; [|lia].
    apply lk_inj in E as ->. apply base_of.
Qed.

Lemma llink_ok p s : LInv s ->
  let '(r, s') := fs_link pid (tempfile p) (lockfile p) s in
  LInv s' /\ LGuar pid s s' /\ match r with IOk _ => own s' = OLink (lockfile p) :: own s | IErr _ => own s' = own s end.
Proof using Hlfs HH.
  intros HI. assert (Hid : LInv s /\ LGuar pid s s) by (apply lsame_ok; done). destruct Hid as [Hid1 Hid2].
  unfold fs_link. destruct (file_at s (tempfile p)) as [e|[q i]] eqn:E; [done|].
  apply file_at_stays in E as [-> Ei]; [|apply lk_stays].
  destruct (resolve s (lockfile p)) as [e|q] eqn:E; [done|].
  apply resolve_stays in E as ->; [|apply lockfile_stays]. unfold lockfile, lock_path. rewrite node_at_app.
  destruct (nodes s !! (lockdir ++ [lock_id H p])) eqn:En; [done|]. change (lockdir ++ [lock_id H p]) with (lockfile p) in *.
  set (s' := log _ _ _).
  assert (Hnode : forall q j, nodes s' !! q = Some (NFile j) ->
    (q = lockfile p /\ j = i) \/ (nodes s !! q = Some (NFile j))).
  { intros q j. simpl. rewrite lookup_insert_Some. intros [[<- [= <-]]|[_ Hj]]; [by left|by right]. }
  destruct (base_of p) as [Hb1 Hb2].
  split_and!.
  - split.
    + apply (hinv_link s s' pid (lockfile p) (NFile i)); [done|done|done|apply HI].
    + intros k. simpl. rewrite acts_cons. case_decide; [|apply HI]. apply proper_cons; [apply HI|done].
    + intros HK c j y Hc Hy. change (inodes s !! j = Some y) in Hy. destruct (Hnode _ _ Hc) as [[E ->]|Hj].
      * apply lk_inj in E as ->. apply (partial_base (lock_id H p ++ bs ".lock") _ _ (lock_id H p)); [|done|done].
        by apply (li_rec s HI HK _ i y).
      * by apply (li_rec s HI HK c j y).
    + intros c j y Hc Hy Hj'. change (inodes s !! j = Some y) in Hy. destruct (Hnode _ _ Hc) as [[E ->]|Hj].
      * by apply (li_tmp s HI (lock_id H p ++ bs ".lock") i y).
      * by apply (li_tmp s HI c j y).
    + intros q j Hj. destruct (Hnode _ _ Hj) as [[_ ->]|Hj']; by eapply (li_ref s HI).
    + apply HI.
  - split.
    + by exists [OLink (lockfile p)].
    + done.
    + intros j y Hy. exists y. split_and!; auto.
    + intros c j Hc Hlt. destruct (Hnode _ _ Hc) as [[E ->]|Hj]; [|exists c; auto].
      apply lk_inj in E as ->. exists (lock_id H p ++ bs ".lock"). split; [done|]. right. by exists (lock_id H p).
  - simpl. by rewrite acts_cons, decide_True.
Qed.

Lemma record_prefix t p n : take n (lock_record t p) `prefix_of` record_of t p.
Proof using Type. exists (drop n (lock_record t p)). symmetry. apply take_drop. Qed.

Lemma rg_lock_create_l p l s :
  RG (lock_create en be p) (fun r _ s' => match r with
    | Ok k => lk_path k = p /\ exists h, since (OLink (lockfile p) :: h) s' | Er _ => True end) l s.
Proof using Hlfs HH Hbe Hen.
  unfold lock_create. apply rg_bind, rg_tame_true; [|apply cv_timestamp; apply calm_tame]. intros t l1 s1.
  rewrite lock_temp_eq, lock_file_eq. apply rg_bind.
  apply (rg_mono _ _ _ _ _ (fun r _ _ => True)).
  { intros [u|e] l2 s2 _.
    - apply rg_bindR. unfold lockfile_persist. apply rg_bind, rg_call. intros s3 o HR HI. simpl. unfold faulty, with_l.
      assert (Hno : forall e (Q : res unit -> local -> fs -> Prop) s, (forall x l s, Q (Er x) l s) ->
         RG (let! _ := lockfile_drop (tempfile p) in
         if decide (io_kind_of e = KAlreadyExists) then Ret (Er (err_simple Conflict)) else Ret (Er (err_of_io e))) Q l2 s).
      { intros e Q s4 HQ. apply rg_bind, rg_tame_true; [|unfold lockfile_drop; ev]. intros _ l5 s5. case_decide; apply rg_ret, HQ. }
      destruct (o_fault o).
      { destruct (lsame_ok pid s3 s3) as [? ?]; [done|done|done|]. split_and!; [done|done|]. by apply Hno. }
      pose proof (llink_ok p s3 HI) as Hk. destruct (fs_link pid (tempfile p) (lockfile p) s3) as [[u'|e] s4]; simpl in *;
        destruct Hk as (H1 & H2 & H3); (split_and!; [done|done|]); [|by apply Hno].
      assert (Hs : since (OLink (lockfile p) :: own s3) s4). { rewrite <- H3. apply since_refl. }
      apply rg_bind. eapply rg_mono; [|apply rg_tame_since; [unfold lockfile_drop; ev|exact Hs]].
      intros u2 l5 s5 Hs5. apply rg_ret. cbv beta iota. apply rg_bind.
      eapply rg_mono; [|apply rg_tame_since; [apply cv_user_for_file; apply calm_tame|exact Hs5]].
      intros usr l6 s6 Hs6. apply rg_bind.
      eapply rg_mono; [|apply rg_tame_since; [apply cv_timestamp; apply calm_tame|exact Hs6]].
      intros t' l7 s7 Hs7. apply rg_ret. split; [done|]. by exists (own s3).
    - apply rg_bind, rg_tame_true; [done|unfold lockfile_drop; ev]. }
  unfold lockfile_write. apply rg_bind, rg_call. intros s2 o HR HI. simpl. unfold faulty, with_l.
  destruct (o_fault o) as [e|].
  { destruct (lsame_ok pid s2 s2) as [? ?]; [done|done|done|]. split_and!; [done|done|]. by case_decide. }
  pose proof (lcreate_ok (l_uid l1) (l_umask l1) p s2 HI) as Hc.
  destruct (fs_create_new pid (l_uid l1) (l_umask l1) (tempfile p) s2) as [[fd|e] s3]; simpl in *;
    destruct Hc as (H1 & H2 & _ & H3); (split_and!; [done|done|]); [|by case_decide].
  apply rg_io_call, rg_call. intros s4 o' HR' HI'.
  destruct (lstable_rely _ _ _ _ (writing_stable p fd) HR' H3) as (Hn & (x & Hx & Hcr & Hd) & Hnames).
  assert (Hw : forall b, b `prefix_of` record_of t p -> LInv (fs_write fd b s4).2 /\ LGuar pid s4 (fs_write fd b s4).2).
  { intros b Hb. destruct (lwrite_ok fd b s4 x) as (? & ? & _); [done|done|done|done| |done]. right. intros c Hc.
    rewrite Hd. exists p, t. split; [|done]. apply (Hnames c Hc). }
  simpl. destruct (o_fault o').
  - destruct (Hw (take (o_part o') (lock_record t p))); [apply record_prefix|done].
  - destruct (Hw (lock_record t p)); [done|]. by destruct (fs_write fd (lock_record t p) s4).
Qed.

Lemma rg_described k (Q : list bytes -> local -> fs -> Prop) l s :
  (forall a, described H (lk_path k) a -> Q a l s) -> RG (as_arguments en k) Q l s.
Proof using Hen.
  intros HQ. unfold as_arguments, formatted_timestamp. destruct (en_time en (lk_time k)) as [x|]; [|done].
  apply rg_bind, rg_ret, rg_ret, HQ. unfold lk_id. rewrite lock_id_hash. by exists x, (lk_owner k).
Qed.

Lemma rg_p_lock_l l s : RG (p_lock en be fuel) (fun r _ s' => due r s') l s.
Proof using Hlfs HH Hbe Hen.
  unfold p_lock. apply rg_bindR, rg_tame_true; [|apply cv_read_wrapped; apply calm_tame].
  intros [d|e] l1 s1; [|by apply free_due, free_ok_of].
  apply rg_bindR, rg_tame_true; [|apply cv_or_panic]. intros [args|e] l2 s2; [|by apply free_due, free_ok_of].
  destruct (args !! bs "path") as [p|]; [|by apply free_due, free_ok_of].
  destruct (args !! bs "refname"); [|by apply free_due, free_ok_of].
  apply rg_bind. eapply rg_mono; [|by apply rg_lock_create_l].
  intros [k|e] l3 s3.
  - intros [<- (h & es & Hs & Hes)]. apply rg_bind, rg_described. intros a Ha. apply rg_ret. split; [|done].
    intros _. exists (lk_path k). split; [done|]. by exists es, h.
  - intros _. case_decide; [|by apply free_due, free_ok_of].
    apply rg_bind, rg_tame_true; [|apply cv_lock_from_path; apply calm_tame].
    intros [[k|]|e'] l4 s4; [|done|by apply free_due, free_ok_of].
    apply rg_bind, rg_described. intros a Ha. apply rg_ret. by split.
Qed.

(** ** unlock *)
Lemma rg_p_unlock_l id l s : RG (p_unlock en be fuel id) (fun r _ s' => due r s') l s.
Proof using Hlfs HH Hbe Hen.
  assert (Herr : forall c m l s, c <> 201%N -> RG (p_error c m) (fun r _ s' => due r s') l s).
  { intros c m l' s' Hc. apply rg_ret, free_due, free_ok_of. by split. }
  unfold p_unlock. apply rg_bindR, rg_tame_true; [|apply cv_read_to_type; apply calm_tame].
  intros [d|e] l1 s1; [|by apply free_due, free_ok_of].
  destruct (utf8_valid id); [|by apply free_due, free_ok_of].
  apply rg_bind, rg_tame_true; [|apply cv_lock_from_id; apply calm_tame].
  intros [[k|]|e] l2 s2; [|by apply Herr|by apply free_due, free_ok_of].
  apply rg_bind, rg_described. intros a Ha. apply rg_bind. unfold lock_unlock, lk_id.
  rewrite lock_file_eq. apply rg_io_call, rg_call. intros s3 o HR HI.
  pose proof (tame_ok pid (EUnlink (lockfile (lk_path k))) o l2 s3 I HI) as Hu.
  assert (Hev : match (handle_ev pid (EUnlink (lockfile (lk_path k))) o l2 s3).1.1 with
    | IOk _ => own (handle_ev pid (EUnlink (lockfile (lk_path k))) o l2 s3).2 = OUnlink (lockfile (lk_path k)) :: own s3
    | IErr _ => True end).
  { simpl. unfold faulty, with_l. destruct (o_fault o); [done|]. unfold fs_unlink.
    destruct (file_at s3 (lockfile (lk_path k))) as [e|[q i]] eqn:E; [done|].
    apply file_at_stays in E as [-> _]; [|apply lockfile_stays]. simpl. by rewrite acts_cons, decide_True. }
  destruct (handle_ev pid (EUnlink (lockfile (lk_path k))) o l2 s3) as [[r l3] s4]. simpl in *.
  destruct Hu as (H1 & H2 & _). split_and!; [done|done|]. destruct r as [u|e]; simpl.
  - split; [done|]. intros _ x rest _. exists (lk_path k). split; [done|]. by exists (own s3).
  - case_decide; [by apply Herr|]. case_decide; [by apply Herr|]. by apply free_due, free_ok_of.
Qed.

(** ** The whole server *)
Lemma rg_handle_command_l c m rb l s : RG (handle_command en be fuel c m rb) (fun x _ s' => due x.1 s') l s.
Proof using Hlfs HH Hbe Hen.
  assert (Hplain : forall p : prog (res status), leaves free_ok p -> all_ev tame p ->
    RG (let! r := p in Ret (r, rb)) (fun x _ s' => due x.1 s') l s).
  { intros p Hl Hp. apply rg_bind. apply (rg_leaves free_ok); [done|]. apply rg_tame_true; [|done].
    intros r l' s' Hr. apply rg_ret. by apply free_due, free_ok_of. }
  destruct c; cbn [handle_command]; unfold p_upload_batch, p_download_batch;
    try (apply Hplain; [by apply free_error|apply cv_error]).
  - apply Hplain; [apply free_version|apply cv_version, calm_tame].
  - apply Hplain; destruct (is_upload m); first [apply free_batch|apply cv_batch, calm_tame].
  - apply (rg_leaves (fun x => free_ok x.1)); [apply free_put|]. eapply rg_mono; [|apply rg_put_object_l].
    intros [r rb'] l' s' _ Hr. by apply free_due, free_ok_of.
  - apply Hplain; [apply free_verify|apply cv_verify_object, calm_tame].
  - apply Hplain; [apply free_get|apply cv_get_object, calm_tame].
  - apply rg_bind. eapply rg_mono; [|apply rg_p_lock_l]. done.
  - apply Hplain; [apply free_list|apply cv_list_locks, calm_tame].
  - apply rg_bind. eapply rg_mono; [|apply rg_p_unlock_l]. done.
Qed.

Lemma note_ok c a s : LInv s -> warranted c a (own s) ->
  LInv (log pid (OAnswer c a) s) /\ LGuar pid s (log pid (OAnswer c a) s).
Proof using Type.
  intros HI Hw. split; [split|split]; try apply HI.
  - apply (hinv_answer s _ pid c a); [done|done|apply HI].
  - intros k. simpl. rewrite acts_cons. case_decide as E; [|apply HI]. subst k. apply proper_cons; [apply HI|done].
  - by exists [OAnswer c a].
  - done.
  - intros j x Hx. exists x. auto.
  - intros d j Hd _. exists d. auto.
Qed.

Lemma rg_answer r l s : due r s -> RG (answer fuel (status_of r)) (fun _ _ _ => True) l s.
Proof using Hlfs.
  intros Hd. unfold answer. apply rg_bind, rg_call. intros s1 o HR HI. simpl.
  pose proof (lstable_rely _ _ _ _ (due_stable r) HR Hd) as Hd1.
  destruct (note_ok _ _ s1 HI Hd1). split_and!; [done|done|]. apply rg_tame_true; [done|]. apply cv_send_status, calm_tame.
Qed.
Lemma rg_answer_error c m l s : c <> 201%N -> RG (answer_error c m) (fun _ _ _ => True) l s.
Proof using Hlfs.
  intros Hc. unfold answer_error. apply rg_bind, rg_call. intros s1 o HR HI. simpl.
  destruct (note_ok c [] s1 HI) as [? ?]; [by split|]. split_and!; [done|done|]. apply rg_tame_true; [done|].
  apply cv_send_error, calm_tame.
Qed.

Lemma rg_go_on rb (p : prog (res unit)) l s : RG p (fun _ _ _ => True) l s -> RG (and_go_on rb p) (fun _ _ _ => True) l s.
Proof using Type. intros Hp. unfold and_go_on. apply rg_bind. eapply rg_mono; [|exact Hp]. done. Qed.

Lemma rg_process_one_l m rb l s : RG (process_one en be fuel m rb) (fun _ _ _ => True) l s.
Proof using Hlfs HH Hbe Hen.
  unfold process_one. apply rg_bind, rg_tame_true; [|apply cv_read_packet; apply calm_tame]. intros [p|e] l1 s1; [|done].
  destruct (pkt_data p) as [[|x b]|]; try (by apply rg_go_on, rg_answer_error).
  assert (Hgo : forall c, RG (let! (r, rb') := handle_command en be fuel c m rb in
    and_go_on rb' (answer fuel (status_of r))) (fun _ _ _ => True) l1 s1).
  { intros c. apply rg_bind. eapply rg_mono; [|by apply rg_handle_command_l].
    intros [r rb'] l2 s2 Hd. by apply rg_go_on, rg_answer. }
  destruct (dispatch (command_words (x :: b)) m); try (apply Hgo).
  apply rg_bind. eapply rg_mono; [|apply (rg_answer (Ok st_success)); by apply free_due]. done.
Qed.

Lemma rg_process_commands_l n m rb l s : RG (process_commands en be fuel n m rb) (fun _ _ _ => True) l s.
Proof using Hlfs HH Hbe Hen.
  revert rb l s. induction n as [|n IH]; intros rb l s; simpl; [done|].
  apply rg_bind. eapply rg_mono; [|by apply rg_process_one_l]. intros [rb'|r] l1 s1 _; [apply IH|done].
Qed.
End prog.

Lemma rg_server_l p l s : is_server H lfs p -> RG p (fun _ _ _ => True) l s.
Proof using Hlfs HH.
  intros (en & fuel & cfg & op & Hen & ->). unfold transfer_main, transfer_main_internal, transfer_run.
  apply rg_bind. eapply (rg_mono _ _ _ _ _ (fun _ _ _ => True)); [done|].
  apply rg_bindR, rg_tame_true; [|by apply cv_set_permissions].
  intros [um|e] l1 s1; [|done].
  apply rg_bindR, rg_tame_true.
  2: { unfold create_directories. induction dir_names as [|d ds IH]; simpl; ev.
       intros c b. unfold lock_path. rewrite <- !app_assoc. intros E%app_inv_head. done. }
  intros [u|e] l2 s2; [|done].
  apply rg_bindR, rg_tame_true; [|apply cv_send_capabilities; apply calm_tame].
  intros [u'|e] l3 s3; [|done].
  destruct (mode_of op); [|done]. by apply rg_process_commands_l.
Qed.
End one.

(** ** Systems of servers *)
Lemma lservers {A} cs (ps : list (proc A)) : LInv s0 ->
  (forall i p, ps !! i = Some p -> exists Q, rg i (LRely i) (LGuar i) LInv (pr_prog p) Q (pr_local p) s0) ->
  LInv (shared (sys_run cs (Sys ps s0))).
Proof using Type.
  intros HI Hp.
  apply (sys_run_sound LRely LGuar LInv (fun _ _ _ _ => True)
    (fun i s => rtc_refl _ s) (fun i a b c => rtc_transitive a b c)
    (fun i j s s' Hne H1 H2 H3 => rtc_once _ _ (ex_intro _ j (conj Hne (conj H1 (conj H2 H3))))) cs (Sys ps s0)).
  split; [done|]. intros i p Hi. exists s0. split; [apply rtc_refl|].
  destruct (Hp i p Hi) as [Q HQ]. eapply rg_mono; [|exact HQ]. done.
Qed.
End locks.
