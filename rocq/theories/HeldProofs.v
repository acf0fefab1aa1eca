(** What a server says of locks was so: proofs for Props_Held.v. *)
From Verif Require Import Bytes ByteFacts Err FS Prog Pktline Args Local Processor Transfer Wp Rg
  Spec SpecStore SpecServer SpecLock SpecFrame SpecTalk SpecPerm SpecInput SpecTogether SpecStart SpecRound SpecTruth
  FsFacts PktFacts PktProofs IoFacts TextProofs ObjProofs StoreProofs SeqIo SeqFs SeqCmd LossyFacts
  GetProofs TogetherProofs OddProofs RoundFacts RoundProofs RoundMain TruthProofs SpecWorn WornProofs PowerProofs.
From Verif Require SpecOdd SpecLockDir.
From Verif Require Import SpecRound SpecTruth SpecHeld Shape.
From stdpp Require Import relations.
Local Existing Instance may_be.

(** ** Entries and where they are found *)
Lemma tree_above s a b n : tree s -> nodes s !! (a ++ b) = Some n -> b <> [] -> node_at s a = Some NDir.
Proof.
  intros Ht. revert n. induction b as [|c b IH] using rev_ind; intros n Hn Hb; [done|].
  rewrite app_assoc in Hn. destruct (Ht _ _ _ Hn) as [E|E].
  - apply app_eq_nil in E as [-> ->]. done.
  - destruct (decide (b = [])) as [->|Hne]; [rewrite app_nil_r in E; by destruct a|]. by eapply IH.
Qed.
Lemma tree_walk s comps : forall cur n, tree s -> Forall stays comps -> comps <> [] -> nodes s !! (cur ++ comps) = Some n ->
  walk s cur comps = inr (cur ++ comps).
Proof.
  induction comps as [|c comps IH]; intros cur n Ht Hs Hne Hn; [done|].
  apply Forall_cons in Hs as [Hc Hs]. pose proof (tree_above _ _ _ _ Ht Hn Hne) as Hd.
  rewrite (walk_step s cur c comps Hc Hd). destruct comps as [|c' comps]; [by rewrite ?app_nil_r|].
  rewrite (IH (cur ++ [c]) n Ht Hs); [by rewrite <- app_assoc|done|by rewrite <- app_assoc].
Qed.
Lemma plain_nul p : Forall plain_name p -> has_nul p = false.
Proof.
  intros Hp. unfold has_nul. apply not_true_is_false. intros E. apply existsb_exists in E as (c & Hc & E).
  apply existsb_exists in E as (b & Hb & E). apply bool_decide_eq_true in E. subst b.
  rewrite Forall_forall in Hp. apply elem_of_list_In in Hc, Hb. by apply Hp in Hc as (_ & _ & _ & _ & G).
Qed.
Lemma there_resolve s p n : tree s -> Forall plain_name p -> p <> [] -> nodes s !! p = Some n -> resolve s p = inr p.
Proof.
  intros Ht Hp Hne Hn. unfold resolve. rewrite plain_nul by done.
  rewrite (tree_walk s p [] n Ht); [done|by apply plain_stays_all|done|done].
Qed.

(** ** Calls that show a lock *)
Section calls.
Context (en : env) (lfs : path) (Hlfs : Forall plain_name lfs) (HH : digest (en_hash en)).
Local Notation lk k := (lfs ++ [bs "locks"; k]).

Lemma lk_eq k : lk k = (lfs ++ [bs "locks"]) ++ [k].
Proof using Type. by rewrite <- app_assoc. Qed.
Lemma lk_cons k : lk k <> [].
Proof using Type. intros E. by apply app_eq_nil in E as [_ E]. Qed.
Lemma lk_plain k : plain_name k -> Forall plain_name (lk k).
Proof using Hlfs. intros Hk. apply Forall_app. split; [done|]. apply Forall_cons. split; [|by apply Forall_singleton].
  split_and!; try done; by (refine (bool_decide_eq_true_1 _ _); vm_compute). Qed.
Lemma lk_stays k : plain_name k -> Forall stays (lk k).
Proof using Hlfs. intros Hk. by apply plain_stays_all, lk_plain. Qed.
Lemma dir_stays : Forall stays (lfs ++ [bs "locks"]).
Proof using Hlfs. apply Forall_app. split; [by apply plain_stays_all|]. by apply Forall_singleton. Qed.
Lemma lk_stays' k : stays k -> Forall stays (lk k).
Proof using Hlfs. intros Hk. rewrite lk_eq. apply Forall_app. split; [apply dir_stays|]. by apply Forall_singleton. Qed.
Lemma lk_none s k : shape lfs s -> ~ plain_name k -> nodes s !! lk k = None.
Proof using Type. intros Hs Hk. destruct (nodes s !! lk k) eqn:E; [|done]. by apply (sh_lock _ _ Hs) in E as [? _]. Qed.

Lemma not_plain k : SLASH ∉ k -> ~ plain_name k -> k = [] \/ k = bs "." \/ k = bs ".." \/ Byte.x00 ∈ k.
Proof using Type.
  intros Hs Hk. destruct (decide (k = [])); [auto|]. destruct (decide (k = bs ".")); [auto|]. destruct (decide (k = bs "..")); [auto|].
  destruct (decide (Byte.x00 ∈ k)); [auto|]. by destruct Hk.
Qed.

(** A file opened under a name without a slash has this name. *)
Lemma open_named i o l s k j : shape lfs s -> SLASH ∉ k ->
  (handle_ev i (EOpen (lk k)) o l s).1.1 = IOk (HFile j) -> nodes s !! lk k = Some (NFile j) /\ plain_name k.
Proof using Hlfs.
  intros Hsh Hk. unfold handle_ev, faulty, with_l. destruct (o_fault o); [done|]. cbn [fst snd]. unfold fs_open.
  destruct (resolve s (lk k)) as [x|q] eqn:Er0; [done|].
  destruct (node_at s q) as [[|j0]|] eqn:En; try done. intros E0. injection E0 as ->.
  assert (Hq : nodes s !! q = Some (NFile j)) by (by destruct q).
  destruct (decide (stays k)) as [Hst|Hst].
  - pose proof Er0 as E. apply resolve_stays in E as ->.
    + split; [done|]. by apply (sh_lock _ _ Hsh) in Hq as [? _].
    + by apply lk_stays'.
  - exfalso. unfold resolve in Er0. destruct (has_nul _); [done|]. rewrite lk_eq, walk_app in Er0.
    destruct (walk s [] (lfs ++ [bs "locks"])) as [x|d] eqn:Ew; [done|]. cbn [walk] in Er0.
    apply walk_stays in Ew; [|apply dir_stays].
    cbn [app] in Ew. subst d.
    destruct (node_at s (lfs ++ [bs "locks"])) as [[|jd]|] eqn:Ed; try done.
    destruct (decide (k = [] \/ k = bs ".")) as [Hk1|Hk1].
    + injection Er0 as <-. by rewrite Ed in En.
    + destruct (decide (k = bs "..")) as [Hk2|Hk2]; [|destruct Hst; unfold stays; split_and!; [intros E; apply Hk1; by left|intros E; apply Hk1; by right|done]].
      injection Er0 as <-. rewrite removelast_last in *. 
      assert (Hn : lfs <> []) by (intros E; rewrite E in En; done).
      eapply (sh_way _ _ Hsh (bs "locks") lfs [bs "locks"] j); [|done|done|done].
      refine (bool_decide_eq_true_1 _ _). by vm_compute.
Qed.
(** What cannot be found is not there. *)
Lemma missing_free s k e : shape lfs s -> resolve s (lk k) = inl e -> nodes s !! lk k = None.
Proof using Hlfs.
  intros Hsh E. destruct (nodes s !! lk k) as [n|] eqn:En; [|done].
  pose proof En as Hp. apply (sh_lock _ _ Hsh) in Hp as [Hp _].
  rewrite (there_resolve s (lk k) n (sh_tree _ _ Hsh) (lk_plain k Hp) (lk_cons k) En) in E. done.
Qed.
Lemma open_missing i o l s k x : shape lfs s -> (handle_ev i (EOpen (lk k)) o l s).1.1 = IErr x ->
  o_fault o = Some x \/ nodes s !! lk k = None.
Proof using Hlfs.
  intros Hsh. unfold handle_ev, faulty, with_l. destruct (o_fault o) as [x'|]; [intros [= ->]; by left|]. cbn [fst snd]. unfold fs_open.
  destruct (resolve s (lk k)) as [e|q] eqn:Er0; [intros _; right; by eapply missing_free|].
  destruct (decide (plain_name k)) as [Hk|Hk]; [|intros _; right; by apply lk_none].
  apply resolve_stays in Er0 as ->; [|by apply lk_stays]. rewrite node_at_cons by apply lk_cons.
  destruct (nodes s !! lk k) as [[|j]|]; [done..|]. intros _. by right.
Qed.
Lemma read_holds i o l s h d t p : (handle_ev i (EReadAll h) o l s).1.1 = IOk d -> SpecLockDir.says d t p ->
  exists j, h = HFile j /\ holds_text s j d.
Proof using Type.
  unfold handle_ev, faulty, with_l. destruct (o_fault o); [done|]. cbn. destruct h as [|j]; [done|]. cbn. intros [= <-] (b & E & _).
  exists j. split; [done|]. unfold holds_text, fs_data, inode_at in *. destruct (inodes s !! j) as [x|]; [by exists x|done].
Qed.
Lemma open_file i o l s k h : shape lfs s -> plain_name k -> (handle_ev i (EOpen (lk k)) o l s).1.1 = IOk h ->
  exists j, h = HFile j /\ nodes s !! lk k = Some (NFile j) /\ is_Some (inodes s !! j).
Proof using Hlfs.
  intros Hsh Hk. unfold handle_ev, faulty, with_l. destruct (o_fault o); [done|]. cbn [fst snd]. unfold fs_open.
  destruct (resolve s (lk k)) as [x|q] eqn:Er0; [done|].
  apply resolve_stays in Er0 as ->; [|by apply lk_stays]. rewrite node_at_cons by apply lk_cons.
  destruct (nodes s !! lk k) as [[|j]|] eqn:En; [|intros [= <-]|done].
  - by apply (sh_lock _ _ Hsh) in En as [_ ?].
  - exists j. split_and!; [done|done|]. pose proof (sh_sane _ _ Hsh _ _ En) as Hj. by apply lookup_lt_is_Some in Hj.
Qed.
Lemma read_failed i o l s j x : (handle_ev i (EReadAll (HFile j)) o l s).1.1 = IErr x -> o_fault o = Some x.
Proof using Type. unfold handle_ev, faulty, with_l. destruct (o_fault o); [by intros [= ->]|done]. Qed.
Lemma read_text i o l s j d : is_Some (inodes s !! j) -> (handle_ev i (EReadAll (HFile j)) o l s).1.1 = IOk d -> holds_text s j d.
Proof using Type.
  unfold handle_ev, faulty, with_l. destruct (o_fault o); [done|]. cbn. intros [x Hx] [= <-].
  unfold holds_text, fs_data, inode_at in *. rewrite Hx. by exists x.
Qed.
Lemma stat_belongs i o l s k : shape lfs s -> plain_name k ->
  belongs en (lk k) (owner_name en (handle_ev i (EStat (lk k)) o l s).1.1) s (handle_ev i (EStat (lk k)) o l s).2.
Proof using Hlfs.
  intros Hsh Hk. unfold belongs. unfold handle_ev, faulty, with_l. destruct (o_fault o); [by right|]. cbn [fst snd]. unfold fs_stat.
  destruct (resolve s (lk k)) as [e|q] eqn:Er0; [by right|].
  apply resolve_stays in Er0 as ->; [|by apply lk_stays]. rewrite node_at_cons by apply lk_cons.
  destruct (nodes s !! lk k) as [[|j]|] eqn:En; [|left|by right].
  - by apply (sh_lock _ _ Hsh) in En as [_ ?].
  - pose proof (sh_sane _ _ Hsh _ _ En) as Hj. apply lookup_lt_is_Some in Hj as [x Hx]. cbn [fst snd owner_name]. unfold inode_at. rewrite Hx. by econstructor.
Qed.
Lemma names_seen i o l s names : shape lfs s -> (handle_ev i (EReaddir (lfs ++ [bs "locks"])) o l s).1.1 = IOk names -> has_names lfs names s s.
Proof using Hlfs.
  intros Hsh. unfold handle_ev, faulty, with_l. destruct (o_fault o); [done|]. cbn [fst snd]. unfold fs_readdir.
  destruct (resolve s (lfs ++ [bs "locks"])) as [e|q] eqn:Er0; [done|].
  apply resolve_stays in Er0 as ->; [|apply dir_stays].
  destruct (node_at s (lfs ++ [bs "locks"])) as [[|j]|]; try done. intros [= <-] c. rewrite elem_children. by rewrite <- lk_eq.
Qed.

Local Notation H := (en_hash en).
Lemma id_plain p : plain_name (lock_id H p).
Proof using HH. apply (lock_id_plain en HH). Qed.
Lemma draft_plain p : plain_name (lock_id H p ++ bs ".lock").
Proof using HH. apply (hash_plain H HH en p); [done|refine (bool_decide_eq_true_1 _ _); by vm_compute..]. Qed.

Lemma link_wins i o l s p : shape lfs s -> (handle_ev i (ELink (draft_at en lfs p) (lock_at en lfs p)) o l s).1.1 = IOk tt ->
  wins en lfs p s (handle_ev i (ELink (draft_at en lfs p) (lock_at en lfs p)) o l s).2.
Proof using Hlfs HH.
  intros Hsh. unfold handle_ev, faulty, with_l. destruct (o_fault o); [done|]. cbn [fst snd]. unfold fs_link, file_at, draft_at, lock_at.
  destruct (resolve s (lk (lock_id H p ++ bs ".lock"))) as [e|q] eqn:E1; [done|]. apply resolve_stays in E1 as ->; [|apply lk_stays, draft_plain].
  rewrite node_at_cons by apply lk_cons. destruct (nodes s !! lk (lock_id H p ++ bs ".lock")) as [[|j]|] eqn:En; try done.
  destruct (resolve s (lk (lock_id H p))) as [e|q] eqn:E2; [done|]. apply resolve_stays in E2 as ->; [|apply lk_stays, id_plain].
  rewrite node_at_cons by apply lk_cons. destruct (nodes s !! lk (lock_id H p)) as [n|] eqn:En2; [done|]. intros _.
  exists j. unfold draft_at, lock_at. split_and!; [done|done|]. cbn [fst snd nodes log set_nodes]. apply lookup_insert.
Qed.
Lemma unlink_removes i o l s p : shape lfs s -> (handle_ev i (EUnlink (lock_at en lfs p)) o l s).1.1 = IOk tt ->
  removes (lock_at en lfs p) s (handle_ev i (EUnlink (lock_at en lfs p)) o l s).2.
Proof using Hlfs HH.
  intros Hsh. unfold handle_ev, faulty, with_l. destruct (o_fault o); [done|]. cbn [fst snd]. unfold fs_unlink, file_at, lock_at.
  destruct (resolve s (lk (lock_id H p))) as [e|q] eqn:E2; [done|]. apply resolve_stays in E2 as ->; [|apply lk_stays, id_plain].
  rewrite node_at_cons by apply lk_cons. destruct (nodes s !! lk (lock_id H p)) as [[|j]|] eqn:En2; try done. intros _.
  split; [by exists j|]. cbn [fst snd nodes log set_nodes]. apply lookup_delete.
Qed.
Lemma unlink_missing i o l s p x : shape lfs s -> missing x -> (handle_ev i (EUnlink (lock_at en lfs p)) o l s).1.1 = IErr x ->
  o_fault o = Some x \/ nodes s !! lock_at en lfs p = None.
Proof using Hlfs HH.
  intros Hsh Hm. unfold handle_ev, faulty, with_l. destruct (o_fault o) as [x'|]; [intros [= ->]; by left|]. cbn [fst snd]. unfold fs_unlink, file_at, lock_at.
  destruct (resolve s (lk (lock_id H p))) as [e|q] eqn:E2; [intros _; right; by eapply missing_free|].
  apply resolve_stays in E2 as ->; [|apply lk_stays, id_plain].
  rewrite node_at_cons by apply lk_cons. destruct (nodes s !! lk (lock_id H p)) as [[|j]|] eqn:En2; [..|by right]; intros [= <-]; done.
Qed.
End calls.

(** ** Rounds *)
Section rounds.
Context (en : env) (lfs : path) (s0 : fs).
Context (HH : digest (en_hash en)) (Hlfs : Forall plain_name lfs).
Local Notation H := (en_hash en).
Context (i : nat).
Local Notation fine := (fine H lfs s0).
Local Notation lk k := (lfs ++ [bs "locks"; k]).
Implicit Types y : sys (Z * bytes).
Local Notation "cs' ⊑ cs" := (forall c : choice, c ∈ cs' -> c ∈ cs) (at level 70).

Lemma turn_run cs1 : forall cs2 y Ps, in_turn i cs2 (sys_run cs1 y) Ps -> in_turn i (cs1 ++ cs2) y Ps.
Proof using Type. induction cs1 as [|c cs1 IH]; intros cs2 y Ps Ht; [done|]. cbn [app]. apply it_later. by apply IH. Qed.

Lemma deed cs y e (r : resp e) ds : fine y -> deeds (history i cs y) = existT e r :: ds ->
  exists cs1 o cs2 l, let y1 := sys_run cs1 y in let y2 := sys_step y1 (Choice i (AGo o)) in
    cs = cs1 ++ Choice i (AGo o) :: cs2 /\ r = (handle_ev i e o l (shared y1)).1.1 /\
    shared y2 = (handle_ev i e o l (shared y1)).2 /\ shape lfs (shared y1) /\ fine y2 /\ deeds (history i cs2 y2) = ds.
Proof using Hlfs.
  intros Hy Hd. pose proof (app_nil_r (history i cs y)) as Hh. symmetry in Hh.
  destruct (next_deed H lfs s0 Hlfs i cs y _ _ _ [] Hy Hh Hd) as (cs1 & o & cs2 & l & e' & tr' & G).
  cbn beta zeta in G. destruct G as (-> & G1 & G2 & G3 & G4 & G5 & G6 & G7). apply call_eq in G1 as [E G1]. subst e'. cbn [eq_rect] in G1.
  rewrite app_nil_r in G5. exists cs1, o, cs2, l. cbn beta zeta. split_and!; try done; [|by rewrite G5]. by destruct G3 as (_ & ? & _).
Qed.
Lemma more_inodes cs y : fine y -> (length (inodes (shared y)) <= length (inodes (shared (sys_run cs y))))%nat.
Proof using Type.
  intros Hy. pose proof (fine_moved H lfs s0 cs _ Hy) as Hm.
  clear -Hm. induction Hm as [z|a b c (_ & _ & k & HG) _ IH]; [done|]. pose proof (gu_len _ _ _ _ _ _ HG). lia.
Qed.
(** What is left when [ds] has been done; what is found then is found later than [Qs]. *)
Definition after (cs : list choice) y (Qs : list (fs -> fs -> Prop)) (ds : list done_call) : Prop :=
  exists cs' y', fine y' /\ cs' ⊑ cs /\ deeds (history i cs' y') = ds /\ forall Ps, in_turn i cs' y' Ps -> in_turn i cs y (Qs ++ Ps).
Lemma after_self cs y ds : fine y -> deeds (history i cs y) = ds -> after cs y [] ds.
Proof using Type. intros Hy Hd. by exists cs, y. Qed.
Lemma after_turn cs y Qs ds : after cs y Qs ds -> in_turn i cs y Qs.
Proof using Type. intros (cs' & y' & _ & _ & _ & Ht). rewrite <- (app_nil_r Qs). apply Ht. apply it_end. Qed.
Lemma after_shows cs y Qs e (r : resp e) ds (P : fs -> fs -> Prop) : after cs y Qs (existT e r :: ds) ->
  (forall o l s, shape lfs s -> r = (handle_ev i e o l s).1.1 -> P s (handle_ev i e o l s).2) ->
  after cs y (Qs ++ [P]) ds.
Proof using Hlfs.
  intros (cs' & y' & Hy & Hin & Hd & Ht) HP. destruct (deed cs' y' e r ds Hy Hd) as (cs1 & o & cs2 & l & G). cbn beta zeta in G.
  destruct G as (-> & G1 & G2 & G3 & G4 & G5). eexists cs2, _. split; [exact G4|]. split; [|split; [done|]].
  - intros c Hc. apply Hin, elem_of_app. right. by right.
  - intros Ps HPs. rewrite <- app_assoc. apply Ht. cbn [app]. apply turn_run. apply it_now; [done| |done]. rewrite G2. by apply HP.
Qed.
Lemma after_skip ds' : forall cs y Qs ds, after cs y Qs (ds' ++ ds) -> after cs y Qs ds.
Proof using Hlfs.
  induction ds' as [|d ds' IH]; intros cs y Qs ds Ha; [done|]. apply IH. clear IH. cbn [app] in Ha. revert Ha. generalize (ds' ++ ds). clear ds' ds. intros ds.
  intros (cs' & y' & Hy & Hin & Hd & Ht). destruct d as [e r]. destruct (deed cs' y' e r ds Hy Hd) as (cs1 & o & cs2 & l & G). cbn beta zeta in G.
  destruct G as (-> & G1 & G2 & G3 & G4 & G5). eexists cs2, _. split; [exact G4|]. split; [|split; [done|]].
  - intros c Hc. apply Hin, elem_of_app. right. by right.
  - intros Ps HPs. apply Ht. apply turn_run. by apply it_later.
Qed.

(** Reading a lock. *)
Lemma look_found cs y Qs k ds ds' p t who : SLASH ∉ k -> looks en (lk k) ds (Found p t who) -> after cs y Qs (ds ++ ds') ->
  exists j, after cs y (Qs ++ reading en (lk k) j p t who) ds'.
Proof using Hlfs.
  intros Hk Hl (cs' & y' & Hy & Hin & Hd & Ht). inversion Hl as [| | | |h d r t' p' Hs E1 E2]; subst. cbn [app] in Hd.
  destruct (deed cs' y' _ _ _ Hy Hd) as (cs1 & o & cs2 & l & G). cbn beta zeta in G. destruct G as (-> & G1 & G2 & G3 & G4 & G5).
  destruct (deed cs2 _ _ _ _ G4 G5) as (cs3 & o3 & cs4 & l3 & K). cbn beta zeta in K. destruct K as (-> & K1 & K2 & K3 & K4 & K5).
  destruct (read_holds i o3 l3 _ h d t p (eq_sym K1) Hs) as (j & -> & Hh).
  destruct (open_named lfs Hlfs i o l _ k j G3 Hk (eq_sym G1)) as [Hn Hp].
  exists j. replace (reading en (lk k) j p t (owner_name en r)) with ([is_named (lk k) j; records j p t] ++ [belongs en (lk k) (owner_name en r)]) by done.
  rewrite app_assoc. eapply after_shows; [|intros o' l' s' Hsh E; rewrite E; by apply stat_belongs].
  eexists cs4, _. split; [exact K4|]. split; [|split; [exact K5|]].
  - intros c Hc. apply Hin, elem_of_app. right. right. apply elem_of_app. right. by right.
  - intros Ps HPs. rewrite <- app_assoc. apply Ht. cbn [app]. apply turn_run. apply it_now; [done|done|].
    apply turn_run. apply it_now; [done|by exists d|done].
Qed.
Lemma look_absent cs y k ds ds' : looks en (lk k) ds Absent -> after cs y [] (ds ++ ds') ->
  in_turn i cs y [is_free (lk k)] \/ misled i cs.
Proof using Hlfs.
  intros Hl (cs' & y' & Hy & Hin & Hd & Ht). inversion Hl as [x Hm| | | |]; subst. cbn [app] in Hd.
  destruct (deed cs' y' _ _ _ Hy Hd) as (cs1 & o & cs2 & l & G). cbn beta zeta in G. destruct G as (-> & G1 & G2 & G3 & G4 & G5).
  destruct (open_missing lfs Hlfs i o l _ k x G3 (eq_sym G1)) as [E|E].
  - right. exists o, x. split_and!; [|done|done]. apply Hin, elem_of_app. right. by left.
  - left. apply (Ht [is_free (lk k)]). apply turn_run. apply it_now; [done|done|]. apply it_end.
Qed.

Lemma lock_slash p : SLASH ∉ lock_id H p.
Proof using HH. by destruct (id_plain en HH p) as (_ & _ & _ & ? & _). Qed.

Lemma look_path cs y Qs p ds ds' q t who : looks_for en lfs p ds (Found q t who) -> after cs y Qs (ds ++ ds') ->
  q = p /\ exists j, after cs y (Qs ++ reading en (lock_at en lfs p) j p t who) ds'.
Proof using Hlfs HH.
  intros Hl Ha. inversion Hl as [ds0 x Hl' Hq|]; subst. pose proof (Hq _ _ _ eq_refl) as ->. split; [done|].
  eapply look_found; [apply lock_slash|done|done].
Qed.

(** Names in the directory. *)
Lemma target_plain k f : SLASH ∉ k -> target lfs k f -> f = lk k.
Proof using Type.
  intros Hk (cs & Hne & Hf & -> & ->). destruct cs as [|c [|c' cs]]; [done| |].
  - cbn [slashed] in *. rewrite decide_False; [by rewrite <- app_assoc|].
    intros E. apply Hk. destruct c; [done|]. injection E as ->. left.
  - exfalso. apply Hk. cbn [slashed]. apply elem_of_app. right. left.
Qed.
Lemma look_other cs y Qs k ds ds' x : plain_name k -> looks en (lk k) ds x -> (forall p t o, x <> Found p t o) -> after cs y Qs (ds ++ ds') ->
  troubled i cs \/ after cs y (Qs ++ [is_free (lk k)]) ds' \/ exists j, after cs y (Qs ++ [is_named (lk k) j; no_record j]) ds'.
Proof using Hlfs.
  intros Hk Hl Hx (cs' & y' & Hy & Hin & Hd & Ht).
  assert (Ho : forall z ds1, deeds (history i cs' y') = existT (EOpen (lk k)) (IErr z) :: ds1 ->
    troubled i cs \/ after cs y (Qs ++ [is_free (lk k)]) ds1).
  { intros z ds1 Hd1. destruct (deed cs' y' _ _ _ Hy Hd1) as (cs1 & o & cs2 & l & G). cbn beta zeta in G. destruct G as (-> & G1 & G2 & G3 & G4 & G5).
    destruct (open_missing lfs Hlfs i o l _ k z G3 (eq_sym G1)) as [E|E].
    - left. exists o, z. split; [|done]. apply Hin, elem_of_app. right. by left.
    - right. eexists cs2, _. split; [exact G4|]. split; [|split; [exact G5|]].
      + intros c Hc. apply Hin, elem_of_app. right. by right.
      + intros Ps HPs. rewrite <- app_assoc. apply Ht. cbn [app]. apply turn_run. by apply it_now. }
  inversion Hl as [z Hm|z Hm|h z|h d r Hs|h d r t' p' Hs]; subst; cbn [app] in Hd.
  - destruct (Ho _ _ Hd); auto.
  - destruct (Ho _ _ Hd); auto.
  - left. destruct (deed cs' y' _ _ _ Hy Hd) as (cs1 & o & cs2 & l & G). cbn beta zeta in G. destruct G as (-> & G1 & G2 & G3 & G4 & G5).
    destruct (open_file lfs Hlfs i o l _ k h G3 Hk (eq_sym G1)) as (j & -> & _).
    destruct (deed cs2 _ _ _ _ G4 G5) as (cs3 & o3 & cs4 & l3 & K). cbn beta zeta in K. destruct K as (-> & K1 & K2 & K3 & K4 & K5).
    exists o3, z. split; [|by eapply read_failed]. apply Hin, elem_of_app. right. right. apply elem_of_app. right. by left.
  - right. right. destruct (deed cs' y' _ _ _ Hy Hd) as (cs1 & o & cs2 & l & G). cbn beta zeta in G. destruct G as (-> & G1 & G2 & G3 & G4 & G5).
    destruct (open_file lfs Hlfs i o l _ k h G3 Hk (eq_sym G1)) as (j & -> & Hn & Hj).
    destruct (deed cs2 _ _ _ _ G4 G5) as (cs3 & o3 & cs4 & l3 & K). cbn beta zeta in K. destruct K as (-> & K1 & K2 & K3 & K4 & K5).
    exists j. apply (after_skip [existT (EStat (lk k)) r]). eexists cs4, _. split; [exact K4|]. split; [|split; [exact K5|]].
    + intros c Hc. apply Hin, elem_of_app. right. right. apply elem_of_app. right. by right.
    + intros Ps HPs. rewrite <- app_assoc. apply Ht. cbn [app]. apply turn_run. apply it_now; [done|done|].
      apply turn_run. apply it_now; [done| |done]. exists d. split; [|done]. eapply read_text; [|done].
      apply lookup_lt_is_Some. apply lookup_lt_is_Some in Hj. eapply Nat.lt_le_trans; [exact Hj|].
      exact (more_inodes (Choice i (AGo o) :: cs3) (sys_run cs1 y') (fine_run H lfs s0 Hlfs cs1 y' Hy)).
  - by destruct (Hx p' t' (owner_name en r)).
Qed.
Lemma visits_read names ds ls : visits en lfs names ds ls -> Forall plain_name names -> forall cs y Qs ds', after cs y Qs (ds ++ ds') ->
  exists Ps, reads_all en lfs (troubled i cs) names ls Ps /\ after cs y (Qs ++ Ps) ds'.
Proof using Hlfs.
  induction 1 as [|c cs0 f ds0 ds1 p t o ls Hf Hl Hv IH|c cs0 f ds0 ds1 x ls Hf Hl Hx Hv IH]; intros Hp cs y Qs ds' Ha.
  - exists []. split; [constructor|]. by rewrite app_nil_r.
  - apply Forall_cons in Hp as [Hc Hp]. apply lossy_plain in Hc. pose proof Hc as (_ & _ & _ & Hs & _).
    apply target_plain in Hf as ->; [|done]. rewrite <- app_assoc in Ha.
    destruct (look_found _ _ _ _ _ _ _ _ _ Hs Hl Ha) as [j Hj]. destruct (IH Hp _ _ _ _ Hj) as (Ps & H1 & H2).
    eexists. split; [by apply ra_lock|]. by rewrite app_assoc.
  - apply Forall_cons in Hp as [Hc Hp]. apply lossy_plain in Hc. pose proof Hc as (_ & _ & _ & Hs & _).
    apply target_plain in Hf as ->; [|done]. rewrite <- app_assoc in Ha.
    destruct (look_other _ _ _ _ _ _ _ Hc Hl Hx Ha) as [Ht|[Ht|[j Ht]]].
    + apply after_skip in Ha. destruct (IH Hp _ _ _ _ Ha) as (Ps & H1 & H2). exists Ps. split; [by apply ra_failed|done].
    + destruct (IH Hp _ _ _ _ Ht) as (Ps & H1 & H2). eexists. split; [by apply ra_gone|]. by rewrite <- app_assoc in H2.
    + destruct (IH Hp _ _ _ _ Ht) as (Ps & H1 & H2). eexists. split; [by apply ra_other with (j := j)|]. by rewrite <- app_assoc in H2.
Qed.

(** Answers that say something. *)
Definition telling (a : reply) : Prop := rp_code a = 200%N \/ rp_code a = 201%N \/ rp_code a = 404%N \/ rp_code a = 409%N.
Lemma responds_telling m is ds a b ws is' : responds en lfs m is ds a -> is = Got (PData b) :: is' -> SpecOdd.says b ws -> telling a ->
  exists r, SpecOdd.named r ws /\
    ((exists k f, r = RUnlock k [] /\ target lfs k f /\ unlocking en lfs f ds a) \/
     (lock_request r /\ exists kvs, part PFlush is' (args kvs) /\ acts en lfs m (with_args kvs r) ds a) \/
     match r with RLock _ | RList _ | RUnlock _ _ => False | _ => True end).
Proof using Type.
  unfold telling. intros H5 -> Hs Hc. inversion H5; subst; try (exfalso; cbn in Hc; naive_solver lia);
    repeat match goal with G : SpecOdd.says b ?w |- _ => tryif constr_eq w ws then fail else (apply (says_one _ _ _ Hs) in G; subst w) end;
    try (exfalso; match goal with
    | G : SpecOdd.turned_away _ _ _ _ |- _ => inversion G; subst
    | G : SpecOdd.bad_args _ _ _ |- _ => inversion G; subst
    | G : SpecOdd.bad_items _ _ _ |- _ => inversion G; subst
    | x : item |- _ => destruct x
    end; cbn in Hc; naive_solver lia).
  - eexists. split; [done|]. by right; right.
  - eexists. split; [done|]. left. by eexists _, _.
  - eexists. split; [done|]. match goal with G : plain_request _ \/ _ |- _ => destruct G as [G|G] end.
    + right. right. by destruct r.
    + right. left. split; [done|]. by eexists.
  - eexists. split; [done|]. by right; right.
Qed.

Lemma useless_look f ds a : looks en f ds (Unusable a) -> ~ telling a.
Proof using Type. unfold telling. inversion 1; subst; cbn; naive_solver lia. Qed.
Lemma useless_path p ds a : looks_for en lfs p ds (Unusable a) -> ~ telling a.
Proof using Type. inversion 1; subst; [by eapply useless_look|]. unfold telling. cbn. naive_solver lia. Qed.

Lemma lock_told cs y p ds a : locking en lfs p ds a -> after cs y [] ds -> telling a ->
  granted en lfs i cs y p a \/ held en lfs i cs y p a.
Proof using Hlfs HH.
  intros Hl Ha Ht. destruct Hl as [ds r t x Hd Hx|t fd x r|ds x Hd Hk|ds x ds' t o tx Hd Hk Hf Hx|ds x ds' a Hd Hk Hf].
  - left. inversion Hd; subst. exists x, (owner_name en r). split; [done|].
    rewrite <- (app_nil_r [existT EClock t]) in Ha. cbn [app] in Ha.
    apply (after_skip [_; _; _]) in Ha. eapply after_shows with (P := wins en lfs p) in Ha; [|intros o' l' s' Hsh E; by apply link_wins].
    apply (after_skip [_]) in Ha. eapply after_shows with (P := belongs en (lock_at en lfs p) (owner_name en r)) in Ha; [|intros o' l' s' Hsh E; rewrite E; apply stat_belongs; [done|done|by apply id_plain]].
    by apply after_turn in Ha.
  - exfalso. revert Ht. unfold telling. cbn. naive_solver lia.
  - exfalso. revert Ht. unfold telling. cbn. naive_solver lia.
  - right. apply after_skip in Ha. rewrite <- (app_nil_r ds') in Ha.
    destruct (look_path _ _ _ _ _ _ _ _ _ Hf Ha) as [_ [j Hj]]. apply after_turn in Hj. by exists t, tx, o, j.
  - exfalso. by eapply useless_path.
Qed.

Lemma list_path_told cs y m p c ds a : path_listing en lfs m p c ds a -> after cs y [] ds -> telling a ->
  told_of en lfs m i cs y p a /\ ~ SpecLockDir.passed c (lock_id H p) \/ a = not_found /\ no_lock en lfs i cs y p c.
Proof using Hlfs HH.
  intros Hl Ha Ht. destruct Hl as [ds Hl|ds a Hl|ds t o Hl Hc|ds t o x Hl Hc Hx]; try rewrite <- (app_nil_r ds) in Ha.
  - right. split; [done|]. inversion Hl as [ds0 x Hl' Hq|]; subst. destruct (look_absent _ _ _ _ _ Hl' Ha) as [?|?]; [by left|by right; left].
  - exfalso. by eapply useless_path.
  - right. split; [done|]. destruct (look_path _ _ _ _ _ _ _ _ _ Hl Ha) as [_ [j Hj]]. apply after_turn in Hj. right. right. by exists t, o, j.
  - left. split; [|done]. destruct (look_path _ _ _ _ _ _ _ _ _ Hl Ha) as [_ [j Hj]]. apply after_turn in Hj. by exists t, x, o, j.
Qed.

Lemma list_told cs y m c n ds a : listing en lfs m c n ds a -> after cs y [] ds -> telling a -> told_all en lfs m i cs y c n a.
Proof using Hlfs.
  intros Hl Ha Ht. destruct Hl as [x|names is1 is2 ds before ls out Hp Hs Hv Hb Hh Hn He Ho].
  { exfalso. revert Ht. unfold telling. cbn. naive_solver lia. }
  assert (Hpl : Forall plain_name names).
  { destruct Ha as (cs' & y' & Hy & _ & Hd & _). destruct (deed cs' y' _ _ _ Hy Hd) as (cs1 & o & cs2 & l & G). cbn beta zeta in G.
    destruct G as (-> & G1 & G2 & G3 & G4 & G5). pose proof (names_seen lfs Hlfs i o l _ _ G3 (eq_sym G1)) as Hna.
    apply Forall_forall. intros k Hk. apply Hna in Hk as [nd Hk]. by apply (sh_lock _ _ G3) in Hk as [? _]. }
  eapply after_shows with (P := has_names lfs names) in Ha; [|intros o' l' s' Hsh E; exact (names_seen lfs Hlfs i o' l' s' names Hsh (eq_sym E))].
  cbn [app] in Ha. rewrite <- (app_nil_r ds) in Ha.
  destruct (visits_read _ _ _ Hv) with (cs := cs) (y := y) (Qs := [has_names lfs names]) (ds' := @nil done_call) as (Ps & H1 & H2); [|done|].
  { rewrite <- Hp in Hpl. by apply Forall_app in Hpl as [? _]. }
  apply after_turn in H2. by exists is1, is2, names, before, ls, out, Ps.
Qed.

Lemma unlock_told cs y k f ds a : target lfs k f -> unlocking en lfs f ds a -> after cs y [] ds -> telling a ->
  removed en lfs i cs y k a \/ a = not_found /\ (SLASH ∉ k -> not_there en lfs i cs y k).
Proof using Hlfs HH.
  intros Hf Hu Ha Ht. destruct Hu as [ds Hl|ds a Hl|ds p t o x Hl Hx|ds p t o x Hl Hx Hm|ds p t o x Hl Hx Hk|ds p t o x Hl Hx Hm Hk].
  - right. split; [done|]. intros Hk. apply target_plain in Hf as ->; [|done]. rewrite <- (app_nil_r ds) in Ha.
    destruct (look_absent _ _ _ _ _ Hl Ha) as [?|?]; [by left|by right; left].
  - exfalso. by eapply useless_look.
  - left. exists p, t, x, o. split; [done|]. split; [done|]. split.
    + apply after_skip in Ha. eapply after_shows with (P := removes (lock_at en lfs p)) in Ha; [|intros o' l' s' Hsh E; by apply unlink_removes]. by apply after_turn in Ha.
    + intros Hk. apply target_plain in Hf as ->; [|done]. destruct (look_found _ _ _ _ _ _ _ _ _ Hk Hl Ha) as [j Hj].
      eapply after_shows with (P := removes (lock_at en lfs p)) in Hj; [|intros o' l' s' Hsh E; by apply unlink_removes]. apply after_turn in Hj. by exists j.
  - right. split; [done|]. intros Hk. apply target_plain in Hf as ->; [|done]. destruct (look_found _ _ _ _ _ _ _ _ _ Hk Hl Ha) as [j Hj].
    destruct Hj as (cs' & y' & Hy & Hin & Hd & Hturn). destruct (deed cs' y' _ _ _ Hy Hd) as (cs1 & o1 & cs2 & l & G). cbn beta zeta in G.
    destruct G as (-> & G1 & G2 & G3 & G4 & G5). destruct (unlink_missing en lfs Hlfs HH i o1 l _ p x G3 Hm (eq_sym G1)) as [E|E].
    + right. left. exists o1, x. split_and!; [|done|done]. apply Hin, elem_of_app. right. by left.
    + right. right. exists p, t, o, j. apply (Hturn [is_free (lock_at en lfs p)]). apply turn_run. apply it_now; [done|done|]. apply it_end.
  - exfalso. revert Ht. unfold telling. cbn. naive_solver lia.
  - exfalso. revert Ht. unfold telling. cbn. naive_solver lia.
Qed.

Lemma round_held cs y u m old new : fine y -> round en lfs u m old (history i cs y) new -> honest_round en lfs u m i cs y old new.
Proof using Hlfs HH.
  intros Hy (is & a & ps & H1 & H2 & H3 & H4 & H5). exists is, a, ps. cbn beta zeta. split_and!; try done.
  intros b ws is' -> Hs. destruct H5 as [[H5 _]|[-> H5]].
  - assert (Ha : after cs y [] (deeds (history i cs y))) by (by apply after_self).
    split_and!.
    + intros Hn Hc. destruct (responds_telling _ _ _ _ _ _ _ H5 eq_refl Hs) as (r & Hr & Hrest); [unfold telling; naive_solver|].
      pose proof (named_one _ _ _ Hr Hn) as E. cbn [SpecOdd.verb] in E.
      destruct Hrest as [(k & f & -> & _)|[(Hl & kvs & Hp & Hac)|Hl]]; [exfalso; by vm_compute in E| |by destruct r; try done; exfalso; vm_compute in E].
      destruct r; try done. cbn [with_args] in Hac. inversion Hac; subst.
      { exfalso. cbn in Hc. naive_solver lia. }
      eexists kvs, _, _. split; [done|]. split; [done|]. split; [done|]. eapply lock_told; [done|done|unfold telling; naive_solver].
    + intros Hn Hc. destruct (responds_telling _ _ _ _ _ _ _ H5 eq_refl Hs) as (r & Hr & Hrest); [unfold telling; naive_solver|].
      pose proof (named_one _ _ _ Hr Hn) as E. cbn [SpecOdd.verb] in E.
      destruct Hrest as [(k & f & -> & _)|[(Hl & kvs & Hp & Hac)|Hl]]; [exfalso; by vm_compute in E| |by destruct r; try done; exfalso; vm_compute in E].
      destruct r; try done. cbn [with_args] in Hac. inversion Hac; subst.
      * exfalso. cbn in Hc. naive_solver lia.
      * exfalso. cbn in Hc. naive_solver lia.
      * eexists kvs, _, _, _. split; [done|]. split; [done|]. split; [done|]. split; [done|]. right. eexists. split; [done|]. eapply list_path_told; [done|done|unfold telling; naive_solver].
      * eexists kvs, _, _, _. split; [done|]. split; [done|]. split; [done|]. split; [done|]. left. split; [done|]. eapply list_told; [done|done|unfold telling; naive_solver].
    + intros k Hn Hc. destruct (responds_telling _ _ _ _ _ _ _ H5 eq_refl Hs) as (r & Hr & Hrest); [unfold telling; naive_solver|].
      pose proof (named_one _ _ _ Hr Hn) as E. cbn [SpecOdd.verb] in E.
      destruct Hrest as [(k' & f & -> & Hf & Hu)|[(Hl & kvs & Hp & Hac)|Hl]]; [|by destruct r; try done; exfalso; vm_compute in E..].
      injection E as ->. eapply unlock_told; [done|done|done|unfold telling; naive_solver].
  - assert (Hput : exists o, SpecOdd.named (RPut o [] []) ws \/ ~ telling a).
    { inversion H5; subst; repeat match goal with G : SpecOdd.says b ?w |- _ => tryif constr_eq w ws then fail else (apply (says_one _ _ _ Hs) in G; subst w) end;
        try (eexists; left; eassumption). }
    destruct Hput as [o [Hput|Hput]].
    + split_and!; intros; match goal with G : SpecOdd.named _ ws |- _ => pose proof (named_one _ _ _ Hput G) as E end; exfalso; by vm_compute in E.
    + unfold telling in Hput. split_and!; intros; exfalso; naive_solver.
Qed.
End rounds.

(** ** Sessions *)
Section session.
Context (en : env) (lfs : path) (ps : list (proc (Z * bytes))) (s0 : fs).
Context (Hsv : workers (en_hash en) lfs ps s0).
Local Notation H := (en_hash en).
Local Notation y0 := (Sys ps s0).

Lemma rounds_held i u m old body new : rounds en lfs u m old body new ->
  forall cs y, fine H lfs s0 y -> history i cs y = body ->
  exists cs1 cs2, cs = cs1 ++ cs2 /\ honest_rounds en lfs u m i cs1 y old new /\ history i cs1 y = body /\ history i cs2 (sys_run cs1 y) = [].
Proof using Hsv.
  destruct Hsv as [HH Hlfs _ _].
  induction 1 as [|old tr mid tr' new Hr _ IH]; intros cs y Hy Hh; [exists [], cs; split_and!; try done; constructor|].
  destruct (history_split _ _ _ _ _ Hh) as (cs1 & cs2 & -> & H1 & H2).
  destruct (IH cs2 (sys_run cs1 y)) as (c1 & c2 & -> & G1 & G2 & G3); [by apply fine_run|done|].
  exists (cs1 ++ c1), c2. split_and!; [by rewrite app_assoc| |by rewrite history_app, H1, G2|by rewrite sys_run_app].
  econstructor; [|done]. apply (round_held en lfs s0 HH Hlfs i); [done|]. by rewrite H1.
Qed.

Lemma c99 fuel v m l i cs : ps !! i = Some (Proc (transfer_main en fuel lfs (GOk (libgit2 v)) (operation m)) l false) ->
  (forall e r, existT e r ∈ history i cs y0 -> introduces lfs e) \/
  exists um u c1 c2 c3 new p, cs = c1 ++ c2 ++ c3 /\ history i c1 y0 = um ++ announced lfs /\ masks (asked v) um u /\
    honest_rounds en lfs u m i c2 (sys_run c1 y0) [] new /\
    (let rest := history i c3 (sys_run (c1 ++ c2) y0) in flushed ∉ rest \/ farewell rest) /\
    procs (sys_run cs y0) !! i = Some p /\
    (l_out l ++ bs "000eversion=1" ++ [NL] ++ bs "0000" ++ spoken (history i c2 (sys_run c1 y0))) `prefix_of` l_out (pr_local p).
Proof using Hsv.
  intros Hi. pose proof (fine_start en lfs ps s0 Hsv) as Hg. pose proof Hsv as [HH Hlfs _ _].
  destruct (c_session en fuel lfs v m (history i cs y0) None HH) as [[G _]|(um & u & body & rest & new & E & Hm & Hr & Hf & _)].
  - apply history_exact.
  - by apply (history_calls i cs y0 _ Hi).
  - by left.
  - right. rewrite app_assoc in E.
    destruct (history_split _ _ _ _ _ E) as (c1 & c23 & -> & H1 & H2).
    destruct (history_split _ _ _ _ _ H2) as (c2' & c3' & -> & H3 & H4).
    destruct (rounds_held i u m [] body new Hr c2' (sys_run c1 y0)) as (c2 & c4 & -> & G1 & G2 & G3); [by apply fine_run|done|].
    assert (Hrest : history i (c4 ++ c3') (sys_run (c1 ++ c2) y0) = rest).
    { rewrite history_app, (sys_run_app c1 c2), G3. rewrite sys_run_app in H4. exact H4. }
    assert (Hw : sent_well (um ++ announced lfs) /\ spoken (um ++ announced lfs) = bs "000eversion=1" ++ [NL] ++ bs "0000").
    { assert (sent_well um /\ spoken um = []) as [Hw Hs].
      { unfold masks in Hm. destruct (asked v) as [n|]; [destruct Hm as (_ & r & ->)|destruct Hm as (r & ->)]; split; try done; repeat constructor; by intros []. }
      split; [|unfold spoken in *; rewrite map_app, concat_app, Hs; done]. apply Forall_app. split; [done|]. repeat constructor; by intros []. }
    destruct Hw as [Hw Hs].
    destruct (out_spoken i c1 y0 _ Hi) as (p1 & Hp1 & Ho1); [by rewrite H1|].
    destruct (out_spoken i c2 _ _ Hp1) as (p2 & Hp2 & Ho2); [rewrite G2; by eapply rounds_sent|].
    destruct (out_grows i (c4 ++ c3') _ p2 Hp2) as (p & Hp & Ho).
    exists um, u, c1, c2, (c4 ++ c3'), new, p. split_and!; [by rewrite <- app_assoc|done|done|done| | |].
    + cbn beta zeta. by rewrite Hrest.
    + by rewrite !sys_run_app in *.
    + rewrite Ho2, Ho1, H1, Hs in Ho. cbn [pr_local] in Ho. by rewrite <- !app_assoc in Ho.
Qed.

(** The file of a lock is in its place until it is removed. *)
Lemma stands p j cs2 : forall y, fine H lfs s0 y -> nodes (shared y) !! lock_at en lfs p = Some (NFile j) ->
  nodes (shared (sys_run cs2 y)) !! lock_at en lfs p = Some (NFile j) \/
  exists t c t', cs2 = t ++ c :: t' /\ nodes (shared (sys_run t y)) !! lock_at en lfs p = Some (NFile j) /\
    nodes (shared (sys_run (t ++ [c]) y)) !! lock_at en lfs p = None.
Proof using Hsv.
  induction cs2 as [|c cs2 IH]; intros y Hy Hj; [by left|]. change (sys_run (c :: cs2) y) with (sys_run cs2 (sys_step y c)).
  assert (nodes (shared (sys_step y c)) !! lock_at en lfs p = Some (NFile j) \/ nodes (shared (sys_step y c)) !! lock_at en lfs p = None) as [E|E].
  { destruct (step_turned H lfs ps s0 Hsv y c (lock_at en lfs p) Hy) as [E|(e & r & _ & Ht)]; [left; congruence|].
    destruct Ht as [E'|j' E1 E2|n E1 E2 E3|a o' n E1 Ho' E2 E3]; [left; congruence|by right|congruence|].
    exfalso. unfold lock_at in E1. rewrite (lk_eq lfs) in E1. by eapply obj_not_lock. }
  - destruct (IH (sys_step y c)) as [G|(t & d & t' & -> & G1 & G2)]; [|done|by left|].
    { apply fine_step; [|done]. by destruct Hsv. }
    right. by exists (c :: t), d, t'.
  - right. by exists [], c, cs2.
Qed.
Lemma c99_stands cs1 cs2 p j : nodes (shared (sys_run cs1 y0)) !! lock_at en lfs p = Some (NFile j) ->
  nodes (shared (sys_run (cs1 ++ cs2) y0)) !! lock_at en lfs p = Some (NFile j) \/
  exists t c t', cs2 = t ++ c :: t' /\ nodes (shared (sys_run (cs1 ++ t) y0)) !! lock_at en lfs p = Some (NFile j) /\
    nodes (shared (sys_run (cs1 ++ t ++ [c]) y0)) !! lock_at en lfs p = None.
Proof using Hsv.
  intros Hj. setoid_rewrite sys_run_app. apply stands; [|done]. destruct Hsv as [_ Hlfs _ _]. apply fine_run; [done|]. by apply fine_start.
Qed.
End session.
