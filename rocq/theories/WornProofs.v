(** Repositories with damaged objects: proofs for Props_Worn.v. *)
From Verif Require Import Bytes ByteFacts Err FS Prog Pktline Args Local Processor Transfer Wp Rg
  Spec SpecStore SpecServer SpecFrame SpecTalk SpecPerm SpecInput SpecTogether SpecStart SpecRound SpecTruth FsFacts PktFacts PktProofs IoFacts TextProofs ObjProofs StoreProofs SeqIo SeqFs SeqCmd Session
  SessionFacts GetProofs TogetherProofs TogetherFacts FaultFacts OddProofs RoundFacts RoundProofs RoundMain TruthProofs SpecWorn.
From Verif Require SpecOdd.
From Verif Require Import Shape.
From stdpp Require Import relations.

Definition may_be : damage := True.
Local Existing Instance may_be.

(** ** Systems of servers *)
Section truth.
Context (H : bytes -> bytes) (lfs : path) (s0 : fs).
Context (HH : digest H) (Hlfs : Forall plain_name lfs).
Local Notation n0 := (length (inodes s0)).
Local Notation Rel := (Rely H lfs n0 any_oid).
Local Notation Gua := (Guar lfs n0 any_oid).
Local Notation INV := (Inv H lfs n0).
Implicit Types y : sys (Z * bytes).
Local Notation Hst := (plain_stays_all lfs Hlfs).

Definition fine (y : sys (Z * bytes)) : Prop :=
  sys_ok Rel Gua INV (fun _ _ _ _ => True) y /\ shape lfs (shared y) /\
  (forall j p, procs y !! j = Some p -> all_ev (shapely lfs) (pr_prog p)) /\
  rtc (moved Gua INV) s0 (shared y).

Lemma fine_step y c : fine y -> fine (sys_step y c).
Proof using Hlfs.
  intros (Hs & Hsh & Hev & Hm). split.
  { by apply (sys_step_sound Rel Gua INV (fun _ _ _ _ => True) (rely_refl H lfs n0 any_oid) (rely_trans H lfs n0 any_oid) (guar_rely H lfs n0 any_oid)). }
  apply and_assoc. split.
  2: { etrans; [exact Hm|]. by apply (sys_step_sound Rel Gua INV (fun _ _ _ _ => True) (rely_refl H lfs n0 any_oid) (rely_trans H lfs n0 any_oid) (guar_rely H lfs n0 any_oid)). }
  destruct c as [j a]. unfold sys_step. cbn [c_pid c_act]. destruct (procs y !! j) as [[q l d]|] eqn:Ej; [|done].
  unfold proc_step. cbn [pr_dead pr_prog pr_local].
  assert (Hsame : forall d', shape lfs (shared (Sys (<[j := Proc q l d']> (procs y)) (shared y))) /\
    forall j' p, procs (Sys (<[j := Proc q l d']> (procs y)) (shared y)) !! j' = Some p -> all_ev (shapely lfs) (pr_prog p)).
  { intros d'. cbn [shared procs]. split; [done|]. intros j' p. rewrite list_lookup_insert_Some.
    intros [(-> & <- & _)|[_ G]]; [|by eapply Hev]. by apply (Hev j' (Proc q l d)). }
  destruct d; [apply Hsame|]. destruct a as [o|]; [|apply Hsame]. destruct q as [x|f|e k]; [apply Hsame|apply Hsame|].
  pose proof (Hev _ _ Ej) as [He Hk]. cbn [pr_prog] in He, Hk.
  destruct (shapely_ok lfs Hst j e o l (shared y) He Hsh) as [Hsh' _].
  pose proof (handle_resp_ok j e o l (shared y)) as Hrok.
  destruct (handle_ev j e o l (shared y)) as [[r l'] s']. cbn [fst snd shared procs] in *. split; [done|].
  intros j' p. rewrite list_lookup_insert_Some. intros [(-> & <- & _)|[_ G]]; [by apply Hk|by eapply Hev].
Qed.
Lemma fine_run cs : forall y, fine y -> fine (sys_run cs y).
Proof using Hlfs. induction cs as [|c cs IH]; intros y Hy; [done|]. apply IH. by apply fine_step. Qed.

Lemma fine_moved cs y : fine y -> rtc (moved Gua INV) (shared y) (shared (sys_run cs y)).
Proof using Type.
  intros [Hs _]. by destruct (sys_run_sound Rel Gua INV (fun _ _ _ _ => True) (rely_refl H lfs n0 any_oid) (rely_trans H lfs n0 any_oid) (guar_rely H lfs n0 any_oid) cs y Hs).
Qed.
Lemma fine_inv y : fine y -> INV (shared y).
Proof using Type. by intros [[G _] _]. Qed.

(** What others and the server itself leave alone. *)
Lemma moved_frozen s s' j d : rtc (moved Gua INV) s s' -> frozen lfs n0 j d s -> frozen lfs n0 j d s'.
Proof using Type.
  induction 1 as [|a b c (Ia & Ib & i & HG) _ IH]; [done|]. intros (x & Hx & Hd & Hf). apply IH.
  destruct (gu_ino _ _ _ _ _ _ HG j x Hx) as (x' & Hx' & E1 & E2 & E3 & E4). exists x'.
  split_and!; [done| |].
  - destruct E4 as [->|(Hn & _ & Hc)]; [done|]. destruct Hf as [Hf|[Ht Hf]]; [lia|].
    destruct (Hc Ht) as [c' Hc']. by destruct (Hf c').
  - destruct Hf as [Hf|[Ht Hf]]; [by left|right]. split; [congruence|].
    intros c' Hc. apply (Hf c'). apply (gu_new _ _ _ _ _ _ HG c' j Hc). by apply lookup_lt_Some in Hx.
Qed.
Lemma frozen_stays cs y j d : fine y -> frozen lfs n0 j d (shared y) -> frozen lfs n0 j d (shared (sys_run cs y)).
Proof using Type. intros Hy. apply moved_frozen. by apply fine_moved. Qed.
Lemma worn_frozen s o j : INV s -> is_oid o -> nodes s !! expected_path lfs o = Some (NFile j) -> exists d, frozen lfs n0 j d s.
Proof using Type.
  intros HI Ho Hj. destruct (inv_file _ _ _ _ HI o j Ho Hj) as (x & Hx & E & Ht).
  exists (i_data x), x. split_and!; try done.
  destruct (decide (j < n0)%nat) as [?|Hn]; [by left|right]. assert (Hn' : (n0 <= j)%nat) by lia.
  split; [auto|]. intros c Hc.
  pose proof (inv_one _ _ _ _ HI _ _ _ _ Hj Hc Hx Hn' (Ht Hn')) as E2.
  symmetry in E2. by apply inc_obj in E2.
Qed.

(** No file comes back under the name of an object. *)
Lemma moved_back s s' o j : rtc (moved Gua INV) s s' -> nodes s' !! expected_path lfs o = Some (NFile j) ->
  nodes s !! expected_path lfs o = Some (NFile j) \/ (n0 <= j)%nat.
Proof using Type.
  induction 1 as [|a b c (Ia & Ib & i & HG) _ IH]; [by left|]. intros Hj.
  destruct (IH Hj) as [Hb|?]; [|by right]. exact (gu_back _ _ _ _ _ _ HG o j Hb).
Qed.
(** Nor one in the directory of uploads under way. *)
Lemma moved_upload s s' c j : rtc (moved Gua INV) s s' -> nodes s !! (lfs ++ [bs "incomplete"] ++ [c]) = None ->
  nodes s' !! (lfs ++ [bs "incomplete"] ++ [c]) = Some (NFile j) -> (length (inodes s) <= j)%nat.
Proof using Type.
  rewrite app_assoc. intros Hm Hn. revert j. revert s' Hm.
  apply (rtc_ind_r (fun s' => forall j, nodes s' !! ((lfs ++ [bs "incomplete"]) ++ [c]) = Some (NFile j) -> (length (inodes s) <= j)%nat)); [congruence|].
  intros a b Hm (Ia & Ib & i & HG) IH j Hj. destruct (decide (length (inodes s) <= j)%nat) as [?|Hlt]; [done|]. apply IH.
  apply (gu_new _ _ _ _ _ _ HG c j Hj).
  assert (G : forall u v, rtc (moved Gua INV) u v -> (length (inodes u) <= length (inodes v))%nat).
  { induction 1 as [|u v w (_ & _ & i' & HG') _ IH']; [done|]. pose proof (gu_len _ _ _ _ _ _ HG'). lia. }
  pose proof (G _ _ Hm). lia.
Qed.

Lemma has_frozen s o d : INV s -> is_oid o -> has_file s (object_path lfs o) d ->
  exists j, nodes s !! expected_path lfs o = Some (NFile j) /\ frozen lfs n0 j d s.
Proof using Type.
  intros HI Ho (j & x & Hj & Hx & Hd). rewrite object_path_eq in Hj. exists j. split; [done|].
  destruct (worn_frozen s o j HI Ho Hj) as (d' & x' & Hx' & Hd' & Hf). exists x'. split_and!; try done. congruence.
Qed.
Lemma moved_object s s' o d : rtc (moved Gua INV) s s' -> INV s -> INV s' -> is_oid o -> has_file s (object_path lfs o) d ->
  exists d', has_file s' (object_path lfs o) d' /\ (d' = d \/ hex_of (H d') o).
Proof using Type.
  intros Hm HI HI' Ho Hf. destruct (has_frozen s o d HI Ho Hf) as (j & Hj & Hfr).
  destruct (moved_objects H lfs n0 any_oid _ _ o Hm Ho) as [j' Hj']; [by exists j|].
  destruct (inv_file _ _ _ _ HI' o j' Ho Hj') as (x' & Hx' & E & _).
  exists (i_data x'). split; [exists j', x'; by rewrite object_path_eq|].
  destruct E as [E|[_ Hlt]]; [right; by apply hex_of_iff|left].
  destruct (moved_back s s' o j' Hm Hj') as [Hb|?]; [|lia]. assert (j' = j) as -> by congruence.
  destruct (moved_frozen _ _ _ _ Hm Hfr) as (x2 & Hx2 & Hd2 & _). congruence.
Qed.
Lemma moved_whence s s' o d : rtc (moved Gua INV) s s' -> INV s -> INV s' -> is_oid o -> has_file s' (object_path lfs o) d ->
  hex_of (H d) o \/ has_file s (object_path lfs o) d.
Proof using Type.
  intros Hm HI HI' Ho (j & x & Hj & Hx & Hd). rewrite object_path_eq in Hj.
  destruct (inv_file _ _ _ _ HI' o j Ho Hj) as (x' & Hx' & E & _). assert (x' = x) as -> by congruence.
  destruct E as [E|[_ Hlt]]; [left; apply hex_of_iff; congruence|right].
  destruct (moved_back s s' o j Hm Hj) as [Hb|?]; [|lia].
  destruct (worn_frozen s o j HI Ho Hb) as (d2 & Hfr). pose proof (moved_frozen _ _ _ _ Hm Hfr) as (x3 & Hx3 & Hd3 & _).
  destruct Hfr as (x2 & Hx2 & Hd2 & _). exists j, x2. rewrite object_path_eq. split_and!; congruence.
Qed.

Lemma fine_first y : fine y -> INV s0.
Proof using Type.
  intros Hy. pose proof Hy as (_ & _ & _ & Hm). apply rtc_inv in Hm as [E|(s & (? & _) & _)]; [|done].
  pose proof (fine_inv y Hy) as G. by rewrite <- E in G.
Qed.

Lemma right_stays cs y o d : fine y -> is_oid o -> has_file (shared y) (object_path lfs o) d -> hex_of (H d) o ->
  kept H lfs (shared (sys_run cs y)) o d.
Proof using Hlfs.
  intros Hy Ho Hf Hh. pose proof (fine_run cs y Hy) as Hy'.
  destruct (moved_object _ _ o d (fine_moved cs y Hy) (fine_inv _ Hy) (fine_inv _ Hy') Ho Hf) as (d' & Hf' & E).
  split; [done|]. exists d'. split; [done|]. destruct E as [->|E]; [by left|].
  destruct (decide (d' = d)) as [?|Hne]; [by left|right]. split; [done|].
  apply hex_of_iff in Hh, E. apply hex_encode_inj. congruence.
Qed.
Lemma object_stays cs y o d : fine y -> is_oid o -> has_file (shared y) (object_path lfs o) d -> found H lfs s0 (shared (sys_run cs y)) o d.
Proof using Hlfs.
  intros Hy Ho Hf. pose proof Hy as (_ & _ & _ & Hm).
  destruct (moved_whence _ _ o d Hm (fine_first y Hy) (fine_inv _ Hy) Ho Hf) as [Hh|H0].
  - left. by apply right_stays.
  - right. split; [done|].
    apply (moved_object _ _ o d (fine_moved cs y Hy) (fine_inv _ Hy) (fine_inv _ (fine_run cs y Hy)) Ho Hf).
Qed.

(** ** Calls that show an object *)
Section calls.
Context (i : nat) (o : bytes) (Ho : is_oid o).
Local Notation f := (object_path lfs o).
Lemma f_stays : Forall stays f.
Proof using Hlfs Ho. rewrite object_path_eq. apply obj_stays; [apply Hst|done]. Qed.
Lemma f_cons : f <> [].
Proof using Type. apply object_path_cons. Qed.

Lemma stat_shows or l s n u : shape lfs s -> INV s -> (handle_ev i (EStat f) or l s).1.1 = IOk (n, u) ->
  exists d, has_file s f d /\ lenN d = n.
Proof using Hlfs Ho.
  intros Hsh HI. cbn. unfold faulty. destruct (o_fault or); [done|]. cbn. unfold fs_stat.
  destruct (resolve s f) as [x|q] eqn:Er0; [done|]. apply resolve_stays in Er0 as ->; [|apply f_stays].
  rewrite node_at_cons by apply f_cons. destruct (nodes s !! f) as [[|j]|] eqn:En; [| |done].
  - by destruct (sh_obj _ _ Hsh o Ho) as [G _].
  - intros [= <- _]. pose proof En as En'. rewrite object_path_eq in En'. destruct (inv_file _ _ _ _ HI o j Ho En') as (x & Hx & _).
    exists (i_data x). split; [by exists j, x|]. unfold fs_data, inode_at. by rewrite Hx.
Qed.
Lemma open_shows or l s h : shape lfs s -> INV s -> (handle_ev i (EOpen f) or l s).1.1 = IOk h ->
  exists j d, h = HFile j /\ has_file s f d /\ frozen lfs n0 j d s.
Proof using Hlfs Ho.
  intros Hsh HI. cbn. unfold faulty. destruct (o_fault or); [done|]. cbn. unfold fs_open.
  destruct (resolve s f) as [x|q] eqn:Er0; [done|]. apply resolve_stays in Er0 as ->; [|apply f_stays].
  rewrite node_at_cons by apply f_cons. destruct (nodes s !! f) as [[|j]|] eqn:En; [| |done].
  - by destruct (sh_obj _ _ Hsh o Ho) as [G _].
  - intros [= <-]. pose proof En as En'. rewrite object_path_eq in En'.
    destruct (worn_frozen s o j HI Ho En') as (d & Hf). exists j, d. split_and!; [done| |done].
    destruct Hf as (x & Hx & Hd & _). by exists j, x.
Qed.
Lemma rename_shows or l s a : (handle_ev i (ERename a f) or l s).1.1 = IOk tt ->
  exists q j, file_at s a = inr (q, j) /\ nodes (handle_ev i (ERename a f) or l s).2 !! f = Some (NFile j).
Proof using Hlfs Ho.
  cbn. unfold faulty. destruct (o_fault or); [done|]. cbn. unfold fs_rename.
  destruct (file_at s a) as [x|[qa j]]; [done|].
  destruct (resolve s f) as [x|q] eqn:Er0; [done|]. apply resolve_stays in Er0 as ->; [|apply f_stays].
  destruct (node_at s f) as [[|j']|]; [done| |]; cbn; intros _; exists qa, j; (split; [done|apply lookup_insert]).
Qed.
Lemma mktemp_shows or l s tmp fd : (handle_ev i (EMktemp (lfs ++ [bs "incomplete"]) o) or l s).1.1 = IOk (tmp, fd) ->
  exists c, stays c /\ tmp = (lfs ++ [bs "incomplete"]) ++ [c] /\ nodes s !! tmp = None.
Proof using Hlfs Ho.
  unfold handle_ev, faulty, with_l. destruct (o_fault or); [done|]. cbn [fst snd]. unfold fs_mktemp.
  destruct (resolve s (lfs ++ [bs "incomplete"])) as [x|q] eqn:Er0; [done|].
  apply resolve_stays in Er0 as ->; [|apply (inc_stays lfs), Hst].
  destruct (node_at s (lfs ++ [bs "incomplete"])) as [[|]|]; [|done..]. cbn [fst snd alloc]. intros [= <- _].
  eexists. split_and!; [|done|apply free_name_free].
  assert (G : (64 <= length (free_name s (lfs ++ [bs "incomplete"]) (o ++ o_sfx or)))%nat).
  { destruct Ho as [Hl _]. unfold free_name. destruct (nodes s !! _); rewrite !app_length; lia. }
  split_and!; intros E; rewrite E in G; vm_compute in G; lia.
Qed.
End calls.

(** What the next deed was, and what is left of the schedule. *)
Lemma next_deed i cs y tr d ds rest : fine y -> history i cs y = tr ++ rest -> deeds tr = d :: ds ->
  exists cs1 o cs2 l e tr', let y1 := sys_run cs1 y in let y2 := sys_step y1 (Choice i (AGo o)) in
    cs = cs1 ++ Choice i (AGo o) :: cs2 /\ d = existT e (handle_ev i e o l (shared y1)).1.1 /\
    shared y2 = (handle_ev i e o l (shared y1)).2 /\
    fine y1 /\ fine y2 /\ history i cs2 y2 = tr' ++ rest /\ deeds tr' = ds /\ sys_run cs y = sys_run cs2 y2.
Proof using Hlfs.
  intros Hy Hh Hd. apply deeds_cons in Hd as (t1 & t2 & -> & Hd). rewrite <- app_assoc in Hh. cbn [app] in Hh.
  destruct (history_at _ _ _ _ _ _ Hh) as (cs1 & o & cs2 & e & k & l & -> & H1 & H2). cbn beta zeta in H2.
  destruct H2 as (H2 & H3 & H4 & H5). exists cs1, o, cs2, l, e, t2. cbn beta zeta.
  pose proof (fine_run cs1 y Hy) as Hy1. split_and!; try done; [by apply fine_step|]. by rewrite sys_run_app.
Qed.

Lemma fetched i j d ds off d' : fetches (HFile j) off ds d' -> forall cs y tr rest, fine y -> history i cs y = tr ++ rest -> deeds tr = ds ->
  frozen lfs n0 j d (shared y) -> d' = drop off d.
Proof using Hlfs.
  induction 1 as [off n Hn|off n c ds d' Hc Hf IH]; intros cs y tr rest Hy Hh Hd Hfr;
    destruct (next_deed i cs y tr _ _ rest Hy Hh Hd) as (cs1 & o & cs2 & l & e & tr' & G); cbn beta zeta in G;
    destruct G as (-> & G1 & G2 & G3 & G4 & G5 & G6 & _);
    apply call_eq in G1 as [E G1]; subst e; cbn [eq_rect] in G1;
    pose proof (frozen_stays cs1 y j d Hy Hfr) as Hfr1;
    pose proof (read_shows lfs n0 i o l _ j d off n _ Hfr1 (eq_sym G1)) as Ec.
  - destruct (drop off d) as [|b t] eqn:Ed; [done|]. destruct (N.to_nat n) eqn:En; [lia|done].
  - assert (Hfr2 : frozen lfs n0 j d (shared (sys_step (sys_run cs1 y) (Choice i (AGo o))))).
    { apply (frozen_stays [Choice i (AGo o)] _ j d G3 Hfr1). }
    rewrite (IH cs2 _ tr' rest G4 G5 G6 Hfr2). rewrite <- (take_drop (N.to_nat n) (drop off d)), <- Ec. f_equal.
    rewrite drop_drop. assert (Hl : (length c <= N.to_nat n)%nat) by (rewrite Ec, take_length; lia).
    destruct (decide (length c = N.to_nat n)) as [->|Hne]; [done|].
    assert (length (drop off d) <= length c)%nat.
    { rewrite Ec, take_length in Hne. rewrite Ec, take_length. lia. }
    rewrite drop_length in H0. rewrite !drop_ge by lia. done.
Qed.
End truth.

(** ** Rounds *)
Section rounds.
Context (en : env) (lfs : path) (s0 : fs).
Context (HH : digest (en_hash en)) (Hlfs : Forall plain_name lfs).
Local Notation H := (en_hash en).
Local Notation n0 := (length (inodes s0)).
Context (i : nat).
Local Notation fine := (fine H lfs s0).
Local Notation end_ cs y := (shared (sys_run cs y)).

Lemma later cs y tr d ds rest : fine y -> history i cs y = tr ++ rest -> deeds tr = d :: ds ->
  forall (e : ev) (r : resp e), d = existT e r ->
  exists y1 o l cs2 tr', fine y1 /\ r = (handle_ev i e o l (shared y1)).1.1 /\
    shared (sys_step y1 (Choice i (AGo o))) = (handle_ev i e o l (shared y1)).2 /\
    sys_run cs y = sys_run (Choice i (AGo o) :: cs2) y1 /\
    history i cs2 (sys_step y1 (Choice i (AGo o))) = tr' ++ rest /\ deeds tr' = ds.
Proof using Hlfs.
  intros Hy Hh Hd e r ->. destruct (next_deed H lfs s0 Hlfs i cs y tr _ _ rest Hy Hh Hd) as (cs1 & o & cs2 & l & e' & tr' & G).
  cbn beta zeta in G. destruct G as (-> & G1 & G2 & G3 & G4 & G5 & G6 & G7). apply call_eq in G1 as [E G1]. subst e'. cbn [eq_rect] in G1.
  exists (sys_run cs1 y), o, l, cs2, tr'. split_and!; try done.
Qed.

Lemma stat_found cs y tr ds rest o n u : fine y -> history i cs y = tr ++ rest -> is_oid o ->
  deeds tr = existT (EStat (object_path lfs o)) (IOk (n, u)) :: ds -> exists d, lenN d = n /\ found H lfs s0 (end_ cs y) o d.
Proof using Hlfs.
  intros Hy Hh Ho Hd. destruct (later cs y tr _ _ rest Hy Hh Hd _ _ eq_refl) as (y1 & or & l & cs2 & tr' & G1 & G2 & _ & -> & _).
  pose proof G1 as (_ & Hsh & _). destruct (stat_shows H lfs s0 Hlfs i o Ho or l _ n u Hsh (fine_inv _ _ _ _ G1) (eq_sym G2)) as (d & Hf & Hn).
  exists d. split; [done|]. by apply (object_stays H lfs s0 Hlfs).
Qed.
Lemma checks_found m items ds ls : checks lfs m items ds ls -> Forall (fun x => is_oid x.1) items ->
  forall cs y tr rest, fine y -> history i cs y = tr ++ rest -> deeds tr = ds ->
  forall o n, is_oid o -> o ++ [SP] ++ dec n ++ [SP] ++ there m ++ [NL] ∈ ls -> exists d, lenN d = n /\ found H lfs s0 (end_ cs y) o d.
Proof using Hlfs.
  induction 1 as [|o v n r items ds ls Hn Hc IH]; intros Hall cs y tr rest Hy Hh Hd o' n' Ho' Hin; [by apply elem_of_nil in Hin|].
  apply Forall_cons in Hall as [Ho Hall]. cbn [fst] in Ho.
  destruct (later cs y tr _ _ rest Hy Hh Hd _ _ eq_refl) as (y1 & or & l & cs2 & tr' & G1 & G2 & _ & Ee & G4 & G5).
  apply elem_of_cons in Hin as [Hin|Hin].
  - symmetry in Hin. apply line_one in Hin as [-> [u ->]]; try done. by eapply stat_found.
  - rewrite Ee. apply (IH Hall cs2 _ tr' rest); try done. by apply fine_step.
Qed.
Lemma get_found cs y tr ds rest o h n d : fine y -> history i cs y = tr ++ rest -> is_oid o -> fetches h 0 ds d ->
  deeds tr = existT (EOpen (object_path lfs o)) (IOk h) :: existT (EFstat h) (IOk n) :: ds ->
  n = lenN d /\ found H lfs s0 (end_ cs y) o d.
Proof using Hlfs.
  intros Hy Hh Ho Hf Hd. destruct (later cs y tr _ _ rest Hy Hh Hd _ _ eq_refl) as (y1 & or & l & cs2 & tr' & G1 & G2 & _ & -> & G4 & G5).
  pose proof G1 as (_ & Hsh & _). destruct (open_shows H lfs s0 Hlfs i o Ho or l _ h Hsh (fine_inv _ _ _ _ G1) (eq_sym G2)) as (j & d0 & -> & Hfile & Hfr).
  assert (Hg2 : fine (sys_step y1 (Choice i (AGo or)))) by (by apply fine_step).
  pose proof (frozen_stays H lfs s0 [Choice i (AGo or)] y1 j d0 G1 Hfr) as Hfr2. unfold sys_run in Hfr2. cbn [fold_left] in Hfr2.
  destruct (next_deed H lfs s0 Hlfs i cs2 _ tr' _ _ rest Hg2 G4 G5) as (cs3 & or3 & cs4 & l3 & e3 & tr3 & K).
  cbn beta zeta in K. destruct K as (-> & K1 & K2 & K3 & K4 & K5 & K6 & K7). apply call_eq in K1 as [E K1]. subst e3. cbn [eq_rect] in K1.
  pose proof (frozen_stays H lfs s0 cs3 _ j d0 Hg2 Hfr2) as Hfr3.
  pose proof (fstat_shows lfs n0 i or3 l3 _ j d0 n Hfr3 (eq_sym K1)) as ->.
  pose proof (frozen_stays H lfs s0 [Choice i (AGo or3)] _ j d0 K3 Hfr3) as Hfr4. unfold sys_run in Hfr4 at 1. cbn [fold_left] in Hfr4.
  pose proof (fetched H lfs s0 Hlfs i j d0 ds 0 d Hf cs4 _ tr3 rest K4 K5 K6 Hfr4) as ->. rewrite drop_0.
  split; [done|]. by apply (object_stays H lfs s0 Hlfs).
Qed.
Lemma put_kept cs y tr rest o n u tmp d fd old ws ds' : fine y -> history i cs y = tr ++ rest -> is_oid o ->
  concat ws = old ++ d -> finishing en lfs u o n tmp (old ++ d) ds' (Reply 200 [] BNone) ->
  deeds tr = existT (EMktemp (lfs ++ [bs "incomplete"]) o) (IOk (tmp, fd)) :: written fd ws ++ ds' ->
  n = lenN (old ++ d) /\ kept H lfs (end_ cs y) o (old ++ d).
Proof using Hlfs.
  intros Hy Hh Ho Hw Hf Hd. inversion Hf as [| | | | | | |y' p Hn Hx Hp]; subst. split; [done|].
  assert (Hin : exists t1 t2, tr = t1 ++ existT (ERename tmp (object_path lfs o)) (IOk tt) :: t2).
  { assert (G : existT (ERename tmp (object_path lfs o)) (IOk tt) ∈ deeds tr).
    { rewrite Hd. right. apply elem_of_app. right. right. left. }
    unfold deeds in G. apply elem_of_list_In, filter_In in G as [G _]. apply elem_of_list_In, elem_of_list_split in G. done. }
  destruct (next_deed H lfs s0 Hlfs i cs y tr _ _ rest Hy Hh Hd) as (csm & orm & csn & lm & em & tr' & G).
  cbn beta zeta in G. destruct G as (Ec & G1 & G2 & G3 & G4 & G5 & G6 & G7). apply call_eq in G1 as [E G1]. subst em. cbn [eq_rect] in G1.
  symmetry in G1. apply (mktemp_shows lfs Hlfs i o Ho) in G1 as (c & Hc & Etmp & Hfree).
  set (ym := sys_run csm y) in *.
  assert (Hin' : existT (ERename tmp (object_path lfs o)) (IOk tt) ∈ tr').
  { assert (G : existT (ERename tmp (object_path lfs o)) (IOk tt) ∈ deeds tr').
    { rewrite G6. apply elem_of_app. right. right. left. }
    unfold deeds in G. apply elem_of_list_In, filter_In in G as [G _]. by apply elem_of_list_In. }
  clear Hin. apply elem_of_list_split in Hin' as (t1 & t2 & ->). rewrite <- app_assoc in G5. cbn [app] in G5.
  destruct (history_at _ _ _ _ _ _ G5) as (cs1 & or & cs2 & e & k & l & -> & _ & K). cbn beta zeta in K. destruct K as (_ & K1 & K2 & _).
  apply call_eq in K1 as [E K1]. subst e. cbn [eq_rect] in K1. rewrite G7, sys_run_app.
  set (y1 := sys_step ym (Choice i (AGo orm))) in *. set (yr := sys_run cs1 y1) in *.
  destruct (rename_shows lfs Hlfs i o Ho or l (shared yr) tmp) as (q & j & Hq & Hj); [by rewrite <- K1|].
  assert (Hg1 : fine yr) by (by apply fine_run).
  assert (Hnew : (n0 <= j)%nat).
  { rewrite Etmp in Hq. apply file_at_stays in Hq as [_ Hq].
    2: { apply Forall_app. split; [|by constructor]. apply (inc_stays lfs). by apply plain_stays_all. }
    pose proof (fine_moved H lfs s0 (Choice i (AGo orm) :: cs1) ym G3) as Hm.
    change (sys_run (Choice i (AGo orm) :: cs1) ym) with yr in Hm.
    rewrite Etmp in Hfree. rewrite <- app_assoc in Hfree, Hq.
    pose proof (moved_upload H lfs s0 _ _ c j Hm Hfree Hq) as L1. pose proof (inv_len _ _ _ _ (fine_inv H lfs s0 ym G3)) as L2. lia. }
  rewrite <- K2 in Hj. set (y2 := sys_step yr (Choice i (AGo or))) in *.
  assert (Hg : fine y2) by (by apply fine_step).
  pose proof Hj as Hj'. rewrite object_path_eq in Hj'. destruct (inv_file _ _ _ _ (fine_inv _ _ _ _ Hg) o j Ho Hj') as (x & Hx2 & [Eh|[_ ?]] & _); [|lia].
  eapply (kept_same H lfs _ o (i_data x)); [|done].
  apply (right_stays H lfs s0 Hlfs cs2 y2 o (i_data x) Hg Ho); [by exists j, x|]. by apply hex_of_iff.
Qed.

Lemma round_worn cs y tr rest u m old new : fine y -> history i cs y = tr ++ rest ->
  round en lfs u m old tr new -> worn_round en lfs u m s0 (end_ cs y) old tr new.
Proof using Hlfs.
  intros Hy Hh (is & a & ps & H1 & H2 & H3 & H4 & H5). exists is, a, ps. split_and!; try done.
  intros b ws is' -> Hs Hc. destruct H5 as [[H5 _]|[-> H5]].
  - destruct (responds_200 en lfs _ _ _ _ _ _ _ H5 eq_refl Hs Hc) as (r & Hn & Hr).
    split_and!; [intros o Ho|intros o Ho|intros o Ho|intros Ho]; pose proof (named_one _ _ _ Hn Ho) as E; cbn [SpecOdd.verb] in E;
      destruct Hr as [->|[[x ->]|[(Hp & kvs & Ha & Hb)|(-> & kvs & items & Hb)]]]; try (exfalso; by vm_compute in E);
      try (destruct r; cbn [SpecOdd.verb] in E; try (exfalso; by vm_compute in E); try (exfalso; by destruct Hp)).
    + injection E as ->. cbn [with_args] in Hb. inversion Hb; subst; try done.
      destruct (stat_found cs y tr [] rest o n u0 Hy Hh) as (d & <- & Hk); [done|done|]. by exists kvs, v, d.
    + injection E as ->. cbn [with_args] in Hb. inversion Hb; subst; try done; [by case_decide..|].
      destruct (get_found cs y tr ds rest o h n d Hy Hh) as [-> Hk]; [done..|]. by exists d.
    + inversion Hb; subst; try done. exists ls. split; [done|]. intros o n Hoid Hin. by eapply checks_found.
  - inversion H5; subst; try done;
    repeat match goal with G : SpecOdd.says b ?w |- _ => tryif constr_eq w ws then fail else (apply (says_one _ _ _ Hs) in G; subst w) end;
    repeat match goal with
    | G : SpecOdd.bad_args _ _ _ |- _ => by inversion G; subst
    | G : rp_code (unreadable ?x) = _ |- _ => by destruct x
    end.
    match goal with G : SpecOdd.named (RPut _ _ _) _ |- _ => rename G into Hn end.
    split_and!; [intros o' Ho|intros o' Ho|intros o' Ho|intros Ho]; pose proof (named_one _ _ _ Hn Ho) as E; cbn [SpecOdd.verb] in E; try (exfalso; by vm_compute in E).
    injection E as <-.
    match goal with G : storing _ _ _ _ _ _ _ _ _ _ |- _ => rename G into Hst end.
    inversion Hst as [| | |ds0 e tmp fd cs' ds' a' He Hcs Hf]; subst; try done.
    assert (a = Reply 200 [] BNone) as -> by (by inversion Hf; subst).
    destruct (put_kept cs y tr rest o n u tmp (concat ds0) fd old cs' ds' Hy Hh) as [-> Hk]; [done..|].
    by exists kvs, v, is1, ds0, e.
Qed.
End rounds.

Section session.
Context (en : env) (lfs : path) (ps : list (proc (Z * bytes))) (s0 : fs).
Context (Hsv : workers (en_hash en) lfs ps s0).
Local Notation H := (en_hash en).
Local Notation n0 := (length (inodes s0)).

Lemma worn_inv s : sane s -> Inv H lfs (length (inodes s)) s.
Proof using Type.
  intros Hs. split.
  - intros o j Hio Hj. pose proof (Hs _ _ Hj) as Hl.
    destruct (inodes s !! j) as [x|] eqn:Ex; [|apply lookup_ge_None in Ex; lia].
    exists x. split_and!; [done| |lia]. by right.
  - done.
  - intros p q j x _ _ Hj Hn. apply lookup_lt_Some in Hj. lia.
  - intros c j x _ Hj Hn. apply lookup_lt_Some in Hj. lia.
  - done.
Qed.
Lemma fine_start : fine H lfs s0 (Sys ps s0).
Proof using Hsv.
  destruct Hsv as [HH Hlfs [W S T O L] Hall]. split; [|split_and!].
  - split; [by apply worn_inv|]. intros j p Hp. exists s0. split; [apply rely_refl|].
    apply rg_server; [by apply plain_stays_all|done|done|]. rewrite Forall_lookup in Hall. by eapply Hall.
  - by constructor.
  - intros j p Hp. apply (sv_server H lfs HH). rewrite Forall_lookup in Hall. by eapply Hall.
  - apply rtc_refl.
Qed.

Lemma rounds_worn i u m s old body new : rounds en lfs u m old body new ->
  forall cs y rest, fine H lfs s0 y -> history i cs y = body ++ rest -> s = shared (sys_run cs y) ->
  worn_rounds en lfs u m s0 s old body new.
Proof using Hsv.
  destruct Hsv as [HH Hlfs _ _].
  induction 1 as [|old tr mid tr' new Hr _ IH]; intros cs y rest Hy Hh ->; [constructor|].
  rewrite <- app_assoc in Hh. econstructor.
  - by eapply (round_worn en lfs s0 Hlfs i).
  - destruct (history_split _ _ _ _ _ Hh) as (cs1 & cs2 & -> & H1 & H2).
    eapply (IH cs2 (sys_run cs1 y)); [by apply fine_run|exact H2|]. by rewrite sys_run_app.
Qed.

Lemma c100 fuel v m l i cs : ps !! i = Some (Proc (transfer_main en fuel lfs (GOk (libgit2 v)) (operation m)) l false) ->
  let tr := history i cs (Sys ps s0) in
  let y := sys_run cs (Sys ps s0) in
  (forall e r, existT e r ∈ tr -> introduces lfs e) \/
  exists um u body rest new p, tr = um ++ announced lfs ++ body ++ rest /\ masks (asked v) um u /\
    worn_rounds en lfs u m s0 (shared y) [] body new /\ (flushed ∉ rest \/ farewell rest) /\
    procs y !! i = Some p /\ (l_out l ++ bs "000eversion=1" ++ [NL] ++ bs "0000" ++ spoken body) `prefix_of` l_out (pr_local p).
Proof using Hsv.
  intros Hi tr y. pose proof fine_start as Hg. pose proof Hsv as [HH _ _ _].
  destruct (c_session en fuel lfs v m tr None HH) as [[G _]|(um & u & body & rest & new & E & Hm & Hr & Hf & _)].
  - apply history_exact.
  - by apply (history_calls i cs (Sys ps s0) _ Hi).
  - left. exact G.
  - right. unfold tr in E.
    assert (Hw : sent_well (um ++ announced lfs ++ body) /\ spoken (um ++ announced lfs) = bs "000eversion=1" ++ [NL] ++ bs "0000").
    { assert (sent_well um /\ spoken um = []) as [Hw Hs].
      { unfold masks in Hm. destruct (asked v) as [n|]; [destruct Hm as (_ & r & ->)|destruct Hm as (r & ->)]; split; try done; repeat constructor; by intros []. }
      split; [|unfold spoken in *; rewrite map_app, concat_app, Hs; done]. apply Forall_app. split; [done|]. apply Forall_app.
      split; [|by eapply rounds_sent]. repeat constructor; by intros []. }
    destruct Hw as [Hw Hs].
    pose proof E as E1. replace (um ++ announced lfs ++ body ++ rest) with ((um ++ announced lfs ++ body) ++ rest) in E1 by (by rewrite <- !app_assoc).
    pose proof E as E2. rewrite app_assoc in E2.
    destruct (history_split _ _ _ _ _ E1) as (cs1 & cs2 & Ec & H1 & H2).
    destruct (out_spoken i cs1 (Sys ps s0) _ Hi) as (p1 & Hp1 & Ho1); [by rewrite H1|].
    destruct (out_grows i cs2 (sys_run cs1 (Sys ps s0)) p1 Hp1) as (p & Hp & Ho).
    exists um, u, body, rest, new, p. split; [done|]. split; [done|]. split; [|split; [done|split]].
    + destruct (history_split _ _ _ _ _ E2) as (cs3 & cs4 & Ec4 & H3 & H4).
      eapply (rounds_worn i u m _ [] body new Hr cs4 (sys_run cs3 (Sys ps s0)) rest); [|exact H4|].
      * destruct Hsv as [_ Hlfs _ _]. by apply fine_run.
      * unfold y. by rewrite Ec4, sys_run_app.
    + unfold y. by rewrite Ec, sys_run_app.
    + rewrite Ho1, H1 in Ho. cbn [pr_local] in Ho. unfold spoken in Ho. rewrite app_assoc, map_app, concat_app in Ho.
      fold (spoken (um ++ announced lfs)) in Ho. rewrite Hs, <- !app_assoc in Ho. done.
Qed.
End session.

(** ** Damage neither spreads nor comes back *)
Lemma c100_store H lfs ps s0 : workers H lfs ps s0 -> forall cs1 cs2 o d, is_oid o ->
  let s1 := shared (sys_run cs1 (Sys ps s0)) in
  let s2 := shared (sys_run (cs1 ++ cs2) (Sys ps s0)) in
  (has_file s1 (object_path lfs o) d -> exists d', has_file s2 (object_path lfs o) d' /\ (d' = d \/ hex_of (H d') o)) /\
  (has_file s2 (object_path lfs o) d -> hex_of (H d) o \/ has_file s1 (object_path lfs o) d).
Proof.
  intros Hsv cs1 cs2 o d Ho s1 s2. pose proof Hsv as [_ Hlfs _ _].
  pose proof (fine_start (Env H (fun _ => None) (fun _ => None) 0) lfs ps s0 Hsv) as Hy. cbn [en_hash] in Hy.
  pose proof (fine_run H lfs s0 Hlfs cs1 _ Hy) as Hy1. pose proof (fine_run H lfs s0 Hlfs cs2 _ Hy1) as Hy2.
  pose proof (fine_moved H lfs s0 cs2 _ Hy1) as Hm. rewrite <- sys_run_app in Hm, Hy2. split.
  - by apply (moved_object H lfs s0); [|apply fine_inv..|].
  - by apply (moved_whence H lfs s0); [|apply fine_inv..|].
Qed.

Lemma sv_workers H lfs ps s0 : servers H lfs ps s0 -> workers H lfs ps s0.
Proof. by intros [? ? ? _ ?]. Qed.
