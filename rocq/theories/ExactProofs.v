(** The objects at the end are those of the beginning and those brought: proofs for
    Props_Exact.v. *)
From Verif Require Import Bytes ByteFacts Err FS Prog Pktline Args Local Processor Transfer Wp Rg
  Spec SpecStore SpecServer SpecLock SpecFrame SpecTalk SpecPerm SpecInput SpecTogether SpecStart SpecRound SpecTruth FsFacts PktFacts ServerEv PktProofs IoFacts TextProofs ObjProofs StoreProofs
  TogetherProofs TogetherFacts RoundFacts TruthProofs SpecWorn WornProofs SpecPrune PruneProofs SpecWho WhoProofs SpecComes ComesProofs SpecLedger LedgerProofs.
From Verif Require Import Shape.
From Verif Require Session.

Section exact.
Context (H : bytes -> bytes) (lfs : path) (ps : list (proc (Z * bytes))) (s0 : fs) (Hwk : workers H lfs ps s0).
Local Existing Instance may_be.
Local Existing Instance these.
Local Notation obj o := (expected_path lfs o).
Implicit Types y : sys (Z * bytes).

Lemma crew_company : company H lfs ps s0.
Proof using Hwk. destruct Hwk as [? ? ? Hall]. constructor; try done. eapply Forall_impl; [exact Hall|]. intros p Hp. by left. Qed.

(** No server removes an object. *)
Lemma never_removed cs1 cs2 o : ~ removed lfs ps cs2 (sys_run cs1 (Sys ps s0)) o.
Proof using Hwk.
  intros (i & p & Hi & _ & Hin). destruct Hwk as [HH _ _ Hall].
  assert (Hin' : existT (EUnlink (object_path lfs o)) (IOk tt) ∈ history i (cs1 ++ cs2) (Sys ps s0)) by (rewrite history_app; apply elem_of_app; by right).
  pose proof (history_calls i (cs1 ++ cs2) (Sys ps s0) p Hi) as Hc. rewrite Forall_lookup in Hall.
  pose proof (calls_all_ev _ _ _ _ (lv_server H lfs _ (Hall i p Hi)) Hc) as F. rewrite Forall_forall in F.
  destruct (F _ Hin') as [[q E]|[[q E]|(o' & sfx & _ & E)]]; apply (f_equal length) in E; unfold object_path, lock_name in E;
    rewrite !app_length in E; simpl in E; lia.
Qed.

(** What is put in its place is there then. *)
Lemma step_placed y c i o : fine H lfs ps s0 y -> is_oid o -> placed lfs o (made i y c) ->
  exists d, has_file (shared (sys_step y c)) (object_path lfs o) d.
Proof using Hwk.
  intros Hy Ho [a Ha]. pose proof Hwk as [_ Hlfs _ _]. pose proof (fine_step H lfs ps s0 Hlfs y c Hy) as Hy'. pose proof (fine_inv _ _ _ _ _ Hy') as HI'.
  assert (Hn : exists j, nodes (shared (sys_step y c)) !! obj o = Some (NFile j)).
  { unfold made in Ha. destruct (c_act c) as [or|] eqn:Ec; [|by apply elem_of_nil in Ha]. destruct (decide (c_pid c = i)) as [E|]; [|by apply elem_of_nil in Ha].
    destruct (procs y !! i) as [[[x|f|e k] l []]|] eqn:Ei; try (by apply elem_of_nil in Ha). apply elem_of_list_singleton in Ha.
    unfold sys_step. rewrite E, Ei. unfold proc_step. cbn [pr_dead pr_prog pr_local]. rewrite Ec.
    assert (Ee : e = ERename a (object_path lfs o)) by (by injection Ha). subst e.
    apply (f_equal done_right) in Ha. revert Ha. cbn [handle_ev]. unfold faulty, with_l. destruct (o_fault or) as [x|]; [done|].
    unfold fs_rename. rewrite object_path_eq. destruct (file_at (shared y) a) as [x|[qa k']]; [done|].
    destruct (resolve (shared y) (obj o)) as [x|qb] eqn:Eb; [done|].
    apply resolve_stays in Eb as ->; [|by apply obj_stays; [apply plain_stays_all|]].
    destruct (node_at (shared y) (obj o)) as [[|k2]|]; [done|..]; intros _; exists k'; cbn [fst snd shared nodes set_nodes]; apply lookup_insert. }
  destruct Hn as [j Hj]. destruct (inv_file _ _ _ _ HI' o j Ho Hj) as (x & Hx & _). exists (i_data x), j, x. by rewrite object_path_eq.
Qed.

Lemma run_placed cs i o : is_oid o -> forall y, fine H lfs ps s0 y -> placed lfs o (history i cs y) ->
  (exists d, has_file (shared (sys_run cs y)) (object_path lfs o) d) \/ removed lfs ps cs y o.
Proof using Hwk.
  intros Ho. pose proof Hwk as [_ Hlfs _ _]. induction cs as [|c cs IH]; intros y Hy [a Ha]; [by apply elem_of_nil in Ha|].
  pose proof (fine_step H lfs ps s0 Hlfs y c Hy) as Hy'. cbn [history] in Ha. apply elem_of_app in Ha as [Ha|Ha].
  - destruct (step_placed y c i o Hy Ho) as [d Hd]; [by exists a|].
    destruct (run_object H lfs ps s0 Hlfs cs o Ho _ d Hy' Hd) as [(d' & Hd' & _)|G]; [left; by exists d'|right; by apply removed_cons].
  - destruct (IH _ Hy') as [G|G]; [by exists a|by left|right; by apply removed_cons].
Qed.

Lemma exactly cs1 cs2 o : is_oid o ->
  let y1 := sys_run cs1 (Sys ps s0) in
  (exists d, has_file (shared (sys_run cs2 y1)) (object_path lfs o) d) <->
  (exists d, has_file (shared y1) (object_path lfs o) d) \/ exists i, placed lfs o (history i cs2 y1).
Proof using Hwk.
  intros Ho y1. pose proof Hwk as [_ Hlfs _ _]. pose proof crew_company as Hco. split.
  - intros [d Hd]. destruct (c103_whence H lfs ps s0 cs1 cs2 o d Hco Ho Hd) as [G|G]; [left; by exists d|by right].
  - assert (Hy : fine H lfs ps s0 y1).
    { pose proof (fine_start (Env H (fun _ => None) (fun _ => None) 0) lfs ps s0 Hco) as Hy. cbn [en_hash] in Hy. by apply fine_run. }
    intros [[d Hd]|[i Hp]].
    + destruct (run_object H lfs ps s0 Hlfs cs2 o Ho _ d Hy Hd) as [(d' & Hd' & _)|G]; [by exists d'|by apply never_removed in G].
    + destruct (run_placed cs2 i o Ho _ Hy Hp) as [G|G]; [done|by apply never_removed in G].
Qed.
End exact.

Lemma brought_placed H lfs o tr : brought H lfs o tr -> placed lfs o tr.
Proof.
  intros [old t1 t t2 -> [a Ha] _ _|old t1 t t2 x -> [a Ha] _ _ _|t1 t -> [a Ha] _]; exists a; rewrite !elem_of_app; auto.
Qed.
Lemma exactly_brought H lfs ps s0 cs o : crew H lfs ps s0 -> is_oid o ->
  (exists d, has_file (shared (sys_run cs (Sys ps s0))) (object_path lfs o) d) <->
  (exists d, has_file s0 (object_path lfs o) d) \/
  exists i p, ps !! i = Some p /\ serves H lfs Upload p /\ brought H lfs o (history i cs (Sys ps s0)).
Proof.
  intros [Hwk Hall] Ho. split.
  - intros [d Hd]. destruct (c103 H lfs ps s0 cs o d) as [G|G]; [|done|done|left; by exists d|by right].
    split; [by apply crew_company|]. eapply Forall_impl; [exact Hall|]. intros p Hp. by left.
  - intros [G|(i & p & _ & _ & G)]; apply (exactly H lfs ps s0 Hwk [] cs o Ho); [by left|right]. exists i. by eapply brought_placed.
Qed.
Lemma same_objects H lfs ps ps' s0 cs cs' :
  workers H lfs ps s0 -> workers H lfs ps' s0 -> store_ok H lfs s0 ->
  (forall o, is_oid o ->
    (exists i, placed lfs o (history i cs (Sys ps s0))) <-> (exists i, placed lfs o (history i cs' (Sys ps' s0)))) ->
  let s1 := shared (sys_run cs (Sys ps s0)) in
  let s2 := shared (sys_run cs' (Sys ps' s0)) in
  forall o, is_oid o ->
    ((exists d, has_file s1 (object_path lfs o) d) <-> (exists d, has_file s2 (object_path lfs o) d)) /\
    (forall d1 d2, has_file s1 (object_path lfs o) d1 -> has_file s2 (object_path lfs o) d2 -> H d1 = H d2).
Proof.
  intros Hw Hw' Hs Hp s1 s2 o Ho. split.
  - pose proof (exactly H lfs ps s0 Hw [] cs o Ho) as E. pose proof (exactly H lfs ps' s0 Hw' [] cs' o Ho) as E'.
    cbn zeta in E, E'. cbn [sys_run] in E, E'. unfold s1, s2. rewrite E, E'. cbn [shared]. by rewrite (Hp o Ho).
  - assert (G : forall qs ks d, workers H lfs qs s0 -> has_file (shared (sys_run ks (Sys qs s0))) (object_path lfs o) d -> hex_of (H d) o).
    { intros qs ks d Hq Hd. destruct (c101_store H lfs qs s0 (crew_company H lfs qs s0 Hq) [] ks o d Ho) as [_ F].
      destruct (F Hd) as [?|F']; [done|]. by apply Hs. }
    intros d1 d2 H1 H2. pose proof (G _ _ _ Hw H1) as E1. pose proof (G _ _ _ Hw' H2) as E2. by eapply Session.hex_of_inj.
Qed.

(** ** Beside programs that remove objects *)
Section now.
Context (H : bytes -> bytes) (lfs : path) (ps : list (proc (Z * bytes))) (s0 : fs) (Hlfs : Forall plain_name lfs).
Local Existing Instance may_be.
Local Existing Instance these.
Local Notation obj o := (expected_path lfs o).
Local Notation there s o := (exists d, has_file s (object_path lfs o) d).
Implicit Types y : sys (Z * bytes).

Lemma step_put y c i o d : fine H lfs ps s0 y -> is_oid o -> d ∈ made i y c -> put lfs o d -> there (shared (sys_step y c)) o.
Proof using Hlfs.
  intros Hy Ho Hd [a Ea]. pose proof (fine_step H lfs ps s0 Hlfs y c Hy) as Hy'. pose proof (fine_inv _ _ _ _ _ Hy') as HI'.
  assert (Hn : exists j, nodes (shared (sys_step y c)) !! obj o = Some (NFile j)).
  { destruct (made_call y c i d Hd) as (or & e & k & l & _ & _ & _ & E & ->). rewrite Ea in E.
    assert (Ee : e = ERename a (object_path lfs o)) by (by injection E). subst e. apply (f_equal done_right) in E. revert E.
    cbn [handle_ev]. unfold faulty, with_l. destruct (o_fault or) as [x|]; [done|].
    unfold fs_rename. rewrite object_path_eq. destruct (file_at (shared y) a) as [x|[qa k']]; [done|].
    destruct (resolve (shared y) (obj o)) as [x|qb] eqn:Eb; [done|].
    apply resolve_stays in Eb as ->; [|by apply obj_stays; [apply plain_stays_all|]].
    destruct (node_at (shared y) (obj o)) as [[|k2]|]; [done|..]; intros _; exists k'; cbn [fst snd shared nodes set_nodes]; apply lookup_insert. }
  destruct Hn as [j Hj]. destruct (inv_file _ _ _ _ HI' o j Ho Hj) as (x & Hx & _). exists (i_data x), j, x. by rewrite object_path_eq.
Qed.
Lemma step_taken y c i o d : is_oid o -> d ∈ made i y c -> taken lfs o d -> ~ there (shared (sys_step y c)) o.
Proof using Hlfs.
  intros Ho Hd Ed (d' & j & x & Hj & _). revert Hj. unfold taken in Ed.
  destruct (made_call y c i d Hd) as (or & e & k & l & _ & _ & _ & E & ->). rewrite Ed in E.
  assert (Ee : e = EUnlink (object_path lfs o)) by (by injection E). subst e. apply (f_equal gone_right) in E. revert E.
  cbn [handle_ev]. unfold faulty, with_l. destruct (o_fault or) as [z|]; [done|]. rewrite object_path_eq.
  unfold fs_unlink. destruct (file_at (shared y) (obj o)) as [z|[qa k']] eqn:Ef; [done|]. intros _.
  pose proof (file_resolve _ _ _ _ Ef) as Er. apply resolve_stays in Er as ->; [|by apply obj_stays; [apply plain_stays_all|]].
  cbn [fst snd nodes set_nodes log]. by rewrite lookup_delete.
Qed.
Lemma taken_there y c i o d : fine H lfs ps s0 y -> is_oid o -> d ∈ made i y c -> taken lfs o d -> there (shared y) o.
Proof using Hlfs.
  intros Hy Ho Hd Ed. unfold taken in Ed. pose proof (fine_inv _ _ _ _ _ Hy) as HI.
  destruct (made_call y c i d Hd) as (or & e & k & l & _ & _ & _ & E & _). rewrite Ed in E.
  assert (Ee : e = EUnlink (object_path lfs o)) by (by injection E). subst e. apply (f_equal gone_right) in E. revert E.
  cbn [handle_ev]. unfold faulty, with_l. destruct (o_fault or) as [z|]; [done|]. rewrite object_path_eq.
  unfold fs_unlink. destruct (file_at (shared y) (obj o)) as [z|[qa k']] eqn:Ef; [done|]. intros _.
  pose proof (file_resolve _ _ _ _ Ef) as Er. apply resolve_stays in Er as Eq; [|by apply obj_stays; [apply plain_stays_all|]].
  assert (Hn : nodes (shared y) !! obj o = Some (NFile k')).
  { revert Ef. unfold file_at. rewrite Er, Eq. unfold node_at.
    assert (Hne : obj o <> []) by (unfold expected_path; by destruct lfs). destruct (obj o) as [|n q]; [done|].
    destruct (nodes (shared y) !! (n :: q)) as [[|]|]; by intros [= ->]. }
  destruct (inv_file _ _ _ _ HI o k' Ho Hn) as (x & Hx & _). exists (i_data x), k', x. done.
Qed.
Lemma step_there y c o : fine H lfs ps s0 y -> is_oid o ->
  there (shared (sys_step y c)) o <->
  Exists (put lfs o) (made (c_pid c) y c) \/ there (shared y) o /\ Forall (fun d => ~ taken lfs o d) (made (c_pid c) y c).
Proof using Hlfs.
  intros Hy Ho. split.
  - intros Ht. assert (Hu : Forall (fun d => ~ taken lfs o d) (made (c_pid c) y c)).
    { apply Forall_forall. intros d Hd Hx. by apply (step_taken y c _ o d Ho Hd Hx). }
    destruct Ht as [d Hd]. destruct (step_whence H lfs ps s0 Hlfs y c o d Hy Ho Hd) as [G|(i & a & Ha)]; [right; split; [by exists d|done]|].
    left. apply Exists_exists. eexists. split; [|by exists a]. by rewrite <- (made_alone y c i _ Ha).
  - intros [G|[[d Hd] Hu]].
    + apply Exists_exists in G as (d & Hd & Hp). by eapply step_put.
    + destruct (step_object H lfs ps s0 Hlfs y c o d Hy Ho Hd) as [(d' & Hd' & _)|(i & p & _ & _ & Hin)]; [by exists d'|]. exfalso.
      cbn [history] in Hin. rewrite app_nil_r in Hin. rewrite (made_alone y c i _ Hin) in Hin. rewrite Forall_forall in Hu. by apply (Hu _ Hin).
Qed.
Lemma run_there cs o : is_oid o -> forall y, fine H lfs ps s0 y ->
  there (shared (sys_run cs y)) o <-> still_there lfs o (there (shared y) o) (everyone cs y).
Proof using Hlfs.
  intros Ho. induction cs as [|c cs IH]; intros y Hy.
  - cbn [everyone]. change (sys_run [] y) with y. split; [intros G; left; split; [done|apply Forall_nil_2]|].
    intros [[G _]|(ta & d & tb & E & _)]; [done|]. by destruct ta.
  - change (sys_run (c :: cs) y) with (sys_run cs (sys_step y c)). cbn [everyone]. rewrite IH by (by apply fine_step). unfold still_there. rewrite last_app.
    apply last_iff. by rewrite step_there, last_made.
Qed.
End now.
Lemma c108_now H lfs ps s0 cs1 cs2 o : company H lfs ps s0 -> is_oid o ->
  let y1 := sys_run cs1 (Sys ps s0) in
  (exists d, has_file (shared (sys_run cs2 y1)) (object_path lfs o) d) <->
  still_there lfs o (exists d, has_file (shared y1) (object_path lfs o) d) (everyone cs2 y1).
Proof.
  intros Hco Ho y1. pose proof Hco as [_ Hlfs _ _].
  pose proof (fine_start (Env H (fun _ => None) (fun _ => None) 0) lfs ps s0 Hco) as Hy. cbn [en_hash] in Hy.
  apply (run_there H lfs ps s0 Hlfs cs2 o Ho). by apply fine_run.
Qed.
Lemma c108_alternate H lfs ps s0 cs1 c cs2 c' o i j d d' : company H lfs ps s0 -> is_oid o ->
  let y1 := sys_run cs1 (Sys ps s0) in
  let y2 := sys_run cs2 (sys_step y1 c) in
  d ∈ made i y1 c -> taken lfs o d -> d' ∈ made j y2 c' -> taken lfs o d' ->
  exists k, placed lfs o (history k cs2 (sys_step y1 c)).
Proof.
  intros Hco Ho y1 y2 Hd Hx Hd' Hx'. pose proof Hco as [_ Hlfs _ _].
  pose proof (fine_start (Env H (fun _ => None) (fun _ => None) 0) lfs ps s0 Hco) as Hy. cbn [en_hash] in Hy.
  assert (E1 : sys_step y1 c = sys_run (cs1 ++ [c]) (Sys ps s0)) by (unfold y1, sys_run; by rewrite fold_left_app).
  assert (Hy2 : fine H lfs ps s0 y2) by (unfold y2; rewrite E1; apply fine_run; [done|]; by apply fine_run).
  destruct (taken_there H lfs ps s0 Hlfs y2 c' j o d' Hy2 Ho Hd' Hx') as [b Hb].
  unfold y2 in Hb. rewrite E1 in Hb. rewrite E1.
  destruct (c103_whence H lfs ps s0 (cs1 ++ [c]) cs2 o b Hco Ho Hb) as [G|G]; [|done]. exfalso. rewrite <- E1 in G.
  apply (step_taken lfs Hlfs y1 c i o d Ho Hd Hx). by exists b.
Qed.
