(** The calls that make and remove locks, in order: proofs for Props_Ledger.v. *)
From Verif Require Import Bytes ByteFacts Err FS Prog Pktline Args Local Processor Transfer Wp Rg
  Spec SpecStore SpecServer SpecLock SpecFrame SpecTalk SpecPerm SpecInput SpecTogether SpecStart SpecRound SpecTruth FsFacts PktFacts ServerEv PktProofs IoFacts TextProofs ObjProofs StoreProofs
  TogetherProofs TogetherFacts RoundFacts TruthProofs SpecWorn WornProofs SpecPrune PruneProofs SpecWho WhoProofs SpecComes ComesProofs SpecLedger.
From Verif Require SpecHeld.
From Verif Require Import Shape.

Section ledger.
Context (H : bytes -> bytes) (lfs : path) (HH : digest H) (Hlfs : Forall plain_name lfs).
Local Notation ln p := (lock_name H lfs p).
Implicit Types y : sys (Z * bytes).

Lemma made_call y c i d : d ∈ made i y c -> exists o e k l, c_pid c = i /\ c_act c = AGo o /\ procs y !! i = Some (Proc (Vis e k) l false) /\
  d = existT e (handle_ev i e o l (shared y)).1.1 /\ shared (sys_step y c) = (handle_ev i e o l (shared y)).2.
Proof using Type.
  unfold made. destruct (c_act c) as [o|] eqn:Ec; [|by intros ?%elem_of_nil]. destruct (decide (c_pid c = i)) as [E|]; [|by intros ?%elem_of_nil].
  destruct (procs y !! i) as [[[x|f|e k] l []]|] eqn:Ei; try (by intros ?%elem_of_nil). intros ->%elem_of_list_singleton.
  exists o, e, k, l. split_and!; try done. unfold sys_step. rewrite E, Ei. unfold proc_step. cbn [pr_dead pr_prog pr_local]. rewrite Ec.
  by destruct (handle_ev i e o l (shared y)) as [[r l'] s'].
Qed.

(** A lock is made where there was none, and removed where there was one. *)
Lemma step_linked y c i p d : d ∈ made i y c -> linked H lfs p d ->
  nodes (shared y) !! ln p = None /\ is_locked H lfs p (shared (sys_step y c)).
Proof using HH Hlfs.
  intros Hd [a Ed]. destruct (made_call y c i d Hd) as (o & e & k & l & _ & _ & _ & E & ->). rewrite Ed in E.
  assert (Ee : e = ELink a (ln p)) by (by injection E). subst e. apply (f_equal linked_right) in E. revert E.
  cbn [handle_ev]. unfold faulty, with_l. destruct (o_fault o) as [x|]; [done|].
  unfold fs_link. destruct (file_at (shared y) a) as [x|[qa k']]; [done|].
  destruct (resolve (shared y) (ln p)) as [x|qb] eqn:Eb; [done|].
  apply resolve_stays in Eb as ->; [|by apply ln_stays].
  destruct (node_at (shared y) (ln p)) as [n|] eqn:En; [done|]. intros _. split.
  - revert En. unfold node_at. by destruct (ln p).
  - exists k'. cbn [fst snd nodes set_nodes log]. apply lookup_insert.
Qed.
Lemma step_unlinked y c i p d : d ∈ made i y c -> unlinked H lfs p d ->
  is_locked H lfs p (shared y) /\ nodes (shared (sys_step y c)) !! ln p = None.
Proof using HH Hlfs.
  intros Hd Ed. unfold unlinked in Ed. destruct (made_call y c i d Hd) as (o & e & k & l & _ & _ & _ & E & ->). rewrite Ed in E.
  assert (Ee : e = EUnlink (ln p)) by (by injection E). subst e. apply (f_equal gone_right) in E. revert E.
  cbn [handle_ev]. unfold faulty, with_l. destruct (o_fault o) as [x|]; [done|].
  unfold fs_unlink. destruct (file_at (shared y) (ln p)) as [x|[qa k']] eqn:Ef; [done|]. intros _.
  pose proof (file_resolve _ _ _ _ Ef) as Er. apply resolve_stays in Er as ->; [|by apply ln_stays]. split.
  - exists k'. revert Ef. unfold file_at. destruct (resolve (shared y) (ln p)) as [|q]; [done|].
    destruct (node_at (shared y) q) as [[|j]|] eqn:En; try done. intros [= -> ->]. revert En. unfold node_at. by destruct (ln p).
  - cbn [fst snd nodes set_nodes log]. apply lookup_delete.
Qed.
Lemma made_alone y c i d : d ∈ made i y c -> i = c_pid c.
Proof using Type. intros Hd. by destruct (made_call y c i d Hd) as (? & ? & ? & ? & <- & _). Qed.
Lemma locked_not s p : is_locked H lfs p s -> nodes s !! ln p <> None.
Proof using Type. by intros [j ->]. Qed.
Local Notation un p := (fun d => ~ unlinked H lfs p d).
Lemma step_still y c p : (forall i e r, existT e r ∈ made i y c -> shapely lfs e /\ lockly H lfs e) ->
  is_locked H lfs p (shared (sys_step y c)) <->
  Exists (linked H lfs p) (made (c_pid c) y c) \/ is_locked H lfs p (shared y) /\ Forall (un p) (made (c_pid c) y c).
Proof using HH Hlfs.
  intros Hm. split.
  - intros Hl. assert (Hu : Forall (un p) (made (c_pid c) y c)).
    { apply Forall_forall. intros d Hd Hx. destruct (step_unlinked y c _ p d Hd Hx) as [_ G]. by apply locked_not in Hl. }
    destruct Hl as [j Hj]. destruct (there_or_not (shared y) (ln p) j) as [G|G]; [right; split; [by exists j|done]|].
    destruct (step_lock H lfs HH Hlfs y c p j Hm) as [G1 _]. destruct (G1 G Hj) as (i & d & Ed & Hd).
    left. apply Exists_exists. exists d. split; [|done]. assert (Hin : d ∈ made i y c) by (rewrite Ed; by left).
    by rewrite <- (made_alone y c i d Hin).
  - intros [G|[[j Hj] Hu]].
    + apply Exists_exists in G as (d & Hd & Hl). by destruct (step_linked y c _ p d Hd Hl).
    + exists j. destruct (there_or_not (shared (sys_step y c)) (ln p) j) as [G|G]; [done|]. exfalso.
      destruct (step_lock H lfs HH Hlfs y c p j Hm) as [_ G2]. destruct (G2 Hj G) as (i & d & Ed & Hd).
      assert (Hin : d ∈ made i y c) by (rewrite Ed; by left). rewrite (made_alone y c i d Hin) in Hin.
      rewrite Forall_forall in Hu. by apply (Hu d).
Qed.

Lemma last_app mk un B a b : last_of mk un B (a ++ b) <-> last_of mk un (last_of mk un B a) b.
Proof using Type.
  unfold last_of. split.
  - intros [[HB [Ha Hb]%Forall_app]|(ta & d & tb & E & Hd & Ht)]; [left; split; [by left|done]|].
    apply app_eq_app in E as (z & [[-> E]|[-> ->]]).
    + destruct z as [|d' z]; [right; exists [], d, tb; by simpl in *|]. injection E as <- ->. apply Forall_app in Ht as [H1 H2].
      left. split; [right; by exists ta, d, z|done].
    + right. by exists z, d, tb.
  - intros [[[[HB Ha]|(ta & d & tb & -> & Hd & Ht)] Hb]|(ta & d & tb & -> & Hd & Ht)].
    + left. split; [done|]. by apply Forall_app.
    + right. exists ta, d, (tb ++ b). rewrite <- app_assoc. split_and!; [done..|]. by apply Forall_app.
    + right. exists (a ++ ta), d, tb. by rewrite <- app_assoc.
Qed.
Lemma last_iff mk un B B' tr : (B <-> B') -> last_of mk un B tr <-> last_of mk un B' tr.
Proof using Type. intros E. unfold last_of. by rewrite E. Qed.
Lemma last_made mk un B y c :
  last_of mk un B (made (c_pid c) y c) <-> Exists mk (made (c_pid c) y c) \/ B /\ Forall (fun d => ~ un d) (made (c_pid c) y c).
Proof using Type.
  unfold last_of. rewrite (Logic.or_comm (B /\ _)). apply or_iff_compat_r. rewrite Exists_exists. split.
  - intros (ta & d & tb & E & Hd & _). exists d. split; [|done]. rewrite E. apply elem_of_app. right. left.
  - intros (d & Hin & Hd). assert (E : made (c_pid c) y c = [d]).
    { revert Hin. unfold made. destruct (c_act c); [|by intros ?%elem_of_nil]. destruct (decide _) as [Ec|]; [|by intros ?%elem_of_nil].
      destruct (procs y !! c_pid c) as [[[x|f|e k] l []]|]; try (by intros ?%elem_of_nil). by intros ->%elem_of_list_singleton. }
    exists [], d, []. rewrite E. split_and!; [done..|]. apply Forall_nil_2.
Qed.
Lemma run_still cs p : forall y, (forall i e r, existT e r ∈ history i cs y -> shapely lfs e /\ lockly H lfs e) ->
  is_locked H lfs p (shared (sys_run cs y)) <-> still H lfs p (is_locked H lfs p (shared y)) (everyone cs y).
Proof using HH Hlfs.
  induction cs as [|c cs IH]; intros y Hm.
  - cbn [everyone]. change (sys_run [] y) with y. split; [intros G; left; split; [done|apply Forall_nil_2]|].
    intros [[G _]|(ta & d & tb & E & _)]; [done|]. by destruct ta.
  - change (sys_run (c :: cs) y) with (sys_run cs (sys_step y c)). cbn [everyone]. rewrite IH. unfold still. rewrite last_app.
    2: { intros i e r Hin. apply (Hm i e r). cbn [history]. apply elem_of_app. by right. }
    apply last_iff. rewrite step_still, last_made; [done|].
    intros i e r Hin. apply (Hm i e r). cbn [history]. apply elem_of_app. by left.
Qed.
End ledger.

(** ** Any servers *)
Section all.
Context (H : bytes -> bytes) (lfs : path) (ps : list (proc (Z * bytes))) (s0 : fs) (Hcr : crew H lfs ps s0).
Local Notation ln p := (lock_name H lfs p).
Local Notation y0 := (Sys ps s0).

Lemma c106_now cs1 cs2 p :
  is_locked H lfs p (shared (sys_run cs2 (sys_run cs1 y0))) <->
  still H lfs p (is_locked H lfs p (shared (sys_run cs1 y0))) (everyone cs2 (sys_run cs1 y0)).
Proof using Hcr.
  pose proof Hcr as [[HH Hlfs _ _] _]. apply run_still; [done..|]. apply (crew_ev H lfs ps s0 Hcr cs1 cs2).
Qed.

Lemma c106_gap cs1 cs2 p : is_locked H lfs p (shared (sys_run cs1 y0)) -> nodes (shared (sys_run cs2 (sys_run cs1 y0))) !! ln p = None ->
  by_server H lfs ps s0 cs1 cs2 (unlinked H lfs p) (fun en => unlocked_as en p).
Proof using Hcr. intros [j Hj] Hn. eapply (c104 H lfs ps s0 Hcr cs1 cs2 p j); [done|]. by rewrite Hn. Qed.
Lemma c106_gap' cs1 cs2 p : nodes (shared (sys_run cs1 y0)) !! ln p = None -> is_locked H lfs p (shared (sys_run cs2 (sys_run cs1 y0))) ->
  by_server H lfs ps s0 cs1 cs2 (linked H lfs p) (fun en => locked_as en p).
Proof using Hcr. intros Hn [j Hj]. eapply (c104 H lfs ps s0 Hcr cs1 cs2 p j); [|done]. by rewrite Hn. Qed.

Lemma run_snoc cs c y : sys_run (cs ++ [c]) y = sys_step (sys_run cs y) c :> sys (Z * bytes).
Proof using Type. revert y. induction cs as [|c' cs IH]; intros y; [done|]. apply IH. Qed.
Lemma c106_alternate cs1 c cs2 c' p i j d d' :
  let y1 := sys_run cs1 y0 in let y2 := sys_run cs2 (sys_step y1 c) in
  d ∈ made i y1 c -> d' ∈ made j y2 c' ->
  (linked H lfs p d -> linked H lfs p d' -> by_server H lfs ps s0 (cs1 ++ [c]) cs2 (unlinked H lfs p) (fun en => unlocked_as en p)) /\
  (unlinked H lfs p d -> unlinked H lfs p d' -> by_server H lfs ps s0 (cs1 ++ [c]) cs2 (linked H lfs p) (fun en => locked_as en p)).
Proof using Hcr.
  intros y1 y2 Hd Hd'. pose proof Hcr as [[HH Hlfs _ _] _]. split; intros Hl Hl'.
  - apply c106_gap; rewrite run_snoc; [by destruct (step_linked H lfs HH Hlfs y1 c i p d Hd Hl)|by destruct (step_linked H lfs HH Hlfs y2 c' j p d' Hd' Hl')].
  - apply c106_gap'; rewrite run_snoc; [by destruct (step_unlinked H lfs HH Hlfs y1 c i p d Hd Hl)|by destruct (step_unlinked H lfs HH Hlfs y2 c' j p d' Hd' Hl')].
Qed.
End all.

Lemma turn_first {A} i P Ps cs (y : sys A) : SpecHeld.in_turn i cs y (P :: Ps) ->
  exists t c t', cs = t ++ c :: t' /\ P (shared (sys_run t y)) (shared (sys_run (t ++ [c]) y)).
Proof.
  remember (P :: Ps) as Q eqn:E. induction 1 as [|c cs y P' Ps' Hc HP _ _|c cs y Ps' _ IH]; [done|..].
  - injection E as -> ->. by exists [], c, cs.
  - destruct (IH E) as (t & c' & t' & -> & G). by exists (c :: t), c', t'.
Qed.
Lemma run_app cs cs' (y : sys (Z * bytes)) : sys_run (cs ++ cs') y = sys_run cs' (sys_run cs y).
Proof. revert y. induction cs as [|c cs IH]; intros y; [done|]. apply IH. Qed.
Lemma c106_clients en en' lfs ps s0 c1 ca cb cc i j p a b : en_hash en = en_hash en' ->
  crew (en_hash en) lfs ps s0 ->
  SpecHeld.granted en lfs i ca (sys_run c1 (Sys ps s0)) p a ->
  SpecHeld.granted en' lfs j cc (sys_run (c1 ++ ca ++ cb) (Sys ps s0)) p b ->
  exists t t' u u', ca = t ++ t' /\ cc = u ++ u' /\
    by_server (en_hash en) lfs ps s0 (c1 ++ t) (t' ++ cb ++ u) (unlinked (en_hash en) lfs p) (fun en => unlocked_as en p).
Proof.
  intros Een Hcr (x & who & _ & Ha) (x' & who' & _ & Hb).
  apply turn_first in Ha as (t & c & t' & -> & k & _ & _ & Ha). apply turn_first in Hb as (u & c' & u' & -> & k' & _ & Hb & _).
  rewrite <- run_app in Ha. rewrite <- run_app in Hb.
  exists (t ++ [c]), t', u, (c' :: u'). split_and!; [by rewrite <- app_assoc|done|].
  apply c106_gap; [done|exists k; exact Ha|]. rewrite <- run_app.
  replace ((c1 ++ t ++ [c]) ++ t' ++ cb ++ u) with ((c1 ++ (t ++ c :: t') ++ cb) ++ u) by (rewrite <- !app_assoc; done).
  unfold SpecRound.lock_at in Hb. rewrite <- Een in Hb. exact Hb.
Qed.
