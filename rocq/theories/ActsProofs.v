(** Proofs about the processes of git at and git recent-refs. *)
From Verif Require Import Bytes Err FS Prog Local Transfer GitAt RecentRefs Pager SpecGit GitProofs Main SpecMain MainProofs Acts SpecActs.

Lemma after_some a k l f : after a k = Some (l, f) <-> exists l', k = Some (l', f) /\ l = a :: l'.
Proof.
  unfold after. destruct k as [[l0 f0]|]; cbn; split.
  - intros [= <- <-]. by exists l0.
  - by intros (l' & [= -> ->] & ->).
  - done.
  - by intros (l' & ? & _).
Qed.
Definition shifted (ws : nat -> wres) (i : nat) : nat -> wres := fun j => ws (i + j)%nat.
Lemma done_shift ws i n : ws i = WDone -> done n (shifted ws (S i)) -> done (S n) (shifted ws i).
Proof.
  intros H G [|j] Hj; unfold shifted; [by rewrite Nat.add_0_r|]. replace (i + S j)%nat with (S i + j)%nat by lia. apply G. lia.
Qed.
Lemma ends_cons ws i s names f : ws i = WDone -> ends (shifted ws (S i)) names f -> ends (shifted ws i) (s :: names) f.
Proof.
  intros H [G|n c E G Hn|n c E G Hn].
  - apply en_exit. by apply done_shift.
  - apply (en_pipe _ _ (S n) c); [cbn; by rewrite E|by apply done_shift|]. unfold shifted in *. by rewrite Nat.add_succ_r.
  - apply (en_other _ _ (S n) c); [cbn; by rewrite E|by apply done_shift|]. unfold shifted in *. by rewrite Nat.add_succ_r.
Qed.
Lemma ends_fail ws i s f : ws i <> WDone -> f = (match ws i with WPipe _ => Sigpipe | _ => Panics end) ->
  ends (shifted ws i) [s] f.
Proof.
  intros H ->. destruct (ws i) as [|c|c] eqn:E; [done| |].
  - apply (en_pipe _ _ 0 c); [done|by intros ? ?%Nat.nlt_0_r|]. unfold shifted. by rewrite Nat.add_0_r.
  - apply (en_other _ _ 0 c); [done|by intros ? ?%Nat.nlt_0_r|]. unfold shifted. by rewrite Nat.add_0_r.
Qed.
Lemma ends_nil ws i : ends (shifted ws i) [] (Exit 0).
Proof. apply en_exit. by intros ? ?%Nat.nlt_0_r. Qed.

Lemma lines_cons ws i k s names : ws i = WDone ->
  lines_to (shifted ws i) k (s :: names) = Write k (s ++ [NL]) :: lines_to (shifted ws (S i)) k names.
Proof.
  intros E. unfold lines_to. cbn [imap]. unfold shifted at 1. rewrite Nat.add_0_r, E. f_equal.
  apply imap_ext. intros j x _. cbn. unfold shifted. by rewrite Nat.add_succ_r.
Qed.
Lemma lines_one ws i k s : lines_to (shifted ws i) k [s] = [Write k (part (ws i) (s ++ [NL]))].
Proof. unfold lines_to, part, shifted. cbn. by rewrite Nat.add_0_r. Qed.

Lemma print_all_ends k ws i l acts f : print_all k ws i l = Some (acts, f) ->
  exists names, acts = lines_to (shifted ws i) k names /\ ends (shifted ws i) names f /\ names `prefix_of` l /\ (f = Exit 0 -> names = l).
Proof.
  revert i acts. induction l as [|s l IH]; intros i acts; cbn [print_all].
  - intros [= <- <-]. exists []. split_and!; [done|apply ends_nil|done|done].
  - unfold writeln. intros (a' & H & ->)%after_some. destruct (ws i) as [|c|c] eqn:E.
    + apply IH in H as (names & -> & H & Hp & He). exists (s :: names). split_and!; [by rewrite lines_cons|by apply ends_cons|by apply prefix_cons|].
      intros Hf. by rewrite He.
    + injection H as <- <-. exists [s]. split_and!; [by rewrite lines_one, E|apply ends_fail; by rewrite E|by exists l|done].
    + injection H as <- <-. exists [s]. split_and!; [by rewrite lines_one, E|apply ends_fail; by rewrite E|by exists l|done].
Qed.
Lemma print_all_some k ws i l : exists x, print_all k ws i l = Some x.
Proof.
  revert i. induction l as [|s l IH]; intros i; cbn [print_all]; [by eexists|]. unfold writeln.
  destruct (IH (S i)) as [[a f] E]. destruct (ws i); [rewrite E|..]; by eexists.
Qed.
Lemma print_visited_ends n v k ws i acts f : print_visited n v k ws i = Some (acts, f) ->
  exists names, acts = lines_to (shifted ws i) k names /\ ends (shifted ws i) names f /\
    (forall j x, names !! j = Some x -> visit v (i + j) = Some x) /\ (length names <= n)%nat /\
    (forall l, visited n v i = Some l -> names `prefix_of` l) /\ (f = Exit 0 -> visited n v i = Some names).
Proof.
  revert i acts. induction n as [|n IH]; intros i acts; cbn [print_visited visited]; [done|].
  destruct (visit v i) as [s|] eqn:Ev.
  - unfold writeln. intros (a' & H & ->)%after_some. destruct (ws i) as [|c|c] eqn:E.
    + apply IH in H as (names & -> & H & Hv & Hl & Hp & He). exists (s :: names).
      split_and!; [by rewrite lines_cons|by apply ends_cons| |cbn; lia| |].
      * intros [|j] x; cbn; [intros [= <-]; by rewrite Nat.add_0_r|]. rewrite Nat.add_succ_r. apply Hv.
      * intros l (l' & Hl' & ->)%fmap_Some. by apply prefix_cons, Hp.
      * intros Hf. by rewrite He.
    + injection H as <- <-. exists [s]. split_and!; [by rewrite lines_one, E|apply ends_fail; by rewrite E| |cbn; lia| |done].
      * intros [|j] x; cbn; [intros [= <-]; by rewrite Nat.add_0_r|done].
      * intros l (l' & Hl' & ->)%fmap_Some. by exists l'.
    + injection H as <- <-. exists [s]. split_and!; [by rewrite lines_one, E|apply ends_fail; by rewrite E| |cbn; lia| |done].
      * intros [|j] x; cbn; [intros [= <-]; by rewrite Nat.add_0_r|done].
      * intros l (l' & Hl' & ->)%fmap_Some. by exists l'.
  - intros [= <- <-]. exists []. split_and!; [done|apply ends_nil|done|cbn; lia| |done]. intros l [= <-]. done.
Qed.
Lemma print_visited_some n v k ws i l : visited n v i = Some l -> exists x, print_visited n v k ws i = Some x.
Proof.
  revert i l. induction n as [|n IH]; intros i l; cbn [print_visited visited]; [done|].
  destruct (visit v i) as [s|]; [|by eexists]. intros (l' & H & _)%fmap_Some. unfold writeln.
  destruct (IH _ _ H) as [[a f] E]. destruct (ws i); [rewrite E|..]; by eexists.
Qed.

Lemma out_new pe pre sk : out_goes pe pre sk ->
  (pager_new pe = ToStdout /\ pre = [] /\ sk = ToOut) \/
  (exists argv, pager_new pe = ToPager argv /\ pre = [Spawn argv] /\ sk = ToPipe).
Proof.
  intros [p Hp H|p Hp H1 H2].
  - left. rewrite (c47 _ _ Hp). rewrite decide_False; [done|]. intros [? ?]. by destruct H.
  - right. eexists. rewrite (c47 _ _ Hp). by rewrite decide_True.
Qed.
Lemma lines_prefix a b : a `prefix_of` b -> as_lines a `prefix_of` as_lines b.
Proof. intros [c ->]. exists (as_lines c). unfold as_lines. by rewrite map_app, concat_app. Qed.

Lemma acts_print n s k v pe pre sk ws : sorts_by s k -> out_goes pe pre sk ->
  recent_acts n (Parsed s) (GOk v) pe true ws = foldr after (recent_print n k v sk ws) pre.
Proof.
  intros Hs Hg. unfold recent_acts. rewrite (sorts_program _ _ Hs).
  by destruct (out_new _ _ _ Hg) as [(-> & -> & ->)|(argv & -> & -> & ->)].
Qed.
Lemma foldr_after pre k l f : foldr after k pre = Some (l, f) <-> exists l', k = Some (l', f) /\ l = pre ++ l'.
Proof.
  revert l. induction pre as [|a pre IH]; intros l; cbn.
  - split; [by exists l|]. by intros (? & ? & ->).
  - rewrite after_some. setoid_rewrite IH. split.
    + intros (l' & (l'' & -> & ->) & ->). by exists l''.
    + intros (l' & -> & ->). exists (pre ++ l'). split; [|done]. by exists l'.
Qed.

Lemma c63 n s k v pe pre sk ws l f :
  sorts_by s k -> (k = Visited \/ exists rs, rv_references v = GOk rs) -> out_goes pe pre sk ->
  recent_acts n (Parsed s) (GOk v) pe true ws = Some (l, f) ->
  exists names, l = pre ++ lines_to ws sk names /\ ends ws names f /\
    (f = Exit 0 -> recent_process n (Parsed s) (GOk v) = RDone (as_lines names) [] 0) /\
    (forall out err code, recent_process n (Parsed s) (GOk v) = RDone out err code -> as_lines names `prefix_of` out) /\
    (k = Visited -> forall i x, names !! i = Some x -> shown_as v i x).
Proof.
  intros Hs Hk Hg. rewrite (acts_print n s k v pe pre sk ws Hs Hg).
  intros (l' & H & ->)%foldr_after. unfold recent_process, recent_main. rewrite (sorts_program _ _ Hs).
  change ws with (shifted ws 0). unfold recent_print in H.
  assert (Hd : forall rs, k <> Visited -> rv_references v = GOk rs ->
    exists names, pre ++ l' = pre ++ lines_to (shifted ws 0) sk names /\ ends (shifted ws 0) names f /\
    (f = Exit 0 -> match (fun r => match r with
            | Ok l => (flat_map (fun s => s ++ [NL]) l, [], exit_code Success)
            | Er e => ([], display e ++ [NL], exit_code (err_exit_status e))
            end) <$> recent_run n k v with Some (out, err, code) => RDone out err code | None => ROutOfFuel end = RDone (as_lines names) [] 0) /\
    (forall out err code, match (fun r => match r with
            | Ok l => (flat_map (fun s => s ++ [NL]) l, [], exit_code Success)
            | Er e => ([], display e ++ [NL], exit_code (err_exit_status e))
            end) <$> recent_run n k v with Some (out, err, code) => RDone out err code | None => ROutOfFuel end = RDone out err code -> as_lines names `prefix_of` out) /\
    (k = Visited -> forall i x, names !! i = Some x -> shown_as v i x)).
  { intros rs Hne Hrs. rewrite Hrs in H.
    assert (E : recent_run n k v = Some (Ok (omap (fun x => rf_name x.2) (sort_desc (dated_refs k rs))))).
    { destruct k; [done|..]; cbn [recent_run]; by rewrite Hrs. }
    rewrite E. cbn [fmap option_fmap option_map].
    assert (H' : print_all sk ws 0 (omap (fun x => rf_name x.2) (sort_desc (dated_refs k rs))) = Some (l', f)) by by destruct k.
    apply print_all_ends in H' as (names & -> & He & Hp & Hx). exists names. split_and!; [done|done| | |done].
    - intros Hf. rewrite (Hx Hf), lines_flat. done.
    - intros out err code [= <- _ _]. rewrite lines_flat. by apply lines_prefix. }
  destruct Hk as [->|[rs Hrs]].
  - apply print_visited_ends in H as (names & -> & He & Hv & _ & Hp & Hx). exists names. split_and!; [done|done| | |].
    + intros Hf. cbn [recent_run]. rewrite (Hx Hf). cbn. by rewrite lines_flat.
    + intros out err code. cbn [recent_run]. destruct (visited n v 0) as [l0|]; cbn; [|done]. intros [= <- _ _].
      rewrite lines_flat. by apply lines_prefix, Hp.
    + intros _ i x Hi. apply shown_visit. by apply Hv in Hi.
  - destruct k; [|by eapply Hd..].
    apply print_visited_ends in H as (names & -> & He & Hv & _ & Hp & Hx). exists names. split_and!; [done|done| | |].
    + intros Hf. cbn [recent_run]. rewrite (Hx Hf). cbn. by rewrite lines_flat.
    + intros out err code. cbn [recent_run]. destruct (visited n v 0) as [l0|]; cbn; [|done]. intros [= <- _ _].
      rewrite lines_flat. by apply lines_prefix, Hp.
    + intros _ i x Hi. apply shown_visit. by apply Hv in Hi.
Qed.
Lemma c63_total n s k v pe spawn ws out err code : sorts_by s k ->
  recent_process n (Parsed s) (GOk v) = RDone out err code ->
  exists l f, recent_acts n (Parsed s) (GOk v) pe spawn ws = Some (l, f).
Proof.
  intros Hs. unfold recent_process, recent_main, recent_acts. rewrite (sorts_program _ _ Hs). intros H.
  assert (G : forall sk, exists l f, recent_print n k v sk ws = Some (l, f)).
  { intros sk. unfold recent_print. destruct k.
    - cbn [recent_run] in H. destruct (visited n v 0) as [l|] eqn:E; [|done].
      destruct (print_visited_some n v sk ws 0 l E) as [[a f] G]. by exists a, f.
    - destruct (rv_references v) as [rs|e]; [|unfold writeln; destruct (ws 0); by eexists _, _].
      destruct (print_all_some sk ws 0 (omap (fun x => rf_name x.2) (sort_desc (dated_refs Committed rs)))) as [[a f] G]. by exists a, f.
    - destruct (rv_references v) as [rs|e]; [|unfold writeln; destruct (ws 0); by eexists _, _].
      destruct (print_all_some sk ws 0 (omap (fun x => rf_name x.2) (sort_desc (dated_refs Authored rs)))) as [[a f] G]. by exists a, f. }
  destruct (pager_new pe) as [|argv]; [apply G|]. destruct spawn; [|by eexists _, _].
  destruct (G ToPipe) as (l & f & E). rewrite E. by eexists _, _.
Qed.
Lemma c63_error n s k v e pe pre sk ws : sorts_by s k -> k <> Visited -> rv_references v = GErr e -> out_goes pe pre sk ->
  exists text code, recent_process n (Parsed s) (GOk v) = RDone [] text code /\
    recent_acts n (Parsed s) (GOk v) pe true ws =
      Some (pre ++ [Write ToErr (part (ws 0%nat) text)], match ws 0%nat with WDone => Exit code | WPipe _ => Sigpipe | WOther _ => Panics end).
Proof.
  intros Hs Hk He Hg. rewrite (acts_print n s k v pe pre sk ws Hs Hg).
  unfold recent_process, recent_main. rewrite (sorts_program _ _ Hs).
  exists (display (err_of_git e) ++ [NL]), (exit_code (err_exit_status (err_of_git e))). split.
  - destruct k; [done|..]; cbn [recent_run]; by rewrite He.
  - apply foldr_after. exists [Write ToErr (part (ws 0%nat) (display (err_of_git e) ++ [NL]))]. split; [|done].
    unfold recent_print. destruct k; [done|..]; rewrite He; unfold writeln; by destruct (ws 0%nat).
Qed.

(** ** git at *)
Lemma written_nil k : written k [] = [].
Proof. done. Qed.
Lemma at_agrees lib repo args show_code r : at_process lib repo args show_code = Some r ->
  exists l, at_acts lib repo args true true show_code WDone = Some (l, Exit (ar_code r)) /\
    written ToOut l = ar_out r /\ written ToErr l = ar_err r /\ written ToPipe l = [] /\
    forall argv, Spawn argv ∈ l <-> exists id, ar_show r = Some id /\ argv = [bs "git"; bs "show"; id].
Proof.
  assert (Hnone : forall argv k b, Spawn argv ∈ [Write k b] <-> exists id, @None bytes = Some id /\ argv = [bs "git"; bs "show"; id]).
  { intros argv k b. rewrite elem_of_list_singleton. split; [done|]. by intros (? & ? & _). }
  unfold at_process, at_acts. destruct repo as [g|e].
  - destruct args as [a|out err code].
    + destruct (at_program a) as [o|]; [|done]. cbn. intros [= <-]. unfold at_main. destruct (at_run lib g o) as [oid|e].
      * destruct (ao_show o); cbn.
        -- eexists. split_and!; [done|done|done|done|]. intros argv. rewrite !elem_of_cons, elem_of_nil. split.
           ++ intros [[= ->]|[?|[]]]; [by exists oid|done].
           ++ intros (id & [= ->] & ->). by left.
        -- eexists. split_and!; [done|by cbn; rewrite app_nil_r|done|done|]. intros argv. apply Hnone.
      * destruct (err_fatal e), (ao_quiet o); cbn.
        1,2,4: eexists; split_and!; [done|done|by cbn; rewrite app_nil_r|done|]; intros argv; apply Hnone.
        exists []. split_and!; [done|done|done|done|]. intros argv. rewrite elem_of_nil. split; [done|]. by intros (? & ? & _).
    + intros [= <-]. cbn. eexists. split_and!; [done|by cbn; rewrite app_nil_r|by cbn; rewrite app_nil_r|done|].
      intros argv. rewrite !elem_of_cons, elem_of_nil. split; [by intros [?|[?|[]]]|]. by intros (? & ? & _).
  - intros [= <-]. cbn. eexists. split_and!; [done|done|by cbn; rewrite app_nil_r|done|]. intros argv. apply Hnone.
Qed.
Lemma at_panics lib repo args spawn waits show_code w l : at_acts lib repo args spawn waits show_code w = Some (l, Panics) ->
  w <> WDone \/ ((spawn = false \/ waits = false) /\ exists a, args = Parsed a /\ aa_show a = true) \/ exists a, args = Parsed a /\ ~ at_utf8 a.
Proof.
  assert (Hw : forall k b rest, (exists c, rest = Some ([], Exit c)) -> writeln false k b w rest = Some (l, Panics) -> w <> WDone).
  { intros k b rest [c ->] H ->. by cbn in H. }
  unfold at_acts. destruct repo as [g|e].
  - destruct args as [a|out err code]; [|done].
    destruct (at_program a) as [o|] eqn:Eo.
    + assert (Es : ao_show o = aa_show a).
      { unfold at_program, value_of in Eo. destruct (aa_revision a) as [r|], (utf8_valid (aa_pattern a)); try destruct (utf8_valid r);
          try done; by injection Eo as <-. }
      destruct (at_run lib g o) as [oid|e].
      * rewrite Es. destruct (aa_show a) eqn:Ea.
        -- intros H. right; left. split; [|by exists a].
           destruct spawn, waits; [done|by right|by left|by left].
        -- intros H. left. eapply Hw; [|exact H]. by eexists.
      * destruct (err_fatal e), (ao_quiet o); try (intros H; left; eapply Hw; [|exact H]; by eexists). done.
    + intros _. right; right. exists a. split; [done|]. intros [H1 H2].
      unfold at_program, value_of in Eo. rewrite H1 in Eo. destruct (aa_revision a) as [r|]; [|done]. by rewrite (H2 r eq_refl) in Eo.
  - intros H. left. eapply Hw; [|exact H]. by eexists.
Qed.
Lemma at_waits lib repo args spawn waits show_code w l f argv :
  at_acts lib repo args spawn waits show_code w = Some (l, f) -> Spawn argv ∈ l ->
  (spawn = true /\ waits = true /\ l = [Spawn argv; Wait] /\ f = Exit (default 3%Z show_code)) \/ ((spawn = false \/ waits = false) /\ l = [Spawn argv] /\ f = Panics).
Proof.
  assert (Hw : forall k b rest l' f', (forall l'' f'', rest = Some (l'', f'') -> l'' = []) -> writeln false k b w rest = Some (l', f') ->
    ~ Spawn argv ∈ l').
  { intros k b rest l' f' Hr (l'' & H & ->)%after_some Hin. apply elem_of_cons in Hin as [?|Hin]; [done|].
    assert (l'' = []) as -> by (destruct w; [by eapply Hr|by injection H as <-..]). by apply elem_of_nil in Hin. }
  unfold at_acts. destruct repo as [g|e].
  - destruct args as [a|out err code].
    + destruct (at_program a) as [o|]; [|by intros [= <- <-] ?%elem_of_nil].
      destruct (at_run lib g o) as [oid|e].
      * destruct (ao_show o).
        -- destruct spawn, waits; intros [= <- <-]; rewrite !elem_of_cons, elem_of_nil.
           ++ intros [[= ->]|[?|[]]]; [|done]. left. split_and!; [done|done|done|]. by destruct show_code.
           ++ intros [[= ->]|[]]. right. by split; [right|].
           ++ intros [[= ->]|[]]. right. by split; [left|].
           ++ intros [[= ->]|[]]. right. by split; [left|].
        -- intros H Hin. exfalso. eapply Hw; [|exact H|exact Hin]. by intros ? ? [= <- _].
      * destruct (err_fatal e), (ao_quiet o); try (intros H Hin; exfalso; eapply Hw; [|exact H|exact Hin]; by intros ? ? [= <- _]).
        by intros [= <- <-] ?%elem_of_nil.
    + intros [= <- <-]. rewrite !elem_of_cons, elem_of_nil. by intros [?|[?|[]]].
  - intros H Hin. exfalso. eapply Hw; [|exact H|exact Hin]. by intros ? ? [= <- _].
Qed.

(** What is written is a beginning of the lines. *)
Lemma lines_written ws k names : (forall n, length names = S n -> done n ws) ->
  written k (lines_to ws k names) `prefix_of` as_lines names.
Proof.
  revert ws. induction names as [|s names IH]; intros ws Hd; [done|].
  unfold written, lines_to, as_lines in *. cbn [imap map concat].
  assert (Ek : forall b : bytes, match k, k with ToOut, ToOut | ToErr, ToErr | ToPipe, ToPipe => b | _, _ => [] end = b) by by destruct k.
  rewrite Ek. destruct names as [|s2 names].
  - cbn. rewrite !app_nil_r. destruct (ws 0%nat) as [|c|c]; [done|by exists (drop c (s ++ [NL])); rewrite take_drop..].
  - rewrite (Hd (S (length names)) eq_refl 0%nat ltac:(lia)). apply prefix_app.
    apply (IH (fun j => ws (S j))). intros n [= En] j Hj. apply (Hd (S n)); cbn; lia.
Qed.
Lemma c63_prefix n s k v pe pre sk ws l f out err code :
  sorts_by s k -> (k = Visited \/ exists rs, rv_references v = GOk rs) -> out_goes pe pre sk ->
  recent_acts n (Parsed s) (GOk v) pe true ws = Some (l, f) ->
  recent_process n (Parsed s) (GOk v) = RDone out err code -> written sk l `prefix_of` out /\ (f = Exit 0 -> written sk l = out).
Proof.
  intros Hs Hk Hg H Hr. destruct (c63 n s k v pe pre sk ws l f Hs Hk Hg H) as (names & -> & He & H0 & Hp & _).
  assert (E : written sk (pre ++ lines_to ws sk names) = written sk (lines_to ws sk names)).
  { destruct Hg as [p _ _|p _ _ _]; done. }
  rewrite E. split.
  - etrans; [|by eapply Hp]. apply lines_written. intros m Em. destruct He as [G|n' c E' G _|n' c E' G _].
    + intros j Hj. apply G. lia.
    + assert (n' = m) as <- by lia. done.
    + assert (n' = m) as <- by lia. done.
  - intros ->. rewrite (H0 eq_refl) in Hr. injection Hr as <- _ _. 
    inversion He as [G| |]; subst. clear -G. revert ws G. induction names as [|x names IH]; intros ws G; [done|].
    unfold written, lines_to, as_lines in *. cbn [imap map concat]. rewrite (G 0%nat ltac:(cbn; lia)).
    assert (Ek : forall b : bytes, match sk, sk with ToOut, ToOut | ToErr, ToErr | ToPipe, ToPipe => b | _, _ => [] end = b) by by destruct sk.
    rewrite Ek. f_equal. apply (IH (fun j => ws (S j))). intros j Hj. apply G. cbn. lia.
Qed.
