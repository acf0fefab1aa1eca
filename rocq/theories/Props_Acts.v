(** The programs of scutiger-bin as processes: C62 to C64. *)
From Verif Require Import Bytes Err FS Prog Local Transfer GitAt RecentRefs Pager Regex SpecGit Main SpecMain Acts SpecActs ActsProofs
  Props_Git Props_Main.

(** ** C62 *)

Definition tty : pager_env := PagerEnv 1 None None None.

(** Refuted: git recent-refs exits while its pager is still running. *)
Theorem C62_waits_refuted : exists l,
  recent_acts 9 (Parsed None) (GOk two_refs) tty true (fun _ => WDone) = Some (l, Exit 0) /\
  Spawn [bs "sh"; bs "-c"; bs "less"] ∈ l /\ Wait ∉ l.
Proof.
  eexists. split; [by vm_compute|]. split; [by left|].
  rewrite !not_elem_of_cons. split_and!; [done|done|done|]. apply not_elem_of_nil.
Qed.
Print Assumptions C62_waits_refuted.

(** git at --show does wait, and exits as git show does; if it cannot, it panics. *)
Theorem C62_waits_partial lib repo args spawn waits show_code w l f argv :
  at_acts lib repo args spawn waits show_code w = Some (l, f) -> Spawn argv ∈ l ->
  (spawn = true /\ waits = true /\ l = [Spawn argv; Wait] /\ f = Exit (default 3%Z show_code)) \/
  ((spawn = false \/ waits = false) /\ l = [Spawn argv] /\ f = Panics).
Proof. exact (at_waits lib repo args spawn waits show_code w l f argv). Qed.
Print Assumptions C62_waits_partial.
Example C62_case :
  let a := AtArgs false true false true None (bs "find") in
  let g := demo (bs "find me") (bs "I find you") (bs " squash! find") in
  at_acts mini_pcre (GOk g) (Parsed a) true true (Some 7%Z) WDone = Some ([Spawn [bs "git"; bs "show"; bs "b"]; Wait], Exit 7) /\
  at_acts mini_pcre (GOk g) (Parsed a) true true None WDone = Some ([Spawn [bs "git"; bs "show"; bs "b"]; Wait], Exit 3).
Proof. by vm_compute. Qed.

(** ** C63 *)

(** git recent-refs writes its lines one by one to the pager if there is one and to
    standard output if not, all of them unless a write fails, and stops at the first
    that fails: with SIGPIPE if nobody reads any more. *)
Theorem C63_output n s k v pe pre sk ws l f :
  sorts_by s k -> (k = Visited \/ exists rs, rv_references v = GOk rs) -> out_goes pe pre sk ->
  recent_acts n (Parsed s) (GOk v) pe true ws = Some (l, f) ->
  exists names, l = pre ++ lines_to ws sk names /\ ends ws names f /\
    (f = Exit 0 -> recent_process n (Parsed s) (GOk v) = RDone (as_lines names) [] 0) /\
    (forall out err code, recent_process n (Parsed s) (GOk v) = RDone out err code -> as_lines names `prefix_of` out) /\
    (k = Visited -> forall i x, names !! i = Some x -> shown_as v i x).
Proof. exact (c63 n s k v pe pre sk ws l f). Qed.
Print Assumptions C63_output.

(** Whatever fails, what has been written is a beginning of the output, and all of it
    if the program exits with success. *)
Theorem C63_prefix n s k v pe pre sk ws l f out err code :
  sorts_by s k -> (k = Visited \/ exists rs, rv_references v = GOk rs) -> out_goes pe pre sk ->
  recent_acts n (Parsed s) (GOk v) pe true ws = Some (l, f) ->
  recent_process n (Parsed s) (GOk v) = RDone out err code -> written sk l `prefix_of` out /\ (f = Exit 0 -> written sk l = out).
Proof. exact (c63_prefix n s k v pe pre sk ws l f out err code). Qed.
Print Assumptions C63_prefix.

(** There is an end if the list of references has one. *)
Theorem C63_ends n s k v pe spawn ws out err code : sorts_by s k ->
  recent_process n (Parsed s) (GOk v) = RDone out err code ->
  exists l f, recent_acts n (Parsed s) (GOk v) pe spawn ws = Some (l, f).
Proof. exact (c63_total n s k v pe spawn ws out err code). Qed.
Print Assumptions C63_ends.

(** A message about an error goes to standard error, though the pager was started. *)
Theorem C63_error n s k v e pe pre sk ws : sorts_by s k -> k <> Visited -> rv_references v = GErr e -> out_goes pe pre sk ->
  exists text code, recent_process n (Parsed s) (GOk v) = RDone [] text code /\
    recent_acts n (Parsed s) (GOk v) pe true ws =
      Some (pre ++ [Write ToErr (match ws 0%nat with WDone => text | WPipe c | WOther c => take c text end)],
        match ws 0%nat with WDone => Exit code | WPipe _ => Sigpipe | WOther _ => Panics end).
Proof. exact (c63_error n s k v e pe pre sk ws). Qed.
Print Assumptions C63_error.

Lemma tty_less : out_goes tty [Spawn [bs "sh"; bs "-c"; bs "less"]] ToPipe.
Proof. apply og_pager; [by apply pc_less|done|by vm_compute]. Qed.
Definition quits_after_one : nat -> wres := fun i => if decide (i = 0%nat) then WDone else WPipe 2.
Example C63_case :
  sorts_by (Some (bs "committerdate")) Committed /\ (exists rs, rv_references two_refs = GOk rs) /\
  out_goes (PagerEnv 0 None None None) [] ToOut /\ out_goes tty [Spawn [bs "sh"; bs "-c"; bs "less"]] ToPipe /\
  recent_acts 9 (Parsed (Some (bs "committerdate"))) (GOk two_refs) tty true quits_after_one =
    Some ([Spawn [bs "sh"; bs "-c"; bs "less"]; Write ToPipe (bs "new" ++ [NL]); Write ToPipe (bs "ol")], Sigpipe) /\
  (exists out err code, recent_process 9 (Parsed (Some (bs "committerdate"))) (GOk two_refs) = RDone out err code) /\
  recent_acts 9 (Parsed None) (GOk two_refs) (PagerEnv 0 None None None) true (fun _ => WDone) =
    Some ([Write ToOut (bs "refs/heads/a" ++ [NL]); Write ToOut (bs "2" ++ [NL])], Exit 0).
Proof.
  split_and!; [constructor|by eexists| |exact tty_less|by vm_compute| |by vm_compute].
  2: { eexists _, _, _. vm_compute. reflexivity. }
  apply (og_out _ (bs "less")); [by apply pc_less|by left].
Qed.
Example C63_error_case :
  let v := RefsView (GErr (GitErr GOther (bs "no"))) (fun _ => GErr (GitErr GNotFound [])) in
  rv_references v = GErr (GitErr GOther (bs "no")) /\
  exists text, recent_acts 9 (Parsed (Some (bs "authordate"))) (GOk v) tty true (fun _ => WDone) =
    Some ([Spawn [bs "sh"; bs "-c"; bs "less"]; Write ToErr text], Exit 2).
Proof. split; [done|]. eexists. by vm_compute. Qed.

(** ** C64 *)

(** Refuted: git at panics if nobody reads its output, where git recent-refs dies of
    SIGPIPE. *)
Theorem C64_no_panic_refuted : exists g a,
  at_utf8 a /\ finds g a (bs "b") /\
  at_acts mini_pcre (GOk g) (Parsed a) true true None (WPipe 0) = Some ([Write ToOut []], Panics) /\
  recent_acts 9 (Parsed None) (GOk two_refs) (PagerEnv 0 None None None) true (fun _ => WPipe 0) =
    Some ([Write ToOut []], Sigpipe).
Proof.
  exists (demo (bs "find me") (bs "I find you") (bs " squash! find")), (AtArgs false false false true None (bs "find")).
  split; [by split|]. split; [|split; by vm_compute].
  apply (C53_found _ _ _ None); [by split|]. by vm_compute.
Qed.
Print Assumptions C64_no_panic_refuted.

(** It panics only then: if a write fails, if git cannot be started or waited for, or on arguments
    that are not UTF-8. *)
Theorem C64_no_panic_partial lib repo args spawn waits show_code w l : at_acts lib repo args spawn waits show_code w = Some (l, Panics) ->
  w <> WDone \/ ((spawn = false \/ waits = false) /\ exists a, args = Parsed a /\ aa_show a = true) \/ exists a, args = Parsed a /\ ~ at_utf8 a.
Proof. exact (at_panics lib repo args spawn waits show_code w l). Qed.
Print Assumptions C64_no_panic_partial.

(** Otherwise it does what C53 says. *)
Theorem C64_otherwise_partial lib repo args show_code r : at_process lib repo args show_code = Some r ->
  exists l, at_acts lib repo args true true show_code WDone = Some (l, Exit (ar_code r)) /\
    written ToOut l = ar_out r /\ written ToErr l = ar_err r /\ written ToPipe l = [] /\
    forall argv, Spawn argv ∈ l <-> exists id, ar_show r = Some id /\ argv = [bs "git"; bs "show"; id].
Proof. exact (at_agrees lib repo args show_code r). Qed.
Print Assumptions C64_otherwise_partial.
Example C64_case :
  let g := demo (bs "find me") (bs "I find you") (bs " squash! find") in
  (exists l, at_acts mini_pcre (GOk g) (Parsed (AtArgs false false false true None (bs "find"))) true true None (WPipe 0) = Some (l, Panics)) /\
  exists r, at_process mini_pcre (GOk g) (Parsed (AtArgs false false false true None (bs "find"))) None = Some r /\ ar_out r = bs "b" ++ [NL].
Proof. split; eexists; [|split]; vm_compute; reflexivity. Qed.
