(** Every answer is the one called for by what was read and by how the calls ended. *)
From Verif Require Import Bytes Err FS Prog Pktline Args Local Processor Transfer Sha256 Rfc3339 Spec SpecStore SpecServer SpecFrame SpecTalk
  SpecPerm SpecStart SpecRound RoundMain Transcripts Props_Upload Props_Store Props_Server Props_Lock Props_Start Props_End Props_Talk.

(** ** C95 *)

(** Whatever the system answers, and whatever the calls are of a server that has not
    finished yet: they are those of its beginning, or those of a whole beginning, of
    requests and their answers as SpecRound.v has them, and then calls among which no
    output is flushed, or "quit" and its answer.  A server exits with 0 only after
    "quit" or where the input ends before a request. *)
Theorem C95_rounds en fuel lfs v m tr x :
  digest (en_hash en) -> exact tr ->
  calls (transfer_main en fuel lfs (GOk (libgit2 v)) (operation m)) tr x ->
  (forall e r, existT e r ∈ tr -> introduces lfs e) /\ (forall msg, x <> Some (0%Z, msg)) \/
  exists um u body rest new, tr = um ++ announced lfs ++ body ++ rest /\ masks (asked v) um u /\
    rounds en lfs u m [] body new /\ (flushed ∉ rest \/ farewell rest) /\
    (forall msg, x = Some (0%Z, msg) -> farewell rest \/ hung_up rest).
Proof. exact (c_session en fuel lfs v m tr x). Qed.
Print Assumptions C95_rounds.

(** The calls of a server alone are such that a read gives as much as was asked for. *)
Definition exactly (d : done_call) : bool :=
  match d with existT (ERead n) (IOk b) => (lenN b =? n)%N | _ => true end.
Lemma exactly_exact tr : forallb exactly tr = true -> exact tr.
Proof. intros H n b Hin. eapply forallb_forall in H; [|apply elem_of_list_In; exact Hin]. by apply N.eqb_eq. Qed.

(** An upload whose file cannot be moved to its place (the call that does so fails),
    and then the same upload once more, and "quit". *)
Definition twice : bytes := put_abc ++ put_abc ++ bs "0009quit
".
Definition twice_server : prog (Z * bytes) := server_with Unset (operation Upload).
Definition is_rename (d : done_call) : option bool :=
  match d with existT (ERename _ _) (IOk _) => Some true | existT (ERename _ _) (IErr _) => Some false | _ => None end.
Notation twice_calls := (calls_of 0 twice_server (fails_at 21) (stdin2 twice) fs0).
Example C95_case :
  digest (en_hash test_env) /\ exact twice_calls /\
  calls twice_server twice_calls (Some (0%Z, [])) /\
  omap is_rename twice_calls = [false; true] /\ length (filter (fun n => n = 3)%nat (map kind_of_call twice_calls)) = 4%nat /\
  spoken twice_calls = bs "000eversion=1
0000000fstatus 500
00010068internal error: fatal: I/O error: failed to persist temporary path: Input/output error (os error 5)
0000000fstatus 200
0000000fstatus 200
0000" /\
  ~ (forall e r, existT e r ∈ twice_calls -> introduces lfs_dir e).
Proof.
  split_and!.
  - exact sha256_ok.
  - apply exactly_exact. vm_compute. reflexivity.
  - assert (E : result_of 0 twice_server (fails_at 21) (stdin2 twice) fs0 = Some (0%Z, [])) by (vm_compute; reflexivity).
    rewrite <- E. apply calls_of_result.
  - vm_compute. reflexivity.
  - vm_compute. reflexivity.
  - vm_compute. reflexivity.
  - intros H. assert (E : projT1 <$> twice_calls !! 10%nat = Some (ERead 4)) by (vm_compute; reflexivity).
    destruct (twice_calls !! 10%nat) as [[e r]|] eqn:Ed; [|done]. injection E as E. apply elem_of_list_lookup_2, H in Ed. by subst e.
Qed.
