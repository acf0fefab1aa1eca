(** Every request, well-formed or not, gets the right answer: C58, C59. *)
From Verif Require Import Bytes Err FS Prog Pktline Args Local Processor Transfer Sha256 Rfc3339 Transcripts
  PktFacts PktProofs Spec SpecStore SpecServer SpecFrame SpecOdd TextProofs SeqCmd OddProofs Props_Store Props_Server.

(** ** C58 *)

(** The server answers every sequence of groups of packets like the abstract
    server, where malformed requests have fixed answers and change nothing. *)
Theorem C58_every_request en lfs umask ts (clock : Z -> Prop) m pid os l s w gs inp rest extra fuel :
  setting en lfs ts clock os -> holds en lfs s w ->
  Forall (fun g => exists x, means m g x) gs -> wires (concat gs) inp -> closing rest extra -> l_in l = inp ++ rest ->
  enough fuel l w ->
  exists as_ w' s', conversed en lfs umask ts clock m pid fuel os l s w gs as_ extra w' s'.
Proof. exact (c58 en lfs umask ts clock m pid os l s w gs inp rest extra fuel). Qed.
Print Assumptions C58_every_request.

(** All packets are covered: whatever a client sends is a sequence of such groups,
    and then nothing, or "quit", or a request that is not finished, or one of the two
    kinds of requests left out. *)
Theorem C58_every_input m ps :
  exists gs rest, ps = concat gs ++ rest /\ Forall (fun g => exists x, means m g x) gs /\ unfinished m rest.
Proof. exact (c58_split m ps). Qed.
Print Assumptions C58_every_input.

Definition strange : list (list packet) :=
  [[PData (bs "put-object " ++ abc_oid ++ bs " with love"); PData (bs "size=3" ++ [NL]); PDelim; PData (bs "abc"); PDelim];
   [PData (bs "verify-object " ++ abc_oid); PData (bs "size=3" ++ [NL]); PFlush];
   [PData (bs "batch"); PDelim; PData (bs "abc" ++ [NL]); PFlush];
   [PData (bs "version 1"); PDelim; PData (bs "junk"); PFlush];
   [PData (bs "lock now")];
   [PData (bs "list-lock"); PData (bs "limit=1" ++ [NL]); PData (bs "limit=2" ++ [NL]); PFlush];
   [PFlush];
   [PData (bs "get-object x" ++ [NL])];
   [PData (bs "verify-object " ++ zero_oid ++ [NL]); PData (bs "size=3" ++ [NL]); PFlush]].

Lemma says_of b ws : b <> [] -> command_words b = ws -> says b ws.
Proof. intros H <-. by apply says_some. Qed.
Lemma args_one k v : bool_decide (EQ ∈ k) = false -> args_ok [(k, v)].
Proof. intros H. split; [|apply NoDup_singleton]. apply Forall_singleton. by apply bool_decide_eq_false in H. Qed.
Lemma never (p : packet) (qs : list packet) : bool_decide (p ∈ qs) = false -> p ∉ qs.
Proof. by apply bool_decide_eq_false. Qed.
Lemma occurs (p : bytes) (qs : list bytes) : bool_decide (p ∈ qs) = true -> p ∈ qs.
Proof. by apply bool_decide_eq_true. Qed.
Lemma strange_means : Forall (fun g => exists x, means Upload g x) strange.
Proof.
  assert (Ho : is_oid abc_oid) by by apply oid_valid_iff.
  assert (Hn : number (bs "3") 3) by by apply parse_number.
  unfold strange. repeat (apply Forall_cons; split); [..|constructor]; eexists.
  - apply (m_put Upload abc_oid [(bs "size", bs "3")] [bs "abc"] [bs "put-object"; abc_oid; bs "with"; bs "love"]).
    + split_and!; [done|by apply args_one; vm_compute|done|exists (bs "3"), 3%N; split; [by left|done]|by constructor].
    + by apply says_of; [|vm_compute].
    + by exists [bs "with"; bs "love"].
  - apply (m_request Upload (RVerify abc_oid [(bs "size", bs "3")]) [bs "verify-object"; abc_oid]).
    + split_and!; [done|by apply args_one; vm_compute|by apply oid_no_sp].
    + by apply says_of; [|vm_compute].
    + by exists [].
  - apply (m_items Upload [] None [PData (bs "abc" ++ [NL])] [bs "batch"]).
    + by apply says_of; [|vm_compute].
    + by exists [].
    + split; constructor.
    + by apply not_elem_of_nil.
    + by left.
    + by apply never; vm_compute.
    + apply (bi_words [] (bs "abc")); [constructor|]. intros o z Ho' Hz E.
      assert (Hs : SP ∈ bs "abc") by (rewrite E; apply elem_of_app; right; by left).
      by apply (bool_decide_eq_false_1 (SP ∈ bs "abc")); [vm_compute|].
  - apply (m_version Upload [bs "version"; bs "1"] _ [PDelim; PData (bs "junk")]).
    + by apply says_of; [|vm_compute].
    + by exists [].
    + by apply never; vm_compute.
  - apply (m_turned Upload [bs "lock"; bs "now"]).
    + by apply says_of; [|vm_compute].
    + apply ta_operand. by apply occurs; vm_compute.
  - apply (m_args Upload (RList []) [bs "list-lock"] _ [PData (bs "limit=1" ++ [NL]); PData (bs "limit=2" ++ [NL])]); [done|done| | | |].
    + by apply says_of; [|vm_compute].
    + by exists [].
    + by apply never; vm_compute.
    + apply (ba_twice [(bs "limit", bs "1")] (bs "limit") (bs "2") []); [by apply args_one; vm_compute| |by left].
      by apply (bool_decide_eq_false_1 (EQ ∈ bs "limit")); vm_compute.
  - apply m_control. by left.
  - apply (m_turned Upload [bs "get-object"; bs "x"]); [by apply says_of; [|vm_compute]|by apply ta_read].
  - apply (m_request Upload (RVerify zero_oid [(bs "size", bs "3")]) [bs "verify-object"; zero_oid]).
    + split_and!; [done|by apply args_one; vm_compute|]. apply oid_no_sp. by apply oid_valid_iff.
    + by apply says_of; [|vm_compute].
    + by exists [].
Qed.
Definition strange_input : local := stdin2 (enc_all (concat strange) ++ bs "0008quit").
Notation strange_run :=
  (run 0 (transfer_run test_env 4000 lfs_dir 63 (Some noon) (operation Upload)) quiet strange_input fs0).
Example C58_case :
  setting test_env lfs_dir (Some noon) (eq noon) quiet /\ holds test_env lfs_dir fs0 (World ∅ ∅) /\
  Forall (fun g => exists x, means Upload g x) strange /\ wires (concat strange) (enc_all (concat strange)) /\ closing (bs "0008quit") [Reply 200 [] BNone] /\
  l_in strange_input = enc_all (concat strange) ++ bs "0008quit" /\
  enough 4000 strange_input (World ∅ ∅) /\
  output strange_run = bs "000eversion=1
0000000fstatus 200
0000000fstatus 200
0000000fstatus 500
00010020internal error: parse error
0000000fstatus 200
00010000000fstatus 400
00010014unknown command
0000000fstatus 400
00010030error: extra data: unexpected duplicate key
0000000fstatus 400
00010014unknown command
0000000fstatus 403
00010010not allowed
0000000fstatus 404
0001000dnot found0000000fstatus 200
0000".
Proof.
  split_and!; [exact demo_setting|exact fs0_holds|exact strange_means| | |done|apply enough_of; by vm_compute|by vm_compute].
  - apply wires_enc. refine (bool_decide_eq_true_1 _ _). by vm_compute.
  - apply (cl_quit (bs "quit") (bs "0008quit") []); [by apply says_of; [|vm_compute]|]. by apply wire_enc.
Qed.

(** ** C59 *)

(** Refuted: two messages of verify-object have no newline. *)
Definition three : list (bytes * bytes) := [(bs "size", bs "3")].
Theorem C59_lines_refuted : exists reqs as_ w' s',
  asks Upload (input_of reqs) reqs [] /\
  served test_env lfs_dir 63 (Some noon) (eq noon) Upload 0 4000 quiet (input_of reqs) fs0 (World ∅ ∅) reqs as_ [] w' s' /\
  exists a t, a ∈ as_ /\ t ∈ texts a /\ ~ line t.
Proof.
  set (reqs := [RVerify zero_oid three]).
  assert (Ho : is_oid zero_oid) by by apply oid_valid_iff.
  assert (Hn : number (bs "3") 3) by by apply parse_number.
  assert (Hk : args_ok three) by by apply args_one; vm_compute.
  assert (Hasks : asks Upload (input_of reqs) reqs []).
  { split.
    - apply Forall_singleton. split_and!; [done|done|]. by apply oid_no_sp.
    - exists (enc_all (concat (map packets_of reqs))), []. split_and!; [|constructor|by rewrite app_nil_r].
      apply wires_enc. refine (bool_decide_eq_true_1 _ _). by vm_compute. }
  destruct (C13_refines_abstract_server test_env lfs_dir 63 (Some noon) (eq noon) Upload 0 quiet (input_of reqs) fs0 (World ∅ ∅)
              reqs [] 4000) as (as_ & w' & s' & H); [exact demo_setting|exact fs0_holds|done|apply enough_of; by vm_compute|].
  exists reqs, as_, w', s'. split; [done|]. split; [exact H|]. destruct H as (l' & ps & out & _ & H & _).
  assert (G : session_of test_env Upload (l_uid (input_of reqs)) (eq noon) (World ∅ ∅) reqs
                [Reply 404 [] (BText (bs "not found"))] (World ∅ ∅)).
  { eapply s_cons; [|constructor]. eapply a_verify_none; [done|by left|done|]. done. }
  eapply C13_abstract_server_function in H as [<- _]; [|apply Hasks|exact G].
  eexists _, (bs "not found"). split; [by left|]. split; [by left|].
  intros [c E]. apply (f_equal (last (A := byte))) in E. rewrite last_snoc in E. by vm_compute in E.
Qed.
Print Assumptions C59_lines_refuted.

(** All others are lines. *)
Theorem C59_lines_partial en m uid clock w gs as_ w' a t :
  dialogue en m uid clock w gs as_ w' -> a ∈ as_ -> t ∈ texts a ->
  line t \/ (rp_code a = 404%N /\ t = bs "not found") \/ (rp_code a = 409%N /\ t = bs "mismatched size or cryptographic collision").
Proof. exact (c59 en m uid clock w gs as_ w' a t). Qed.
Print Assumptions C59_lines_partial.
Example C59_case :
  dialogue test_env Upload 0 (eq noon) (World ∅ ∅) [[PFlush]] [Reply 400 [] (BText (bs "unknown command" ++ [NL]))] (World ∅ ∅) /\
  bs "unknown command" ++ [NL] ∈ texts (Reply 400 [] (BText (bs "unknown command" ++ [NL]))).
Proof. split; [|by left]. eapply d_cons; [apply m_control; by left|by split|constructor]. Qed.
