(** Every input, whatever its bytes, gets the right answers: C60, C61. *)
From Verif Require Import Bytes Err FS Prog Pktline Args Local Processor Transfer Sha256 Rfc3339 Transcripts
  PktFacts PktProofs Spec SpecStore SpecServer SpecFrame SpecOdd SpecInput TextProofs SeqCmd SessionFacts OddProofs InputProofs
  Props_Store Props_Server Props_Odd.

(** ** C60 *)

(** All inputs are covered: whatever bytes a client sends, they can be read as
    requests, good, malformed, cut or broken, up to an end. *)
Theorem C60_every_input m i : exists xs e, reading m i xs e.
Proof. exact (c60_input m i). Qed.
Print Assumptions C60_every_input.

(** And the server answers as the abstract server does. *)
Theorem C60_every_answer en lfs umask ts (clock : Z -> Prop) m pid os l s w xs e fuel :
  setting en lfs ts clock os -> holds en lfs s w -> reading m (l_in l) xs e -> e <> AtSlash -> enough fuel l w ->
  exists as_ w' s', coped en lfs umask ts clock m pid fuel os l s w xs e as_ w' s'.
Proof. exact (c60 en lfs umask ts clock m pid os l s w xs e fuel). Qed.
Print Assumptions C60_every_answer.

(** Up to the first unlocking of an id with a slash, if there is one. *)
Theorem C60_until_slash en lfs umask ts (clock : Z -> Prop) m pid os l s w xs fuel :
  setting en lfs ts clock os -> holds en lfs s w -> reading m (l_in l) xs AtSlash -> enough fuel l w ->
  exists as_ w', coped_so_far en lfs umask ts clock m pid fuel os l s w xs as_ w'.
Proof. exact (c60_slash en lfs umask ts clock m pid os l s w xs fuel). Qed.
Print Assumptions C60_until_slash.

Lemma header_of h v : (exists a b c d, h = [a; b; c; d] /\ parse_header (a, b, c, d) = Ok v) -> header h v.
Proof. apply header_iff. Qed.
Ltac header := apply header_of; eexists _, _, _, _; split; [done|by vm_compute].
Lemma seen_text h d : header h (lenN d + 4) -> forall w, w = h ++ d -> seen (PData d) w.
Proof. intros H w ->. by constructor. Qed.
Lemma no_header_of a b c d : hdr_digit a = None -> no_header [a; b; c; d].
Proof.
  intros H. split; [done|]. intros v (a' & b' & c' & d' & x & y & z & w & E & Ha & _). injection E as -> -> -> ->.
  apply digit_iff in Ha. congruence.
Qed.

(** A header with a wrong digit, one that is none, a packet without a command, and an
    upload cut in its data. *)
Definition noise_put : bytes := bs "put-object " ++ abc_oid.
Definition noise : bytes :=
  (bs "000gversion 1 23" ++ bs "0000") ++ bs "000dlist-lock" ++ bs "zzzz" ++ bs "0004" ++
  (bs "004f" ++ noise_put) ++ (bs "000bsize=3" ++ [NL]) ++ bs "0001" ++ bs "0007ab".
Definition noise_means : list meaning :=
  [Does RVersion; Fixed 500 (bs "internal error: parse error"); Fixed 400 (bs "no command provided"); upload_cut].
Lemma noise_reading : reading Upload noise noise_means AtEof.
Proof.
  assert (Ho : is_oid abc_oid) by by apply oid_valid_iff.
  assert (Hn : number (bs "3") 3) by by apply parse_number.
  apply (rd_first _ _ _ (bs "000dlist-lock" ++ bs "zzzz" ++ bs "0004" ++ (bs "004f" ++ noise_put) ++
                         (bs "000bsize=3" ++ [NL]) ++ bs "0001" ++ bs "0007ab")).
  { apply (fi_whole _ [PData (bs "version 1 23"); PFlush]).
    - apply (m_version Upload [bs "version"; bs "1"; bs "23"] _ []); [by apply says_of; [|vm_compute]|by exists [bs "23"]|].
      apply not_elem_of_nil.
    - apply (seens_cons _ (bs "000gversion 1 23") _ (bs "0000")).
      + apply (seen_text (bs "000g")); [|done]. header.
      + apply seens_one, seen_flush. header. }
  apply (rd_first _ _ _ (bs "0004" ++ (bs "004f" ++ noise_put) ++ (bs "000bsize=3" ++ [NL]) ++ bs "0001" ++ bs "0007ab")).
  { apply (fi_broken _ [PData (bs "list-lock")]).
    - apply (br_locks Upload (RList []) [bs "list-lock"]); [done|done|by apply says_of; [|vm_compute]|by exists []|].
      apply not_elem_of_nil.
    - apply seens_one, (seen_text (bs "000d")); [|done]. header.
    - by apply no_header_of. }
  apply (rd_first _ _ _ ((bs "004f" ++ noise_put) ++ (bs "000bsize=3" ++ [NL]) ++ bs "0001" ++ bs "0007ab")).
  { apply (fi_whole _ [PData []]); [constructor|]. apply seens_one, (seen_text (bs "0004")); [|done]. header. }
  apply (rd_first _ _ _ []).
  { replace ((bs "004f" ++ noise_put) ++ (bs "000bsize=3" ++ [NL]) ++ bs "0001" ++ bs "0007ab")
      with (((bs "004f" ++ noise_put) ++ (bs "000bsize=3" ++ [NL]) ++ bs "0001") ++ bs "0007ab") by by rewrite <- !app_assoc.
    apply (fi_upload_cut _ noise_put three []).
    - exists abc_oid, (bs "3"), 3%N, [bs "put-object"; abc_oid]. split_and!; [done|done| |by exists []| |by left|done].
      + by apply says_of; [|vm_compute].
      + by apply args_one; vm_compute.
    - constructor.
    - apply seens_cons; [apply (seen_text (bs "004f")); [|done]; header|].
      apply seens_cons; [apply (seen_text (bs "000b")); [|done]; header|].
      apply seens_one, seen_delim. header.
    - apply (fr_data _ (bs "0007") 7 (bs "ab")); [header|done|done]. }
  apply rd_over, ov_eof, fr_header. by apply Nat.ltb_lt; vm_compute.
Qed.
Definition noise_input : local := stdin2 noise.
Notation noise_run :=
  (run 0 (transfer_run test_env 4000 lfs_dir 63 (Some noon) (operation Upload)) quiet noise_input fs0).
Example C60_case :
  setting test_env lfs_dir (Some noon) (eq noon) quiet /\ holds test_env lfs_dir fs0 (World ∅ ∅) /\
  reading Upload (l_in noise_input) noise_means AtEof /\ AtEof <> AtSlash /\ enough 4000 noise_input (World ∅ ∅) /\
  output noise_run = bs "000eversion=1
0000000fstatus 200
00010000000fstatus 500
00010020internal error: parse error
0000000fstatus 400
00010018no command provided
0000000fstatus 500
00010054internal error: fatal: I/O error: fatal: I/O error: failed to fill whole buffer
0000".
Proof.
  split_and!; [exact demo_setting|exact fs0_holds|exact noise_reading|done|apply enough_of; by vm_compute|by vm_compute].
Qed.

(** ** C61 *)

(** Refuted: after four bytes that are no header the server goes on with the next
    bytes if it was reading the arguments of a request. *)
Definition next_kvs : list (bytes * bytes) := [(bs "path", bs "a"); (bs "refname", bs "b")].
Definition next_lock : bytes :=
  (bs "0008lock") ++ (bs "000bpath=a" ++ [NL]) ++ (bs "000erefname=b" ++ [NL]) ++ bs "0000".
Lemma next_ok : args_ok next_kvs.
Proof.
  split; [|refine (bool_decide_eq_true_1 _ _); by vm_compute].
  repeat (apply Forall_cons; split); [..|constructor].
  - by apply (bool_decide_eq_false_1 (EQ ∈ bs "path")); vm_compute.
  - by apply (bool_decide_eq_false_1 (EQ ∈ bs "refname")); vm_compute.
Qed.
Lemma next_first : first Upload next_lock (Does (RLock next_kvs)) [].
Proof.
  rewrite <- (app_nil_r next_lock).
  apply (fi_whole _ (PData (bs "lock") :: args next_kvs ++ [PFlush])).
  - apply (m_request Upload (RLock next_kvs) [bs "lock"]); [|by apply says_of; [|vm_compute]|by exists []].
    split; [done|exact next_ok].
  - apply seens_cons; [apply (seen_text (bs "0008")); [header|done]|].
    apply seens_cons; [apply (seen_text (bs "000b")); [header|done]|].
    apply seens_cons; [apply (seen_text (bs "000e")); [header|done]|].
    apply seens_one, seen_flush. header.
Qed.
Lemma carried_out b code t : first Upload (b ++ next_lock) (Fixed code t) next_lock ->
  (2 * lenN (b ++ next_lock) + 2 <=? 4000)%N = true ->
  exists as_ w' s',
    coped test_env lfs_dir 63 (Some noon) (eq noon) Upload 0 4000 quiet (stdin2 (b ++ next_lock)) fs0 (World ∅ ∅)
      [Fixed code t; Does (RLock next_kvs)] AtEof as_ w' s' /\
    map rp_code as_ = [code; 201]%N /\ w_locks w' <> ∅.
Proof.
  intros H Hlen.
  destruct (C60_every_answer test_env lfs_dir 63 (Some noon) (eq noon) Upload 0 quiet (stdin2 (b ++ next_lock)) fs0
    (World ∅ ∅) [Fixed code t; Does (RLock next_kvs)] AtEof 4000) as (as_ & w' & s' & G); [exact demo_setting|exact fs0_holds| |done| |].
  { eapply rd_first; [exact H|]. eapply rd_first; [exact next_first|]. apply rd_over, ov_eof, fr_header. by apply Nat.ltb_lt; vm_compute. }
  { apply enough_of; [exact Hlen|by vm_compute]. }
  exists as_, w', s'. split; [exact G|]. destruct G as (l' & ps & out & _ & G & _).
  inversion G as [|? ? a w1 ? as1 ? Ha G1]; subst. destruct Ha as [-> ->].
  inversion G1 as [|? ? a w1 ? as2 ? Ha G2]; subst. inversion G2; subst.
  assert (Hx : exists x, en_time test_env noon = Some x) by (eexists; by vm_compute). destruct Hx as [x Hx].
  assert (Hb : answer_of test_env Upload 1000 (eq noon) (World ∅ ∅) (RLock next_kvs) (Reply 201 (lock_info test_env (bs "a") x 1000) BNone)
    (World ∅ (<[lock_id (en_hash test_env) (bs "a") := (bs "a", noon, 1000%N)]> ∅))).
  { apply (a_lock test_env Upload 1000 (eq noon) (World ∅ ∅) next_kvs (bs "a") (bs "b") noon noon x); [by left|by right; left|apply lookup_empty|done|done|exact Hx]. }
  eapply (answer_fun test_env Upload) in Ha as [<- <-]; [| |exact Hb].
  - split; [done|]. cbn [w_locks]. apply insert_non_empty.
  - split; [done|exact next_ok].
Qed.

Theorem C61_stops_refuted : exists ps w h as_ w' s',
  seens ps w /\ no_header h /\
  coped test_env lfs_dir 63 (Some noon) (eq noon) Upload 0 4000 quiet (stdin2 ((w ++ h) ++ next_lock)) fs0 (World ∅ ∅)
    [Fixed 500 (bs "internal error: parse error"); Does (RLock next_kvs)] AtEof as_ w' s' /\
  map rp_code as_ = [500; 201]%N /\ w_locks w' <> ∅.
Proof.
  destruct (carried_out (bs "000dlist-lock" ++ bs "zzzz") 500 (bs "internal error: parse error")) as (as_ & w' & s' & H);
    [|by vm_compute|].
  - rewrite <- app_assoc. apply (fi_broken _ [PData (bs "list-lock")]).
    + apply (br_locks Upload (RList []) [bs "list-lock"]); [done|done|by apply says_of; [|vm_compute]|by exists []|].
      apply not_elem_of_nil.
    + apply seens_one, (seen_text (bs "000d")); [|done]. header.
    + by apply no_header_of.
  - exists [PData (bs "list-lock")], (bs "000dlist-lock"), (bs "zzzz"), as_, w', s'. split_and!; [|by apply no_header_of|apply H..].
    apply seens_one, (seen_text (bs "000d")); [|done]. header.
Qed.
Print Assumptions C61_stops_refuted.

(** So the data of a packet that is too long for an upload are taken as requests. *)
Theorem C61_content_refuted : exists ps w h as_ w' s',
  seens ps w /\ header h 65525 /\
  coped test_env lfs_dir 63 (Some noon) (eq noon) Upload 0 4000 quiet (stdin2 ((w ++ h) ++ next_lock)) fs0 (World ∅ ∅)
    [upload_broken; Does (RLock next_kvs)] AtEof as_ w' s' /\
  map rp_code as_ = [500; 201]%N /\ w_locks w' <> ∅.
Proof.
  assert (Ho : is_oid abc_oid) by by apply oid_valid_iff.
  assert (Hn : number (bs "3") 3) by by apply parse_number.
  set (w := (bs "004f" ++ noise_put) ++ (bs "000bsize=3" ++ [NL]) ++ bs "0001").
  assert (Hw : seens (PData noise_put :: args three ++ [PDelim] ++ lines []) w).
  { apply seens_cons; [apply (seen_text (bs "004f")); [|done]; header|].
    apply seens_cons; [apply (seen_text (bs "000b")); [|done]; header|].
    apply seens_one, seen_delim. header. }
  assert (Hh : header (bs "fff5") 65525) by header.
  destruct (carried_out (w ++ bs "fff5") 500 (bs "internal error: fatal: I/O error: malformed or unknown pkt-line header"))
    as (as_ & w' & s' & H); [|by vm_compute|].
  - rewrite <- app_assoc. apply (fi_upload_broken _ noise_put three []).
    + exists abc_oid, (bs "3"), 3%N, [bs "put-object"; abc_oid]. split_and!; [done|done| |by exists []| |by left|done].
      * by apply says_of; [|vm_compute].
      * by apply args_one; vm_compute.
    + constructor.
    + exact Hw.
    + split; [done|]. intros v Hv. apply header_iff in Hv as (a & b & c & d & E & Hv). injection E as <- <- <- <-.
      vm_compute in Hv. injection Hv as <-. by right; right.
  - exists (PData noise_put :: args three ++ [PDelim] ++ lines []), w, (bs "fff5"), as_, w', s'. split_and!; [done|done|apply H..].
Qed.
Print Assumptions C61_content_refuted.

(** Between two requests four bytes that are no header end the session, whatever
    follows them. *)
Theorem C61_stops_partial en lfs umask ts (clock : Z -> Prop) m pid os l s w gs inp h tl fuel :
  setting en lfs ts clock os -> holds en lfs s w ->
  Forall (fun g => exists x, means m g x) gs -> seens (concat gs) inp -> no_header h -> l_in l = inp ++ h ++ tl ->
  enough fuel l w ->
  exists as_ w' s' l' ps out,
    run pid (transfer_run en fuel lfs umask ts (operation m)) os l s = (Done (Er (err_simple BadPktlineHeader)), l', s') /\
    dialogue en m (l_uid l) clock w gs as_ w' /\ represents en lfs s' w' /\ replies_sent as_ ps /\
    wires (PData (bs "version=1" ++ [NL]) :: PFlush :: ps) out /\ l_out l' = l_out l ++ out.
Proof. exact (c61 en lfs umask ts clock m pid os l s w gs inp h tl fuel). Qed.
Print Assumptions C61_stops_partial.

Example C61_case :
  setting test_env lfs_dir (Some noon) (eq noon) quiet /\ holds test_env lfs_dir fs0 (World ∅ ∅) /\
  Forall (fun g => exists x, means Upload g x) [[PData []]] /\ seens (concat [[PData []]]) (bs "0004") /\
  no_header (bs "zzzz") /\ l_in (stdin2 (bs "0004" ++ bs "zzzz" ++ next_lock)) = bs "0004" ++ bs "zzzz" ++ next_lock /\
  enough 4000 (stdin2 (bs "0004" ++ bs "zzzz" ++ next_lock)) (World ∅ ∅) /\
  output (run 0 (transfer_run test_env 4000 lfs_dir 63 (Some noon) (operation Upload)) quiet
    (stdin2 (bs "0004" ++ bs "zzzz" ++ next_lock)) fs0) = bs "000eversion=1
0000000fstatus 400
00010018no command provided
0000".
Proof.
  split_and!; [exact demo_setting|exact fs0_holds| | |by apply no_header_of|done|apply enough_of; by vm_compute|by vm_compute].
  - apply Forall_singleton. eexists. constructor.
  - apply seens_one, (seen_text (bs "0004")); [|done]. header.
Qed.
