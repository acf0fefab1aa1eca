(** Every input gets the right answers, ids with a slash included, and what makes the
    server panic: C65, C66. *)
From Verif Require Import Bytes Err FS Prog Pktline Args Local Processor Transfer Sha256 Rfc3339 Transcripts
  PktFacts PktProofs Spec SpecStore SpecServer SpecFrame SpecOdd SpecSecret SpecInput SpecAll TextProofs SeqCmd SessionFacts OddProofs
  InputProofs AllProofs Props_Store Props_Server Props_Odd Props_Input Props_Secret.

(** ** C65 *)
Theorem C65_every_input m i : exists xs e, reading_all m i xs e.
Proof. exact (c65_input m i). Qed.
Print Assumptions C65_every_input.

Theorem C65_every_answer en lfs umask ts (clock : Z -> Prop) m pid os l s w xs e fuel :
  setting en lfs ts clock os -> holds en lfs s w -> reading_all m (l_in l) xs e -> enough fuel l w ->
  (exists as_ w' s', coped_all en lfs umask ts clock m pid fuel os l s w xs e as_ w' s') \/
  (exists xs1 i xs2 as_ w' s', xs = xs1 ++ Slash i :: xs2 /\
     panicked en lfs umask ts clock m pid fuel os l s w xs1 i as_ w' s').
Proof. exact (c65 en lfs umask ts clock m pid os l s w xs e fuel). Qed.
Print Assumptions C65_every_answer.

Lemma seen_enc p : (lenN (payload p) <=? 65531)%N = true -> seen p (enc p).
Proof.
  intros H. apply N.leb_le in H. pose proof (decode_enc 65535 p []) as D. rewrite app_nil_r in D.
  assert (E : decode 65535 (enc p) = (Ok p, [])) by (apply D; rewrite <- ?payload_len; lia). clear D.
  destruct (packet_cases 65535 (enc p)) as [Hf|[(q & w & tl & Ew & Hq & _)|(h & tl & Ew & Hl & Hh)]]; [by left|..].
  - by rewrite (fragment_decode _ _ Hf) in E.
  - rewrite Ew, (seen_decode_any _ _ _ Hq) in E. injection E as -> ->. by rewrite Ew, app_nil_r.
  - rewrite Ew in E. rewrite (no_header_decode h tl) in E; [done|]. split; [done|].
    intros v Hv. pose proof (header_lt _ _ Hv). destruct (Hh v Hv) as [?|[?|?]]; [by left|by right|lia].
Qed.
Lemma seens_enc ps : forallb (fun p => lenN (payload p) <=? 65531)%N ps = true -> seens ps (enc_all ps).
Proof.
  induction ps as [|p ps IH]; [constructor|]. cbn [forallb]. intros [H1 H2]%andb_true_iff. constructor; [by apply seen_enc|by apply IH].
Qed.

(** A client locks "a", uploads the text "v1:5:a", and unlocks: the object, a
    directory, a file of the server that is not there, and the object again. *)
Definition put5 : request := RPut oid5 [(bs "size", bs "6")] [record5].
Definition ask_slash (i : bytes) : bytes := enc_all (PData (bs "unlock " ++ i ++ [NL]) :: [] ++ [PFlush]).
Definition sly : bytes :=
  next_lock ++ enc_all (packets_of put5) ++ ask_slash (object_id oid5) ++ ask_slash (bs "../tmp") ++
  ask_slash (bs "/none") ++ ask_slash (object_id oid5).
Definition sly_asks : list asks :=
  [Known (Does (RLock next_kvs)); Known (Does put5); Slash (object_id oid5); Slash (bs "../tmp"); Slash (bs "/none");
   Slash (object_id oid5)].
Lemma lock_first tl : first Upload (next_lock ++ tl) (Does (RLock next_kvs)) tl.
Proof.
  apply (fi_whole _ (PData (bs "lock") :: args next_kvs ++ [PFlush])).
  - apply (m_request Upload (RLock next_kvs) [bs "lock"]); [|by apply says_of; [|vm_compute]|by exists []].
    split; [done|exact next_ok].
  - change next_lock with (enc_all (PData (bs "lock") :: args next_kvs ++ [PFlush])). apply seens_enc. by vm_compute.
Qed.
Lemma put5_first tl : first Upload (enc_all (packets_of put5) ++ tl) (Does put5) tl.
Proof.
  assert (Ho : is_oid oid5) by by apply oid_valid_iff.
  apply (fi_whole _ (packets_of put5)); [|apply seens_enc; by vm_compute].
  apply (m_request Upload put5 [bs "put-object"; oid5]); [|by apply says_of; [|vm_compute]|by exists []].
  split_and!; [done|by apply args_one; vm_compute|done| |].
  - exists (bs "6"), 6%N. split; [by left|]. by apply parse_number.
  - apply Forall_singleton. by apply N.leb_le; vm_compute.
Qed.
Lemma slash_first i tl : command_words (bs "unlock " ++ i ++ [NL]) = [bs "unlock"; i] -> utf8_valid i = true ->
  bool_decide (Byte.x00 ∈ i) = false -> bool_decide (SLASH ∈ i) = true -> (lenN i <=? 60000)%N = true ->
  first_all Upload (ask_slash i ++ tl) (Slash i) tl.
Proof.
  intros Hw Hu Hz Hs Hl. apply N.leb_le in Hl. eapply (fa_slash Upload (bs "unlock " ++ i ++ [NL]) i []).
  - exists [bs "unlock"; i]. split_and!; [done| |by exists []|done|by apply bool_decide_eq_false in Hz|by apply bool_decide_eq_true in Hs].
    rewrite <- Hw. by apply says_some.
  - apply not_elem_of_nil.
  - apply seens_enc. cbn [app forallb payload]. apply andb_true_iff. split; [|done]. apply N.leb_le.
    unfold lenN in *. rewrite !app_length. simpl (length (bs "unlock ")). simpl (length [NL]). lia.
Qed.

Ltac sly := apply slash_first; by vm_compute.
Lemma sly_reading : reading_all Upload sly sly_asks AtEof.
Proof.
  eapply ra_first; [apply fa_known, lock_first|]. eapply ra_first; [apply fa_known, put5_first|].
  do 3 (eapply ra_first; [sly|]). rewrite <- (app_nil_r (ask_slash (object_id oid5))). eapply ra_first; [sly|].
  apply ra_over; [|done]. apply ov_eof, fr_header. by apply Nat.ltb_lt; vm_compute.
Qed.
Definition sly_input : local := stdin2 sly.
Notation sly_run := (run 0 (transfer_run test_env 4000 lfs_dir 63 (Some noon) (operation Upload)) quiet sly_input fs0).
Example C65_case :
  setting test_env lfs_dir (Some noon) (eq noon) quiet /\ holds test_env lfs_dir fs0 (World ∅ ∅) /\
  reading_all Upload (l_in sly_input) sly_asks AtEof /\ enough 4000 sly_input (World ∅ ∅) /\
  output sly_run = bs "000eversion=1
0000000fstatus 201
0048id=c9eac6694eb5c5074c7ded2bd29424e7d2d4e4f1a45b15ba44bdeeeb272fdf5d
000bpath=a
0028locked-at=2001-09-17T00:00:00+00:00
0018ownername=test user
0000000fstatus 200
0000000fstatus 200
0048id=c9eac6694eb5c5074c7ded2bd29424e7d2d4e4f1a45b15ba44bdeeeb272fdf5d
000bpath=a
0028locked-at=1970-01-01T00:00:05+00:00
0018ownername=test user
0000000fstatus 500
00010043internal error: fatal: I/O error: Is a directory (os error 21)
0000000fstatus 404
0001000enot found
0000000fstatus 404
0001000enot found
0000".
Proof.
  split_and!; [exact demo_setting|exact fs0_holds|exact sly_reading|apply enough_of; by vm_compute|by vm_compute].
Qed.

(** ** C66 *)

(** Refuted: a client can upload a text that looks like the record of a lock held in
    the far future, and unlock that. *)
Definition late : bytes := bs "v1:9000000000000000000:a".
Definition late_oid : bytes := bs "95b0559af7074bfa06dc7a1477dc2440a47d79cdaddab3886c287eb6ae327a44".
Definition late_kvs : list (bytes * bytes) := [(bs "size", bs "24")].
Definition crash : bytes := enc_all (packets_of (RPut late_oid late_kvs [late])) ++ ask_slash (object_id late_oid).
Theorem C66_no_panic_refuted : exists l s', 
  setting test_env lfs_dir (Some noon) (eq noon) quiet /\ holds test_env lfs_dir fs0 (World ∅ ∅) /\
  enough 4000 (stdin2 crash) (World ∅ ∅) /\
  run 0 (transfer_run test_env 4000 lfs_dir 63 (Some noon) (operation Upload)) quiet (stdin2 crash) fs0 = (Failed PBadTime, l, s').
Proof.
  set (r := run _ _ _ _ _). exists r.1.2, r.2. split_and!; [exact demo_setting|exact fs0_holds|apply enough_of; by vm_compute|].
  assert (r.1.1 = Failed PBadTime) by by vm_compute. destruct r as [[a l'] s']. simpl in *. by subst.
Qed.
Print Assumptions C66_no_panic_refuted.

(** No other input makes it panic: the last request it reads unlocks an id with a
    slash that leads to such a text.  All requests before have been answered, and
    what it was to change is as they left it. *)
Theorem C66_no_panic_partial en lfs umask ts (clock : Z -> Prop) m pid os l s w fuel f l' s' :
  setting en lfs ts clock os -> holds en lfs s w -> enough fuel l w ->
  run pid (transfer_run en fuel lfs umask ts (operation m)) os l s = (Failed f, l', s') ->
  f = PBadTime /\ exists xs1 i xs2 e as_ w', reading_all m (l_in l) (xs1 ++ Slash i :: xs2) e /\
    panicked en lfs umask ts clock m pid fuel os l s w xs1 i as_ w' s'.
Proof.
  intros H1 H2 H3 E. destruct (c65_input m (l_in l)) as (xs & e & Hrd).
  destruct (c65 en lfs umask ts clock m pid os l s w xs e fuel H1 H2 Hrd H3) as [(as_ & w' & s1 & G)|(xs1 & i & xs2 & as_ & w' & s1 & -> & G)].
  - destruct G as (l1 & ps & out & G & _). by rewrite E in G.
  - pose proof G as (l1 & ps & out & G' & _). rewrite E in G'. injection G' as -> -> ->. split; [done|]. by exists xs1, i, xs2, e, as_, w'.
Qed.
Print Assumptions C66_no_panic_partial.
Example C66_case : exists l s',
  setting test_env lfs_dir (Some noon) (eq noon) quiet /\ holds test_env lfs_dir fs0 (World ∅ ∅) /\
  enough 4000 (stdin2 crash) (World ∅ ∅) /\
  run 0 (transfer_run test_env 4000 lfs_dir 63 (Some noon) (operation Upload)) quiet (stdin2 crash) fs0 = (Failed PBadTime, l, s').
Proof. exact C66_no_panic_refuted. Qed.
