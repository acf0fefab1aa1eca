(** Properties C01-C08: the pkt-line module. *)
From Verif Require Import Bytes Err FS Prog Pktline Spec Frag PktProofs.

(** C01.  Packets written are packets read, in the documented wire format. *)
Theorem C01_packet_round_trip ps tl pid os os' l l' s s' :
  Forall (fun p => lenN (payload p) <= 65531)%N ps -> fault_free os -> fault_free os' ->
  exists w, run pid (write_packets ps) os l s = (Done (Ok tt), add_out w l, s) /\
    wires ps w /\
    (l_in l' = w ++ tl ->
     run pid (read_packets (length ps)) os' l' s' = (Done (Ok ps), set_in tl l', s')).
Proof. exact (c01 ps tl pid os os' l l' s s'). Qed.
Print Assumptions C01_packet_round_trip.

Definition C01_packets : list packet :=
  [PData (bs "hello"); PDelim; PData []; PData (replicate (N.to_nat 65531) Byte.x61); PFlush].
Example C01_hypotheses : Forall (fun p => lenN (payload p) <= 65531)%N C01_packets.
Proof. repeat constructor; vm_compute; done. Qed.
Example C01_wire : wires [PData (bs "hello"); PFlush] (bs "0009hello0000").
Proof.
  change (bs "0009hello0000") with ((bs "0009" ++ bs "hello") ++ bs "0000" ++ []).
  repeat constructor. exists Byte.x30, Byte.x30, Byte.x30, Byte.x39, 0%N, 0%N, 0%N, 9%N. done.
Qed.

(** C02.  A buffer written with [io::Write] and closed by a flush packet is read
    back by any sequence of non-empty reads. *)
Theorem C02_stream_round_trip buf tl ns fuel pid os os' l l' s s' :
  fault_free os -> fault_free os' ->
  Forall (fun n => 1 <= n)%N ns -> (length buf < length ns)%nat ->
  (length (l_in l') < fuel)%nat ->
  exists cs w, run pid (write_stream buf) os l s = (Done (Ok (lenN buf)), add_out w l, s) /\
    wires (map PData cs ++ [PFlush]) w /\ concat cs = buf /\
    Forall (fun c => 1 <= lenN c <= 65516)%N cs /\
    (l_in l' = w ++ tl ->
     exists out, run pid (read_to_end fuel ns rb_empty) os' l' s' =
                 (Done (Some out), set_in tl l', s') /\
       concat out = buf /\ pieces_fit out ns).
Proof. exact (c02 buf tl ns fuel pid os os' l l' s s'). Qed.
Print Assumptions C02_stream_round_trip.

Example C02_hypotheses :
  let ns := [1; 2; 65516; 70000; 3]%N in
  Forall (fun n => 1 <= n)%N ns /\ (length (bs "abcd") < length ns)%nat /\
  run 0 (read_to_end 40 ns rb_empty) calm (stdin (bs "0006ab0006cd0000rest")) no_files
  = (Done (Some [bs "a"; bs "b"; bs "cd"]), stdin (bs "rest"), no_files).
Proof. split_and!; [by repeat constructor|by vm_compute; lia|by vm_compute]. Qed.

(** C03.  Refuted: "g000" is taken for a flush packet, ":" for the digit ten, and
    the sum can wrap around. *)
Theorem C03_header_syntax_refuted :
  exists h, (forall v, ~ hex4 h v) /\ length h = 4%nat /\
  run 0 read_packet calm (stdin h) no_files = (Done (Ok PFlush), stdin [], no_files).
Proof. exact c03_refuted. Qed.
Print Assumptions C03_header_syntax_refuted.

(** C03, what holds: every four lower-case hexadecimal digits denote their number. *)
Theorem C03_hex_header_partial h v tl pid os l s :
  fault_free os -> hex4 h v -> l_in l = h ++ tl ->
  run pid read_packet os l s =
  if (v =? 0)%N then (Done (Ok PFlush), set_in tl l, s)
  else if (v =? 1)%N then (Done (Ok PDelim), set_in tl l, s)
  else if (v <? 4)%N then (Done (Er (err_simple BadPktlineHeader)), set_in tl l, s)
  else if (v - 4 <=? lenN tl)%N
  then (Done (Ok (PData (take (N.to_nat (v - 4)) tl))),
        set_in (drop (N.to_nat (v - 4)) tl) l, s)
  else (Done (Er (err_of_io EEOF)), set_in [] l, s).
Proof. exact (c03_good h v tl pid os l s). Qed.
Print Assumptions C03_hex_header_partial.

(** C03, what holds: any character outside 0-9 : a-g makes the header rejected. *)
Theorem C03_bad_header_partial a b c d tl pid os l s :
  fault_free os -> l_in l = a :: b :: c :: d :: tl ->
  ~ (lenient a /\ lenient b /\ lenient c /\ lenient d) ->
  run pid read_packet os l s = (Done (Er (err_simple BadPktlineHeader)), set_in tl l, s).
Proof. exact (c03_bad_rejected a b c d tl pid os l s). Qed.
Print Assumptions C03_bad_header_partial.

Example C03_hypotheses : hex4 (bs "00af") 175 /\ ~ lenient Byte.x41 /\ ~ lenient Byte.x68.
Proof.
  split_and!.
  - exists Byte.x30, Byte.x30, Byte.x61, Byte.x66, 0%N, 0%N, 10%N, 15%N. done.
  - intros H. by apply (bool_decide_pack _) in H.
  - intros H. by apply (bool_decide_pack _) in H.
Qed.

(** C04.  Refuted: [read_packet] accepts a packet of 65521 bytes. *)
Theorem C04_size_limit_refuted :
  exists i d, lenN i = 65521%N /\
  run 0 read_packet calm (stdin i) no_files = (Done (Ok (PData d)), stdin [], no_files) /\
  lenN d = 65517%N.
Proof. exact c04_refuted. Qed.
Print Assumptions C04_size_limit_refuted.

(** C04, what holds: [Reader::read] rejects every such packet, and [read_packet]
    returns at most 65531 bytes. *)
Theorem C04_read_limit_partial pid os l s h v tl n fuel rb :
  fault_free os -> hex4 h v -> (65520 < v)%N -> l_in l = h ++ tl ->
  (1 <= n)%N -> buffer_ok rb -> unread rb = [] -> (length (l_in l) < fuel)%nat ->
  run pid (reader_read fuel n rb) os l s =
  (Done (IErr (IoErr KInvalidData (bs "malformed or unknown pkt-line header")), rb), set_in tl l, s).
Proof. exact (c04_read pid os l s h v tl n fuel rb). Qed.
Print Assumptions C04_read_limit_partial.

Theorem C04_packet_bound_partial pid os l s d l' s' :
  fault_free os ->
  run pid read_packet os l s = (Done (Ok (PData d)), l', s') -> (lenN d <= 65531)%N.
Proof. exact (c04_packet_bound pid os l s d l' s'). Qed.
Print Assumptions C04_packet_bound_partial.

Example C04_hypotheses : hex4 (bs "fff1") 65521 /\ buffer_ok rb_empty /\ unread rb_empty = [].
Proof.
  split_and!; try done.
  exists Byte.x66, Byte.x66, Byte.x66, Byte.x31, 15%N, 15%N, 15%N, 1%N. done.
Qed.

(** C05.  A process fed fragment by fragment does exactly what it does when the
    whole input is there at once: same result, same output, same files. *)
Theorem C05_fragmentation {A} pid (p : prog A) os frs l s :
  Forall (fun f => f <> []) frs ->
  let '(r, frs', l', s') := run_frag pid p os frs l s in
  run pid p os (set_in (concat frs) l) s = (r, set_in (concat frs') l', s').
Proof. exact (run_frag_spec pid p os frs l s). Qed.
Print Assumptions C05_fragmentation.

Example C05_case :
  run_frag 0 (read_packets 2) calm [bs "00"; bs "09h"; bs "ello00"; bs "00x"] (stdin []) no_files
  = (Done (Ok [PData (bs "hello"); PFlush]), [bs "x"], stdin [], no_files).
Proof. by vm_compute. Qed.

(** C06.  Refuted: a read with an empty buffer discards what is pending. *)
Theorem C06_no_loss_refuted :
  exists i, wires [PData (bs "abc"); PData (bs "def"); PFlush] i /\
  run 0 (read_each 40 [1; 0; 9; 9]%N rb_empty) calm (stdin i) no_files
  = (Done (IOk [bs "a"; []; bs "def"; []]), stdin [], no_files).
Proof. exact c06_refuted. Qed.
Print Assumptions C06_no_loss_refuted.

(** C06, what holds: with non-empty buffers, from any buffer state and for any
    packetisation (empty packets included), the reads return first what is
    pending and then the payloads, in order and completely. *)
Theorem C06_no_loss_partial fuel ns rb ds e w tl pid os l s :
  Forall (fun n => 1 <= n)%N ns -> (length (unread rb ++ concat ds) < length ns)%nat ->
  (length (l_in l) < fuel)%nat -> buffer_ok rb ->
  Forall (fun d => lenN d <= 65516)%N ds -> e = PFlush \/ e = PDelim ->
  wires (map PData ds ++ [e]) w -> l_in l = w ++ tl -> fault_free os ->
  exists out, run pid (read_to_end fuel ns rb) os l s = (Done (Some out), set_in tl l, s) /\
    concat out = unread rb ++ concat ds /\ pieces_fit out ns.
Proof. exact (c06_stream fuel ns rb ds e w tl pid os l s). Qed.
Print Assumptions C06_no_loss_partial.

(** The states [buffer_ok] describes are kept by every read, of any size and
    with any faults. *)
Theorem C06_buffer_ok pid fuel n rb os l s r rb' l' s' :
  buffer_ok rb -> run pid (reader_read fuel n rb) os l s = (Done (r, rb'), l', s') ->
  buffer_ok rb'.
Proof. exact (buffer_ok_preserved pid fuel n rb os l s r rb' l' s'). Qed.
Print Assumptions C06_buffer_ok.

Example C06_hypotheses :
  buffer_ok (RBuf (bs "abc") 1 3) /\ unread (RBuf (bs "abc") 1 3) = bs "bc" /\
  run 0 (read_to_end 40 [1; 3; 3; 3; 3; 3; 3]%N (RBuf (bs "abc") 1 3)) calm
    (stdin (bs "00040007def0001z")) no_files
  = (Done (Some [bs "b"; bs "c"; bs "def"]), stdin (bs "z"), no_files).
Proof. split_and!; by vm_compute. Qed.

(** C07.  A read with a non-empty buffer returns nothing only when it has consumed
    a flush or delim packet, after skipping empty data packets. *)
Theorem C07_end_of_data pid os l s n fuel rb rb' l' s' :
  fault_free os -> (1 <= n)%N -> buffer_ok rb -> (length (l_in l) < fuel)%nat ->
  run pid (reader_read fuel n rb) os l s = (Done (IOk [], rb'), l', s') ->
  unread rb = [] /\ unread rb' = [] /\ s' = s /\
  exists k e, (e = PFlush \/ e = PDelim) /\
  forall os, fault_free os ->
  run pid (read_packets (S k)) os l s = (Done (Ok (replicate k (PData []) ++ [e])), l', s).
Proof. exact (c07 pid os l s n fuel rb rb' l' s'). Qed.
Print Assumptions C07_end_of_data.

Example C07_case :
  run 0 (reader_read 40 5 rb_empty) calm (stdin (bs "000400040001x")) no_files
  = (Done (IOk [], rb_empty), stdin (bs "x"), no_files).
Proof. by vm_compute. Qed.

(** C08.  An encoded packet cut anywhere gives an unexpected-end-of-file error. *)
Theorem C08_truncation p w a b pid os l s :
  fault_free os -> wire p w -> w = a ++ b -> b <> [] -> l_in l = a ->
  exists e, run pid read_packet os l s = (Done (Er e), set_in [] l, s) /\
    io_kind e = KUnexpectedEof.
Proof. exact (c08 p w a b pid os l s). Qed.
Print Assumptions C08_truncation.

(** The same through [Reader::read], after any number of empty packets. *)
Theorem C08_read_truncation k p w a b n fuel rb pid os l s :
  fault_free os -> wire p w -> w = a ++ b -> b <> [] ->
  match p with PData d => (lenN d <= 65516)%N | _ => True end ->
  l_in l = concat (replicate k (bs "0004")) ++ a ->
  (1 <= n)%N -> buffer_ok rb -> unread rb = [] -> (length (l_in l) < fuel)%nat ->
  exists x, run pid (reader_read fuel n rb) os l s = (Done (IErr x, rb), set_in [] l, s) /\
    io_kind_of x = KUnexpectedEof.
Proof. exact (c08_read k p w a b n fuel rb pid os l s). Qed.
Print Assumptions C08_read_truncation.

Example C08_case : wire (PData (bs "hello")) (bs "0009hel" ++ bs "lo").
Proof.
  change (bs "0009hel" ++ bs "lo") with (bs "0009" ++ bs "hello").
  constructor. exists Byte.x30, Byte.x30, Byte.x30, Byte.x39, 0%N, 0%N, 0%N, 9%N. done.
Qed.
