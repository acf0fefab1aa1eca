(** scutiger-core/src/pktline.rs *)
From Verif Require Import Bytes Err FS Prog.

(** pktline.rs 61 and 170 [MAX_PACKET_LEN]. *)
Definition MAX_PACKET_LEN : N := 65516.

(** pktline.rs 10-27 [PacketType], [Packet].  [Packet] stores a type and a
    payload; the length inside [PacketType::Data] is never used by the writer,
    so a data packet is its payload. *)
Inductive packet := PFlush | PDelim | PData (d : bytes).
Global Instance packet_eq_dec : EqDecision packet.
Proof. solve_decision. Defined.

(** pktline.rs 45-50 [Packet::data]. *)
Definition pkt_data (p : packet) : option bytes :=
  match p with PData d => Some d | _ => None end.

(** ** Reader *)

(** pktline.rs 111-115: one header digit.  The ranges are b'0'...b':' and
    b'a'...b'g', as written. *)
Definition hdr_digit (x : byte) : option N :=
  if byte_in Byte.x30 Byte.x3a x then Some (bN x - 48)%N
  else if byte_in Byte.x61 Byte.x67 x then Some (bN x - 97 + 10)%N
  else None.

(** [(v as u16) << k]: bits shifted out of the 16 are lost. *)
Definition shl16 (v k : N) : N := (N.shiftl v k mod 65536)%N.

(** pktline.rs 106-120 [parse_header].  [sum] on u16 wraps in release builds,
    which is what the Makefile builds; a debug build would panic instead when
    the sum passes 65535. *)
Definition parse_header (h : byte * byte * byte * byte) : res N :=
  let '(a, b, c, d) := h in
  match hdr_digit a, hdr_digit b, hdr_digit c, hdr_digit d with
  | Some x, Some y, Some z, Some w =>
      Ok ((shl16 x 12 + shl16 y 8 + shl16 z 4 + shl16 w 0) mod 65536)%N
  | _, _, _, _ => Er (err_simple BadPktlineHeader)
  end.

(** [read_exact] of the 4-byte array [hdr] (lines 73-74, 91-92). *)
Definition read_header : prog (res N) :=
  let? h := io_call (call (ERead 4)) in
  match h with
  | [a; b; c; d] => Ret (parse_header (a, b, c, d))
  | _ => Fail PSliceRange   (* read_exact returned another length: impossible *)
  end.

(** pktline.rs 72-88 [read_one]: a type plus the bytes placed in the caller's
    buffer. *)
Definition read_one : prog (res packet) :=
  let? size := read_header in
  if (size =? 0)%N then Ret (Ok PFlush)
  else if (size =? 1)%N then Ret (Ok PDelim)
  else if ((size =? 2) || (size =? 3))%N then Ret (Er (err_simple BadPktlineHeader))
  else if (MAX_PACKET_LEN + 4 <? size)%N then Ret (Er (err_simple BadPktlineHeader))
  else
    let? d := io_call (call (ERead (size - 4))) in
    Ret (Ok (PData d)).

(** pktline.rs 90-104 [read_packet].  It does not look at the buffer used by
    [read], and has no upper limit. *)
Definition read_packet : prog (res packet) :=
  let? size := read_header in
  if (size =? 0)%N then Ret (Ok PFlush)
  else if (size =? 1)%N then Ret (Ok PDelim)
  else if ((size =? 2) || (size =? 3))%N then Ret (Er (err_simple BadPktlineHeader))
  else
    let? d := io_call (call (ERead (size - 4))) in
    Ret (Ok (PData d)).

(** pktline.rs 53-58: the buffering state of [Reader].  [rb_data] is the part of
    [buf] last written by [read_one]; bytes beyond it are never read because
    [rb_len] never exceeds its length. *)
Record rbuf := RBuf { rb_data : bytes; rb_off : N; rb_len : N }.
Definition rb_empty : rbuf := RBuf [] 0 0.     (* pktline.rs 63-70 [new] *)

(** pktline.rs 140-161: the loop of [read] for a caller buffer of [blen] bytes.
    The result is the bytes placed in the caller's buffer.  When [read_one] fails
    half-way it may have overwritten part of [buf]; [rb_data] is left unchanged
    here, which is only visible if unread bytes are pending, i.e. after a read
    with an empty buffer. *)
Fixpoint read_loop (fuel : nat) (blen : N) (rb : rbuf) : prog (iores bytes * rbuf) :=
  match fuel with
  | O => Fail OutOfFuel
  | S f =>
      let copy := negb (MAX_PACKET_LEN <=? blen)%N in
      let! r := read_one in
      match r with
      | Ok PDelim => Ret (IOk [], rb)
      | Ok PFlush => Ret (IOk [], rb)
      | Ok (PData d) =>
          if copy then
            if (0 <? lenN d)%N then
              let c := N.min (lenN d) blen in
              Ret (IOk (take (N.to_nat c) d), RBuf d c (lenN d))
            else read_loop f blen rb
          else
            if (lenN d =? 0)%N then read_loop f blen rb
            else Ret (IOk d, rb)
      | Er e => Ret (IErr (io_of_err e), rb)
      end
  end.

(** pktline.rs 127-163 [Read::read]. *)
Definition reader_read (fuel : nat) (blen : N) (rb : rbuf) : prog (iores bytes * rbuf) :=
  let n := N.min (rb_len rb - rb_off rb) blen in
  if (0 <? n)%N then
    let out := take (N.to_nat n) (drop (N.to_nat (rb_off rb)) (rb_data rb)) in
    if (n =? rb_len rb - rb_off rb)%N
    then Ret (IOk out, RBuf (rb_data rb) 0 0)
    else Ret (IOk out, RBuf (rb_data rb) (rb_off rb + n) (rb_len rb))
  else read_loop fuel blen rb.

(** ** Writer *)

(** pktline.rs 176-181 [write_one]. *)
Definition write_one (buf : bytes) : prog (res N) :=
  let? _ := io_call (call (EOut (hex04 (lenN buf + 4)))) in
  let? _ := io_call (call (EOut buf)) in
  Ret (Ok (lenN buf)).

(** pktline.rs 183-200 [write_packet]. *)
Definition write_packet (p : packet) : prog (res N) :=
  match p with
  | PFlush =>
      let? _ := io_call (call (EOut (bs "0000"))) in
      let? _ := io_call (call EFlush) in
      Ret (Ok 4%N)
  | PDelim =>
      let? _ := io_call (call (EOut (bs "0001"))) in
      Ret (Ok 4%N)
  | PData d => write_one d
  end.

(** [slice::chunks(MAX_PACKET_LEN)]: [fuel] is the length of the slice, which is
    always enough because each chunk is non-empty. pktline.rs 206. *)
Fixpoint chunks_aux (fuel : nat) (n : nat) (l : bytes) : list bytes :=
  match fuel, l with
  | _, [] => []
  | O, _ => []
  | S f, _ => take n l :: chunks_aux f n (drop n l)
  end.
(** pktline.rs 206. *)
Definition chunks (n : nat) (l : bytes) : list bytes := chunks_aux (length l) n l.

(** pktline.rs 205-212: the loop. *)
Fixpoint write_chunks (cs : list bytes) (total : N) : prog (iores N) :=
  match cs with
  | [] => Ret (IOk total)
  | c :: cs' =>
      let! r := write_one c in
      match r with
      | Ok n => write_chunks cs' (total + n)
      | Er e => Ret (IErr (io_of_err e))
      end
  end.

(** pktline.rs 203-213 [Write::write]. *)
Definition writer_write (buf : bytes) : prog (iores N) :=
  write_chunks (chunks (N.to_nat MAX_PACKET_LEN) buf) 0.

(** [io::Write::write_all] of the standard library over [writer_write].  [write]
    always reports the whole buffer, so one round is enough; an empty buffer is
    not written at all.  Another count would make the real loop go on with the
    rest, or fail on 0. *)
Definition writer_write_all (buf : bytes) : prog (iores unit) :=
  match buf with
  | [] => Ret (IOk tt)
  | _ =>
      let! r := writer_write buf in
      match r with
      | IErr e => Ret (IErr e)
      | IOk n => if (n =? lenN buf)%N then Ret (IOk tt) else Fail PSliceRange
      end
  end.
