(** scutiger-lfs/src/processor.rs: [PktLineHandler] and [Processor]. *)
From Verif Require Import Bytes Err FS Prog Pktline Args Local.

(** ** PktLineHandler *)

(** pktline.rs 226-246 [ReaderIterator]: reads packets with [read_packet]; an end of file
    ends the iteration, another error is yielded.  processor.rs 110-119
    [read_to_type]: collects payloads up to the packet [stop], which is
    consumed; control packets other than [stop] become empty items. *)
Fixpoint read_to_type (fuel : nat) (stop : packet) : prog (res (list bytes)) :=
  match fuel with
  | O => Fail OutOfFuel
  | S f =>
      let! r := read_packet in
      match r with
      | Ok p =>
          if decide (p = stop) then Ret (Ok [])
          else let? rest := read_to_type f stop in
               Ret (Ok (default [] (pkt_data p) :: rest))
      | Er e =>
          if decide (io_kind e = KUnexpectedEof) then Ret (Ok []) else Ret (Er e)
      end
  end.

(** processor.rs 121-127 [read_to_delim], [read_to_flush]. *)
Definition read_to_delim (fuel : nat) := read_to_type fuel PDelim.
(** processor.rs 125-127. *)
Definition read_to_flush (fuel : nat) := read_to_type fuel PFlush.

(** processor.rs 129-132 [send]. *)
Definition send (msg : bytes) : prog (res unit) := io_call (writer_write_all msg).

(** processor.rs 158-160 and 164-166. *)
Fixpoint send_all (msgs : list bytes) : prog (res unit) :=
  match msgs with
  | [] => Ret (Ok tt)
  | m :: ms => let? _ := send m in send_all ms
  end.

(** processor.rs 134-144 [flush], [delim]. *)
Definition flush : prog (res unit) :=
  let? _ := write_packet PFlush in Ret (Ok tt).
(** processor.rs 140-144. *)
Definition delim : prog (res unit) :=
  let? _ := write_packet PDelim in Ret (Ok tt).

(** The line "status {:03}\n". *)
Definition status_line (code : N) : bytes := bs "status " ++ pad0 3 (dec code) ++ [NL].

(** processor.rs 146-152 [send_error]. *)
Definition send_error (code : N) (msg : bytes) : prog (res unit) :=
  let? _ := send (status_line code) in
  let? _ := delim in
  let? _ := send (msg ++ [NL]) in
  flush.

(** [io::copy(reader, wrtr)] of processor.rs 169: reads of up to 8192 bytes,
    each written with [write_all]. *)
Fixpoint copy_out (fuel : nat) (h : handle) (off : nat) : prog (res unit) :=
  match fuel with
  | O => Fail OutOfFuel
  | S f =>
      let? d := io_call (call (EReadAt h off COPY_BUF)) in
      match d with
      | [] => Ret (Ok tt)
      | _ => let? _ := send d in copy_out f h (off + length d)
      end
  end.

(** processor.rs 154-173 [send_status]. *)
Definition send_status (fuel : nat) (st : status) : prog (res unit) :=
  let? _ := send (status_line (st_code st)) in
  let? _ := send_all (default [] (st_args st)) in
  let? _ := match st_msgs st with
            | Some msgs => let? _ := delim in send_all msgs
            | None => match st_reader st with
                      | Some h => let? _ := delim in copy_out fuel h 0
                      | None => Ret (Ok tt)
                      end
            end in
  flush.

(** ** Processor *)

Section processor.
Context (en : env) (be : backend) (fuel : nat).

(** processor.rs 354-357 [version]. *)
Definition p_version : prog (res status) :=
  let? _ := read_to_flush fuel in Ret (Ok (st_new_success [])).

(** processor.rs 359-361 [error]. *)
Definition p_error (code : N) (msg : bytes) : prog (res status) :=
  Ret (Ok (st_failure code (msg ++ [NL]))).

(** [Error::new(ErrorKind::ParseError, Some(e))], e.g. processor.rs 367: the
    wrapped error is not an [io::Error], so only its text survives. *)
Definition wrap_parse_error (e : error) : error :=
  err_new ParseError (IntText (display e)).

(** processor.rs 365-368, 524-527, 583-586. *)
Definition read_to_flush_wrapped : prog (res (list bytes)) :=
  let! r := read_to_flush fuel in
  Ret (match r with Ok v => Ok v | Er e => Er (wrap_parse_error e) end).

(** processor.rs 385-407: one line of a batch. *)
Definition batch_line (line : bytes) : res (oid * N) :=
  if last_is NL line then
    match split_on SP line with
    | [o; size] =>
        match size with
        | [] => Er (err_simple ParseError)
        | _ => match parse_u64 (removelast size) with
               | None => Er (err_msg InvalidInteger (bs "got " ++ debug_bytes size))
               | Some n => match oid_new o with Ok o' => Ok (o', n) | Er e => Er e end
               end
        end
    | _ => Er (err_simple ParseError)
    end
  else Er (err_simple InvalidPacket).

(** processor.rs 383-408: all lines, up to the first bad one. *)
Fixpoint batch_lines (lines : list bytes) : res (list (oid * N)) :=
  match lines with
  | [] => Ok []
  | l :: ls => match batch_line l with
               | Er e => Er e
               | Ok x => match batch_lines ls with Ok xs => Ok (x :: xs) | Er e => Er e end
               end
  end.

(** processor.rs 363-410 [read_batch]. *)
Definition read_batch : prog (res (list batch_item)) :=
  let? lines := read_to_delim fuel in
  let? args := or_panic (parse_args lines) in
  let? data := read_to_flush_wrapped in
  let run := let? oids := Ret (batch_lines data) in
             let! items := backend_batch be oids in Ret (Ok items) in
  match args !! bs "hash-algo" with
  | Some x => if decide (x = bs "sha256") then run
              else Ret (Er (err_msg NotAllowed
                              (utf8_lossy x ++ bs " is not a permitted hash algorithm")))
  | None => run
  end.

(** processor.rs 421-438: one line of the answer. *)
Definition batch_out (present missing : bytes) (i : batch_item) : bytes :=
  bi_oid i ++ [SP] ++ dec (bi_size i) ++ [SP] ++
  (if bi_present i then present else missing) ++ [NL].

(** processor.rs 412-440 [batch_data], 442-448. *)
Definition p_batch (present missing : bytes) : prog (res status) :=
  let? items := read_batch in
  Ret (Ok (st_new_success (map (batch_out present missing) items))).
(** processor.rs 442-444. *)
Definition p_upload_batch := p_batch (bs "noop") (bs "upload").
(** processor.rs 446-448. *)
Definition p_download_batch := p_batch (bs "download") (bs "noop").

(** processor.rs 472-475 and 478-481. *)
Definition size_mismatch (k : ekind) (expected actual : N) : error :=
  err_msg k (bs "expected " ++ dec expected ++ bs " bytes, got " ++ dec actual).

(** processor.rs 463-498 [put_object].  On every error after [start_upload] the
    upload state is dropped, which removes the temporary file. *)
Definition p_put_object (o0 : bytes) (rb : rbuf) : prog (res status * rbuf) :=
  match oid_new o0 with
  | Er e => Ret (Er e, rb)
  | Ok o =>
  let! a := (let? lines := read_to_delim fuel in
             let? args := or_panic (parse_args lines) in
             Ret (size_from_arguments args)) in
  match a with
  | Er e => Ret (Er e, rb)
  | Ok expected =>
  let! (r, rb') := start_upload be fuel o rb in
  match r with
  | Er e => Ret (Er e, rb')
  | Ok (st, got) =>
      let actual := lenN got in
      let fail e := let! _ := drop_temp (us_temp st) in Ret (Er e, rb') in
      if (actual <? expected)%N then fail (size_mismatch MissingData expected actual)
      else if (expected <? actual)%N then fail (size_mismatch ExtraData expected actual)
      else match oid_new (hex_encode (en_hash en got)) with
           | Er e => fail e
           | Ok actual_oid =>
               if decide (actual_oid <> o)
               then fail (err_msg CorruptData
                            (bs "expected oid " ++ o ++ bs ", got " ++ actual_oid))
               else let! f := finish_upload be st in
                    Ret (match f with Ok _ => Ok st_success | Er e => Er e end, rb')
           end
  end end end.

(** processor.rs 500-504 [verify_object]. *)
Definition p_verify_object (o0 : bytes) : prog (res status) :=
  let? lines := read_to_flush fuel in
  let? args := or_panic (parse_args lines) in
  let? o := Ret (oid_new o0) in
  backend_verify be o args.

(** processor.rs 506-521 [get_object]. *)
Definition p_get_object (o0 : bytes) : prog (res status) :=
  let? lines := read_to_flush fuel in
  let? args := or_panic (parse_args lines) in
  let? o := Ret (oid_new o0) in
  let! d := backend_download be o in
  match d with
  | Ok (h, n) => Ret (Ok (st_new_reader [bs "size=" ++ dec n ++ [NL]] h))
  | Er e => if decide (io_kind e = KNotFound)
            then Ret (Ok (st_failure 404 (bs "not found" ++ [NL])))
            else Ret (Er e)
  end.

(** processor.rs 523-566 [lock].  The loop runs once: every path through its
    body returns or sets [retried], which ends it and reaches
    [unreachable!()]. *)
Definition p_lock : prog (res status) :=
  let? data := read_to_flush_wrapped in
  let? args := or_panic (parse_args data) in
  match args !! bs "path", args !! bs "refname" with
  | Some p, Some _ =>
      let! c := lock_create en be p in
      match c with
      | Ok l => let! a := as_arguments en l in Ret (Ok (st_success_with_code 201 a))
      | Er e =>
          if decide (e_kind e = Conflict) then
            let! f := lock_from_path en be p in
            match f with
            | Ok (Some l) =>
                let! a := as_arguments en l in
                Ret (Ok (st_failure_with_args 409 a (bs "conflict" ++ [NL])))
            | Ok None => Fail PUnreachable
            | Er e' => Ret (Er e')
            end
          else Ret (Er e)
      end
  | _, _ => Ret (Er (err_msg MissingData (bs "both path and refname required")))
  end.

(** processor.rs 568-580 [list_locks_for_path]. *)
Definition p_list_for_path (p : bytes) (cursor : option bytes) (owner_id : bool)
  : prog (res status) :=
  let! r := lock_from_path en be p in
  match r with
  | Er e => Ret (Er e)
  | Ok None => p_error 404 (bs "not found")
  | Ok (Some l) =>
      if match cursor with Some id => blt (lk_id en l) id | None => false end
      then p_error 404 (bs "not found")
      else let! s := as_lock_spec en owner_id l in Ret (Ok (st_new_success s))
  end.

(** processor.rs 617-619. *)
Fixpoint lock_specs (owner_id : bool) (ls : list lock) : prog (list bytes) :=
  match ls with
  | [] => Ret []
  | l :: ls' => let! s := as_lock_spec en owner_id l in
                let! rest := lock_specs owner_id ls' in
                Ret (s ++ rest)
  end.

(** processor.rs 582-626 [list_locks]. *)
Definition p_list_locks (owner_id : bool) : prog (res status) :=
  let? lines := read_to_flush_wrapped in
  let? args := or_panic (parse_args lines) in
  let? limit := Ret (match args !! bs "limit" with
                     | Some x => parse_integer x
                     | None => Ok 100%N
                     end) in
  if (limit =? 0)%N then
    Ret (Er (err_msg NotAllowed (bs "bizarre request for no data")))
  else
    let limit := N.to_nat (if (100 <? limit)%N then 100 else limit) in
    let cursor := args !! bs "cursor" in
    match args !! bs "path" with
    | Some p => p_list_for_path p cursor owner_id
    | None =>
        let? items := list_lock_items en be cursor (limit + 1) in
        let! specs := lock_specs owner_id items in
        let next := match items !! limit with
                    | Some l => if (length items =? limit + 1)%nat
                                then [bs "next-cursor=" ++ lk_id en l ++ [NL]] else []
                    | None => []
                    end in
        Ret (Ok (st_success_with_data 200 next specs))
    end.

(** processor.rs 628-657 [unlock]. *)
Definition p_unlock (id : bytes) : prog (res status) :=
  let? _ := read_to_flush fuel in
  if utf8_valid id then
    let! f := lock_from_id en be id in
    match f with
    | Ok (Some l) =>
        let! args := as_arguments en l in
        let! u := lock_unlock en be l in
        match u with
        | Ok _ => Ret (Ok (st_success_with_code 200 args))
        | Er e =>
            if decide (io_kind e = KNotFound) then p_error 404 (bs "not found")
            else if decide (io_kind e = KPermissionDenied) then p_error 403 (bs "forbidden")
            else Ret (Er e)
        end
    | Ok None => p_error 404 (bs "not found")
    | Er e => Ret (Er e)
    end
  else Ret (Er (err_msg CorruptData (bs "invalid or corrupt ID"))).

(** ** The command loop *)

(** The commands told apart by the match of processor.rs 684-704. *)
Inductive command :=
| CVersion | CBadVersion | CBatch | CPut (oid : bytes) | CVerify (oid : bytes)
| CGet (oid : bytes) | CForbidden | CLock | CListLock | CUnlock (id : bytes)
| CQuit | CUnknown.

(** processor.rs 684-704, the patterns in order.  [msgs] is never empty. *)
Definition dispatch (msgs : list bytes) (m : mode) : command :=
  match msgs with
  | [] => CUnknown
  | c :: rest =>
      let arg := head rest in
      if decide (c = bs "version") then
        if decide (arg = Some (bs "1")) then CVersion else CBadVersion
      else if decide (c = bs "batch") then
        match arg with None => CBatch | _ => CUnknown end
      else if decide (c = bs "put-object") then
        match arg, m with
        | Some o, Upload => CPut o | Some _, Download => CForbidden | None, _ => CUnknown
        end
      else if decide (c = bs "verify-object") then
        match arg, m with
        | Some o, Upload => CVerify o | Some _, Download => CForbidden | None, _ => CUnknown
        end
      else if decide (c = bs "get-object") then
        match arg, m with
        | Some o, Download => CGet o | Some _, Upload => CForbidden | None, _ => CUnknown
        end
      else if decide (c = bs "lock") then
        match arg, m with None, Upload => CLock | _, _ => CUnknown end
      else if decide (c = bs "list-lock") then
        match arg with None => CListLock | _ => CUnknown end
      else if decide (c = bs "unlock") then
        match arg, m with Some id, Upload => CUnlock id | _, _ => CUnknown end
      else if decide (c = bs "quit") then
        match arg with None => CQuit | _ => CUnknown end
      else CUnknown
  end.

(** processor.rs 671-678: a data packet as words. *)
Definition command_words (b : bytes) : list bytes :=
  split_on SP (if last_is NL b then removelast b else b).

(** processor.rs 696-697: whether owners are told. *)
Definition is_upload (m : mode) : bool := match m with Upload => true | Download => false end.

(** The handler of a command (all but quit). processor.rs 684-704. *)
Definition handle_command (c : command) (m : mode) (rb : rbuf) : prog (res status * rbuf) :=
  let plain (p : prog (res status)) := let! r := p in Ret (r, rb) in
  match c with
  | CVersion => plain p_version
  | CBadVersion => plain (p_error 400 (bs "unknown version"))
  | CBatch => plain (if is_upload m then p_upload_batch else p_download_batch)
  | CPut o => p_put_object o rb
  | CVerify o => plain (p_verify_object o)
  | CGet o => plain (p_get_object o)
  | CForbidden => plain (p_error 403 (bs "not allowed"))
  | CLock => plain p_lock
  | CListLock => plain (p_list_locks (is_upload m))
  | CUnlock id => plain (p_unlock id)
  | CQuit | CUnknown => plain (p_error 400 (bs "unknown command"))
  end.

(** processor.rs 707-725: which errors are the client's fault. *)
Definition client_error (k : ekind) : bool :=
  match k with
  | BadPktlineHeader | InvalidPacket | UnexpectedPacket | InvalidLFSOid | InvalidInteger
  | MissingData | ExtraData | CorruptData | NotAllowed | UnknownCommand => true
  | _ => false
  end.

(** processor.rs 707-725. *)
Definition status_of_error (e : error) : status :=
  if client_error (e_kind e)
  then st_failure 400 (bs "error: " ++ display e ++ [NL])
  else st_failure 500 (bs "internal error: " ++ display e ++ [NL]).

(** processor.rs 705-726. *)
Definition status_of (r : res status) : status :=
  match r with Ok st => st | Er e => status_of_error e end.

(** Sends an answer (processor.rs 700, 706-725).  The ghost event [ENote] records
    which answer was chosen; it is not part of the code. *)
Definition answer (st : status) : prog (res unit) :=
  let! _ := call (ENote (st_code st) (default [] (st_args st))) in
  send_status fuel st.

(** [send_error] with the same ghost event. processor.rs 668, 680. *)
Definition answer_error (code : N) (msg : bytes) : prog (res unit) :=
  let! _ := call (ENote code []) in send_error code msg.

(** What one iteration of the loop does: go on, or return. processor.rs 660-727. *)
Inductive next := Next (rb : rbuf) | Return (r : res unit).

(** processor.rs 669, 681, 726: goes on, unless the answer cannot be sent. *)
Definition and_go_on (rb : rbuf) (p : prog (res unit)) : prog next :=
  let! r := p in Ret (match r with Ok _ => Next rb | Er e => Return (Er e) end).

(** processor.rs 661-727: the body of the loop. *)
Definition process_one (m : mode) (rb : rbuf) : prog next :=
  let! pkt := read_packet in
  match pkt with
  | Er e => Ret (Return (if decide (io_kind e = KUnexpectedEof) then Ok tt else Er e))
  | Ok pkt =>
      match pkt_data pkt with
      | Some [] => and_go_on rb (answer_error 400 (bs "no command provided"))
      | None => and_go_on rb (answer_error 400 (bs "unknown command"))
      | Some b =>
          match dispatch (command_words b) m with
          | CQuit => let! r := answer st_success in Ret (Return r)
          | c =>
              let! (r, rb') := handle_command c m rb in
              and_go_on rb' (answer (status_of r))
          end
      end
  end.

(** processor.rs 659-728 [process_commands]; [n] bounds the number of rounds. *)
Fixpoint process_commands (n : nat) (m : mode) (rb : rbuf) : prog (res unit) :=
  match n with
  | O => Fail OutOfFuel
  | S n' =>
      let! x := process_one m rb in
      match x with
      | Next rb' => process_commands n' m rb'
      | Return r => Ret r
      end
  end.

End processor.
