(** scutiger-lfs/src/backend/local.rs and backend.rs *)
From Verif Require Import Bytes Err FS Prog Pktline Args.
From stdpp Require Import sorting.

(** What the code takes from other crates and the operating system: SHA-256
    ([sha2]), RFC 3339 formatting of a Unix time ([chrono]; [None] is the
    [unwrap] panic of an out-of-range time), the passwd database and the real
    user id. *)
Record env := Env {
  en_hash : bytes -> bytes;
  en_time : Z -> option bytes;
  en_user : N -> option bytes;
  en_uid : N }.

(** local.rs 16-20 [LocalBackend]. *)
Record backend := Backend { be_lfs : path; be_umask : N; be_ts : option Z }.

(** [io::copy]'s buffer size. Used in local.rs 78 and processor.rs 169. *)
Definition COPY_BUF : N := 8192.

Section local.
Context (en : env) (be : backend).

(** ** Objects *)

(** processor.rs 234-236 [Oid::size_at_path]. *)
Definition size_at_path (o : oid) : prog (option N) :=
  let! r := call (EStat (expected_path (be_lfs be) o)) in
  Ret (match r with IOk (n, _) => Some n | IErr _ => None end).

(** processor.rs 245-249 [BatchItem]. *)
Record batch_item := BatchItem { bi_oid : oid; bi_size : N; bi_present : bool }.

(** local.rs 53-64 [batch]. *)
Fixpoint backend_batch (oids : list (oid * N)) : prog (list batch_item) :=
  match oids with
  | [] => Ret []
  | (o, n) :: rest =>
      let! m := size_at_path o in
      let! items := backend_batch rest in
      Ret (BatchItem o (default n m) (bool_decide (is_Some m)) :: items)
  end.

(** [io::copy(rdr, file)] in local.rs 78, where [rdr] is processor.rs 314-342
    [HashingReader] over the pkt-line reader.  [got] is what has been read so
    far: the reader feeds every chunk to SHA-256 (the digest of the
    concatenation) and counts its length. *)
Fixpoint copy_to_file (fuel : nat) (fd : nat) (got : bytes) (rb : rbuf)
  : prog (res bytes * rbuf) :=
  match fuel with
  | O => Fail OutOfFuel
  | S f =>
      let! (r, rb') := reader_read f COPY_BUF rb in
      match r with
      | IErr e => Ret (Er (err_of_io e), rb')
      | IOk [] => Ret (Ok got, rb')
      | IOk d =>
          let! w := call (EWriteFd fd d) in
          match w with
          | IErr e => Ret (Er (err_of_io e), rb')
          | IOk _ => copy_to_file f fd (got ++ d) rb'
          end
      end
  end.

(** local.rs 47-50 [UploadState]: the id and the temporary file. *)
Record upload_state := UploadState { us_oid : oid; us_temp : path }.

(** Dropping a [NamedTempFile]: it is unlinked, errors are ignored.
    local.rs 49: the [tempfile] of [UploadState]. *)
Definition drop_temp (t : path) : prog unit :=
  let! _ := call (EUnlink t) in Ret tt.

(** local.rs 66-83 [start_upload].  Also returns the bytes read, from which
    [put_object] takes size and hash. *)
Definition start_upload (fuel : nat) (o : oid) (rb : rbuf)
  : prog (res (upload_state * bytes) * rbuf) :=
  let! t := call (EMktemp (be_lfs be ++ [bs "incomplete"]) o) in
  match t with
  | IErr e => Ret (Er (err_of_io e), rb)
  | IOk (tmp, fd) =>
      let! (r, rb') := copy_to_file fuel fd [] rb in
      match r with
      | Er e => let! _ := drop_temp tmp in Ret (Er e, rb')
      | Ok got => Ret (Ok (UploadState o tmp, got), rb')
      end
  end.

(** local.rs 32-39 [fix_permissions]. *)
Definition fix_permissions (p : path) : prog (res unit) :=
  let? _ := io_call (call (EStat p)) in
  io_call (call (EChmod p (N.ldiff 511 (be_umask be)))).   (* 0o777 & !umask *)

(** local.rs 85-106 [finish_upload].  The downcast cannot fail because the state
    always comes from [start_upload].  When the rename fails the temporary file
    is removed; in Rust that happens when the error is dropped, just after the
    reply is sent. *)
Definition finish_upload (st : upload_state) : prog (res unit) :=
  let dest := expected_path (be_lfs be) (us_oid st) in
  let! m := call (EMkdir (removelast dest)) in
  match m with
  | IErr e => let! _ := drop_temp (us_temp st) in Ret (Er (err_of_io e))
  | IOk _ =>
      let! r := call (ERename (us_temp st) dest) in
      match r with
      | IErr e =>
          let! _ := drop_temp (us_temp st) in
          Ret (Er (err_new IOError
                     (IntText (bs "failed to persist temporary path: " ++ io_text e))))
      | IOk _ => fix_permissions dest
      end
  end.

(** local.rs 108-127 [verify]. *)
Definition backend_verify (o : oid) (args : argmap) : prog (res status) :=
  let? expected := Ret (parse_value_as_integer args (bs "size")) in
  let! m := call (EStat (expected_path (be_lfs be) o)) in
  match m with
  | IErr e =>
      if decide (io_kind_of e = KNotFound) then Ret (Ok (st_failure 404 (bs "not found")))
      else Ret (Er (err_of_io e))
  | IOk (actual, _) =>
      if (actual =? expected)%N then Ret (Ok st_success)
      else Ret (Ok (st_failure 409 (bs "mismatched size or cryptographic collision")))
  end.

(** local.rs 129-138 [download]. *)
Definition backend_download (o : oid) : prog (res (handle * N)) :=
  let? h := io_call (call (EOpen (expected_path (be_lfs be) o))) in
  let? n := io_call (call (EFstat h)) in
  Ret (Ok (h, n)).

(** ** Locks *)

(** local.rs 140-147 [lock_backend]: the lock directory. *)
Definition lock_dir : path := be_lfs be ++ [bs "locks"].

(** [PathBuf::push] of a string that may contain separators: an absolute string
    replaces the path. local.rs 367. *)
Definition push_str (base : path) (s : bytes) : path :=
  match s with
  | b :: _ => if decide (b = SLASH) then split_on SLASH s else base ++ split_on SLASH s
  | [] => base ++ [[]]
  end.

(** local.rs 213-219 [hash_for]. *)
Definition hash_for (p : bytes) : bytes := hex_encode (en_hash en (bs "v1:" ++ p)).

(** local.rs 203-208 [LocalBackendLock] without its root directory. *)
Record lock := Lock { lk_path : bytes; lk_time : Z; lk_owner : bytes }.

(** local.rs 255-257 [id]. *)
Definition lk_id (l : lock) : bytes := hash_for (lk_path l).

(** local.rs 221-229 [parse]. *)
Definition lock_parse (data : bytes) : option (Z * bytes) :=
  match splitn 3 COLON data with
  | [v; t; p] =>
      if decide (v = bs "v1") then
        match parse_i64 t with Some z => Some (z, p) | None => None end
      else None
  | _ => None
  end.

(** local.rs 304-311 [timestamp]. *)
Definition timestamp : prog Z :=
  match be_ts be with Some t => Ret t | None => call EClock end.

(** local.rs 237-243 [current_user] and 319-326 [user_for_file]: the name of a
    uid. *)
Definition uid_name (u : N) : bytes :=
  match en_user en u with Some n => n | None => bs "uid " ++ dec u end.

(** local.rs 237-243 [current_user]. *)
Definition current_user : bytes := uid_name (en_uid en).

(** local.rs 319-326 [user_for_file], with [unwrap_or_else] of lines 339 and 375. *)
Definition user_for_file (p : path) : prog bytes :=
  let! r := call (EStat p) in
  Ret (match r with IOk (_, u) => uid_name u | IErr _ => bs "unknown" end).

(** local.rs 155-163: [set_extension] on a name without '.', as all lock ids
    are, appends the extension. *)
Definition lock_file (id : bytes) : path := lock_dir ++ [id].
(** local.rs 156-163 [LockFile::new]: the name has no dot, so the extension is added. *)
Definition lock_temp (id : bytes) : path := lock_dir ++ [id ++ bs ".lock"].

(** local.rs 165-181 [LockFile::write]. *)
Definition lockfile_write (temp : path) (data : bytes) : prog (res unit) :=
  let! f := call (ECreate temp) in
  match f with
  | IErr e => if decide (io_kind_of e = KAlreadyExists)
              then Ret (Er (err_simple Conflict))
              else Ret (Er (err_of_io e))
  | IOk fd => io_call (call (EWriteFd fd data))
  end.

(** local.rs 195-201 [Drop for LockFile]. *)
Definition lockfile_drop (temp : path) : prog unit :=
  let! _ := call (EUnlink temp) in Ret tt.

(** local.rs 184-192 [LockFile::persist], including the drop of [self]. *)
Definition lockfile_persist (temp file : path) : prog (res unit) :=
  let! r := call (ELink temp file) in
  let! _ := lockfile_drop temp in
  match r with
  | IOk _ => Ret (Ok tt)
  | IErr e => if decide (io_kind_of e = KAlreadyExists)
              then Ret (Er (err_simple Conflict))
              else Ret (Er (err_of_io e))
  end.

(** local.rs 332-333: the record written for a lock. *)
Definition lock_record (t : Z) (p : bytes) : bytes :=
  bs "v1:" ++ decZ t ++ bs ":" ++ p.

(** local.rs 330-346 [create].  The clock is read twice. *)
Definition lock_create (p : bytes) : prog (res lock) :=
  let id := hash_for p in
  let! t := timestamp in
  let! w := lockfile_write (lock_temp id) (lock_record t p) in
  match w with
  | Er e => let! _ := lockfile_drop (lock_temp id) in Ret (Er e)
  | Ok _ =>
      let? _ := lockfile_persist (lock_temp id) (lock_file id) in
      let! user := user_for_file (lock_file id) in
      let! t' := timestamp in
      Ret (Ok (Lock p t' user))
  end.

(** local.rs 365-391 [from_id]. *)
Definition lock_from_id (id : bytes) : prog (res (option lock)) :=
  let file := push_str lock_dir id in
  let! f := call (EOpen file) in
  match f with
  | IErr e => if decide (io_kind_of e = KNotFound) then Ret (Ok None)
              else Ret (Er (err_of_io e))
  | IOk h =>
      let? v := io_call (call (EReadAll h)) in
      let! user := user_for_file file in
      match lock_parse v with
      | Some (t, p) => Ret (Ok (Some (Lock p t user)))
      | None => Ret (Er (err_msg CorruptData (bs "invalid parsed lock")))
      end
  end.

(** local.rs 348-363 [from_path]. *)
Definition lock_from_path (p : bytes) : prog (res (option lock)) :=
  let! r := lock_from_id (hash_for p) in
  match r with
  | Ok (Some l) =>
      if decide (lk_path l <> p)
      then Ret (Er (err_msg CorruptData (bs "unexpected filename in parsed lock")))
      else Ret (Ok (Some l))
  | Ok None => Ret (Ok None)
  | Er e => Ret (Er e)
  end.

(** local.rs 247-253 [unlock]. *)
Definition lock_unlock (l : lock) : prog (res unit) :=
  io_call (call (EUnlink (lock_file (lk_id l)))).

(** local.rs 263-265 [formatted_timestamp]. *)
Definition formatted_timestamp (l : lock) : prog bytes :=
  match en_time en (lk_time l) with Some b => Ret b | None => Fail PBadTime end.

(** backend.rs 37-48 [as_arguments]. *)
Definition as_arguments (l : lock) : prog (list bytes) :=
  let! t := formatted_timestamp l in
  Ret [bs "id=" ++ lk_id l ++ [NL];
       bs "path=" ++ lk_path l ++ [NL];
       bs "locked-at=" ++ t ++ [NL];
       bs "ownername=" ++ lk_owner l ++ [NL]].

(** local.rs 271-295 [as_lock_spec]. *)
Definition as_lock_spec (owner_id : bool) (l : lock) : prog (list bytes) :=
  let id := lk_id l in
  let! t := formatted_timestamp l in
  Ret ([bs "lock " ++ id ++ [NL];
        bs "path " ++ id ++ [SP] ++ lk_path l ++ [NL];
        bs "locked-at " ++ id ++ [SP] ++ t ++ [NL];
        bs "ownername " ++ id ++ [SP] ++ lk_owner l ++ [NL]]
       ++ if owner_id then
            [bs "owner " ++ id ++ [SP] ++
             (if decide (current_user = lk_owner l) then bs "ours" else bs "theirs") ++ [NL]]
          else []).

(** [sort_by_key(file_name)]: order of byte strings. local.rs 414. *)
Definition ble (a b : bytes) : Prop := blt b a = false.
Global Instance ble_dec a b : Decision (ble a b).
Proof. unfold ble. apply _. Defined.

(** local.rs 406-455 [LockSetIterator], consumed by processor.rs 605-615
    [skip_while(..).take(n).collect()].  [todo] are the directory entries still
    to visit, [skipping] tells whether [skip_while] is still skipping, [n] how many
    items [take] still lets through. *)
Fixpoint collect_locks (cursor : option bytes) (todo : list name) (skipping : bool)
  (n : nat) : prog (list lock) :=
  match n, todo with
  | O, _ => Ret []
  | _, [] => Ret []
  | S n', f :: todo' =>
      let! r := lock_from_id (utf8_lossy f) in
      match r with
      | Ok (Some l) =>
          if skipping && match cursor with Some c => blt (lk_id l) c | None => false end
          then collect_locks cursor todo' true n
          else let! ls := collect_locks cursor todo' false n' in Ret (l :: ls)
      | _ => collect_locks cursor todo' skipping n
      end
  end.

(** local.rs 407-455 [LockSetIterator], with processor.rs 605-616. *)
Definition list_lock_items (cursor : option bytes) (n : nat) : prog (res (list lock)) :=
  let! d := call (EReaddir lock_dir) in
  match d with
  | IErr e => Ret (Er (err_of_io e))
  | IOk names =>
      let! ls := collect_locks cursor (merge_sort ble names) true n in
      Ret (Ok ls)
  end.

End local.
