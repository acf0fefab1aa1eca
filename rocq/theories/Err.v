(** scutiger-core/src/errors.rs *)
From Verif Require Import Bytes.

(** The [io::ErrorKind] values the code tells apart; every other kind is
    [KOther] (they are only ever compared with the ones listed).
    Compared in processor.rs 511, 645, 648, 663 and local.rs 113, 172, 187, 370. *)
Inductive iokind :=
| KNotFound | KPermissionDenied | KAlreadyExists | KUnexpectedEof
| KInvalidData | KOther.
Global Instance iokind_eq_dec : EqDecision iokind.
Proof. solve_decision. Defined.

(** An [io::Error]: its kind and its display text. As wrapped in errors.rs 197-201. *)
Record ioerr := IoErr { io_kind_of : iokind; io_text : bytes }.

(** [io::Result] (e.g. pktline.rs 128, 204). *)
Inductive iores (A : Type) := IOk (a : A) | IErr (e : ioerr).
Arguments IOk {A}. Arguments IErr {A}.

(** errors.rs 14-20 [ExitStatus]. *)
Inductive exit_status := Success | NonFatal | Fatal | ExternalProgramFailed.
Global Instance exit_status_eq_dec : EqDecision exit_status.
Proof. solve_decision. Defined.
(** errors.rs 16-19: the numbers of [ExitStatus]. *)
Definition exit_code (x : exit_status) : Z :=
  match x with Success => 0 | NonFatal => 1 | Fatal => 2 | ExternalProgramFailed => 3 end.

(** errors.rs 22-42 [ErrorKind]. *)
Inductive ekind :=
| NoSuchRevision | Conflict | GitError | PCREError | IOError | BadPktlineHeader
| InvalidPacket | UnexpectedPacket | InvalidLFSOid | InvalidInteger | ParseError
| UnknownCommand | MissingData | ExtraData | CorruptData | NotAllowed
| InvalidPath | DowncastError.
Global Instance ekind_eq_dec : EqDecision ekind.
Proof. solve_decision. Defined.

(** The wrapped error ([internal]): an [io::Error], which [io_kind] can see by
    downcasting, or any other error, of which only the text matters. errors.rs 47, 146-152. *)
Inductive internal := IntIo (e : ioerr) | IntText (t : bytes).

(** errors.rs 44-49 [Error]. *)
Record error := Error { e_kind : ekind; e_int : option internal; e_msg : option bytes }.

(** [Result<A, Error>]. *)
Inductive res (A : Type) := Ok (a : A) | Er (e : error).
Arguments Ok {A}. Arguments Er {A}.

(** The text of the wrapped error (errors.rs 59, 63, 67). *)
Definition internal_text (i : internal) : bytes :=
  match i with IntIo e => io_text e | IntText t => t end.

(** errors.rs 51-89 [Display for Error]. *)
Definition kind_text (k : ekind) (i : option internal) : bytes :=
  match k with
  | NoSuchRevision => bs "fatal: needed a single revision"
  | Conflict => bs "fatal: conflict"
  | PCREError => match i with
                 | Some e => bs "fatal: invalid regular expression: " ++ internal_text e
                 | None => bs "fatal: invalid regular expression"
                 end
  | IOError => match i with
               | Some e => bs "fatal: I/O error: " ++ internal_text e
               | None => bs "fatal: unknown I/O error"
               end
  | GitError => match i with
                | Some e => bs "fatal: " ++ internal_text e
                | None => bs "fatal: an unknown error occurred"
                end
  | BadPktlineHeader => bs "malformed or unknown pkt-line header"
  | InvalidPacket => bs "invalid or malformed packet"
  | UnexpectedPacket => bs "unexpected packet while parsing"
  | InvalidLFSOid => bs "invalid or malformed LFS oid"
  | InvalidInteger => bs "invalid or malformed integer or size value"
  | ParseError => bs "parse error"
  | UnknownCommand => bs "unknown command or operation"
  | MissingData => bs "incomplete or missing data"
  | ExtraData => bs "extra data"
  | CorruptData => bs "corrupt data"
  | NotAllowed => bs "not allowed"
  | InvalidPath => bs "invalid path"
  | DowncastError => bs "unexpected type when downcasting"
  end.

(** errors.rs 83-87: the text of the kind, then the message. *)
Definition display (e : error) : bytes :=
  kind_text (e_kind e) (e_int e) ++
  match e_msg e with Some m => bs ": " ++ m | None => [] end.

(** errors.rs 107-116 [Error::new] with a wrapped error. *)
Definition err_new (k : ekind) (i : internal) : error := Error k (Some i) None.
(** errors.rs 119-125 [Error::new_simple]. *)
Definition err_simple (k : ekind) : error := Error k None None.
(** errors.rs 128-134 [Error::from_message]. *)
Definition err_msg (k : ekind) (m : bytes) : error := Error k None (Some m).

(** errors.rs 145-153 [Error::io_kind]. *)
Definition io_kind (e : error) : iokind :=
  match e_int e with
  | Some (IntIo x) => io_kind_of x
  | Some (IntText _) => KInvalidData
  | None => KInvalidData
  end.

(** errors.rs 164-170 [Error::exit_status]. *)
Definition err_exit_status (e : error) : exit_status :=
  match e_kind e with
  | NoSuchRevision => NonFatal
  | Conflict => NonFatal
  | _ => Fatal
  end.

(** errors.rs 159-161 [Error::fatal]. *)
Definition err_fatal (e : error) : bool :=
  bool_decide (err_exit_status e = Fatal).

(** errors.rs 173-177 [From<Error> for io::Error]: the error is wrapped, its
    display text is kept. *)
Definition io_of_err (e : error) : ioerr := IoErr (io_kind e) (display e).

(** errors.rs 197-201 [From<io::Error> for Error]. *)
Definition err_of_io (e : ioerr) : error := err_new IOError (IntIo e).

(** errors.rs 179-188 [From<git2::Error> for Error]: only the code matters. *)
Inductive git_code := GNotFound | GConflict | GOther.
(** [git2::Error], as far as errors.rs 181-186 look at it. *)
Record git_error := GitErr { g_code : git_code; g_text : bytes }.
(** errors.rs 179-188 [From<git2::Error> for Error]. *)
Definition err_of_git (e : git_error) : error :=
  err_new (match g_code e with
           | GNotFound => NoSuchRevision
           | GConflict => Conflict
           | GOther => GitError
           end) (IntText (g_text e)).

(** errors.rs 191-195 [From<pcre2::Error> for Error]. *)
Definition err_of_pcre (t : bytes) : error := err_new PCREError (IntText t).

(** Lifting an [io::Result] with the [?] operator. E.g. pktline.rs 74, local.rs 95. *)
Definition res_of_io {A} (r : iores A) : res A :=
  match r with IOk a => Ok a | IErr e => Er (err_of_io e) end.
