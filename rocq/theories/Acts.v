(** The two programs of scutiger-bin as processes: what they start, what they write
    where, and how they end, when writing and starting programs may fail. *)
From Verif Require Import Bytes Err FS Prog Local Transfer GitAt RecentRefs Pager Main.

(** Standard output, standard error, and the standard input of a pager (pager/mod.rs
    46-54, git-recent-refs.rs 190, git-at.rs 187). *)
Inductive sink := ToOut | ToErr | ToPipe.
(** [Spawn] starts a program; [Wait] waits for its end (git-at.rs 95-102, pager/mod.rs
    16-22). *)
Inductive act := Spawn (argv : list bytes) | Wait | Write (k : sink) (b : bytes).
(** The end: [process::exit], a panic (status 101), or death by SIGPIPE (git-at.rs 187,
    git-recent-refs.rs 176-181, 190). *)
Inductive fate := Exit (code : Z) | Panics | Sigpipe.

(** What a write meets: success, or, after so many bytes, a pipe that nobody reads or
    another error.  Standard output is written by lines, the pipe to a pager in the
    pieces of the format; the bytes before an error are a beginning of the line either
    way.  The standard library takes a standard output or standard error that is closed
    for one where every write succeeds.  git-at.rs 105, 111-114; git-recent-refs.rs 124,
    129. *)
Inductive wres := WDone | WPipe (n : nat) | WOther (n : nat).
(** What is written of a line (git-at.rs 105, git-recent-refs.rs 124). *)
Definition part (w : wres) (b : bytes) : bytes :=
  match w with WDone => b | WPipe n | WOther n => take n b end.

(** A process with the results of its writes still to come.  [None]: the bound on the
    number of visited references (git-recent-refs.rs 75-84). *)
Definition acts : Type := option (list act * fate).
(** One thing and then the rest (git-recent-refs.rs 123-125). *)
Definition after (a : act) (k : acts) : acts := (fun '(l, f) => (a :: l, f)) <$> k.

(** [writeln!(...).unwrap()] (git-at.rs 105, 111-114; git-recent-refs.rs 124, 129).  [sigpipe]: the signal has its default action (git-recent-refs.rs
    176-181 [setup]); the Rust runtime starts a program with SIGPIPE ignored. *)
Definition writeln (sigpipe : bool) (k : sink) (b : bytes) (w : wres) (rest : acts) : acts :=
  after (Write k (part w b))
    match w with
    | WDone => rest
    | WPipe _ => Some ([], if sigpipe then Sigpipe else Panics)
    | WOther _ => Some ([], Panics)
    end.

(** ** git-at *)

(** git-at.rs 91-118 [main], 170-188 [repo], [main].  [eprintln!] panics as
    [writeln!(...).unwrap()] does.  [spawn]: whether git can be started; [waits]: whether
    it can be waited for, which it cannot be if the parent left SIGCHLD ignored;
    [show_code] is its exit status ([None]: killed by a signal).  clap's own output is one write whose
    result is ignored. *)
Definition at_acts (lib : regex_lib) (repo : gres git_view) (args : parsed at_args)
  (spawn waits : bool) (show_code : option Z) (w : wres) : acts :=
  match repo with
  | GErr e => writeln false ToErr (g_text e ++ [NL]) w (Some ([], Exit 4))
  | GOk g =>
      match args with
      | Exits out err code => after (Write ToOut out) (after (Write ToErr err) (Some ([], Exit code)))
      | Parsed a =>
          match at_program a with
          | None => Some ([], Panics)
          | Some o =>
              match at_run lib g o with
              | Ok oid =>
                  if ao_show o then
                    after (Spawn [bs "git"; bs "show"; oid])
                      (if spawn && waits
                       then after Wait
                              (Some ([], Exit match show_code with Some c => c | None => exit_code ExternalProgramFailed end))
                       else Some ([], Panics))
                  else writeln false ToOut (oid ++ [NL]) w (Some ([], Exit (exit_code Success)))
              | Er e =>
                  match err_fatal e, ao_quiet o with
                  | true, _ | false, false =>
                      writeln false ToErr (display e ++ [NL]) w (Some ([], Exit (exit_code (err_exit_status e))))
                  | false, true => Some ([], Exit (exit_code (err_exit_status e)))
                  end
              end
          end
      end
  end.

(** ** git-recent-refs *)

(** The loop of git-recent-refs.rs 120-133 [main] over a list, the writes from number
    [i] on. *)
Fixpoint print_all (k : sink) (ws : nat -> wres) (i : nat) (l : list bytes) : acts :=
  match l with
  | [] => Some ([], Exit (exit_code Success))
  | s :: l' => writeln true k (s ++ [NL]) (ws i) (print_all k ws (S i) l')
  end.
(** The same over the visited references (lines 75-84): the iterator is lazy, so each
    is printed before the next is looked up. *)
Fixpoint print_visited (n : nat) (v : refs_view) (k : sink) (ws : nat -> wres) (i : nat) : acts :=
  match n with
  | O => None
  | S n' =>
      match visit v i with
      | None => Some ([], Exit (exit_code Success))
      | Some s => writeln true k (s ++ [NL]) (ws i) (print_visited n' v k ws (S i))
      end
  end.

(** git-recent-refs.rs 72-113 [run] and 120-133 [main]. *)
Definition recent_print (n : nat) (kind : sort_kind) (v : refs_view) (k : sink) (ws : nat -> wres) : acts :=
  match kind with
  | Visited => print_visited n v k ws 0
  | _ =>
      match rv_references v with
      | GErr e =>
          let e := err_of_git e in
          writeln true ToErr (display e ++ [NL]) (ws 0) (Some ([], Exit (exit_code (err_exit_status e))))
      | GOk l => print_all k ws 0 (omap (fun x => rf_name x.2) (sort_desc (dated_refs kind l)))
      end
  end.

(** git-recent-refs.rs 165-191 [repo], [setup], [main] and pager/mod.rs 14-25 [new], 46-54
    [stdout].  The child is never waited for: [std::process::Child] does nothing when
    dropped, and [process::exit] drops nothing. *)
Definition recent_acts (n : nat) (args : parsed (option bytes)) (repo : gres refs_view) (pe : pager_env)
  (spawn : bool) (ws : nat -> wres) : acts :=
  match args with
  | Exits out err code => after (Write ToOut out) (after (Write ToErr err) (Some ([], Exit code)))
  | Parsed sort =>
      match repo with
      | GErr e => writeln true ToErr (g_text e ++ [NL]) (ws 0) (Some ([], Exit 4))
      | GOk v =>
          match recent_program sort with
          | None => Some ([], Panics)
          | Some kind =>
              match pager_new pe with
              | ToStdout => recent_print n kind v ToOut ws
              | ToPager argv =>
                  after (Spawn argv)
                    (if spawn then recent_print n kind v ToPipe ws else Some ([], Panics))
              end
          end
      end
  end.
