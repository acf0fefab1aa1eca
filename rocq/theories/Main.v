(** The [main] functions of the three programs: from the command line to what the
    process does. *)
From Verif Require Import Bytes Err FS Prog Local Transfer GitAt RecentRefs.

(** [App::get_matches] of clap: the matches, or it prints something (a usage error,
    or what --help or --version ask for) and exits.
    git-at.rs 185, git-recent-refs.rs 136-147, git-lfs-transfer.rs 200. *)
Inductive parsed (A : Type) := Parsed (a : A) | Exits (out err : bytes) (code : Z).
Arguments Parsed {A}. Arguments Exits {A}.

(** [ArgMatches::value_of]: panics if the value is not UTF-8.  [None] is the panic. *)
Definition value_of (v : bytes) : option bytes := if utf8_valid v then Some v else None.

(** ** git-at *)

(** git-at.rs 128-156 [parse_options]: the options and arguments that matches may
    contain; the pattern is required. *)
Record at_args := AtArgs {
  aa_summary : bool; aa_show : bool; aa_quiet : bool; aa_no_fixup : bool;
  aa_revision : option bytes; aa_pattern : bytes }.

(** git-at.rs 158-168 [program]. *)
Definition at_program (a : at_args) : option at_opts :=
  match aa_revision a with
  | Some r => match value_of r, value_of (aa_pattern a) with
              | Some r, Some p => Some (at_new (aa_summary a) (aa_show a) (aa_quiet a) (negb (aa_no_fixup a)) (Some r) p)
              | _, _ => None
              end
  | None => match value_of (aa_pattern a) with
            | Some p => Some (at_new (aa_summary a) (aa_show a) (aa_quiet a) (negb (aa_no_fixup a)) None p)
            | None => None
            end
  end.

(** git-at.rs 170-188 [repo], [main]: the repository comes first. [None] is a panic. *)
Definition at_process (lib : regex_lib) (repo : gres git_view) (args : parsed at_args) (show_code : option Z)
  : option at_result :=
  match repo with
  | GErr e => Some (AtResult [] (g_text e ++ [NL]) None 4)
  | GOk g => match args with
             | Exits out err code => Some (AtResult out err None code)
             | Parsed a => (fun o => at_main lib g o show_code) <$> at_program a
             end
  end.

(** ** git-recent-refs *)

(** git-recent-refs.rs 149-156 [sort_type]; [None] is [unimplemented!()]. *)
Definition sort_type (kind : bytes) : option sort_kind :=
  if decide (kind = bs "visitdate") then Some Visited
  else if decide (kind = bs "authordate") then Some Authored
  else if decide (kind = bs "committerdate") then Some Committed
  else None.

(** git-recent-refs.rs 158-163 [program]; the argument is the value of --sort. *)
Definition recent_program (sort : option bytes) : option sort_kind :=
  match sort with
  | Some s => match value_of s with Some s => sort_type s | None => None end
  | None => sort_type (bs "visitdate")
  end.

(** What the process does; [ROutOfFuel] is the bound on the number of visits.
    git-recent-refs.rs 120-133, 149-163. *)
Inductive recent_result := RDone (out err : bytes) (code : Z) | RPanic | ROutOfFuel.

(** git-recent-refs.rs 165-191 [repo], [main].  The output goes to the pager if there
    is one (Pager.v); that it can be started is assumed. *)
Definition recent_process (n : nat) (args : parsed (option bytes)) (repo : gres refs_view) : recent_result :=
  match args with
  | Exits out err code => RDone out err code
  | Parsed sort =>
      match repo with
      | GErr e => RDone [] (g_text e ++ [NL]) 4
      | GOk v => match recent_program sort with
                 | None => RPanic
                 | Some k => match recent_main n k v with
                             | Some (out, err, code) => RDone out err code
                             | None => ROutOfFuel
                             end
                 end
      end
  end.

(** ** git-lfs-transfer *)

(** git-lfs-transfer.rs 165-205 [parse_options], [program], [repo], [main], and 47-56
    [Program::new].  [open] is [Repository::open]: the path of the git directory and
    its configuration.  A panic is a result of [None]. *)
Definition transfer_process (en : env) (fuel : nat) (args : parsed (bytes * bytes))
  (open : bytes -> gres (path * gres config)) : prog (option (Z * bytes)) :=
  match args with
  | Exits out err code => let! _ := call (EOut out) in Ret (Some (code, err))
  | Parsed (dir, operation) =>
      match open dir with
      | GErr e => Ret (Some (4%Z, g_text e ++ [NL]))
      | GOk (git_dir, cfg) =>
          match value_of operation with
          | None => Ret None
          | Some op => let! r := transfer_main en fuel (git_dir ++ [bs "lfs"]) cfg op in Ret (Some r)
          end
      end
  end.
