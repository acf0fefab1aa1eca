(** scutiger-bin/src/bin/git-at.rs *)
From Verif Require Import Bytes Err Transfer.

(** What the program sees of libgit2 and PCRE.  Commit ids are their printed
    form.  [gv_walk h] is the walk from [h] in commit-time order: the outcome of
    setting it up (lines 70-72), then its items in order; each item may be an
    error. *)
Record git_view := GitView {
  gv_revparse : bytes -> gres bytes;
  gv_walk : bytes -> gres (list (gres bytes));
  gv_find_commit : bytes -> gres (bytes * bytes) }.   (* id, message *)

(** [pcre2::bytes::Regex]: compiling and matching may fail with an error text. *)
Record regex_lib := RegexLib {
  rx : Type;
  rx_new : bytes -> bytes + rx;
  rx_is_match : rx -> bytes -> bytes + bool }.

(** git-at.rs 23-31 [Program], without [repo]. *)
Record at_opts := AtOpts {
  ao_summary : bool; ao_show : bool; ao_quiet : bool; ao_fixup : bool;
  ao_head : bytes; ao_text : bytes }.

(** [?] on a result of libgit2 (git-at.rs 69-74), errors.rs 179-188. *)
Definition res_of_git {A} (r : gres A) : res A :=
  match r with GOk a => Ok a | GErr e => Er (err_of_git e) end.
(** [?] on a result of PCRE (git-at.rs 76, 79, 122, 124), errors.rs 191-195. *)
Definition res_of_pcre {A} (r : bytes + A) : res A :=
  match r with inl t => Er (err_of_pcre t) | inr a => Ok a end.

(** The [?] operator. *)
Definition rbind {A B} (r : res A) (f : A -> res B) : res B :=
  match r with Ok a => f a | Er e => Er e end.
Notation "'try' x ':=' r 'in' q" := (rbind r (fun x => q))
  (at level 200, x pattern, r at level 100, q at level 200, right associativity).

(** git-at.rs 122: the pattern given to PCRE.  In the Rust literal "\\A" is a
    backslash and an A, and "\n" is a newline character. *)
Definition summary_prefix : bytes := bs "\A[^" ++ [NL] ++ bs "]*".
(** git-at.rs 68. *)
Definition fixup_text : bytes := bs "\A\s*(?:fixup|squash)!".

(** git-at.rs 120-125 [pattern]: the text. *)
Definition pattern_text (summary : bool) (p : bytes) : bytes :=
  if summary then summary_prefix ++ p else p.

Section at_.
Context (lib : regex_lib) (g : git_view) (o : at_opts).

(** git-at.rs 120-125 [pattern]: compiled. *)
Definition at_pattern (p : bytes) : res (rx lib) :=
  res_of_pcre (rx_new lib (pattern_text (ao_summary o) p)).

(** git-at.rs 73-82: the loop. *)
Fixpoint at_loop (regex fixup_regex : rx lib) (revs : list (gres bytes)) : res bytes :=
  match revs with
  | [] => Er (err_simple NoSuchRevision)
  | rev :: revs' =>
      try rev := res_of_git rev in
      try (id, message) := res_of_git (gv_find_commit g rev) in
      try skip := (if ao_fixup o then Ok false
                   else res_of_pcre (rx_is_match lib fixup_regex message)) in
      if skip then at_loop regex fixup_regex revs'
      else
        try m := res_of_pcre (rx_is_match lib regex message) in
        if m then Ok id else at_loop regex fixup_regex revs'
  end.

(** git-at.rs 66-84 [run]. *)
Definition at_run : res bytes :=
  try regex := at_pattern (ao_text o) in
  try fixup_regex := at_pattern fixup_text in
  try head := res_of_git (gv_revparse g (ao_head o)) in
  try revs := res_of_git (gv_walk g head) in
  at_loop regex fixup_regex revs.

(** What the process does: bytes on stdout and stderr, the commit given to
    "git show", if any, and the exit status. git-at.rs 91-118. *)
Record at_result := AtResult {
  ar_out : bytes; ar_err : bytes; ar_show : option bytes; ar_code : Z }.

(** git-at.rs 91-118 [main].  [show_code] is the exit status of "git show", [None]
    if it was killed by a signal.  (A failing spawn, wait or write panics and is
    not modelled.) *)
Definition at_main (show_code : option Z) : at_result :=
  match at_run with
  | Ok oid =>
      if ao_show o then
        AtResult [] [] (Some oid)
          (match show_code with Some c => c | None => exit_code ExternalProgramFailed end)
      else AtResult (oid ++ [NL]) [] None (exit_code Success)
  | Er e =>
      let text := match err_fatal e, ao_quiet o with
                  | true, _ | false, false => display e ++ [NL]
                  | false, true => []
                  end in
      AtResult [] text None (exit_code (err_exit_status e))
  end.

End at_.

(** git-at.rs 41-59 [Program::new]: the default revision. *)
Definition at_new (summary show quiet fixup : bool) (head : option bytes) (text : bytes)
  : at_opts :=
  AtOpts summary show quiet fixup (default (bs "HEAD") head) text.
