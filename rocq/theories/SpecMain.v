(** The command lines of the programs: what the theorems of Props_Main.v are stated
    with. *)
From Verif Require Import Bytes Err FS Prog Local Transfer GitAt RecentRefs Regex SpecGit Main.

(** ** git at, as its manual page has it *)

(** Where the search starts, and the expression searched for. *)
Definition starts_at (a : at_args) : bytes := match aa_revision a with Some r => r | None => bs "HEAD" end.
Definition looks_for (a : at_args) (r : rgx) : Prop :=
  parse_regex ((if aa_summary a then bs "\A[^" ++ [NL] ++ bs "]*" else []) ++ aa_pattern a) = Some r.
(** A message that is not skipped and matches. *)
Definition hits (a : at_args) (r : rgx) (m : bytes) : Prop := (aa_no_fixup a = true -> ~ is_fixup m) /\ has_match r m.
(** [revs] are the commits in the order searched. *)
Definition searched (g : git_view) (a : at_args) (revs : list (gres bytes)) : Prop :=
  exists head, gv_revparse g (starts_at a) = GOk head /\ gv_walk g head = GOk revs.
Definition misses (g : git_view) (a : at_args) (r : rgx) (rev : bytes) : Prop :=
  exists id m, gv_find_commit g rev = GOk (id, m) /\ ~ hits a r m.
(** [id] is the first commit that is hit; or none is. *)
Definition finds (g : git_view) (a : at_args) (id : bytes) : Prop :=
  exists r pre rev post m, looks_for a r /\ searched g a (map GOk pre ++ GOk rev :: post) /\
    Forall (misses g a r) pre /\ gv_find_commit g rev = GOk (id, m) /\ hits a r m.
Definition finds_none (g : git_view) (a : at_args) : Prop :=
  exists r revs, looks_for a r /\ searched g a (map GOk revs) /\ Forall (misses g a r) revs.

(** Arguments in UTF-8. *)
Definition at_utf8 (a : at_args) : Prop :=
  utf8_valid (aa_pattern a) = true /\ forall r, aa_revision a = Some r -> utf8_valid r = true.

(** ** git recent-refs *)

(** The values clap lets through, and what they mean. *)
Inductive sorts_by : option bytes -> sort_kind -> Prop :=
| by_default : sorts_by None Visited
| by_visit : sorts_by (Some (bs "visitdate")) Visited
| by_commit : sorts_by (Some (bs "committerdate")) Committed
| by_author : sorts_by (Some (bs "authordate")) Authored.

(** Each on a line of its own. *)
Definition as_lines (ns : list bytes) : bytes := concat (map (fun n => n ++ [NL]) ns).
