(** scutiger-bin/src/bin/pager/mod.rs *)
From Verif Require Import Bytes.

(** What [find_pager] consults: [isatty], the environment, and core.pager (absent
    also when the configuration cannot be read). pager/mod.rs 28-37. *)
Record pager_env := PagerEnv {
  pe_isatty : Z; pe_git_pager : option bytes; pe_core_pager : option bytes;
  pe_pager : option bytes }.

(** [Option::or] (pager/mod.rs 36-37). *)
Definition or {A} (a b : option A) : option A :=
  match a with Some x => Some x | None => b end.

(** pager/mod.rs 27-44 [find_pager]. *)
Definition find_pager (e : pager_env) : option bytes :=
  if negb (pe_isatty e =? 1)%Z then None
  else
    let pager := default (bs "less")
                   (or (or (pe_git_pager e) (pe_core_pager e)) (pe_pager e)) in
    if decide (pager = bs "cat") then None else Some pager.

(** pager/mod.rs 14-25 and 46-54: the command started, and whether output goes to
    its standard input or to ours. *)
Inductive output_to := ToStdout | ToPager (argv : list bytes).
(** pager/mod.rs 14-25 and 46-54. *)
Definition pager_new (e : pager_env) : output_to :=
  match find_pager e with
  | Some p => ToPager [bs "sh"; bs "-c"; p]
  | None => ToStdout
  end.
