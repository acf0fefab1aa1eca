(** What the theorems of Props_Acts.v are stated with. *)
From Verif Require Import Bytes Err FS Prog Local Transfer GitAt RecentRefs Pager SpecGit Main SpecMain Acts.

(** What a process wrote to one place. *)
Definition written (k : sink) (l : list act) : bytes :=
  concat (map (fun a => match a with
                        | Write k' b => match k, k' with ToOut, ToOut | ToErr, ToErr | ToPipe, ToPipe => b | _, _ => [] end
                        | _ => []
                        end) l).

(** Lines written one by one, as much of each as can be written. *)
Definition lines_to (ws : nat -> wres) (k : sink) (names : list bytes) : list act :=
  imap (fun i n => Write k (match ws i with WDone => n ++ [NL] | WPipe c | WOther c => take c (n ++ [NL]) end)) names.

(** Where the output goes, and what is started for it. *)
Inductive out_goes (pe : pager_env) : list act -> sink -> Prop :=
| og_out p : pager_choice pe p -> pe_isatty pe <> 1%Z \/ p = bs "cat" -> out_goes pe [] ToOut
| og_pager p : pager_choice pe p -> pe_isatty pe = 1%Z -> p <> bs "cat" ->
    out_goes pe [Spawn [bs "sh"; bs "-c"; p]] ToPipe.

(** All of the first [n] writes succeed. *)
Definition done (n : nat) (ws : nat -> wres) : Prop := forall i, (i < n)%nat -> ws i = WDone.

(** How a process ends that writes [names]: with success if all could be written, and
    else right after the first that could not. *)
Inductive ends (ws : nat -> wres) (names : list bytes) : fate -> Prop :=
| en_exit : done (length names) ws -> ends ws names (Exit 0)
| en_pipe n c : length names = S n -> done n ws -> ws n = WPipe c -> ends ws names Sigpipe
| en_other n c : length names = S n -> done n ws -> ws n = WOther c -> ends ws names Panics.
