(** What a pattern is, for C44: the syntax as a grammar, without an algorithm.
    [alts t r] says that the text [t] is a pattern and that [r] is its structure;
    what a structure matches is [rmatch] of Regex.v. *)
From Verif Require Import Bytes GitAt Regex SpecGit.

(** A byte that stands for itself, and one that may follow a backslash. *)
Definition plain (b : byte) : Prop := b ∉ bs "^$.|?*+()[{\".
Definition letter_or_digit (b : byte) : Prop :=
  b ∈ bs "0123456789abcdefghijklmnopqrstuvwxyzABCDEFGHIJKLMNOPQRSTUVWXYZ".
Definition ascii (b : byte) : Prop := (Byte.to_N b < 128)%N.
Definition members (cs : bytes) : Prop := cs <> [] /\ Forall (fun b => b ∉ bs "]\[-^") cs.

Inductive item : bytes -> rgx -> Prop :=
| it_plain b : plain b -> item [b] (RClass false [b])
| it_dot : item (bs ".") (RClass true [NL])
| it_escape b : ascii b -> ~ letter_or_digit b -> item (bs "\" ++ [b]) (RClass false [b])
| it_start : item (bs "\A") RStart
| it_space : item (bs "\s") (RClass false [Byte.x09; Byte.x0a; Byte.x0b; Byte.x0c; Byte.x0d; Byte.x20])
| it_class cs : members cs -> item (bs "[" ++ cs ++ bs "]") (RClass false cs)
| it_not_class cs : members cs -> item (bs "[^" ++ cs ++ bs "]") (RClass true cs)
| it_group t r : alts t r -> item (bs "(" ++ t ++ bs ")") r
| it_bare_group t r : alts t r -> item (bs "(?:" ++ t ++ bs ")") r
with items : bytes -> rgx -> Prop :=
| its_none : items [] REps
| its_one t r u s : item t r -> items u s -> items (t ++ u) (RSeq r s)
| its_star t r u s : item t r -> items u s -> items (t ++ bs "*" ++ u) (RSeq (RStar r) s)
with alts : bytes -> rgx -> Prop :=
| al_one t r : items t r -> alts t r
| al_more t r u s : items t r -> alts u s -> alts (t ++ bs "|" ++ u) (RAlt r s).

(** What --summary makes of the text [t] as the program pastes it: the first
    alternative is looked for in the first line, the others anywhere. *)
Inductive found_with_summary (m : bytes) : bytes -> Prop :=
| fs_only t r : items t r -> has_match_in_first_line r m -> found_with_summary m t
| fs_first t r u s : items t r -> alts u s -> has_match_in_first_line r m ->
    found_with_summary m (t ++ bs "|" ++ u)
| fs_rest t r u s : items t r -> alts u s -> has_match s m ->
    found_with_summary m (t ++ bs "|" ++ u).

(** A message that git at --summary stops at. *)
Definition wanted_with_summary (o : at_opts) (m : bytes) : Prop :=
  (ao_fixup o = true \/ ~ is_fixup m) /\ found_with_summary m (ao_text o).
