(** What the theorems about git at, git recent-refs and the pager are stated
    with.  Patterns and their meaning ([parse_regex], [rmatch]) come from
    Regex.v. *)
From Verif Require Import Bytes Err Transfer GitAt RecentRefs Pager Regex.

(** ** git at *)

(** The message starts with "fixup!" or "squash!" after white space. *)
Definition is_fixup (m : bytes) : Prop :=
  exists ws rest, Forall (fun c => c ∈ spaces) ws /\
    (m = ws ++ bs "fixup!" ++ rest \/ m = ws ++ bs "squash!" ++ rest).

(** A match of [r] somewhere in [m]. *)
Definition has_match (r : rgx) (m : bytes) : Prop :=
  exists i j, (i <= length m)%nat /\ rmatch m r i j.

(** A match of [r] that begins in the first line of [m]. *)
Definition has_match_in_first_line (r : rgx) (m : bytes) : Prop :=
  exists i j, (i <= length m)%nat /\ NL ∉ take i m /\ rmatch m r i j.

(** The same questions put to any regular-expression library. *)
Section any_library.
Context (lib : regex_lib) (g : git_view) (o : at_opts).
Context (regex fixup_regex : rx lib).

(** The commit is wanted: not a fixup unless these are wanted, and it matches. *)
Definition wanted_by (rev id : bytes) : Prop :=
  exists m, gv_find_commit g rev = GOk (id, m) /\
    (ao_fixup o = true \/ rx_is_match lib fixup_regex m = inr false) /\
    rx_is_match lib regex m = inr true.
Definition unwanted_by (rev : bytes) : Prop :=
  exists id m, gv_find_commit g rev = GOk (id, m) /\
    ((ao_fixup o = false /\ rx_is_match lib fixup_regex m = inr true) \/
     ((ao_fixup o = true \/ rx_is_match lib fixup_regex m = inr false) /\
      rx_is_match lib regex m = inr false)).
End any_library.

(** A message git at stops at. *)
Definition wanted (o : at_opts) (r : rgx) (m : bytes) : Prop :=
  (ao_fixup o = true \/ ~ is_fixup m) /\ has_match r m.

(** [walked g o r revs]: the pattern compiles to [r], the start revision is found
    and [revs] is the walk from it. *)
Definition walked (g : git_view) (o : at_opts) (r : rgx) (revs : list (gres bytes)) : Prop :=
  parse_regex (pattern_text (ao_summary o) (ao_text o)) = Some r /\
  exists head, gv_revparse g (ao_head o) = GOk head /\ gv_walk g head = GOk revs.

(** The items are commits, none of them wanted. *)
Definition none_wanted (g : git_view) (o : at_opts) (r : rgx) (revs : list bytes) : Prop :=
  Forall (fun rev => exists id m, gv_find_commit g rev = GOk (id, m) /\ ~ wanted o r m) revs.

(** libgit2 gave the error [x] at some point. *)
Definition git_failed (g : git_view) (o : at_opts) (x : git_error) : Prop :=
  gv_revparse g (ao_head o) = GErr x \/
  exists head, gv_revparse g (ao_head o) = GOk head /\
  (gv_walk g head = GErr x \/
   exists revs, gv_walk g head = GOk revs /\
   (GErr x ∈ revs \/ exists rev, GOk rev ∈ revs /\ gv_find_commit g rev = GErr x)).

(** What is said about an error of libgit2. *)
Definition git_says (x : git_error) : bytes :=
  match g_code x with
  | GNotFound => bs "fatal: needed a single revision"
  | GConflict => bs "fatal: conflict"
  | GOther => bs "fatal: " ++ g_text x
  end.

(** ** git recent-refs *)

(** The references that count, with their dates, in repository order. *)
Inductive dated (k : sort_kind) : list (gres ref) -> list (time * ref) -> Prop :=
| dated_nil : dated k [] []
| dated_err e l ds : dated k l ds -> dated k (GErr e :: l) ds
| dated_symbolic n c l ds : dated k l ds -> dated k (GOk (Ref n None c) :: l) ds
| dated_no_commit n t l ds : dated k l ds -> dated k (GOk (Ref n (Some t) None) :: l) ds
| dated_keep n t ct aut l ds : dated k l ds ->
    dated k (GOk (Ref n (Some t) (Some (ct, aut))) :: l)
      ((match k with Authored => aut | _ => ct end, Ref n (Some t) (Some (ct, aut))) :: ds).

(** [a] is not older than [b]. *)
Definition not_older (a b : time * ref) : Prop :=
  (b.1.1 < a.1.1)%Z \/ (b.1.1 = a.1.1 /\ (b.1.2 <= a.1.2)%Z).

(** The valid names. *)
Inductive named : list ref -> list bytes -> Prop :=
| named_nil : named [] []
| named_some n t c l ns : named l ns -> named (Ref (Some n) t c :: l) (n :: ns)
| named_none t c l ns : named l ns -> named (Ref None t c :: l) ns.

(** What position [i] of the visit history is called, and shown as. *)
Definition visit_rev (i : nat) : bytes :=
  match i with O => bs "HEAD" | S _ => bs "@{-" ++ dec (N.of_nat i) ++ bs "}" end.
Definition shown_as (v : refs_view) (i : nat) (n : bytes) : Prop :=
  rv_revparse_ext v (visit_rev i) = GOk (n, None) \/
  exists id, rv_revparse_ext v (visit_rev i) = GOk (id, Some (Some n)).

(** ** Pager *)

Inductive pager_choice (e : pager_env) : bytes -> Prop :=
| pc_git p : pe_git_pager e = Some p -> pager_choice e p
| pc_core p : pe_git_pager e = None -> pe_core_pager e = Some p -> pager_choice e p
| pc_env p : pe_git_pager e = None -> pe_core_pager e = None -> pe_pager e = Some p ->
             pager_choice e p
| pc_less : pe_git_pager e = None -> pe_core_pager e = None -> pe_pager e = None ->
            pager_choice e (bs "less").
