(** scutiger-bin/src/bin/git-recent-refs.rs *)
From Verif Require Import Bytes Err Transfer.

(** [git2::Time]: seconds and offset; ordered by both, in that order. *)
Definition time := (Z * Z)%type.
(** [Ord for Time] (git-recent-refs.rs 93, 106). *)
Definition time_lt (a b : time) : bool :=
  (a.1 <? b.1)%Z || ((a.1 =? b.1)%Z && (a.2 <? b.2)%Z).

(** What the program sees of a [git2::Reference]: its name if it is UTF-8, the
    object it points to directly (none for a symbolic reference), and the
    committer and author times of the commit it peels to, if it does. *)
Record ref := Ref {
  rf_name : option bytes; rf_target : option bytes; rf_commit : option (time * time) }.

(** git-recent-refs.rs 26-30 [SortKind]; the names are in lines 149-156. *)
Inductive sort_kind := Visited | Committed | Authored.

(** [Repository::references] and [Repository::revparse_ext]: an object id and,
    if the revision names a reference, its name. git-recent-refs.rs 81, 88, 101. *)
Record refs_view := RefsView {
  rv_references : gres (list (gres ref));
  rv_revparse_ext : bytes -> gres (bytes * option (option bytes)) }.

(** git-recent-refs.rs 55-65 [commit_date_for], [author_date_for]. *)
Definition date_for (k : sort_kind) (r : ref) : option time :=
  match k with
  | Authored => snd <$> rf_commit r
  | _ => fst <$> rf_commit r
  end.

(** [Result::ok] (git-recent-refs.rs 81, 89, 102). *)
Definition result_ok {A} (r : gres A) : option A :=
  match r with GOk a => Some a | GErr _ => None end.

(** git-recent-refs.rs 87-92, 100-105: the references kept, with their dates. *)
Definition dated_refs (k : sort_kind) (l : list (gres ref)) : list (time * ref) :=
  omap (fun r =>
          match rf_target r, date_for k r with
          | Some _, Some t => Some (t, r)
          | _, _ => None
          end) (omap result_ok l).

(** [sort_by(|a, b| b.1.cmp(&a.1))]: stable, largest first. git-recent-refs.rs 93, 106. *)
Fixpoint insert_desc (x : time * ref) (l : list (time * ref)) : list (time * ref) :=
  match l with
  | [] => [x]
  | y :: l' => if time_lt x.1 y.1 then y :: insert_desc x l' else x :: y :: l'
  end.
(** git-recent-refs.rs 93 and 106. *)
Fixpoint sort_desc (l : list (time * ref)) : list (time * ref) :=
  match l with
  | [] => []
  | x :: l' => insert_desc x (sort_desc l')
  end.

(** git-recent-refs.rs 47-53 [stringify] of a successful [revparse_ext]. *)
Definition stringify (x : bytes * option (option bytes)) : option bytes :=
  match x with
  | (_, Some name) => name
  | (id, None) => Some id
  end.

(** git-recent-refs.rs 75-79: "HEAD", "@{-1}", "@{-2}", ... *)
Definition nth_rev (i : nat) : bytes :=
  match i with O => bs "HEAD" | _ => bs "@{-" ++ dec (N.of_nat i) ++ bs "}" end.

(** git-recent-refs.rs 81. *)
Definition visit (v : refs_view) (i : nat) : option bytes :=
  match rv_revparse_ext v (nth_rev i) with GOk x => stringify x | GErr _ => None end.

(** The first [n] steps of [take_while(is_some)] from position [i]; the iterator
    is unbounded, so the list is [None] if it has not ended after [n] steps.
    git-recent-refs.rs 82-83. *)
Fixpoint visited (n : nat) (v : refs_view) (i : nat) : option (list bytes) :=
  match n with
  | O => None
  | S n' => match visit v i with
            | None => Some []
            | Some s => cons s <$> visited n' v (S i)
            end
  end.

(** git-recent-refs.rs 72-113 [run]; the outer [None] is the bound of
    [visited]. *)
Definition recent_run (n : nat) (k : sort_kind) (v : refs_view) : option (res (list bytes)) :=
  match k with
  | Visited => Ok <$> visited n v 0
  | _ => Some (match rv_references v with
               | GErr e => Er (err_of_git e)
               | GOk l => Ok (omap (fun x => rf_name x.2) (sort_desc (dated_refs k l)))
               end)
  end.

(** git-recent-refs.rs 120-133 [main]: stdout, stderr, exit status. *)
Definition recent_main (n : nat) (k : sort_kind) (v : refs_view)
  : option (bytes * bytes * Z) :=
  (fun r => match r with
            | Ok l => (flat_map (fun s => s ++ [NL]) l, [], exit_code Success)
            | Er e => ([], display e ++ [NL], exit_code (err_exit_status e))
            end) <$> recent_run n k v.
