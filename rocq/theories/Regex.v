(** A small regular-expression engine with the syntax of PCRE used here:
    literals, escapes (\A, \s, \ followed by punctuation), [.], classes, groups,
    alternation and the star.  It stands for the [pcre2] crate in the statements
    about --summary; other syntax is an error. *)
From Verif Require Import Bytes Err GitAt.

(** Patterns ([Regex] of git-at.rs 120-125). *)
Inductive rgx :=
| REps                               (* nothing *)
| RStart                             (* \A *)
| RClass (neg : bool) (cs : bytes)   (* one byte in (or not in) the set *)
| RSeq (a b : rgx)
| RAlt (a b : rgx)
| RStar (a : rgx).

(** [rmatch m r i j]: [r] matches the bytes of [m] from [i] up to [j].
    What [is_match] of git-at.rs 76 and 79 looks for. *)
Inductive rmatch (m : bytes) : rgx -> nat -> nat -> Prop :=
| rm_eps i : rmatch m REps i i
| rm_start : rmatch m RStart 0 0
| rm_class neg cs i c :
    m !! i = Some c -> (c ∈ cs <-> neg = false) -> rmatch m (RClass neg cs) i (S i)
| rm_seq a b i j k : rmatch m a i j -> rmatch m b j k -> rmatch m (RSeq a b) i k
| rm_alt_l a b i j : rmatch m a i j -> rmatch m (RAlt a b) i j
| rm_alt_r a b i j : rmatch m b i j -> rmatch m (RAlt a b) i j
| rm_star_0 a i : rmatch m (RStar a) i i
| rm_star_S a i j k : rmatch m a i j -> rmatch m (RStar a) j k -> rmatch m (RStar a) i k.

(** ** Searching *)

(** Where a match that starts at [i] can end. For [ends]. *)
Fixpoint iter_ends (n : nat) (f : nat -> list nat) (is : list nat) : list nat :=
  match n with
  | O => is
  | S n' => iter_ends n' f (remove_dups (is ++ is ≫= f))
  end.

(** Where a match of each kind can end. *)
Fixpoint ends (m : bytes) (r : rgx) (i : nat) : list nat :=
  match r with
  | REps => [i]
  | RStart => match i with O => [O] | _ => [] end
  | RClass neg cs =>
      match m !! i with
      | Some c => if Bool.eqb (bool_decide (c ∈ cs)) (negb neg) then [S i] else []
      | None => []
      end
  | RSeq a b => ends m a i ≫= ends m b
  | RAlt a b => ends m a i ++ ends m b i
  | RStar a => iter_ends (S (length m)) (ends m a) [i]
  end.

(** [is_match] (git-at.rs 76, 79): a match somewhere. *)
Definition search (r : rgx) (m : bytes) : bool :=
  existsb (fun i => match ends m r i with [] => false | _ => true end) (seq 0 (S (length m))).

(** ** Parsing *)

(** The backslash. *)
Definition BSL : byte := Byte.x5c.
(** What stands for itself after a backslash. *)
Definition punct (b : byte) : bool :=
  negb (is_digit b || byte_in Byte.x41 Byte.x5a b || byte_in Byte.x61 Byte.x7a b
        || byte_in Byte.x80 Byte.xff b).
(** What does not stand for itself without a backslash. *)
Definition special (b : byte) : bool :=
  bool_decide (b ∈ bs "^$.|?*+()[{\").
(** What \s matches (git-at.rs 68). *)
Definition spaces : bytes := [Byte.x09; Byte.x0a; Byte.x0b; Byte.x0c; Byte.x0d; Byte.x20].

(** The members of a class up to the closing bracket: plain bytes only.
    Needed for git-at.rs 122. *)
Fixpoint class_body (p : bytes) : option (bytes * bytes) :=
  match p with
  | [] => None
  | b :: p' =>
      if decide (b = Byte.x5d) then Some ([], p')
      else if bool_decide (b ∈ bs "\[-^") then None
      else match class_body p' with
           | Some (cs, rest) => Some (b :: cs, rest)
           | None => None
           end
  end.

(** A star after what was read; other repetitions are errors. *)
Definition star_of (r : rgx) (p : bytes) : option (rgx * bytes) :=
  match p with
  | b :: p' =>
      if decide (b = Byte.x2a) then
        match p' with
        | c :: _ => if bool_decide (c ∈ bs "*+?{") then None else Some (RStar r, p')
        | [] => Some (RStar r, p')
        end
      else if bool_decide (b ∈ bs "+?{") then None
      else Some (r, p)
  | [] => Some (r, p)
  end.

(** [parse_seq] reads a sequence up to '|', ')' or the end; [parse_alt] reads
    alternatives up to ')' or the end. [Regex::new] (git-at.rs 122, 124). *)
Fixpoint parse_seq (fuel : nat) (p : bytes) : option (rgx * bytes) :=
  match fuel with
  | O => None
  | S f =>
      let atom (r : rgx) (rest : bytes) :=
        match star_of r rest with
        | None => None
        | Some (r', rest') =>
            match parse_seq f rest' with
            | Some (q, rest'') => Some (RSeq r' q, rest'')
            | None => None
            end
        end in
      match p with
      | [] => Some (REps, [])
      | b :: p' =>
          if decide (b = Byte.x7c) then Some (REps, p)
          else if decide (b = Byte.x29) then Some (REps, p)
          else if decide (b = BSL) then
            match p' with
            | c :: p'' =>
                if decide (c = Byte.x41) then atom RStart p''
                else if decide (c = Byte.x73) then atom (RClass false spaces) p''
                else if punct c then atom (RClass false [c]) p''
                else None
            | [] => None
            end
          else if decide (b = Byte.x2e) then atom (RClass true [NL]) p'
          else if decide (b = Byte.x5b) then
            match p' with
            | c :: p'' =>
                if decide (c = Byte.x5e) then
                  match class_body p'' with
                  | Some (cs, rest) => match cs with [] => None | _ => atom (RClass true cs) rest end
                  | None => None
                  end
                else match class_body p' with
                     | Some (cs, rest) => match cs with [] => None | _ => atom (RClass false cs) rest end
                     | None => None
                     end
            | [] => None
            end
          else if decide (b = Byte.x28) then
            let q := match p' with
                     | c :: d :: p'' =>
                         if decide (c = Byte.x3f) then
                           if decide (d = COLON) then Some p'' else None
                         else Some p'
                     | _ => Some p'
                     end in
            match q with
            | None => None
            | Some q =>
                match parse_alt f q with
                | Some (r, c :: rest) => if decide (c = Byte.x29) then atom r rest else None
                | _ => None
                end
            end
          else if special b then None
          else atom (RClass false [b]) p'
      end
  end
with parse_alt (fuel : nat) (p : bytes) : option (rgx * bytes) :=
  match fuel with
  | O => None
  | S f =>
      match parse_seq f p with
      | None => None
      | Some (r, rest) =>
          match rest with
          | b :: rest' =>
              if decide (b = Byte.x7c) then
                match parse_alt f rest' with
                | Some (q, rest'') => Some (RAlt r q, rest'')
                | None => None
                end
              else Some (r, rest)
          | [] => Some (r, [])
          end
      end
  end.

(** [Regex::new] (git-at.rs 122, 124): all of the pattern must be read. *)
Definition parse_regex (p : bytes) : option rgx :=
  match parse_alt (2 * length p + 4) p with
  | Some (r, []) => Some r
  | _ => None
  end.

(** The library given to [git at]. git-at.rs 17. *)
Definition mini_pcre : regex_lib := RegexLib rgx
  (fun p => match parse_regex p with Some r => inr r | None => inl (bs "bad pattern") end)
  (fun r m => inr (search r m)).
