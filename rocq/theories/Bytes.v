(** Byte strings: the [&[u8]], [Vec<u8>] and [Bytes] values of the Rust code.

    Nothing in this file models a function of /repo; it holds the pieces of the
    Rust standard library that the code calls (slice::split, splitn, position,
    slice ordering, integer formatting and parsing, hex). *)
From Coq Require Export NArith ZArith.
From Coq Require Export Strings.Byte Strings.String.
From stdpp Require Export prelude gmap.

Notation byte := Byte.byte.
Notation bytes := (list byte).

(** A string literal as bytes (Rust [b"..."]).
    Used for the literals of all sources, e.g. processor.rs 371. *)
Definition bs (s : string) : bytes := String.list_byte_of_string s.
Arguments bs s%string_scope.

Global Instance byte_eq_dec : EqDecision byte := Byte.byte_eq_dec.
Global Program Instance byte_countable : Countable byte := {|
  encode b := N.succ_pos (Byte.to_N b);
  decode p := Byte.of_N (Pos.pred_N p)
|}.
Next Obligation. by intros []. Qed.

(** The number of a byte ([as u16], [x - b'0']: pktline.rs 112-116). *)
Definition bN (b : byte) : N := Byte.to_N b.

(** A range pattern [lo..=hi] (pktline.rs 112-113, processor.rs 212). *)
Definition byte_in (lo hi : byte) (b : byte) : bool :=
  (bN lo <=? bN b)%N && (bN b <=? bN hi)%N.

(** b'\n' (processor.rs 266, 386, 672). *)
Definition NL : byte := Byte.x0a.
(** b' ' (processor.rs 390, 677). *)
Definition SP : byte := Byte.x20.
(** b'=' (processor.rs 257). *)
Definition EQ : byte := Byte.x3d.
(** b':' (local.rs 216, 222). *)
Definition COLON : byte := Byte.x3a.
(** The separator of paths, in names given to [PathBuf::push] (local.rs 367). *)
Definition SLASH : byte := Byte.x2f.

(** [len()] (e.g. processor.rs 210, pktline.rs 177). *)
Definition lenN {A} (l : list A) : N := N.of_nat (length l).

(** Equality of byte strings as a boolean. As in git-lfs-transfer.rs 102-104. *)
Definition beq (a b : bytes) : bool := bool_decide (a = b).

(** [slice::split(|&b| b == c)]: always at least one piece. As in processor.rs 390 and 677. *)
Fixpoint split_on (c : byte) (l : bytes) : list bytes :=
  match l with
  | [] => [[]]
  | b :: l' =>
      if decide (b = c) then [] :: split_on c l'
      else match split_on c l' with
           | [] => [[b]]
           | w :: ws => (b :: w) :: ws
           end
  end.

(** [slice::splitn(n, |&b| b == c)] for n >= 1: at most n pieces, the last one
    is the unsplit remainder. local.rs 222 *)
Fixpoint splitn (n : nat) (c : byte) (l : bytes) : list bytes :=
  match n with
  | O => []
  | S O => [l]
  | S n' =>
      (fix go (acc l : bytes) : list bytes :=
         match l with
         | [] => [acc]
         | b :: l' => if decide (b = c) then acc :: splitn n' c l'
                      else go (acc ++ [b]) l'
         end) [] l
  end.

(** [iter().position(|&x| x == c)]. As in processor.rs 257. *)
Fixpoint position (c : byte) (l : bytes) : option nat :=
  match l with
  | [] => None
  | b :: l' => if decide (b = c) then Some O else S <$> position c l'
  end.

(** Slice ordering ([Ord for [u8]]): strict lexicographic order. *)
Fixpoint blt (a b : bytes) : bool :=
  match a, b with
  | _, [] => false
  | [], _ :: _ => true
  | x :: a', y :: b' =>
      (bN x <? bN y)%N || ((bN x =? bN y)%N && blt a' b')
  end.

(** Sub-slice [l[a..b]] for a <= b <= len; out-of-range slices panic in Rust, so
    each use in the model is guarded or proved in range.
    As in processor.rs 220-221 and 274-275. *)
Definition slice (a b : nat) (l : bytes) : bytes := take (b - a) (drop a l).

(** Last byte. As in processor.rs 386 and 672. *)
Definition last_is (c : byte) (l : bytes) : bool :=
  match last l with Some b => bool_decide (b = c) | None => false end.

(** ** Digits *)

(** [is_ascii_digit] (processor.rs 212). *)
Definition is_digit (b : byte) : bool := byte_in Byte.x30 Byte.x39 b.

(** A decimal digit, for [dec]. *)
Definition digit_char (d : N) : byte :=
  default Byte.x30 (Byte.of_N (48 + d)).

(** [format!("{}", n)] for an unsigned integer. As in processor.rs 422, 474, 517. *)
Fixpoint dec_aux (fuel : nat) (n : N) (acc : bytes) : bytes :=
  match fuel with
  | O => acc
  | S f =>
      let acc := digit_char (n mod 10) :: acc in
      if (n / 10 =? 0)%N then acc else dec_aux f (n / 10) acc
  end.
(** [format!("{}", n)], the fuel is enough for every digit. *)
Definition dec (n : N) : bytes := dec_aux (S (N.size_nat n)) n [].

(** [format!("{}", z)] for a signed integer. As in local.rs 332. *)
Definition decZ (z : Z) : bytes :=
  if (z <? 0)%Z then Byte.x2d :: dec (Z.to_N (- z)) else dec (Z.to_N z).

(** Left padding with '0' ([{:03}], [{:04x}]). *)
Definition pad0 (w : nat) (l : bytes) : bytes :=
  replicate (w - length l) Byte.x30 ++ l.

(** A hexadecimal digit (pktline.rs 177, processor.rs 330). *)
Definition hexdig (d : N) : byte :=
  if (d <? 10)%N then default Byte.x30 (Byte.of_N (48 + d))
  else default Byte.x30 (Byte.of_N (87 + d)).

(** The hexadecimal digits of a number (pktline.rs 177). *)
Fixpoint hex_aux (fuel : nat) (n : N) (acc : bytes) : bytes :=
  match fuel with
  | O => acc
  | S f =>
      let acc := hexdig (n mod 16) :: acc in
      if (n / 16 =? 0)%N then acc else hex_aux f (n / 16) acc
  end.

(** [format!("{:04x}", n)]: at least four lower-case hex digits. *)
Definition hex04 (n : N) : bytes := pad0 4 (hex_aux (S (N.size_nat n)) n []).

(** [hex::encode]. As in processor.rs 330 and local.rs 218. *)
Definition hex_encode (l : bytes) : bytes :=
  flat_map (fun b => [hexdig (bN b / 16); hexdig (bN b mod 16)]) l.

(** ** Integer parsing: [str::parse] of the unsigned and signed 64-bit types.

    Rust rejects the empty string and a lone sign; an unsigned type accepts a
    leading '+'; a signed one '+' or '-'; every other byte must be a digit;
    overflow is an error at the digit where it happens. *)
Fixpoint parse_digits (bound : N) (acc : N) (l : bytes) : option N :=
  match l with
  | [] => Some acc
  | b :: l' =>
      if is_digit b then
        let acc := (acc * 10 + (bN b - 48))%N in
        if (acc <=? bound)%N then parse_digits bound acc l' else None
      else None
  end.

(** The sign '+'. *)
Definition PLUS : byte := Byte.x2b.
(** The sign '-'. *)
Definition MINUS : byte := Byte.x2d.

(** [u64::MAX], [usize::MAX]. *)
Definition u64_max : N := 18446744073709551615.
(** [i64::MAX]. *)
Definition i64_max : N := 9223372036854775807.
(** [i64::MIN] without the sign. *)
Definition i64_min_abs : N := 9223372036854775808.

(** [parse] to an unsigned type (processor.rs 304, 397). *)
Definition parse_unsigned (bound : N) (l : bytes) : option N :=
  match l with
  | [] => None
  | b :: l' =>
      if decide (b = PLUS) then
        match l' with [] => None | _ => parse_digits bound 0 l' end
      else parse_digits bound 0 l
  end.

(** [parse] to [u64] or [usize] (processor.rs 304, 397). *)
Definition parse_u64 (l : bytes) : option N := parse_unsigned u64_max l.

(** [parse] to [i64] (local.rs 227). *)
Definition parse_i64 (l : bytes) : option Z :=
  match l with
  | [] => None
  | b :: l' =>
      if decide (b = PLUS) then
        match l' with [] => None | _ => Z.of_N <$> parse_digits i64_max 0 l' end
      else if decide (b = MINUS) then
        match l' with
        | [] => None
        | _ => (fun n => - Z.of_N n)%Z <$> parse_digits i64_min_abs 0 l'
        end
      else Z.of_N <$> parse_digits i64_max 0 l
  end.

(** ** UTF-8 ([std::str::from_utf8], [String::from_utf8_lossy])

    [utf8_next l] looks at the head of a non-empty [l]: [(true, n)] is a valid
    character of [n] bytes, [(false, n)] an invalid sequence of [n] bytes that
    [from_utf8_lossy] replaces by one U+FFFD. *)
Definition cont : byte -> bool := byte_in Byte.x80 Byte.xbf.

(** A character of two bytes after its first byte. *)
Definition utf8_tail2 (ok2 : byte -> bool) (l : bytes) : bool * nat :=
  match l with
  | c :: _ => if ok2 c then (true, 2%nat) else (false, 1%nat)
  | [] => (false, 1%nat)
  end.

(** A character of three bytes after its first byte. *)
Definition utf8_tail3 (ok2 : byte -> bool) (l : bytes) : bool * nat :=
  match l with
  | c :: l' =>
      if ok2 c then
        match l' with
        | d :: _ => if cont d then (true, 3%nat) else (false, 2%nat)
        | [] => (false, 2%nat)
        end
      else (false, 1%nat)
  | [] => (false, 1%nat)
  end.

(** A character of four bytes after its first byte. *)
Definition utf8_tail4 (ok2 : byte -> bool) (l : bytes) : bool * nat :=
  match l with
  | c :: l' =>
      if ok2 c then
        match l' with
        | d :: l'' =>
            if cont d then
              match l'' with
              | e :: _ => if cont e then (true, 4%nat) else (false, 3%nat)
              | [] => (false, 3%nat)
              end
            else (false, 2%nat)
        | [] => (false, 2%nat)
        end
      else (false, 1%nat)
  | [] => (false, 1%nat)
  end.

(** The first character, or what is replaced. *)
Definition utf8_next (l : bytes) : bool * nat :=
  match l with
  | [] => (true, 0%nat)
  | b :: l' =>
      if byte_in Byte.x00 Byte.x7f b then (true, 1%nat)
      else if byte_in Byte.xc2 Byte.xdf b then utf8_tail2 cont l'
      else if decide (b = Byte.xe0) then utf8_tail3 (byte_in Byte.xa0 Byte.xbf) l'
      else if decide (b = Byte.xed) then utf8_tail3 (byte_in Byte.x80 Byte.x9f) l'
      else if byte_in Byte.xe1 Byte.xef b then utf8_tail3 cont l'
      else if decide (b = Byte.xf0) then utf8_tail4 (byte_in Byte.x90 Byte.xbf) l'
      else if byte_in Byte.xf1 Byte.xf3 b then utf8_tail4 cont l'
      else if decide (b = Byte.xf4) then utf8_tail4 (byte_in Byte.x80 Byte.x8f) l'
      else (false, 1%nat)
  end.

(** [utf8_valid] with fuel. *)
Fixpoint utf8_valid_aux (fuel : nat) (l : bytes) : bool :=
  match fuel with
  | O => false
  | S f => match l with
           | [] => true
           | _ => let '(ok, n) := utf8_next l in ok && utf8_valid_aux f (drop n l)
           end
  end.
(** [from_utf8] succeeds (processor.rs 630, local.rs 226, [value_of] in git-at.rs 165-166). *)
Definition utf8_valid (l : bytes) : bool := utf8_valid_aux (S (length l)) l.

(** [utf8_lossy] with fuel. *)
Fixpoint utf8_lossy_aux (fuel : nat) (l : bytes) : bytes :=
  match fuel with
  | O => []
  | S f => match l with
           | [] => []
           | _ => let '(ok, n) := utf8_next l in
                  (if ok then take n l else [Byte.xef; Byte.xbf; Byte.xbd])
                  ++ utf8_lossy_aux f (drop n l)
           end
  end.
(** [from_utf8_lossy] (processor.rs 377). *)
Definition utf8_lossy (l : bytes) : bytes := utf8_lossy_aux (S (length l)) l.

(** [format!("{:?}", b)] for [bytes::Bytes] 0.4. *)
Definition debug_byte (b : byte) : bytes :=
  if decide (b = Byte.x0a) then bs "\n"
  else if decide (b = Byte.x0d) then bs "\r"
  else if decide (b = Byte.x09) then bs "\t"
  else if decide (b = Byte.x5c) then [Byte.x5c; b]
  else if decide (b = Byte.x22) then [Byte.x5c; b]
  else if decide (b = Byte.x00) then bs "\0"
  else if byte_in Byte.x20 Byte.x7e b then [b]
  else bs "\x" ++ [hexdig (bN b / 16); hexdig (bN b mod 16)].
(** As in processor.rs 308 and 402. *)
Definition debug_bytes (l : bytes) : bytes :=
  bs "b""" ++ flat_map debug_byte l ++ bs """".
