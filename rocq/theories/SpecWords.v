(** The formats of text that the other specifications mention by name: decimal
    and hexadecimal numbers, UTF-8, byte strings as Rust prints them, and the
    order of byte strings.  Nothing here comes from /repo or from the model. *)
From Verif Require Import Bytes Spec.

(** ** Numbers *)

(** The usual way to write a number: no sign, no needless zero. *)
Definition decimal (l : bytes) (n : N) : Prop :=
  denotes l n /\ (head l = Some Byte.x30 -> l = bs "0").

(** A minus sign for negative ones. *)
Definition decimal_signed (l : bytes) (z : Z) : Prop :=
  (exists n, decimal l n /\ z = Z.of_N n) \/
  (exists d n, l = bs "-" ++ d /\ decimal d n /\ (0 < n)%N /\ z = (- Z.of_N n)%Z).

(** Two digits for each byte. *)
Inductive hex_text : bytes -> bytes -> Prop :=
| ht_nil : hex_text [] []
| ht_cons b x y c d l w :
    hex_digit c x -> hex_digit d y -> bN b = (16 * x + y)%N -> hex_text l w ->
    hex_text (b :: l) (c :: d :: w).

(** ** UTF-8: the Unicode Standard, table 3-6, with the shortest form for each
    scalar value. *)

Inductive utf8 : N -> list N -> Prop :=
| u_1 a : (a < 128)%N -> utf8 a [a]
| u_2 a b : (a < 32)%N -> (b < 64)%N -> (128 <= 64 * a + b)%N ->
    utf8 (64 * a + b) [192 + a; 128 + b]%N
| u_3 a b c : (a < 16)%N -> (b < 64)%N -> (c < 64)%N ->
    (2048 <= 4096 * a + 64 * b + c)%N ->
    ~ (55296 <= 4096 * a + 64 * b + c < 57344)%N ->
    utf8 (4096 * a + 64 * b + c) [224 + a; 128 + b; 128 + c]%N
| u_4 a b c d : (a < 8)%N -> (b < 64)%N -> (c < 64)%N -> (d < 64)%N ->
    (65536 <= 262144 * a + 4096 * b + 64 * c + d < 1114112)%N ->
    utf8 (262144 * a + 4096 * b + 64 * c + d) [240 + a; 128 + b; 128 + c; 128 + d]%N.

(** The bytes of one character. *)
Definition char_of (w : bytes) : Prop := exists c, utf8 c (map bN w).

(** Text: characters one after the other. *)
Inductive utf8_text : bytes -> Prop :=
| ut_nil : utf8_text []
| ut_char w l : char_of w -> utf8_text l -> utf8_text (w ++ l).

(** The beginning of a character, not the whole of it. *)
Definition unfinished (w : bytes) : Prop :=
  exists c v, utf8 c (map bN w ++ v) /\ v <> [].

(** What the Unicode Standard (section 3.9, "substitution of maximal subparts")
    recommends and [String::from_utf8_lossy] documents: what is no character is
    replaced by U+FFFD, namely as many bytes as could begin a character, or else
    one. *)
Definition replacement : bytes := [Byte.xef; Byte.xbf; Byte.xbd].

Inductive repaired : bytes -> bytes -> Prop :=
| rp_nil : repaired [] []
| rp_char w l v : char_of w -> repaired l v -> repaired (w ++ l) (w ++ v)
| rp_part w l v :
    w <> [] -> unfinished w ->
    (forall x l', l = x :: l' -> ~ unfinished (w ++ [x]) /\ ~ char_of (w ++ [x])) ->
    repaired l v -> repaired (w ++ l) (replacement ++ v)
| rp_byte b l v :
    ~ unfinished [b] -> ~ char_of [b] -> repaired l v -> repaired (b :: l) (replacement ++ v).

(** ** Byte strings between quotes, as in Rust source text *)

Inductive letter : bytes -> byte -> Prop :=
| l_plain b : (32 <= bN b < 127)%N -> b <> Byte.x22 -> b <> Byte.x5c -> letter [b] b
| l_nl : letter [Byte.x5c; Byte.x6e] Byte.x0a
| l_cr : letter [Byte.x5c; Byte.x72] Byte.x0d
| l_tab : letter [Byte.x5c; Byte.x74] Byte.x09
| l_nul : letter [Byte.x5c; Byte.x30] Byte.x00
| l_quote : letter [Byte.x5c; Byte.x22] Byte.x22
| l_back : letter [Byte.x5c; Byte.x5c] Byte.x5c
| l_hex b c d x y : hex_digit c x -> hex_digit d y -> bN b = (16 * x + y)%N ->
    letter [Byte.x5c; Byte.x78; c; d] b.

Inductive letters : bytes -> bytes -> Prop :=
| ls_nil : letters [] []
| ls_cons w b ws l : letter w b -> letters ws l -> letters (w ++ ws) (b :: l).

Definition literal (t l : bytes) : Prop := exists w, t = bs "b""" ++ w ++ [Byte.x22] /\ letters w l.

(** ** The order of byte strings: that of a dictionary *)

Definition before (a b : bytes) : Prop :=
  (exists x l, b = a ++ x :: l) \/
  (exists p x y l m, a = p ++ x :: l /\ b = p ++ y :: m /\ (bN x < bN y)%N).

(** ** Pieces between separators *)

Inductive pieces (c : byte) : bytes -> list bytes -> Prop :=
| pc_one w : c ∉ w -> pieces c w [w]
| pc_more w l ws : c ∉ w -> pieces c l ws -> pieces c (w ++ c :: l) (w :: ws).

(** At most [n] pieces; the last is what is left. *)
Inductive pieces_upto (c : byte) : nat -> bytes -> list bytes -> Prop :=
| pu_rest w : pieces_upto c 1 w [w]
| pu_one n w : (1 < n)%nat -> c ∉ w -> pieces_upto c n w [w]
| pu_more n w l ws : c ∉ w -> pieces_upto c (S n) l ws -> pieces_upto c (S (S n)) (w ++ c :: l) (w :: ws).
