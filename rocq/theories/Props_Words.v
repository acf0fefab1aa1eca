(** Theorem C97: the formats of text that the other specifications mention by
    name are the ones of the standards.  See SpecWords.v. *)
From Verif Require Import Bytes ByteFacts Spec SpecWords WordsProofs.

(** C97: numbers are written in the usual way, which is unique. *)
Theorem C97_decimal n l : decimal l n <-> l = dec n.
Proof. exact (decimal_iff l n). Qed.
Print Assumptions C97_decimal.

Theorem C97_decimal_signed z l : decimal_signed l z <-> l = decZ z.
Proof. exact (decimal_signed_iff l z). Qed.
Print Assumptions C97_decimal_signed.

(** C97: digests are written with two lower-case digits for each byte. *)
Theorem C97_hex l w : hex_text l w <-> w = hex_encode l.
Proof. exact (hex_text_iff l w). Qed.
Print Assumptions C97_hex.

Example C97_numbers :
  dec 0 = bs "0" /\ dec 18446744073709551615 = bs "18446744073709551615" /\
  decZ (-62135596800) = bs "-62135596800" /\ ~ decimal (bs "007") 7 /\
  hex_encode [Byte.x00; Byte.x1f; Byte.xa0] = bs "001fa0".
Proof.
  repeat split; try (vm_compute; reflexivity).
  intros H. apply decimal_iff in H. vm_compute in H. discriminate H.
Qed.

(** C97: an id is taken for UTF-8 if it is. *)
Theorem C97_utf8 l : utf8_valid l = true <-> utf8_text l.
Proof. exact (valid_iff l). Qed.
Print Assumptions C97_utf8.

(** C97: what is not UTF-8 is repaired as the Unicode Standard recommends.  The
    result is UTF-8, and UTF-8 is left as it is. *)
Theorem C97_repaired l v : repaired l v <-> v = utf8_lossy l.
Proof. exact (lossy_iff l v). Qed.
Print Assumptions C97_repaired.

Theorem C97_repaired_is_utf8 l : utf8_text (utf8_lossy l) /\ (utf8_text l -> utf8_lossy l = l).
Proof.
  split.
  - eapply repaired_valid. by apply lossy_iff.
  - intros H. symmetry. apply lossy_iff. by apply text_repaired.
Qed.
Print Assumptions C97_repaired_is_utf8.

(** C97: parsing a number from repaired text (processor.rs 304, 397), or after a
    check for UTF-8 (local.rs 226), is parsing it from the bytes, as the model
    does. *)
Theorem C97_numbers_in_text l :
  parse_u64 (utf8_lossy l) = parse_u64 l /\ (utf8_valid l = false -> parse_i64 l = None).
Proof. split; [apply lossy_u64|apply valid_i64]. Qed.
Print Assumptions C97_numbers_in_text.

(** The euro sign, an overlong slash, half of a surrogate pair, and a truncated
    character before a letter. *)
Example C97_text :
  utf8_valid [Byte.xe2; Byte.x82; Byte.xac] = true /\
  utf8_valid [Byte.xc0; Byte.xaf] = false /\
  utf8_valid [Byte.xed; Byte.xa0; Byte.x80] = false /\
  utf8_lossy [Byte.xf0; Byte.x9f; Byte.x92; Byte.x61] = replacement ++ bs "a" /\
  utf8_lossy [Byte.xed; Byte.xa0; Byte.x80] = replacement ++ replacement ++ replacement /\
  (exists c, utf8 c [226; 130; 172]%N /\ c = 8364%N).
Proof.
  repeat split; try (vm_compute; reflexivity).
  exists 8364%N. split; [|done]. exact (u_3 2 2 44 eq_refl eq_refl eq_refl ltac:(lia) ltac:(lia)).
Qed.

(** C97: values are quoted in error messages such that they can be read back. *)
Theorem C97_quoted l : literal (debug_bytes l) l /\ forall m, literal (debug_bytes l) m -> m = l.
Proof.
  split; [apply debug_literal|]. intros m H. eapply literal_fun; [exact H|]. apply debug_literal.
Qed.
Print Assumptions C97_quoted.

Example C97_quoted_case :
  debug_bytes [Byte.x61; Byte.x22; Byte.x0a; Byte.x80; Byte.x00] = bs "b""a\""\n\x80\0""".
Proof. vm_compute. reflexivity. Qed.

(** C97: ids are compared like words in a dictionary. *)
Theorem C97_order a b : blt a b = true <-> before a b.
Proof. exact (blt_iff a b). Qed.
Print Assumptions C97_order.

(** C97: lines are cut at every separator, records at the first ones. *)
Theorem C97_pieces c l ws : pieces c l ws <-> ws = split_on c l.
Proof. exact (pieces_iff c l ws). Qed.
Print Assumptions C97_pieces.

Theorem C97_pieces_upto c n l ws : (0 < n)%nat -> pieces_upto c n l ws <-> ws = splitn n c l.
Proof. exact (pieces_upto_iff c n l ws). Qed.
Print Assumptions C97_pieces_upto.

Example C97_pieces_case :
  blt (bs "a") (bs "aa") = true /\ blt (bs "b") (bs "aa") = false /\
  split_on SP (bs "a  b ") = [bs "a"; []; bs "b"; []] /\
  splitn 3 COLON (bs "v1:5:a:b") = [bs "v1"; bs "5"; bs "a:b"].
Proof. repeat split; vm_compute; reflexivity. Qed.
