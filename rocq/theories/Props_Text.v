(** Theorems about arguments, numbers, object ids and lock records: C09, C10, C11,
    C12, C33. *)
From Verif Require Import Bytes Err FS Prog Pktline Args Local Spec TextProofs.

(** C09.  The lines of distinct keys without '=' parse to exactly these keys and
    values; the values are arbitrary. *)
Theorem C09_argument_round_trip kvs :
  Forall (fun kv => EQ ∉ kv.1) kvs -> NoDup kvs.*1 ->
  exists m, parse_args (map arg_line kvs) = Some (Ok m) /\
    forall k v, m !! k = Some v <-> (k, v) ∈ kvs.
Proof. exact (c09 kvs). Qed.
Print Assumptions C09_argument_round_trip.

Example C09_case :
  Forall (fun kv => EQ ∉ kv.1) [(bs "a", bs "b=c"); (bs "", [NL; NL])] /\
  NoDup [bs "a"; bs ""] /\
  match parse_args [bs "a=b=c" ++ [NL]; bs "=" ++ [NL; NL; NL]] with
  | Some (Ok m) => m !! bs "a" = Some (bs "b=c") /\ m !! [] = Some [NL; NL] /\ m !! bs "b" = None
  | _ => False
  end.
Proof.
  split_and!; [|apply (bool_decide_unpack _); by vm_compute|by vm_compute].
  repeat constructor; apply (bool_decide_unpack _); by vm_compute.
Qed.

(** C10.  The parser always returns (no slice or index panic) and succeeds
    exactly on the lines of distinct keys. *)
Theorem C10_parser_total_strict items :
  (exists r, parse_args items = Some r) /\
  ((exists m, parse_args items = Some (Ok m)) <->
   exists kvs, items = map arg_line kvs /\ Forall (fun kv => EQ ∉ kv.1) kvs /\ NoDup kvs.*1).
Proof. exact (c10 items). Qed.
Print Assumptions C10_parser_total_strict.

(** Each way to fail. *)
Example C10_cases :
  (exists e, parse_args [bs "a=b"] = Some (Er e)) /\
  (exists e, parse_args [bs "ab" ++ [NL]] = Some (Er e)) /\
  (exists e, parse_args [[]] = Some (Er e)) /\
  (exists e, parse_args [bs "a="; bs "a=" ++ [NL]] = Some (Er e)) /\
  (exists e, parse_args [bs "a=1" ++ [NL]; bs "a=1" ++ [NL]] = Some (Er e)).
Proof. split_and!; eexists; by vm_compute. Qed.

(** C11.  Which texts are integers, and which ones. *)
Theorem C11_integer_syntax b n : parse_integer b = Ok n <-> unsigned_text b n /\ (n < 2 ^ 64)%N.
Proof. exact (c11 b n). Qed.
Print Assumptions C11_integer_syntax.

Theorem C11_print_parse n : (n < 2 ^ 64)%N -> parse_integer (dec n) = Ok n.
Proof. exact (c11_print n). Qed.
Print Assumptions C11_print_parse.

Example C11_cases :
  parse_integer (bs "+0018446744073709551615") = Ok 18446744073709551615%N /\
  (exists e, parse_integer (bs "18446744073709551616") = Er e) /\
  (exists e, parse_integer (bs "+") = Er e) /\ (exists e, parse_integer [] = Er e) /\
  (exists e, parse_integer (bs "-0") = Er e) /\ (exists e, parse_integer (bs "1 ") = Er e) /\
  dec 18446744073709551615 = bs "18446744073709551615".
Proof. split_and!; try eexists; by vm_compute. Qed.

(** C12.  Which ids are accepted; the path of an accepted id is three plain names
    below lfs/objects; different ids have different paths. *)
Theorem C12_oid_syntax b o : oid_new b = Ok o <-> o = b /\ is_oid b.
Proof. exact (oid_new_iff b o). Qed.
Print Assumptions C12_oid_syntax.

Theorem C12_oid_path lfs o : is_oid o ->
  exists a b, expected_path lfs o = lfs ++ [bs "objects"; a; b; o] /\
    plain_name a /\ plain_name b /\ plain_name o.
Proof. exact (c12_path lfs o). Qed.
Print Assumptions C12_oid_path.

Theorem C12_oid_path_injective lfs o o' : expected_path lfs o = expected_path lfs o' -> o = o'.
Proof. exact (expected_path_inj lfs o o'). Qed.
Print Assumptions C12_oid_path_injective.

Example C12_case :
  is_oid (bs "0123456789abcdef0123456789abcdef0123456789abcdef0123456789abcdef") /\
  expected_path [bs "g"; bs "lfs"]
    (bs "0123456789abcdef0123456789abcdef0123456789abcdef0123456789abcdef")
  = [bs "g"; bs "lfs"; bs "objects"; bs "01"; bs "23";
     bs "0123456789abcdef0123456789abcdef0123456789abcdef0123456789abcdef"].
Proof. split; [|by vm_compute]. apply oid_valid_iff. by vm_compute. Qed.

(** C33.  The record written for a lock reads back; and exactly the texts of this
    form are accepted. *)
Theorem C33_lock_record_round_trip t p :
  (- 2 ^ 63 <= t < 2 ^ 63)%Z -> lock_parse (lock_record t p) = Some (t, p).
Proof. exact (c33 t p). Qed.
Print Assumptions C33_lock_record_round_trip.

Theorem C33_lock_record_syntax d t p :
  lock_parse d = Some (t, p) <->
  exists ts, d = bs "v1:" ++ ts ++ bs ":" ++ p /\ signed_text ts t /\ (- 2 ^ 63 <= t < 2 ^ 63)%Z.
Proof. exact (lock_parse_iff d t p). Qed.
Print Assumptions C33_lock_record_syntax.

Example C33_cases :
  lock_record (-5) (bs "a:b" ++ [NL]) = bs "v1:-5:a:b" ++ [NL] /\
  lock_parse (bs "v1:-5:a:b" ++ [NL]) = Some ((-5)%Z, bs "a:b" ++ [NL]) /\
  lock_parse (bs "v1:-9223372036854775808:") = Some ((- 2 ^ 63)%Z, []) /\
  lock_parse (bs "v1:9223372036854775808:x") = None /\
  lock_parse (bs "v1:5") = None /\ lock_parse (bs "v2:5:x") = None /\ lock_parse [] = None.
Proof. split_and!; by vm_compute. Qed.
