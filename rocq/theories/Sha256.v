(** SHA-256 (FIPS 180-4), used only to run the model on concrete transcripts and
    for non-vacuity examples; the theorems hold for any hash function. *)
From Verif Require Import Bytes.

Local Open Scope N_scope.

(** Section 3.2: arithmetic modulo 2^32. *)
Definition w32 (n : N) : N := N.land n 4294967295.
(** Section 3.2: addition. *)
Definition add32 (a b : N) : N := w32 (a + b).
(** Section 3.2: rotation to the right. *)
Definition rotr (k x : N) : N := w32 (N.lor (N.shiftr x k) (N.shiftl x (32 - k))).
(** Section 3.2: complement. *)
Definition not32 (x : N) : N := 4294967295 - x.

(** Section 4.1.2, (4.2). *)
Definition ch (x y z : N) : N := N.lxor (N.land x y) (N.land (not32 x) z).
(** Section 4.1.2, (4.3). *)
Definition maj (x y z : N) : N := N.lxor (N.land x y) (N.lxor (N.land x z) (N.land y z)).
(** Section 4.1.2, (4.4). *)
Definition bsig0 (x : N) : N := N.lxor (rotr 2 x) (N.lxor (rotr 13 x) (rotr 22 x)).
(** Section 4.1.2, (4.5). *)
Definition bsig1 (x : N) : N := N.lxor (rotr 6 x) (N.lxor (rotr 11 x) (rotr 25 x)).
(** Section 4.1.2, (4.6). *)
Definition ssig0 (x : N) : N := N.lxor (rotr 7 x) (N.lxor (rotr 18 x) (N.shiftr x 3)).
(** Section 4.1.2, (4.7). *)
Definition ssig1 (x : N) : N := N.lxor (rotr 17 x) (N.lxor (rotr 19 x) (N.shiftr x 10)).

(** Section 4.2.2: the constants. *)
Definition K256 : list N := [
  0x428a2f98; 0x71374491; 0xb5c0fbcf; 0xe9b5dba5; 0x3956c25b; 0x59f111f1; 0x923f82a4; 0xab1c5ed5;
  0xd807aa98; 0x12835b01; 0x243185be; 0x550c7dc3; 0x72be5d74; 0x80deb1fe; 0x9bdc06a7; 0xc19bf174;
  0xe49b69c1; 0xefbe4786; 0x0fc19dc6; 0x240ca1cc; 0x2de92c6f; 0x4a7484aa; 0x5cb0a9dc; 0x76f988da;
  0x983e5152; 0xa831c66d; 0xb00327c8; 0xbf597fc7; 0xc6e00bf3; 0xd5a79147; 0x06ca6351; 0x14292967;
  0x27b70a85; 0x2e1b2138; 0x4d2c6dfc; 0x53380d13; 0x650a7354; 0x766a0abb; 0x81c2c92e; 0x92722c85;
  0xa2bfe8a1; 0xa81a664b; 0xc24b8b70; 0xc76c51a3; 0xd192e819; 0xd6990624; 0xf40e3585; 0x106aa070;
  0x19a4c116; 0x1e376c08; 0x2748774c; 0x34b0bcb5; 0x391c0cb3; 0x4ed8aa4a; 0x5b9cca4f; 0x682e6ff3;
  0x748f82ee; 0x78a5636f; 0x84c87814; 0x8cc70208; 0x90befffa; 0xa4506ceb; 0xbef9a3f7; 0xc67178f2].

(** The working variables. *)
Record st256 := St { sa : N; sb : N; sc : N; sd : N; se : N; sf : N; sg : N; sh : N }.
(** Section 5.3.3: the initial hash value. *)
Definition H0 : st256 :=
  St 0x6a09e667 0xbb67ae85 0x3c6ef372 0xa54ff53a 0x510e527f 0x9b05688c 0x1f83d9ab 0x5be0cd19.

(** Section 5.2.1: the message as words of 32 bits. *)
Fixpoint words (l : bytes) : list N :=
  match l with
  | a :: b :: c :: d :: l' =>
      (bN a * 16777216 + bN b * 65536 + bN c * 256 + bN d) :: words l'
  | _ => []
  end.

(** The rounds, with the message schedule as a sliding window of 16 words. *)
Fixpoint rounds (ks : list N) (w : list N) (s : st256) : st256 :=
  match ks, w with
  | k :: ks', w0 :: ws =>
      let t1 := w32 (sh s + bsig1 (se s) + ch (se s) (sf s) (sg s) + k + w0) in
      let t2 := w32 (bsig0 (sa s) + maj (sa s) (sb s) (sc s)) in
      let nw := w32 (ssig1 (nth 13 ws 0) + nth 8 ws 0 + ssig0 (nth 0 ws 0) + w0) in
      rounds ks' (ws ++ [nw])
        (St (add32 t1 t2) (sa s) (sb s) (sc s) (add32 (sd s) t1) (se s) (sf s) (sg s))
  | _, _ => s
  end.

(** Section 6.2.2, step 4. *)
Definition add_st (a b : st256) : st256 :=
  St (add32 (sa a) (sa b)) (add32 (sb a) (sb b)) (add32 (sc a) (sc b)) (add32 (sd a) (sd b))
     (add32 (se a) (se b)) (add32 (sf a) (sf b)) (add32 (sg a) (sg b)) (add32 (sh a) (sh b)).

(** Section 6.2.2: all blocks. *)
Fixpoint blocks (fuel : nat) (s : st256) (ws : list N) : st256 :=
  match fuel, ws with
  | S f, _ :: _ => blocks f (add_st s (rounds K256 (take 16 ws) s)) (drop 16 ws)
  | _, _ => s
  end.

(** A byte of a word. *)
Definition byte_of (n : N) : byte := default Byte.x00 (Byte.of_N (n mod 256)).
(** A word as four bytes. *)
Definition be32 (n : N) : bytes :=
  [byte_of (N.shiftr n 24); byte_of (N.shiftr n 16); byte_of (N.shiftr n 8); byte_of n].
(** Two words as eight bytes. *)
Definition be64 (n : N) : bytes := be32 (N.shiftr n 32) ++ be32 (w32 n).

(** Section 5.1.1: padding. *)
Definition pad256 (l : bytes) : bytes :=
  let z := (119 - (lenN l mod 64)) mod 64 in
  l ++ [Byte.x80] ++ replicate (N.to_nat z) Byte.x00 ++ be64 (lenN l * 8).

(** [Sha256] of processor.rs 467 and local.rs 214. *)
Definition sha256 (l : bytes) : bytes :=
  let ws := words (pad256 l) in
  let s := blocks (length ws) H0 ws in
  be32 (sa s) ++ be32 (sb s) ++ be32 (sc s) ++ be32 (sd s) ++
  be32 (se s) ++ be32 (sf s) ++ be32 (sg s) ++ be32 (sh s).

Lemma sha256_length l : length (sha256 l) = 32%nat.
Proof. reflexivity. Qed.

Example sha256_abc :
  hex_encode (sha256 (bs "abc"))
  = bs "ba7816bf8f01cfea414140de5dae2223b00361a396177a9cb410ff61f20015ad".
Proof. vm_compute. reflexivity. Qed.
Example sha256_empty :
  hex_encode (sha256 [])
  = bs "e3b0c44298fc1c149afbf4c8996fb92427ae41e4649b934ca495991b7852b855".
Proof. vm_compute. reflexivity. Qed.
Example sha256_two_blocks :
  hex_encode (sha256 (bs "abcdbcdecdefdefgefghfghighijhijkijkljklmklmnlmnomnopnopq"))
  = bs "248d6a61d20638b8e5c026930c3e6039a33ce45964ff2167f6ecedd419db06c1".
Proof. vm_compute. reflexivity. Qed.
