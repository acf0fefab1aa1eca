(** What the property theorems are stated with: the pkt-line wire format, small
    client programs, and other definitions that do not come from /repo.  This
    file uses the model only for the types of packets and programs and for the
    functions under test. *)
From Verif Require Import Bytes Err FS Prog Pktline.

(** ** Numbers in text *)

(** [c] is the lower-case hexadecimal digit of value [v]. *)
Definition hex_digit (c : byte) (v : N) : Prop :=
  bs "0123456789abcdef" !! N.to_nat v = Some c.

(** The four digits of a pkt-line length field. *)
Definition hex4 (h : bytes) (v : N) : Prop :=
  exists a b c d x y z w,
    h = [a; b; c; d] /\ hex_digit a x /\ hex_digit b y /\ hex_digit c z /\ hex_digit d w /\
    v = (x * 4096 + y * 256 + z * 16 + w)%N.

(** [l] is a non-empty string of decimal digits that denotes [v]. *)
Inductive denotes : bytes -> N -> Prop :=
| den_one c v : bs "0123456789" !! N.to_nat v = Some c -> denotes [c] v
| den_more l u c v : denotes l u -> bs "0123456789" !! N.to_nat v = Some c ->
                     denotes (l ++ [c]) (10 * u + v).

(** ** The wire format *)

Definition payload (p : packet) : bytes := match p with PData d => d | _ => [] end.

(** [wire p w]: [w] is the encoding of [p]. *)
Inductive wire : packet -> bytes -> Prop :=
| wire_flush : wire PFlush (bs "0000")
| wire_delim : wire PDelim (bs "0001")
| wire_data h d : hex4 h (lenN d + 4) -> wire (PData d) (h ++ d).

Inductive wires : list packet -> bytes -> Prop :=
| wires_nil : wires [] []
| wires_cons p w ps ws : wire p w -> wires ps ws -> wires (p :: ps) (w ++ ws).

(** ** Clients of the pkt-line module *)

Fixpoint write_packets (ps : list packet) : prog (res unit) :=
  match ps with
  | [] => Ret (Ok tt)
  | p :: ps' => let? _ := write_packet p in write_packets ps'
  end.

Fixpoint read_packets (n : nat) : prog (res (list packet)) :=
  match n with
  | O => Ret (Ok [])
  | S n' => let? p := read_packet in let? ps := read_packets n' in Ret (Ok (p :: ps))
  end.

(** Writes a buffer with [io::Write] and then a flush packet. *)
Definition write_stream (buf : bytes) : prog (res N) :=
  let? n := io_call (writer_write buf) in
  let? _ := write_packet PFlush in Ret (Ok n).

(** Calls [read] with the given buffer sizes, whatever comes. *)
Fixpoint read_each (fuel : nat) (ns : list N) (rb : rbuf) : prog (iores (list bytes)) :=
  match ns with
  | [] => Ret (IOk [])
  | n :: ns' =>
      let! (r, rb') := reader_read fuel n rb in
      match r with
      | IErr e => Ret (IErr e)
      | IOk d =>
          let! x := read_each fuel ns' rb' in
          Ret (match x with IOk ds => IOk (d :: ds) | IErr e => IErr e end)
      end
  end.

(** Calls [read] with the given buffer sizes until one call returns no byte;
    [None] if a call fails or the sizes are used up before. *)
Fixpoint read_to_end (fuel : nat) (ns : list N) (rb : rbuf) : prog (option (list bytes)) :=
  match ns with
  | [] => Ret None
  | n :: ns' =>
      let! (r, rb') := reader_read fuel n rb in
      match r with
      | IErr _ => Ret None
      | IOk [] => Ret (Some [])
      | IOk d =>
          let! x := read_to_end fuel ns' rb' in
          Ret (match x with Some ds => Some (d :: ds) | None => None end)
      end
  end.

(** The reader's buffer is in a state its own code can produce, and the bytes in
    it that have not been handed out yet. *)
Definition buffer_ok (rb : rbuf) : Prop := (rb_off rb <= rb_len rb <= lenN (rb_data rb))%N.
Definition unread (rb : rbuf) : bytes :=
  take (N.to_nat (rb_len rb - rb_off rb)) (drop (N.to_nat (rb_off rb)) (rb_data rb)).

(** ** Concrete values for examples *)
Definition calm : orcs := fun _ => Orc None 0 (bs "a") 0.
Definition stdin (b : bytes) : local := Local b [] 18 1000.
Definition no_files : fs := FS ∅ [] [].

(** ** Text arguments *)

(** The line of a key and a value. *)
Definition arg_line (kv : bytes * bytes) : bytes := kv.1 ++ bs "=" ++ kv.2 ++ [NL].

(** An unsigned number: digits with an optional '+'. *)
Definition unsigned_text (b : bytes) (n : N) : Prop :=
  exists ds, (b = ds \/ b = bs "+" ++ ds) /\ denotes ds n.

(** A signed one: '+' or '-' is allowed. *)
Definition signed_text (b : bytes) (z : Z) : Prop :=
  (exists n, unsigned_text b n /\ z = Z.of_N n) \/
  (exists ds n, b = bs "-" ++ ds /\ denotes ds n /\ z = (- Z.of_N n)%Z).

(** A component that stays where it is put: not "", "." or "..", no separator,
    no NUL. *)
Definition plain_name (c : name) : Prop :=
  c <> [] /\ c <> bs "." /\ c <> bs ".." /\ SLASH ∉ c /\ Byte.x00 ∉ c.

(** An LFS object id: 64 lower-case hexadecimal digits. *)
Definition is_oid (b : bytes) : Prop :=
  length b = 64%nat /\ Forall (fun c => exists v, hex_digit c v) b.
