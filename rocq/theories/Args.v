(** The pure parts of scutiger-lfs/src/processor.rs: [Status], [Oid],
    [ArgumentParser]. *)
From Verif Require Import Bytes Err FS Prog Pktline.

(** processor.rs 19-24 [Status].  A reader is always a file opened by
    [download], i.e. a handle. *)
Record status := Status {
  st_code : N; st_args : option (list bytes); st_msgs : option (list bytes);
  st_reader : option handle }.

(** processor.rs 27-89: the constructors. *)
Definition st_success : status := Status 200 None None None.
(** processor.rs 36-43. *)
Definition st_new_success (m : list bytes) := Status 200 None (Some m) None.
(** processor.rs 45-52. *)
Definition st_success_with_code (c : N) (a : list bytes) := Status c (Some a) None None.
(** processor.rs 54-61. *)
Definition st_success_with_data (c : N) (a m : list bytes) := Status c (Some a) (Some m) None.
(** processor.rs 63-70. *)
Definition st_new_reader (a : list bytes) (h : handle) := Status 200 (Some a) None (Some h).
(** processor.rs 72-79. *)
Definition st_failure (c : N) (m : bytes) := Status c None (Some [m]) None.
(** processor.rs 81-88. *)
Definition st_failure_with_args (c : N) (a : list bytes) (m : bytes) :=
  Status c (Some a) (Some [m]) None.

(** processor.rs 176-180 [Mode]. *)
Inductive mode := Upload | Download.

(** processor.rs 182-186 [Oid]: the validated 64 characters. *)
Notation oid := (list byte) (only parsing).

(** processor.rs 212. *)
Definition hex_lower (x : byte) : bool := is_digit x || byte_in Byte.x61 Byte.x66 x.

(** processor.rs 209-213 [Oid::valid]. *)
Definition oid_valid (b : bytes) : bool :=
  (length b =? 64)%nat && forallb hex_lower b.

(** processor.rs 189-199 [Oid::new]. *)
Definition oid_new (b : bytes) : res oid :=
  if oid_valid b then Ok b else Er (err_simple InvalidLFSOid).

(** processor.rs 217-224 [Oid::expected_path]; only called on valid ids, where
    the slices are in range. *)
Definition expected_path (lfs : path) (o : oid) : path :=
  lfs ++ [bs "objects"; slice 0 2 o; slice 2 4 o; o].

(** processor.rs 254-286 [ArgumentParser::parse], one item; [None] is a panic by
    an index or slice out of range. *)
Definition parse_item (item : bytes) : option (res (bytes * bytes)) :=
  match position EQ item with
  | None => Some (Er (err_msg ParseError
                        (bs "unexpected value parsing argument (missing equals)")))
  | Some equals =>
      match item !! (length item - 1)%nat with
      | None => None
      | Some b =>
          if decide (b <> NL) then
            Some (Er (err_msg ParseError
                        (bs "unexpected value parsing argument (missing newline)")))
          else if (equals + 1 <=? length item - 1)%nat then
            Some (Ok (slice 0 equals item,
                      slice (equals + 1) (length item - 1) item))
          else None
      end
  end.

Notation argmap := (gmap (list byte) (list byte)).

(** processor.rs 255-285: the loop. *)
Fixpoint parse_args_from (m : argmap) (items : list bytes) : option (res argmap) :=
  match items with
  | [] => Some (Ok m)
  | i :: items' =>
      match parse_item i with
      | None => None
      | Some (Er e) => Some (Er e)
      | Some (Ok (k, v)) =>
          match m !! k with
          | Some _ => Some (Er (err_msg ExtraData (bs "unexpected duplicate key")))
          | None => parse_args_from (<[k := v]> m) items'
          end
      end
  end.
(** processor.rs 254-286 [ArgumentParser::parse]. *)
Definition parse_args (items : list bytes) : option (res argmap) :=
  parse_args_from ∅ items.

(** A panic by an out-of-range index. processor.rs 266, 274-275. *)
Definition or_panic {A} (x : option A) : prog A :=
  match x with Some a => Ret a | None => Fail PSliceRange end.

(** processor.rs 301-311 [ArgumentParser::parse_integer] for u64 and usize (64
    bits).  [from_utf8_lossy] maps invalid bytes to a non-digit, and bytes above
    0x7f are no digits either, so parsing the raw bytes gives the same result. *)
Definition parse_integer (item : bytes) : res N :=
  match parse_u64 item with
  | Some n => Ok n
  | None => Er (err_msg InvalidInteger
                  (bs "unexpected value parsing integer: " ++ debug_bytes item))
  end.

(** processor.rs 288-299 [parse_value_as_integer]. *)
Definition parse_value_as_integer (args : argmap) (key : bytes) : res N :=
  match args !! key with
  | Some x => parse_integer x
  | None => Er (err_msg MissingData (bs "missing required header"))
  end.

(** processor.rs 450-461 [size_from_arguments]. *)
Definition size_from_arguments (args : argmap) : res N :=
  match args !! bs "size" with
  | Some x => parse_integer x
  | None => Er (err_msg MissingData (bs "missing required size header"))
  end.
