(** Permissions: what Git's documentation says about core.sharedRepository, and
    how libgit2 reads it.  Neither is part of /repo. *)
From Verif Require Import Bytes Err FS Prog Local Transfer Spec.

(** ** libgit2 *)

Definition lower (b : byte) : byte :=
  if byte_in Byte.x41 Byte.x5a b then default b (Byte.of_N (bN b + 32)) else b.
Definition is_word (s w : bytes) : bool := bool_decide (map lower s = w).

Definition digit_value (b : byte) : N :=
  let b := lower b in
  if byte_in Byte.x30 Byte.x39 b then bN b - 48
  else if byte_in Byte.x61 Byte.x7a b then bN b - 87 else 99.

(** git__strntol64: leading digits of [base] and what follows them. *)
Fixpoint leading (base acc : N) (l : bytes) : N * bytes :=
  match l with
  | [] => (acc, [])
  | b :: l' => if (digit_value b <? base)%N then leading base (acc * base + digit_value b) l' else (acc, l)
  end.

(** git__strntol64 with base 0: "0x" is hexadecimal, a leading "0" octal. *)
Definition magnitude (l : bytes) : option (N * bytes) :=
  let '(base, l) :=
    match l with
    | z :: x :: (_ :: _) as t => if decide (z = Byte.x30 /\ lower x = Byte.x78) then (16%N, t)
                                 else if decide (z = Byte.x30) then (8%N, l) else (10%N, l)
    | z :: _ => if decide (z = Byte.x30) then (8%N, l) else (10%N, l)
    | [] => (10%N, l)
    end in
  match l with
  | b :: _ => if (digit_value b <? base)%N then Some (leading base 0 l) else None
  | [] => None
  end.

Definition is_space (b : byte) : bool := bool_decide (b = SP) || byte_in Byte.x09 Byte.x0d b.
Fixpoint skip_spaces (l : bytes) : bytes :=
  match l with b :: l' => if is_space b then skip_spaces l' else l | [] => [] end.

(** git_config_parse_int32: a number and a suffix k, m or g. *)
Definition int_value (s : bytes) : option Z :=
  let l := skip_spaces s in
  let '(sign, l) := match l with
                    | b :: l' => if decide (b = Byte.x2d) then ((-1)%Z, l')
                                 else if decide (b = PLUS) then (1%Z, l') else (1%Z, l)
                    | [] => (1%Z, l)
                    end in
  match magnitude l with
  | None => None
  | Some (n, rest) =>
      let scale := if decide (rest = []) then Some 1%Z
                   else if is_word rest (bs "k") then Some 1024%Z
                   else if is_word rest (bs "m") then Some (1024 * 1024)%Z
                   else if is_word rest (bs "g") then Some (1024 * 1024 * 1024)%Z else None in
      match scale with
      | Some k => let z := (sign * Z.of_N n * k)%Z in
                  if ((-(2 ^ 31) <=? z) && (z <? 2 ^ 31))%Z then Some z else None
      | None => None
      end
  end.

(** git_config_parse_bool. *)
Definition bool_value (s : bytes) : option bool :=
  if is_word s (bs "true") || is_word s (bs "yes") || is_word s (bs "on") then Some true
  else if is_word s (bs "false") || is_word s (bs "no") || is_word s (bs "off") || is_word s [] then Some false
  else option_map (fun z => negb (z =? 0)%Z) (int_value s).

(** The value of core.sharedRepository: unset, set without "=", or a text. *)
Inductive setting_value := Unset | NoValue | Text (s : bytes).

(** git_config_get_bool and git_config_get_string. *)
Definition libgit2 (v : setting_value) : config :=
  match v with
  | Unset => let e := GitErr GNotFound (bs "config value 'core.sharedrepository' was not found") in Config (GErr e) (GErr e)
  | NoValue => Config (GOk true) (GOk [])
  | Text s => Config (match bool_value s with
                      | Some b => GOk b
                      | None => GErr (GitErr GOther (bs "failed to parse '" ++ s ++ bs "' as a boolean value"))
                      end) (GOk s)
  end.

(** ** git-config(1), core.sharedRepository *)

Inductive sharing := ByUmask | ByGroup | ByAll | ByMode (m : N).

(** "0xxx, where 0xxx is an octal number". *)
Definition octal_mode (s : bytes) : option N :=
  match s with
  | [z; a; b; c] =>
      if bool_decide (z = Byte.x30) && forallb is_octal [a; b; c]
      then Some ((bN a - 48) * 64 + (bN b - 48) * 8 + (bN c - 48))%N else None
  | _ => None
  end.

Definition documented (v : setting_value) : sharing :=
  match v with
  | Unset => ByUmask
  | NoValue => ByGroup
  | Text s =>
      if decide (s = bs "group") then ByGroup
      else if decide (s = bs "umask") then ByUmask
      else if decide (s ∈ [bs "all"; bs "world"; bs "everybody"]) then ByAll
      else match octal_mode s with
           | Some m => ByMode m
           | None => match bool_value s with Some true => ByGroup | _ => ByUmask end
           end
  end.

(** The umask that leaves the permissions asked for; who may read may also
    search directories. *)
Definition umask_for (x : sharing) (old : N) : N :=
  match x with
  | ByUmask => old
  | ByGroup => 7       (* 007 *)
  | ByAll => 2         (* 002 *)
  | ByMode m => N.ldiff 511 (N.lor m (N.shiftr (N.land m 292) 2))
  end.

(** The permission bits [m] are those of 0777 that the umask [u] leaves. *)
Definition perm_bits (m u : N) : Prop :=
  forall b, N.testbit m b = (b <? 9)%N && negb (N.testbit u b).
