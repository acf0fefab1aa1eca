(** scutiger-lfs/src/bin/git-lfs-transfer.rs *)
From Verif Require Import Bytes Err FS Prog Pktline Args Local Processor.

(** ** Permissions *)

(** What libgit2 answers for core.sharedRepository: [Config::get_bool] and
    [Config::get_string]. *)
Inductive gres (A : Type) := GOk (a : A) | GErr (e : git_error).
Arguments GOk {A}. Arguments GErr {A}.
(** git-lfs-transfer.rs 98-101. *)
Record config := Config { cf_bool : gres bool; cf_str : gres bytes }.

(** An octal digit (git-lfs-transfer.rs 105-106). *)
Definition is_octal (b : byte) : bool := byte_in Byte.x30 Byte.x37 b.

(** [u16::from_str_radix(x, 8)]. *)
Fixpoint octal_digits (acc : N) (l : bytes) : option N :=
  match l with
  | [] => Some acc
  | b :: l' =>
      if is_octal b then
        let acc := (acc * 8 + (bN b - 48))%N in
        if (acc <=? 65535)%N then octal_digits acc l' else None
      else None
  end.
(** git-lfs-transfer.rs 105-106. *)
Definition parse_octal (l : bytes) : option N :=
  match l with
  | [] => None
  | b :: l' => if decide (b = PLUS)
               then match l' with [] => None | _ => octal_digits 0 l' end
               else octal_digits 0 l
  end.

(** git-lfs-transfer.rs 101-111: the permissions asked for, the arms in order. *)
Definition shared_perms (c : config) : res (option N) :=
  let str s := match cf_str c with GOk t => beq t s | GErr _ => false end in
  let bool v := match cf_bool c with GOk w => Bool.eqb w v | GErr _ => false end in
  if bool true || str (bs "group") then Ok (Some 432%N)                       (* 0o660 *)
  else if bool false || str (bs "umask") then Ok None
  else if str (bs "all") || str (bs "world") || str (bs "everybody") then Ok (Some 436%N) (* 0o664 *)
  else match cf_str c with
       | GOk x => match parse_octal x with Some v => Ok (Some v) | None => Ok None end
       | GErr e => match g_code e with
                   | GNotFound => Ok None
                   | _ => Er (err_of_git e)
                   end
       end.

(** git-lfs-transfer.rs 113-119: the umask for requested permissions. *)
Definition umask_of_perms (v : N) : N :=
  let v := N.lor v (N.shiftr (N.land v 292) 2) in      (* 0o444 *)
  N.ldiff 511 v.                                       (* 0o777 & !value *)

(** git-lfs-transfer.rs 97-127 [set_permissions]; [cfg] is the outcome of
    [repo.config()]. *)
Definition set_permissions (cfg : gres config) : prog (res N) :=
  match cfg with
  | GErr e => Ret (Er (err_of_git e))
  | GOk c =>
      let? perms := Ret (shared_perms c) in
      match perms with
      | Some v =>
          let new := umask_of_perms v in
          let! _ := call (EUmask new) in
          Ret (Ok new)
      | None =>
          let! value := call (EUmask 511) in
          let! _ := call (EUmask value) in
          Ret (Ok value)
      end
  end.

(** ** The program *)

(** git-lfs-transfer.rs 87-94 [create_directories]. *)
Fixpoint create_directories_in (lfs : path) (dirs : list name) : prog (res unit) :=
  match dirs with
  | [] => Ret (Ok tt)
  | d :: ds => let? _ := io_call (call (EMkdir (lfs ++ [d]))) in
               create_directories_in lfs ds
  end.
(** git-lfs-transfer.rs 88. *)
Definition dir_names : list name := [bs "objects"; bs "incomplete"; bs "tmp"; bs "locks"].
(** git-lfs-transfer.rs 87-94 [create_directories]. *)
Definition create_directories (lfs : path) : prog (res unit) :=
  create_directories_in lfs dir_names.

(** git-lfs-transfer.rs 78-85 [send_capabilities]. *)
Definition send_capabilities : prog (res unit) :=
  let? _ := send (bs "version=1" ++ [NL]) in flush.

(** git-lfs-transfer.rs 71-75. *)
Definition mode_of (operation : bytes) : option mode :=
  if decide (operation = bs "upload") then Some Upload
  else if decide (operation = bs "download") then Some Download
  else None.

(** git-lfs-transfer.rs 59-76 [run]. *)
Definition transfer_run (en : env) (fuel : nat) (lfs : path) (umask : N) (ts : option Z)
  (operation : bytes) : prog (res unit) :=
  let? _ := create_directories lfs in
  let? _ := send_capabilities in
  match mode_of operation with
  | Some m => process_commands en (Backend lfs umask ts) fuel fuel m rb_empty
  | None => Ret (Er (err_simple UnknownCommand))
  end.

(** git-lfs-transfer.rs 134-142 [main_internal]. *)
Definition transfer_main_internal (en : env) (fuel : nat) (lfs : path)
  (cfg : gres config) (operation : bytes) : prog (res unit) :=
  let? umask := set_permissions cfg in
  transfer_run en fuel lfs umask None operation.

(** git-lfs-transfer.rs 149-162 [main]: exit code and what is printed on
    standard error. *)
Definition transfer_main (en : env) (fuel : nat) (lfs : path)
  (cfg : gres config) (operation : bytes) : prog (Z * bytes) :=
  let! r := transfer_main_internal en fuel lfs cfg operation in
  Ret (match r with
       | Ok _ => (exit_code Success, [])
       | Er e => (exit_code (err_exit_status e), display e ++ [NL])
       end).
