(** Program trees: the system calls a Rust function makes, in order, with what
    it does for each answer. *)
From Verif Require Import Bytes Err FS.

(** The calls of local.rs, processor.rs, pktline.rs and git-lfs-transfer.rs that reach outside the process; lines with the operations in FS.v. *)
Inductive ev :=
| ERead (n : N)                       (* read_exact of n bytes on stdin *)
| EOut (b : bytes)                    (* write_all on stdout *)
| EFlush                              (* flush on stdout *)
| EMkdir (p : path)                   (* fs::create_dir_all *)
| EMktemp (dir : path) (prefix : name)(* tempfile::Builder::tempfile_in *)
| EWriteFd (i : nat) (b : bytes)      (* File::write_all *)
| ERename (a b : path)
| EUnlink (p : path)                  (* fs::remove_file *)
| ELink (a b : path)                  (* fs::hard_link *)
| ECreate (p : path)                  (* OpenOptions write, create_new *)
| EOpen (p : path)                    (* open for reading *)
| EReadAll (h : handle)               (* read_to_end *)
| EReadAt (h : handle) (off : nat) (n : N)  (* read at the current offset *)
| EFstat (h : handle)                 (* File::metadata().len() *)
| EStat (p : path)                    (* fs::metadata: length and owner *)
| EChmod (p : path) (m : N)           (* fs::set_permissions *)
| EReaddir (p : path)
| EClock                              (* SystemTime::now, whole seconds *)
| EUmask (m : N)                      (* libc::umask: sets, returns the old one *)
| ENote (code : N) (args : list bytes). (* ghost: no call, records an answer *)

(** What each call returns. *)
Definition resp (e : ev) : Type :=
  match e with
  | ERead _ => iores bytes
  | EOut _ => iores unit
  | EFlush => iores unit
  | EMkdir _ => iores unit
  | EMktemp _ _ => iores (path * nat)
  | EWriteFd _ _ => iores unit
  | ERename _ _ => iores unit
  | EUnlink _ => iores unit
  | ELink _ _ => iores unit
  | ECreate _ => iores nat
  | EOpen _ => iores handle
  | EReadAll _ => iores bytes
  | EReadAt _ _ _ => iores bytes
  | EFstat _ => iores N
  | EStat _ => iores (N * N)
  | EChmod _ _ => iores unit
  | EReaddir _ => iores (list name)
  | EClock => Z
  | EUmask _ => N
  | ENote _ _ => unit
  end.

(** Why a process stops abnormally.  The first three are Rust panics in the
    code of /repo; [OutOfFuel] only means the model's loop bound was reached.
    The places are named below. *)
Inductive failure :=
| PUnreachable          (* processor.rs 565 unreachable!() *)
| PBadTime              (* local.rs 264 timestamp_opt(..).unwrap() *)
| PSliceRange           (* an out-of-range slice index *)
| OutOfFuel.

(** A program: it ends, stops abnormally, or makes a call and goes on with what it returns. *)
Inductive prog (A : Type) : Type :=
| Ret (a : A)
| Fail (f : failure)
| Vis (e : ev) (k : resp e -> prog A).
Arguments Ret {A}. Arguments Fail {A}. Arguments Vis {A}.

(** One program after another. *)
Fixpoint bind {A B} (p : prog A) (f : A -> prog B) : prog B :=
  match p with
  | Ret a => f a
  | Fail x => Fail x
  | Vis e k => Vis e (fun r => bind (k r) f)
  end.

(** A program that makes one call. *)
Definition call (e : ev) : prog (resp e) := Vis e Ret.

Notation "'let!' x ':=' p 'in' q" := (bind p (fun x => q))
  (at level 200, x pattern, p at level 100, q at level 200, right associativity).

(** The [?] operator of Rust. E.g. processor.rs 364. *)
Definition bindR {A B} (p : prog (res A)) (f : A -> prog (res B)) : prog (res B) :=
  let! r := p in
  match r with Ok a => f a | Er e => Ret (Er e) end.
Notation "'let?' x ':=' p 'in' q" := (bindR p (fun x => q))
  (at level 200, x pattern, p at level 100, q at level 200, right associativity).

(** A call whose [io::Error] is turned into [Error] by [?].
    errors.rs 197-201, e.g. in local.rs 95. *)
Definition io_call {A} (p : prog (iores A)) : prog (res A) :=
  let! r := p in Ret (res_of_io r).

(** ** Meaning of one call

    The oracle [orc] decides what the program cannot know: the clock, the random
    part of temporary names, and whether the call fails ([o_fault]); a failing
    write may have written [o_part] bytes.
    The clock: local.rs 306; temporary names: local.rs 76. *)
Record orc := Orc { o_fault : option ioerr; o_part : nat; o_sfx : bytes; o_now : Z }.

(** Private state of a process.
    [input] and [output] of git-lfs-transfer.rs 59-65, and what the kernel keeps for a process. *)
Record local := Local { l_in : bytes; l_out : bytes; l_umask : N; l_uid : N }.

(** Input that is left. *)
Definition set_in (b : bytes) (l : local) := Local b (l_out l) (l_umask l) (l_uid l).
(** More output. *)
Definition add_out (b : bytes) (l : local) := Local (l_in l) (l_out l ++ b) (l_umask l) (l_uid l).
(** Another umask (git-lfs-transfer.rs 117, 121-122). *)
Definition set_umask (m : N) (l : local) := Local (l_in l) (l_out l) m (l_uid l).

(** read_exact on a stream of which [l_in] is still to come; a short read
    consumes what is left. pktline.rs 74, 84, 92, 100. *)
Definition do_read (n : N) (l : local) : iores bytes * local :=
  if (n <=? lenN (l_in l))%N
  then (IOk (take (N.to_nat n) (l_in l)), set_in (drop (N.to_nat n) (l_in l)) l)
  else (IErr EEOF, set_in [] l).

(** A call that fails if the oracle says so, and has no effect then. *)
Definition faulty {A} (o : orc) (l : local) (s : fs)
  (ok : iores A * local * fs) : iores A * local * fs :=
  match o_fault o with Some e => (IErr e, l, s) | None => ok end.

(** A call that changes the file system only. *)
Definition with_l {A} (l : local) (x : A * fs) : A * local * fs :=
  (x.1, l, x.2).

(** What a call returns and changes; lines with the operations in FS.v. *)
Definition handle_ev (pid : nat) (e : ev) (o : orc) (l : local) (s : fs)
  : resp e * local * fs :=
  match e return resp e * local * fs with
  | ERead n => faulty o l s (let '(r, l') := do_read n l in (r, l', s))
  | EOut b =>
      match o_fault o with
      | Some x => (IErr x, add_out (take (o_part o) b) l, s)
      | None => (IOk tt, add_out b l, s)
      end
  | EFlush => faulty o l s (IOk tt, l, s)
  | EMkdir p => faulty o l s (with_l l (fs_mkdir_all p s))
  | EMktemp d pre => faulty o l s (with_l l (fs_mktemp pid (l_uid l) d pre (o_sfx o) s))
  | EWriteFd i b =>
      match o_fault o with
      | Some x => (IErr x, l, (fs_write i (take (o_part o) b) s).2)
      | None => with_l l (fs_write i b s)
      end
  | ERename a b => faulty o l s (with_l l (fs_rename a b s))
  | EUnlink p => faulty o l s (with_l l (fs_unlink pid p s))
  | ELink a b => faulty o l s (with_l l (fs_link pid a b s))
  | ECreate p => faulty o l s (with_l l (fs_create_new pid (l_uid l) (l_umask l) p s))
  | EOpen p => faulty o l s (fs_open p s, l, s)
  | EReadAll h => faulty o l s (fs_read_all h s, l, s)
  | EReadAt h off n => faulty o l s (fs_read_at h off n s, l, s)
  | EFstat h => faulty o l s (fs_fstat h s, l, s)
  | EStat p => faulty o l s (fs_stat p s, l, s)
  | EChmod p m => faulty o l s (with_l l (fs_chmod p m s))
  | EReaddir p => faulty o l s (fs_readdir p s, l, s)
  | EClock => (o_now o, l, s)
  | EUmask m => (l_umask l, set_umask m l, s)
  | ENote c a => (tt, l, log pid (OAnswer c a) s)
  end.

(** ** One process alone *)

(** How a process ends. *)
Inductive outcome (A : Type) := Done (a : A) | Failed (f : failure).
Arguments Done {A}. Arguments Failed {A}.

(** The oracles of all calls of a process. *)
Definition orcs := nat -> orc.
(** The oracles after the first call. *)
Definition shift (os : orcs) : orcs := fun n => os (S n).

(** The whole run of a process with nobody else at work. *)
Fixpoint run {A} (pid : nat) (p : prog A) (os : orcs) (l : local) (s : fs)
  : outcome A * local * fs :=
  match p with
  | Ret a => (Done a, l, s)
  | Fail f => (Failed f, l, s)
  | Vis e k =>
      let '(r, l', s') := handle_ev pid e (os 0) l s in
      run pid (k r) (shift os) l' s'
  end.

(** No call fails by itself.
    As when no call of local.rs or pktline.rs returns an error of its own. *)
Definition fault_free (os : orcs) : Prop := forall n, o_fault (os n) = None.

(** A process killed after [n] system calls leaves this file system.
    E.g. by a signal; no code of ours runs then. *)
Fixpoint run_crash {A} (n : nat) (pid : nat) (p : prog A) (os : orcs) (l : local) (s : fs)
  : local * fs :=
  match n, p with
  | S n', Vis e k =>
      let '(r, l', s') := handle_ev pid e (os 0) l s in
      run_crash n' pid (k r) (shift os) l' s'
  | _, _ => (l, s)
  end.

(** ** Many processes sharing a file system *)

(** A process: what it has still to do, its private state, and whether it was killed. *)
Record proc (A : Type) := Proc { pr_prog : prog A; pr_local : local; pr_dead : bool }.
Arguments Proc {A}. Arguments pr_prog {A}. Arguments pr_local {A}. Arguments pr_dead {A}.

(** Processes and the file system they share. *)
Record sys (A : Type) := Sys { procs : list (proc A); shared : fs }.
Arguments Sys {A}. Arguments procs {A}. Arguments shared {A}.

(** One scheduling decision: let process [c_pid] make its next system call with
    the given oracle, or kill it. *)
Inductive action := AGo (o : orc) | ACrash.
(** Who is next. *)
Record choice := Choice { c_pid : nat; c_act : action }.

(** One process goes on. *)
Definition proc_step {A} (pid : nat) (a : action) (p : proc A) (s : fs)
  : proc A * fs :=
  if pr_dead p then (p, s) else
  match a with
  | ACrash => (Proc (pr_prog p) (pr_local p) true, s)
  | AGo o =>
      match pr_prog p with
      | Vis e k =>
          let '(r, l', s') := handle_ev pid e o (pr_local p) s in
          (Proc (k r) l' false, s')
      | _ => (p, s)
      end
  end.

(** One choice. *)
Definition sys_step {A} (y : sys A) (c : choice) : sys A :=
  match procs y !! c_pid c with
  | None => y
  | Some p =>
      let '(p', s') := proc_step (c_pid c) (c_act c) p (shared y) in
      Sys (<[c_pid c := p']> (procs y)) s'
  end.

(** All choices in order. *)
Definition sys_run {A} (cs : list choice) (y : sys A) : sys A :=
  fold_left sys_step cs y.
