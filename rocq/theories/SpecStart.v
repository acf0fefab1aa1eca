(** How a server begins: what the theorems of Props_Start.v are stated with. *)
From Verif Require Import Bytes Err FS Prog Spec SpecTalk SpecPerm.

(** The umask [ask] is set, or without [ask] the present one is found out by
    setting another one and then put back; [u] is the umask afterwards. *)
Definition masks (ask : option N) (um : list done_call) (u : N) : Prop :=
  match ask with
  | Some n => u = n /\ exists r, um = [existT (EUmask n) r]
  | None => exists r, um = [existT (EUmask 511) u; existT (EUmask u) r]
  end.

(** The umask asked for by core.sharedRepository.  C40_umask_refuted tells how
    octal modes are treated. *)
Definition asked (v : setting_value) : option N :=
  match documented v with
  | ByUmask => None
  | ByGroup => Some 7%N
  | ByAll => Some 2%N
  | ByMode m => if (m =? 0)%N then None else Some 7%N
  end.

(** The four directories are made, and the client is told the version. *)
Definition announced (lfs : path) : list done_call :=
  [existT (EMkdir (lfs ++ [bs "objects"])) (IOk tt); existT (EMkdir (lfs ++ [bs "incomplete"])) (IOk tt);
   existT (EMkdir (lfs ++ [bs "tmp"])) (IOk tt); existT (EMkdir (lfs ++ [bs "locks"])) (IOk tt);
   existT (EOut (bs "000e")) (IOk tt); existT (EOut (bs "version=1" ++ [NL])) (IOk tt);
   existT (EOut (bs "0000")) (IOk tt); existT EFlush (IOk tt)].

(** The calls [tr] begin with all this, and the umask [u] then stays. *)
Definition started (lfs : path) (ask : option N) (tr : list done_call) (u : N) : Prop :=
  exists um rest, tr = um ++ announced lfs ++ rest /\ masks ask um u /\ forall n r, existT (EUmask n) r ∉ rest.

(** The calls of a beginning. *)
Definition introduces (lfs : path) (e : ev) : Prop :=
  match e with
  | EUmask _ | EFlush => True
  | EMkdir p => exists d, d ∈ [bs "objects"; bs "incomplete"; bs "tmp"; bs "locks"] /\ p = lfs ++ [d]
  | EOut b => b ∈ [bs "000e"; bs "version=1" ++ [NL]; bs "0000"]
  | _ => False
  end.

(** The last of the calls has failed. *)
Definition failed_call (d : done_call) : Prop :=
  match d with
  | existT (EMkdir _) (IErr _) | existT (EOut _) (IErr _) | existT EFlush (IErr _) => True
  | _ => False
  end.
Definition stopped (w : list done_call) : Prop := exists w' d, w = w' ++ [d] /\ failed_call d.
