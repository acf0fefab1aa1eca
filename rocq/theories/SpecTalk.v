(** The dialogue of a server with its client: what the theorems of Props_Talk.v are
    stated with. *)
From Verif Require Import Bytes Err FS Prog Pktline Args Local Processor Transfer Spec SpecStore SpecServer SpecEnd.

(** A system call with what it returned. *)
Definition done_call := {e : ev & resp e}.

(** The only thing assumed of the answers of the system: a temporary file is in the
    directory asked for, with a name that begins as asked for. *)
Definition sensible (e : ev) : resp e -> Prop :=
  match e return resp e -> Prop with
  | EMktemp d pre => fun r => match r with
                              | IOk (p, _) => exists sfx, p = d ++ [pre ++ sfx]
                              | IErr _ => True
                              end
  | _ => fun _ => True
  end.

(** [p] may make the calls [tr], in this order, if the system answers as recorded;
    [x] is the result if it has ended then. *)
Fixpoint calls {A} (p : prog A) (tr : list done_call) (x : option A) : Prop :=
  match p, tr with
  | Vis e k, d :: tr' => exists r, d = existT e r /\ sensible e r /\ calls (k r) tr' x
  | Vis _ _, [] => x = None
  | Ret a, [] => x = None \/ x = Some a
  | Fail _, [] => x = None
  | _, _ => False
  end.

Definition waits (d : done_call) : Prop := exists n r, d = existT (ERead n) r.
Definition writes (d : done_call) : Prop := exists b r, d = existT (EOut b) r.
Definition failed_write (d : done_call) : Prop :=
  match d with
  | existT e r =>
      match e return resp e -> Prop with
      | EOut _ | EFlush => fun r => exists x, r = IErr x
      | _ => fun _ => False
      end r
  end.
Definition flushed : done_call := existT EFlush (IOk tt).

(** The calls [p] makes when it runs alone. *)
Fixpoint calls_of {A} (pid : nat) (p : prog A) (os : orcs) (l : local) (s : fs) : list done_call :=
  match p with
  | Ret _ | Fail _ => []
  | Vis e k =>
      let '(r, l', s') := handle_ev pid e (os 0%nat) l s in
      existT e r :: calls_of pid (k r) (fun n => os (S n)) l' s'
  end.

(** A server process that has not written anything yet. *)
Definition fresh_server (p : proc (Z * bytes)) : Prop :=
  (exists en fuel lfs cfg op, pr_prog p = transfer_main en fuel lfs cfg op) /\ l_out (pr_local p) = [].

(** Bytes that begin some line of capabilities followed by answers. *)
Definition well_begun (out : bytes) : Prop := exists rs rest, answer_stream rs (out ++ rest).
