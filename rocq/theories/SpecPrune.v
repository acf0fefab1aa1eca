(** Objects removed while servers work, as `git lfs prune` does: what the theorems of
    Props_Prune.v are stated with. *)
From Verif Require Import Bytes Err FS Prog Pktline Args Local Processor Transfer Spec SpecStore SpecServer SpecFrame SpecTalk
  SpecPerm SpecInput SpecTogether SpecRound SpecTruth SpecWorn.
From Verif Require SpecOdd.

(** ** Programs that remove objects *)

(** What they may do: look at anything, say anything, and remove objects. *)
Definition prunes (lfs : path) (e : ev) : Prop :=
  match e with
  | EUnlink p => exists o, is_oid o /\ p = object_path lfs o
  | ERead _ | EOut _ | EFlush | EOpen _ | EReadAll _ | EReadAt _ _ _ | EFstat _ | EStat _
  | EReaddir _ | EClock | EUmask _ | ENote _ _ => True
  | _ => False
  end.
Definition is_pruner (lfs : path) (p : prog (Z * bytes)) : Prop :=
  forall tr x, calls p tr x -> forall e r, existT e r ∈ tr -> prunes lfs e.

(** Servers as [workers] in SpecWorn.v, and such programs. *)
Record company (H : bytes -> bytes) (lfs : path) (ps : list (proc (Z * bytes))) (s0 : fs) : Prop := Company {
  co_digest : digest H;
  co_lfs : Forall plain_name lfs;
  co_ordinary : ordinary lfs s0;
  co_all : Forall (fun p => is_server H lfs (pr_prog p) \/ is_pruner lfs (pr_prog p)) ps }.

(** One of these programs removed the object [o]: the processes are [ps], and [y] goes
    on as [cs] says. *)
Definition removed (lfs : path) (ps : list (proc (Z * bytes))) (cs : list choice) (y : sys (Z * bytes)) (o : bytes) : Prop :=
  exists i p, ps !! i = Some p /\ is_pruner lfs (pr_prog p) /\
    existT (EUnlink (object_path lfs o)) (IOk tt) ∈ history i cs y.

(** ** What is so in the end *)

(** A call that succeeds only if there is such an object. *)
Inductive shows (lfs : path) (o : bytes) : done_call -> Prop :=
| sh_stat x : shows lfs o (existT (EStat (object_path lfs o)) (IOk x))
| sh_open h : shows lfs o (existT (EOpen (object_path lfs o)) (IOk h))
| sh_rename a : shows lfs o (existT (ERename a (object_path lfs o)) (IOk tt)).

Section pruned.
Context (H : bytes -> bytes) (lfs : path) (m : mode) (ps : list (proc (Z * bytes))) (s0 : fs).
(** The server is the process [i], and [cs] says who goes on when. *)
Context (i : nat) (cs : list choice).
Local Notation y0 := (Sys ps s0).
Local Notation s := (shared (sys_run cs y0)).

(** The server had made the calls [before] and then made the calls [tr].  A call among
    [tr] showed the object, which was removed after that. *)
Definition lost (before tr : list done_call) (o : bytes) : Prop :=
  exists t1 c t2 cs1 cs2, tr = t1 ++ c :: t2 /\ shows lfs o c /\
    cs = cs1 ++ cs2 /\ history i cs1 y0 = before ++ t1 ++ [c] /\ removed lfs ps cs2 (sys_run cs1 y0) o.

Definition kept_or_lost (before tr : list done_call) (o d : bytes) : Prop :=
  kept H lfs s o d \/ hex_of (H d) o /\ lost before tr o.
Definition found_or_lost (before tr : list done_call) (o d : bytes) : Prop :=
  found H lfs s0 s o d \/ (hex_of (H d) o \/ has_file s0 (object_path lfs o) d) /\ lost before tr o.

(** As in SpecWorn.v. *)
Definition so_pruned (before tr : list done_call) (old : bytes) (is : list item) (a : reply) : Prop :=
  forall b ws is', is = Got (PData b) :: is' -> SpecOdd.says b ws -> rp_code a = 200%N ->
    (forall o, SpecOdd.named (RPut o [] []) ws ->
       exists kvs v is1 ds e, part PDelim is1 (args kvs) /\ is' = is1 ++ map Got (lines ds) ++ [Got e] /\
         (e = PFlush \/ e = PDelim) /\ (bs "size", v) ∈ kvs /\ number v (lenN (old ++ concat ds)) /\
         kept_or_lost before tr o (old ++ concat ds)) /\
    (forall o, SpecOdd.named (RVerify o []) ws ->
       exists kvs v d, part PFlush is' (args kvs) /\ (bs "size", v) ∈ kvs /\ number v (lenN d) /\ found_or_lost before tr o d) /\
    (forall o, SpecOdd.named (RGet o []) ws ->
       exists d, a = Reply 200 [bs "size=" ++ dec (lenN d) ++ [NL]] (BData d) /\ found_or_lost before tr o d) /\
    (SpecOdd.named (RBatch [] []) ws ->
       exists ls, rp_body a = BLines ls /\
         forall o n, is_oid o -> o ++ [SP] ++ dec n ++ [SP] ++ there m ++ [NL] ∈ ls ->
           exists d, lenN d = n /\ found_or_lost before tr o d).
End pruned.

Section rounds.
Context (en : env) (lfs : path) (u : N) (m : mode) (ps : list (proc (Z * bytes))) (s0 : fs) (i : nat) (cs : list choice).
Definition pruned_round (before : list done_call) (old : bytes) (tr : list done_call) (new : bytes) : Prop :=
  exists is a qs, hears (reads tr) is /\ reply_sent a qs /\ wires qs (spoken tr) /\ sent_well tr /\
    (responds en lfs m is (deeds tr) a /\ new = old \/ m = Upload /\ uploads en lfs u old is (deeds tr) a new) /\
    so_pruned (en_hash en) lfs m ps s0 i cs before tr old is a.
Inductive pruned_rounds : list done_call -> bytes -> list done_call -> bytes -> Prop :=
| pr_nil before old : pruned_rounds before old [] old
| pr_cons before old tr mid tr' new : pruned_round before old tr mid -> pruned_rounds (before ++ tr) mid tr' new ->
    pruned_rounds before old (tr ++ tr') new.
End rounds.
