(** What a server says of objects is so: what the theorems of Props_Truth.v are stated
    with. *)
From Verif Require Import Bytes Err FS Prog Pktline Args Local Processor Transfer Spec SpecStore SpecServer SpecFrame SpecTalk
  SpecPerm SpecInput SpecTogether SpecRound.
From Verif Require SpecOdd.

(** ** The calls of one of many processes *)

(** The call the process [i] makes, and what it gets, if it is its turn. *)
Definition made {A} (i : nat) (y : sys A) (c : choice) : list done_call :=
  match c_act c with
  | AGo o =>
      if decide (c_pid c = i) then
        match procs y !! i with
        | Some (Proc (Vis e _) l false) => [existT e (handle_ev i e o l (shared y)).1.1]
        | _ => []
        end
      else []
  | ACrash => []
  end.
(** All its calls. *)
Fixpoint history {A} (i : nat) (cs : list choice) (y : sys A) : list done_call :=
  match cs with
  | [] => []
  | c :: cs' => made i y c ++ history i cs' (sys_step y c)
  end.

(** ** What is so in the end *)
Section truth.
Context (H : bytes -> bytes) (lfs : path) (m : mode) (s : fs).

(** In [s] the object [o] is stored; its bytes are [d], or the hash function has a
    collision.  And [d] is what the name says. *)
Definition kept (o d : bytes) : Prop :=
  hex_of (H d) o /\ exists d', has_file s (object_path lfs o) d' /\ same_object H d d'.

(** The word for objects that are there. *)
Definition there : bytes := match m with Upload => bs "noop" | Download => bs "download" end.

(** [is] is heard, [a] is said, and the file system is [s] later.  [old] are bytes left
    from an upload that was given up. *)
Definition upload_kept (old : bytes) (o : bytes) (is : list item) : Prop :=
  exists kvs v is1 ds e, part PDelim is1 (args kvs) /\ is = is1 ++ map Got (lines ds) ++ [Got e] /\
    (e = PFlush \/ e = PDelim) /\ (bs "size", v) ∈ kvs /\ number v (lenN (old ++ concat ds)) /\ kept o (old ++ concat ds).
Definition size_kept (o : bytes) (is : list item) : Prop :=
  exists kvs v d, part PFlush is (args kvs) /\ (bs "size", v) ∈ kvs /\ number v (lenN d) /\ kept o d.
Definition sent_kept (o : bytes) (a : reply) : Prop :=
  exists d, a = Reply 200 [bs "size=" ++ dec (lenN d) ++ [NL]] (BData d) /\ kept o d.
Definition lines_kept (a : reply) : Prop :=
  exists ls, rp_body a = BLines ls /\
    forall o n, is_oid o -> o ++ [SP] ++ dec n ++ [SP] ++ there ++ [NL] ∈ ls -> exists d, lenN d = n /\ kept o d.
Definition so (old : bytes) (is : list item) (a : reply) : Prop :=
  forall b ws is', is = Got (PData b) :: is' -> SpecOdd.says b ws -> rp_code a = 200%N ->
    (forall o, SpecOdd.named (RPut o [] []) ws -> upload_kept old o is') /\
    (forall o, SpecOdd.named (RVerify o []) ws -> size_kept o is') /\
    (forall o, SpecOdd.named (RGet o []) ws -> sent_kept o a) /\
    (SpecOdd.named (RBatch [] []) ws -> lines_kept a).
End truth.

(** A round as in SpecRound.v, and what is said in it is so in [s]. *)
Definition true_round (en : env) (lfs : path) (u : N) (m : mode) (s : fs) (old : bytes) (tr : list done_call) (new : bytes) : Prop :=
  exists is a ps, hears (reads tr) is /\ reply_sent a ps /\ wires ps (spoken tr) /\ sent_well tr /\
    (responds en lfs m is (deeds tr) a /\ new = old \/ m = Upload /\ uploads en lfs u old is (deeds tr) a new) /\
    so (en_hash en) lfs m s old is a.
Inductive true_rounds (en : env) (lfs : path) (u : N) (m : mode) (s : fs) : bytes -> list done_call -> bytes -> Prop :=
| tr_nil old : true_rounds en lfs u m s old [] old
| tr_cons old tr mid tr' new : true_round en lfs u m s old tr mid -> true_rounds en lfs u m s mid tr' new ->
    true_rounds en lfs u m s old (tr ++ tr') new.
