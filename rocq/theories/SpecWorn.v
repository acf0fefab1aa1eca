(** Repositories with damaged objects: what the theorems of Props_Worn.v are stated
    with. *)
From Verif Require Import Bytes Err FS Prog Pktline Args Local Processor Transfer Spec SpecStore SpecServer SpecFrame SpecTalk
  SpecPerm SpecInput SpecTogether SpecRound SpecTruth.
From Verif Require SpecOdd.

(** Servers on a repository whose objects may hold anything, as [servers] in
    SpecTogether.v otherwise. *)
Record workers (H : bytes -> bytes) (lfs : path) (ps : list (proc (Z * bytes))) (s0 : fs) : Prop := Workers {
  wk_digest : digest H;
  wk_lfs : Forall plain_name lfs;
  wk_ordinary : ordinary lfs s0;
  wk_all : Forall (fun p => is_server H lfs (pr_prog p)) ps }.

(** ** What is so in the end *)
Section worn.
Context (H : bytes -> bytes) (lfs : path) (m : mode) (s0 s : fs).

(** In [s] the object [o] is stored, and [d] are its bytes as in SpecTruth.v, or those
    it had in [s0], right or wrong. *)
Definition found (o d : bytes) : Prop :=
  kept H lfs s o d \/
  has_file s0 (object_path lfs o) d /\ exists d', has_file s (object_path lfs o) d' /\ (d' = d \/ hex_of (H d') o).

(** As in SpecTruth.v, but for uploads alone it is certain that the object is the one
    with this name. *)
Definition size_found (o : bytes) (is : list item) : Prop :=
  exists kvs v d, part PFlush is (args kvs) /\ (bs "size", v) ∈ kvs /\ number v (lenN d) /\ found o d.
Definition sent_found (o : bytes) (a : reply) : Prop :=
  exists d, a = Reply 200 [bs "size=" ++ dec (lenN d) ++ [NL]] (BData d) /\ found o d.
Definition lines_found (a : reply) : Prop :=
  exists ls, rp_body a = BLines ls /\
    forall o n, is_oid o -> o ++ [SP] ++ dec n ++ [SP] ++ there m ++ [NL] ∈ ls -> exists d, lenN d = n /\ found o d.
Definition so_found (old : bytes) (is : list item) (a : reply) : Prop :=
  forall b ws is', is = Got (PData b) :: is' -> SpecOdd.says b ws -> rp_code a = 200%N ->
    (forall o, SpecOdd.named (RPut o [] []) ws -> upload_kept H lfs s old o is') /\
    (forall o, SpecOdd.named (RVerify o []) ws -> size_found o is') /\
    (forall o, SpecOdd.named (RGet o []) ws -> sent_found o a) /\
    (SpecOdd.named (RBatch [] []) ws -> lines_found a).
End worn.

Definition worn_round (en : env) (lfs : path) (u : N) (m : mode) (s0 s : fs) (old : bytes) (tr : list done_call) (new : bytes) : Prop :=
  exists is a ps, hears (reads tr) is /\ reply_sent a ps /\ wires ps (spoken tr) /\ sent_well tr /\
    (responds en lfs m is (deeds tr) a /\ new = old \/ m = Upload /\ uploads en lfs u old is (deeds tr) a new) /\
    so_found (en_hash en) lfs m s0 s old is a.
Inductive worn_rounds (en : env) (lfs : path) (u : N) (m : mode) (s0 s : fs) : bytes -> list done_call -> bytes -> Prop :=
| wr_nil old : worn_rounds en lfs u m s0 s old [] old
| wr_cons old tr mid tr' new : worn_round en lfs u m s0 s old tr mid -> worn_rounds en lfs u m s0 s mid tr' new ->
    worn_rounds en lfs u m s0 s old (tr ++ tr') new.
