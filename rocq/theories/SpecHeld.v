(** What a server says of locks was so while it worked on the request: what the theorems
    of Props_Held.v are stated with. *)
From stdpp Require Import sorting.
From Verif Require Import Bytes Err FS Prog Pktline Args Local Processor Transfer Spec SpecStore SpecServer SpecLock SpecFrame SpecTalk
  SpecPerm SpecInput SpecTogether SpecRound SpecTruth.
From Verif Require SpecOdd SpecLockDir.

(** The process [i] finds or does these things, one after the other, each at one of its
    steps.  A thing is said of the file systems before and after the step. *)
Inductive in_turn {A} (i : nat) : list choice -> sys A -> list (fs -> fs -> Prop) -> Prop :=
| it_end cs y : in_turn i cs y []
| it_now c cs y (P : fs -> fs -> Prop) Ps : c_pid c = i -> P (shared y) (shared (sys_step y c)) ->
    in_turn i cs (sys_step y c) Ps -> in_turn i (c :: cs) y (P :: Ps)
| it_later c cs y Ps : in_turn i cs (sys_step y c) Ps -> in_turn i (c :: cs) y Ps.

(** A call of [i] fails with "not found", whether or not the file is there. *)
Definition misled (i : nat) (cs : list choice) : Prop :=
  exists o x, Choice i (AGo o) ∈ cs /\ o_fault o = Some x /\ missing x.

(** A call of [i] fails. *)
Definition troubled (i : nat) (cs : list choice) : Prop := exists o x, Choice i (AGo o) ∈ cs /\ o_fault o = Some x.

(** ** Things to find or do *)
Section things.
Context (en : env) (lfs : path).
Notation id p := (lock_id (en_hash en) p).
(** The file [j] has the name [f]; it holds the record of a lock on [p] since [t]; the
    owner of [f] has this name, if it can be looked up. *)
Definition is_named (f : path) (j : nat) (s s' : fs) : Prop := nodes s !! f = Some (NFile j).
Definition records (j : nat) (p : bytes) (t : Z) (s s' : fs) : Prop := exists d, holds_text s j d /\ SpecLockDir.says d t p.
Definition belongs (f : path) (who : bytes) (s s' : fs) : Prop := whose en s f who \/ who = bs "unknown".
Definition reading (f : path) (j : nat) (p : bytes) (t : Z) (who : bytes) : list (fs -> fs -> Prop) :=
  [is_named f j; records j p t; belongs f who].
(** The draft for a lock on [p] gets the name of the lock, which was free. *)
Definition wins (p : bytes) (s s' : fs) : Prop :=
  exists j, nodes s !! draft_at en lfs p = Some (NFile j) /\ nodes s !! lock_at en lfs p = None /\ nodes s' !! lock_at en lfs p = Some (NFile j).
(** There is nothing of this name; the file of this name is removed. *)
Definition is_free (f : path) (s s' : fs) : Prop := nodes s !! f = None.
Definition removes (f : path) (s s' : fs) : Prop := (exists j, nodes s !! f = Some (NFile j)) /\ nodes s' !! f = None.
(** The names in the directory of locks. *)
Definition has_names (names : list bytes) (s s' : fs) : Prop :=
  forall c, c ∈ names <-> is_Some (nodes s !! (lfs ++ [bs "locks"; c])).
(** The file [j] holds no record of a lock. *)
Definition no_record (j : nat) (s s' : fs) : Prop := exists d, holds_text s j d /\ forall t p, ~ SpecLockDir.says d t p.
(** Under these names the locks [ls] are read one after the other.  A name is passed over
    when there is nothing of this name any more, or no record of a lock, or when a call
    fails. *)
Inductive reads_all (fails : Prop) : list bytes -> list (bytes * Z * bytes) -> list (fs -> fs -> Prop) -> Prop :=
| ra_nil : reads_all fails [] [] []
| ra_gone c cs ls Ps : reads_all fails cs ls Ps ->
    reads_all fails (c :: cs) ls (is_free (lfs ++ [bs "locks"; utf8_lossy c]) :: Ps)
| ra_other c cs j ls Ps : reads_all fails cs ls Ps ->
    reads_all fails (c :: cs) ls (is_named (lfs ++ [bs "locks"; utf8_lossy c]) j :: no_record j :: Ps)
| ra_failed c cs ls Ps : fails -> reads_all fails cs ls Ps -> reads_all fails (c :: cs) ls Ps
| ra_lock c cs j p t who ls Ps : reads_all fails cs ls Ps ->
    reads_all fails (c :: cs) ((p, t, who) :: ls) (reading (lfs ++ [bs "locks"; utf8_lossy c]) j p t who ++ Ps).

(** ** What is so when an answer is given *)
Section said.
Context {A : Type} (m : mode) (i : nat) (cs : list choice) (y : sys A).

Definition granted (p : bytes) (a : reply) : Prop :=
  exists x who, a = Reply 201 (info en p x who) BNone /\ in_turn i cs y [wins p; belongs (lock_at en lfs p) who].
Definition held (p : bytes) (a : reply) : Prop :=
  exists t x who j, a = Reply 409 (info en p x who) (BText (bs "conflict" ++ [NL])) /\ en_time en t = Some x /\
    in_turn i cs y (reading (lock_at en lfs p) j p t who).
Definition told_of (p : bytes) (a : reply) : Prop :=
  exists t x who j, a = Reply 200 [] (BLines (info_lines en m p x who)) /\ en_time en t = Some x /\
    in_turn i cs y (reading (lock_at en lfs p) j p t who).
(** A list of [n] locks and one more: the names are read, then the locks under them in
    order, to the last of them or until these are enough.  [before]: those before the
    cursor. *)
Definition told_all (c : option bytes) (n : nat) (a : reply) : Prop :=
  exists (names later all : list bytes) (before ls : list (bytes * Z * bytes)) out Ps,
    a = Reply 200 (match ls !! n with Some (p, _, _) => [bs "next-cursor=" ++ id p ++ [NL]] | None => [] end) (BLines out) /\
    all_lines en m ls out /\ names ++ later ≡ₚ all /\ StronglySorted (fun a b => blt b a = false) (names ++ later) /\
    reads_all (troubled i cs) names (before ++ ls) Ps /\ in_turn i cs y (has_names all :: Ps) /\
    Forall (fun x => SpecLockDir.passed c (id x.1.1)) before /\
    match ls with x :: _ => ~ SpecLockDir.passed c (id x.1.1) | [] => True end /\
    (length ls <= S n)%nat /\ (later = [] \/ length ls = S n).
Definition no_lock (p : bytes) (c : option bytes) : Prop :=
  in_turn i cs y [is_free (lock_at en lfs p)] \/ misled i cs \/
  exists t who j, SpecLockDir.passed c (id p) /\ in_turn i cs y (reading (lock_at en lfs p) j p t who).
(** [k] is the id of the request. *)
Definition removed (k : bytes) (a : reply) : Prop :=
  exists p t x who, a = Reply 200 (info en p x who) BNone /\ en_time en t = Some x /\
    in_turn i cs y [removes (lock_at en lfs p)] /\
    (SLASH ∉ k -> exists j, in_turn i cs y (reading (lfs ++ [bs "locks"; k]) j p t who ++ [removes (lock_at en lfs p)])).
Definition not_there (k : bytes) : Prop :=
  in_turn i cs y [is_free (lfs ++ [bs "locks"; k])] \/ misled i cs \/
  exists p t who j, in_turn i cs y (reading (lfs ++ [bs "locks"; k]) j p t who ++ [is_free (lock_at en lfs p)]).

(** [is] is heard and [a] is said while the system takes the steps [cs] from [y] on. *)
Definition lock_so (is : list item) (a : reply) : Prop :=
  forall b ws is', is = Got (PData b) :: is' -> SpecOdd.says b ws ->
    (SpecOdd.named (RLock []) ws ->
       rp_code a = 201%N \/ rp_code a = 409%N ->
       exists kvs p r, part PFlush is' (args kvs) /\ (bs "path", p) ∈ kvs /\ (bs "refname", r) ∈ kvs /\
         (granted p a \/ held p a)) /\
    (SpecOdd.named (RList []) ws ->
       rp_code a = 200%N \/ rp_code a = 404%N ->
       exists kvs c lim n, part PFlush is' (args kvs) /\ key (bs "cursor") kvs c /\ key (bs "limit") kvs lim /\ limit_of lim n /\
         (no_key (bs "path") kvs /\ told_all c n a \/
          exists p, (bs "path", p) ∈ kvs /\ (told_of p a /\ ~ SpecLockDir.passed c (id p) \/ a = not_found /\ no_lock p c))) /\
    (forall k, SpecOdd.named (RUnlock k []) ws ->
       rp_code a = 200%N \/ rp_code a = 404%N ->
       removed k a \/ a = not_found /\ (SLASH ∉ k -> not_there k)).
End said.
End things.

(** A round as in SpecRound.v, and what is said of locks in it was so meanwhile. *)
Definition honest_round {A} (en : env) (lfs : path) (u : N) (m : mode) (i : nat) (cs : list choice) (y : sys A) (old new : bytes) : Prop :=
  exists is a ps, let tr := history i cs y in
    hears (reads tr) is /\ reply_sent a ps /\ wires ps (spoken tr) /\ sent_well tr /\
    (responds en lfs m is (deeds tr) a /\ new = old \/ m = Upload /\ uploads en lfs u old is (deeds tr) a new) /\
    lock_so en lfs m i cs y is a.
(** The steps from [y] on are those of such rounds. *)
Inductive honest_rounds {A} (en : env) (lfs : path) (u : N) (m : mode) (i : nat) : list choice -> sys A -> bytes -> bytes -> Prop :=
| hr_nil y old : honest_rounds en lfs u m i [] y old old
| hr_cons cs cs' y old mid new : honest_round en lfs u m i cs y old mid -> honest_rounds en lfs u m i cs' (sys_run cs y) mid new ->
    honest_rounds en lfs u m i (cs ++ cs') y old new.
