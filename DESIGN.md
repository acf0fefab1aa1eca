# Formal model of scutiger (Rocq / Coq 8.16.1)

`properties.jsonl` states the properties C01–C108 in words, `MANIFEST.json` says
which theorem answers which property, `seeded/LOG.jsonl` records the wrong
programs the theorems were tried against.

## Approach

The server (`git-lfs-transfer`, its library and the pkt-line crate) is modelled
as an *executable program tree*: `prog A` is an inductive free monad whose
nodes are the system calls the Rust code makes (read_exact on stdin, write_all
on stdout, open, hard_link, rename, ...).  Every Rust function becomes one
Gallina function with the same control flow that returns a `prog`.  `Result`
stays data (`Ok`/`Er`), panics are the explicit leaf `Fail`.

One model, several semantics:

* `run`: one process, driven by an oracle (clock, random temporary-file
  suffixes, any call failing, writes failing part-way).  Executable: the
  repository's own test transcripts are replayed on it by `vm_compute`
  (Transcripts.v: tests of the model, not proofs).
* `run_crash`: the same, killed after any number of calls.
* `sys_run`: any number of processes sharing one file system, driven by an
  arbitrary schedule that picks a process and lets one system call succeed,
  fail or fail part-way, or kills the process.
* `calls` (SpecTalk.v): any answers of the system whatever, used for statements
  about the order of calls (flush before waiting).
* fragment semantics of `read_exact` (Frag.v), to show that the fragmentation of
  the transport is invisible.

Loops are recursion on explicit fuel that ends in `Fail OutOfFuel`, never in a
normal-looking value; C35 gives a bound that is always enough.  Because a crash
may happen anywhere, the concurrency theorems (for all fuel) cover every finite
execution.

Calculi, each proved sound against the semantics above:

* `wp` (Wp.v): weakest preconditions for one process, for every oracle that
  satisfies a predicate;
* `rg` (Rg.v): rely-guarantee over `sys_run`; `all_ev P p`: every call of `p`
  satisfies `P`;
* `leaves` (Total.v): how programs end, for any answers;
* `mon` (Mon.v): a monitor automaton that watches the calls of a program, for
  any answers (C49);
* refinement of the server to an abstract server (SpecServer.v: object map and
  lock table) by induction on the list of requests (C13); most single-session
  properties are read off from it.

When the faithful model violates a property, the theorem is named `..._refuted`
and carries a witness (`exists x, ...`); the strongest true variant found is
proved beside it with the suffix `_partial`.  In the manifest such a property has
the status "partial" and a note that begins with "REFUTED".

Property theorems stand in `Props_*.v`.  They are stated with definitions of
`Spec*.v`, which do not call the model's helpers (they do mention the model's
types and its entry points such as `transfer_run`, `read_packet`, `at_main`).
Beside each theorem stands an `Example` that its hypotheses can be met, and below
each theorem `Print Assumptions`.

## File layout (rocq/theories)

Model of /repo:

| file | content |
|---|---|
| Bytes | std string and integer functions used by the code |
| Err | scutiger-core/src/errors.rs |
| FS | file-system calls (environment) |
| Prog | program trees, system-call events, oracles, `run`, `run_crash`, `sys_run` |
| Pktline | scutiger-core/src/pktline.rs |
| Args, Processor | scutiger-lfs/src/processor.rs |
| Local | scutiger-lfs/src/backend.rs and backend/local.rs |
| Transfer | scutiger-lfs/src/bin/git-lfs-transfer.rs |
| GitAt, RecentRefs, Pager | scutiger-bin/src/bin |
| Main | the three `main` functions, from the parsed command line on |
| Acts | git at and git recent-refs as processes: spawn, wait, failing writes |
| Sha256, Rfc3339, Regex | concrete environment: used for transcripts, for examples, and (Regex) for the statements about `--summary` |
| Transcripts | the repository's end-to-end tests replayed |

Specifications and theorems:

| spec | theorems | proofs | properties |
|---|---|---|---|
| Spec, Frag | Props_Pktline | PktProofs | C01–C08 |
| Spec | Props_Text | TextProofs | C09–C12, C33 |
| SpecGit, SpecRegex | Props_Git | GitProofs, RegexFacts, RegexRead | C42–C47 |
| SpecStore | Props_Store | ObjProofs, StoreProofs, GetProofs, ReadOnly | C15, C17, C20, C23, C37 |
| SpecServer | Props_Server | SeqIo, SeqFs, SeqCmd, Session, SessionFacts, SessionProps, Faults | C13, C18, C21, C22, C25, C26, C28, C30, C31, C41 |
| SpecEnd, SpecLast | Props_End, Props_Last | Total, LastProofs | C35, C39 |
| SpecUpload, SpecPerm | Props_Upload | Eof, UploadAny, PermProofs | C19, C36, C40 |
| SpecLock | Props_Lock | LockProofs, LockSeq, LockLive, LockLog, LockSession | C24, C27, C29, C32, C34, C38 |
| SpecLines | Props_Lines | LinesProofs | C48 |
| SpecFrame | Props_Frame | Wpr, FrameProofs | C14 |
| SpecFrame | Props_Fail | UploadSure, FailProofs, FrameProofs | C71–C73 |
| SpecFault | Props_Fault | FaultProofs, FaultFacts | C79–C82 |
| SpecLockDir | Props_LockDir | LockDirProofs, ClutterProofs | C84–C86 |
| SpecCalls | Props_Calls | CallsProofs (a watcher that remembers every call) | C87–C89 |
| SpecDamage | Props_Damage | DamageProofs | C90–C92 |
| SpecStart | Props_Start | StartProofs | C40 (whole servers), C93, C94 |
| SpecRound | Props_Round | RoundFacts, RoundProofs, RoundMain | C95 |
| SpecTruth | Props_Truth | TruthProofs | C96 |
| SpecWords | Props_Words | WordsProofs | C97 |
| SpecPower | Props_Power | PowerProofs | C98 |
| SpecHeld | Props_Held | HeldProofs | C99 |
| SpecWorn | Props_Worn | WornProofs | C100 |
| SpecPrune | Props_Prune | PruneProofs | C101 |
| SpecPush | Props_Push | PushProofs | C102 |
| SpecWho | Props_Who | WhoProofs | C103 |
| SpecComes | Props_Comes | ComesProofs | C104 |
| SpecWho, SpecComes | Props_Exact | ExactProofs | C105 |
| SpecLedger | Props_Ledger | LedgerProofs | C106 |
| SpecServer | Props_Owner | | C107 |
| SpecLedger | Props_Now | ExactProofs | C108 |
| SpecSecret | Props_Secret | SecretProofs | C16 |
| SpecTalk | Props_Talk | Mon, TalkProofs, GoneProofs | C49, C50, C83 |
| SpecBounds | Props_Bounds | BoundsProofs, LookProofs | C51, C52 |
| SpecMain | Props_Main | MainProofs | C53–C57 |
| SpecOdd | Props_Odd | OddProofs | C58, C59 |
| SpecInput | Props_Input | InputProofs | C60, C61 |
| SpecActs | Props_Acts | ActsProofs | C62–C64 |
| SpecAll | Props_All | AllProofs | C65, C66 |
| SpecTogether, SpecBeside | Props_Together, Props_Beside | Shape, LossyFacts, Rgt, RgtSound, TogetherCmd, TogetherProofs, TogetherFacts, BesideFacts | C67–C70, C74–C78 |

Facts shared by the proofs: Wp, ByteFacts, PktFacts, ReaderFacts, FsFacts, Rg,
ServerEv, IoFacts.

## Plan per property

| id | modelled | proof |
|---|---|---|
| C01 | write_packet / read_packet | induction on the packet list, hex codec lemma |
| C02 | Writer::write, Reader::read with buffer state | induction over chunks and read schedule |
| C03 | parse_header on bytes, u16 shifts | refuted (':' and 'g'); exact behaviour on each byte |
| C04 | both readers | refuted; exact ranges proved |
| C05 | fragment semantics of read_exact | simulation by induction on `prog` |
| C06 | Reader::read | refuted at size 0; proved for sizes >= 1 |
| C07, C08 | Reader | induction / case analysis |
| C09–C12 | ArgumentParser, parse_integer, Oid | induction on lists |
| C13, C18, C21, C22, C25 | whole server, abstract server | refinement by `wp`, induction on requests |
| C14 | whole server, any input | refuted (refused put-object leaves its data in the stream); one answer per request with the exact packets taken, whatever calls but reads fail |
| C15 | server in download mode, any number of processes | invariant: file system unchanged |
| C16 | upload server | refuted (unlock reads files outside the lock directory); two runs on file systems that differ in contents otherwise agree |
| C17, C20, C23, C24, C37 | `sys_run` | rely-guarantee invariants over all schedules |
| C19, C36 | put_object on arbitrary streams | `wp`; cut-off requests |
| C26 | lock with clock oracle | refuted; proved for a fixed timestamp |
| C27–C29, C32, C34, C38 | lock, unlock, list-lock under concurrency and crashes | refuted by concrete schedules; ghost history of links and removals |
| C30, C31 | list-lock with cursor | induction on the sorted lock table; limit refuted |
| C33 | lock record codec | list lemmas |
| C35 | all loops | measure on the remaining input |
| C39, C48, C50 | all senders | grammar of the output as an invariant over `prog` |
| C40, C41 | set_permissions, fix_permissions, errors | decision tables, bit lemmas |
| C42–C47 | scutiger-bin with libgit2 and PCRE as parameters | list induction, regular-expression semantics |
| C49, C83 | order of write, flush and read calls | monitor |
| C51, C52 | all paths given to system calls | `all_ev` with a predicate on paths |
| C53–C57 | `main` functions with parsed options | case analysis; C56, C57 refuted (options looked at after the repository; unwrap on non-UTF-8) |
| C58, C59 | groups of packets and their meaning; whole sessions | case analysis on the packets, then as C13; C59 refuted |
| C60, C61 | whole sessions on arbitrary bytes | every input splits into requests, cut and broken ones included, then as C58; C61 refuted |
| C62–C64 | processes with traces of actions | induction on the lines; C62, C64 refuted |
| C65, C66 | whole sessions on arbitrary bytes | as C60, with unlock ids that are paths; the only panic; C66 refuted |
| C67–C70 | one server's session among any servers | rely-guarantee with the clock of the schedule in the assertions (Rgt); answers right at moments; C68 refuted |
| C71, C73 | whole server / one upload, alone, failing calls | refuted (data taken for commands on a full disk; 500 after the rename); what holds for runs in which named calls succeed (Wpr) |
| C74–C76 | one server's session among any servers, locks included | as C67; each part of an answer at its own moment; every reason to give up; C75 refuted |
| C77–C78 | two sessions among any servers; any session while a lock stands | as C74, about what has been written and not yet read at a moment |
| C79–C82 | whole server, alone, failing calls | as C13, with the answers that failures make possible (Wpr); C80, C81 refuted (stored objects called missing, locks left out of a listing) |
| C84–C86 | lock, unlock, list-lock over an arbitrary directory of locks | as C13, with the contents of the directory in place of the table of locks |
| C87–C89 | the whole of `git-lfs-transfer` as a tree of calls | any sensible answers of the system; no assumption about the file system at all |
| C90–C92 | as C13 | as C13; the contents of objects need not have their hashes |
| C93, C94, C40_chmod | the whole of `git-lfs-transfer` as a tree of calls | as C87, for the configurations that libgit2 can report |
| C95 | the whole of `git-lfs-transfer` as a tree of calls | as C93; a successful read is as long as asked for; the hash has 32 bytes |
| C96 | all servers of a repository, with failing calls and crashes, and the calls one of them makes | the repository is in order at first (`servers`); equal bytes up to a collision of the hash |
| C97 | the functions on text that the code takes from the standard library and the `hex` and `bytes` crates | none |
| C98 | any servers, then a loss of everything not known to be on the disk | refuted (no fsync: answered uploads and locks can be empty files); invariant on names and inodes for what was left alone |
| C99 | any servers among others, failing calls, crashes | as C100; the record is the one there when it is read (see C34), ids with a slash only as far as C65 goes |
| C100 | as C96 | as C96, but objects may hold anything at first (`workers`); the store invariant with a switch for objects that were there before |
| C101 | as C100, beside programs that remove objects | as C100; these programs may read anything and remove objects, at any time, but write nothing (`prunes`); the store invariant with a switch for who may remove objects |
| C102 | one client's batches and uploads, then any requests, among any servers | from C74 and that stored objects stay |
| C103 | as C101; the servers' configurations can be read | from C95, the rounds of any server, and that of the calls servers and removing programs make only a rename changes what is at the place of an object to another file |
| C104 | any servers whose configurations can be read | from C95, and from the names that servers link, create, rename and unlink (`lockly`) |
| C105 | any servers; those of `C105_exactly` with configurations that can be read | from C101 and C103, and that no call of a server unlinks an object (`lockly`) |
| C106 | as C104; C77 is about servers whose own calls do not fail | from C104, and what a link and an unlink that succeed find and leave |
| C107 | refuted with two servers of two users; one server alone for what is done instead | a run; from C25 |
| C108 | as C101 | from C101 and C103, and what a rename and an unlink of an object that succeed find and leave |
| C72 | one upload among any servers, any call may fail | rely-guarantee over the store invariant |

## Trusted base

* The Coq 8.16.1 kernel and its `vm_compute` (coqchk re-checks everything); the
  Coq standard library and std++.  `Print Assumptions` prints "Closed under the
  global context" for every property theorem: no axioms are used.
* The reading of the Rust code into Gallina; each definition cites its lines.
* The meaning of the system calls (FS.v, `handle_ev` in Prog.v):
  paths are resolved with `.` and `..` but there are no symbolic links; each call
  is atomic; there are no permission checks, but any call may fail at any time
  (a fault chosen by the oracle) with the usual "nothing happened" meaning, and
  write_all may have written any prefix; a hard link, a rename and an unlink are
  durable when they return (no power loss; what can be left after one is
  `power_loss` in SpecPower.v, which only C98 uses).  Long names (ENAMETOOLONG, for instance
  for a long unlock id) appear only as such a fault.  A rename onto another hard link of
  the same file, where POSIX does nothing, is not treated specially: files that are
  renamed (uploads) are never linked.  Directories have the owner 0; no answer shows
  one, as nothing but files can be in the lock directory.
* What the Rust standard library and crates do: the buffers in `Stdin` and
  `Stdout` are seen at the level of `read_exact`, `write_all` and `flush`; `tempfile`
  makes a new file in the given directory with a random name (oracle) and removes it
  when dropped (the real crate adds the path to the text of its errors, the model has
  the text of the failed call); `create_new`, `hard_link` and
  `persist` (rename) as in POSIX.

Parameters of the model (theorems hold for every value unless they say more):

* SHA-256 (`en_hash`), the printing of times (`en_time`, `None` where chrono
  panics), the passwd lookup (`en_user`), the user id of the process (`en_uid`);
* libgit2: `git_view` (revparse, walk, commit messages, references, commit times),
  the repository's directory, `core.sharedRepository` as text, with libgit2's
  reading of booleans and integers written out in SpecPerm.v;
* PCRE: the record `regex_lib`; the `--summary` theorems C44 use the small
  engine of Regex.v, which covers the syntax of the patterns that the program
  builds and the usual literal, class, group, alternation and star syntax (the
  grammar is SpecRegex.v; C44_patterns says that the engine reads exactly it);
* clap: a parsed command line, or an exit with text and status (`parsed` in
  Main.v).  The option tables themselves (names, conflicts, help texts) are not
  modelled.

Ghosts (no program can see them): `hist` and the event `ENote` that records the
answer a server has chosen, `i_creator` and `i_temp` of inodes.

Not modelled: the internals of clap, libgit2, PCRE, chrono, passwd, tempfile and
the global allocator; Windows code paths; signals (a killed process stops between
two calls); what the pager and git show do; memory use, timing and integer overflow of sizes beyond u64 other
than where the code checks it; test code.
