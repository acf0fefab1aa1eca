{"id": "C01", "title": "pkt-line packet round trip", "statement": "Any sequence of flush, delim and data packets (payload up to 65531 bytes) written with write_packet is read back by read_packet as exactly the same sequence, and the bytes that follow are left unread.", "quantifier": "all packet sequences, all payloads up to 65531 bytes, all trailing bytes", "why_tests_cant": "payload contents and lengths form an unbounded space; tests use five literals", "anchors": ["scutiger-core/src/pktline.rs: Writer::write_packet, Writer::write_one, Reader::read_packet, Reader::parse_header"]}
{"id": "C02", "title": "Byte-stream round trip through Writer::write and Reader::read", "statement": "Writing a buffer of any length with io::Write and then a flush packet produces packets of 1..65516 payload bytes, reports the whole length written, and io::Read returns exactly those bytes, in order, for every sequence of non-empty caller buffer sizes, then 0, leaving the bytes after the flush unread.", "quantifier": "all buffers, all sequences of read sizes >= 1, all following bytes", "why_tests_cant": "reader keeps partial-packet state across calls; the set of read-size schedules is infinite", "anchors": ["scutiger-core/src/pktline.rs: Writer::write, Reader::read, Reader::read_one"]}
{"id": "C03", "title": "Header syntax", "statement": "A packet header is accepted exactly when it is four lower-case hexadecimal digits, and then denotes that number.", "quantifier": "all 2^32 four-byte headers", "why_tests_cant": "tests sample eight headers", "anchors": ["scutiger-core/src/pktline.rs: Reader::parse_header"]}
{"id": "C04", "title": "Packet size limit is uniform", "statement": "A data packet longer than the protocol maximum (65520 bytes including header) is rejected no matter which reading interface meets it.", "quantifier": "all headers", "why_tests_cant": "boundary values between 65517 and 65531 are not sampled", "anchors": ["scutiger-core/src/pktline.rs: Reader::read_one, Reader::read_packet"]}
{"id": "C05", "title": "Transport fragmentation is invisible", "statement": "What a session reads, answers and stores depends only on the concatenation of the bytes received, not on how the transport splits them into reads.", "quantifier": "all input byte strings and all ways of cutting them into non-empty fragments", "why_tests_cant": "there are exponentially many fragmentations", "anchors": ["scutiger-core/src/pktline.rs: Reader::read_one, Reader::read_packet", "scutiger-lfs/src/processor.rs: Processor::process_commands"]}
{"id": "C06", "title": "Reads never lose data", "statement": "A read call with any buffer size, including zero, never loses or reorders bytes already received: the next reads continue where the previous ones stopped.", "quantifier": "all buffered states and all read sizes including 0", "why_tests_cant": "tests never read with an empty buffer while data is pending", "anchors": ["scutiger-core/src/pktline.rs: Reader::read"]}
{"id": "C07", "title": "End of data only at a control packet", "statement": "With a non-empty buffer, Reader::read returns 0 only when a flush or delim packet was consumed; empty data packets are skipped.", "quantifier": "all inputs, buffer states and buffer sizes >= 1", "why_tests_cant": "needs every mix of empty and non-empty packets", "anchors": ["scutiger-core/src/pktline.rs: Reader::read"]}
{"id": "C08", "title": "Truncation is detected", "statement": "If the stream ends inside a packet, read_packet reports an unexpected end of file and never yields a shortened packet.", "quantifier": "all packets and all strict non-empty prefixes of their encoding", "why_tests_cant": "every cut point of every packet", "anchors": ["scutiger-core/src/pktline.rs: Reader::read_packet"]}
{"id": "C09", "title": "Argument block round trip", "statement": "Parsing a list of key=value lines with distinct '='-free keys returns exactly those keys and values (values may contain '=' and newlines).", "quantifier": "all argument lists", "why_tests_cant": "arbitrary byte values", "anchors": ["scutiger-lfs/src/processor.rs: ArgumentParser::parse"]}
{"id": "C10", "title": "Argument parser is total and strict", "statement": "ArgumentParser::parse never panics, and succeeds exactly when every line has '=' and a final newline and no key repeats.", "quantifier": "all lists of byte strings", "why_tests_cant": "slice arithmetic must be in range for every input", "anchors": ["scutiger-lfs/src/processor.rs: ArgumentParser::parse"]}
{"id": "C11", "title": "Integer syntax", "statement": "Sizes and limits are accepted exactly when they are an optional '+' followed by one or more decimal digits denoting a value below 2^64, and then have that value; printing then parsing any u64 is the identity.", "quantifier": "all byte strings, all u64", "why_tests_cant": "overflow boundary and non-UTF-8 inputs", "anchors": ["scutiger-lfs/src/processor.rs: ArgumentParser::parse_integer, Processor::read_batch"]}
{"id": "C12", "title": "Object ids are safe file names", "statement": "An object id is accepted exactly when it is 64 lower-case hex digits; its storage path lies strictly below lfs/objects and distinct ids have distinct paths.", "quantifier": "all byte strings as ids", "why_tests_cant": "path traversal needs all byte strings", "anchors": ["scutiger-lfs/src/processor.rs: Oid::valid, Oid::new, Oid::expected_path"]}
{"id": "C13", "title": "One well-formed request, one response", "statement": "For every sequence of well-formed requests the server's answers are, one per request and in order, those of a simple abstract server with an object map and a lock table, and the repository's final contents represent the abstract server's final state.", "quantifier": "all request sequences, all initial repositories representing an abstract state, both modes, all temp-file names and clock values", "why_tests_cant": "histories are unbounded", "anchors": ["scutiger-lfs/src/processor.rs: Processor", "scutiger-lfs/src/backend/local.rs: LocalBackend, LocalLockBackend"]}
{"id": "C14", "title": "Rejected requests do not desynchronise the connection", "statement": "When a request is refused, its arguments and body are consumed: payload bytes are never interpreted as later commands, and the client gets exactly one response for it.", "quantifier": "all refused requests and all payloads", "why_tests_cant": "tests only use requests whose payload is consumed", "anchors": ["scutiger-lfs/src/processor.rs: Processor::process_commands, Processor::put_object, Processor::read_batch"]}
{"id": "C15", "title": "Download mode is read-only", "statement": "In download mode no client input, however malformed, creates, changes or removes any file once the four directories exist.", "quantifier": "all input bytes, all repositories, all I/O faults and crash points", "why_tests_cant": "needs all inputs", "anchors": ["scutiger-lfs/src/processor.rs: Processor::process_commands", "scutiger-lfs/src/bin/git-lfs-transfer.rs: Program::run"]}
{"id": "C16", "title": "Upload mode does not disclose stored data", "statement": "In upload mode a client cannot make the server read or reveal the contents of object files.", "quantifier": "all input bytes", "why_tests_cant": "needs all inputs, including crafted lock ids", "anchors": ["scutiger-lfs/src/processor.rs: Processor::process_commands, Processor::unlock", "scutiger-lfs/src/backend/local.rs: LocalLockBackend::from_id"]}
{"id": "C17", "title": "Store integrity", "statement": "Every file under lfs/objects named by an object id contains bytes whose SHA-256 is that id, at every moment, with any number of concurrent server processes, process crashes at any point and failing system calls.", "quantifier": "all interleavings, crash points, I/O faults and client inputs", "why_tests_cant": "schedules and crash points cannot be enumerated", "anchors": ["scutiger-lfs/src/processor.rs: Processor::put_object, HashingReader", "scutiger-lfs/src/backend/local.rs: LocalBackend::start_upload, finish_upload"]}
{"id": "C18", "title": "Upload then download returns the same bytes", "statement": "After a put-object answered 200, get-object of that id returns status 200, size= the exact length, and exactly the uploaded bytes; verify-object with that size answers 200.", "quantifier": "all contents, all packetisations, all repositories", "why_tests_cant": "all contents and packet splits", "anchors": ["scutiger-lfs/src/processor.rs: put_object, get_object, verify_object", "scutiger-lfs/src/backend/local.rs: start_upload, finish_upload, download"]}
{"id": "C19", "title": "A rejected upload stores nothing", "statement": "A put-object whose data has the wrong length or hash, or is truncated or malformed, leaves the set of objects and their contents unchanged and leaves no temporary file behind.", "quantifier": "all ids, declared sizes, data streams and truncation points", "why_tests_cant": "all truncation points and malformed streams", "anchors": ["scutiger-lfs/src/processor.rs: put_object", "scutiger-lfs/src/backend/local.rs: start_upload"]}
{"id": "C20", "title": "Objects are never lost or altered", "statement": "No command, crash, fault or concurrent process removes a stored object or changes the bytes stored under its id.", "quantifier": "all interleavings, crash points, faults and inputs", "why_tests_cant": "schedules cannot be enumerated", "anchors": ["scutiger-lfs/src/backend/local.rs: finish_upload, LocalBackendLock::unlock"]}
{"id": "C21", "title": "verify-object answers", "statement": "verify-object answers 200 iff the object is stored with exactly the given size, 409 iff stored with another size, 404 iff not stored, and changes nothing.", "quantifier": "all ids, sizes and repositories", "why_tests_cant": "all sizes and states", "anchors": ["scutiger-lfs/src/backend/local.rs: LocalBackend::verify"]}
{"id": "C22", "title": "batch answers", "statement": "A batch request answers one line per requested object, in request order, with the stored size and noop/download if present, else the requested size and upload/noop, and changes nothing.", "quantifier": "all object lists and repositories", "why_tests_cant": "unbounded lists", "anchors": ["scutiger-lfs/src/processor.rs: batch_data, read_batch", "scutiger-lfs/src/backend/local.rs: LocalBackend::batch"]}
{"id": "C23", "title": "get-object never returns wrong bytes", "statement": "Every complete get-object success response carries a size= header equal to the number of data bytes sent, and the data hashes to the requested id, even while other processes upload or crash.", "quantifier": "all interleavings with other server processes", "why_tests_cant": "schedules cannot be enumerated", "anchors": ["scutiger-lfs/src/processor.rs: get_object, PktLineHandler::send_status", "scutiger-lfs/src/backend/local.rs: download"]}
{"id": "C24", "title": "Lock mutual exclusion", "statement": "For one path, two 'lock' requests are never both granted (201) without the lock having been removed in between, whatever the number of concurrent processes, their interleaving, crashes and faults.", "quantifier": "all interleavings, crash points, faults, inputs", "why_tests_cant": "schedules cannot be enumerated", "anchors": ["scutiger-lfs/src/backend/local.rs: LockFile::write, LockFile::persist, LocalLockBackend::create", "scutiger-lfs/src/processor.rs: Processor::lock"]}
{"id": "C25", "title": "Lock life cycle", "statement": "With no concurrent process, locking a free path answers 201, locking a held path answers 409 naming the holder and changes nothing, unlocking by the returned id frees exactly that path, and unlocking an unknown id answers 404.", "quantifier": "all paths, all lock tables", "why_tests_cant": "all lock tables and histories", "anchors": ["scutiger-lfs/src/processor.rs: lock, unlock", "scutiger-lfs/src/backend/local.rs: create, from_path, from_id, LocalBackendLock::unlock"]}
{"id": "C26", "title": "locked-at is stable", "statement": "The locked-at time reported when a lock is granted is the one reported for that lock by later list-lock, lock-conflict and unlock answers.", "quantifier": "all clock behaviours", "why_tests_cant": "depends on the clock ticking between two reads", "anchors": ["scutiger-lfs/src/backend/local.rs: LocalLockBackend::create, LocalLockBackend::timestamp"]}
{"id": "C27", "title": "The lock command always answers", "statement": "A lock request never aborts the server process; it is always answered with a status.", "quantifier": "all directory states, interleavings and crash histories", "why_tests_cant": "needs a stale temporary file or a race", "anchors": ["scutiger-lfs/src/processor.rs: Processor::lock"]}
{"id": "C28", "title": "unlock touches only the named lock", "statement": "An unlock request can only remove the lock whose id was given, and its answer names that id.", "quantifier": "all byte strings as ids, all repositories", "why_tests_cant": "path-like ids are not tested", "anchors": ["scutiger-lfs/src/processor.rs: unlock", "scutiger-lfs/src/backend/local.rs: from_id, LocalBackendLock::unlock"]}
{"id": "C29", "title": "unlock removes the lock it reported", "statement": "When unlock answers 200, the lock removed is the one whose details are in the answer, even with concurrent clients.", "quantifier": "all interleavings", "why_tests_cant": "race between reading and removing", "anchors": ["scutiger-lfs/src/processor.rs: unlock", "scutiger-lfs/src/backend/local.rs: LocalBackendLock::unlock"]}
{"id": "C30", "title": "Lock listing is complete", "statement": "Following next-cursor until it is absent visits every held lock, in id order, and terminates, for every limit.", "quantifier": "all lock tables, all limits", "why_tests_cant": "unbounded tables", "anchors": ["scutiger-lfs/src/processor.rs: list_locks", "scutiger-lfs/src/backend/local.rs: LockSetIterator"]}
{"id": "C31", "title": "Pages respect the limit and do not overlap", "statement": "A list-lock answer contains at most limit locks and no lock occurs on two pages.", "quantifier": "all lock tables, all limits", "why_tests_cant": "off-by-one only visible with more than limit locks", "anchors": ["scutiger-lfs/src/processor.rs: list_locks"]}
{"id": "C32", "title": "Only granted locks are listed", "statement": "Every lock in a list-lock answer is a lock that has been granted and not removed.", "quantifier": "all reachable directory states", "why_tests_cant": "needs a crash or a concurrent lock request", "anchors": ["scutiger-lfs/src/backend/local.rs: LockSetIterator::next, from_id, LockFile"]}
{"id": "C33", "title": "Lock record round trip", "statement": "Parsing the record written for a lock returns the same time and path, for every path (including ':' and newlines) and every i64 time; anything not of that form is rejected.", "quantifier": "all paths, all i64", "why_tests_cant": "all byte strings", "anchors": ["scutiger-lfs/src/backend/local.rs: LocalBackendLock::parse, LocalLockBackend::create"]}
{"id": "C34", "title": "Lock records are always complete", "statement": "Whenever a lock is visible under its id, its record is complete and can be parsed, in every interleaving and after every crash.", "quantifier": "all interleavings and crash points", "why_tests_cant": "needs a three-process schedule", "anchors": ["scutiger-lfs/src/backend/local.rs: LockFile::new, write, persist, drop"]}
{"id": "C35", "title": "Every session terminates", "statement": "For every finite input the server stops, with exit status 0, 2 or an abort; no input makes it loop forever.", "quantifier": "all input byte strings, modes and repositories", "why_tests_cant": "all inputs", "anchors": ["scutiger-lfs/src/processor.rs: process_commands", "scutiger-core/src/pktline.rs: Reader"]}
{"id": "C36", "title": "Only complete requests are executed", "statement": "A request takes effect only if its terminating flush packet was received.", "quantifier": "all truncation points of all requests", "why_tests_cant": "all cut points", "anchors": ["scutiger-lfs/src/processor.rs: PktLineHandler::read_to_type", "scutiger-core/src/pktline.rs: ReaderIterator::next"]}
{"id": "C37", "title": "Crash atomicity of upload", "statement": "If the server dies at any point of an upload, the object store holds either exactly the old objects or exactly the old objects plus the complete new one.", "quantifier": "all crash points, all inputs", "why_tests_cant": "crash points", "anchors": ["scutiger-lfs/src/backend/local.rs: start_upload, finish_upload"]}
{"id": "C38", "title": "Crash atomicity of locking", "statement": "If a single server dies at any point of a lock request, the path is afterwards either free or held by a complete lock record, and a later lock or unlock request works.", "quantifier": "all crash points", "why_tests_cant": "crash points", "anchors": ["scutiger-lfs/src/backend/local.rs: LockFile, create", "scutiger-lfs/src/processor.rs: lock"]}
{"id": "C39", "title": "The answer stream is well formed", "statement": "For every input, the server's output up to an orderly end is a sequence of pkt-line responses, each a 'status NNN' line, argument lines, optionally a delim and data packets, and one final flush.", "quantifier": "all inputs, repositories, faults", "why_tests_cant": "all inputs", "anchors": ["scutiger-lfs/src/processor.rs: send_status, send_error", "scutiger-core/src/pktline.rs: Writer"]}
{"id": "C40", "title": "Stored file permissions", "statement": "After a successful upload the object's permission bits are exactly 0777 minus the effective umask, and the umask follows core.sharedRepository.", "quantifier": "all umasks and configuration values", "why_tests_cant": "configuration space", "anchors": ["scutiger-lfs/src/backend/local.rs: fix_permissions", "scutiger-lfs/src/bin/git-lfs-transfer.rs: set_permissions"]}
{"id": "C41", "title": "Status classes and exit codes", "statement": "Client mistakes are answered 400, server-side failures 500, and only a missing revision or a conflict leads to exit status 1; every other error exits 2.", "quantifier": "all errors", "why_tests_cant": "all error kinds in all contexts", "anchors": ["scutiger-lfs/src/processor.rs: process_commands", "scutiger-core/src/errors.rs: Error::exit_status, Error::io_kind"]}
{"id": "C42", "title": "git at finds the first match", "statement": "git at prints the first commit, in walk order from the start revision, whose message matches and (with --no-fixup) is not a fixup or squash commit; it reports no match only if there is none.", "quantifier": "all histories, patterns and options", "why_tests_cant": "histories are unbounded", "anchors": ["scutiger-bin/src/bin/git-at.rs: Program::run"]}
{"id": "C43", "title": "git at exit status and output", "statement": "git at exits 0 with exactly one id line on stdout, or 1 for no match (silent on stderr iff --quiet), or 2 with a message for any other failure even with --quiet.", "quantifier": "all outcomes and option combinations", "why_tests_cant": "all combinations", "anchors": ["scutiger-bin/src/bin/git-at.rs: Program::main", "scutiger-core/src/errors.rs: Error"]}
{"id": "C44", "title": "git at --summary searches only the first line", "statement": "With --summary a commit is reported only if the match begins in the first line of its message.", "quantifier": "all patterns and messages", "why_tests_cant": "pattern space is infinite", "anchors": ["scutiger-bin/src/bin/git-at.rs: Program::pattern"]}
{"id": "C45", "title": "git recent-refs order", "statement": "With committerdate or authordate the output is exactly the direct references to commits with valid names, each once, in non-increasing date order, ties in repository order.", "quantifier": "all reference sets", "why_tests_cant": "all permutations of refs", "anchors": ["scutiger-bin/src/bin/git-recent-refs.rs: Program::run"]}
{"id": "C46", "title": "git recent-refs visit order", "statement": "With visitdate the output is HEAD then every earlier visited ref or commit, most recent first, up to the end of the history.", "quantifier": "all reflog histories", "why_tests_cant": "unbounded reflogs", "anchors": ["scutiger-bin/src/bin/git-recent-refs.rs: Program::run, stringify"]}
{"id": "C47", "title": "Pager choice", "statement": "No pager is started when stdout is not a terminal or the choice is 'cat'; otherwise GIT_PAGER, then core.pager, then PAGER, then less is used.", "quantifier": "all environments and configurations", "why_tests_cant": "configuration space", "anchors": ["scutiger-bin/src/bin/pager/mod.rs: Pager::find_pager"]}
{"id": "C48", "title": "Response lines are single packets", "statement": "Each response line (status, argument, lock record line) is sent as one packet, so a client can parse lines packet by packet.", "quantifier": "all responses including the longest accepted lock path", "why_tests_cant": "needs a path of more than 65k bytes", "anchors": ["scutiger-lfs/src/processor.rs: PktLineHandler::send", "scutiger-lfs/src/backend.rs: Lock::as_arguments", "scutiger-lfs/src/backend/local.rs: as_lock_spec"]}
{"id": "C49", "title": "Output is flushed before the server waits", "statement": "After writing anything to its standard output the server flushes it successfully before it next reads from its standard input, and before it exits with status 0.", "quantifier": "all inputs, modes and configurations, and all sequences of results of system calls, failures included", "why_tests_cant": "a missing flush shows only as a deadlock with a client that waits, and only on the paths that a test happens to take; here every path is covered, including those after failed system calls", "anchors": ["scutiger-core/src/pktline.rs: Writer::write_packet", "scutiger-lfs/src/processor.rs: send_status", "scutiger-lfs/src/processor.rs: send_error", "scutiger-lfs/src/processor.rs: process_commands"]}
{"id": "C50", "title": "Output is always the beginning of well-formed answers", "statement": "At every moment, whatever other processes do, whichever system calls fail and wherever the server is killed or panics, the bytes a server has written are a prefix of its line of capabilities followed by well-formed answers; if it has ended with status 0 they are complete.", "quantifier": "all interleavings with any other processes, all inputs, all failures of system calls, all crash points and panics", "why_tests_cant": "crash points times failing calls times interleavings; in particular that no error path emits a second status line or text in the middle of an answer after a failure", "anchors": ["scutiger-core/src/pktline.rs: Writer::write_packet", "scutiger-core/src/pktline.rs: Writer::write", "scutiger-lfs/src/processor.rs: send_status", "scutiger-lfs/src/processor.rs: process_commands"]}
{"id": "C51", "title": "Servers change nothing outside their repositories", "statement": "Whatever clients send, servers create, remove, rename or change no name outside their lfs directories other than missing directories above them, and change contents, owner or permissions of no file that has a name outside.", "quantifier": "any number of servers for any set of repositories, all inputs, all interleavings, all failures of system calls, all crash points, all initial file systems in which no file has hard links both inside and outside", "why_tests_cant": "object ids, lock ids and paths come from the client; that no byte sequence in any of them makes a server write elsewhere is a statement about all inputs, and clean-up on error paths runs only when system calls fail", "anchors": ["scutiger-lfs/src/backend/local.rs: start_upload", "scutiger-lfs/src/backend/local.rs: finish_upload", "scutiger-lfs/src/backend/local.rs: fix_permissions", "scutiger-lfs/src/backend/local.rs: LocalBackendLock::unlock", "scutiger-lfs/src/backend/local.rs: LockFile"]}
{"id": "C52", "title": "Servers look only at files inside their repository", "statement": "Every path a server opens, stats or lists leads to something inside its lfs directory.", "quantifier": "all inputs, modes and configurations, all results of system calls, all arrangements of directories", "why_tests_cant": "needs the one input among all that leads outside; tests check the ids that clients are expected to send", "anchors": ["scutiger-lfs/src/backend/local.rs: LocalBackendLock::from_id", "scutiger-lfs/src/processor.rs: unlock", "scutiger-lfs/src/processor.rs: Oid::expected_path"]}
{"id": "C53", "title": "git at does what its options say", "statement": "The process searches from <revision> or HEAD, skips fixup and squash commits exactly with --no-fixup, prints the id of the first match on a line of its own or hands it to git show with --show, and exits 1 without output if there is none, with a message unless --quiet.", "quantifier": "all command lines, repositories, histories and patterns", "why_tests_cant": "all combinations of options with unbounded histories", "anchors": ["scutiger-bin/src/bin/git-at.rs: program", "scutiger-bin/src/bin/git-at.rs: Program::new", "scutiger-bin/src/bin/git-at.rs: Program::main", "scutiger-bin/src/bin/git-at.rs: Program::run"]}
{"id": "C54", "title": "git recent-refs does what --sort says", "statement": "The process prints, one on a line, the visited references by default or with --sort=visitdate, and with committerdate or authordate the references in the order of that date; if references cannot be read it prints only a message and fails.", "quantifier": "all command lines and repositories", "why_tests_cant": "reference sets and reflogs are unbounded", "anchors": ["scutiger-bin/src/bin/git-recent-refs.rs: sort_type", "scutiger-bin/src/bin/git-recent-refs.rs: program", "scutiger-bin/src/bin/git-recent-refs.rs: Program::main", "scutiger-bin/src/bin/git-recent-refs.rs: Program::run"]}
{"id": "C55", "title": "Without a repository nothing is done", "statement": "If there is no repository each program prints the reason on standard error, nothing on standard output, and exits 4; a server makes no system call. Otherwise the server works in the directory lfs of the git directory.", "quantifier": "all command lines and errors of libgit2", "why_tests_cant": "the tests call Program::main directly and never run main", "anchors": ["scutiger-bin/src/bin/git-at.rs: repo", "scutiger-bin/src/bin/git-recent-refs.rs: repo", "scutiger-lfs/src/bin/git-lfs-transfer.rs: repo", "scutiger-lfs/src/bin/git-lfs-transfer.rs: Program::new", "scutiger-lfs/src/bin/git-lfs-transfer.rs: main"]}
{"id": "C56", "title": "Help is available everywhere", "statement": "What --help, --version or a usage error print does not depend on whether there is a repository.", "quantifier": "all command lines that clap handles itself, all directories", "why_tests_cant": "needs the absence of a repository", "anchors": ["scutiger-bin/src/bin/git-at.rs: main", "scutiger-bin/src/bin/git-recent-refs.rs: main", "scutiger-lfs/src/bin/git-lfs-transfer.rs: main"]}
{"id": "C57", "title": "No command line makes a program panic", "statement": "No arguments make one of the three programs panic.", "quantifier": "all arguments", "why_tests_cant": "arguments are arbitrary bytes; tests use ASCII", "anchors": ["scutiger-bin/src/bin/git-at.rs: program", "scutiger-bin/src/bin/git-recent-refs.rs: program", "scutiger-bin/src/bin/git-recent-refs.rs: sort_type", "scutiger-lfs/src/bin/git-lfs-transfer.rs: program"]}
{"id": "C58", "title": "Every complete request gets the right answer, malformed ones a fixed one", "statement": "Any list of packets splits into complete requests and a rest that is no complete request (or begins with quit, an upload with a packet above the writer's limit, or an unlock id with a slash). On such complete requests, with unknown commands, missing or surplus words, missing newlines, wrong or repeated arguments and bad batch items among them, the server answers each as an abstract server: malformed requests get a fixed status and message decided by the first mistake and change nothing, all others the answer of C13.", "quantifier": "all modes, all lists of packets, all stored objects and locks", "why_tests_cant": "mistakes combine freely with each other and with what came before", "anchors": ["scutiger-lfs/src/processor.rs: Processor::process_commands", "scutiger-lfs/src/processor.rs: Processor::parse_args", "scutiger-lfs/src/processor.rs: Processor::read_batch", "scutiger-lfs/src/processor.rs: PktLineHandler::read_to_type"]}
{"id": "C59", "title": "Every line of an answer ends with a newline", "statement": "Every argument, line and message in an answer ends with a newline.", "quantifier": "all sessions", "why_tests_cant": "each message is made in another place", "anchors": ["scutiger-lfs/src/backend/local.rs: LocalBackend::verify", "scutiger-lfs/src/processor.rs: PktLineHandler::send_status"]}
{"id": "C60", "title": "Every input whatever is answered as specified", "statement": "Any sequence of bytes can be read as a sequence of requests, each complete, malformed, cut by the end of the input or broken by four bytes that are no packet header, followed by the end of the input, quit, or four bytes that are no header. On any such input the server gives one answer to each request, the answer of an abstract server: a cut request counts as if its closing packets were there unless it is an upload, cut uploads and broken requests get a fixed status and message and change nothing. The session ends with success, or with the error for a malformed header if that stood where a request should begin. Only the unlocking of an id with a slash is left out: what comes before it is answered as stated.", "quantifier": "all modes, all sequences of bytes on standard input, all stored objects and locks", "why_tests_cant": "the inputs are all byte strings; which reader meets a cut or a bad header depends on all bytes before", "anchors": ["scutiger-lfs/src/processor.rs: Processor::process_commands", "scutiger-lfs/src/processor.rs: PktLineHandler::read_to_type", "scutiger-core/src/pktline.rs: Packet::read", "scutiger-lfs/src/backend/local.rs: LocalBackend::start_upload"]}
{"id": "C61", "title": "After a malformed packet header nothing more is carried out", "statement": "Once four bytes stand in the place of a packet header that are no header, no byte after them is taken as a request.", "quantifier": "all inputs, all places of the malformed header", "why_tests_cant": "a test has the bad header in one place, and would have to follow it with something that happens to be a request", "anchors": ["scutiger-core/src/pktline.rs: Packet::read", "scutiger-lfs/src/processor.rs: Processor::process_commands", "scutiger-lfs/src/processor.rs: PktLineHandler::read_to_type"]}
{"id": "C62", "title": "A program waits for the programs it starts", "statement": "git at and git recent-refs end only after every program they started (git show, the pager) has ended.", "quantifier": "all command lines, repositories and environments", "why_tests_cant": "the tests run without a terminal, so that no pager is ever started", "anchors": ["scutiger-bin/src/bin/git-recent-refs.rs: main", "scutiger-bin/src/bin/pager/mod.rs: Pager::new", "scutiger-bin/src/bin/git-at.rs: Program::main"]}
{"id": "C63", "title": "git recent-refs writes to the right place and stops with its reader", "statement": "The lines go one by one to the pager if one is used and to standard output if not, errors go to standard error. If a write fails, nothing more is written: the process dies of SIGPIPE if nobody reads any more. What was written before is the beginning of the full output.", "quantifier": "all sort orders, repositories, pager settings and all points where writing fails", "why_tests_cant": "any write may be the one that fails; a lazy list may have no end", "anchors": ["scutiger-bin/src/bin/git-recent-refs.rs: Program::main, setup, main", "scutiger-bin/src/bin/pager/mod.rs: Pager::stdout"]}
{"id": "C64", "title": "git at does not panic because of its surroundings", "statement": "Whatever happens to its output and to git show, git at does not panic.", "quantifier": "all options, repositories, results of writing and of starting git", "why_tests_cant": "tests write to a buffer in memory", "anchors": ["scutiger-bin/src/bin/git-at.rs: Program::main, repo"]}
{"id": "C65", "title": "Every input whatever is answered, ids with a slash included", "statement": "As C60 for every sequence of bytes without exception: the unlocking of an id with a slash reads whatever file that path leads to (an object for ../objects/.., a lock for ../locks/..), takes its text as a lock record, removes the lock of the path in it if there is one and reports what it read; it is answered 404 if there is no such file or lock, 400 if the text is no record, 500 if the path cannot be read. Only a record with a time that is no date ends the session, by a panic, with all earlier requests answered.", "quantifier": "all byte sequences, modes, repository states, users, clocks, read sizes", "why_tests_cant": "ids are arbitrary paths, and what they lead to is arbitrary", "anchors": ["scutiger-lfs/src/processor.rs: process_commands, unlock", "scutiger-lfs/src/backend/local.rs: from_id, unlock"]}
{"id": "C66", "title": "No input makes the transfer server panic", "statement": "On a repository as the server keeps it, no input makes git-lfs-transfer panic.", "quantifier": "all byte sequences and repository states", "why_tests_cant": "a panic needs one particular kind of input", "anchors": ["scutiger-lfs/src/backend/local.rs: formatted_timestamp, from_id", "scutiger-lfs/src/processor.rs: unlock"]}
{"id": "C67", "title": "Answers about objects are right at a moment, whatever other servers do", "statement": "While any number of servers work on the same repository, interleaved, failing and dying in any way, a server whose own system calls succeed answers each request about objects (version, batch, put-object, verify-object, get-object) as the abstract server would for the objects stored at one moment between reading the request and writing the answer, in the order of the requests; an upload it accepts is stored at the next moment; for a batch each line has its own moment. It never ends otherwise than with success.", "quantifier": "all schedules, numbers of servers, crashes and failures of the others, request sequences, repository states", "why_tests_cant": "the interleavings of several processes' system calls cannot be enumerated", "anchors": ["scutiger-lfs/src/processor.rs: process_commands", "scutiger-lfs/src/backend/local.rs: batch, start_upload, finish_upload, verify, download"]}
{"id": "C68", "title": "The answer to a batch is a picture of one moment", "statement": "All lines of the answer to a batch request are true together at one moment.", "quantifier": "all schedules and batches", "why_tests_cant": "it needs another server to store two objects between two calls", "anchors": ["scutiger-lfs/src/backend/local.rs: batch"]}
{"id": "C69", "title": "An acknowledged upload is seen by every server", "statement": "When a server has written its answer to an upload of the right size and hash, the object is in the repository at every later moment; every server that has not yet read a request for it answers it as present: get-object sends its bytes, verify-object compares its size, batch says noop for an upload and download for a download. The bytes are those uploaded unless the hash function has a collision.", "quantifier": "all schedules, pairs of servers, crashes and failures of other servers, request sequences", "why_tests_cant": "read-after-write must hold for every interleaving", "anchors": ["scutiger-lfs/src/backend/local.rs: finish_upload, download, verify, batch", "scutiger-lfs/src/processor.rs: put_object, get_object, verify_object, batch"]}
{"id": "C70", "title": "No server can be made to wait for ever by others", "statement": "A server that is not killed and gets its turn again and again answers all its requests about objects and ends with exit status 0, whatever other servers on the same repository do, and wherever they fail or die.", "quantifier": "all endless schedules fair to the server, all other servers, request sequences, repository states", "why_tests_cant": "liveness is about endless schedules", "anchors": ["scutiger-lfs/src/processor.rs: process_commands", "scutiger-lfs/src/backend/local.rs"]}
{"id": "C71", "title": "The server stays in step when system calls fail", "statement": "When a system call fails while a request is carried out, the request gets one answer, and the packets of the request are not taken for further commands.", "quantifier": "all failures of system calls, all inputs, all repository states", "why_tests_cant": "each call of each request would have to fail once, with the stream positions checked", "anchors": ["scutiger-lfs/src/processor.rs: process_commands, put_object", "scutiger-lfs/src/backend/local.rs: start_upload"]}
{"id": "C72", "title": "An upload answered with 200 is stored, whatever fails", "statement": "When any server, next to any others, while any system calls of any of them fail or are cut short by kills, answers a put-object with 200, the object is in the repository from then on and its content has the requested hash.", "quantifier": "all schedules, failures and kills, all servers on one repository, all uploads", "why_tests_cant": "needs every interleaving together with every failure", "anchors": ["scutiger-lfs/src/processor.rs: put_object", "scutiger-lfs/src/backend/local.rs: finish_upload, fix_permissions"]}
{"id": "C73", "title": "An upload that is refused leaves the objects as they were, whatever fails", "statement": "When a put-object is answered with anything but 200, every object of the repository is what it was before.", "quantifier": "all failures of system calls, all uploads, all repository states", "why_tests_cant": "each call of an upload would have to fail once", "anchors": ["scutiger-lfs/src/processor.rs: put_object", "scutiger-lfs/src/backend/local.rs: start_upload, finish_upload, fix_permissions"]}
{"id": "C74", "title": "Answers about locks next to other servers are right at moments", "statement": "When a server works on a repository next to any other servers, every answer to lock, list-lock and unlock is made of findings each of which was so at a moment between request and answer, in the order in which the code looks: a 201 means that the name of the lock was free and then its own, a 409 that the lock file was opened with the record told and its name then belonged to the owner told, a 404 that the name was free, a 200 to unlock that the file was there and then gone, a listing that the names were those in the directory at one moment and each record was read after it. The server gives up only when a lock in its way was gone when looked for or a time cannot be displayed.", "quantifier": "all schedules of any number of servers with kills and failures of the others, all lists of requests", "why_tests_cant": "needs every interleaving of every session", "anchors": ["scutiger-lfs/src/processor.rs: lock, list_locks_for_path, list_locks, unlock", "scutiger-lfs/src/backend/local.rs: create, from_path, from_id, iter, unlock"]}
{"id": "C75", "title": "The description of a lock is a picture of one moment", "statement": "When a server tells a lock's time and owner, there was a moment at which a lock with this time and this owner was there.", "quantifier": "all schedules of any number of servers", "why_tests_cant": "a race between reading the record and looking up the owner", "anchors": ["scutiger-lfs/src/backend/local.rs: from_path, ownername, read"]}
{"id": "C76", "title": "A server never has to wait, locks included", "statement": "A server that is not killed and gets its turn again and again comes to its end whatever requests it is sent and whatever the other servers do: it has answered all of them and exits with success, or has given up for a reason that can be named.", "quantifier": "all fair endless schedules, any servers, all lists of requests", "why_tests_cant": "endless schedules", "anchors": ["scutiger-lfs/src/processor.rs: process", "scutiger-lfs/src/backend/local.rs: create"]}
{"id": "C77", "title": "One lock at a time, as the clients see it", "statement": "When one server has written a 201 for a lock on a path and another server reads a request for the same path after that and writes a 201 too, then the lock was removed at a step between: after the first server read its request and before the end.", "quantifier": "all schedules of any number of servers with kills and failures of the others, all lists of requests, any two servers and requests", "why_tests_cant": "needs every interleaving of two sessions with others", "anchors": ["scutiger-lfs/src/processor.rs: lock", "scutiger-lfs/src/backend/local.rs: create"]}
{"id": "C78", "title": "A standing lock is seen by all", "statement": "While a lock stands, whatever server reads a request tells of it: a lock request for its path is answered with 409 and the lock's owner and time (or fails with 500), a list-lock for its path has exactly it, a list of all locks with no further page has it, and no unlock of it is answered.", "quantifier": "all schedules of any number of servers, all lists of requests, any standing lock", "why_tests_cant": "needs every interleaving", "anchors": ["scutiger-lfs/src/processor.rs: lock, list_locks_for_path, list_locks, unlock", "scutiger-lfs/src/backend/local.rs: create, from_path, from_id, iter, unlock"]}
{"id": "C79", "title": "Every answer when calls to the file system fail", "statement": "While calls to the file system fail (any calls but reading requests, writing answers, removing temporary files and, beside uploads, creating and writing temporary files; any number of them, for any reason other than a false report that a file is or is not there), the server never panics, and each answer is either the right one, an error that leaves objects and locks as they are (or, for an upload, has stored the right object), or one of a few named deviations: an owner given as unknown, an object taken for missing in a batch, a lock left out of a listing, an unlock forbidden. It ends early only by saying nothing at all or in the middle of the data of a download.", "quantifier": "all lists of requests, all contents, all choices of failing calls", "why_tests_cant": "needs every combination of failing calls", "anchors": ["scutiger-lfs/src/processor.rs: all commands", "scutiger-lfs/src/backend/local.rs: all methods", "scutiger-lfs/src/bin/git-lfs-transfer.rs: run"]}
{"id": "C80", "title": "A batch tells the truth when calls fail", "statement": "When calls to the file system fail, a batch that is answered with 200 still says of every object rightly whether it is stored and how large it is.", "quantifier": "all lists of requests, all choices of failing calls", "why_tests_cant": "needs failing calls at exact places", "anchors": ["scutiger-lfs/src/processor.rs: read_batch", "scutiger-lfs/src/backend/local.rs: batch"]}
{"id": "C81", "title": "A listing is complete when calls fail", "statement": "When calls to the file system fail, a list-lock that is answered with 200 and without next-cursor still has all locks from the cursor on, each once and in order.", "quantifier": "all lists of requests, all choices of failing calls", "why_tests_cant": "needs failing calls at exact places", "anchors": ["scutiger-lfs/src/processor.rs: list_locks", "scutiger-lfs/src/backend/local.rs: iter, from_id"]}
{"id": "C82", "title": "Only acknowledged changes to locks, whatever fails", "statement": "Whatever calls fail as in C79: a lock appears only by a lock request answered with 201 and vanishes only by an unlock answered with 200; objects stay; an upload answered with 200 is stored; no object is there that was not there or uploaded with the right hash; all requests are answered if the server ends well.", "quantifier": "all lists of requests, all choices of failing calls", "why_tests_cant": "needs every combination of failing calls", "anchors": ["scutiger-lfs/src/backend/local.rs: create, unlock, finish_upload", "scutiger-lfs/src/processor.rs: lock, unlock, put_object"]}
{"id": "C83", "title": "A server whose client is gone stops at once", "statement": "When a write to the client or a flush of the output fails, the server makes no further call of any kind: it reads no more requests and changes nothing. It ends with exit status 2 and a message on standard error.", "quantifier": "all inputs, all answers of the system to every call, any interleaving with other processes", "why_tests_cant": "every write of every answer may fail", "anchors": ["scutiger-lfs/src/processor.rs: process_commands, send_status, send_error", "scutiger-lfs/src/bin/git-lfs-transfer.rs: main"]}
{"id": "C84", "title": "Answers about locks, whatever is in the directory of locks", "statement": "Whatever files and directories the directory of locks contains (damaged or foreign files, directories, names that are not UTF-8, drafts left by servers that were killed), a session of lock, list-lock and unlock requests is answered exactly as a table tells from the contents of the directory: a file that is no lock is refused with 400, a directory is an internal error 500, and only a leftover draft of a path that is not locked makes the server panic at the request to lock that path, after removing the draft. Each request changes the directory as the table tells, and nothing else.", "quantifier": "all contents of the directory of locks, all lists of requests about locks", "why_tests_cant": "the directory may hold anything under any name", "anchors": ["scutiger-lfs/src/backend/local.rs: create, lock_from_id, lock_from_path, unlock, list_locks", "scutiger-lfs/src/processor.rs: lock, unlock, list_locks"]}
{"id": "C85", "title": "Clutter in the directory of locks changes nothing", "statement": "If besides the records of the locks the directory holds only entries that are neither records nor named like a lock or a draft, and no request names such an entry, then every answer is that of the abstract server of C13 for the locks alone, the server ends well, and the clutter stays as it is.", "quantifier": "all sets of locks, all clutter, all lists of requests about locks", "why_tests_cant": "any number of entries of any kind, in any place of the order of names", "anchors": ["scutiger-lfs/src/backend/local.rs: list_locks, lock_from_id", "scutiger-lfs/src/processor.rs: list_locks"]}
{"id": "C86", "title": "Nothing in the directory hides a lock from a listing", "statement": "Whatever the directory of locks contains, a listing without path, cursor and limit of a directory of at most one hundred entries answers 200 and shows every lock, with its owner and time, provided the times of all records can be shown.", "quantifier": "all contents of the directory of locks with at most 100 entries", "why_tests_cant": "a single bad entry before, between or after the locks might end the listing", "anchors": ["scutiger-lfs/src/backend/local.rs: list_locks", "scutiger-lfs/src/processor.rs: list_locks"]}
{"id": "C87", "title": "Every change a server makes has its reason", "statement": "Whatever the operating system answers, each call a server makes that could change something follows from the calls before it: the four directories are made only at the start; a temporary file is made only for a well-formed object id and when no earlier file of the server is left; a file is renamed only if everything written to it, all with success, hashes to its new name; a lock file is linked only right after a new draft received the whole record; a lock file is unlinked only after a record naming its path was read.", "quantifier": "all programs of answers of the system, all inputs, all prefixes of an execution", "why_tests_cant": "the answers of the system, including absurd ones and failures at every call, cannot be enumerated", "anchors": ["scutiger-lfs/src/backend/local.rs: finish_upload", "scutiger-lfs/src/backend/local.rs: LockFile", "scutiger-lfs/src/backend/local.rs: Lock::create, unlock", "scutiger-lfs/src/bin/git-lfs-transfer.rs: create_directories"]}
{"id": "C88", "title": "No temporary file is forgotten", "statement": "Whatever the operating system answers, before a server writes anything to its client, before it makes another file, and when it ends (other than by a panic or by being killed), it has tried to remove every temporary file and every draft of a lock it had, except temporary files that were successfully renamed to their place.", "quantifier": "all answers of the system, all inputs, all executions", "why_tests_cant": "there are many ways out of an upload or a lock, each with its own failing call", "anchors": ["scutiger-lfs/src/backend/local.rs: start_upload, finish_upload", "scutiger-lfs/src/backend/local.rs: Drop for LockFile"]}
{"id": "C89", "title": "A server removes only files of its own", "statement": "Every file a server removes, other than the file of a lock it was asked to remove, was made by that server.", "quantifier": "all answers of the system, all inputs", "why_tests_cant": "needs a second server, or a server that was killed, between two calls", "anchors": ["scutiger-lfs/src/backend/local.rs: LockFile::new, Drop for LockFile", "scutiger-lfs/src/backend/local.rs: Lock::create"]}
{"id": "C90", "title": "A damaged object is noticed", "statement": "An object whose stored contents do not have the hash that is its name, after a power failure or by a bad disk, is not given out as that object, and a client that offers it is asked to upload it.", "quantifier": "all repositories with damaged objects, all sessions", "why_tests_cant": "tests only see stores the server itself has written", "anchors": ["scutiger-lfs/src/backend/local.rs: download, verify, batch", "scutiger-lfs/src/processor.rs: batch, get_object"]}
{"id": "C91", "title": "Damage to some objects does not spread", "statement": "Whatever is stored in place of some objects, requests that do not name them are answered as if these objects were what they should be, and leave them as they are.", "quantifier": "all sets of objects, all contents, all sessions of well-formed requests", "why_tests_cant": "all combinations of damage and requests", "anchors": ["scutiger-lfs/src/backend/local.rs", "scutiger-lfs/src/processor.rs"]}
{"id": "C92", "title": "An upload repairs a damaged object", "statement": "Whatever is stored in place of an object, an upload of the right contents is answered 200, and from then on all answers and the state of the repository are those of a repository in which the object was never damaged.", "quantifier": "all damaged contents, all sessions before and after", "why_tests_cant": "all contents, all later requests", "anchors": ["scutiger-lfs/src/backend/local.rs: start_upload, finish_upload"]}
{"id": "C93", "title": "First things first", "statement": "A server reads nothing from its client and opens or makes no file before it has settled the umask, made its four directories and told the client its version, all without an error.", "quantifier": "all configurations, operations, inputs and failing system calls", "why_tests_cant": "a failure of any of the calls at the beginning, in any combination, must stop the server", "anchors": ["scutiger-lfs/src/bin/git-lfs-transfer.rs: Program::run, create_directories, send_capabilities, set_permissions"]}
{"id": "C94", "title": "Other operations are refused", "statement": "With an operation other than upload and download a server makes no other calls than those of its beginning, reads nothing from its client, and fails with status 2 and the message about an unknown command or operation, unless one of these calls has failed.", "quantifier": "all operations, configurations and failing system calls", "why_tests_cant": "all strings but two", "anchors": ["scutiger-lfs/src/bin/git-lfs-transfer.rs: Program::run"]}
{"id": "C95", "title": "Every answer is the one its calls call for", "statement": "Whatever the client sends and however each system call ends: after its beginning a server does nothing but handle requests one after the other, and for each request the calls it makes (their order, paths, contents and permissions) and every byte of its answer are those determined by the packets read and by the results of these calls, including every kind of error; nothing of a request reaches a later answer but the bytes of an upload that was given up, and the server exits with status 0 only after quit or at an end of the input before a request.", "quantifier": "all inputs, modes, configurations, sequences of requests and results of system calls", "why_tests_cant": "every call of every request can fail in every way, in every combination", "anchors": ["scutiger-lfs/src/processor.rs: Processor::process_commands and all handlers", "scutiger-lfs/src/backend/local.rs: all operations", "scutiger-core/src/pktline.rs: read_packet, write_packet"]}
{"id": "C96", "title": "What a server says of objects is so", "statement": "However system calls end and whoever is killed: when a server among any others on a repository in order answers an upload with 200, the bytes sent are stored under their name from then on; when it confirms the size of an object, the object is stored and has this size; what it sends as an object are exactly the bytes with this name, with their number in the size argument; and the objects a batch calls present are stored with the size it gives. All this for every answer of the session, at every later time.", "quantifier": "all numbers of servers, schedules, failures of calls, crashes, inputs and sessions", "why_tests_cant": "the answers would have to be compared with the repository at every later moment of every schedule, with every call failing in every way", "anchors": ["scutiger-lfs/src/processor.rs: Processor::process_commands and the handlers of put-object, verify-object, get-object and batch", "scutiger-lfs/src/backend/local.rs: start_upload, finish_upload, verify, download, batch"]}
{"id": "C97", "title": "Text is written and read as the standards say", "statement": "Numbers are written in decimal without sign or needless zero, digests with two lower-case hexadecimal digits for each byte; an id is taken for UTF-8 exactly if it is, by the Unicode Standard's table; what is not UTF-8 is repaired by replacing maximal subparts with U+FFFD, so that the result is UTF-8 and UTF-8 is left alone; values quoted in error messages are byte-string literals that denote the value and nothing else; ids are compared in dictionary order; lines are cut at every space, lock records at the first two colons; and parsing a number from repaired text is parsing it from the bytes.", "quantifier": "all byte strings and all numbers", "why_tests_cant": "the ranges of UTF-8 lead and continuation bytes, surrogates and overlong forms make too many cases, and there are infinitely many numbers and strings", "anchors": ["scutiger-lfs/src/processor.rs: 147, 156, 194, 304-308, 330, 377, 390-402, 630, 677 (format!, hex::encode, from_utf8, from_utf8_lossy, split)", "scutiger-lfs/src/backend/local.rs: 218-229 (hex::encode, splitn, from_utf8, parse)"]}
{"id": "C98", "title": "Answered uploads and locks survive a failure of the power", "statement": "After a failure of the power, an upload answered with 200, a lock answered with 201 and an unlock answered with 200 still stand; objects and locks that were there before and were left alone are as they were; and the repository is one that servers can go on with.", "quantifier": "all numbers of servers, all interleavings, crashes and failing calls, and all file systems that the failure may leave: each name as it was at any time since, each file written since with any contents", "why_tests_cant": "tests do not cut the power, and what a disk holds afterwards depends on the kernel; the kept part is about every interleaving and every possible remainder", "anchors": ["scutiger-lfs/src/backend/local.rs: 85-107 (finish_upload: persist without fsync)", "scutiger-lfs/src/backend/local.rs: 164-200 (LockFile: write_all, flush, hard_link without fsync)", "scutiger-lfs/src/backend/local.rs: 246-253 (unlock: remove_file)"]}
{"id": "C99", "title": "What is said of locks was so, whatever fails", "statement": "Every answer about locks that a server writes was so while it worked on the request: a lock answered with 201 got the free name of the lock in one step; a lock told of in a 409 or a list had its name, its record and its owner; a list has all locks under the names the directory had at one moment that were still there and could be read; a lock answered as removed was removed by this server after it had read the record it tells of; a lock answered with 404 was not there, unless the system said so when a call failed. A lock that has its name keeps it until its file is removed.", "quantifier": "all numbers of servers, all interleavings, all crashes and failing calls, of the answering server too, and all inputs", "why_tests_cant": "needs every interleaving of several processes with every combination of failing calls", "anchors": ["scutiger-lfs/src/backend/local.rs: 150-455 (LockFile, LocalLockBackend)", "scutiger-lfs/src/processor.rs: 523-660 (lock, list_locks, unlock)"]}
{"id": "C100", "title": "Damage neither spreads nor comes back, whatever fails", "statement": "Whatever is stored under the names of objects when servers begin, as after a failure of the power: what is stored under such a name stays as it is or gives way, for good, to the object with this name; nothing is removed, and nothing wrong is added. An upload answered with 200 is stored with the right contents whatever was there before, and what a server sends, lists or confirms is the object with this name or what was stored under it at the beginning. After a further failure of the power this holds again.", "quantifier": "all contents of stored objects, all numbers of servers, all interleavings, all crashes and failing calls, all inputs", "why_tests_cant": "needs every damaged store with every interleaving of several processes and every combination of failing calls", "anchors": ["scutiger-lfs/src/backend/local.rs: 42-145 (start_upload, finish_upload, download, verify, batch)", "scutiger-lfs/src/processor.rs: put_object, verify_object, get_object, batch"]}
{"id": "C101", "title": "Objects removed by others: nothing but removal happens, and no wrong bytes are sent", "statement": "Besides any number of servers, programs that remove objects, such as `git lfs prune`, may be at work. Objects disappear only where such a program removed them; what is stored under the name of an object is that object or was there before. An upload answered with 200 is stored in the end, or was removed after the server had moved it to its place. What a server sends, lists or confirms is the object with this name, or what was stored under it at the beginning, in full even if it is removed while it is sent.", "quantifier": "all numbers of servers and of programs removing objects at any time, all interleavings, all crashes and failing calls, all inputs, all contents of stored objects", "why_tests_cant": "needs removals at every point of every interleaving of several processes, with every combination of failing calls", "anchors": ["doc/man/git-lfs-transfer.adoc: 17-21", "scutiger-lfs/src/backend/local.rs: 42-145 (start_upload, finish_upload, download, verify, batch)", "scutiger-lfs/src/processor.rs: put_object, verify_object, get_object, batch"]}
{"id": "C102", "title": "What a client pushes is there for the others to fetch", "statement": "A client that sends a batch, uploads each object the server asks for, and has got its answers, has every object of the batch in the repository from then on, with the right contents, whether the server had it or asked for it: each object of the batch was either said to be there or asked for, and each upload was answered with 200. Whatever request about these objects a server reads after that, get-object sends the bytes, verify-object confirms the size, and batch says that the object is there.", "quantifier": "any batches and uploads in any order, any repository in order, any number of other servers, any interleaving, the others failing and dying anywhere", "why_tests_cant": "that nothing is lost between the answer noop for an object and the end of the push depends on what every other process may do in between", "anchors": ["scutiger-lfs/src/processor.rs:363-448", "scutiger-lfs/src/processor.rs:463-521", "scutiger-lfs/src/backend/local.rs"]}
{"id": "C103", "title": "Where objects come from", "statement": "With any number of servers at work on a repository, in either operation, beside programs that remove objects, what is stored under the name of an object was there before, or one of the servers that take uploads put it there: in one of its rounds a client named it and its size and sent bytes with this name and this size, and the answer was 200, or 500 because the permissions could not be set; or the server has not finished the answer of the round in which it did so. Between two moments nothing appears or changes that was not put in its place in between. Where no server takes uploads, no object appears or changes.", "quantifier": "all numbers of servers and of programs removing objects, all interleavings, all crashes and failing calls, all inputs, all contents of stored objects", "why_tests_cant": "that no other request, failure or interleaving puts anything in the store is a statement about all of them", "anchors": ["scutiger-lfs/src/backend/local.rs: 42-145 (start_upload, finish_upload)", "scutiger-lfs/src/processor.rs:463-521", "scutiger-lfs/src/bin/git-lfs-transfer.rs"]}
{"id": "C104", "title": "Where locks come from and where they go", "statement": "With any number of servers at work on a repository, a file gets the name of the lock on a path only by a server that takes uploads, in a round in which its client asked for a lock on this path and was told with 201 that it has it, or in a round whose answer is not finished; and it loses the name only by such a server in a round in which the client asked for the removal of a lock and was told with 200 that the lock on this path is removed, or in a round whose answer is not finished. No other request, failure or answer makes or removes a lock.", "quantifier": "all numbers of servers, all interleavings, all crashes and failing calls, all inputs, all contents of the directory of locks", "why_tests_cant": "that nothing else makes or removes a lock is a statement about all requests, failures and interleavings", "anchors": ["scutiger-lfs/src/backend/local.rs: 150-330 (LockFile, Lock)", "scutiger-lfs/src/processor.rs:523-560,628-660 (lock, unlock)"]}
{"id": "C105", "title": "Which objects there are in the end", "statement": "With any number of servers at work on a repository from which nothing else removes objects, an object is there at a later moment if and only if it was there before or one of the servers put it in its place in between. So the objects in the end are those of the beginning together with those which a client sent in an upload that was answered with 200, or with 500 because the permissions could not be set, or whose answer is not finished. The order in which they were sent, the servers that took them, and all other requests do not matter: where the same objects are put in their places from the same beginning, the same objects are there, with contents of the same hash.", "quantifier": "all numbers of servers, all interleavings, all crashes and failing calls, all inputs", "why_tests_cant": "an equivalence over all histories; tests see single orders", "anchors": ["scutiger-lfs/src/backend/local.rs: 42-145 (start_upload, finish_upload)", "scutiger-lfs/src/processor.rs:463-521"]}
{"id": "C106", "title": "One lock at a time, whatever fails", "statement": "With any number of servers at work on a repository, there is a lock on a path at a moment if and only if the last call that made or removed it made it, or there was no such call and it was there to begin with. Between two calls that make it there is one that removes it, in a round in which a client asked for a removal and was told with 200 that it is removed, or whose answer is not finished, and between two that remove it there is one that makes it. So if two clients are told with 201 that they have the lock on a path, one after the other, it was removed in between in such a round.", "quantifier": "all numbers of servers, all interleavings, all crashes and failing calls, all inputs, all contents of the directory of locks", "why_tests_cant": "that no failing call or interleaving gives the same lock out twice is a statement about all of them", "anchors": ["scutiger-lfs/src/backend/local.rs: 150-330 (LockFile, Lock)", "scutiger-lfs/src/processor.rs:523-560,628-660 (lock, unlock)"]}
{"id": "C107", "title": "A lock is removed only for its owner", "statement": "A request of a client to remove a lock that belongs to another user, as the server itself tells in its listing, is refused unless the client asks for the lock of someone else to be removed.", "quantifier": "all users, all lists of requests, all contents of the repository", "why_tests_cant": "needs servers of several users", "anchors": ["scutiger-lfs/src/processor.rs:628-657 (unlock)", "scutiger-lfs/src/backend/local.rs: 237-243 (current_user), unlock"]}
{"id": "C108", "title": "Objects that are put and removed, in order", "statement": "With any number of servers at work on a repository beside any number of programs that may remove objects at any time, an object is there at a later moment if and only if, of the calls made in between, the last one that put it in its place or removed it put it there, or there was no such call and it was there before. An object that is removed twice was put in its place in between.", "quantifier": "all numbers of servers and of removing programs, all interleavings, all crashes and failing calls, all inputs", "why_tests_cant": "an equivalence over all histories of several processes; tests see single orders", "anchors": ["scutiger-lfs/src/backend/local.rs: 42-145 (start_upload, finish_upload)", "scutiger-lfs/src/processor.rs:463-521"]}
