{
 "claims": [
  {
   "property": "C01",
   "status": "proved",
   "theorems": [
    "C01_packet_round_trip"
   ],
   "note": "All packet sequences, all following input."
  },
  {
   "property": "C02",
   "status": "proved",
   "theorems": [
    "C02_stream_round_trip"
   ],
   "note": "All buffers and all sequences of non-empty caller buffers."
  },
  {
   "property": "C03",
   "status": "partial",
   "theorems": [
    "C03_header_syntax_refuted",
    "C03_hex_header_partial",
    "C03_bad_header_partial"
   ],
   "note": "REFUTED: the digit ranges are inclusive of one character too many, so \":\" counts as ten and \"g\" as sixteen, and \"g000\" wraps to a flush packet. Proved instead: four lower-case digits are always read as that number, and a header with a character outside 0-9 : a-g is always rejected."
  },
  {
   "property": "C04",
   "status": "partial",
   "theorems": [
    "C04_size_limit_refuted",
    "C04_read_limit_partial",
    "C04_packet_bound_partial"
   ],
   "note": "REFUTED: read_packet accepts a 65535-byte packet that Reader::read rejects. Proved instead: Reader::read rejects everything over 65520, and read_packet never returns more than 65531 payload bytes."
  },
  {
   "property": "C05",
   "status": "proved",
   "theorems": [
    "C05_fragmentation"
   ],
   "note": "For every program of the model and every fragmentation of its input."
  },
  {
   "property": "C06",
   "status": "partial",
   "theorems": [
    "C06_no_loss_refuted",
    "C06_no_loss_partial",
    "C06_buffer_ok"
   ],
   "note": "REFUTED: a read with an empty caller buffer returns 0 and discards the bytes pending in the reader. Proved instead for non-empty buffers from every reachable buffer state."
  },
  {
   "property": "C07",
   "status": "proved",
   "theorems": [
    "C07_end_of_data"
   ],
   "note": ""
  },
  {
   "property": "C08",
   "status": "proved",
   "theorems": [
    "C08_truncation",
    "C08_read_truncation"
   ],
   "note": "Every cut of every encoded packet."
  },
  {
   "property": "C09",
   "status": "proved",
   "theorems": [
    "C09_argument_round_trip"
   ],
   "note": ""
  },
  {
   "property": "C10",
   "status": "proved",
   "theorems": [
    "C10_parser_total_strict"
   ],
   "note": ""
  },
  {
   "property": "C100",
   "status": "proved",
   "theorems": [
    "C100_damage_does_not_spread",
    "C100_answers",
    "C100_after_power"
   ],
   "note": "Among any servers, with failing calls and crashes, whatever the objects hold at first; all else is in order, as it is after a failure of the power (C98_order_partial). Stored bytes are the same as those seen, unless the hash has a collision."
  },
  {
   "property": "C101",
   "status": "proved",
   "theorems": [
    "C101_only_removed",
    "C101_store",
    "C101_answers"
   ],
   "note": "Among any servers and any programs that remove objects, with failing calls and crashes, whatever the objects hold at first. These programs remove files of objects and read what they like; they write no files. Stored bytes are the same as those seen, unless the hash has a collision."
  },
  {
   "property": "C102",
   "status": "proved",
   "theorems": [
    "C102_push",
    "C102_fetch"
   ],
   "note": "The system calls of the server the client talks to, and of the server that is asked later, succeed; those of the others may fail. The requests are any list; that the client uploads what it is asked for is a relation between its requests and the answers it gets. That sessions come to an end: C70, C76; what holds if calls fail: C96."
  },
  {
   "property": "C103",
   "status": "proved",
   "theorems": [
    "C103_placed",
    "C103_brought",
    "C103_between",
    "C103_fetchers"
   ],
   "note": "Bytes left over from an upload that failed are part of what the next upload stores, so the bytes with the name and the size may begin with these, but only if writing them failed earlier in the session (old in SpecWho.v). In C103_brought the answer that is not finished is the last of the server. The configuration of the servers can be read (as in C95)."
  },
  {
   "property": "C104",
   "status": "proved",
   "theorems": [
    "C104_calls",
    "C104_comes",
    "C104_goes"
   ],
   "note": "The lock is known by the name of its file, the hash of its path: the path in the request and in the answer has the same hash. The file that gets the name may be the draft of another server (C34), and the record read by an unlock may be in a file with another name (C28); what the answers say of them is in C99. The configuration of the servers can be read (as in C95)."
  },
  {
   "property": "C105",
   "status": "proved",
   "theorems": [
    "C105_between",
    "C105_exactly",
    "C105_order"
   ],
   "note": "What is put in its place is a successful rename to the name of the object (placed in SpecWho.v); C103 says what it takes. In C105_exactly the configuration of the servers can be read (as in C95)."
  },
  {
   "property": "C106",
   "status": "proved",
   "theorems": [
    "C106_now",
    "C106_alternate",
    "C106_clients"
   ],
   "note": "C77 says the last part of servers whose own calls do not fail. The lock is known by the name of its file, the hash of its path (C104). That a client is told of a lock with 201 only as granted says is C99."
  },
  {
   "property": "C107",
   "status": "partial",
   "theorems": [
    "C107_only_owner_refuted",
    "C107_whoever_partial"
   ],
   "note": "REFUTED: the server reads the arguments of unlock and throws them away, and does not compare the owner with the user it runs for; it lists a lock as that of someone else and then removes it. Whether it may is left to the permissions of the directory (403 if the removal fails for lack of them). Proved instead, for one server alone: whoever it runs for and whatever the arguments are, the lock is removed and the answer names its owner."
  },
  {
   "property": "C108",
   "status": "proved",
   "theorems": [
    "C108_now",
    "C108_alternate"
   ],
   "note": "What puts an object in its place is a successful rename to its name, what removes it a successful unlink of it (put, taken in SpecLedger.v). What it takes to put it there is C103."
  },
  {
   "property": "C11",
   "status": "proved",
   "theorems": [
    "C11_integer_syntax",
    "C11_print_parse"
   ],
   "note": ""
  },
  {
   "property": "C12",
   "status": "proved",
   "theorems": [
    "C12_oid_syntax",
    "C12_oid_path",
    "C12_oid_path_injective"
   ],
   "note": ""
  },
  {
   "property": "C13",
   "status": "proved",
   "theorems": [
    "C13_refines_abstract_server",
    "C13_abstract_server_function"
   ],
   "note": "For one process with system calls that succeed; unlock ids are single file names. The relation between requests, answers and abstract states is SpecServer.v."
  },
  {
   "property": "C14",
   "status": "partial",
   "theorems": [
    "C14_refused_upload_refuted",
    "C14_one_answer_partial"
   ],
   "note": "REFUTED: after refusing the object id of an upload the server takes the argument, delimiter and data packets for commands; the theorem shows uploaded data removing a lock. Proved instead: exactly one answer for each request that is read as a whole, which are all commands with arguments up to a flush packet however malformed, batches, and refused commands with nothing behind them, whatever system calls fail other than reading the input."
  },
  {
   "property": "C15",
   "status": "proved",
   "theorems": [
    "C15_download_read_only"
   ],
   "note": ""
  },
  {
   "property": "C16",
   "status": "partial",
   "theorems": [
    "C16_contents_refuted",
    "C16_contents_partial"
   ],
   "note": "REFUTED: an unlock id may contain \"../objects/...\", so that the server reads an object as a lock record and shows it if it is one of a held lock. Proved instead, for all inputs, schedules, failing calls and crashes: what upload servers do depends on the contents of any file only through its length and the lock record it is, if any."
  },
  {
   "property": "C17",
   "status": "proved",
   "theorems": [
    "C17_store_integrity"
   ],
   "note": ""
  },
  {
   "property": "C18",
   "status": "proved",
   "theorems": [
    "C18_upload_download"
   ],
   "note": "Up to a hash collision, which is exhibited."
  },
  {
   "property": "C19",
   "status": "proved",
   "theorems": [
    "C19_refused_upload",
    "C19_accepted_upload",
    "C36_upload_complete_partial"
   ],
   "note": "System calls succeed (reads and writes may be short); any input. That a wrong size, a wrong hash or a cut-off body is refused: C19_accepted_upload, C36_upload_complete_partial, C13."
  },
  {
   "property": "C20",
   "status": "proved",
   "theorems": [
    "C20_objects_persist"
   ],
   "note": "Up to a hash collision, which is exhibited: either the bytes are the same or two different contents with the same hash exist."
  },
  {
   "property": "C21",
   "status": "proved",
   "theorems": [
    "C21_verify_object"
   ],
   "note": ""
  },
  {
   "property": "C22",
   "status": "proved",
   "theorems": [
    "C22_batch"
   ],
   "note": ""
  },
  {
   "property": "C23",
   "status": "proved",
   "theorems": [
    "C23_download_contents"
   ],
   "note": "For one round of a download server next to any system of servers; the local state before the round is arbitrary. The size line is one packet for sizes below 2^64."
  },
  {
   "property": "C24",
   "status": "proved",
   "theorems": [
    "C24_granted_by_link",
    "C24_mutual_exclusion",
    "C24_held"
   ],
   "note": "Any number of processes, any interleaving, crashes and failing system calls."
  },
  {
   "property": "C25",
   "status": "proved",
   "theorems": [
    "C25_lock",
    "C25_unlock"
   ],
   "note": "A held entry of another path under the same id is shown to be a hash collision."
  },
  {
   "property": "C26",
   "status": "partial",
   "theorems": [
    "C26_locked_at_refuted",
    "C26_locked_at_partial"
   ],
   "note": "REFUTED: the clock is read once for the record and a second time for the answer to lock. Proved instead: both are clock readings of that request, and all later answers agree with the record."
  },
  {
   "property": "C27",
   "status": "partial",
   "theorems": [
    "C27_lock_answers_refuted",
    "C27_race_refuted",
    "C27_lock_answers_partial"
   ],
   "note": "REFUTED: a leftover temporary lock file, or a second process between creation and link, makes lock run into unreachable!(). Proved instead: without failing system calls the server panics that way only if a temporary file was there before, and that file is gone afterwards."
  },
  {
   "property": "C28",
   "status": "partial",
   "theorems": [
    "C28_unlock_refuted",
    "C28_unlock_one_lock_partial",
    "C25_unlock"
   ],
   "note": "REFUTED: the id is pushed onto the lock directory as a path, so \"../objects/..\" of an uploaded object with the text of a lock record removes the lock named in that text. Proved instead: for every id and every fault at most one lock file is removed, it is the one in the answer, and for ids that are plain file names it is the id given (C25_unlock)."
  },
  {
   "property": "C29",
   "status": "partial",
   "theorems": [
    "C29_unlock_refuted",
    "C29_unlock_partial",
    "C25_unlock"
   ],
   "note": "REFUTED: unlock reads the record, then removes the name; in between another process may unlock and a third lock again. Proved instead: in every interleaving an answer 200 that describes a lock comes directly after this process removed the file of the lock of that path. C25_unlock: with one server it is the lock that was read."
  },
  {
   "property": "C30",
   "status": "proved",
   "theorems": [
    "C30_listing_complete",
    "C30_listing_ends"
   ],
   "note": ""
  },
  {
   "property": "C31",
   "status": "partial",
   "theorems": [
    "C31_limit_refuted",
    "C31_pages_partial"
   ],
   "note": "REFUTED: a page that is not the last has limit+1 locks; the lock of next-cursor is on both pages. Proved instead: the exact pages."
  },
  {
   "property": "C32",
   "status": "partial",
   "theorems": [
    "C32_listed_refuted",
    "C32_listed_partial"
   ],
   "note": "REFUTED: a temporary lock file left by a crash is listed as a lock. Proved instead: for one server in a repository without leftovers."
  },
  {
   "property": "C33",
   "status": "proved",
   "theorems": [
    "C33_lock_record_round_trip",
    "C33_lock_record_syntax"
   ],
   "note": ""
  },
  {
   "property": "C34",
   "status": "partial",
   "theorems": [
    "C34_records_refuted",
    "C34_records_partial",
    "C34_alone_partial",
    "C34_parsed"
   ],
   "note": "REFUTED: with three processes an empty record can be linked. Proved instead: in every interleaving a visible record is the beginning of a record for its own name; with one server at a time, crashes and failing calls included, every record is complete, and complete records parse."
  },
  {
   "property": "C35",
   "status": "proved",
   "theorems": [
    "C35_terminates",
    "C35_exit_status",
    "C35_last_words"
   ],
   "note": "For any input, file system and failures of system calls. A panic (unreachable, out-of-range timestamp) also ends the process; it is a Failed outcome, not a status."
  },
  {
   "property": "C36",
   "status": "partial",
   "theorems": [
    "C36_complete_requests_refuted",
    "C36_upload_complete_partial"
   ],
   "note": "REFUTED: end of input counts as the end of an argument list, so a lock request without its flush packet is carried out. Proved instead: an upload is accepted only if no byte of it is missing. C60 and C65 say what every cut request does."
  },
  {
   "property": "C37",
   "status": "proved",
   "theorems": [
    "C37_upload_atomic"
   ],
   "note": ""
  },
  {
   "property": "C38",
   "status": "partial",
   "theorems": [
    "C38_lock_crash_refuted",
    "C38_lock_crash_partial",
    "C34_alone_partial"
   ],
   "note": "REFUTED: a crash can leave the temporary file, and the next lock request for the path panics. Proved instead: the path is free or has a complete record, a panic uses up a leftover file, and no session that ends adds one."
  },
  {
   "property": "C39",
   "status": "proved",
   "theorems": [
    "C39_answers_well_formed"
   ],
   "note": "Sessions that exit with status 0, for any input and failures of system calls."
  },
  {
   "property": "C40",
   "status": "partial",
   "theorems": [
    "C40_umask_refuted",
    "C40_umask_partial",
    "C40_object_mode",
    "C40_chmod"
   ],
   "note": "REFUTED: an octal mode is read as a boolean first, so 0640 gives umask 0007. Proved instead: the exact umask for every value, the mode of stored objects, and for whole servers with any failing calls that every mode given is the one left by that umask. How libgit2 reads booleans is modelled in SpecPerm.v."
  },
  {
   "property": "C41",
   "status": "partial",
   "theorems": [
    "C41_status_classes_refuted",
    "C41_no_internal_error_partial",
    "C35_exit_status"
   ],
   "note": "REFUTED: a malformed argument line is answered 500, a corrupt lock file 400. Proved instead: the exit statuses; well-formed requests are never answered 500 when system calls succeed."
  },
  {
   "property": "C42",
   "status": "proved",
   "theorems": [
    "C42_first_match",
    "C42_first_match_any_library",
    "C42_no_match"
   ],
   "note": "The walk order is that of libgit2. C42_first_match and C42_no_match give the pattern and the fixup test their meaning with the small regex engine of Regex.v standing for PCRE; C42_first_match_any_library holds for any engine."
  },
  {
   "property": "C43",
   "status": "partial",
   "theorems": [
    "C43_exit_status_refuted",
    "C43_exit_status_partial",
    "C43_messages"
   ],
   "note": "REFUTED: an unknown start revision also exits 1, silently with --quiet; with --show the status is that of git show. The exact statuses and outputs are proved."
  },
  {
   "property": "C44",
   "status": "partial",
   "theorems": [
    "C44_summary_refuted",
    "C44_summary_partial",
    "C44_summary_complete_partial",
    "C44_patterns",
    "C44_every_pattern_partial",
    "C44_every_pattern_none_partial"
   ],
   "note": "REFUTED: for a pattern with a top-level alternation (\"x|foo\") later lines are searched too. Proved both ways for every other pattern of the syntax of Regex.v; for patterns with an alternation it is proved exactly what is searched where (the first alternative in the first line, the others anywhere). The syntax itself is a grammar (SpecRegex.v), and the reader of patterns is proved to follow it."
  },
  {
   "property": "C45",
   "status": "proved",
   "theorems": [
    "C45_date_order"
   ],
   "note": ""
  },
  {
   "property": "C46",
   "status": "partial",
   "theorems": [
    "C46_visit_order_refuted",
    "C46_visit_order_partial"
   ],
   "note": "REFUTED: the list ends at the first entry that cannot be resolved or named (deleted branch, name not UTF-8). The exact list printed is proved."
  },
  {
   "property": "C47",
   "status": "proved",
   "theorems": [
    "C47_pager_choice",
    "C47_choice_exists"
   ],
   "note": ""
  },
  {
   "property": "C48",
   "status": "partial",
   "theorems": [
    "C48_one_packet_refuted",
    "C48_one_packet_partial",
    "C39_answers_well_formed"
   ],
   "note": "REFUTED: a lock path of more than 65510 bytes makes its path line longer than 65516 bytes, which is sent as two packets. Proved instead: with paths of at most 65445 bytes every argument and line of every answer is one packet; for any input, lines of 1 to 65516 bytes are."
  },
  {
   "property": "C49",
   "status": "proved",
   "theorems": [
    "C49_flushed_before_waiting",
    "C49_flushed_at_end"
   ],
   "note": ""
  },
  {
   "property": "C50",
   "status": "proved",
   "theorems": [
    "C50_output_well_begun",
    "C50_output_complete"
   ],
   "note": "What the client receives is a prefix of what the model calls written: stdout is buffered and the buffer is lost in a crash."
  },
  {
   "property": "C51",
   "status": "proved",
   "theorems": [
    "C51_changes_only_inside"
   ],
   "note": "Symbolic links are not modelled."
  },
  {
   "property": "C52",
   "status": "partial",
   "theorems": [
    "C52_looks_inside_refuted",
    "C52_looks_inside_partial",
    "C52_download_looks_inside"
   ],
   "note": "REFUTED: the id of an unlock request is used as a path, so that \"unlock /etc/hosts\" opens that file. Proved instead: a server looks outside only after reading an unlock command whose id has a slash, and a download server never does. Symbolic links are not modelled."
  },
  {
   "property": "C53",
   "status": "proved",
   "theorems": [
    "C53_found",
    "C53_not_found"
   ],
   "note": "For the modelled subset of regular expressions (Regex.v); arguments in UTF-8, see C57."
  },
  {
   "property": "C54",
   "status": "proved",
   "theorems": [
    "C54_visited",
    "C54_dated",
    "C54_error"
   ],
   "note": ""
  },
  {
   "property": "C55",
   "status": "proved",
   "theorems": [
    "C55_no_repository",
    "C55_server"
   ],
   "note": ""
  },
  {
   "property": "C56",
   "status": "partial",
   "theorems": [
    "C56_help_refuted",
    "C56_help_partial"
   ],
   "note": "REFUTED: git at looks for a repository before it parses its options and fails with status 4 outside of one. Proved for the other two, and for git at in a repository."
  },
  {
   "property": "C57",
   "status": "partial",
   "theorems": [
    "C57_no_panic_refuted",
    "C57_no_panic_partial"
   ],
   "note": "REFUTED: git at and git-lfs-transfer panic on arguments that are not UTF-8 (ArgMatches::value_of). Proved: they do not if arguments are UTF-8. Panics of clap, of libgit2 and of failing writes to standard output or error are not modelled."
  },
  {
   "property": "C58",
   "status": "proved",
   "theorems": [
    "C58_every_request",
    "C58_every_input"
   ],
   "note": "Requests cut short by the end of the input, upload packets above 65516 bytes and unlock ids with a slash are outside this property; C60 and C65 cover them."
  },
  {
   "property": "C59",
   "status": "partial",
   "theorems": [
    "C59_lines_refuted",
    "C59_lines_partial"
   ],
   "note": "REFUTED: the messages \"not found\" and \"mismatched size or cryptographic collision\" of verify-object have no newline. Proved: all others are lines."
  },
  {
   "property": "C60",
   "status": "proved",
   "theorems": [
    "C60_every_input",
    "C60_every_answer",
    "C60_until_slash"
   ],
   "note": "Every input has a reading (C60_every_input), and for every reading the server answers as the abstract server (C60_every_answer), up to an unlock id with a slash (C60_until_slash; C65 for the rest)."
  },
  {
   "property": "C61",
   "status": "partial",
   "theorems": [
    "C61_stops_refuted",
    "C61_content_refuted",
    "C61_stops_partial"
   ],
   "note": "REFUTED: a malformed header among the arguments of a request is answered, and the bytes after it are taken as requests; so are the data of an upload packet above 65520 bytes. Proved: between two requests it ends the session with an error and nothing after it has any effect."
  },
  {
   "property": "C62",
   "status": "partial",
   "theorems": [
    "C62_waits_refuted",
    "C62_waits_partial"
   ],
   "note": "REFUTED: git recent-refs exits without waiting for its pager. Proved: git at --show waits for git show and exits with its status; if it cannot be waited for, git at panics."
  },
  {
   "property": "C63",
   "status": "proved",
   "theorems": [
    "C63_output",
    "C63_prefix",
    "C63_ends",
    "C63_error"
   ],
   "note": "Acts.v; a write that fails may have written any beginning of its line."
  },
  {
   "property": "C64",
   "status": "partial",
   "theorems": [
    "C64_no_panic_refuted",
    "C64_no_panic_partial",
    "C64_otherwise_partial"
   ],
   "note": "REFUTED: git at panics when nobody reads its output, because it does not reset SIGPIPE as git recent-refs does. Proved: it panics only if a write fails, git cannot be started or waited for, or arguments are not UTF-8, and does what C53 says otherwise."
  },
  {
   "property": "C65",
   "status": "proved",
   "theorems": [
    "C65_every_input",
    "C65_every_answer"
   ],
   "note": "System calls succeed (reads and writes may be short). What a file outside the objects and the locks contains is arbitrary."
  },
  {
   "property": "C66",
   "status": "partial",
   "theorems": [
    "C66_no_panic_refuted",
    "C66_no_panic_partial",
    "C65_every_answer"
   ],
   "note": "REFUTED: a client uploads the text of a lock record with a time beyond the dates and unlocks ../objects/.. of that. Proved: nothing else makes it panic, and when it does, all earlier requests have been answered and the repository is as they left it."
  },
  {
   "property": "C67",
   "status": "proved",
   "theorems": [
    "C67_right_at_a_moment"
   ],
   "note": "The system calls of the server looked at succeed; those of the others may fail, be cut short or never come. Requests about locks: C74."
  },
  {
   "property": "C68",
   "status": "partial",
   "theorems": [
    "C68_batch_snapshot_refuted",
    "C68_batch_lines_partial"
   ],
   "note": "REFUTED: a server looks for two objects one after the other; another stores the first and then the second in between; the answer says the first is missing and the second is there. Proved: each line is right at its own moment, in the order of the lines."
  },
  {
   "property": "C69",
   "status": "proved",
   "theorems": [
    "C69_acknowledged_uploads",
    "C69_seen_by_all"
   ],
   "note": "The system calls of the two servers looked at succeed (of the uploader until its answer); those of the others may fail. Requests about locks may be among theirs."
  },
  {
   "property": "C70",
   "status": "proved",
   "theorems": [
    "C70_always_ends"
   ],
   "note": "The server own system calls succeed; files are shorter than the bound on loops of the model. Requests about locks: C76."
  },
  {
   "property": "C71",
   "status": "partial",
   "theorems": [
    "C71_in_step_refuted",
    "C71_in_step_partial"
   ],
   "note": "REFUTED: if the temporary file cannot be created (full disk), the server answers 500 and takes the uploaded data for commands; the theorem shows a well-formed upload that removes a lock. Proved: whatever calls fail other than reading the input, creating temporary files and writing to them, each request gets one answer, uploads of any content included."
  },
  {
   "property": "C72",
   "status": "proved",
   "theorems": [
    "C72_answered_is_stored"
   ],
   "note": "Any calls may fail, any servers beside it. Power failures are not modelled (the code does not sync)."
  },
  {
   "property": "C73",
   "status": "partial",
   "theorems": [
    "C73_refused_is_unchanged_refuted",
    "C73_refused_is_unchanged_partial"
   ],
   "note": "REFUTED: permissions are set after the object is in place, and if that fails the answer is 500. Proved for one server alone: whatever else fails, an answer other than 200 means that all objects are what they were. For any number of servers: C103."
  },
  {
   "property": "C74",
   "status": "proved",
   "theorems": [
    "C74_right_at_moments"
   ],
   "note": "The system calls of the server looked at succeed; those of the others may fail, be cut short or never come. The reasons to give up (a panic) are part of the statement."
  },
  {
   "property": "C75",
   "status": "partial",
   "theorems": [
    "C75_lock_snapshot_refuted",
    "C74_right_at_moments"
   ],
   "note": "REFUTED: the record is read from the open file, the owner is then looked up by name; in between one user may unlock and another lock, and the answer has the time of one lock and the owner of the other. Proved instead (C74): each of the two was so at a moment, one after the other."
  },
  {
   "property": "C76",
   "status": "proved",
   "theorems": [
    "C76_always_ends"
   ],
   "note": "The server own system calls succeed. The reasons to give up include files longer than the bound on loops of the model."
  },
  {
   "property": "C77",
   "status": "proved",
   "theorems": [
    "C77_one_lock"
   ],
   "note": "The system calls of the two servers succeed; those of the others may fail, be cut short or never come."
  },
  {
   "property": "C78",
   "status": "proved",
   "theorems": [
    "C78_standing_lock_seen"
   ],
   "note": "The system calls of the server looked at succeed. \"Stands\" means that the lock file is the same file with the same record at every moment from one on."
  },
  {
   "property": "C79",
   "status": "proved",
   "theorems": [
    "C79_failing_calls"
   ],
   "note": "A server alone. The statement names the calls that may fail; for the others see C14 and C71. A failed call has no effect, except that writes may be cut short."
  },
  {
   "property": "C80",
   "status": "partial",
   "theorems": [
    "C80_batch_refuted",
    "C80_batch_partial"
   ],
   "note": "REFUTED: if the size of a stored object cannot be got, for lack of permission say, the batch calls it missing (a download server then answers noop). Proved: what a batch says to be there is there, of that size."
  },
  {
   "property": "C81",
   "status": "partial",
   "theorems": [
    "C81_list_refuted",
    "C81_list_partial"
   ],
   "note": "REFUTED: a lock whose file cannot be opened or read is left out, with status 200 and no next-cursor. Proved: the locks listed are held, each listed once, in order, from the cursor on."
  },
  {
   "property": "C82",
   "status": "proved",
   "theorems": [
    "C82_acknowledged_changes"
   ],
   "note": "Same setting as C79. \"Kept\" allows other contents of the same hash."
  },
  {
   "property": "C83",
   "status": "proved",
   "theorems": [
    "C83_stops_when_output_fails"
   ],
   "note": "For every sequence of answers of the system. Writes are seen at the level of write_all and flush of standard output."
  },
  {
   "property": "C84",
   "status": "proved",
   "theorems": [
    "C84_any_lock_directory",
    "C84_every_state"
   ],
   "note": "A server alone, no failing calls. The names in the directory must be names a directory can hold (C84_every_state). Requests about objects are left to C13."
  },
  {
   "property": "C85",
   "status": "proved",
   "theorems": [
    "C85_clutter"
   ],
   "note": "A server alone, no failing calls."
  },
  {
   "property": "C86",
   "status": "proved",
   "theorems": [
    "C86_nothing_hides_a_lock"
   ],
   "note": "Needs every time of a record in the directory to be one that can be shown; otherwise the server panics at it (C66)."
  },
  {
   "property": "C87",
   "status": "proved",
   "theorems": [
    "C87_every_call_has_its_reason",
    "C87_objects",
    "C87_locks",
    "C87_removals"
   ],
   "note": "About the calls and their answers only; what the calls do to the file system is in other properties. The ghost note of an answer counts as a call."
  },
  {
   "property": "C88",
   "status": "proved",
   "theorems": [
    "C88_no_file_forgotten",
    "C88_before_the_answer"
   ],
   "note": "The removal is tried; if it fails the file stays. In a panic the model runs no destructors, and a killed process runs none."
  },
  {
   "property": "C89",
   "status": "partial",
   "theorems": [
    "C89_only_its_own_refuted",
    "C89_own_or_tried"
   ],
   "note": "REFUTED: a lock request that finds the draft of another server under the name it wants removes it, since the guard of the draft is dropped though the draft was not created. Proved: every removed file is one the server has made, or a draft it has just tried to make, or the file of a lock whose record it has read."
  },
  {
   "property": "C90",
   "status": "partial",
   "theorems": [
    "C90_noticed_refuted",
    "C90_wrong_length_partial"
   ],
   "note": "REFUTED: get-object answers 200 with whatever is stored, an upload batch says noop for it, and verify-object compares lengths only. Nothing is synced to disk either, so that a power failure can leave such objects. Proved instead: verify-object answers 409 whenever the length is wrong."
  },
  {
   "property": "C91",
   "status": "proved",
   "theorems": [
    "C91_damage_stays_local"
   ],
   "note": "One server, no failing calls. The damaged objects are files; directories in their place are left out."
  },
  {
   "property": "C92",
   "status": "proved",
   "theorems": [
    "C92_upload_repairs"
   ],
   "note": "One server, no failing calls."
  },
  {
   "property": "C93",
   "status": "proved",
   "theorems": [
    "C93_first_things_first"
   ],
   "note": "Over all sequences of calls and answers. The configuration is read by libgit2 as modelled in SpecPerm.v."
  },
  {
   "property": "C94",
   "status": "proved",
   "theorems": [
    "C94_other_operation"
   ],
   "note": "Over all sequences of calls and answers."
  },
  {
   "property": "C95",
   "status": "proved",
   "theorems": [
    "C95_rounds"
   ],
   "note": "Over all sequences of calls and answers, also of servers that are killed. A read that succeeds gives as many bytes as asked for, which is the contract of read_exact; the hash has 32 bytes. The wording of system errors is whatever the system gives."
  },
  {
   "property": "C96",
   "status": "proved",
   "theorems": [
    "C96_answers_are_so"
   ],
   "note": "Among any servers, with failing calls and crashes, of this server too. The repository is in order at first. Stored bytes are the same as those seen, unless the hash has a collision."
  },
  {
   "property": "C97",
   "status": "proved",
   "theorems": [
    "C97_decimal",
    "C97_decimal_signed",
    "C97_hex",
    "C97_utf8",
    "C97_repaired",
    "C97_repaired_is_utf8",
    "C97_numbers_in_text",
    "C97_quoted",
    "C97_order",
    "C97_pieces",
    "C97_pieces_upto"
   ],
   "note": "The functions of the standard library that model and specifications share are the ones of the standards."
  },
  {
   "property": "C98",
   "status": "partial",
   "theorems": [
    "C98_survives_refuted",
    "C98_objects_left_alone_partial",
    "C98_files_left_alone_partial",
    "C98_order_partial"
   ],
   "note": "REFUTED: nothing is ever synced to the disk, so after a failure of the power an object answered with 200 can be empty (and is then given out, and not asked for again), a lock answered with 201 can be an empty file that can neither be locked nor unlocked, and a removed lock can be back. Proved: what was there before and was left alone stays, and the repository is in order but for the contents of new files."
  },
  {
   "property": "C99",
   "status": "proved",
   "theorems": [
    "C99_said_was_so",
    "C99_stands"
   ],
   "note": "Among any servers, with failing calls and crashes, of this server too. The objects may hold anything at first. Ids with a slash are left to C65: for them the answer 200 tells of a removal, but not of the file read. The record is that of the moment when it is read: with three servers at work on one path a lock can be granted with an empty record (C34)."
  }
 ]
}
