import json
P=[]
def p(id,title,statement,quant,why,anchors):
    P.append(dict(id=id,title=title,statement=statement,quantifier=quant,why_tests_cant=why,anchors=anchors))

p("C01","Default checker decides token/line equality",
"The default ('standard') checker accepts a contestant output for a reference output exactly when, after splitting both byte strings into lines (CR or LF end a line), dropping blank lines, and splitting each remaining line into its whitespace-separated tokens, the two lists of token lists are equal. In particular it never accepts differing tokens, never accepts tokens moved across lines, and never rejects because of extra spaces, tabs, blank lines or CRLF line ends. Consequently acceptance is an equivalence relation.",
"every pair of byte strings, of any length and content",
"The C scanner walks two cursors with different loop conditions for each side; off-by-one and end-of-buffer cases (one side ends in the middle of a token, trailing whitespace with/without newline) are unboundedly many and a test only samples a few.",
["dmoj/checkers/_checker.c: isline, iswhite, skip_spaces, check_standard","dmoj/checkers/standard.py: check"])
p("C02","Default checker never reads outside the buffers",
"For every pair of byte strings, the default checker terminates and every byte it reads lies inside the judge buffer or inside the process buffer it was given.",
"every pair of byte strings and every step of the scan",
"A one-byte over-read is invisible to a functional test: CPython buffers are NUL terminated, so the verdict is usually unaffected.",
["dmoj/checkers/_checker.c: skip_spaces, check_standard"])
p("C03","Identical checker is byte equality, presentation error is advisory",
"The 'identical' checker passes if and only if the two outputs are byte-for-byte equal; otherwise it fails with zero points, and it carries the 'presentation error' message exactly when presentation errors are allowed and the default checker would have accepted.",
"every pair of byte strings and both settings of pe_allowed",
"Needs the exact agreement of two checkers over all strings.",
["dmoj/checkers/identical.py: check"])
p("C04","Sorted/unordered checkers decide multiset equality",
"With split_on='lines' the 'sorted' checker accepts exactly when the multisets of (nonempty-line token sequences) agree; with split_on='whitespace', and for the 'unordered' checker, exactly when the multisets of whitespace-separated tokens agree; any other split_on raises an internal error. Hence the verdict is invariant under every permutation of lines (resp. tokens).",
"every pair of byte strings, every permutation, every value of split_on",
"Permutation invariance quantifies over factorially many reorderings of unboundedly long outputs.",
["dmoj/checkers/sorted.py: check","dmoj/checkers/unordered.py: check"])
p("C05","Easy checker compares case-folded character multisets",
"The 'easy' checker accepts exactly when, after deleting all ASCII whitespace and lower-casing ASCII letters, every byte value occurs equally often in both outputs; so any anagram, re-casing or re-spacing of the reference is accepted and nothing else is.",
"every pair of byte strings",
"The accepted set is an infinite equivalence class; tests sample members only.",
["dmoj/checkers/easy.py: check"])
p("C06","Rstripped checker compares right-stripped lines",
"The 'rstripped' checker accepts exactly when both outputs have the same number of CR/LF-separated lines and corresponding lines are equal after removing trailing whitespace; with filter_new_line set, blank lines (empty between two separators) are dropped first.",
"every pair of byte strings and both values of the option",
"Infinite input space; interplay of blank-line filtering (before stripping) and stripping.",
["dmoj/checkers/rstripped.py: check"])
p("C07","Line-count checker awards the exact fraction within bounds",
"The 'linecount' checker never awards less than 0 or more than the case's points; it awards points*k/n where n is the number of nonempty reference lines and k the number of positions whose stripped lines agree; it passes exactly when k=n; it fails with no points when the contestant printed more nonempty lines than the reference, and passes when the reference has none (and the contestant has none).",
"every pair of byte strings, every nonnegative point value, both feedback settings",
"The bound must hold for every output length and point value.",
["dmoj/checkers/linecount.py: check, verdict"])
p("C08","Floats checker token rule",
"The 'floats' family accepts only when both outputs have the same number of nonempty lines, the same number of tokens on each, every non-numeric reference token is reproduced byte for byte, and every numeric reference token is matched by a numeric contestant token within 10^-precision in the selected (absolute, relative, or either) sense; it rejects NaN, and a contestant token that is not a number where the reference has one; unknown error modes raise an internal error once line counts agree. (As coded an infinite reference value is not matched by itself in the absolute and default modes.)",
"every pair of byte strings, precision and error mode; every IEEE double",
"IEEE special values (NaN, infinities, signed zero, rounding) and unbounded inputs.",
["dmoj/checkers/floats.py: verify_absolute, verify_relative, verify_default, check","dmoj/checkers/floatsabs.py","dmoj/checkers/floatsrel.py"])
p("C09","Floats checker tolerance is exact up to one rounding",
"In absolute mode with finite numbers, the checker accepts every pair whose exact difference is at most epsilon, and rejects every pair whose exact difference exceeds epsilon by more than one unit of rounding; comparing against reals, not floats. (Relative mode may overflow and default mode with an infinite reference value is not exact: refuted.)",
"every pair of finite IEEE doubles and every finite nonnegative epsilon",
"2^128 pairs of doubles; rounding at ties cannot be enumerated.",
["dmoj/checkers/floats.py: verify_absolute"])
p("C10","Bridged checker/interactor exit codes award bounded points or raise",
"For the default, testlib and coci protocols: exit code 'accepted' yields a pass with exactly the case's points, 'wrong' yields a fail with 0, a partial code yields a pass with points between 0 and the case's points, and every other way for the helper to end (other exit codes, signal, time or memory limit, sandbox fault, malformed partial message) raises an internal error: no result with points outside [0, points] and no silent absence of a result is possible.",
"every exit code, every helper stderr, every point value, every combination of helper limits exceeded",
"Exit codes, regex matches on arbitrary stderr and limit flags form an unbounded product.",
["dmoj/contrib/default.py: parse_return_code","dmoj/contrib/testlib.py: parse_return_code","dmoj/contrib/coci.py: parse_return_code","dmoj/utils/helper_files.py: parse_helper_file_error"])
p("C11","PEG protocol partial points",
"For the peg protocol the points awarded lie between 0 and the case's points.",
"every helper feedback text and exit code",
"Depends on numbers parsed from arbitrary text.",
["dmoj/contrib/peg.py: parse_return_code"])
p("C12","Verdict codes are a faithful decoding of the result flags",
"For every set of result flags, the list of readable codes contains exactly the codes whose flag is set, in the fixed severity order, and is ['AC'] exactly when no flag is set; the main code is the most severe one present, and it is AC exactly when no flag is set.",
"every subset of flags (including unknown bits)",
"Exhaustive over flag words and relies on order/priority of the display list.",
["dmoj/result.py: Result.get_main_code, Result.readable_codes, Result.CODE_DISPLAY_ORDER"])
p("C13","A submission is never accepted after a runtime failure",
"For a standard-graded case: the result has no flag (AC) if and only if the process ended with no IR/RTE/OLE/TLE/MLE condition and the checker passed; with a checker that does not ask to run on error, any such condition gives zero points and a WA flag next to the condition's flag; points are exactly the checker's points otherwise. (A checker that asks to run on error may give points to a failed run, whose flags still show the failure.)",
"every process outcome, every checker behaviour (bool or scored result), every point value",
"The product of process outcomes and checker outcomes; relies on flag arithmetic.",
["dmoj/graders/standard.py: StandardGrader.grade, check_result","dmoj/executors/base_executor.py: populate_result","dmoj/checkers: CheckerResult"])
p("C14","Every limit violation is flagged",
"If the submission process exceeded its time limit, memory limit or output limit, was killed by a signal, or exited with a nonzero code, the result carries TLE, MLE, OLE, RTE or IR respectively; and each of those flags appears only for that reason.",
"every combination of process observables (exit code, signal, time, memory, protection fault, output limit)",
"Combinations of racing conditions (e.g. killed by the judge for time and signalled) are not all reproducible.",
["dmoj/executors/base_executor.py: populate_result","dmoj/cptbox/tracer.py: is_ir, is_rte, is_tle, is_mle"])
p("C15","Test cases are numbered and reported once, in order",
"While grading runs to the end, the judge reports exactly one result for every test case of the problem, in archive order, numbered 1,2,3,...; batches are numbered consecutively; every case inside a batch is reported between that batch's begin and its end, and no batch begins before the previous one ended. (As coded a batch without cases takes a number without being announced, so announced numbers can skip.)",
"every problem layout (any mix of batched and unbatched cases), every sequence of verdicts, short-circuiting on or off",
"Any number of cases and batches and any verdict pattern; state carried across iterations.",
["dmoj/judge.py: JudgeWorker._grade_cases","dmoj/graders/base.py: BaseGrader._resolve_testcases, cases","dmoj/problem.py: BatchedTestCase"])
p("C16","Short-circuit semantics",
"A case is skipped (reported SC, worth 0 points, never run) exactly when an earlier case of the same batch failed, or - with short-circuiting enabled for the submission, or after a failed zero-point case - any earlier case failed; failure of an unbatched, point-carrying case without short-circuiting never skips a later case.",
"every problem layout, every verdict sequence, short_circuit flag",
"History-dependent over unboundedly many cases.",
["dmoj/judge.py: JudgeWorker._grade_cases"])
p("C17","Grading always ends with exactly one terminal report",
"A worker's message stream for a submission is: a hello, then compile outcome, then (unless compile error or internal failure) grading begin, case and batch messages, and exactly one terminal message - grading end, grading aborted, or unhandled exception - after which only the end-of-stream message follows.",
"every problem, verdict sequence, abort time and failure point",
"Crash and abort points are unbounded.",
["dmoj/judge.py: JudgeWorker._worker_process_main, _grade_cases"])
p("C18","Abort stops grading",
"Once an abort has been requested before a case finishes running, no later case is run and the submission is reported aborted, not finished. (As coded an abort requested while the remaining cases are only being skipped is ignored.)",
"every abort time relative to the case sequence",
"Races between abort and case completion.",
["dmoj/judge.py: JudgeWorker._grade_cases, _do_abort, Judge.abort_grading"])
p("C19","Case results reach the server exactly once, in order, whatever the flush schedule",
"For every interleaving of the grading thread and the periodic flush thread, the concatenation of the batches of case results sent to the server equals the sequence of reported cases (none lost, duplicated or reordered), all tagged with the submission they belong to; every result precedes the grading-end, batch-end, abort and internal-error packet reported after it, and none is pending once grading ended.",
"every interleaving of two threads and every sequence of grading events",
"Schedules are unbounded; data races do not reproduce in tests.",
["dmoj/packet.py: PacketManager._flush_testcase_queue, _periodically_flush_testcase_queue, test_case_status_packet, grading_end_packet, batch_begin_packet, batch_end_packet, submission_aborted_packet, internal_error_packet"])
p("C20","Wire framing round-trips across arbitrary chunking",
"Whatever sequence of messages one side sends, and however the byte stream is cut into reads, the receiver decodes exactly that sequence of messages in order, consuming exactly the bytes sent.",
"every message sequence whose compressed payloads are below 2^32 bytes and every chunking",
"Chunk boundaries and sizes unbounded.",
["dmoj/packet.py: PacketManager._send_packet, _read_single, PacketManager.size_pack"])
p("C21","Reconnection backs off geometrically and eventually gives up",
"Successive failed reconnection attempts wait 4s, then 1.5 times longer each time; after the wait would exceed a day the judge exits; so at most 25 consecutive reconnections happen without a completed grading in between, and the delay never decreases between resets.",
"every sequence of disconnections and completed gradings",
"History-dependent, real time of days.",
["dmoj/packet.py: PacketManager._reconnect, fallback"])
p("C22","Server packets are dispatched to the matching action only",
"Each server packet name triggers exactly its action (ping answered, submission acknowledged then graded, termination aborted, disconnect exits) and unknown names trigger nothing but a log entry. (As coded asking an idle judge for its current submission raises, which ends the judge.)",
"every packet",
"All names and payloads.",
["dmoj/packet.py: PacketManager._receive_packet, handle_ping"])
p("C23","At most one submission is graded at a time",
"Two submissions are never graded concurrently by a judge: a grading request arriving while another is in progress waits until the earlier one has finished, and the 'current submission' seen by every case report is the one being graded. (As coded, if starting a worker process fails, the lock stays taken and no later request is served.)",
"every interleaving of requests and grading completion",
"Concurrency schedules.",
["dmoj/judge.py: Judge.begin_grading, _grading_thread_main, current_judge_worker"])
p("C24","Problem updates are never lost",
"After a problem-change notification, the updater eventually rescans and sends the problem list after that notification: no notification that arrives while an update is being sent is forgotten. (As coded a notification is lost if reading or sending the list fails.)",
"every interleaving of notifications and the updater thread",
"Lost wake-ups depend on schedule.",
["dmoj/judge.py: Judge.updater_loop/_updater_thread, update_problems"])
p("C25","Process I/O is delivered exactly, under any scheduling",
"When neither stream exceeds its limit, the returned stdout and stderr are exactly the bytes the process wrote, and exactly a prefix of the given input was written to it (all of it unless the process closed its end), in order, for every pattern of readiness, chunk sizes and partial writes.",
"every poll schedule, chunking, partial write, and early close",
"Kernel schedules are unbounded.",
["dmoj/utils/communicate.py: safe_communicate"])
p("C26","Output limit",
"If a stream's total exceeds its limit the call stops reading and raises an output-limit error; it never raises it otherwise, and it never returns more than the limit. (As coded, when the other stream has already ended, a stream over its limit raises a different error.)",
"every chunking of every output and every limit",
"Boundary and chunk interaction.",
["dmoj/utils/communicate.py: safe_communicate"])
p("C27","Line-ending normalisation of test data",
"Textual test data handed to submissions contains no carriage return, ends in a newline when nonempty, has all CRLF/CR line ends converted to LF, is otherwise unchanged, and normalising twice equals normalising once; binary data is untouched.",
"every byte string",
"Infinite input space; chunk-free replace order matters.",
["dmoj/problem.py: TestCase._normalize"])
p("C28","Test-case files are matched and ordered deterministically",
"Given the batch and case ids read from file names, each discovered input is paired with the output of the same batch and case, cases of one batch are grouped and sorted by case, groups are sorted by id, points are handed out in that order, and archives whose ids cannot be ordered, lack a case number or put several cases outside a batch are rejected. Of two files claiming the same place the later is used. (As coded batch 0 is no batch, and a single case numbered like a batch joins that batch.)",
"every list of archive members and every id assignment",
"All namings; includes falsy ids.",
["dmoj/problem.py: Problem._match_test_cases"])
p("C29","Configuration inheritance",
"Looking up a key in a nested configuration node returns the value set in the nearest enclosing node that defines it, and nothing if none does; explicit lookups in a child never change the parent. (As coded attribute access tries the spelling with underscores in all ancestors before the one with hyphens.)",
"every nesting depth and every assignment of keys",
"Unbounded nesting.",
["dmoj/config.py: ConfigNode.__getitem__, __getattr__, get"])
p("C30","Configuration defaults are used only when a key is absent",
"Reading a key with a default returns the configured value whenever the key is configured with a value that counts as true, and the default when the key is absent. (As coded a configured false, zero, empty or null value also gives the default.)",
"every configured value, including falsy ones",
"Falsy values are an easily missed case.",
["dmoj/config.py: ConfigNode.get"])
p("C31","Dynamic configuration keys are evaluated once",
"A dynamic key (an expression or a code block computing a key) is evaluated at most once in the life of a configuration; after the first successful read, all later reads of the key return the same value, whatever else is read in between, and keys without a dynamic form never cause evaluation. (As coded a key that has both dynamic forms may give another value at its second read.)",
"every sequence of reads of any keys, every nesting depth",
"Histories are unbounded.",
["dmoj/config.py: ConfigNode.__getitem__"])
p("C32","Grader selection precedence",
"A custom judge takes precedence over a signature grader, which takes precedence over an interactive grader, which takes precedence over the standard grader.",
"every configuration",
"Product of options and inheritance.",
["dmoj/problem.py: Problem.grader_class"])
p("C33","Sandboxed paths are resolved before checking",
"The path compared with the sandbox's file rules is absolute, starts with exactly one slash, contains no empty, '.' or '..' component and denotes the same file (in a symlink-free tree) as the path the program passed, relative to the directory it was relative to. (With symbolic links it may denote another file: refuted.)",
"every path string, working directory and directory descriptor",
"Path syntax is unbounded; traversal escapes are precisely the untested inputs.",
["dmoj/cptbox/isolate.py: IsolateTracer.get_full_path, _file_access_check"])
p("C34","File access is denied unless a rule allows it",
"An open/stat-like system call is let through exactly when the place its path resolves to is covered by a rule: a read rule for reading, a write rule for opening with any writing flag; with no rules everything is denied; a refused call fails with ENOENT (or, if its directory descriptor is not open, kills the program); the answer does not depend on earlier calls.",
"every path, flag word and rule list",
"All flags and paths.",
["dmoj/cptbox/isolate.py: check_file_access, check_file_access_at, is_write_flags, _get_fs_jail, _file_access_check","dmoj/cptbox/handlers.py"])
p("C35","Default jail hides private files",
"Under the base file rules, no file below /root, /home, /usr/home, /var, /tmp (other than its own scratch directory), /proc/<other pid>, or any other location not listed may be opened for reading, and nothing but the listed devices may be opened for writing.",
"every path",
"Infinite set of paths against regular expressions with look-ahead.",
["dmoj/executors/mixins.py: BASE_FILESYSTEM, BASE_WRITE_FILESYSTEM, PlatformExecutorMixin.get_fs"])
p("C36","Relative and at-style calls use the right base directory",
"A call with a directory descriptor argument resolves relative to that descriptor, with AT_FDCWD (as a 32-bit or 64-bit register value) meaning the working directory; absolute paths ignore it.",
"every 64-bit register value",
"Sign conversion over 2^64 values.",
["dmoj/cptbox/isolate.py: check_file_access_at"])
p("C37","Unknown system calls are denied",
"A system call the policy does not mention, a number that is no call, or a call on an unsupported ABI terminates the program with a protection fault; every other call is treated as the last policy entry about it says, on every ABI; the policy every executor starts from grants exactly the calls on a fixed list, and decides a few more by their arguments; the kernel-level whitelist is exactly the native calls that are unconditionally allowed, except exit and exit_group. (Exceptions found in the code and proved: ARM private calls always run, negative numbers reach the handler 568 above them, and 64-bit code entering through int 0x80 is judged by the wrong table.)",
"every ABI, system call number and handler table",
"Number space and table space.",
["dmoj/cptbox/tracer.py: _callback, _get_seccomp_whitelist, TracedPopen.__init__","dmoj/cptbox/ptproc.cpp: set_handler, monitor"])
p("C38","Monitor loop never lets a denied call run",
"For every sequence of trace events, after the program's first execve, no system call is resumed unless its handler allowed it; a call denied with an error is replaced so that it has no effect and returns that error; otherwise on denial the process group is killed; only the stopped thread is resumed; when the main process ends every forked process still running is killed. (With the kernel filter this holds for every sequence; without it only while no clone, fork or exit event stops a thread inside a call: a clone event makes the next call of that thread pass unchecked.)",
"every event sequence",
"Event orders with many threads are unbounded.",
["dmoj/cptbox/ptproc.cpp: pt_process::monitor, protection_fault","dmoj/cptbox/ptdebug.cpp: settid, tid_reset"])
p("C39","Processes may only signal themselves",
"kill/tgkill are permitted exactly when aimed at the sandboxed process itself (otherwise EPERM); prlimit exactly on its own limits (otherwise EPERM); prctl exactly for the listed harmless options (otherwise the program is killed).",
"every argument value",
"All register values.",
["dmoj/cptbox/isolate.py: do_kill, do_prctl, do_prlimit, do_tgkill"])
p("C40","Execution and wall time accounting",
"Accumulated execution time equals the sum of the intervals in which the program was let run, stays normalised (0 <= nsec < 10^9) and never decreases, for every sequence of stops; wall time is the time since the program was first let run, up to its end once it has ended, and execution time never exceeds it.",
"every sequence of intervals",
"Carry/borrow cases and unbounded histories.",
["dmoj/cptbox/ptbox.h: timespec_add, timespec_sub","dmoj/cptbox/ptproc.cpp: monitor"])
p("C41","Reading a path from the program never overruns the buffer",
"Copying a string argument out of the sandboxed program writes only inside the allocated buffer, returns a terminated string equal to the program's memory up to the first NUL or the maximum length, or fails. (As coded this needs pages of 4 KiB, and for strings of 4096 bytes or more that the bulk read works: otherwise the buffer is overrun.)",
"every address, page size, memory content and failure point",
"Page alignment x length x failure.",
["dmoj/cptbox/ptdebug.cpp: readstr, readstr_peekdata"])
p("C42","No descriptor leaks into the sandbox",
"Before running the submission every descriptor numbered 3 or more is closed, except the directory handle used for listing which is closed last; names that are not numbers are ignored. (As coded a listing that fails half-way leaves the rest open.)",
"every set of open descriptors",
"Descriptor sets unbounded.",
["dmoj/cptbox/helper.cpp: cptbox_closefrom_getdents, pos_int_from_ascii"])
p("C43","Compile cache: a hit returns the artefact of the same key, size bounded",
"The compiled-executor cache never holds more entries than its capacity, returns for a key only an artefact compiled for that key, evicts the least recently used entry, and never caches a failed compilation.",
"every sequence of compilations",
"Histories unbounded.",
["dmoj/executors/compiled_executor.py: _CompiledExecutorMeta.__call__, _cleanup_cache_entry, CompiledExecutor.cleanup"])
p("C44","Cached artefacts in use are not deleted",
"An executor object that compiled its program itself can be launched for as long as its caller keeps it, whatever else is compiled, evicted or dropped; one obtained from the cache can be launched for as long as the object that compiled the program is still referred to by a caller or the cache. (That it can be launched for as long as it is alive is refuted: evicting the entry deletes the binary.)",
"every sequence of compilations, evictions and destructions",
"Needs eviction during use.",
["dmoj/executors/compiled_executor.py"])
p("C45","Distinct sources never share a cached binary",
"Two submissions in the same language for the same problem with the same compiler and flags share a cached binary only if their source is the same; for C and C++ also only if the problem is. (Problem id and source are not separated in the other languages' keys, and helper files' names and boundaries are not part of the key: both refuted.)",
"every pair of submissions",
"Key collisions.",
["dmoj/executors/compiled_executor.py: get_binary_cache_key","dmoj/executors/gcc_executor.py: get_binary_cache_key"])
p("C46","Brainf*** sources: rejected iff brackets are unbalanced, otherwise translated faithfully",
"A Brainf*** source is rejected at compile time exactly when its brackets are not balanced. Every other source becomes the fixed C template with the translated statements as the last thing main does; they nest properly, can be read in only one way, and after any number of steps have the same pointer, cells, remaining input and output as the source, ending exactly when it ends.",
"every byte string, every input and tape, every number of steps",
"Infinite set of sources and unbounded runs.",
["dmoj/executors/BF.py: Executor.__init__, _has_invalid_brackets, trans, template"])
p("C47","Problem lookup",
"Whatever was looked up before and however the file system changed in between: a problem that some root has now is found, in a directory that has its init file; an answer is root/id for the first root that has, or at an earlier lookup had, the problem; lookup fails exactly when no root has or had it at a lookup. While nothing changes the answer is the first root that has it, and the list sent to the server is the set of problems lookup finds (init files being readable files). (Refuted: a removed problem is still answered; an absolute id escapes the roots.)",
"every file system, root order and history of lookups",
"Layouts and histories are unbounded.",
["dmoj/judgeenv.py: get_problem_root, get_supported_problems"])
p("C48","Executor module selection",
"The executor modules considered are exactly those with a file named in capitals and digits, restricted to the 'only' list when given, minus excluded and unsupported ones, each once and in name order regardless of the directory's listing order. After loading, a name leads to the last module that imported, passed its start-up routine and offers that name (as alias not excluded, or as its own name); a module that fails never keeps others out. The formats for checkers and interactors are found in the same way among the files whose name is in small letters. (As coded, anything may follow their '.py'.)",
"every directory listing, pair of name lists, and outcome of importing and initialising each module",
"Sets and outcomes unbounded.",
["dmoj/utils/load.py: get_available_modules, load_module, load_modules", "dmoj/executors/__init__.py: get_available, load_executors"])
p("C49","Interactor reads tokens faithfully",
"Reading tokens from an interactive submission yields, in order, the tokens of each line of its output, then 'closed' for ever; when every line begins with a word these are exactly the whitespace-separated words. An integer (or float) is returned exactly when the token is short enough, parses and lies in the requested range, and any other UTF-8 token is a wrong answer. What the interactor writes reaches the submission unchanged, and the verdict combines the interactor's and the submission's. (As coded blank lines are empty tokens, a single indented word keeps its indent, an empty last field is lost, and tokens and whole lines do not mix.)",
"every output and read sequence",
"Streams unbounded.",
["dmoj/graders/interactive.py: Interactor, InteractiveGrader"])
p("C50","CLI submission history",
"Each accepted local submission is appended to the history and graded under the next consecutive number; recorded entries never change; failed commands change nothing; rejudge, show and diff by number use exactly the entry recorded under that number; listings show entries with their numbers. (As coded the limited listing shows the oldest, rejudge grades under the newest number, and resubmit always fails.)",
"every command history, set of executors and problems, files and editor results",
"Histories.",
["dmoj/commands/submit.py, resubmit.py, rejudge.py, submissions.py, show.py, diff.py, problems.py", "dmoj/cli.py: run_command"])
p("C51","HTTP control endpoint",
"A POST to exactly the update path triggers one problem update, which is then served, and answers 200; every other request triggers nothing and answers 404, or 501 for other methods.",
"every request, and every interleaving with the updater",
"All requests.",
["dmoj/control.py: JudgeControlRequestHandler"])
p("C52","Feedback text",
"The feedback shown for a result is the executor's parsed message or the signal name, and a sandbox violation always overrides it with the offending system call.",
"every result state",
"Product of fields.",
["dmoj/result.py: get_feedback_str / utils.unicode"])
p("C53","Resource limits given to the sandbox",
"Every launched process gets a CPU rlimit strictly above its time limit, address-space and data limits derived from its memory limit plus grace, no core dumps, and a hard wall-clock limit. (As coded, without a memory limit the data segment is limited to the grace.)",
"every limit configuration",
"Numeric boundary cases.",
["dmoj/cptbox/tracer.py: TracedPopen.__init__","dmoj/cptbox/helper.cpp: cptbox_child_run","dmoj/executors/mixins.py: launch"])
p("C54","Executor symlink and file-jail confinement",
"Symlinks are created only at paths inside the executor's own scratch directory, and the submission's file rules open only its own scratch directory besides the base rules. (As coded both checks compare strings: a neighbouring directory whose name starts with the scratch directory's name also passes; nothing else does.)",
"every scratch path and symlink target",
"Path prefix pitfalls.",
["dmoj/executors/mixins.py: launch, get_fs"])
p("C55","An abort reaches only the submission it names",
"A request to abort a given submission stops that submission if it is the one being graded and otherwise does nothing; a request that names none stops whatever is being graded. The site's terminate request behaves like the latter.",
"every current submission and every request",
"The race between finishing one submission and receiving an abort for it.",
["dmoj/judge.py: Judge.abort_grading","dmoj/packet.py: PacketManager._receive_packet"])
p("C56","Test data sources",
"The generator of a test case is run at most once while its data is in use and never when both an input and an output file are given; a given output file always takes precedence over generated output; generated input takes precedence over the input file unless it is empty or both files are given. (As coded what a failed generator printed is used if the data is asked for again.)",
"every combination of configured sources and every sequence of reads and frees",
"Histories and combinations.",
["dmoj/problem.py: TestCase.input_data, output_data, free_data, _run_generator"])
p("C57","Case numbering",
"Test cases are numbered consecutively from zero and batches consecutively from one, in configuration order; each case carries the number of its own batch; exactly the configurations with nested batches are rejected.",
"every list of cases and batches",
"Unbounded configurations.",
["dmoj/graders/base.py: BaseGrader._resolve_testcases, cases","dmoj/problem.py: BatchedTestCase.__init__"])
p("C58","Helper failures are noticed",
"The output of a helper program (generator, checker, interactor) is believed only if the program ended by itself, within its limits, without a sandbox violation and with exit code zero.",
"every way a process can end",
"Product of conditions.",
["dmoj/utils/helper_files.py: parse_helper_file_error"])
p("C59","A program that could not be started is reported as such",
"If the program's execve never succeeds and the child exits, the judge reports a start failure rather than an exit code of the program. (Proved for tracing without the kernel filter; with it the mere entry of execve counts as a start and the claim is refuted.)",
"every event sequence and exit code",
"Event orders are unbounded; start failures are rare in tests.",
["dmoj/cptbox/ptproc.cpp: pt_process::monitor","dmoj/cptbox/tracer.py: TracedPopen.wait","dmoj/cptbox/helper.cpp: cptbox_child_run"])
p("C60","Standard streams of the sandboxed program",
"The program finds on descriptors 0, 1 and 2 exactly what the judge asked for (a fresh pipe, a given descriptor, or the judge's own stream) and nothing else open; the judge holds the other end of every pipe, keeps everything it had open, and keeps no copy of the program's ends. (As coded asking for the judge's own descriptors 0 and 1 crossed does not swap them.)",
"every table of open descriptors and every combination of stream requests that do not name one another's numbers",
"Descriptor numbers collide only for particular tables; leaks show up as hangs much later.",
["dmoj/cptbox/tracer.py: TracedPopen.__init_streams, _run_process","dmoj/cptbox/helper.cpp: cptbox_child_run"])
p("C61","Time limit verdict",
"A program with a time limit is reported as out of time exactly when the kernel signalled it, its final execution time is above the limit, or a poll of the watchdog saw its execution or wall time above the respective limit; with a limit in whole seconds the comparison is exact to the nanosecond.",
"every limit, run history and sequence of polls",
"Boundary at the limit; floating-point conversion of times; interleaving of polls.",
["dmoj/cptbox/tracer.py: TracedPopen._shocker_thread, _cpu_time_exceeded, _run_process","dmoj/cptbox/ptproc.cpp: monitor, wall_clock_time"])
p("C62","Scratch directories are removed",
"Without caching, the compiled executors' scratch directories on disk are at every moment exactly those of the executor objects still held. (With caching, the directory of a failed compilation is never removed: refuted.)",
"every sequence of compilations and releases",
"Leaks accumulate over histories.",
["dmoj/executors/base_executor.py: BaseExecutor.cleanup, __del__","dmoj/executors/compiled_executor.py: CompiledExecutor.cleanup"])
p("C63","Problem directories from the configuration",
"At start-up the problem roots are exactly the directories the configuration names, in its order, where a depth of n stands for the directories exactly n levels below the given one; every single directory named that does not exist is warned about; a problem update with nothing changed keeps the roots. (Refuted: a missing directory makes every update fail; a storage root given as a string means its subdirectories at start-up and itself after the first update.)",
"every configuration and file system",
"Directory trees and depths are unbounded; updates happen long after start-up.",
["dmoj/judgeenv.py: get_problem_roots, find_directories_by_depth, load_env, clear_problem_dirs_cache","dmoj/judge.py: Judge._updater_thread"])
p("C64","Text and bytes",
"Decoding bytes to text succeeds exactly on well-formed UTF-8 and yields the text whose encoding they are; encoding then decoding any text gives it back; lenient decoding never fails, agrees with strict decoding on well-formed input and replaces only ill-formed bytes; the output prefix shown is lenient text of the first bytes.",
"every byte string and text",
"Infinitely many strings.",
["dmoj/utils/unicode.py: utf8text, utf8bytes", "dmoj/result.py: output"])
p("C65","Executor start-up test",
"An executor is offered exactly when its command is configured and is a file, and its self-test is skipped, empty, or ran within limits, printed the expected message up to surrounding blanks, wrote nothing to standard error and could tell its versions.",
"every configuration and outcome of the test run",
"Product of outcomes.",
["dmoj/executors/base_executor.py: initialize, run_self_test"])
p("C66","Where launch symlinks may be placed",
"A launch places a symbolic link only at a normalised path inside the submission's directory or, at worst, in a sibling directory whose name extends it; every relative path leading inside is accepted, at the place it leads to.",
"every submission directory and link path",
"Paths are unbounded strings with dot components.",
["dmoj/executors/mixins.py: PlatformExecutorMixin.launch"])
p("C67","Runtime versions",
"The version reported for a runtime is the leftmost, longest dotted number in the output of the first flag whose output contains one, and none when there is none.",
"every list of command outputs",
"Outputs unbounded.",
["dmoj/executors/base_executor.py: parse_version, get_runtime_versions"])
p("C68","Telling other servers about updates",
"After a refresh is requested, every configured URL gets a ping attempt begun after the request; pings come in full rounds in order, never more rounds than requests; no request is forgotten; stopping ends the thread after at most the round in progress; a change in a watched directory triggers the judge's update and then a refresh. (As coded no ping is ever delivered: the request body has the wrong type.)",
"every interleaving of requests, stop and the worker, every URL list",
"Schedules.",
["dmoj/monitor.py: RefreshWorker, SendProblemsHandler, Monitor"])
p("C69","The reason shown for a crash",
"For a failed C++, Python, Java or Mono program, the reason shown is the exception named in the last report its runtime printed to standard error, when it is short enough; nothing else is ever shown; a JVM crash is reported as an internal error unless memory did not suffice to start it. (As coded Python exceptions with a qualified name are not shown.)",
"every standard error stream",
"Streams are unbounded and written by the submission.",
["dmoj/executors/gcc_executor.py: parse_feedback_from_stderr","dmoj/executors/python_executor.py: parse_feedback_from_stderr","dmoj/executors/java_executor.py: parse_feedback_from_stderr","dmoj/executors/mono_executor.py: parse_feedback_from_stderr"])
p("C70","The outcome of a compilation",
"Whatever the interleaving of the compiler, its killer thread and the judge, a compilation succeeds exactly when the compiler's output was read to its end and it ended with code 0; a failure shows its output, or that it was too long, or that time ran out, this last only after more than the limit; a compiler over its limit is ended by four steps of the killer; the judge reaches a result once the compiler has ended. A compiler whose output was too long may be left running, and one late signal may go astray.",
"every limit and every interleaving of events",
"Thread schedules and exit times are unbounded.",
["dmoj/executors/compiled_executor.py: TimedPopen, CompiledExecutor.get_compile_output","dmoj/utils/communicate.py: safe_communicate"])
p("C71","What the C and C++ compilers are given",
"With distinct file names every source is written to its own file and nothing else is; the compiler's arguments that are not options are exactly its name, those files in order and the output file; the submission is among the sources. Empty submissions, dotted problem names and colliding names are exceptions.",
"every problem name, set of sources and configuration",
"Names and sources are unbounded.",
["dmoj/executors/gcc_executor.py: GCCExecutor.__init__, create_files, get_compile_args, get_march_flag"])
p("C72","Building checkers, generators and interactors",
"A helper program is built in the language asked for or the newest available standard of C++ or C according to its files' names; each file reaches the compiler under its own name; unreadable files, missing languages and several files of another language are errors; flags and limits are passed on; generators are always compiled under a limit. Checkers and interactors have no default limit, and caching cannot be switched off.",
"every set of files, installed languages and settings",
"Product of configurations.",
["dmoj/utils/helper_files.py: compile_with_auxiliary_files","dmoj/problem.py: TestCase._run_generator","dmoj/checkers/bridged.py: get_executor","dmoj/graders/bridged.py: _generate_interactor_binary","dmoj/config.py: ConfigNode.get"])
p("C73", "A Java submission is compiled and run by its first public class",
 "For a source whose comments and literals hold no confusing comment openers, the class run is exactly the first public class declared outside comments and literals, and the source is refused exactly when it declares none or names a package; what stands in comments and literals does not matter.  For every source, the name taken is non-empty, holds only word characters and dollar signs (so no slash, NUL, dot or leading dash), its file holds the submission byte for byte and never overwrites the security policy, and every refusal (bad UTF-8, no public class, a package, a name too long) is told for its own reason.",
 "every source text split into code, comments and literals; every byte string; every definition of word and space characters beyond ASCII; every file system answer",
 "Regular expressions over arbitrary program text: all orders of comments and literals and all placements of the declaration have to be covered, and an attacker chooses them.",
 ["dmoj/executors/java_executor.py: find_class, JavaExecutor.create_files, JavacExecutor.create_files, get_cmdline, get_compile_args"])
p("C74", "A Go submission is compiled only if it is in package main",
 "For a source that begins with comments and blanks and then a package clause on one line, it is accepted exactly if the package is main; for every source, it is accepted exactly if the text left after taking out comments begins, after blanks, with the words package and main on one line.",
 "every source of leading comments and blanks, every package name, every text after it; every byte string",
 "The comments before the clause are arbitrary in number, order and content.",
 ["dmoj/executors/GO.py: decomment, Executor.create_files"])
p("C75", "What programs of each language may do beyond the base policy",
 "For every shipped language: a system call that names a file runs only if the path passes the file rules; no call on sockets runs except socketpair (Pike, Java family) and connect and getsockname (Tcl, on no socket of its own making); no call changes identities, limits, namespaces or other processes except setrlimit (Java family, CoffeeScript), sched_setscheduler (Mono) and personality (SBCL); no process is forked except by Bash; signals go to the program itself only; Bash starts exactly the installed programs on its list, others end it; calls a language lists run and all others are treated as in the base policy.  As coded statfs (every language), statx (CoffeeScript) and access (Tcl) are not checked against the file rules.",
 "every shipped language, every Linux ABI and call number, every register state and set of rules",
 "The product of languages, ABIs, call numbers and handlers, and unbounded paths.",
 ["dmoj/executors/mixins.py: PlatformExecutorMixin._add_syscalls, get_security", "dmoj/executors/shell_executor.py: ShellExecutor.get_security", "dmoj/executors/*.py: syscalls", "dmoj/cptbox/isolate.py: IsolateTracer.__init__"])
p("C76", "The files programs of each language may read and write",
 "For every shipped language, a call that reads a file runs exactly if the path, made absolute and normal, is a base file, lies under the program's directory, is listed for the language, or matches a configured extra rule; a call that writes runs exactly for standard output, standard error, the null device and, for the Java family, the crash log in the program's directory; anything else fails as if the file were missing, and only a bad directory descriptor ends the program.  Languages with no files of their own get nothing more; private places (homes, /etc/shadow, other scratch directories, ...) stay hidden except where the configuration names them.  As coded the Dart and PHP rules are not anchored and match anywhere, Objective-C programs read the command line of any process, Racket programs read /etc/passwd, and a shell with an uninstalled command in its list cannot read any file.",
 "every shipped language, every directory, source path, configured home, tool and command, every extra rule, path, directory descriptor and register state",
 "Paths, configured directories and rules are unbounded and rules are patterns that are joined, escaped or not, per language and process.",
 ["dmoj/executors/mixins.py: PlatformExecutorMixin.get_fs, get_write_fs", "dmoj/executors/script_executor.py: ScriptExecutor.get_fs", "dmoj/executors/shell_executor.py: ShellExecutor.get_fs", "dmoj/executors/java_executor.py: get_fs, get_write_fs", "dmoj/executors/RUBY2.py, RKT.py, PHP.py, DART.py, OBJC.py, TUR.py: fs", "dmoj/cptbox/isolate.py: _compile_fs_jail"])
p("C77", "The judge's own test suite",
 "A run of the test suite submits exactly the sources of the selected tests that are not skipped and can be read, in order and numbered from one, and exits with status zero exactly if no selected test is in error and every report about every submission is one its test expects: the first code, the points and the feedback of a case as listed for that case or else for all, compile errors and internal errors only where expected.  A test is skipped only if it has no settings, asks for it, or names an unavailable language.  (As coded this holds of tests that expect neither internal errors nor '*' points for a single case: a listed case with wrong points makes the runner itself raise, which passes where internal errors are allowed, and '*' points for one case always raise; a grading that reports nothing passes.)",
 "every set of problems and tests, every settings file and source, every selection and every sequence of reports",
 "Expectations are combined per case, per test and per run, and any sequence of reports may arrive.",
 ["dmoj/testsuite.py: Tester.test_all, test_problem, run_test_case, parse_expect, TestManager", "dmoj/judge.py: Judge._grading_thread_main"])
p("C78", "The judge and its worker process",
 "However the grading of a submission goes - the worker reports, hangs, dies or is killed, handlers fail, abort is requested - the judge handles the worker's reports in order, none twice and none invented, reports at most one internal error, and if it reports none it has handled every report; it never waits for the worker longer than the receive timeout per report and five seconds at the end; the grading ends provided the worker makes finitely many reports, and once it has ended the worker process is gone.  A worker only aborts if someone asked; the caller waits five seconds at most and finds the process gone.  A grading that nobody aborts, in which nothing crashes or raises and everyone is in time, has no internal error and kills nothing.  The timeout is twice the time limit in whole seconds, but at least a minute.  (As coded a worker waits only five seconds for the answer to its farewell, so slow handling of the last reports gives an internal error for a complete grading; and an abort the worker does not finish in five seconds is reported as an internal error.)",
 "every interleaving of the worker's two threads, the grading thread, callers of abort and the clock, every crash point and every number of reports",
 "The outcome depends on the interleaving of four threads in two processes and on when each dies.",
 ["dmoj/judge.py: Judge._grading_thread_main, Judge.abort_grading, JudgeWorker.communicate, wait_with_timeout, request_abort_grading, _worker_process_main"])
p("C79", "Loading a problem",
 "A problem's settings are exactly those of its init.yml plus the documented defaults for the ones it leaves out; loading succeeds exactly if the archive it names opens and its cases are listed or can be looked up by name patterns in the archive; a missing, malformed or empty init.yml, a missing or broken archive and an absent case list without an archive are reported as invalid-problem errors; init.yml is only taken from the problem's directory; other data comes from the directory first and otherwise from the last archive entry of that name.  (As coded, a document that is not a mapping escapes as another exception, an empty case list means guessing, and data names may lead outside the directory.)",
 "every file system, archive, document without dynamic keys and metadata; every data name",
 "Documents, archives and directories are unbounded, and settings interact through defaults, two spellings and nesting.",
 ["dmoj/problem.py: Problem.__init__, _resolve_test_cases, _resolve_archive_files, _problem_file_list, ProblemDataManager.__missing__", "dmoj/config.py: ConfigNode"])
p("C80", "A case is checked by the checker it names",
 "Each case of a problem is checked by the checker its configuration names (standard if none), with exactly the arguments given: the built-in one of that name or the module in the file of that name; unknown names, missing files and modules without a check function are reported as invalid-problem errors and nothing else is used instead; all cases naming one file share one module, executed successfully at most once.  (As coded, a checker section without a name or arguments takes those of an enclosing section, and a name that is not a string escapes as another exception.)",
 "every sequence of cases, every configuration without dynamic keys, every outcome of each execution of a module",
 "Configurations nest without bound and modules are cached over the whole history of a problem.",
 ["dmoj/problem.py: TestCase.checker, Problem.load_checker", "dmoj/checkers/__init__.py", "dmoj/utils/module.py: load_module_from_file"])
p("C81", "Registers of a stopped process",
 "When a process stops at a system call, the sandbox sees the call's number, its arguments and its result exactly as the process passed them, in whichever system call interface it used; what a handler writes is what the process finds afterwards in that place, nothing else of it changes, and if its registers cannot be read none is written.  Refusing a call with an error code makes the kernel skip the call and the process see exactly that code.  The program counts as started, and its calls are policed, from its execve on.  (As coded: without seccomp the execve of an X32 program does not make it count as started; on AArch64 the code goes to the wrong register, so the process sees its first argument as result, and a process counts as started whatever its last call returned; on i386 the sixth argument always reads as zero; under X32 a number set to -1 reads back differently; 32-bit registers seen by a 64-bit judge read as non-negative numbers even where signed.)",
 "every build of the judge, system call interface, register contents, argument, value and sequence of accesses in a stop",
 "Register contents are 32 or 64 bits each, and five interfaces share the accessors.",
 ["dmoj/cptbox/ptdebug.cpp, ptdebug_x64.cpp, ptdebug_x86.cpp, ptdebug_arm.cpp, ptdebug_arm64.cpp", "dmoj/cptbox/_cptbox.pyx: Debugger", "dmoj/cptbox/tracer.py: AdvancedDebugger"])
p("C82", "What is reported about a traced process",
 "Once a process has ended, its exit code is known; the memory reported is the peak that the kernel showed when it was last looked at (at faults, at signals and exit of the main process, and at queries), read exactly, or the kernel's own figure if none was seen; the signal is the last one the main process stopped for after it was started; CPU time ran out exactly if it got the signal for that; a fault is reported exactly if there was one, the last one with the number, name and arguments of its call and the error if registers could not be written; the memory limit is exceeded exactly if one is set and the reported peak is above it.  (As coded the signal need not be the one that killed the process: one it caught earlier is reported instead, also when it exits by itself; and a call with the number -1 is reported as a failure of ptrace.)",
 "every history of stops, faults, queries and readings of a process, and every status file of the kernel",
 "Histories and files are unbounded and events interleave.",
 ["dmoj/cptbox/_cptbox.pyx: get_memory, Process._event_handler, max_memory, signal, returncode", "dmoj/cptbox/ptproc.cpp: pt_process::monitor, protection_fault", "dmoj/cptbox/tracer.py: AdvancedDebugger.get_syscall_name, TracedPopen._protection_fault, _ptrace_error, _cpu_time_exceeded, is_mle"])
p("C83", "The judge's connection to the site",
 "Everything the judge writes, its key first of all, goes to a connection that is encrypted if encryption was asked for and whose other end proved to be the configured host unless that check was switched off; the judge is online only on a connection on which it sent the handshake and was answered that it succeeded; each connection begins with the handshake and carries it once; a failed attempt, a refused handshake or a lost connection leads to another attempt after a wait of four seconds to a day; interrupted attempts are repeated at once; the program ends by itself with status zero only when it gives up.  (As coded: a thread reporting results while the judge reconnects may write before the handshake; the old connection stays open during the wait and until the new one is set up; an answer to the handshake that has no name ends the judge.)",
 "every behaviour of the network and the other side, every setting of encryption, every interleaving with other sending threads",
 "The other side may do anything at any point of any attempt while threads send concurrently.",
 ["dmoj/packet.py: PacketManager.__init__, _connect, _reconnect, _do_reconnect, handshake, _read_single, _read_forever, _send_packet"])
p("C84", "How a judge starts",
 "A setting is the one of the configuration file, else the Docker image's, else the standard one; the name and key on the command line come before configured ones; the judge connects to the host and port it was given, with TLS, certificate checks and certificate file as asked; its HTTP interface listens exactly where asked (in Docker, on port 9998 of all interfaces if no port was asked for), and the other programs have none; the executors named in the comma-separated lists are the ones selected or left out; problems are offered from exactly the directories problem_storage_root stands for, each of which is watched or is below a watched directory; without a configuration file (outside Docker), without problem_storage_root, as root, on Windows or without the sandbox module nothing starts; the test suite uses exactly the directory and the patterns it was given.  (As coded: in Docker without a configuration file the name and key on the command line are ignored, and with one /problems is not looked at and runtimes of the image that it does not repeat are lost; the test suite without problem_storage_root crashes.)",
 "every configuration file, image file, command line, directory tree and installation path",
 "Configuration files, trees of directories and command lines are unbounded, and the layers interact.",
 ["dmoj/judgeenv.py: load_env, get_problem_roots, env", "dmoj/judge.py: sanity_check, make_host_port, main, ClassicJudge", "dmoj/config.py: ConfigNode.update, __getattr__"])
p("C85", "Test cases guessed from names",
 "When a problem names no formats, a file of its archive is an input (output) exactly if its name contains .in (.out) or starts with in (out), in any letter case, and has a number behind whose last digits no white space follows: its case is the last number in the name, and its batch is the number before that one if it is at the start or follows a character that is neither letter, digit nor underscore, and no white space lies between; other files are ignored; x.in and x.out always get the same place; an archive laid out as numbered cases and batches becomes exactly these, in the order of the numbers, each with its own input and output and its share of the points, whatever the order of the archive.  (As coded: a problem whose files start with in or out gets its outputs as inputs or the other way round; a number stuck to a word such as sub1/ is no batch, so cases of different directories replace each other; a missing output is not noticed.)",
 "every archive, every file name without a newline, every plan of cases and batches",
 "Names are unbounded and the pattern is matched by backtracking with lazy and greedy parts.",
 ["dmoj/problem.py: DEFAULT_TEST_CASE_INPUT_PATTERN, DEFAULT_TEST_CASE_OUTPUT_PATTERN, Problem._match_test_cases, Problem._resolve_test_cases"])
p("C86", "Launching a program",
 "A submission's program only ever starts in a process group of its own, traced and stopped once for the tracer, unable to gain privileges, with the system call filter (which hides nothing from the tracer but whitelisted calls), the limits, the three streams and the directory it was launched with, and it is the program asked for, with the command's arguments followed by the launch's; if a step fails the process ends with a code that names the first failed step, and the judge reports that step; each environment variable has the value the executor or its configuration gives it, else the launch's, and no other variable of the judge is passed on; the buffer sizes asked for are the ones the program's output streams get; a bare command name is the first executable of that name on the path.  (As coded: a directory that cannot be entered is not noticed; a refused filter rule is not an error, the call traps; runtime settings may replace the preloaded library; an empty size means no buffering; strings are cut at a NUL.)",
 "every executor kind and its settings, every launch option, command, path and every pattern of failing system calls",
 "Settings of three layers combine freely, and each of several kernel calls may fail.",
 ["dmoj/executors/mixins.py: PlatformExecutorMixin.get_env, launch", "dmoj/executors/gcc_executor.py, mono_executor.py, script_executor.py, shell_executor.py: get_env", "dmoj/cptbox/tracer.py: TracedPopen.__init__, wait, _run", "dmoj/cptbox/helper.cpp: cptbox_child_run", "dmoj/cptbox/ptproc.cpp: pt_process::spawn", "dmoj/utils/setbufsize.c", "dmoj/utils/os_ext.py: find_exe_in_path"])
p("C87", "Helper programs get their files and their partner",
 "A checker or interactor that is a program is built from the files named, in the problem's directory, and gets one argument per word of its argument template with the names of the files put in, whatever characters these have; without a template of its own it finds in these files exactly the case's input, the submission's output and the expected output in the order its type has (an interactor: the input and the expected output, and for testlib a file leading nowhere between them); an unknown type is an internal error; an interactor always has more time than the submission; submission and interactor read exactly what the other writes, hold no other end of these pipes, and neither does the judge, so each sees when the other ends.  (As coded: a template that puts a name in quotation marks breaks for names that need quoting; a files setting that is missing or a mapping ends in an unrelated exception; names may lead outside the directory.)",
 "every template made of plain words and file names, every file name, setting and every table of open descriptors",
 "Names and templates are arbitrary strings that pass through two languages (str.format and shell quoting), and the descriptors depend on what is open.",
 ["dmoj/checkers/bridged.py: get_executor, check", "dmoj/graders/bridged.py: BridgedInteractiveGrader", "dmoj/contrib/default.py, peg.py, testlib.py, coci.py: get_checker_args_format_string, get_interactor_args_format_string", "dmoj/utils/helper_files.py: mktemp"])
p("C88", "Auto-configuration prints what it has tested",
  "The settings that auto-configuration prints are, for each executor that works on the machine, the first of the executor's candidate programs found in the current directory or along the search path, and settings with which its self-test has passed; an executor is configured exactly when all its programs are there and the test passes. Scala and Groovy get the Java that their own launchers start and its options, Scala's without the size of the heap. The first program that is missing is named. A setting is printed exactly when an executor that works has it and no later one replaces it. The judge that is given the settings finds the same file, runs the virtual machine in the tested mode and compiles for the tested target if that is this machine. (As coded, where only the generic target works the judge compiles for this machine all the same: the null that is printed is read as the default. A java that is a shell script is never resolved, and Scala, Groovy and Kotlin lose the option naming the crash log.) The continuous-integration run exits with 0 exactly when no case failed and every executor either passed or was allowed not to.",
  "every file system, search path, set of executors and outcome of the self-tests",
  "Auto-configuration runs once on each machine, over files and compilers no test environment has; the settings it prints are trusted ever after.",
  ["dmoj/executors/autoconfig.py:main", "dmoj/executors/base_executor.py:find_command_from_list", "dmoj/executors/base_executor.py:autoconfig_find_first", "dmoj/executors/gcc_executor.py:autoconfig_run_test", "dmoj/executors/java_executor.py:autoconfig", "dmoj/citest.py:ci_test"])

p("C89", "Compilers get the submission and what they make is run",
  "For every compiled language the compiler is pointed at a file that holds the submission (byte for byte; Zig's line ends are written as LF, Python's file starts with the UTF-8 mark), it runs in the submission's directory with the judge's environment and TERM=xterm (Go: three variables only), in a process group of its own in which it and everything it starts can write no file beyond the configured size and is killed together when it takes too long; the program started is the one the compiler was asked to make. Its messages are read in order from both streams (Haskell, Pascal and SBCL: from the error stream only), and after a successful compilation shown whole, or, for Pascal and Cobol, only if they mention a warning. An assembler's program is linked only after assembling succeeded, with the C library exactly when the source's first declaration of features asks for it. (As coded: lines of messages end in CR LF where a terminal is used; the newline added to assembly sources is not in the file; a feature declaration continues over the end of its line; Cobol and Visual Basic lose all messages while auto-configuration hides ordinary output.)",
  "every language, submission, directory, problem id, environment, message of the compiler and tree of processes it starts",
  "Each language has its own convention for where the compiler puts its result; sources, messages and process trees are unbounded.",
  ["dmoj/executors/compiled_executor.py:CompiledExecutor", "dmoj/executors/asm_executor.py:ASMExecutor", "dmoj/executors/mixins.py:NullStdoutMixin", "dmoj/executors/PYTHON.py, python_executor.py", "dmoj/executors/RUST.py", "dmoj/executors/ZIG.py", "dmoj/executors/GO.py", "dmoj/executors/PAS.py", "dmoj/executors/CBL.py"])

p("C90", "Printing never keeps a result from the server",
  "Text printed on the judge's console is the given text with its marked parts coloured, or, without colours, as they are; colours change nothing else. The line of a case shows its verdicts, its times to the nearest thousandth of a second, its memory and its feedback. Every report of a worker is told to the server once and in order, whatever is printed, and an internal error is sent once, without the sequences that set a terminal's colours. (As coded: with colours on, feedback that contains `](` with anything but a colour name after it, such as a participant's output quoted by a checker, raises in the printing, so the case is not told and the submission ends in an internal error; a problem id like that leaves the judge locked. The removal of colours also loses the letter after gcc's erase sequence: main.cpp becomes ain.cpp.)",
  "every text, result, feedback, sequence of reports, with and without colours",
  "Feedback quotes arbitrary program output, which passes through two pattern substitutions before the server is told.",
  ["dmoj/utils/ansi.py:ansi_style, strip_ansi", "dmoj/judge.py:Judge._ipc_result, _ipc_compile_error, _ipc_batch_begin, _grading_thread_main, begin_grading, log_internal_error"])

p("C91", "Scripts and JVM programs are run as submitted, under their limits",
  "A submission in a script language is run by the interpreter that was configured and found at start-up, which is given the file that holds the submission in the way its manual asks for, by an absolute path that cannot be taken for an option. A program for a Java virtual machine is compiled from the file that holds it and started with a heap of at most its memory limit and with the sandbox agent loaded, which is told the policy in the submission's directory, the hints and whether to buffer; Kotlin runs the archive that was made. The policies grant no network, processes or writing of files, and outside Groovy no files and no changes of properties but language and time zone. A Brainf*** program is given a tape of all its memory limit. (As coded: the sandbox itself does not limit the memory of a JVM program nor report MLE for it; options of Groovy's and Scala's configuration come after the heap limit and can lift it; Groovy programs may change any property; the sandbox's limit for Brainf*** is 8 MB higher.)",
  "every submission, problem name, directory, configuration, memory limit, list of hints and request to the virtual machine's policy",
  "Names, paths, configured options and limits vary freely, and each interpreter reads its command line in its own way.",
  ["dmoj/executors/script_executor.py:ScriptExecutor", "dmoj/executors/java_executor.py:JavaExecutor.get_cmdline, get_agent_flag, launch", "dmoj/executors/KOTLIN.py", "dmoj/executors/GROOVY.py", "dmoj/executors/SCALA.py", "dmoj/executors/BF.py:Executor.launch", "dmoj/executors/java-security.policy"])

p("C92", "A session at the command line runs every line and outlives failing ones",
  "Every line typed at the prompt is read as a shell reads words and run as a command, in order, once, in the state the command before left. A command that is unknown or fails is reported and the session goes on; it ends at the end of the input, with quit or with Ctrl-C outside the grading of a submission, and however it ends the judge is shut down, once and last. One command given on the command line ends with status 0, 1 if it fails, 127 if there is no such command. A submitted file or typed source is graded as text, and the problem list shows every name in order in four columns. (As coded, the session ends with a traceback on an open quotation or a trailing backslash, a filter that is no regular expression, the display of a file of unknown kind, a comparison with a source from the editor, an editor that cannot be started, and, with colours, on messages that contain the characters ](. Ctrl-C during a rejudging ends the session; an interrupted command gives status 0; CR LF in a file becomes LF.)",
  "every sequence of lines, interrupts and ends of input, every world a command finds, every list of names and every file",
  "Lines are arbitrary text, and an interrupt or a failure can come at any command of a session of any length.",
  ["dmoj/cli.py:cli_main", "dmoj/commands/base_command.py:Command.get_source, open_editor, CommandArgumentParser", "dmoj/commands/problems.py:ListProblemsCommand.execute", "dmoj/commands/submit.py", "dmoj/commands/rejudge.py", "dmoj/commands/submissions.py"])

p("C93","What is sent to the site is read there as it was meant",
"A packet is sent as printable ASCII text which, read as JSON, gives the packet's own keys and values: text with any characters comes back unchanged, whole numbers and floats exactly, and values of the packet that are bytes (compiler output in an unknown encoding) come back as text, the right text if they were UTF-8, whatever the bytes. Conversely a text from the site is read as exactly the value the JSON grammar gives it, or refused. (As coded two things escape: bytes inside a value of the packet, as in the feedback of a case result, make sending raise; and a NaN or infinite number is written as a word that is not JSON, so that a strict reader refuses the packet.)",
"every packet (values of any depth, any text, any bytes) and every text received",
"tests send a few well-behaved packets; escapes, surrogate pairs, number forms and nesting are unbounded",
["dmoj/packet.py:_send_packet","dmoj/packet.py:_read_single","dmoj/utils/unicode.py:utf8bytes","dmoj/utils/unicode.py:utf8text"])

p("C94","What the site reads is what the workers reported",
"For every sequence of submissions, whatever their workers do (grade, fail to compile, abort, raise, die, lose their pipe) and however the judge's threads interleave: what the site reads from the connection, however its bytes were cut, tells it exactly what the workers reported so far, in order and under the right submission: the verdict, time, points, memory, output and feedback of every case, what compilers said, batches, beginnings, ends, aborts and errors. Once the judge is done with them everything has been told. (For results made of text, numbers and the like; see C95 for others.)",
"every history of submissions, every behaviour of their workers, every interleaving of the judge's threads, every cutting of the byte stream",
"the statement spans the worker, the judge's two threads, JSON, compression and framing; tests exercise each alone on a few values",
["dmoj/packet.py:PacketManager","dmoj/judge.py:Judge._grading_thread_main, _ipc_result","dmoj/judge.py:JudgeWorker._worker_process_main, _grade_cases"])

p("C95","One result that cannot be sent does not silence the judge",
"A result that cannot be sent is reported as an internal error of its submission, and other submissions are reported as usual. (As coded this is false: once a result with bytes in its feedback or output, which a custom grader or checker can give, is queued, it is never removed; every later attempt to send queued results fails, so that the site hears no result, batch, end, abort or internal error of this or of any later submission until the judge is restarted. If every result can be sent, nothing of the sort happens.)",
"every history of submissions, every interleaving of the two threads",
"the effect shows only in submissions after the faulty one, and depends on which thread sends first",
["dmoj/packet.py:_flush_testcase_queue, _periodic_flush_task, test_case_status_packet","dmoj/judge.py:Judge._grading_thread_main, log_internal_error"])

p("C96","Whatever a submission does, it opens only its files",
"After its first execve a sandboxed program can make any calls with any arguments from any of its threads, through the 64-bit, x32 or 32-bit entry: the calls the kernel executes for it are calls its language's policy mentions; those with a path name only files the language may read or, if they open for writing, write; private files are not opened for reading (except by languages whose rules are known to be too wide), nothing but the standard streams and /dev/null is opened for writing (Java: also its crash log), there is no network, no privileged call, no new process other than by clone (with the few exceptions listed in C75, e.g. fork for shell scripts), no signal to another process. Conversely, as long as the main process lives, every permitted file is opened, whatever was tried before. (In a tree without symbolic links, in seccomp mode on x86-64. As coded false if a second thread changes the path between the check and the call, for a symbolic link followed by .., and for int 0x80 from 64-bit code.)",
"every language, every sequence of calls, stops and events of every number of threads, every content of registers and memory",
"the guarantee joins the kernel filter, the monitor, the tables of calls, the path resolution and the regular expressions, and is about all sequences of calls",
["dmoj/cptbox/ptproc.cpp:pt_process::monitor","dmoj/cptbox/tracer.py:TracedPopen, AdvancedDebugger","dmoj/cptbox/isolate.py:IsolateTracer","dmoj/executors/mixins.py:PlatformExecutorMixin.get_security"])

p("C97","A problem's files and the program's runs determine the verdicts",
"For a problem graded the standard way the results a submission gets are those its problem's files ask for: the cases of the list in its document (or, without one, those named in its archive; the pretests if the site asks for them and there are any) are reported in order, in their batches, each under the points that the case or what encloses it gives; each case that is not skipped is run on the input its setting names (from the directory, or else the last entry of that name in the archive; line ends made uniform unless the data is binary), and gets a clean status with all of its points if the program ended well within its limits with an output that is right by the checker the case asks for, compared with the answer its setting names, and otherwise a wrong answer with no points and the statuses for what went wrong; a case is skipped exactly if an earlier failed one counts for it; a program that solves every case is reported as accepted on all of them with full points. With a checker that gives part of the points (the line counter, one comparing numbers, one the problem brings along) a case gets the status and the points of its reply, asked with that case's output, answer, input, position and points, and only about runs that went well unless it wants to see the others. (For documents without dynamic keys and whole-number points; a checker that raises an error ends the grading instead.)",
"every document, archive, directory and set of libraries; every program, given by what each run on each input does; every moment of an abort",
"a verdict depends on the whole path from the document through nested settings, data lookup, the checker and the flags to the report, and a test fixes one problem and one program",
["dmoj/problem.py:Problem, TestCase","dmoj/graders/base.py:BaseGrader","dmoj/graders/standard.py:StandardGrader","dmoj/judge.py:JudgeWorker._grade_cases","dmoj/config.py:ConfigNode"])

p("C98","A function asked for by its signature is compiled with the problem's own program",
"A problem that asks for a function is graded in C and C++ (every version, GCC or Clang) alone; another language is an internal error, and so is a problem whose entry point or header is not named or not there. What is compiled is exactly three files: the contestant's program, unchanged but for a first line that includes the header and, unless the problem allows a main function, a second that renames main to a fresh name; the problem's header; and its entry point; with SIGNATURE_GRADER and ONLINE_JUDGE defined. A contestant's main then is no main to the compiler, and every other name is left alone, if no line of the program says itself what main stands for. (As coded `#undef main` takes the renaming back; a problem whose name has a dot hands over the contestant's program under a name without an ending, and a header named without a dot is not found; the three names have to differ and the entry point must not be empty.)",
"every problem, language, set of executors, program, entry point and header; every fresh name",
"the renaming has to work for every program a contestant may write, and the files must not collide for any problem name",
["dmoj/graders/signature.py:SignatureGrader._generate_binary","dmoj/executors/gcc_executor.py:GCCExecutor.__init__, create_files, get_compile_args"])
p("C99","Every language of the C family is compiled as itself",
"For each of C, C11, C++03 to C++20, Clang's C, Fortran, Ada and Objective-C the compiler configured for the language is run first and writes the program's file, given last; the source is written under the language's ending, whatever the problem's name if it has no dot; the standard asked for is the one the language is named after and no other is; sources come before the libraries they need, and are compiled with optimisation, ONLINE_JUDGE and the caller's definitions, for the configured machine (the judge's own by default), with at most five errors reported, in the way GCC or Clang wants it said. Brainfuck is compiled as C without optimisation. No two languages share a compiler's setting but C and Brainfuck. (As coded CLANGX, though built on C++11, never asks for its standard.)",
"every language, configuration, set of definitions and list of sources",
"the options come from class attributes and overridden methods spread over a dozen files and joined by the method resolution order; the self-tests' programs are valid in most standards",
["dmoj/executors/gcc_executor.py:GCCExecutor.get_compile_args, get_flags","dmoj/executors/clang_executor.py:ClangExecutor.get_flags","dmoj/executors/CPP03.py:Executor.get_flags","dmoj/executors/BF.py:Executor.get_compile_args","dmoj/executors/OBJC.py:Executor"])

p("C100","Configuration nodes are honest collections",
"The keys and pairs a mapping lists are exactly those the document gives it, in order, each pair with what looking the key up gives; iterating over a list gives what its indices give. After an update or a store a lookup gives the new value for the keys it named and the old answer for the others; storing at an index, from either end, changes that element alone, and an index outside the list is refused. A node made with defaults answers with its own value where the document has one, null included, and with the default otherwise. Lists add up in order, node or not, and nothing else does. Listing or updating anything but a mapping is refused as a bad configuration. (As coded: listing does not compute computed keys but gives their code; a value stored under a name with a computed form is lost at the next read; the sum of two nodes inherits nothing; a node over an empty list has become a mapping, to which nothing can be added.)",
"every document, node, key, index and update",
"dynamic keys in problem configurations use nodes as dictionaries and lists of any shape and depth",
["dmoj/config.py:ConfigNode.__init__, update, keys, items, iteritems, __len__, __setitem__, __iter__, __add__, __radd__"])
p("C101","Starting, killing and waiting for a sandboxed program under any schedule of the judge's threads",
"Whatever order the threads around a program run in: the constructor gives the process exactly if spawning worked and raises exactly if it did not, soon, and with the judge's copies of the child's pipe ends closed by then; wait() answers only when the program has ended, been reaped and has an exit code, and does answer after that; the thread enforcing the limits goes away afterwards, also when nothing was started, and then no signal at all is sent. No signal ever reaches the judge's own process group. Past a limit the program's group is killed and the time limit reported; it is reported for no other reason than that or SIGXCPU; without a limit nobody but kill() kills. After the end has been announced at most two more signals are sent. (As coded: these may go to a group that has meanwhile got the program's number; a kill() before the program has made its own group is lost; the time-limit verdict may change after wait() has answered; the message of a spawning error is lost.)",
"every interleaving of the watching thread, the limit-enforcing thread, the caller, callers of kill() and the program itself, with and without a time limit, with working and failing spawns",
"the faults of such code show only under particular schedules of three threads and a process",
["dmoj/cptbox/tracer.py:TracedPopen.__init__, wait, kill, _run_process, _shocker_thread","dmoj/cptbox/_cptbox.pyx:Process._monitor, returncode","dmoj/cptbox/ptproc.cpp:pt_process::spawn"])

p("C102","However the judge stops listening, its threads stop and the process ends",
"However listening ends (Ctrl-C, giving up on reconnecting, the site's request to disconnect) and whatever the thread sending problem lists and the thread sending queued results are doing then, a few turns of each thread suffice for the process to be over, with status 0, the grading aborted, the connection closed, the HTTP interface and the file monitor stopped. Nothing is stopped before; a closed connection means that grading has been aborted; after the updater has been told to end at most the list under way is sent, and no list is sent that nobody asked for. An error while reading ends the process at once with status 1. (As coded: that error does not abort the submission being graded; and a second Ctrl-C while the first is being handled leaves a process that never ends.)",
"every schedule of the main, updater and flusher threads and every moment of the stop, with and without the HTTP interface",
"a lost wake-up shows only if the stop falls between two particular instructions of another thread",
["dmoj/judge.py:main, Judge.listen, murder, update_problems, _updater_thread","dmoj/packet.py:PacketManager.close, disconnect, _read_forever, run, _periodically_flush_testcase_queue"])

p("C103","The judge's int refuses texts too long to convert and is otherwise int",
"In the judge, int applied to anything but a text of more than 10000 characters gives what it always gave, an ordinary int or the same exception; a longer text is refused with a ValueError, in every base and by every class derived from int, without the slow conversion being started. A class derived from int makes its own objects. isinstance and issubclass against int, and against classes that have nothing to do with it, answer as before for every class; the new int equals the old one, symmetrically, and equal classes hash alike. Only the names int and int_ change, and int can be put back. (As coded: long bytes are still converted; int() without arguments raises TypeError; every number is an instance of every class derived from the new int; the name int_ stays.)",
"every argument list, conversion, class and set of built-in names",
"the patch replaces a built-in for all code in the process, including every checker and generator written by problem setters",
["dmoj/utils/builtin_int_patch.py:patched_int, patched_int_meta, apply, unapply"])

p("C104","A ping is answered with the load of the host, and every signal has a name",
"A ping is answered by one packet of exactly five fields: its name, the site's own stamp unchanged, the judge's time, the load and the number of processors. The load is the machine's load average divided by the number of processors, or -1 where the machine has none to tell. Where the system has getloadavg every ping in any sequence is answered, in order, and the connection is read on. The name of a signal is never empty: it is the C library's for the signals of the system that have one, and 'Unknown signal' with the number otherwise; the library is never asked about a number outside the signals. (As coded: without getloadavg, a /proc/loadavg that cannot be read or is empty makes a ping end the judge.)",
"every load, clock, sequence of pings, signal number and C library",
"the unavailable load and the unnamed signal do not occur on the machine running the tests",
["dmoj/sysinfo.py:load_fair, cpu_count, report_callbacks","dmoj/packet.py:PacketManager.ping_packet","dmoj/utils/os_ext.py:strsignal"])

p("C105","Runtime versions are asked once and reported unchanged ever after",
"Until asking an executor's runtimes has worked, a call asks them: it gives a report that names every runtime, in order, with the version learnt from the first flag whose command succeeds and prints one, or with no version, and raises exactly if there is no such report. The first report of an executor is the one it gives ever after, whatever its runtimes would answer later and whichever other executors are asked; a call that raises leaves nothing behind. A PyPy that prints both its versions gets both reported. (As coded: a PyPy that prints no version makes the call raise instead of being reported without one; a PyPy 3 that cannot be asked is reported to implement the Python of PyPy 2.)",
"every history of calls, set of runtimes, flags and outputs, and every way to read a version from an output",
"which of several flags answers, and whether a runtime changes while the judge runs, depends on the installation",
["dmoj/executors/base_executor.py:BaseExecutor.get_runtime_versions, version_cache","dmoj/executors/PYPY.py:Executor.parse_version, get_runtime_versions","dmoj/executors/PYPY3.py:Executor"])

p("C106","A text typed at the console, or written in an editor, is what gets submitted",
"Without $EDITOR, the text is made of exactly the lines typed before the end of input or a line saying :q (blanks around it do not matter), and nothing after that is read; an error while reading makes the command invalid, an interrupt goes through, and neither gives a text. With $EDITOR, nothing is read from the console, the editor is given a file with the language's suffix and the old text, and what it writes into that file is the text. (As coded: an editor that saves by putting a new file in place of the old one has its text ignored; a text that was typed cannot be edited again, since a str is written to a binary file.)",
"every sequence of lines, errors and interrupts, and every editor, suffix and text",
"editors differ in how they save, and tests do not type",
["dmoj/commands/base_command.py:Command.open_editor"])

with open('/verif/properties.jsonl','w') as f:
    for x in P: f.write(json.dumps(x)+"\n")
print(len(P))
