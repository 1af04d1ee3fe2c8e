# Formal model of DMOJ/judge in Rocq (Coq 8.16.1)

## Layout

`rocq/theories/` is mapped to the logical name `Verif`.

- `Model/*.v`  executable Gallina model of the code, function by function, each definition citing `/repo` file and lines.
- `Spec/*.v`   small independent specifications (what the code should do, in terms a user would recognise).
- `Proofs/*.v` lemmas.
- `Properties/*.v` only the property theorems (`exact lemma.` + `Print Assumptions`) and the non-vacuity Examples.

Bytes and characters are `N`; byte strings and text are `list N`.  Python exceptions are constructors of result types.
Behaviour of the environment (kernel, compilers, zlib, `float()`, other threads' timing) is a function argument, an event list
or a schedule, quantified universally in the theorems; any assumption about it is a hypothesis visible in the statement.
Concurrent code is a transition system whose steps are the atomic actions of each thread; theorems hold for every schedule.

`tools/` holds the scripts that generate the bookkeeping files: `props.py` (properties.jsonl), `manifest.py` (MANIFEST.json),
`design.py` (this file), `tables.py` (system call tables, from /repo's .tbl files), `unicode.py` (the \\d and \\w tables), `seed.py`
(plants a bug in a scratch copy of the model, rebuilds, and logs which theorems fail, in seeded/LOG.jsonl).

## Plan per property

The file in brackets is the one in `Properties/` (with namesakes in `Model/`, `Spec/`, `Proofs/`).

- **C01** [Checkers] Default checker decides token/line equality. Checkers: two-cursor scanner as a function on list suffixes, fuel-free structural recursion; spec = `lines_of_tokens`; proof by strong induction on both remaining suffixes; equivalence-relation corollaries.
- **C02** [Checkers] Default checker never reads outside the buffers. Checkers: index-based version of the scanner where every read is a checked `nth_error` and every loop carries fuel; prove no checked read fails, fuel never runs out, and the result equals the suffix-based model.
- **C03** [Checkers] Identical checker is byte equality, presentation error is advisory. Checkers: direct model; case analysis on top of C01.
- **C04** [Checkers] Sorted/unordered checkers decide multiset equality. Checkers: model split/filter/sort with a merge/insertion sort on lexicographic byte order; spec = Permutation.
- **C05** [Checkers] Easy checker compares case-folded character multisets. Checkers: Counter as counting function; spec = forall byte, equal counts of folded bytes / Permutation.
- **C06** [Checkers] Rstripped checker compares right-stripped lines. Checkers: direct model, spec by `Forall2`.
- **C07** [Checkers] Line-count checker awards the exact fraction within bounds. Checkers: rational points (Q) instead of doubles; count by position.
- **C08** [Floats] Floats checker token rule. Floats: IEEE binary64 as Flocq's binary_float, `float()` as an oracle; spec = per-token relation.
- **C09** [Floats] Floats checker tolerance is exact up to one rounding. Floats: Flocq's Bminus, Babs, Bcompare correctness over R; error bound of one rounding.
- **C10** [Contrib] Bridged checker/interactor exit codes award bounded points or raise. Contrib: exit-code functions with regexes modelled as concrete matchers on stderr lines; points as Z / Q; exceptions as values.
- **C11** [Contrib] PEG protocol partial points. Contrib: same; expected to be refuted (ratio is not clamped).
- **C12** [Grading] Verdict codes are a faithful decoding of the result flags. Result: flags as N with `N.testbit`; codes filtered from display order.
- **C13** [Grading] A submission is never accepted after a runtime failure. Grading: model of populate_result + check_result + grade as functions on a record; case analysis.
- **C14** [Grading] Every limit violation is flagged. Grading: tracer predicates and populate_result on observables.
- **C15** [Worker] Test cases are numbered and reported once, in order. Worker: `_grade_cases` as a function from the flattened case list and a verdict oracle to the IPC message list; induction.
- **C16** [Worker] Short-circuit semantics. Worker: spec = predicate on history prefix.
- **C17** [Worker] Grading always ends with exactly one terminal report. Worker: whole `_worker_process_main` incl. exceptions as values; grammar of message lists.
- **C18** [Worker] Abort stops grading. Worker: abort oracle = step at which the flag becomes visible.
- **C19** [Packets] Case results reach the server exactly once, in order, whatever the flush schedule. Packets: two-thread transition system, lock protected atomic steps; invariant sent ++ queued = reported; every interleaving by induction over schedules.
- **C20** [Packets] Wire framing round-trips across arbitrary chunking. Packets: size header big-endian 4 bytes; zlib+json as an oracle codec with round-trip hypothesis; chunked stream reader.
- **C21** [Packets] Reconnection backs off geometrically and eventually gives up. Packets: backoff over Q (exact: 4*1.5^k); bound on k; trace induction.
- **C22** [Packets] Server packets are dispatched to the matching action only. Packets: dispatch function on packet name.
- **C23** [Judge] At most one submission is graded at a time. Judge: transition system with lock; invariant.
- **C24** [Judge] Problem updates are never lost. Judge: event flag/updater transition system; invariant 'pending => flag or running-before-read'.
- **C25** [Communicate] Process I/O is delivered exactly, under any scheduling. Communicate: poll-event transition system driven by an arbitrary event list (oracle); invariant.
- **C26** [Communicate] Output limit. Communicate: same.
- **C27** [Problem] Line-ending normalisation of test data. Problem: byte-level replace functions; algebraic laws.
- **C28** [Problem] Test-case files are matched and ordered deterministically. Problem: association-list groups; sortedness and permutation.
- **C29** [Config] Configuration inheritance. Config: tree of nodes with parent chain; lookup spec = first in chain.
- **C30** [Config] Configuration defaults are used only when a key is absent. Config: expected to be refuted for falsy values; prove the exact behaviour.
- **C31** [Config] Dynamic configuration keys are evaluated once. Config: read as state transformer; induction over reads.
- **C32** [Config] Grader selection precedence. Problem: boolean function; precedence.
- **C33** [Sandbox] Sandboxed paths are resolved before checking. Sandbox paths: posixpath.join/normpath model; spec = stack-machine path resolution.
- **C34** [Sandbox] File access is denied unless a rule allows it. Sandbox: flag words as N, handlers as values.
- **C35** [Sandbox] Default jail hides private files. Sandbox: regex AST with matching semantics incl. look-ahead; concrete BASE_FILESYSTEM; prefix lemmas.
- **C36** [Sandbox] Relative and at-style calls use the right base directory. Sandbox: register values as Z mod 2^64.
- **C37** [Tracer] Unknown system calls are denied. Tracer: handler table and whitelist functions.
- **C38** [Tracer] Monitor loop never lets a denied call run. Monitor: transition function on wait events; invariant over event lists.
- **C39** [Sandbox] Processes may only signal themselves. Sandbox: decision functions.
- **C40** [Clock] Execution and wall time accounting. Monitor: timespec as Z pairs; homomorphism to nanoseconds.
- **C41** [ReadStr] Reading a path from the program never overruns the buffer. Readstr: memory oracle, buffer as address-checked writes.
- **C42** [Child] No descriptor leaks into the sandbox. Closefrom: list of directory entries processed; digits parser.
- **C43** [Cache] Compile cache: a hit returns the artefact of the same key, size bounded. Cache: LRU association list; invariant over op lists.
- **C44** [Cache] Cached artefacts in use are not deleted. Cache: with reference tracking of directories; expected to be refuted.
- **C45** [Cache] Distinct sources never share a cached binary. Cache: key function; expected to be refuted (concatenation is not injective); positive part for single-source default key.
- **C46** [Brainf] Brainf*** sources: rejected iff brackets are unbalanced, otherwise translated faithfully. BF: bracket counter and translation; spec = Dyck words.
- **C47** [Roots] Problem lookup. Roots: file system as a predicate; list search.
- **C48** [Executors] Executor module selection. Modules: list filters.
- **C49** [Interactor] Interactor reads tokens faithfully. Interactor: token reader as a state machine on a byte stream; expected partly refuted.
- **C50** [Commands] CLI submission history. Commands: history list.
- **C51** [Watch] HTTP control endpoint. Control: request function.
- **C52** [Grading] Feedback text. Result: function on options.
- **C53** [Child] Resource limits given to the sandbox. Limits: arithmetic.
- **C54** [Sandbox] Executor symlink and file-jail confinement. Paths: commonprefix model; expected to be refuted for sibling prefixes.
- **C55** [Judge] An abort reaches only the submission it names. Judge: abort requests as events of the judge's transition system; the submission named, the one running, the worker's flag.
- **C56** [Problem] Test data sources. Problem: lazy data source as a state machine (generator run, files, caches, free); invariant over sequences of reads.
- **C57** [Config] Case numbering. Problem: numbering as a fold over the configuration tree; spec = flattened list with positions.
- **C58** [Problem] Helper failures are noticed. Compile/Contrib: helper result as a record; case analysis against an independent predicate of a clean exit.
- **C59** [Tracer] A program that could not be started is reported as such. Monitor: start-up phase of the wait loop with exec events; invariant over event lists; refuted in seccomp mode.
- **C60** [Child] Standard streams of the sandboxed program. Child: descriptor table as a finite map, dup2/close steps in source order; spec = the three requested streams.
- **C61** [Clock] Time limit verdict. Clock: polls of the watchdog thread and the kernel's signal as events; seconds as binary64 (Flocq).
- **C62** [Cache] Scratch directories are removed. Cache: object life cycle with scratch directories as a set; invariant over op lists.
- **C63** [Roots] Problem directories from the configuration. Roots: glob depth expansion on a directory tree; spec = paths of exactly n components.
- **C64** [Utf8] Text and bytes. Utf8: decoder as a state machine, spec = the encoding function; both directions.
- **C65** [Executors] Executor start-up test. Executors: decision function on configuration, self-test and result; iff specification.
- **C66** [Executors] Where launch symlinks may be placed. Access: normpath and commonprefix on the link target; spec by components.
- **C67** [Executors] Runtime versions. Executors: leftmost-longest search; spec by quantification over positions.
- **C68** [Watch] Telling other servers about updates. Watch: threads and an event flag as a transition system; every schedule.
- **C69** [Feedback] The reason shown for a crash. Feedback: the patterns as matchers on bytes; spec = last report in an independent grammar of reports.
- **C70** [Compile] The outcome of a compilation. Compile: compiler, killer thread and reader as a transition system; every interleaving.
- **C71** [Compile] What the C and C++ compilers are given. Compile: file writing as a map and the argument list; spec = set of written files and non-option arguments.
- **C72** [Compile] Building checkers, generators and interactors. Compile: language choice and file mapping; spec by the newest available standard.
- **C73** [Sources] A Java submission is compiled and run by its first public class. Sources: substitution of comments and literals, search for the class; spec = pieces of a program text.
- **C74** [Sources] A Go submission is compiled only if it is in package main. Sources: the same for Go's package clause.
- **C75** [Policies] What programs of each language may do beyond the base policy. Policies: per-executor system call tables generated from the sources, on top of Tracer's decision function; theorems by evaluation over the finite tables lifted to every ABI, register state and rule set.
- **C76** [FileRules] The files programs of each language may read and write. FileRules: the rules each executor builds, as patterns parsed by Regex; each rule is given its meaning in terms of paths and the union is proved exact.
- **C77** [Testsuite] The judge's own test suite. Testsuite: settings as a key list, expectations parsed to sets, the manager as a fold over reports; spec reads the settings directly and says which report is fine.
- **C78** [Ipc] The judge and its worker process. Ipc: a transition system of the worker's main and receiving threads, the judge's grading thread, a caller of abort and a clock, over two message queues; invariants over arbitrary schedules, a decreasing measure for fair rounds, a stronger invariant for uneventful schedules.
- **C79** [Loading] Loading a problem. Loading: the constructor as a function of a file system, a YAML reader and a ZIP reader; spec describes settings, archive and case arrangement over nests of configuration nodes; equivalence by the lookup lemmas of Config.
- **C80** [Loading] A case is checked by the checker it names. Loading: the checker lookup with its module cache; spec relation asks between a node and a name with arguments; cache invariants over any sequence of cases.
- **C81** [Registers] Registers of a stopped process. Registers: the debugger of each build as functions on a register file of integers, signed and unsigned C conversions as arithmetic modulo powers of two; spec is Linux's calling conventions per interface and the final value of a register over any list of accesses.
- **C82** [Accounting] What is reported about a traced process. Accounting: rounds of the monitor as the events it sends, the event handler as a fold over any history; the reader of /proc/<pid>/status as C string functions; spec gives each reported field as the last of its kind in the history.
- **C83** [Connect] The judge's connection to the site. Connect: a transition system over connections (what the other end proved, which one self.conn and the files refer to) with moves for network outcomes and concurrent senders; invariants over arbitrary schedules, reusing the backoff of Packets.
- **C84** [Startup] How a judge starts. Startup: load_env and main as functions of parsed arguments, files and a directory tree (reusing Roots and Config); spec = layered documents, the directories a storage value stands for, parts between commas; normalised paths shown to commute with appending names.
- **C85** [CaseNames] Test cases guessed from names. CaseNames: the two patterns as terms of a backtracking matcher in continuation style (checked against Python's re on random names while writing it); spec gives a name's last number and the number before it; equivalence by reducing greedy parts to maximal runs and the lazy part to the leftmost place; archives through C28's theorem.
- **C86** [Launch] Launching a program. Launch: the layered environment as dict updates, the strings the child gets, the child's steps over a record of what each kernel call answers, strtoul and getenv of the preloaded library; spec gives layered lookup, the list of things that hold at execve and the first failure; induction on the dicts, case analysis over the failing steps; streams and limits through Child's functions (C42, C53, C60).
- **C87** [Helpers] Helper programs get their files and their partner. Helpers: shlex.quote, the state machine of shlex.split and the literal/field states of str.format (all compared with Python on random strings while writing); spec describes templates as words of pieces; induction over the words with the lexer's state as invariant; the pipes over Child's descriptor tables, using C60's theorem for each of the two launches.
- **C88** [Autoconf] Auto-configuration prints what it has tested. Model/Autoconf.v: the machine as oracles for the file system, the search path and the self-test; find_command_from_list, each class's autoconfig, the loop of autoconfig.py and ci_test. Spec/Autoconf.v says what it means to be found, assembled and tested. Proved by induction on the candidates, the directories, the mapping and the list of executors.
- **C89** [Toolchain] Compilers get the submission and what they make is run. Model/Toolchain.v: per-language files, command lines, environment and streams as functions of a language constant; compiler processes as records of pid, group and limits; the feature regex and the assembler's two commands. Spec/Toolchain.v gives each compiler's convention for the place of its result, how a terminal shows text, and what a declaration of features is. Proved by cases on the language and induction on texts and process trees.
- **C90** [Console] Printing never keeps a result from the server. Model/Console.v: the two patterns as matchers (compared with Python's re on random texts while writing), termcolor's tables, the handlers as lists of lines and packets ending normally or in an exception. Spec/Console.v describes markup, ink on a terminal and the line of a case. A text is shown not to fail when every `](` in it is followed by known attributes, an invariant that is closed under concatenation.
- **C91** [Interpreters] Scripts and JVM programs are run as submitted, under their limits. Model/Interpreters.v: the fourteen script languages and eight JVM languages as constants with their files, commands and command lines; the policy files as lists of permissions. Spec/Interpreters.v has each interpreter's usage, how a JVM reads its command line (an inductive relation: options, then a class or archive, then arguments), what its agent is told and what a permission covers. Proved by cases on the language and induction on option lists and hints.
- **C92** [Session] A session at the command line runs every line and outlives failing ones. Model/Session.v: the loop as a function of a list of events (lines, interrupts, end of input) on top of Model/Commands.v, with the messages of failing commands, the exceptions that escape, and the acts on the judge. Spec/Session.v gives the grammar of shell words as inductive relations, the troubles as a list of causes and the commands lines stand for. The lexer is proved equivalent to the grammar by induction on the length; the rest is by induction on the events and inversion.
- **C93** [Json] What is sent to the site is read there as it was meant. Model/Json: json.dumps (ensure_ascii, default separators) and json.loads (strict strings, the number pattern, NaN/Infinity, duplicate keys, a surrogate-pair rule) as total functions on code points, bytes values cleaned as _send_packet does. Spec/Json: the RFC 8259 grammar as an inductive relation between texts and values. Proved: loads is exactly the grammar (both directions, by fuel induction and by mutual induction on the grammar), uniqueness, when dumps succeeds, printable ASCII, round trip for all values, standard JSON iff no NaN/infinity, and the same for packets with bytes in them. Floats are an abstract type with exact repr.
- **C94** [Site] What the site reads is what the workers reported. Spec/Site: the protocol (which dictionary tells what news), what each report of a worker is to become, and which reports a judge can handle given the stream of Model/Worker. Model/Site builds the dictionaries packet by packet. Proved by composing C17 (shape of streams), C19 (queue and flusher), C93 (JSON) and C20 (framing): every worker stream gives a worker-like history; the results' dictionaries can be sent; reading back gives the news.
- **C95** [Site] One result that cannot be sent does not silence the judge. Model/Site: the two threads with a flush that raises TypeError when a queued result cannot be written, the exception handlers of the flusher and of the grading thread. Proved: with sendable results it is the machine of C19; with an unsendable one in the queue, an invariant on programs (a flush stands before every packet but three kinds) shows that only those kinds are sent ever after. The wished-for statement is refuted by a concrete history.
- **C96** [Confine] Whatever a submission does, it opens only its files. Model/Confine joins the monitor (C36), the tables of calls (C37), the policies (C75), the file rules (C76, C34, C35) and the cache of compiled rules; Spec/Confine has the kernel's side: a filter that lets calls through, stopped threads, registers written over, calls executed. Proved by invariants over all histories: everything executed passed the check of its language (C96_known, C96_files, C96_others, C96_private, C96_writes) and permitted files are always opened (C96_granted); C96_race_refuted shows what a second thread can do.
- **C97** [Whole] A problem's files and the program's runs determine the verdicts. Model/Whole joins loading (C79), the settings (C26), the case names (C28), the listing of cases, the data of a case (C27, C56), the choice of checkers (C80), the checkers (C01-C05), standard grading (C06-C09) and the worker (C12-C14) into one function from the files and the program's runs to the worker's messages; Spec/Whole says what a document's nodes ask for without it. Proved by composing the parts' theorems: each case node is found and asks for what the model reads there, each case's result is the deserved one, and the worker's theorem orders them; C97_scored covers every checker, C97_listed and C97_guessed give the hypotheses from the document, C97_grading connects it with C94.
- **C98** [Signature] A function asked for by its signature is compiled with the problem's own program. Model/Signature: _generate_binary on top of the source dictionary and file names of Model/Compile. Spec/Signature says when a problem is usable and has a little preprocessor (lines, identifiers, #define main and #undef main; literals, comments and other directives are not told apart). Proved: the iff for making anything, the files as an iff on the written directory, the compiler's arguments, and by induction over the lines that main is renamed and the rest kept; refuted by #undef.
- **C99** [Signature] Every language of the C family is compiled as itself. Model/Signature: the class attributes and get_flags of each executor as the method resolution order has them. Spec/Signature gives each language's standard and ending. Proved by cases over the languages for all configurations and sources; C99_standard_refuted shows CLANGX without its standard.
- **C100** [Nodes] Configuration nodes are honest collections. Model/Nodes: the remaining methods of ConfigNode over the chains of Model/Config. Spec/Nodes says what a mapping with repeated entries says of a key. Proved for all documents: lists, pairs and iteration against lookups (getitem), updates and defaults by a lemma on the last entry, sums; the four surprises by concrete nodes.
- **C101** [Lifecycle] Starting, killing and waiting for a sandboxed program under any schedule of the judge's threads. Model/Lifecycle: the watching thread, the limit-enforcing thread with its kill(), the constructor and wait(), other callers of kill() (test and sending being two steps) and the program as a transition system; a schedule is any list of moves. Proved by one invariant tying every flag to the watching thread's position, and by decreasing measures for the liveness parts; the four races by concrete schedules.
- **C102** [Shutdown] However the judge stops listening, its threads stop and the process ends. Model/Shutdown: the main thread from the end of listening on, the updater and the flusher as a transition system whose steps are the single reads and writes of updater_exit, updater_signal and _closed; a schedule is any list of moves. Proved by an invariant (a wake-up set after the flag cannot be lost) and decreasing measures; the two findings by concrete schedules and all their continuations.
- **C103** [IntPatch] The judge's int refuses texts too long to convert and is otherwise int. Model/IntPatch: classes with single inheritance, the interpreter's rules for isinstance, issubclass, == and hash in the presence of the metaclass, and __new__ over an arbitrary conversion function. Spec/IntPatch gives inheritance as an inductive relation. Proved by cases and induction on classes; independence of the conversion's behaviour on long texts says that it is never called on them.
- **C104** [Host] A ping is answered with the load of the host, and every signal has a name. Model/Host: load_fair of both platforms over an arbitrary load average or /proc/loadavg, the callbacks and the dictionary of the ping response, a sequence of pings, and strsignal over an arbitrary C library. Loads are exact rationals. Proved by cases and by induction on the sequence of pings; that the library is not asked about numbers out of range is independence of its answers there.
- **C105** [Versions] Runtime versions are asked once and reported unchanged ever after. Model/Versions: get_runtime_versions over arbitrary answers of the commands and an arbitrary parse_version, with the cache threaded through a history of calls; PyPy's class attribute and its inheritance by PYPY3. Spec/Versions says declaratively which version a runtime has. Proved by induction on flags, runtimes and histories; the findings for every output of the kind named.
- **C106** [Editor] A text typed at the console, or written in an editor, is what gets submitted. Model/Editor: open_editor over arbitrary input events and an arbitrary editor, which may write into the file, replace it or remove it. Spec/Editor says which line ends the input and which text lines make. Proved by induction on the lines; the findings by cases on what the editor does.

## Trusted base

- Coq 8.16.1's kernel (`vm_compute` included), and the statements of the theorems with the definitions in `Model/` and `Spec/` they mention.
- The reading of /repo by hand: nothing ties the model to the code mechanically.  Each definition cites the lines it models.
- The generated tables (`Model/*Tables*.v`): system call numbers copied from /repo's own tables, \d and \w of Unicode 14.
- No axioms of our own.  `Print Assumptions` says "Closed under the global context" for every theorem except the following,
  which use the standard library's real numbers (through Flocq):

  - `C08_floats_accepts_judge_answer`, `C08_floats_modes`, `C08_floats_nan_rejected`, `C08_floats_token_rule`, `C08_infinite_self_refuted`, `C08_named_checkers`, `C09_absolute_tolerance`, `C09_default_infinite_judge_refuted`, `C09_default_tolerance`, `C09_relative_overflow_refuted`, `C09_relative_tolerance`, `C11_peg_bounded_partial`, `C11_peg_bounded_refuted`, `C11_peg_exit_codes`, `C40_seconds_monotone`, `C61_exact`, `C61_sound`, `C61_verdict`: `ClassicalDedekindReals.sig_forall_dec`, `ClassicalDedekindReals.sig_not_dec`, `Classical_Prop.classic`, `FunctionalExtensionality.functional_extensionality_dep`

  (739 theorems are closed, 18 use these axioms.)

## What is modelled

| /repo | model files |
|---|---|
| dmoj/checkers/_checker.c | Checkers |
| dmoj/checkers/bridged.py | Compile, Grading, Helpers |
| dmoj/checkers/easy.py | Checkers |
| dmoj/checkers/floats.py | Floats |
| dmoj/checkers/floatsabs.py | Floats |
| dmoj/checkers/floatsrel.py | Floats |
| dmoj/checkers/identical.py | Checkers |
| dmoj/checkers/linecount.py | Checkers, Whole |
| dmoj/checkers/rstripped.py | Checkers |
| dmoj/checkers/sorted.py | Checkers |
| dmoj/checkers/standard.py | Checkers, Grading, Whole |
| dmoj/checkers/unordered.py | Checkers |
| dmoj/citest.py | Autoconf |
| dmoj/cli.py | Commands, Session, Startup |
| dmoj/commands/base_command.py | Commands, Editor, Session |
| dmoj/commands/diff.py | Commands, Session |
| dmoj/commands/problems.py | Commands, Session |
| dmoj/commands/rejudge.py | Commands |
| dmoj/commands/resubmit.py | Commands, Session |
| dmoj/commands/show.py | Commands, Session |
| dmoj/commands/submissions.py | Commands, Console, Session |
| dmoj/commands/submit.py | Commands, Session |
| dmoj/config.py | Autoconf, Compile, Config, Loading, Nodes, Startup |
| dmoj/contrib/coci.py | Contrib, Helpers |
| dmoj/contrib/default.py | Contrib, Helpers |
| dmoj/contrib/peg.py | Contrib, Helpers |
| dmoj/contrib/testlib.py | Contrib, Helpers |
| dmoj/control.py | Watch |
| dmoj/cptbox/_cptbox.pyx | Access, Accounting, Child, Launch, Lifecycle, Monitor, Registers |
| dmoj/cptbox/handlers.py | Access, Monitor, Policies, Registers, Tracer |
| dmoj/cptbox/helper.cpp | Child, Launch |
| dmoj/cptbox/isolate.py | Access, Confine, Paths, Policies, Tracer |
| dmoj/cptbox/ptbox.h | Accounting, Clock, Launch, Registers, Tracer |
| dmoj/cptbox/ptdebug.cpp | Monitor, ReadStr, Registers |
| dmoj/cptbox/ptdebug_arm.cpp | Registers |
| dmoj/cptbox/ptdebug_arm64.cpp | Registers |
| dmoj/cptbox/ptdebug_arm64.h | Registers |
| dmoj/cptbox/ptdebug_x64.cpp | Monitor, Registers, Tracer |
| dmoj/cptbox/ptdebug_x64.h | Registers |
| dmoj/cptbox/ptdebug_x86.cpp | Registers |
| dmoj/cptbox/ptproc.cpp | Accounting, Clock, Confine, Launch, Lifecycle, Monitor, Registers, Tracer |
| dmoj/cptbox/syscalls.py | Tracer |
| dmoj/cptbox/tracer.py | Access, Accounting, Child, Clock, Confine, Grading, Helpers, Interactor, Launch, Lifecycle, Monitor, ReadStr, Result, Tracer |
| dmoj/executors/ADA.py | Signature |
| dmoj/executors/AWK.py | Interpreters, Policies |
| dmoj/executors/BASH.py | Interpreters |
| dmoj/executors/BF.py | Brainf, Interpreters, Signature |
| dmoj/executors/C.py | Signature |
| dmoj/executors/C11.py | Signature |
| dmoj/executors/CBL.py | Toolchain |
| dmoj/executors/COFFEE.py | Autoconf, FileRules, Interpreters, Policies |
| dmoj/executors/CPP03.py | Signature |
| dmoj/executors/CPP11.py | Signature |
| dmoj/executors/D.py | Toolchain |
| dmoj/executors/DART.py | FileRules, Policies |
| dmoj/executors/F95.py | Signature |
| dmoj/executors/FORTH.py | FileRules, Interpreters |
| dmoj/executors/GASARM.py | Toolchain |
| dmoj/executors/GO.py | Policies, Sources, Toolchain |
| dmoj/executors/GROOVY.py | Autoconf, Interpreters |
| dmoj/executors/ICK.py | Toolchain |
| dmoj/executors/JAVA10.py | Interpreters |
| dmoj/executors/JAVA11.py | Interpreters |
| dmoj/executors/JAVA15.py | Interpreters |
| dmoj/executors/JAVA8.py | Interpreters |
| dmoj/executors/JAVA9.py | Interpreters |
| dmoj/executors/KOTLIN.py | Autoconf, Interpreters |
| dmoj/executors/MONOFS.py | Toolchain |
| dmoj/executors/MONOVB.py | Autoconf, Toolchain |
| dmoj/executors/OBJC.py | FileRules, Signature |
| dmoj/executors/PAS.py | Toolchain |
| dmoj/executors/PERL.py | FileRules, Interpreters, Policies |
| dmoj/executors/PHP.py | FileRules, Interpreters |
| dmoj/executors/PIKE.py | Policies |
| dmoj/executors/PRO.py | Interpreters |
| dmoj/executors/PYPY.py | Versions |
| dmoj/executors/PYPY3.py | Versions |
| dmoj/executors/RKT.py | Autoconf, FileRules, Policies |
| dmoj/executors/RUBY2.py | Autoconf, FileRules, Interpreters, Policies |
| dmoj/executors/RUST.py | Toolchain |
| dmoj/executors/SBCL.py | Policies, Toolchain |
| dmoj/executors/SCALA.py | Autoconf, Interpreters |
| dmoj/executors/SED.py | Interpreters |
| dmoj/executors/SWIFT.py | FileRules |
| dmoj/executors/TCL.py | Policies |
| dmoj/executors/TEXT.py | Policies |
| dmoj/executors/TUR.py | Autoconf, FileRules |
| dmoj/executors/V8JS.py | Interpreters |
| dmoj/executors/ZIG.py | Toolchain |
| dmoj/executors/asm_executor.py | Autoconf, FileRules, Toolchain |
| dmoj/executors/autoconfig.py | Autoconf |
| dmoj/executors/base_executor.py | Autoconf, Cache, Executors, Grading, Interpreters, Toolchain, Versions |
| dmoj/executors/clang_executor.py | Signature |
| dmoj/executors/compiled_executor.py | Cache, Compile, Interpreters, Toolchain |
| dmoj/executors/gcc_executor.py | Autoconf, Cache, Compile, Feedback, Launch, Signature |
| dmoj/executors/java_executor.py | Autoconf, Confine, Feedback, FileRules, Interpreters, Policies, Sources, Toolchain |
| dmoj/executors/mixins.py | Access, Executors, FileRules, Launch, Policies, Toolchain, Tracer |
| dmoj/executors/mono_executor.py | Autoconf, Feedback, FileRules, Grading, Launch, Policies, Toolchain |
| dmoj/executors/python_executor.py | Feedback, Toolchain |
| dmoj/executors/script_executor.py | FileRules, Interpreters, Launch |
| dmoj/executors/shell_executor.py | Confine, FileRules, Launch, Policies |
| dmoj/graders/base.py | Config, Whole, Worker |
| dmoj/graders/bridged.py | Compile, Grading, Helpers |
| dmoj/graders/interactive.py | Grading, Interactor |
| dmoj/graders/signature.py | Signature |
| dmoj/graders/standard.py | Checkers, Grading, Whole |
| dmoj/judge.py | Console, Ipc, Judge, Packets, Roots, Shutdown, Site, Startup, Testsuite, Whole, Worker |
| dmoj/judgeenv.py | Cache, Compile, Executors, Roots, Startup |
| dmoj/monitor.py | Shutdown, Startup, Watch |
| dmoj/packet.py | Connect, Host, Json, Packets, Shutdown, Site |
| dmoj/problem.py | CaseNames, Compile, Config, Loading, Problem, Whole |
| dmoj/result.py | Checkers, Console, Grading, Result, Utf8 |
| dmoj/sysinfo.py | Host |
| dmoj/testsuite.py | Startup, Testsuite |
| dmoj/utils/ansi.py | Console |
| dmoj/utils/builtin_int_patch.py | IntPatch |
| dmoj/utils/communicate.py | Communicate, Compile, Grading |
| dmoj/utils/helper_files.py | Compile, Contrib, Helpers, Problem |
| dmoj/utils/load.py | Executors |
| dmoj/utils/os_ext.py | Host, Launch, Toolchain |
| dmoj/utils/setbufsize.c | Launch |
| dmoj/utils/unicode.py | UnicodeTables, Utf8 |

## What is not modelled

- The FreeBSD side of the sandbox (ptdebug_freebsd_x64.cpp, the FreeBSD branches of ptproc.cpp, mixins.py and isolate.py).
- libseccomp's translation of the filter for ABIs other than the native one, and the kernel's own behaviour: they appear as events and oracles.
- The languages' compilers and runtimes, and each executor's version commands beyond what C65, C67, C71-C76, C88, C89 and C91 say; the Java agent (java_sandbox.jar) that enforces the JVM policies.
- argparse, the history file of readline and pygments in the command line (a function from words to commands stands for argparse), YAML parsing, zlib (an abstract codec with a round-trip hypothesis), ZIP reading.
- TLS, DNS and the system's sockets beyond ordered byte streams that may fail at any point.
- Files with no definition in the model: __main__.py, commands/help.py, commands/quit.py, cptbox/ext_freebsd.h, cptbox/ext_linux.h, cptbox/helper.h, cptbox/ptdebug_arm.h, cptbox/ptdebug_freebsd_x64.cpp, cptbox/ptdebug_freebsd_x64.h, cptbox/ptdebug_x86.h, cptbox/syscalls/generate_linux.py, error.py, executors/CLANG.py, executors/CLANGX.py, executors/CPP14.py, executors/CPP17.py, executors/CPP20.py, executors/GAS32.py, executors/GAS64.py, executors/HASK.py, executors/LUA.py, executors/MONOCS.py, executors/NASM.py, executors/NASM64.py, executors/OCAML.py, executors/PY2.py, executors/PY3.py, executors/SCM.py, executors/__main__.py, generator.py, graders/custom.py, main.py, utils/error.py, utils/module.py, utils/pyyaml_patch.py.

## Findings

Where a property fails of the code as written, a theorem named `..._refuted` gives a concrete case and the property in
properties.jsonl says what is true instead.  Other observations made while modelling are listed with them.

### Checkers and points

- C08/C09: the floats checkers do not accept an infinite judge answer against itself, and relative mode can overflow.
- C11: the PEG protocol does not clamp the ratio, so a helper can award more than the points of the case (C11 is therefore *partial*).
- C13: a program that failed at run time can still be given points by a custom checker that runs on errors, though its verdict stays a failure.
- coci: a ratio slightly above 1 rounds to 1.0 and is accepted; the contrib patterns are not anchored; a helper exit code of 0 is believed even after a time or memory violation in some graders (C58 states the conditions).

### Worker, judge and network

- C90: `_ipc_result` formats the feedback into `#ansi[...](|underline)` and styles it before it queues the test-case packet: feedback containing `](x)` (testlib-style checkers quote the participant's output) makes termcolor raise KeyError, the case is never reported and the submission ends as an internal error; `begin_grading` styles the problem id after taking the grading lock.  strip_ansi's `[0-9,A-Z]{1,2}...[m|K]?` also matches `K` as a code and then eats the next `m`, `|`, upper-case letter, digit or comma: gcc's `ESC[Kmain.cpp` becomes `ain.cpp`.  The third part of `(green|bold|underline)` is ignored.
- C15: a batch without cases takes a number that is never announced.
- C18: an abort requested while the remaining cases are only being skipped is ignored; C55: the site's terminate request stops whatever is being graded, even when it names another submission.
- C22: a query of the current submission while idle raises; C23: a grading lock leaked when fork fails blocks every later submission; C24: one failed problem update loses the notification.
- C78: a worker that has said goodbye waits five seconds for the answer; if the last reports take longer to handle, a complete grading ends with an internal error.  An abort that takes the worker more than five seconds kills it and is then reported as an internal error.
- Pings always fail (a str is passed where bytes are needed): C68_delivered_refuted.  A missing watchdog package gives a NameError at import.
- C93: only values of the packet itself are decoded, so bytes as the feedback or output of a case result make json.dumps raise TypeError; NaN and infinite points are written as `NaN` and `Infinity`, which is not JSON.
- C95: a case result that json.dumps refuses (bytes as feedback or output, from a custom grader) is never removed from the queue; every later flush raises, in the flusher and in the grading thread, so no result, batch, end, abort or internal error of this or any later submission is ever sent: C95_stuck, C95_later_submissions_refuted.
- The int() patch limits str but not bytes.

### Problem data and configuration

- C79: an init.yml that is not a mapping, or that fails in YAML's composer or constructor, is not reported as invalid but as an internal error; `test_cases: []` means guessing the cases; data names may lead outside the problem's directory.  C80: a checker section without `name` or `args` takes those of an enclosing section; a checker that is not named by a string is an internal error; an IOError raised inside a checker module is reported as a missing file.
- C26: when the other stream has already ended, a stream over its limit raises ValueError instead of the output-limit error.  C28: batch 0 is treated as no batch, of two files for one place one is silently dropped, a single case numbered like a batch joins it.
- C87: an args_format_string that quotes a field ('{input_file}') is split wrongly as soon as the temporary directory's name needs quoting; `files` missing or a mapping raises AttributeError or UnboundLocalError; the pipes of an interactive problem leak when a launch raises.
- C85: with the default patterns a problem whose file names start with `in` (inversions.1.in, inversions.1.out) is judged with the expected output as its input, and one whose names start with `out` with inputs as outputs; sub1/3.in and sub2/3.in are one case; a missing output file is not noticed when the cases are listed.
- C29/C30/C31: attribute access prefers an inherited underscored key to an own hyphenated one; a false value counts as absent; a key with both dynamic forms evaluates the other one at its second read.
- C47/C63: absolute problem ids escape the roots; a stale root is answered after removal; a bare string as storage root changes its meaning after the first update; a missing configured directory makes every update fail.
- C56: what a failed generator printed is used if the data is asked for again.  An explicit empty `test_cases` list is treated as absent.
- C72: `generator_compiler_limit` is misspelt and the interactor has no default, so there is no compile time limit; `cached: false` is ignored for generators and interactors; helper files with equal base names overwrite each other; C files with a non-GCC language raise TypeError.

### Sandbox: system calls

- C37: 32-bit calls made by a 64-bit program with int 0x80 are judged by the 64-bit table; a negative call number uses the handler at 568+n.
- C81: without seccomp, an X32 program never counts as started by its execve (Linux leaves 520, the code looks for 59), so its calls are let through as if they were made before the program was started.
- C38: in ptrace mode a clone event toggles the entry/exit phase of the wrong thread, and the slot for a faked result is shared between threads; C59: in seccomp mode a failed execve counts as started.
- C81: on AArch64 refusing a call stores the error code in x8 instead of x0, so the program sees its first argument as the result, and the check that the first execve succeeded looks at the wrong register; on i386 the sixth argument is always 0; a 64-bit judge reads the 32-bit registers of a process zero-extended, so handlers must convert negative numbers themselves (the file handlers do).
- C82: the signal reported (and shown as feedback for a runtime error) is the last one the main process stopped for, even if it caught it and was killed by another or exited; SIGKILL never appears.  A program that makes a call with the number -1 is reported as `ptrace fail`.
- A fault for too much output still resumes the program once; processes made with clone events are not in the list of children; openat with a bad directory descriptor kills the program.
- C75: statfs is unchecked in every language, statx for CoffeeScript, access for Tcl.
- A sandbox without a security object never becomes initialised, so wait() raises; launching with no time or memory limit raises TypeError; the kill of the process group can hit a reused pid.
- C61/C40: execution time is the wall time between stops, not CPU time; the wall limit is enforced at one-second polls only.

### Sandbox: files, memory and descriptors

- C96: the path checked is the one in the stopped program's memory; another thread can change it before the kernel reads it again, so a program with two threads can open any file the judge's user can.
- C33: paths are resolved textually, so `..` after a symbolic link names another file than the kernel's.
- C86: chdir into the submission's directory is not checked, so on failure the program runs in the judge's own working directory; a seccomp rule that is refused is only printed; a runtime's `*_env` settings can replace LD_PRELOAD and so switch the buffer library off; the error of a spawn that failed is raised again as its bare class, without its message.
- C54/C66: rules and the launch link check compare string prefixes, so siblings of the scratch directory whose name extends it are allowed.
- C76: Dart's and PHP's rules match anywhere in the file system, Objective-C reads any process's command line, Racket reads /etc/passwd, Swift's `/lib` is a bare prefix; source paths, homes, tools and commands are used unescaped as patterns; a shell with an uninstalled command in its list cannot read anything.
- C41: the word-wise fallback of readstr overruns its buffer by up to 6 bytes for paths of 4096 bytes or more, and the page-wise reader overruns it with 64 KiB pages.
- C42: a failing getdents silently ends the closing of descriptors; the brute-force fallback misses descriptors above OPEN_MAX.  C60: crossed standard stream numbers overwrite each other; stderr=STDOUT or DEVNULL given as an int leaves the judge's stderr open.
- C53: a memory limit of 0 with a data grace still sets RLIMIT_DATA to the grace.

### Compilation and executors

- C91: JavaExecutor.launch sets the sandbox's memory to 0, so a JVM program is never MLE and only its heap is limited; the options of groovy_args and scala_args come after -Xmx, and Groovy's automatic configuration takes over an -Xmx of the launcher; KOTLIN.py reads java-security.policy instead of kotlin-security.policy (equal today); JavacExecutor's own compile arguments (-Xlint) are overridden by every Java version; BF adds 8 MB to the limit that MLE is measured against.
- C44/C62: evicting a cache entry deletes the binary under objects made from a cache hit; a failed cached compilation leaks its directory.  C45: problem id and source are concatenated without separator in the key, and helper file names are not part of it.
- C69: Python exceptions with qualified names get no feedback.  C70: a compiler whose output is too long is left running; the killer thread can signal a reused process group.
- C71: an empty submission compiles no files, a dotted problem id gets no extension, colliding names overwrite each other; with the march flag disabled an empty argument is passed (which, by C88, only happens in auto-configuration).
- C88: where `-march=native` does not work, auto-configuration prints `gcc_target_arch: null`, which the judge's ConfigNode.get reads as the default, so it compiles with `-march=native` after all; unravel_java compares bytes with a string and never resolves a script; `res[-2:-1] = …` in SCALA and GROOVY and `res[-2:] = …` in KOTLIN drop -XX:ErrorFile; a file of the current directory named like a compiler is taken first, executable or not.
- C89: ASMExecutor.__init__ adds a newline to self.source, but the metaclass writes the file from the constructor's original arguments, so assemblers never see it; the features pattern's `\s` crosses line ends; a Python problem id `-loader` collides with the loader file; GO compiles without PATH and HOME; NullStdoutMixin, which auto-configuration mixes in unless verbose, silences compilers whose messages are merged into standard output (CBL, MONOVB).
- C106: open_editor reads back the file it opened, so the text of an editor that saves by renaming a new file over it is lost and the old text is submitted; a typed text is a str, which cannot be written to the temporary file when it is edited again (TypeError).
- C105: PYPY.get_runtime_versions indexes _pypy_versions[0] unconditionally: output without any version raises IndexError, and since judgeenv.get_runtime_versions asks all executors when connecting, none is reported. PYPY3 inherits the attribute, so that if its own command fails it reports the Python version of PYPY.
- C104: on platforms without os.getloadavg, load_fair catches FileNotFoundError only: a /proc/loadavg that may not be read (PermissionError) or is empty (IndexError) raises in ping_packet, and the reading thread ends the process.
- C103: the limit of 10000 characters does not cover bytes, so `int(b'9' * n)` (the natural thing in a checker, whose arguments are bytes) is still quadratic; `int()` raises TypeError; `isinstance(5, Sub)` is true for every `class Sub(int)` defined under the patch.
- C102: an exception while reading packets is answered with os._exit(1), so the submission being graded is not aborted; a second Ctrl-C during murder() skips close(), so the non-daemon flusher thread keeps the process alive for ever.
- C101: kill() (an abort, say) between fork and the child's setpgid reaches nobody and the program runs on; a kill or wake-up signal can go to a reused process group number after the program was reaped; `_is_tle` can be set after wait() has returned, so the same run may or may not be a time-out; `_spawn_error` keeps the exception's class only, so its message is lost.
- C100: items() gives the code of computed keys instead of their values; assigning to a key with a `+` form is undone by the next read; the sum of two nodes forgets their parents; an empty list wrapped in a node is an empty dict, so adding to it raises TypeError.
- C98: a signature-graded submission takes the renaming of main back with `#undef main`; a problem id with a dot or a header name without one does not compile.  C99: ClangExecutor.get_flags comes before CPP03's in CLANGX's method resolution order and does not call it, so `-std=c++11` is never passed; OBJC's gnustep flags are bytes, which the cache key cannot join with str.
- C73: `//*`, a last line comment without newline and literals containing comment openers confuse the Java class search; C74: the Go package check can be bypassed and refuses a clause on two lines.  unravel_java compares bytes with str and so always returns its argument.

### Command line and interactors

- C49: a blank line is an empty token, one indented word keeps its indent, a trailing empty field is lost, readln after readtoken reorders, and a token that is not UTF-8 raises instead of giving WA.
- C83: while the judge reconnects another thread may send a packet before the handshake; socket files keep the old connection open during the wait of up to a day; a handshake answer without a name raises KeyError and ends the judge instead of another attempt.
- C84: in Docker without a configuration file the judge name and key given on the command line are ignored (the judge introduces itself as null); in Docker a configuration file without problem_storage_root stops the judge although /problems is there, and its runtime section replaces the image's as a whole; the test suite never gets past a configuration without problem_storage_root (TypeError) though the code means to allow it; in Docker the HTTP interface, which asks for no credentials, listens on all interfaces unless a port is given.
- C77: wrong points in a case listed under points_cases raise TypeError in the test runner (numbers are joined as text), which passes silently where internal errors are allowed; '*' points for one case always raise; a grading without any report passes.
- C92: the command line session ends with a traceback, losing the history, on an open quotation mark, a trailing backslash (even an escaped space: the line is stripped first), a bad regular expression given to problems, show of a file whose name pygments does not know, diff with a source that came from $EDITOR (bytes, not str), an $EDITOR that cannot be started, and a message with ]( in it; Ctrl-C during rejudge ends the session; an interrupted one-shot command has status 0; submitting a file replaces CR LF and CR by LF.
- C50: resubmit always fails (the builtin `id` is used), rejudge grades under the newest number, the listing with a limit shows the oldest submissions; submit drops its third argument for an unknown language, skips validation when a file is given, and takes the extension from the first dot; an invalid pattern in `problems` ends the program.

## Simplifications

Each is stated in the comment of the definition concerned.  The recurring ones: points of the line-count and contrib checkers are
rationals or an abstract monotone rounding rather than doubles (the floats checkers and the clock use IEEE binary64); time is a number
of ticks chosen by the schedule; logging, printing of colours and exception texts are left out unless they are reported to the server;
file systems are predicates or finite maps.

