import json
plan={
'C01':"Checkers: two-cursor scanner as a function on list suffixes, fuel-free structural recursion; spec = `lines_of_tokens`; proof by strong induction on both remaining suffixes; equivalence-relation corollaries.",
'C02':"Checkers: index-based version of the scanner where every read is a checked `nth_error` and every loop carries fuel; prove no checked read fails, fuel never runs out, and the result equals the suffix-based model.",
'C03':"Checkers: direct model; case analysis on top of C01.",
'C04':"Checkers: model split/filter/sort with a merge/insertion sort on lexicographic byte order; spec = Permutation.",
'C05':"Checkers: Counter as counting function; spec = forall byte, equal counts of folded bytes / Permutation.",
'C06':"Checkers: direct model, spec by `Forall2`.",
'C07':"Checkers: rational points (Q) instead of doubles; count by position.",
'C08':"Floats: IEEE binary64 as Flocq's binary_float, `float()` as an oracle; spec = per-token relation.",
'C09':"Floats: Flocq's Bminus, Babs, Bcompare correctness over R; error bound of one rounding.",
'C10':"Contrib: exit-code functions with regexes modelled as concrete matchers on stderr lines; points as Z / Q; exceptions as values.",
'C11':"Contrib: same; expected to be refuted (ratio is not clamped).",
'C12':"Result: flags as N with `N.testbit`; codes filtered from display order.",
'C13':"Grading: model of populate_result + check_result + grade as functions on a record; case analysis.",
'C14':"Grading: tracer predicates and populate_result on observables.",
'C15':"Worker: `_grade_cases` as a function from the flattened case list and a verdict oracle to the IPC message list; induction.",
'C16':"Worker: spec = predicate on history prefix.",
'C17':"Worker: whole `_worker_process_main` incl. exceptions as values; grammar of message lists.",
'C18':"Worker: abort oracle = step at which the flag becomes visible.",
'C19':"Packets: two-thread transition system, lock protected atomic steps; invariant sent ++ queued = reported; every interleaving by induction over schedules.",
'C20':"Packets: size header big-endian 4 bytes; zlib+json as an oracle codec with round-trip hypothesis; chunked stream reader.",
'C21':"Packets: backoff over Q (exact: 4*1.5^k); bound on k; trace induction.",
'C22':"Packets: dispatch function on packet name.",
'C23':"Judge: transition system with lock; invariant.",
'C24':"Judge: event flag/updater transition system; invariant 'pending => flag or running-before-read'.",
'C25':"Communicate: poll-event transition system driven by an arbitrary event list (oracle); invariant.",
'C26':"Communicate: same.",
'C27':"Problem: byte-level replace functions; algebraic laws.",
'C28':"Problem: association-list groups; sortedness and permutation.",
'C29':"Config: tree of nodes with parent chain; lookup spec = first in chain.",
'C30':"Config: expected to be refuted for falsy values; prove the exact behaviour.",
'C31':"Config: read as state transformer; induction over reads.",
'C32':"Problem: boolean function; precedence.",
'C33':"Sandbox paths: posixpath.join/normpath model; spec = stack-machine path resolution.",
'C34':"Sandbox: flag words as N, handlers as values.",
'C35':"Sandbox: regex AST with matching semantics incl. look-ahead; concrete BASE_FILESYSTEM; prefix lemmas.",
'C36':"Sandbox: register values as Z mod 2^64.",
'C37':"Tracer: handler table and whitelist functions.",
'C38':"Monitor: transition function on wait events; invariant over event lists.",
'C39':"Sandbox: decision functions.",
'C40':"Monitor: timespec as Z pairs; homomorphism to nanoseconds.",
'C41':"Readstr: memory oracle, buffer as address-checked writes.",
'C42':"Closefrom: list of directory entries processed; digits parser.",
'C43':"Cache: LRU association list; invariant over op lists.",
'C44':"Cache: with reference tracking of directories; expected to be refuted.",
'C45':"Cache: key function; expected to be refuted (concatenation is not injective); positive part for single-source default key.",
'C46':"BF: bracket counter and translation; spec = Dyck words.",
'C47':"Roots: file system as a predicate; list search.",
'C48':"Modules: list filters.",
'C49':"Interactor: token reader as a state machine on a byte stream; expected partly refuted.",
'C50':"Commands: history list.",
'C51':"Control: request function.",
'C52':"Result: function on options.",
'C53':"Limits: arithmetic.",
'C54':"Paths: commonprefix model; expected to be refuted for sibling prefixes.",
}
plan.update({
'C55':"Judge: abort requests as events of the judge's transition system; the submission named, the one running, the worker's flag.",
'C56':"Problem: lazy data source as a state machine (generator run, files, caches, free); invariant over sequences of reads.",
'C57':"Problem: numbering as a fold over the configuration tree; spec = flattened list with positions.",
'C58':"Compile/Contrib: helper result as a record; case analysis against an independent predicate of a clean exit.",
'C59':"Monitor: start-up phase of the wait loop with exec events; invariant over event lists; refuted in seccomp mode.",
'C60':"Child: descriptor table as a finite map, dup2/close steps in source order; spec = the three requested streams.",
'C61':"Clock: polls of the watchdog thread and the kernel's signal as events; seconds as binary64 (Flocq).",
'C62':"Cache: object life cycle with scratch directories as a set; invariant over op lists.",
'C63':"Roots: glob depth expansion on a directory tree; spec = paths of exactly n components.",
'C64':"Utf8: decoder as a state machine, spec = the encoding function; both directions.",
'C65':"Executors: decision function on configuration, self-test and result; iff specification.",
'C66':"Access: normpath and commonprefix on the link target; spec by components.",
'C67':"Executors: leftmost-longest search; spec by quantification over positions.",
'C68':"Watch: threads and an event flag as a transition system; every schedule.",
'C69':"Feedback: the patterns as matchers on bytes; spec = last report in an independent grammar of reports.",
'C70':"Compile: compiler, killer thread and reader as a transition system; every interleaving.",
'C71':"Compile: file writing as a map and the argument list; spec = set of written files and non-option arguments.",
'C72':"Compile: language choice and file mapping; spec by the newest available standard.",
'C73':"Sources: substitution of comments and literals, search for the class; spec = pieces of a program text.",
'C74':"Sources: the same for Go's package clause.",
'C75':"Policies: per-executor system call tables generated from the sources, on top of Tracer's decision function; theorems by evaluation over the finite tables lifted to every ABI, register state and rule set.",
'C76':"FileRules: the rules each executor builds, as patterns parsed by Regex; each rule is given its meaning in terms of paths and the union is proved exact.",
'C77':"Testsuite: settings as a key list, expectations parsed to sets, the manager as a fold over reports; spec reads the settings directly and says which report is fine.",
'C78':"Ipc: a transition system of the worker's main and receiving threads, the judge's grading thread, a caller of abort and a clock, over two message queues; invariants over arbitrary schedules, a decreasing measure for fair rounds, a stronger invariant for uneventful schedules.",
'C79':"Loading: the constructor as a function of a file system, a YAML reader and a ZIP reader; spec describes settings, archive and case arrangement over nests of configuration nodes; equivalence by the lookup lemmas of Config.",
'C80':"Loading: the checker lookup with its module cache; spec relation asks between a node and a name with arguments; cache invariants over any sequence of cases.",
'C81':"Registers: the debugger of each build as functions on a register file of integers, signed and unsigned C conversions as arithmetic modulo powers of two; spec is Linux's calling conventions per interface and the final value of a register over any list of accesses.",
'C82':"Accounting: rounds of the monitor as the events it sends, the event handler as a fold over any history; the reader of /proc/<pid>/status as C string functions; spec gives each reported field as the last of its kind in the history.",
'C83':"Connect: a transition system over connections (what the other end proved, which one self.conn and the files refer to) with moves for network outcomes and concurrent senders; invariants over arbitrary schedules, reusing the backoff of Packets.",
'C84':"Startup: load_env and main as functions of parsed arguments, files and a directory tree (reusing Roots and Config); spec = layered documents, the directories a storage value stands for, parts between commas; normalised paths shown to commute with appending names.",
'C85':"CaseNames: the two patterns as terms of a backtracking matcher in continuation style (checked against Python's re on random names while writing it); spec gives a name's last number and the number before it; equivalence by reducing greedy parts to maximal runs and the lazy part to the leftmost place; archives through C28's theorem.",
'C86':"Launch: the layered environment as dict updates, the strings the child gets, the child's steps over a record of what each kernel call answers, strtoul and getenv of the preloaded library; spec gives layered lookup, the list of things that hold at execve and the first failure; induction on the dicts, case analysis over the failing steps; streams and limits through Child's functions (C42, C53, C60).",
'C87':"Helpers: shlex.quote, the state machine of shlex.split and the literal/field states of str.format (all compared with Python on random strings while writing); spec describes templates as words of pieces; induction over the words with the lexer's state as invariant; the pipes over Child's descriptor tables, using C60's theorem for each of the two launches.",
 'C88':"Model/Autoconf.v: the machine as oracles for the file system, the search path and the self-test; find_command_from_list, each class's autoconfig, the loop of autoconfig.py and ci_test. Spec/Autoconf.v says what it means to be found, assembled and tested. Proved by induction on the candidates, the directories, the mapping and the list of executors.",
 'C89':"Model/Toolchain.v: per-language files, command lines, environment and streams as functions of a language constant; compiler processes as records of pid, group and limits; the feature regex and the assembler's two commands. Spec/Toolchain.v gives each compiler's convention for the place of its result, how a terminal shows text, and what a declaration of features is. Proved by cases on the language and induction on texts and process trees.",
 'C90':"Model/Console.v: the two patterns as matchers (compared with Python's re on random texts while writing), termcolor's tables, the handlers as lists of lines and packets ending normally or in an exception. Spec/Console.v describes markup, ink on a terminal and the line of a case. A text is shown not to fail when every `](` in it is followed by known attributes, an invariant that is closed under concatenation.",
 'C91':"Model/Interpreters.v: the fourteen script languages and eight JVM languages as constants with their files, commands and command lines; the policy files as lists of permissions. Spec/Interpreters.v has each interpreter's usage, how a JVM reads its command line (an inductive relation: options, then a class or archive, then arguments), what its agent is told and what a permission covers. Proved by cases on the language and induction on option lists and hints.",
 'C92':"Model/Session.v: the loop as a function of a list of events (lines, interrupts, end of input) on top of Model/Commands.v, with the messages of failing commands, the exceptions that escape, and the acts on the judge. Spec/Session.v gives the grammar of shell words as inductive relations, the troubles as a list of causes and the commands lines stand for. The lexer is proved equivalent to the grammar by induction on the length; the rest is by induction on the events and inversion.",
'C93':"Model/Json: json.dumps (ensure_ascii, default separators) and json.loads (strict strings, the number pattern, NaN/Infinity, duplicate keys, a surrogate-pair rule) as total functions on code points, bytes values cleaned as _send_packet does. Spec/Json: the RFC 8259 grammar as an inductive relation between texts and values. Proved: loads is exactly the grammar (both directions, by fuel induction and by mutual induction on the grammar), uniqueness, when dumps succeeds, printable ASCII, round trip for all values, standard JSON iff no NaN/infinity, and the same for packets with bytes in them. Floats are an abstract type with exact repr.",

'C94':"Spec/Site: the protocol (which dictionary tells what news), what each report of a worker is to become, and which reports a judge can handle given the stream of Model/Worker. Model/Site builds the dictionaries packet by packet. Proved by composing C17 (shape of streams), C19 (queue and flusher), C93 (JSON) and C20 (framing): every worker stream gives a worker-like history; the results' dictionaries can be sent; reading back gives the news.",
'C95':"Model/Site: the two threads with a flush that raises TypeError when a queued result cannot be written, the exception handlers of the flusher and of the grading thread. Proved: with sendable results it is the machine of C19; with an unsendable one in the queue, an invariant on programs (a flush stands before every packet but three kinds) shows that only those kinds are sent ever after. The wished-for statement is refuted by a concrete history.",
'C96':"Model/Confine joins the monitor (C36), the tables of calls (C37), the policies (C75), the file rules (C76, C34, C35) and the cache of compiled rules; Spec/Confine has the kernel's side: a filter that lets calls through, stopped threads, registers written over, calls executed. Proved by invariants over all histories: everything executed passed the check of its language (C96_known, C96_files, C96_others, C96_private, C96_writes) and permitted files are always opened (C96_granted); C96_race_refuted shows what a second thread can do.",
'C97':"Model/Whole joins loading (C79), the settings (C26), the case names (C28), the listing of cases, the data of a case (C27, C56), the choice of checkers (C80), the checkers (C01-C05), standard grading (C06-C09) and the worker (C12-C14) into one function from the files and the program's runs to the worker's messages; Spec/Whole says what a document's nodes ask for without it. Proved by composing the parts' theorems: each case node is found and asks for what the model reads there, each case's result is the deserved one, and the worker's theorem orders them; C97_scored covers every checker, C97_listed and C97_guessed give the hypotheses from the document, C97_grading connects it with C94.",
'C98':"Model/Signature: _generate_binary on top of the source dictionary and file names of Model/Compile. Spec/Signature says when a problem is usable and has a little preprocessor (lines, identifiers, #define main and #undef main; literals, comments and other directives are not told apart). Proved: the iff for making anything, the files as an iff on the written directory, the compiler's arguments, and by induction over the lines that main is renamed and the rest kept; refuted by #undef.",
'C99':"Model/Signature: the class attributes and get_flags of each executor as the method resolution order has them. Spec/Signature gives each language's standard and ending. Proved by cases over the languages for all configurations and sources; C99_standard_refuted shows CLANGX without its standard.",
'C100':"Model/Nodes: the remaining methods of ConfigNode over the chains of Model/Config. Spec/Nodes says what a mapping with repeated entries says of a key. Proved for all documents: lists, pairs and iteration against lookups (getitem), updates and defaults by a lemma on the last entry, sums; the four surprises by concrete nodes.",
'C101':"Model/Lifecycle: the watching thread, the limit-enforcing thread with its kill(), the constructor and wait(), other callers of kill() (test and sending being two steps) and the program as a transition system; a schedule is any list of moves. Proved by one invariant tying every flag to the watching thread's position, and by decreasing measures for the liveness parts; the four races by concrete schedules.",
'C102':"Model/Shutdown: the main thread from the end of listening on, the updater and the flusher as a transition system whose steps are the single reads and writes of updater_exit, updater_signal and _closed; a schedule is any list of moves. Proved by an invariant (a wake-up set after the flag cannot be lost) and decreasing measures; the two findings by concrete schedules and all their continuations.",
'C103':"Model/IntPatch: classes with single inheritance, the interpreter's rules for isinstance, issubclass, == and hash in the presence of the metaclass, and __new__ over an arbitrary conversion function. Spec/IntPatch gives inheritance as an inductive relation. Proved by cases and induction on classes; independence of the conversion's behaviour on long texts says that it is never called on them.",
'C104':"Model/Host: load_fair of both platforms over an arbitrary load average or /proc/loadavg, the callbacks and the dictionary of the ping response, a sequence of pings, and strsignal over an arbitrary C library. Loads are exact rationals. Proved by cases and by induction on the sequence of pings; that the library is not asked about numbers out of range is independence of its answers there.",
'C105':"Model/Versions: get_runtime_versions over arbitrary answers of the commands and an arbitrary parse_version, with the cache threaded through a history of calls; PyPy's class attribute and its inheritance by PYPY3. Spec/Versions says declaratively which version a runtime has. Proved by induction on flags, runtimes and histories; the findings for every output of the kind named.",
'C106':"Model/Editor: open_editor over arbitrary input events and an arbitrary editor, which may write into the file, replace it or remove it. Spec/Editor says which line ends the input and which text lines make. Proved by induction on the lines; the findings by cases on what the editor does.",
})
