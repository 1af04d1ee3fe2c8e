COVERAGE={'drop':[]}
UNMODELLED=[
 "The FreeBSD side of the sandbox (ptdebug_freebsd_x64.cpp, the FreeBSD branches of ptproc.cpp, mixins.py and isolate.py).",
 "libseccomp's translation of the filter for ABIs other than the native one, and the kernel's own behaviour: they appear as events and oracles.",
 "The languages' compilers and runtimes, and each executor's version commands beyond what C65, C67, C71-C76, C88, C89 and C91 say; the Java agent (java_sandbox.jar) that enforces the JVM policies.",
 "argparse, the history file of readline and pygments in the command line (a function from words to commands stands for argparse), YAML parsing, zlib (an abstract codec with a round-trip hypothesis), ZIP reading.",
 "TLS, DNS and the system's sockets beyond ordered byte streams that may fail at any point.",
]
FINDINGS=[
("Checkers and points", [
 "C08/C09: the floats checkers do not accept an infinite judge answer against itself, and relative mode can overflow.",
 "C11: the PEG protocol does not clamp the ratio, so a helper can award more than the points of the case (C11 is therefore *partial*).",
 "C13: a program that failed at run time can still be given points by a custom checker that runs on errors, though its verdict stays a failure.",
 "coci: a ratio slightly above 1 rounds to 1.0 and is accepted; the contrib patterns are not anchored; a helper exit code of 0 is believed even after a time or memory violation in some graders (C58 states the conditions).",
]),
("Worker, judge and network", [
 "C90: `_ipc_result` formats the feedback into `#ansi[...](|underline)` and styles it before it queues the test-case packet: feedback containing `](x)` (testlib-style checkers quote the participant's output) makes termcolor raise KeyError, the case is never reported and the submission ends as an internal error; `begin_grading` styles the problem id after taking the grading lock.  strip_ansi's `[0-9,A-Z]{1,2}...[m|K]?` also matches `K` as a code and then eats the next `m`, `|`, upper-case letter, digit or comma: gcc's `ESC[Kmain.cpp` becomes `ain.cpp`.  The third part of `(green|bold|underline)` is ignored.",
 "C15: a batch without cases takes a number that is never announced.",
 "C18: an abort requested while the remaining cases are only being skipped is ignored; C55: the site's terminate request stops whatever is being graded, even when it names another submission.",
 "C22: a query of the current submission while idle raises; C23: a grading lock leaked when fork fails blocks every later submission; C24: one failed problem update loses the notification.",
 "C78: a worker that has said goodbye waits five seconds for the answer; if the last reports take longer to handle, a complete grading ends with an internal error.  An abort that takes the worker more than five seconds kills it and is then reported as an internal error.",
 "Pings always fail (a str is passed where bytes are needed): C68_delivered_refuted.  A missing watchdog package gives a NameError at import.",
 "C93: only values of the packet itself are decoded, so bytes as the feedback or output of a case result make json.dumps raise TypeError; NaN and infinite points are written as `NaN` and `Infinity`, which is not JSON.",
 "C95: a case result that json.dumps refuses (bytes as feedback or output, from a custom grader) is never removed from the queue; every later flush raises, in the flusher and in the grading thread, so no result, batch, end, abort or internal error of this or any later submission is ever sent: C95_stuck, C95_later_submissions_refuted.",
 "The int() patch limits str but not bytes.",
]),
("Problem data and configuration", [
 "C79: an init.yml that is not a mapping, or that fails in YAML's composer or constructor, is not reported as invalid but as an internal error; `test_cases: []` means guessing the cases; data names may lead outside the problem's directory.  C80: a checker section without `name` or `args` takes those of an enclosing section; a checker that is not named by a string is an internal error; an IOError raised inside a checker module is reported as a missing file.",
 "C26: when the other stream has already ended, a stream over its limit raises ValueError instead of the output-limit error.  C28: batch 0 is treated as no batch, of two files for one place one is silently dropped, a single case numbered like a batch joins it.",
 "C87: an args_format_string that quotes a field ('{input_file}') is split wrongly as soon as the temporary directory's name needs quoting; `files` missing or a mapping raises AttributeError or UnboundLocalError; the pipes of an interactive problem leak when a launch raises.",
 "C85: with the default patterns a problem whose file names start with `in` (inversions.1.in, inversions.1.out) is judged with the expected output as its input, and one whose names start with `out` with inputs as outputs; sub1/3.in and sub2/3.in are one case; a missing output file is not noticed when the cases are listed.",
 "C29/C30/C31: attribute access prefers an inherited underscored key to an own hyphenated one; a false value counts as absent; a key with both dynamic forms evaluates the other one at its second read.",
 "C47/C63: absolute problem ids escape the roots; a stale root is answered after removal; a bare string as storage root changes its meaning after the first update; a missing configured directory makes every update fail.",
 "C56: what a failed generator printed is used if the data is asked for again.  An explicit empty `test_cases` list is treated as absent.",
 "C72: `generator_compiler_limit` is misspelt and the interactor has no default, so there is no compile time limit; `cached: false` is ignored for generators and interactors; helper files with equal base names overwrite each other; C files with a non-GCC language raise TypeError.",
]),
("Sandbox: system calls", [
 "C37: 32-bit calls made by a 64-bit program with int 0x80 are judged by the 64-bit table; a negative call number uses the handler at 568+n.",
 "C81: without seccomp, an X32 program never counts as started by its execve (Linux leaves 520, the code looks for 59), so its calls are let through as if they were made before the program was started.",
 "C38: in ptrace mode a clone event toggles the entry/exit phase of the wrong thread, and the slot for a faked result is shared between threads; C59: in seccomp mode a failed execve counts as started.",
 "C81: on AArch64 refusing a call stores the error code in x8 instead of x0, so the program sees its first argument as the result, and the check that the first execve succeeded looks at the wrong register; on i386 the sixth argument is always 0; a 64-bit judge reads the 32-bit registers of a process zero-extended, so handlers must convert negative numbers themselves (the file handlers do).",
 "C82: the signal reported (and shown as feedback for a runtime error) is the last one the main process stopped for, even if it caught it and was killed by another or exited; SIGKILL never appears.  A program that makes a call with the number -1 is reported as `ptrace fail`.",
 "A fault for too much output still resumes the program once; processes made with clone events are not in the list of children; openat with a bad directory descriptor kills the program.",
 "C75: statfs is unchecked in every language, statx for CoffeeScript, access for Tcl.",
 "A sandbox without a security object never becomes initialised, so wait() raises; launching with no time or memory limit raises TypeError; the kill of the process group can hit a reused pid.",
 "C61/C40: execution time is the wall time between stops, not CPU time; the wall limit is enforced at one-second polls only.",
]),
("Sandbox: files, memory and descriptors", [
 "C96: the path checked is the one in the stopped program's memory; another thread can change it before the kernel reads it again, so a program with two threads can open any file the judge's user can.",
 "C33: paths are resolved textually, so `..` after a symbolic link names another file than the kernel's.",
 "C86: chdir into the submission's directory is not checked, so on failure the program runs in the judge's own working directory; a seccomp rule that is refused is only printed; a runtime's `*_env` settings can replace LD_PRELOAD and so switch the buffer library off; the error of a spawn that failed is raised again as its bare class, without its message.",
 "C54/C66: rules and the launch link check compare string prefixes, so siblings of the scratch directory whose name extends it are allowed.",
 "C76: Dart's and PHP's rules match anywhere in the file system, Objective-C reads any process's command line, Racket reads /etc/passwd, Swift's `/lib` is a bare prefix; source paths, homes, tools and commands are used unescaped as patterns; a shell with an uninstalled command in its list cannot read anything.",
 "C41: the word-wise fallback of readstr overruns its buffer by up to 6 bytes for paths of 4096 bytes or more, and the page-wise reader overruns it with 64 KiB pages.",
 "C42: a failing getdents silently ends the closing of descriptors; the brute-force fallback misses descriptors above OPEN_MAX.  C60: crossed standard stream numbers overwrite each other; stderr=STDOUT or DEVNULL given as an int leaves the judge's stderr open.",
 "C53: a memory limit of 0 with a data grace still sets RLIMIT_DATA to the grace.",
]),
("Compilation and executors", [
 "C91: JavaExecutor.launch sets the sandbox's memory to 0, so a JVM program is never MLE and only its heap is limited; the options of groovy_args and scala_args come after -Xmx, and Groovy's automatic configuration takes over an -Xmx of the launcher; KOTLIN.py reads java-security.policy instead of kotlin-security.policy (equal today); JavacExecutor's own compile arguments (-Xlint) are overridden by every Java version; BF adds 8 MB to the limit that MLE is measured against.",
 "C44/C62: evicting a cache entry deletes the binary under objects made from a cache hit; a failed cached compilation leaks its directory.  C45: problem id and source are concatenated without separator in the key, and helper file names are not part of it.",
 "C69: Python exceptions with qualified names get no feedback.  C70: a compiler whose output is too long is left running; the killer thread can signal a reused process group.",
 "C71: an empty submission compiles no files, a dotted problem id gets no extension, colliding names overwrite each other; with the march flag disabled an empty argument is passed (which, by C88, only happens in auto-configuration).",
 "C88: where `-march=native` does not work, auto-configuration prints `gcc_target_arch: null`, which the judge's ConfigNode.get reads as the default, so it compiles with `-march=native` after all; unravel_java compares bytes with a string and never resolves a script; `res[-2:-1] = …` in SCALA and GROOVY and `res[-2:] = …` in KOTLIN drop -XX:ErrorFile; a file of the current directory named like a compiler is taken first, executable or not.",
 "C89: ASMExecutor.__init__ adds a newline to self.source, but the metaclass writes the file from the constructor's original arguments, so assemblers never see it; the features pattern's `\\s` crosses line ends; a Python problem id `-loader` collides with the loader file; GO compiles without PATH and HOME; NullStdoutMixin, which auto-configuration mixes in unless verbose, silences compilers whose messages are merged into standard output (CBL, MONOVB).",
 "C106: open_editor reads back the file it opened, so the text of an editor that saves by renaming a new file over it is lost and the old text is submitted; a typed text is a str, which cannot be written to the temporary file when it is edited again (TypeError).",
 "C105: PYPY.get_runtime_versions indexes _pypy_versions[0] unconditionally: output without any version raises IndexError, and since judgeenv.get_runtime_versions asks all executors when connecting, none is reported. PYPY3 inherits the attribute, so that if its own command fails it reports the Python version of PYPY.",
 "C104: on platforms without os.getloadavg, load_fair catches FileNotFoundError only: a /proc/loadavg that may not be read (PermissionError) or is empty (IndexError) raises in ping_packet, and the reading thread ends the process.",
 "C103: the limit of 10000 characters does not cover bytes, so `int(b'9' * n)` (the natural thing in a checker, whose arguments are bytes) is still quadratic; `int()` raises TypeError; `isinstance(5, Sub)` is true for every `class Sub(int)` defined under the patch.",
 "C102: an exception while reading packets is answered with os._exit(1), so the submission being graded is not aborted; a second Ctrl-C during murder() skips close(), so the non-daemon flusher thread keeps the process alive for ever.",
 "C101: kill() (an abort, say) between fork and the child's setpgid reaches nobody and the program runs on; a kill or wake-up signal can go to a reused process group number after the program was reaped; `_is_tle` can be set after wait() has returned, so the same run may or may not be a time-out; `_spawn_error` keeps the exception's class only, so its message is lost.",
 "C100: items() gives the code of computed keys instead of their values; assigning to a key with a `+` form is undone by the next read; the sum of two nodes forgets their parents; an empty list wrapped in a node is an empty dict, so adding to it raises TypeError.",
 "C98: a signature-graded submission takes the renaming of main back with `#undef main`; a problem id with a dot or a header name without one does not compile.  C99: ClangExecutor.get_flags comes before CPP03's in CLANGX's method resolution order and does not call it, so `-std=c++11` is never passed; OBJC's gnustep flags are bytes, which the cache key cannot join with str.",
 "C73: `//*`, a last line comment without newline and literals containing comment openers confuse the Java class search; C74: the Go package check can be bypassed and refuses a clause on two lines.  unravel_java compares bytes with str and so always returns its argument.",
]),
("Command line and interactors", [
 "C49: a blank line is an empty token, one indented word keeps its indent, a trailing empty field is lost, readln after readtoken reorders, and a token that is not UTF-8 raises instead of giving WA.",
 "C83: while the judge reconnects another thread may send a packet before the handshake; socket files keep the old connection open during the wait of up to a day; a handshake answer without a name raises KeyError and ends the judge instead of another attempt.",
 "C84: in Docker without a configuration file the judge name and key given on the command line are ignored (the judge introduces itself as null); in Docker a configuration file without problem_storage_root stops the judge although /problems is there, and its runtime section replaces the image's as a whole; the test suite never gets past a configuration without problem_storage_root (TypeError) though the code means to allow it; in Docker the HTTP interface, which asks for no credentials, listens on all interfaces unless a port is given.",
 "C77: wrong points in a case listed under points_cases raise TypeError in the test runner (numbers are joined as text), which passes silently where internal errors are allowed; '*' points for one case always raise; a grading without any report passes.",
 "C92: the command line session ends with a traceback, losing the history, on an open quotation mark, a trailing backslash (even an escaped space: the line is stripped first), a bad regular expression given to problems, show of a file whose name pygments does not know, diff with a source that came from $EDITOR (bytes, not str), an $EDITOR that cannot be started, and a message with ]( in it; Ctrl-C during rejudge ends the session; an interrupted one-shot command has status 0; submitting a file replaces CR LF and CR by LF.",
 "C50: resubmit always fails (the builtin `id` is used), rejudge grades under the newest number, the listing with a limit shows the oldest submissions; submit drops its third argument for an unknown language, skips validation when a file is given, and takes the extension from the first dot; an invalid pattern in `problems` ends the program.",
]),
]
