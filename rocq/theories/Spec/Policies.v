(** What the shipped executors may do beyond the base policy, by system call names. *)
From Coq Require Import String.
From Verif Require Import Model.Bytes Model.Paths Model.Access Model.SyscallTables Model.Tracer Model.Policies Spec.Tracer.
Local Open Scope list_scope.
Local Open Scope string_scope.

(** A program of an executor with these extra calls makes call number [n] of an ABI, with
    these registers: does the sandbox let the kernel execute it? *)
Definition passes (own : list (string * hval own_handler)) (supported : list nat) (allowed : list (option (list N)))
  (tr : tracer) (d : debugger) (abi : nat) (n : N) : Prop :=
  exists sec t v, security_of syscalls (policy_with own) = Some sec /\ build syscalls sec supported = Some t
    /\ decide (fun h => fst (handle_own allowed tr d h)) t abi (Z.of_N n) (arg0 d) = v
    /\ (v = Verdict Run \/ v = FaultAndRun).
Definition linux (abi : nat) : Prop := In abi [X86; X64; X32; ARM; ARM64].

(** Linux calls with an argument that names a file or directory, by path or by handle. *)
Definition file_naming : list string :=
  [ "open"; "openat"; "openat2"; "creat"; "open_by_handle_at"; "name_to_handle_at"; "open_tree";
    "access"; "faccessat"; "faccessat2"; "stat"; "stat64"; "lstat"; "lstat64"; "fstatat"; "statx"; "oldstat"; "oldlstat";
    "statfs"; "statfs64"; "readlink"; "readlinkat"; "mkdir"; "mkdirat"; "mknod"; "mknodat"; "unlink"; "unlinkat"; "rmdir";
    "rename"; "renameat"; "renameat2"; "link"; "linkat"; "symlink"; "symlinkat"; "chmod"; "fchmodat"; "chown"; "chown32";
    "lchown"; "lchown32"; "fchownat"; "truncate"; "truncate64"; "utime"; "utimes"; "utimensat"; "utimensat_time64";
    "futimesat"; "chdir"; "chroot"; "pivot_root"; "mount"; "umount"; "umount2"; "move_mount"; "fsopen"; "fspick";
    "swapon"; "swapoff"; "acct"; "quotactl"; "uselib"; "execve"; "execveat"; "setxattr"; "lsetxattr"; "getxattr"; "lgetxattr";
    "listxattr"; "llistxattr"; "removexattr"; "lremovexattr"; "inotify_add_watch"; "fanotify_mark"; "mq_open"; "mq_unlink";
    "lookup_dcookie"; "nfsservctl"; "sysfs"; "bpf"; "io_uring_setup"; "io_uring_enter" ].
(** Calls on sockets. *)
Definition network : list string :=
  [ "socket"; "socketcall"; "socketpair"; "connect"; "bind"; "listen"; "accept"; "accept4"; "send"; "sendto"; "sendmsg";
    "sendmmsg"; "recv"; "recvfrom"; "recvmsg"; "recvmmsg"; "recvmmsg_time64"; "getsockname"; "getpeername"; "setsockopt";
    "getsockopt"; "shutdown" ].
(** Calls that change what the process may do, or the machine. *)
Definition privileged : list string :=
  [ "setuid"; "setuid32"; "setgid"; "setgid32"; "setreuid"; "setreuid32"; "setregid"; "setregid32"; "setresuid";
    "setresuid32"; "setresgid"; "setresgid32"; "setfsuid"; "setfsuid32"; "setfsgid"; "setfsgid32"; "setgroups"; "setgroups32";
    "capset"; "setns"; "unshare"; "seccomp"; "ptrace"; "process_vm_readv"; "process_vm_writev"; "pidfd_open";
    "pidfd_getfd"; "kcmp"; "setpgid"; "setsid"; "setrlimit"; "setpriority"; "nice"; "sched_setscheduler"; "sched_setattr";
    "sched_setparam"; "sched_setaffinity"; "personality"; "reboot"; "kexec_load"; "kexec_file_load"; "init_module";
    "finit_module"; "delete_module"; "create_module"; "sethostname"; "setdomainname"; "settimeofday"; "stime"; "clock_settime";
    "clock_settime64"; "clock_adjtime"; "clock_adjtime64"; "adjtimex"; "iopl"; "ioperm"; "syslog"; "sysctl"; "_sysctl"; "perf_event_open"; "keyctl";
    "add_key"; "request_key"; "userfaultfd"; "vhangup"; "mlockall"; "umask"; "bdflush"; "vserver"; "vm86"; "vm86old" ].
(** Calls that start processes, other than clone (which the base policy allows). *)
Definition spawning : list string := ["fork"; "vfork"; "clone3"].
(** Calls that send signals. *)
Definition signalling : list string :=
  ["kill"; "tkill"; "tgkill"; "rt_sigqueueinfo"; "rt_tgsigqueueinfo"; "pidfd_send_signal"].
(** The check of isolate.py made for a call with a path. *)
Definition checked_as (name : string) : option handled :=
  match find (fun e => String.eqb (fst e) name)
    [ ("openat", Openat); ("open", Open); ("faccessat", Faccessat); ("access", Access); ("readlink", Readlink);
      ("readlinkat", Readlinkat); ("stat", Stat); ("stat64", Stat64); ("lstat", Lstat); ("lstat64", Lstat64);
      ("fstatat", Fstatat) ] with
  | Some e => Some (snd e)
  | None => None
  end.
Definition jvm_languages : list string :=
  ["GROOVY"; "JAVA10"; "JAVA11"; "JAVA15"; "JAVA8"; "JAVA9"; "KOTLIN"; "SCALA"].
Definition mono_languages : list string := ["MONOCS"; "MONOFS"; "MONOVB"].
(** A call the executor's own list says nothing about. *)
Definition not_own (own : list (string * hval own_handler)) (name : string) : Prop :=
  forall n h, In (n, h) own -> ~ same_call aliases_list n name.
(** The program file named by execve's first argument is one of the allowed commands. *)
Definition in_commands (allowed : list (option (list N))) (d : debugger) : Prop :=
  exists path full, readstr d (uarg d 0) = Str path /\ get_full_path (cwd d) (fds d) path (-100) = Some full
    /\ In (Some full) allowed.
(** The languages of the judge. *)
Definition languages : list string :=
  ["ADA"; "AWK"; "BASH"; "BF"; "C"; "C11"; "CBL"; "CLANG"; "CLANGX"; "COFFEE"; "CPP03"; "CPP11"; "CPP14"; "CPP17"; "CPP20"; "D"; "DART";
   "F95"; "FORTH"; "GAS32"; "GAS64"; "GASARM"; "GO"; "GROOVY"; "HASK"; "ICK"; "JAVA10"; "JAVA11"; "JAVA15"; "JAVA8"; "JAVA9"; "KOTLIN";
   "LUA"; "MONOCS"; "MONOFS"; "MONOVB"; "NASM"; "NASM64"; "OBJC"; "OCAML"; "PAS"; "PERL"; "PHP"; "PIKE"; "PRO"; "PY2"; "PY3"; "PYPY";
   "PYPY3"; "RKT"; "RUBY2"; "RUST"; "SBCL"; "SCALA"; "SCM"; "SED"; "SWIFT"; "TCL"; "TEXT"; "TUR"; "V8JS"; "ZIG"].
(** Linux calls programs of these languages may make beyond the base policy, with any arguments. *)
Definition extra_calls : list (list string * list string) :=
  [ (["AWK"], ["getgroups"]);
    (["BASH"], ["fork"; "waitpid"; "wait4"]);
    (["COFFEE"], ["select"; "newselect"; "epoll_wait"; "epoll_create1"; "epoll_ctl"; "epoll_pwait"; "eventfd2"; "sched_yield"; "setrlimit"; "statx"]);
    (["DART"], ["epoll_create"; "epoll_ctl"; "epoll_wait"; "timerfd_settime"; "memfd_create"; "ftruncate"]);
    (["GO"], ["mincore"; "epoll_create1"; "epoll_ctl"; "epoll_pwait"; "pselect6"; "mlock"]);
    (jvm_languages, ["pread64"; "clock_nanosleep"; "socketpair"; "setrlimit"]);
    (mono_languages, ["sched_setscheduler"; "wait4"; "rt_sigsuspend"; "msync"; "fadvise64"; "clock_nanosleep"]);
    (["PIKE"], ["epoll_create"; "epoll_ctl"; "socketpair"]);
    (["RKT"], ["epoll_create"; "epoll_wait"]);
    (["RUBY2"], ["eventfd2"]);
    (["SBCL"], ["personality"]);
    (["TCL"], ["connect"; "access"; "getsockname"]);
    (["TEXT"], ["fadvise64_64"; "fadvise64"; "arm_fadvise64_64"]) ].
Definition may_call (e name : string) : Prop := exists es names, In (es, names) extra_calls /\ In e es /\ In name names.
(** Linux calls that fail with an error of the language's own choice: EAGAIN is 11, EACCES 13. *)
Definition fails_with (e name : string) (errno : N) : Prop :=
  (In e mono_languages /\ name = "fork" /\ errno = 11%N) \/ (e = "PIKE" /\ name = "fstatfs" /\ errno = 13%N).
