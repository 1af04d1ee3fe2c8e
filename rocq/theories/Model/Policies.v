(** The system calls each shipped executor adds to the sandbox's policy:
    dmoj/executors/*.py, mixins.py:61-74, shell_executor.py.  Linux side. *)
From Coq Require Import String.
From Verif Require Import Model.Bytes Model.Paths Model.Regex Model.Access Model.SyscallTables Model.Tracer.
Local Open Scope list_scope.

(** The functions an entry can hold: those of isolate.py, ACCESS_EACCES and ACCESS_EAGAIN
    (handlers.py:9-23), handle_procctl (java_executor.py:41-46) and handle_execve
    (shell_executor.py:30-35). *)
Inductive own_handler := Base (c : handled) | Refuse (errno : N) | Procctl | Exec.
Definition EAGAIN : N := 11.
(** a register as a signed number *)
Definition signed64 (n : N) : Z := if (n <? 2 ^ 63)%N then Z.of_N n else (Z.of_N n - 2 ^ 64)%Z.
(** java_executor.py:41-46 *)
Definition handle_procctl (d : debugger) : verdict :=
  if (arg0 d =? 0)%Z && (signed64 (uarg d 1) =? Z.of_N (pid d))%Z
     && existsb (Z.eqb (signed64 (uarg d 2))) [17; 18]%Z
  then Run else Kill.
(** shell_executor.py:28-35.  [allowed]: what find_executable gave for each command, None for
    one that is not installed.  readstr raises or gives None: the handler raises. *)
Definition handle_execve (allowed : list (option (list N))) (d : debugger) : verdict :=
  match readstr d (uarg d 0) with
  | Str s =>
      match get_full_path (cwd d) (fds d) s AT_FDCWD with
      | Some path => if existsb (fun a => match a with Some w => beqb w path | None => false end) allowed then Run else Kill
      | None => Kill
      end
  | NoStr | TooLong | BadUnicode => Kill
  end.
Definition handle_own (allowed : list (option (list N))) (t : tracer) (d : debugger) (h : own_handler) : verdict * tracer :=
  match h with
  | Base c => handle t d c
  | Refuse e => (Fail e, t)
  | Procctl => (handle_procctl d, t)
  | Exec => (handle_execve allowed d, t)
  end.

Definition allow (names : list string) : list (string * hval own_handler) := map (fun n => (n, ALLOW)) names.
(** AWK.py:9 *)
Definition awk := allow ["getgroups"]%string.
(** COFFEE.py:11-22 *)
Definition coffee := allow ["newselect"; "select"; "epoll_create1"; "epoll_ctl"; "epoll_wait"; "epoll_pwait";
                            "sched_yield"; "setrlimit"; "eventfd2"; "statx"]%string.
(** DART.py:18 *)
Definition dart := allow ["epoll_create"; "epoll_ctl"; "epoll_wait"; "timerfd_settime"; "memfd_create"; "ftruncate"]%string.
(** GO.py:23 *)
Definition go := allow ["mincore"; "epoll_create1"; "epoll_ctl"; "epoll_pwait"; "pselect6"; "mlock"]%string.
(** PERL.py:10 *)
Definition perl := allow ["umtx_op"]%string.
(** PIKE.py:9-16 *)
Definition pike := allow ["epoll_create"; "epoll_ctl"]%string ++ [("fstatfs", Fn (Refuse EACCES))]%string
                   ++ allow ["socketpair"]%string ++ [("fpathconf", Fn (Refuse EACCES))]%string.
(** RKT.py:14 *)
Definition racket := allow ["epoll_create"; "epoll_wait"]%string.
(** RUBY2.py:14 *)
Definition ruby := allow ["thr_set_name"; "eventfd2"]%string.
(** SBCL.py:16 *)
Definition sbcl := allow ["personality"]%string.
(** TCL.py:12 *)
Definition tcl := allow ["connect"; "access"; "getsockname"]%string.
(** TEXT.py:9 *)
Definition text := allow ["fadvise64_64"; "fadvise64"; "posix_fadvise"; "arm_fadvise64_64"]%string.
(** java_executor.py:57 *)
Definition java := allow ["pread64"; "clock_nanosleep"; "socketpair"]%string ++ [("procctl", Fn Procctl)]%string
                   ++ allow ["setrlimit"; "thr_set_name"]%string.
(** mono_executor.py:38-46 *)
Definition mono := allow ["sched_setscheduler"; "wait4"; "rt_sigsuspend"; "msync"; "fadvise64"; "clock_nanosleep"]%string
                   ++ [("fork", Fn (Refuse EAGAIN))]%string.
(** shell_executor.py:21-22, 37-38.  The handler of access is the one of isolate.py: no shell
    executor names access in its own calls. *)
Definition shell := allow ["fork"; "waitpid"; "wait4"]%string ++ [("execve", Fn Exec); ("eaccess", Fn (Base Access))]%string.

(** dmoj/executors/: the module names, with the calls their class adds. *)
Definition executors : list (string * list (string * hval own_handler)) :=
  [ ("ADA", []); ("AWK", awk); ("BASH", shell); ("BF", []); ("C", []); ("C11", []); ("CBL", []); ("CLANG", []);
    ("CLANGX", []); ("COFFEE", coffee); ("CPP03", []); ("CPP11", []); ("CPP14", []); ("CPP17", []); ("CPP20", []);
    ("D", []); ("DART", dart); ("F95", []); ("FORTH", []); ("GAS32", []); ("GAS64", []); ("GASARM", []); ("GO", go);
    ("GROOVY", java); ("HASK", []); ("ICK", []); ("JAVA10", java); ("JAVA11", java); ("JAVA15", java);
    ("JAVA8", java); ("JAVA9", java); ("KOTLIN", java); ("LUA", []); ("MONOCS", mono); ("MONOFS", mono);
    ("MONOVB", mono); ("NASM", []); ("NASM64", []); ("OBJC", []); ("OCAML", []); ("PAS", []); ("PERL", perl);
    ("PHP", []); ("PIKE", pike); ("PRO", []); ("PY2", []); ("PY3", []); ("PYPY", []); ("PYPY3", []);
    ("RKT", racket); ("RUBY2", ruby); ("RUST", []); ("SBCL", sbcl); ("SCALA", java); ("SCM", []); ("SED", []);
    ("SWIFT", []); ("TCL", tcl); ("TEXT", text); ("TUR", []); ("V8JS", []); ("ZIG", []) ]%string.

(** mixins.py:63-74: the base policy, then the executor's entries *)
Definition lift (h : hval handled) : hval own_handler := match h with Num n => Num n | Fn f => Fn (Base f) end.
Definition policy_with (own : list (string * hval own_handler)) : list (string * hval own_handler) :=
  map (fun e => (fst e, lift (snd e))) base_policy ++ own.
