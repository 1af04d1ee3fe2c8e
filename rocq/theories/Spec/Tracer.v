(** What the sandbox should do with a system call, in terms of call names. *)
From Coq Require Import String.
From Verif Require Import Model.Bytes Model.Access Model.SyscallTables Model.Tracer.
Local Open Scope list_scope.

(** Two names for one call: equal, or on one line of the alias list. *)
Definition same_call (aliases : list (list string)) (a b : string) : Prop :=
  a = b \/ exists line, In line aliases /\ In a line /\ In b line.
(** Numbers of an ABI, by the repository's table for it. *)
Definition table_of (abi : nat) : list (N * string) :=
  nth abi [linux_x86; linux_x64; linux_x32; linux_arm; linux_generic; freebsd] [].
Definition Linux_or_bsd (abi : nat) : Prop := In abi [X86; X64; X32; ARM; ARM64; FREEBSD_X64].
Section S.
Context {F : Type}.
(** The last entry of the policy about the call [name] is [h]. *)
Definition governs (policy : list (string * hval F)) (name : string) (h : hval F) : Prop :=
  exists p n q, policy = p ++ (n, h) :: q /\ same_call aliases_list n name
    /\ forall n' h', In (n', h') q -> ~ same_call aliases_list n' name.
(** The policy says nothing about the call. *)
Definition unmentioned (policy : list (string * hval F)) (name : string) : Prop :=
  forall n h, In (n, h) policy -> ~ same_call aliases_list n name.
(** Names the tables know at all. *)
Definition known_call (name : string) : Prop :=
  (exists abi n, Linux_or_bsd abi /\ In (n, name) (table_of abi)) \/ (exists n, In (n, name) linux_generic32)
  \/ exists line, In line aliases_list /\ In name line.
(** What an entry of the policy means for a call with first argument [arg0]. *)
Definition meaning (run : F -> verdict) (h : hval F) (arg0 : Z) : decision :=
  match h with
  | Fn f => Verdict (run f)
  | Num n => if (n =? 1)%N then Verdict Run
             else if (n =? 3)%N then (if (arg0 =? 1)%Z || (arg0 =? 2)%Z then Verdict Run else FaultAndRun)
             else Verdict Kill
  end.
End S.
(** How a system call reaches an x86-64 kernel, and what it then executes: the table and the
    number.  64-bit code can use the 64-bit instruction (the x32 bit selects the x32 table)
    or the 32-bit one, int 0x80. *)
Inductive entry := Syscall64 (rax : Z) | Int80_from64 (rax : Z) | From32 (eax : Z).
Definition executes (e : entry) : nat * Z :=
  match e with
  | Syscall64 rax => if Z.testbit rax 30 then (X32, as_int (Z.land rax (Z.lnot x32_bit))) else (X64, as_int rax)
  | Int80_from64 rax => (X86, as_int rax)
  | From32 eax => (X86, as_int eax)
  end.
(** The registers the monitor gets: the layout follows the mode the code runs in. *)
Definition monitor_sees (e : entry) : nat * Z :=
  match e with
  | Syscall64 rax | Int80_from64 rax => (abi_from_reg_size false rax, seen_syscall false rax)
  | From32 eax => (abi_from_reg_size true eax, seen_syscall true eax)
  end.

(** What the policy every executor starts from should grant.  Without being asked about: *)
Definition freely : list string :=
  (* using what is open already *)
  ["read"; "pread64"; "write"; "writev"; "close"; "lseek"; "llseek"; "fstat"; "fstat64"; "statfs"; "statfs64"; "ioctl"; "fcntl"; "fcntl64";
   "getdents"; "getdents64"; "dup"; "dup2"; "dup3"; "pipe"; "pipe2"; "poll"; "ppoll"; "select"; "newselect";
   (* memory *)
   "mmap"; "mmap2"; "mremap"; "mprotect"; "madvise"; "munmap"; "brk"; "modify_ldt"; "arch_prctl"; "set_thread_area";
   (* threads, signals to itself, and ending *)
   "clone"; "futex"; "set_tid_address"; "set_robust_list"; "sched_yield"; "sched_getaffinity"; "sched_getparam"; "sched_getscheduler";
   "sched_get_priority_min"; "sched_get_priority_max"; "sigaction"; "sigprocmask"; "sigreturn"; "rt_sigaction"; "rt_sigprocmask";
   "rt_sigreturn"; "sigaltstack"; "restart_syscall"; "exit"; "exit_group";
   (* time *)
   "time"; "gettimeofday"; "clock_gettime"; "clock_gettime64"; "clock_getres"; "nanosleep"; "timerfd_create"; "timer_create";
   "timer_settime"; "timer_delete";
   (* asking about itself and the system *)
   "getpid"; "getppid"; "gettid"; "getpgrp"; "getuid"; "geteuid"; "getgid"; "getegid"; "getuid32"; "geteuid32"; "getgid32"; "getegid32";
   "getgroups32"; "getrlimit"; "ugetrlimit"; "getrusage"; "getcwd"; "uname"; "sysinfo"; "getrandom"]%string.
(** Depending on its arguments, each by a rule of its own: *)
Definition by_rule : list (string * handled) :=
  [("open", Open); ("openat", Openat); ("access", Access); ("faccessat", Faccessat); ("readlink", Readlink); ("readlinkat", Readlinkat);
   ("stat", Stat); ("stat64", Stat64); ("lstat", Lstat); ("lstat64", Lstat64); ("fstatat", Fstatat);
   ("mkdir", Mkdir); ("unlink", Unlink); ("kill", Kill_); ("tgkill", Tgkill); ("prctl", Prctl); ("prlimit64", Prlimit64);
   ("socket", Socket); ("socketcall", Socketcall)]%string.
