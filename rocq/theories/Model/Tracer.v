(** How the sandbox decides on a system call: dmoj/cptbox/syscalls.py (numbers to names),
    tracer.py (tables built from a security policy, the seccomp whitelist, the Python
    callback), ptproc.cpp (the decision at a system call entry).  Linux side. *)
From Coq Require Import String.
From Verif Require Import Model.Bytes Model.Access Model.SyscallTables.
Local Open Scope list_scope.

(** ** syscalls.py:13-60: names to ids, ids to numbers per table *)
Record ids := { by_name : list (string * nat); max_id : nat; rows : list (nat * nat * N) }.
Fixpoint lookup (name : string) (l : list (string * nat)) : option nat :=
  match l with [] => None | (k, v) :: r => if String.eqb k name then Some v else lookup name r end.
(** syscalls.py:21-29.  A dict assignment is a cons here: the latest entry is found first.
    [max] of an empty dict (an error in Python) is 0. *)
Definition alias_line (l : list (string * nat)) (i : nat) (names : list string) : list (string * nat) :=
  fold_left (fun l call => (call, i) :: l) names l.
Fixpoint alias_lines (i : nat) (l : list (string * nat)) (lines : list (list string)) : list (string * nat) :=
  match lines with [] => l | ns :: r => alias_lines (S i) (alias_line l i ns) r end.
Definition aliased (lines : list (list string)) : ids :=
  let l := alias_lines 0 [] lines in
  {| by_name := l; max_id := fold_right Nat.max 0 (map snd l); rows := [] |}.
(** syscalls.py:31-39 *)
Definition alloc_id (st : ids) (name : string) : nat * ids :=
  match lookup name (by_name st) with
  | Some i => (i, st)
  | None => let i := S (max_id st) in
            (i, {| by_name := (name, i) :: by_name st; max_id := i; rows := rows st |})
  end.
(** syscalls.py:43-46 *)
Definition add_row (ix : nat) (st : ids) (line : N * string) : ids :=
  let '(key, st) := alloc_id st (snd line) in
  {| by_name := by_name st; max_id := max_id st; rows := rows st ++ [(key, ix, fst line)] |}.
(** syscalls.py:41-46 *)
Fixpoint add_tables (ix : nat) (st : ids) (tables : list (list (N * string))) : ids :=
  match tables with [] => st | t :: r => add_tables (S ix) (fold_left (add_row ix) t st) r end.
(** syscalls.py:13-60 *)
Definition create (lines : list (list string)) (tables : list (list (N * string))) : ids :=
  add_tables 0 (aliased lines) tables.
(** syscalls.py:48-52, 60 *)
Definition syscall_count (st : ids) : nat := S (max_id st).
Definition translator (st : ids) (i ix : nat) : list N :=
  map snd (filter (fun r => (fst (fst r) =? i) && (snd (fst r) =? ix)) (rows st)).
(** syscalls.py:4-5, 59: the tables in the repository *)
Definition order : list (list (N * string)) :=
  [linux_x86; linux_x64; linux_x32; linux_arm; freebsd; linux_generic; linux_generic32].
Definition syscalls : ids := create aliases_list order.

(** ** tracer.py *)
(** ptbox.h:56-65 *)
Definition X86 : nat := 0. Definition X64 : nat := 1. Definition X32 : nat := 2.
Definition ARM : nat := 3. Definition ARM64 : nat := 4. Definition FREEBSD_X64 : nat := 5.
(** tracer.py:22-29 _SYSCALL_INDICIES *)
Definition syscall_index (abi : nat) : nat :=
  match abi with 4 => 5 | 5 => 4 | n => n end.
(** ptbox.h:38 MAX_SYSCALL *)
Definition MAX_SYSCALL : N := 568.

Section Policy.
(** Handlers that are functions are known here by an identity. *)
Context {F : Type}.
(** handlers.py:3-6: an int, or a callable *)
Inductive hval := Num (n : N) | Fn (f : F).
Definition DISALLOW : hval := Num 0.
Definition ALLOW : hval := Num 1.

(** isolate.py:40-148 and mixins.py:63-70: entries are stored in the policy one after the
    other under the id of their name; a name no table knows is an AttributeError. *)
Fixpoint security_dict (st : ids) (policy : list (string * hval)) (acc : list (nat * hval)) : option (list (nat * hval)) :=
  match policy with
  | [] => Some acc
  | (name, h) :: r => match lookup name (by_name st) with
                      | Some i => security_dict st r ((i, h) :: acc)
                      | None => None
                      end
  end.
Definition security_of (st : ids) (policy : list (string * hval)) := security_dict st policy [].
(** dict.get(i, DISALLOW) *)
Fixpoint security_get (sec : list (nat * hval)) (i : nat) : hval :=
  match sec with [] => DISALLOW | (k, h) :: r => if k =? i then h else security_get r i end.

Record tables := { handlers : nat -> N -> N; callbacks : nat -> N -> option F }.
(** ptproc.cpp:27 and tracer.py:136 *)
Definition empty_tables : tables := {| handlers := fun _ _ => 0%N; callbacks := fun _ _ => None |}.
Definition update {A} (t : nat -> N -> A) (abi : nat) (call : N) (v : A) : nat -> N -> A :=
  fun a c => if (a =? abi) && (c =? call)%N then v else t a c.
(** ptproc.cpp:55-60 *)
Definition set_handler (t : tables) (abi : nat) (call : N) (h : N) : tables :=
  if (MAX_SYSCALL <=? call)%N then t
  else {| handlers := update (handlers t) abi call h; callbacks := callbacks t |}.
(** tracer.py:146-152; [None] = IndexError *)
Definition install (h : hval) (t : option tables) (abi : nat) (call : N) : option tables :=
  match t with
  | None => None
  | Some t =>
      match h with
      | Num n => Some (set_handler t abi call n)
      | Fn f => if (MAX_SYSCALL <=? call)%N then None
                else Some (set_handler {| handlers := handlers t; callbacks := update (callbacks t) abi call (Some f) |} abi call 2)
      end
  end.
(** tracer.py:140-152 *)
Definition install_id (st : ids) (sec : list (nat * hval)) (abi : nat) (t : option tables) (i : nat) : option tables :=
  fold_left (fun t call => install (security_get sec i) t abi call) (translator st i (syscall_index abi)) t.
Definition install_abi (st : ids) (sec : list (nat * hval)) (t : option tables) (abi : nat) : option tables :=
  fold_left (install_id st sec abi) (seq 0 (syscall_count st)) t.
Definition build (st : ids) (sec : list (nat * hval)) (supported : list nat) : option tables :=
  fold_left (install_abi st sec) supported (Some empty_tables).

(** tracer.py:169-183 _get_seccomp_whitelist; [None] = IndexError *)
Definition whitelist_call (h : hval) (w : option (N -> bool)) (call : N) : option (N -> bool) :=
  match w with
  | None => None
  | Some w =>
      match h with
      | Fn _ => Some w
      | Num n => if (MAX_SYSCALL <=? call)%N then None
                 else Some (fun c => if (c =? call)%N then (n =? 1)%N else w c)
      end
  end.
Definition whitelist_id (st : ids) (sec : list (nat * hval)) (native : nat) (w : option (N -> bool)) (i : nat) : option (N -> bool) :=
  if existsb (fun name => match lookup name (by_name st) with Some k => k =? i | None => false end)
             ["exit"; "exit_group"]%string
  then w
  else fold_left (whitelist_call (security_get sec i)) (translator st i (syscall_index native)) w.
Definition whitelist (st : ids) (sec : list (nat * hval)) (native : nat) : option (N -> bool) :=
  fold_left (whitelist_id st sec native) (seq 0 (syscall_count st)) (Some (fun _ => false)).

(** What becomes of a call: the verdict of the policy, or the one case where the monitor
    faults the process but still resumes it (ptproc.cpp:249-254). *)
Inductive decision := Verdict (v : verdict) | FaultAndRun.
Variable run : F -> verdict.
(** tracer.py:245-260 _callback, for an abi that was read (not PTBOX_ABI_INVALID).  A list
    index from -568 to -1 counts from the end. *)
Definition callback (t : tables) (abi : nat) (syscall : Z) : verdict :=
  let found c := match callbacks t abi c with Some f => run f | None => Kill end in
  if (0 <=? syscall)%Z && (syscall <? 568)%Z then found (Z.to_N syscall)
  else if (-568 <=? syscall)%Z && (syscall <? 0)%Z then found (Z.to_N (568 + syscall))
  else if abi =? ARM
  then (if (0xF0000 <? syscall)%Z && (syscall <? 0xF0006)%Z then Run else Kill)
  else Kill.
(** ptproc.cpp:244-274 *)
Definition decide (t : tables) (abi : nat) (syscall : Z) (arg0 : Z) : decision :=
  if (0 <=? syscall)%Z && (syscall <? 568)%Z then
    let h := handlers t abi (Z.to_N syscall) in
    if (h =? 1)%N then Verdict Run
    else if (h =? 3)%N
         then (if negb (arg0 =? 1)%Z && negb (arg0 =? 2)%Z then FaultAndRun else Verdict Run)
    else if (h =? 2)%N then Verdict (callback t abi syscall)
    else Verdict Kill
  else Verdict (callback t abi syscall).
End Policy.
Arguments hval F : clear implicits.
Arguments tables F : clear implicits.

(** ** ptdebug_x64.cpp:27-56: which call the monitor believes it sees.
    [small]: the kernel delivered the 32-bit register set (the thread runs 32-bit code). *)
Definition x32_bit : Z := 0x40000000.
Definition as_int (z : Z) : Z := let r := (z mod 2 ^ 32)%Z in if (2 ^ 31 <=? r)%Z then (r - 2 ^ 32)%Z else r.
Definition abi_from_reg_size (small : bool) (orig_rax : Z) : nat :=
  if small then X86 else if (Z.land orig_rax x32_bit =? 0)%Z then X64 else X32.
Definition seen_syscall (small : bool) (orig_rax : Z) : Z :=
  let abi := abi_from_reg_size small orig_rax in
  if abi =? X86 then as_int orig_rax
  else if abi =? X32 then as_int (Z.land orig_rax (Z.lnot x32_bit))
  else as_int orig_rax.

(** ** isolate.py:40-148 on Linux: the policy every executor starts from *)
Definition calls_allowed : list string :=
  [ "read"; "pread64"; "write"; "writev"; "statfs"; "statfs64"; "getpgrp"; "restart_syscall"; "select";
    "newselect"; "modify_ldt"; "poll"; "ppoll"; "getgroups32"; "sched_getaffinity"; "sched_getparam";
    "sched_getscheduler"; "sched_get_priority_min"; "sched_get_priority_max"; "timerfd_create";
    "timer_create"; "timer_settime"; "timer_delete"; "sigprocmask"; "rt_sigreturn"; "sigreturn";
    "nanosleep"; "sysinfo"; "getrandom" ]%string.
Definition calls_allowed2 : list string :=
  [ "close"; "dup"; "dup2"; "dup3"; "fstat"; "mmap"; "mremap"; "mprotect"; "madvise"; "munmap"; "brk";
    "fcntl"; "arch_prctl"; "set_tid_address"; "set_robust_list"; "futex"; "rt_sigaction"; "rt_sigprocmask";
    "getrlimit"; "ioctl"; "getcwd"; "geteuid"; "getuid"; "getegid"; "getgid"; "getdents"; "lseek";
    "getrusage"; "sigaltstack"; "pipe"; "pipe2"; "clock_gettime"; "clock_gettime64"; "clock_getres";
    "gettimeofday"; "getpid"; "getppid"; "sched_yield"; "clone"; "exit"; "exit_group"; "gettid"; "mmap2";
    "fstat64"; "set_thread_area"; "ugetrlimit"; "uname"; "getuid32"; "geteuid32"; "getgid32"; "getegid32";
    "llseek"; "fcntl64"; "time" ]%string.
Definition base_policy : list (string * hval handled) :=
  [ ("openat", Fn Openat); ("open", Fn Open); ("faccessat", Fn Faccessat); ("access", Fn Access);
    ("readlink", Fn Readlink); ("readlinkat", Fn Readlinkat); ("stat", Fn Stat); ("stat64", Fn Stat64);
    ("lstat", Fn Lstat); ("lstat64", Fn Lstat64); ("fstatat", Fn Fstatat); ("mkdir", Fn Mkdir);
    ("unlink", Fn Unlink); ("tgkill", Fn Tgkill); ("kill", Fn Kill_); ("prctl", Fn Prctl) ]%string
  ++ map (fun n => (n, ALLOW)) calls_allowed
  ++ [ ("socket", Fn Socket); ("socketcall", Fn Socketcall) ]%string
  ++ map (fun n => (n, ALLOW)) calls_allowed2
  ++ [ ("prlimit64", Fn Prlimit64); ("getdents64", ALLOW) ]%string.
(** mixins.py:63-74: an executor adds the calls it names, with ALLOW or a handler of its own *)
Definition executor_policy (own : list (string * hval handled)) : list (string * hval handled) := base_policy ++ own.
