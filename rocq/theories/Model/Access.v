(** dmoj/cptbox/isolate.py: what the sandbox does with a system call that has a handler.
    Registers are as the debugger exposes them: [uargN] unsigned, [argN] signed. *)
From Coq Require Import String.
From Verif Require Import Model.Bytes Model.Paths Model.Regex.
Local Open Scope list_scope.

(** isolate.py:14-20 with the values of Linux (os.O_WRONLY, O_RDWR, O_TRUNC, O_CREAT,
    O_EXCL, O_TMPFILE) *)
Definition open_write_flags : list N := [1; 2; 512; 64; 128; 0x410000]%N.
(** isolate.py:188-195 *)
Definition is_write_flags (open_flags : N) : bool :=
  existsb (fun flag => N.land open_flags flag =? flag)%N open_write_flags.

(** decimal digits of a number ('%d') *)
Fixpoint digits_aux (fuel : nat) (n : N) (acc : list N) : list N :=
  match fuel with
  | O => acc
  | S k => let acc := (48 + n mod 10)%N :: acc in
           if (n / 10 =? 0)%N then acc else digits_aux k (n / 10) acc
  end.
Definition decimal (n : N) : list N := digits_aux (S (N.to_nat (N.log2 n))) n [].

(** What debugger.readstr gives (tracer.py AdvancedDebugger.readstr): a string, None for a
    null or unreadable pointer, or one of two exceptions. *)
Inductive read_result := Str (s : list N) | NoStr | TooLong | BadUnicode.
(** The outcome of a handler: the call runs; it is replaced by a failure with an errno
    (handlers.py:9-18); or the handler returned False or raised: protection fault. *)
Inductive verdict := Run | Fail (errno : N) | Kill.
Definition EPERM : N := 1. Definition ENOENT : N := 2. Definition EACCES : N := 13.

(** The state of the stopped thread that handlers read. *)
Record debugger := {
  pid : N;
  uarg : nat -> N;
  arg0 : Z;
  readstr : N -> read_result;
  cwd : list N;               (** target of /proc/PID/cwd *)
  fds : Z -> option (list N)  (** targets of /proc/PID/fd/N *)
}.

(** IsolateTracer: the rules and the compiled rules per process. *)
Record tracer := {
  read_fs : list (list N); write_fs : list (list N);
  read_jail : list (N * re); write_jail : list (N * re)
}.
Definition fresh (r w : list (list N)) : tracer := {| read_fs := r; write_fs := w; read_jail := []; write_jail := [] |}.
Fixpoint all_some {A} (l : list (option A)) : option (list A) :=
  match l with
  | [] => Some []
  | Some x :: r => option_map (cons x) (all_some r)
  | None :: _ => None
  end.
(** isolate.py:246-253: the pattern for one process; [None] = str.format or re.compile
    raised (or the rules use syntax that is not modelled). *)
Definition jail_re (rules : list (list N)) (pid : N) : option re :=
  match rules with
  | [] => compile (B "(?!)")
  | _ => match all_some (map (format_pid (decimal pid)) rules) with
         | Some l => compile (bar_join l)
         | None => None
         end
  end.
Fixpoint find_pid (pid : N) (l : list (N * re)) : option re :=
  match l with [] => None | (p, r) :: t => if (p =? pid)%N then Some r else find_pid pid t end.
(** isolate.py:238-256 _get_fs_jail *)
Definition get_fs_jail (t : tracer) (pid : N) (is_write : bool) : option re * tracer :=
  match find_pid pid (if is_write then write_jail t else read_jail t) with
  | Some r => (Some r, t)
  | None =>
      match jail_re (if is_write then write_fs t else read_fs t) pid with
      | Some r =>
          (Some r,
           if is_write
           then {| read_fs := read_fs t; write_fs := write_fs t;
                   read_jail := read_jail t; write_jail := (pid, r) :: write_jail t |}
           else {| read_fs := read_fs t; write_fs := write_fs t;
                   read_jail := (pid, r) :: read_jail t; write_jail := write_jail t |})
      | None => (None, t)
      end
  end.
(** isolate.py:258-276 _file_access_check together with its callers' treatment of the
    result (check_file_access 197-216, check_file_access_at 218-236).  An exception (a
    directory descriptor that is not open, rules that do not compile) leaves the handler,
    which counts as a refusal that kills the process (_cptbox.pyx pt_syscall_handler). *)
Definition file_access (t : tracer) (d : debugger) (file : read_result)
           (is_open : bool) (flag_reg : nat) (dirfd : Z) : verdict * tracer :=
  match file with
  | TooLong | BadUnicode | NoStr => (Fail ENOENT, t)
  | Str s =>
      match get_full_path (cwd d) (fds d) s dirfd with
      | None => (Kill, t)
      | Some full =>
          let is_write := is_open && is_write_flags (uarg d flag_reg) in
          match get_fs_jail t (pid d) is_write with
          | (Some r, t') => ((if matches r full then Run else Fail ENOENT), t')
          | (None, t') => (Kill, t')
          end
      end
  end.
(** isolate.py:197-216 *)
Definition check_file_access (t : tracer) (d : debugger) (argument : nat) (is_open : bool) : verdict * tracer :=
  file_access t d (readstr d (uarg d argument)) is_open 1 AT_FDCWD.
(** isolate.py:218-236 *)
Definition check_file_access_at (t : tracer) (d : debugger) (is_open : bool) : verdict * tracer :=
  file_access t d (readstr d (uarg d 1)) is_open 2 (arg0 d).
(** isolate.py:286-289 *)
Definition do_kill (d : debugger) : verdict := if (uarg d 0 =? pid d)%N then Run else Fail EPERM.
(** isolate.py:291-292 *)
Definition do_prlimit (d : debugger) : verdict :=
  if (uarg d 0 =? 0)%N || (uarg d 0 =? pid d)%N then Run else Fail EPERM.
(** isolate.py:294-300 *)
Definition do_prctl (d : debugger) : verdict :=
  if existsb (Z.eqb (arg0 d)) [3; 15; 16; 41; 0x53564D41]%Z then Run else Kill.

(** isolate.py:43-58, 88-89, 145: the calls that have a handler of their own *)
Inductive handled :=
| Openat | Open | Faccessat | Access | Readlink | Readlinkat | Stat | Stat64 | Lstat | Lstat64 | Fstatat
| Mkdir | Unlink | Tgkill | Kill_ | Prctl | Socket | Socketcall | Prlimit64.
Definition handle (t : tracer) (d : debugger) (c : handled) : verdict * tracer :=
  match c with
  | Openat => check_file_access_at t d true
  | Open => check_file_access t d 0 true
  | Faccessat | Readlinkat | Fstatat => check_file_access_at t d false
  | Access | Readlink | Stat | Stat64 | Lstat | Lstat64 => check_file_access t d 0 false
  | Mkdir | Unlink => (Fail EPERM, t)
  | Tgkill | Kill_ => (do_kill d, t)
  | Prctl => (do_prctl d, t)
  | Socket | Socketcall => (Fail EACCES, t)
  | Prlimit64 => (do_prlimit d, t)
  end.
(** A run: calls one after the other on one tracer. *)
Fixpoint handle_all (t : tracer) (l : list (debugger * handled)) : list verdict * tracer :=
  match l with
  | [] => ([], t)
  | (d, c) :: r => let '(v, t1) := handle t d c in
                   let '(vs, t2) := handle_all t1 r in (v :: vs, t2)
  end.

(** dmoj/executors/mixins.py:15-46 on Linux *)
Definition BASE_FILESYSTEM : list (list N) :=
  [ B "/dev/(?:null|tty|zero|u?random)$";
    B "/usr/(?!home)";
    B "/lib(?:32|64)?/";
    B "/opt/";
    B "/etc$";
    B "/etc/(?:localtime|timezone)$";
    B "/usr$";
    B "/tmp$";
    B "/$";
    B "/sys/devices/system/cpu(?:$|/online)";
    B "/etc/selinux/config$";
    B "/proc$";
    B "/proc/(?:self|{pid})/(?:maps|exe|auxv)$";
    B "/proc/(?:self|{pid})$";
    B "/proc/(?:meminfo|stat|cpuinfo|filesystems|xen|uptime)$";
    B "/proc/sys/vm/overcommit_memory$";
    B "/etc/ld\.so\.(?:nohwcap|preload|cache)$" ].
Definition BASE_WRITE_FILESYSTEM : list (list N) := [B "/dev/stdout$"; B "/dev/stderr$"; B "/dev/null$"].
(** mixins.py:76-79 get_fs, with the executor's own rules and the configured ones *)
Definition get_fs (own extra : list (list N)) (dir : list N) : list (list N) :=
  BASE_FILESYSTEM ++ own ++ extra ++ [escape dir].
(** mixins.py:81-82 *)
Definition get_write_fs (own : list (list N)) : list (list N) := BASE_WRITE_FILESYSTEM ++ own.

(** mixins.py:97-108: where launch puts a symbolic link; [None] = InternalError.
    os.path.abspath of an absolute path is normpath. *)
Fixpoint common_prefix (a b : list N) : list N :=
  match a, b with
  | x :: a', y :: b' => if (x =? y)%N then x :: common_prefix a' b' else []
  | _, _ => []
  end.
Definition link_place (dir src : list N) : option (list N) :=
  let src := normpath (join dir src) in
  if beqb (common_prefix src dir) dir then Some src else None.
