(** What the sandbox's file rules allow. *)
From Coq Require Import String.
From Verif Require Import Model.Bytes Model.Paths Model.Regex Model.Access Spec.Regex.
Local Open Scope list_scope.

(** Flags that ask for more than reading: an access mode other than read-only (bits 0, 1),
    O_CREAT (bit 6), O_EXCL (bit 7), O_TRUNC (bit 9), or O_TMPFILE (bits 16 and 22). *)
Definition writing (flags : N) : bool :=
  (N.testbit flags 0 || N.testbit flags 1 || N.testbit flags 6 || N.testbit flags 7 || N.testbit flags 9
   || (N.testbit flags 16 && N.testbit flags 22))%N.

(** A rule, for one process, and a path it covers. *)
Definition rule_pattern (pid : N) (rule : list N) (r : re) : Prop :=
  exists p, format_pid (decimal pid) rule = Some p /\ compile p = Some r.
Definition rule_ok (pid : N) (rule : list N) : Prop := exists r, rule_pattern pid rule r.
Definition covers (pid : N) (rule : list N) (path : list N) : Prop :=
  exists r rest, rule_pattern pid rule r /\ Matches r path rest.

(** The calls that name a file: which are relative to a descriptor, which open it. *)
Definition at_call (c : handled) : bool := match c with Openat | Faccessat | Readlinkat | Fstatat => true | _ => false end.
Definition opens (c : handled) : bool := match c with Open | Openat => true | _ => false end.
Definition file_call (c : handled) : bool :=
  match c with
  | Openat | Open | Faccessat | Access | Readlink | Readlinkat | Stat | Stat64 | Lstat | Lstat64 | Fstatat => true
  | _ => false
  end.
(** where each kind of call has its path, its flags and its directory *)
Definition path_of (d : debugger) (c : handled) : read_result := readstr d (uarg d (if at_call c then 1 else 0)).
Definition flags_of (d : debugger) (c : handled) : N := uarg d (if at_call c then 2 else 1).
Definition dir_of (d : debugger) (c : handled) : Z := if at_call c then arg0 d else (-100)%Z.
(** does the call want to write? *)
Definition wants_write (d : debugger) (c : handled) : bool := opens c && writing (flags_of d c).

(** The reading allowed by the base rules. *)
Definition exactly (w p : list N) : Prop := p = w \/ p = w ++ [10%N].
Definition below (w p : list N) : Prop := exists rest, p = w ++ rest.
Definition base_files (pid : list N) : list (list N) :=
  [B "/"; B "/etc"; B "/usr"; B "/tmp"; B "/proc"; B "/sys/devices/system/cpu";
   B "/dev/null"; B "/dev/tty"; B "/dev/zero"; B "/dev/random"; B "/dev/urandom";
   B "/etc/localtime"; B "/etc/timezone"; B "/etc/selinux/config";
   B "/etc/ld.so.nohwcap"; B "/etc/ld.so.preload"; B "/etc/ld.so.cache";
   B "/proc/meminfo"; B "/proc/stat"; B "/proc/cpuinfo"; B "/proc/filesystems"; B "/proc/xen"; B "/proc/uptime";
   B "/proc/sys/vm/overcommit_memory";
   B "/proc/self"; B "/proc/self/maps"; B "/proc/self/exe"; B "/proc/self/auxv";
   B "/proc/" ++ pid; B "/proc/" ++ pid ++ B "/maps"; B "/proc/" ++ pid ++ B "/exe"; B "/proc/" ++ pid ++ B "/auxv"].
Definition base_readable (pid : list N) (p : list N) : Prop :=
  (exists w, In w (base_files pid) /\ exactly w p)
  \/ (exists w, In w [B "/lib/"; B "/lib32/"; B "/lib64/"; B "/opt/"; B "/sys/devices/system/cpu/online"] /\ below w p)
  \/ (below (B "/usr/") p /\ ~ below (B "/usr/home") p).

(** Decimal numerals. *)
Definition numeral_value (s : list N) : N := fold_left (fun acc c => (10 * acc + (c - 48))%N) s 0%N.
