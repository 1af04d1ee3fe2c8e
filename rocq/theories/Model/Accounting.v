(** What a traced process is reported to have done: dmoj/cptbox/_cptbox.pyx get_memory,
    Process._event_handler and its properties, dmoj/cptbox/tracer.py 64-73 and 210-294, and the
    events dmoj/cptbox/ptproc.cpp sends. *)
From Coq Require Import String ZArith.
From Verif Require Import Model.Bytes Model.Registers.
Local Open Scope list_scope.
Local Open Scope N_scope.

(** *** Memory *)
(** C's fgets(line, 128, file): up to 127 bytes, ending after a newline; what is left of the file
    comes with them. *)
Fixpoint fgets (size : nat) (file : bytes) : bytes * bytes :=
  match size, file with
  | O, _ => ([], file)
  | _, [] => ([], [])
  | S k, c :: r => if c =? 10 then ([c], r) else let '(l, rest) := fgets k r in (c :: l, rest)
  end.
Definition digit (c : N) : bool := (48 <=? c) && (c <=? 57).
(** The value of a digit in any base up to 16. *)
Definition digit_value (c : N) : option N :=
  if digit c then Some (c - 48)
  else if (97 <=? c) && (c <=? 102) then Some (c - 87)
  else if (65 <=? c) && (c <=? 70) then Some (c - 55) else None.
Fixpoint number (base : N) (acc : N) (s : bytes) : N :=
  match s with
  | [] => acc
  | c :: r => match digit_value c with
              | Some d => if d <? base then number base (acc * base + d) r else acc
              | None => acc
              end
  end.
(** C's strtoul(start, NULL, 0) on a string that starts with a digit; too large a number gives
    ULONG_MAX.  Simplification: an unsigned long has 64 bits. *)
Definition strtoul (s : bytes) : N :=
  let n := match s with
           | 48 :: x :: d :: r =>
               if (x =? 120) || (x =? 88) then match digit_value d with Some _ => number 16 0 (d :: r) | None => 0 end
               else number 8 0 s
           | 48 :: _ => number 8 0 s
           | _ => number 10 0 s
           end in
  N.min n (2 ^ 64 - 1).
(** _cptbox.pyx:186-187; [None]: there is no digit before the terminator, so the loop runs on
    through memory. *)
Fixpoint to_digit (s : bytes) : option bytes :=
  match s with [] => None | c :: r => if digit c then Some s else to_digit r end.
(** _cptbox.pyx:178-190: the lines, with fuel.  Simplification: no byte of the file is zero. *)
Fixpoint find_peak (fuel : nat) (file : bytes) : option N :=
  match fuel with
  | O => Some 0
  | S f =>
      let '(line, rest) := fgets 127 file in
      match line with
      | [] => Some 0
      | _ => if starts_with (B "VmHWM:") line
             then option_map strtoul (to_digit (firstn (length line - 3) line))
             else find_peak f rest
      end
  end.
(** _cptbox.pyx:167-192; the argument is the contents of /proc/<pid>/status, if it can be opened. *)
Definition get_memory (status : option bytes) : option N :=
  match status with None => Some 0 | Some file => find_peak (S (length file)) file end.

(** *** Events *)
(** ptbox.h:24-30 *)
Inductive event :=
| Exiting
| Signalled (param : N)
| Protection (param : Z)
| UpdateFail (param : Z)
| PtraceError (param : N).
(** What the debugger knows at a stop: the name tables for the process's interface ([None] if
    the registers could not be read) and the six arguments. *)
Record seen := Seen { names : option (list (bytes * list Z)); arguments : list Z }.
(** tracer.py:64-73 *)
Definition get_syscall_name (d : seen) (syscall : Z) : bytes :=
  match names d with
  | None => B "failed to read registers"
  | Some translator =>
      match find (fun e => existsb (Z.eqb syscall) (snd e)) translator with
      | Some e => fst e
      | None => B "unknown"
      end
  end.
Record fault := Report { call : Z; callname : bytes; args : list Z; update_errno : option N }.
(** The fields of a Process and of a TracedPopen (_cptbox.pyx:383-394, tracer.py:113-139). *)
Record account := Account {
  exitcode : option Z;           (** _exitcode, once _exited *)
  signal_ : N;
  max_memory_ : N;
  initialized : bool;            (** pt_process::was_initialized *)
  is_tle : bool;
  protection_fault : option fault;
  last_errno : option N
}.
Definition fresh : account := Account None 0 0 false false None None.
Definition with_exit (a : account) (c : Z) := Account (Some c) (signal_ a) (max_memory_ a) (initialized a) (is_tle a) (protection_fault a) (last_errno a).
Definition with_signal (a : account) (s : N) := Account (exitcode a) s (max_memory_ a) (initialized a) (is_tle a) (protection_fault a) (last_errno a).
Definition with_memory (a : account) (m : N) := Account (exitcode a) (signal_ a) m (initialized a) (is_tle a) (protection_fault a) (last_errno a).
Definition with_start (a : account) := Account (exitcode a) (signal_ a) (max_memory_ a) true (is_tle a) (protection_fault a) (last_errno a).
Definition with_tle (a : account) := Account (exitcode a) (signal_ a) (max_memory_ a) (initialized a) true (protection_fault a) (last_errno a).
Definition with_fault (a : account) (f : fault) := Account (exitcode a) (signal_ a) (max_memory_ a) (initialized a) (is_tle a) (Some f) (last_errno a).
Definition with_errno (a : account) (e : N) := Account (exitcode a) (signal_ a) (max_memory_ a) (initialized a) (is_tle a) (protection_fault a) (Some e).

Definition SIGTRAP : N := 5.
Definition SIGXCPU : N := 24.
(** tracer.py:262-286 *)
Definition protection (d : seen) (syscall : Z) (is_update : bool) (a : account) : account :=
  with_fault a (if (syscall =? -1)%Z then Report (-1) (B "ptrace fail") (repeat 0%Z 6) None
                else Report syscall (get_syscall_name d syscall) (arguments d) (if is_update then last_errno a else None)).
(** "x or y" of C *)
Definition or_else (x y : N) : N := if x =? 0 then y else x.
(** _cptbox.pyx:420-438; [m] is what get_memory returns at the event. *)
Definition on_event (m : N) (d : seen) (e : event) (a : account) : account :=
  let a := match e with
           | Exiting | Signalled _ => with_memory a (or_else m (max_memory_ a))
           | _ => a
           end in
  match e with
  | Exiting => a
  | Protection p => protection d (signed 64 p) false a
  | UpdateFail p => protection d (signed 64 p) true a
  | PtraceError n => with_errno a n
  | Signalled p =>
      let a := if p =? SIGTRAP then a else with_signal a (p mod 2 ^ 32) in
      if p =? SIGXCPU then with_tle a else a
  end.

(** *** The monitor *)
(** What wait4 returns to the monitor, as far as events are concerned, and queries by other
    threads of the judge.  [main] tells stops of the main process from those of others. *)
Inductive round :=
| Stopped (main : bool) (sig : N) (exit_event : bool)  (** any stop that is not for a call *)
| Started                                              (** the stop at which the first execve ends *)
| Passed                                               (** a call stop without fault *)
| Unreadable (err : N)                                 (** registers cannot be read; not ESRCH *)
| Refused (nr : Z)                                     (** protection_fault(syscall) *)
| Unwritable (nr : Z) (err : N)                        (** registers cannot be written *)
| Queried.                                             (** max_memory read while running *)
(** ptproc.cpp:81-83: C converts the call number to unsigned long. *)
Definition protection_events (nr : Z) (update : bool) : list event :=
  let p := unsigned 64 nr in [if update then UpdateFail p else Protection p; Exiting].
(** ptproc.cpp:140-350: whether this is the first stop and whether a fault occurred, and the
    events sent. *)
Record watch := Watch { first : bool; faulted : bool }.
Definition events (w : watch) (r : round) : watch * list event :=
  match r with
  | Stopped main sig ev =>
      (Watch false (faulted w),
       (if (sig =? SIGTRAP) && ev && faulted w then [Exiting] else [])
       ++ (if negb (first w) && main then [Signalled sig] else []))
  | Started | Passed => (Watch false (faulted w), [])
  | Unreadable err => (Watch (first w) true, PtraceError err :: protection_events (-1) false)
  | Refused nr => (Watch (first w) true, protection_events nr false)
  | Unwritable nr err => (Watch (first w) true, PtraceError err :: protection_events nr true)
  | Queried => (w, [])
  end.
(** _cptbox.pyx:548-551, as far as it changes the object *)
Definition query (m : N) (a : account) : account := if 0 <? m then with_memory a m else a.
(** A round, what get_memory returns at each moment in it, and what the debugger knows.
    Simplification: the reading is the same for the events of one round. *)
Record moment := Moment { happened : round; reading : N; knows : seen }.
Definition live (s : watch * account) (x : moment) : watch * account :=
  let '(w, a) := s in
  let '(w', l) := events w (happened x) in
  let a := match happened x with Started => with_start a | Queried => query (reading x) a | _ => a end in
  (w', fold_left (fun a e => on_event (reading x) (knows x) e a) l a).
(** ptproc.cpp:351-363, _cptbox.pyx:498-505; [status] is the code that monitor returns. *)
Definition process_of (l : list moment) (code : Z) : account :=
  with_exit (snd (fold_left live l (Watch true false, fresh))) code.
Definition running (l : list moment) : account := snd (fold_left live l (Watch true false, fresh)).

(** *** The properties *)
(** _cptbox.pyx:543-551; [rss] is the ru_maxrss of the last wait4 and [m] a fresh reading. *)
Definition max_memory (rss m : N) (a : account) : N :=
  match exitcode a with
  | Some _ => or_else (max_memory_ a) rss
  | None => or_else (max_memory_ (query m a)) rss
  end.
(** _cptbox.pyx:553-557 *)
Definition signal (a : account) : option N :=
  match exitcode a with None => None | Some _ => Some (if initialized a then signal_ a else 0) end.
(** _cptbox.pyx:559-563 *)
Definition returncode (a : account) : option Z := exitcode a.
(** tracer.py:214-216; [limit] is _memory. *)
Definition is_mle (limit rss m : N) (a : account) : bool := negb (limit =? 0) && (limit <? max_memory rss m a).
