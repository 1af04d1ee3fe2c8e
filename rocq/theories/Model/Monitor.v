(** dmoj/cptbox/ptproc.cpp pt_process::monitor on Linux/x86-64, with the parts of ptdebug.cpp,
    ptdebug_x64.cpp, _cptbox.pyx and handlers.py that it calls: one step per return of wait4. *)
From Verif Require Import Model.Bytes Model.Access Model.Tracer.
Local Open Scope list_scope.

(** The registers of a stopped thread that matter here. *)
Record regs := { r_abi : nat; r_nr : Z; r_arg0 : Z; r_result : Z }.
(** ptdebug.cpp:61-87 pre_syscall: registers, ESRCH, or another error *)
Inductive read_regs := Got (r : regs) | Vanished | ReadError.
(** status >> 16 of a SIGTRAP stop (ptproc.cpp:309-329) *)
Inductive ptrace_event := EvExit | EvClone | EvFork (child : N) | EvVfork (child : N) | EvOther.
(** How wait4 describes the thread it returns (ptproc.cpp:140, 186, 196, 289).  For a system
    call stop the results of reading and of writing back the registers come with it. *)
Inductive stop :=
| Ended (status : Z)
| NotStopped
| CallStop (got : read_regs) (write_ok : bool)
| EventStop (e : ptrace_event)
| SignalStop (signal : N).

(** What the monitor does to the outside. *)
Inductive action :=
| Go (tid : N) (set : option regs) (signal : N)  (** resume, after writing registers if given *)
| Fault (nr : Z)                                 (** protection fault reported *)
| KillGroup                                      (** killpg(pid, SIGKILL) *)
| KillOne (pid : N)
| Finish (status : Z).

Record state := {
  first : bool;
  spawned : bool;
  group : option N;            (** pgid, once known *)
  inside : N -> bool;          (** ptdebug syscall_ toggles *)
  returns : N -> bool;         (** ptdebug on_return_ has an entry for the thread *)
  slot : option N;             (** _cptbox.pyx Debugger.on_return_callback: the errno to return *)
  children : list N;
  over : bool
}.
(** ptproc.cpp:108-115 *)
Definition start : state :=
  {| first := true; spawned := false; group := None; inside := fun _ => false; returns := fun _ => false;
     slot := None; children := []; over := false |}.
Definition set_at (f : N -> bool) (k : N) (v : bool) : N -> bool := fun x => if (x =? k)%N then v else f x.
Definition set_inside (s : state) f := {| first := first s; spawned := spawned s; group := group s; inside := f;
  returns := returns s; slot := slot s; children := children s; over := over s |}.
Definition set_spawned (s : state) := {| first := first s; spawned := true; group := group s; inside := inside s;
  returns := returns s; slot := slot s; children := children s; over := over s |}.
Definition set_pending (s : state) f o := {| first := first s; spawned := spawned s; group := group s; inside := inside s;
  returns := f; slot := o; children := children s; over := over s |}.
Definition set_children (s : state) l := {| first := first s; spawned := spawned s; group := group s; inside := inside s;
  returns := returns s; slot := slot s; children := l; over := over s |}.
(** ptproc.cpp:163-184 *)
Definition attach (s : state) (tid : N) := {| first := first s; spawned := spawned s;
  group := (if first s then Some tid else group s); inside := inside s;
  returns := returns s; slot := slot s; children := children s; over := over s |}.
(** ptproc.cpp:349 *)
Definition not_first (s : state) := {| first := false; spawned := spawned s; group := group s; inside := inside s;
  returns := returns s; slot := slot s; children := children s; over := over s |}.
Definition finish (s : state) := {| first := first s; spawned := spawned s; group := group s; inside := inside s;
  returns := returns s; slot := slot s; children := children s; over := true |}.

(** ptproc.cpp:81-96 *)
Definition protection_fault (nr : Z) : list action := [Fault nr; KillGroup].
(** ptproc.cpp:340-349 *)
Definition resume (s : state) (tid : N) (set : option regs) (signal : N) : state * list action :=
  (not_first s, [Go tid set (if first s then 0 else signal)%N]).

Section Run.
Variable seccomp : bool.
(** The decision on a system call entry (Model/Tracer.v [decide] on the registers). *)
Variable decide : regs -> decision.
(** tracer.py:59-62 noop_syscall_id: the number of getpid on the ABI *)
Variable getpid : nat -> Z.

(** ptdebug_x64.cpp:119-131 *)
Definition is_end_of_first_execve (enter : bool) (r : regs) : bool :=
  if seccomp then (r_nr r =? 59)%Z
  else if enter then false
  else if r_abi r =? X86 then (r_nr r =? 11)%Z && (r_result r =? 0)%Z
  else (r_nr r =? 59)%Z && (r_result r =? 0)%Z.

(** handlers.py:9-18 with _cptbox.pyx:233-242, 374-376 (on_return): the number becomes -1
    under seccomp, otherwise getpid's. *)
Definition deny (s : state) (tid : N) (r : regs) (errno : N) : state * regs :=
  (set_pending s (set_at (returns s) tid true) (Some errno),
   {| r_abi := r_abi r; r_nr := if seccomp then (-1)%Z else getpid (r_abi r);
      r_arg0 := r_arg0 r; r_result := r_result r |}).
(** ptproc.cpp:278-282, _cptbox.pyx:378-380.  Calling None raises, which is ignored: the
    registers stay as they are. *)
Definition on_return (s : state) (tid : N) (enter : bool) (r : regs) : state * regs * bool :=
  if (seccomp || negb enter) && returns s tid then
    (set_pending s (set_at (returns s) tid false) None,
     match slot s with
     | Some e => {| r_abi := r_abi r; r_nr := r_nr r; r_arg0 := r_arg0 r; r_result := (- Z.of_N e)%Z |}
     | None => r
     end,
     match slot s with Some _ => true | None => false end)
  else (s, r, false).
(** ptproc.cpp:276-288, then resume_process *)
Definition complete (s : state) (tid : N) (enter : bool) (r : regs) (changed write_ok : bool) (before : list action) : state * list action :=
  let '(s, r, c) := on_return s tid enter r in
  if changed || c then
    if write_ok then let '(s, a) := resume s tid (Some r) 0 in (s, before ++ a)
    else (s, before ++ protection_fault (r_nr r))
  else let '(s, a) := resume s tid None 0 in (s, before ++ a).
(** ptproc.cpp:196-288 *)
Definition on_call (s : state) (tid : N) (got : read_regs) (write_ok : bool) : state * list action :=
  let s := if seccomp then s else set_inside s (set_at (inside s) tid (negb (inside s tid))) in
  match got with
  | Vanished => (s, [])
  | ReadError => (s, protection_fault (-1))
  | Got r =>
      let enter := if seccomp then true else inside s tid in
      if negb (spawned s) then
        resume (if is_end_of_first_execve enter r then set_spawned s else s) tid None 0
      else if enter then
        match decide r with
        | Verdict Run => complete s tid enter r false write_ok []
        | Verdict (Fail e) => let '(s, r) := deny s tid r e in complete s tid enter r true write_ok []
        | Verdict Kill => (s, protection_fault (r_nr r))
        | FaultAndRun => complete s tid enter r false write_ok (protection_fault (r_nr r))
        end
      else complete s tid enter r false write_ok []
  end.
Definition insert (x : N) (l : list N) : list N := if existsb (N.eqb x) l then l else x :: l.
Definition erase (x : N) (l : list N) : list N := filter (fun y => negb (y =? x)%N) l.
(** ptproc.cpp:121-363: one round *)
Definition step (s : state) (tid : N) (st : stop) : state * list action :=
  if over s then (s, []) else
  match st with
  | Ended status =>
      if first s || (match group s with Some g => (g =? tid)%N | None => false end)
      then (finish s, map KillOne (children s) ++ [Finish status])
      else (set_children s (erase tid (children s)), [])
  | NotStopped => resume (attach s tid) tid None 0
  | CallStop got w => on_call (attach s tid) tid got w
  | EventStop e =>
      let s := attach s tid in
      let s := set_inside s (set_at (inside s) tid false) in
      let s := match e with
               | EvFork c | EvVfork c => set_children s (insert c (children s))
               | _ => s
               end in
      resume s tid None 0
  | SignalStop signal =>
      let s := attach s tid in
      let s := set_inside s (set_at (inside s) tid false) in
      resume s tid None signal
  end.
Fixpoint run (s : state) (l : list (N * stop)) : state :=
  match l with [] => s | (tid, st) :: r => run (fst (step s tid st)) r end.
End Run.

(** ** What the caller is told: tracer.py:185-202 wait(), _cptbox.pyx was_initialized.
    [None] = RuntimeError. *)
Definition wait_result (initialized : bool) (returncode : Z) : option Z :=
  if initialized then Some returncode else if (returncode >=? 0)%Z then None else Some returncode.
