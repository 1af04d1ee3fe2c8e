(** The sandbox as a whole on Linux/x86-64 with the seccomp filter: the monitor (ptproc.cpp), the tables it decides by
    (tracer.py), and the handlers with the state they keep (isolate.py, shell_executor.py, java_executor.py). *)
From Coq Require Import String.
From Verif Require Import Model.Bytes Model.Paths Model.Regex Model.Access Model.SyscallTables Model.Tracer Model.Monitor Model.Policies.
Local Open Scope list_scope.

Section Box.
  Variable tabs : tables own_handler.               (* tracer.py:137-152 *)
  Variable allowed : list (option (list N)).        (* shell_executor.py:15-16 *)
  Variable getpid : nat -> Z.

  (** ptproc.cpp:244-274 with tracer.py:245-260: the handler that is run for a call, if one is. *)
  Definition called (abi : nat) (syscall : Z) : option own_handler :=
    if (0 <=? syscall)%Z && (syscall <? 568)%Z then
      if (handlers tabs abi (Z.to_N syscall) =? 2)%N then callbacks tabs abi (Z.to_N syscall) else None
    else if (-568 <=? syscall)%Z && (syscall <? 0)%Z then callbacks tabs abi (Z.to_N (568 + syscall))
    else None.
  (** The monitor and the rules compiled so far. *)
  Definition box : Type := state * tracer.
  (** ptproc.cpp:244-274: the decision on a call; [d]: what the handlers can see of the stopped thread *)
  Definition decide_at (t : tracer) (d : debugger) (r : regs) : decision :=
    decide (fun h => fst (handle_own allowed t d h)) tabs (r_abi r) (r_nr r) (r_arg0 r).
  (** isolate.py:238-256: what the handler leaves in the caches *)
  Definition after_at (t : tracer) (d : debugger) (r : regs) : tracer :=
    match called (r_abi r) (r_nr r) with Some h => snd (handle_own allowed t d h) | None => t end.
  (** ptproc.cpp:121-363: one return of wait4 *)
  Definition box_step (b : box) (tid : N) (st : stop) (d : debugger) : box * list action :=
    let (s, t) := b in
    let (s', acts) := step true (decide_at t d) getpid s tid st in
    ((s', match st with CallStop (Got r) _ => if over s || negb (spawned s) then t else after_at t d r | _ => t end), acts).
End Box.
