(** What a trace of stops means, independently of the monitor. *)
From Verif Require Import Model.Bytes Model.Access Model.Tracer Model.Monitor.
Local Open Scope list_scope.

(** The program's main process stopped with its initial signal, and has not ended since. *)
Definition alive (m : N) (l : list (N * stop)) : Prop :=
  (exists sig r, l = (m, SignalStop sig) :: r) /\ forall status, ~ In (m, Ended status) l.
(** Under seccomp only entries stop; the first execve call is number 59. *)
Definition called_execve (l : list (N * stop)) : Prop :=
  exists tid r w, In (tid, CallStop (Got r) w) l /\ r_nr r = 59%Z.

(** Without seccomp each thread stops on entering and on leaving a call.  [New]: not seen yet,
    or ended; a new thread first stops with a signal.  [None]: the kernel does not do this.
    [events_inside]: stops for clone, fork, vfork and exit happen inside the call. *)
Inductive phase := New | Outside | Inside.
Definition next (events_inside : bool) (p : phase) (st : stop) : option phase :=
  match st, p with
  | Ended _, _ => Some New
  | NotStopped, _ => Some p
  | SignalStop _, New => Some Outside
  | SignalStop _, Outside => Some Outside
  | SignalStop _, Inside => None
  | CallStop _ _, Outside => Some Inside
  | CallStop _ _, Inside => Some Outside
  | CallStop _ _, New => None
  | EventStop _, New => None
  | EventStop _, Outside => Some Outside
  | EventStop _, Inside => if events_inside then Some Inside else None
  end.
Fixpoint phases (events_inside : bool) (ph : N -> phase) (l : list (N * stop)) : option (N -> phase) :=
  match l with
  | [] => Some ph
  | (tid, st) :: r =>
      match next events_inside (ph tid) st with
      | None => None
      | Some p => phases events_inside (fun x => if (x =? tid)%N then p else ph x) r
      end
  end.
Definition kernel (events_inside : bool) (l : list (N * stop)) : option (N -> phase) :=
  phases events_inside (fun _ => New) l.
(** An execve has returned 0 somewhere in the trace. *)
Definition execve_returned (events_inside : bool) (l : list (N * stop)) : Prop :=
  exists p tid r w q ph, l = p ++ (tid, CallStop (Got r) w) :: q /\ kernel events_inside p = Some ph
    /\ ph tid = Inside /\ r_result r = 0%Z /\ r_nr r = (if (r_abi r =? X86)%nat then 11 else 59)%Z.
(** Processes: [c] was reported as forked (or vforked) and has not ended since. *)
Definition forks (c : N) (st : stop) : bool :=
  match st with EventStop (EvFork x) | EventStop (EvVfork x) => (x =? c)%N | _ => false end.
Definition outstanding (c : N) (l : list (N * stop)) : Prop :=
  exists p tid st q, l = p ++ (tid, st) :: q /\ forks c st = true /\ forall status, ~ In (c, Ended status) q.
