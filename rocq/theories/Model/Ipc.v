(** The two ends of one grading: the judge's grading thread and the worker process with its
    two threads (dmoj/judge.py Judge._grading_thread_main, JudgeWorker). *)
From Coq Require Import List Arith QArith Qround.
Import ListNotations.
Local Open Scope nat_scope.

(** judge.py:34-46 IPC.  What the worker sends: its greeting, reports of the grading (numbered
    here), an exception, the farewell; and what it may be sent. *)
Inductive msg := Hello | Report (n : nat) | Unhandled | Bye.
Inductive order := OBye | OAbort.
(** judge.py:49 *)
Definition teardown_timeout : nat := 5.
(** judge.py:316 *)
Definition recv_timeout (time_limit : Q) : nat := Nat.max 60 (Z.to_nat (Qfloor (2 * time_limit))).

(** The worker's main thread, judge.py:357-435. *)
Inductive wmain :=
| WGreet                       (** about to send HELLO, line 396 *)
| WStart                       (** about to start the receiving thread, lines 398-399 *)
| WGrading                     (** in the generator, lines 401-415 *)
| WRaised                      (** the exception is sent, the farewell is not, lines 388-392 *)
| WJoining (deadline : nat).   (** waiting for the receiving thread, lines 422-427 *)
(** The worker's receiving thread, judge.py:369-386. *)
Inductive wrecv := RNone | RListening | REnded.
(** The judge's grading thread, judge.py:143-186. *)
Inductive jthread :=
| JPolling (deadline : nat)    (** lines 317-322 *)
| JHandling (m : msg)          (** line 168 *)
| JReplying                    (** line 332: about to answer the farewell *)
| JFailing                     (** line 177: about to report the traceback *)
| JTearDown                    (** line 179, before 338 *)
| JJoining (deadline : nat)    (** line 341 *)
| JDone.
(** A caller of abort_grading, judge.py:252-255; calls are made one after the other. *)
Inductive aborter := AIdle | AJoining (deadline : nat).

Record state := State {
  main : wmain; recv : wrecv; alive : bool; abort : bool;
  pipe : list msg;             (** sent by the worker, not yet read *)
  back : list order;           (** sent to the worker, not yet read *)
  thread : jthread; caller : aborter; clock : nat;
  (** what happened, for the statements: *)
  sent : list msg; handled : list msg; errors : nat; waited : nat; killed : bool; requested : bool
}.
Inductive move :=
| Greet | Start | Emit (n : nat) | Finish | Raise | SayBye | Exit | Crash | Listen
| Judge (raises : bool) | Lost | AbortCall | AbortWait | Tick.

Definition set_worker s m r al ab p b : state :=
  State m r al ab p b (thread s) (caller s) (clock s) (sent s) (handled s) (errors s) (waited s) (killed s) (requested s).
(** The worker writes a message. *)
Definition send (s : state) (x : msg) (m : wmain) : state :=
  State m (recv s) (alive s) (abort s) (pipe s ++ [x]) (back s) (thread s) (caller s) (clock s)
        (sent s ++ [x]) (handled s) (errors s) (waited s) (killed s) (requested s).
Definition set_thread (s : state) (t : jthread) (p : list msg) (b : list order) : state :=
  State (main s) (recv s) (alive s) (abort s) p b t (caller s) (clock s) (sent s) (handled s) (errors s) (waited s) (killed s) (requested s).
(** SIGKILL (taken to work at once): judge.py:325, 347 *)
Definition kill (s : state) (t : jthread) (a : aborter) : state :=
  State (main s) (recv s) false (abort s) (pipe s) (back s) t a (clock s) (sent s) (handled s) (errors s) (waited s) (killed s || alive s) (requested s).
Definition over (s : state) (deadline : nat) : bool := deadline <=? clock s.

Section Ipc.
  Variable timeout : nat.      (** what [recv_timeout] gives *)

  (** A wait is over at its deadline: time passes only until then. *)
  Definition may_pass (s : state) : bool :=
    negb match thread s with JPolling d | JJoining d => over s d | _ => false end
    && negb match caller s with AJoining d => over s d | _ => false end
    && negb (alive s && match main s with WJoining d => over s d | _ => false end).
  Definition waiting (s : state) : bool := match thread s with JPolling _ | JJoining _ => true | _ => false end.

  (** One step; a move that is not possible changes nothing. *)
  Definition step (s : state) (m : move) : state :=
    match m with
    | Greet => match main s with WGreet => if alive s then send s Hello WStart else s | _ => s end
    | Start => match main s with
               | WStart => if alive s then set_worker s WGrading RListening true (abort s) (pipe s) (back s) else s
               | _ => s
               end
    | Emit n => match main s with WGrading => if alive s then send s (Report n) WGrading else s | _ => s end
    | Finish => match main s with WGrading => if alive s then send s Bye (WJoining (clock s + teardown_timeout)) else s | _ => s end
    | Raise => match main s with WGrading => if alive s then send s Unhandled WRaised else s | _ => s end
    | SayBye => match main s with WRaised => if alive s then send s Bye (WJoining (clock s + teardown_timeout)) else s | _ => s end
    | Exit =>     (* judge.py:427-435: the receiving thread ended, or it took too long *)
        match main s with
        | WJoining d => if alive s && (match recv s with RListening => false | _ => true end || over s d)
                        then set_worker s (main s) (recv s) false (abort s) (pipe s) (back s) else s
        | _ => s
        end
    | Crash =>    (* the process dies for any other reason, a broken pipe included *)
        set_worker s (main s) (recv s) false (abort s) (pipe s) (back s)
    | Listen =>   (* judge.py:373-386 *)
        match recv s, back s with
        | RListening, OBye :: b => if alive s then set_worker s (main s) REnded true (abort s) (pipe s) b else s
        | RListening, OAbort :: b => if alive s then set_worker s (main s) RListening true true (pipe s) b else s
        | _, _ => s
        end
    | Judge raises =>
        match thread s with
        | JPolling d =>
            match pipe s with
            | Bye :: p => set_thread s JReplying p (back s)
            | m :: p => set_thread s (JHandling m) p (back s)
            | [] => if negb (alive s) then set_thread s JFailing [] (back s)        (* EOFError, lines 327-329 *)
                    else if over s d then kill s JFailing (caller s)                (* lines 319-326 *)
                    else s
            end
        | JHandling m =>
            if raises then set_thread s JFailing (pipe s) (back s)
            else State (main s) (recv s) (alive s) (abort s) (pipe s) (back s) (JPolling (clock s + timeout)) (caller s) (clock s)
                       (sent s) (handled s ++ [m]) (errors s) (waited s) (killed s) (requested s)
        | JReplying =>  (* writing to a process that is gone raises *)
            if alive s then set_thread s JTearDown (pipe s) (back s ++ [OBye]) else set_thread s JFailing (pipe s) (back s)
        | JFailing => State (main s) (recv s) (alive s) (abort s) (pipe s) (back s) JTearDown (caller s) (clock s)
                            (sent s) (handled s) (S (errors s)) (waited s) (killed s) (requested s)
        | JTearDown => set_thread s (if alive s then JJoining (clock s + teardown_timeout) else JDone) (pipe s) (back s)
        | JJoining d => if negb (alive s) then set_thread s JDone (pipe s) (back s)
                        else if over s d then kill s JDone (caller s) else s
        | JDone => s
        end
    | Lost =>    (* a process that dies with orders unread resets the connection: reports are lost *)
        match thread s with
        | JPolling _ => if negb (alive s) && (match back s with [] => false | _ => true end)
                        then set_thread s JFailing (pipe s) (back s) else s
        | _ => s
        end
    | AbortCall =>  (* judge.py:241-255, 349-355, 337-338; nothing is current any more when the thread is done *)
        match thread s, caller s with
        | JDone, _ => s
        | _, AJoining _ => s
        | _, AIdle =>
            if alive s then State (main s) (recv s) (alive s) (abort s) (pipe s) (back s ++ [OAbort]) (thread s)
                                  (AJoining (clock s + teardown_timeout)) (clock s) (sent s) (handled s) (errors s) (waited s) (killed s) true
            else s
        end
    | AbortWait =>  (* judge.py:340-347 *)
        match caller s with
        | AJoining d =>
            if negb (alive s) then
              State (main s) (recv s) (alive s) (abort s) (pipe s) (back s) (thread s) AIdle (clock s) (sent s) (handled s) (errors s) (waited s) (killed s) (requested s)
            else if over s d then kill s (thread s) AIdle else s
        | AIdle => s
        end
    | Tick =>
        if may_pass s then
          State (main s) (recv s) (alive s) (abort s) (pipe s) (back s) (thread s) (caller s) (S (clock s))
                (sent s) (handled s) (errors s) (if waiting s then S (waited s) else waited s) (killed s) (requested s)
        else s
    end.
  Definition run (s : state) (ms : list move) : state := fold_left step ms s.
  (** judge.py:300-313, 130-136 *)
  Definition init : state :=
    State WGreet RNone true false [] [] (JPolling timeout) AIdle 0 [] [] 0 0 false false.
End Ipc.
