(** The judge's threads: dmoj/judge.py Judge. *)
From Verif Require Import Model.Bytes.

(** ** One submission at a time (judge.py:112-186)

    Any number of threads call [begin_grading]; each call starts a grading thread.  A
    schedule picks who moves.  [stream s] is what the worker of submission [s] reports
    (as numbers), the end of the list being the end of [communicate()], by BYE or by an
    exception (whose internal-error report is part of the list). *)
Section Grading.
  Variable stream : nat -> list nat.
  (** Does starting the worker process of [s] fail (os.fork)? *)
  Variable fork_fails : nat -> bool.

  Inductive tev :=
  | Begin (s : nat)                                    (* current_judge_worker = JudgeWorker(s) *)
  | Report (s m : nat) (current : option nat)          (* a handler runs; current_submission at that time *)
  | End (s : nat).                                     (* current_judge_worker = None *)

  Inductive cphase :=
  | CIdle
  | CLocked (s : nat)                                  (* judge.py:118 acquired *)
  | CStarted (s : nat)                                 (* judge.py:130 worker stored *)
  | CWaiting (j : nat)                                 (* judge.py:138 ipc_ready_signal.wait() *)
  | CFailed.                                           (* an exception left begin_grading *)
  Inductive gphase :=
  | GRun (rest : list nat)                             (* judge.py:161-169 *)
  | GTornDown                                          (* judge.py:179 wait_with_timeout returned *)
  | GCleared                                           (* judge.py:180 *)
  | GSignalled                                         (* judge.py:184 *)
  | GDone.                                             (* judge.py:186 lock released *)
  Record gthread := GThread { g_sub : nat; g_ph : gphase; ready : bool }.

  Record jstate := JState {
    locked : bool;
    current : option nat;
    callers : nat -> cphase;
    todo : nat -> list nat;                            (* submissions each caller will submit *)
    threads : list gthread;
    trace : list tev
  }.
  Definition set_caller (s : jstate) (i : nat) (p : cphase) : nat -> cphase :=
    fun k => if k =? i then p else callers s k.
  Definition set_todo (s : jstate) (i : nat) (l : list nat) : nat -> list nat :=
    fun k => if k =? i then l else todo s k.
  Fixpoint set_nth {A} (l : list A) (j : nat) (a : A) : list A :=
    match l, j with
    | [], _ => []
    | _ :: r, O => a :: r
    | x :: r, S j => x :: set_nth r j a
    end.

  (** judge.py:112-141 (not blocking: the caller goes on once the worker is ready) *)
  Definition caller_step (s : jstate) (i : nat) : jstate :=
    match callers s i with
    | CIdle =>
        match todo s i, locked s with
        | sub :: r, false => JState true (current s) (set_caller s i (CLocked sub)) (set_todo s i r) (threads s) (trace s)
        | _, _ => s
        end
    | CLocked sub =>
        match current s with
        | Some _ => JState (locked s) (current s) (set_caller s i CFailed) (todo s) (threads s) (trace s)  (* assert, line 119 *)
        | None =>
            if fork_fails sub then JState (locked s) (current s) (set_caller s i CFailed) (todo s) (threads s) (trace s)
            else JState (locked s) (Some sub) (set_caller s i (CStarted sub)) (todo s) (threads s) (trace s ++ [Begin sub])
        end
    | CStarted sub =>
        JState (locked s) (current s) (set_caller s i (CWaiting (length (threads s)))) (todo s)
               (threads s ++ [GThread sub (GRun (stream sub)) false]) (trace s)
    | CWaiting j =>
        match nth_error (threads s) j with
        | Some t => if ready t then JState (locked s) (current s) (set_caller s i CIdle) (todo s) (threads s) (trace s) else s
        | None => s
        end
    | CFailed => s
    end.
  (** judge.py:143-186; report 0 is HELLO, which sets the ready signal (line 148). *)
  Definition thread_step (s : jstate) (j : nat) : jstate :=
    match nth_error (threads s) j with
    | None => s
    | Some (GThread sub ph rdy) =>
        match ph with
        | GRun (m :: r) =>
            JState (locked s) (current s) (callers s) (todo s)
                   (set_nth (threads s) j (GThread sub (GRun r) (rdy || (m =? 0)))) (trace s ++ [Report sub m (current s)])
        | GRun [] => JState (locked s) (current s) (callers s) (todo s) (set_nth (threads s) j (GThread sub GTornDown rdy)) (trace s)
        | GTornDown => JState (locked s) None (callers s) (todo s) (set_nth (threads s) j (GThread sub GCleared rdy)) (trace s ++ [End sub])
        | GCleared => JState (locked s) (current s) (callers s) (todo s) (set_nth (threads s) j (GThread sub GSignalled true)) (trace s)
        | GSignalled => JState false (current s) (callers s) (todo s) (set_nth (threads s) j (GThread sub GDone rdy)) (trace s)
        | GDone => s
        end
    end.
  Inductive jmove := Caller (i : nat) | Thread (j : nat).
  Definition jstep (s : jstate) (m : jmove) : jstate :=
    match m with Caller i => caller_step s i | Thread j => thread_step s j end.
  Definition jrun (s : jstate) (sch : list jmove) : jstate := fold_left jstep sch s.
  Definition jinit (td : nat -> list nat) : jstate := JState false None (fun _ => CIdle) td [] [].
End Grading.

(** ** Whom an abort reaches (judge.py:238-255)
    [request] = the submission id in the request, if any; the result is the submission
    whose worker is told to stop. *)
Definition abort_grading (current : option nat) (request : option nat) : option nat :=
  match current with
  | None => None
  | Some s =>
      match request with
      | Some r => if s =? r then Some s else None
      | None => Some s
      end
  end.

(** ** The problem updater (judge.py:85-110)

    The problem set is a version number, bumped by [Change]; [Notify] is
    update_problems().  [fails k] says whether the [k]-th attempt to scan or send raises. *)
Section Updater.
  Variable fails : nat -> bool.
  Inductive uphase :=
  | UWait                        (* blocked in wait() until the event is set *)
  | UWoken                       (* wait returned *)
  | UCleared                     (* event cleared, exit flag looked at *)
  | UScanned (v : nat)           (* cache dropped, problem list read *)
  | UExited.
  Record ustate := UState { event : bool; version : nat; notified : nat; phase : uphase; sent : list nat; attempts : nat; exiting : bool }.
  Inductive umove := Change | Notify | U | Murder.
  Definition ustep (s : ustate) (m : umove) : ustate :=
    match m with
    | Change => UState (event s) (S (version s)) (notified s) (phase s) (sent s) (attempts s) (exiting s)
    | Notify => UState true (version s) (version s) (phase s) (sent s) (attempts s) (exiting s)
    | Murder => UState true (version s) (notified s) (phase s) (sent s) (attempts s) true
    | U =>
        match phase s with
        | UWait => if event s then UState (event s) (version s) (notified s) UWoken (sent s) (attempts s) (exiting s) else s
        | UWoken => UState false (version s) (notified s) UCleared (sent s) (attempts s) (exiting s)
        | UCleared =>
            if exiting s then UState (event s) (version s) (notified s) UExited (sent s) (attempts s) (exiting s)
            else if fails (attempts s) then UState (event s) (version s) (notified s) UWait (sent s) (S (attempts s)) (exiting s)
            else UState (event s) (version s) (notified s) (UScanned (version s)) (sent s) (S (attempts s)) (exiting s)
        | UScanned v => UState (event s) (version s) (notified s) UWait (sent s ++ [v]) (attempts s) (exiting s)
        | UExited => s
        end
    end.
  Definition urun (s : ustate) (ms : list umove) : ustate := fold_left ustep ms s.
  Definition uinit : ustate := UState false 0 0 UWait [] 0 false.
End Updater.
