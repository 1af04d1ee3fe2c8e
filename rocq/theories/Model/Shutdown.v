(** The end of the judge: dmoj/judge.py main, Judge.murder, the updater; dmoj/packet.py close and
    the flusher. *)
From Coq Require Import String.
From Verif Require Import Model.Bytes.
Local Open Scope list_scope.

(** How Judge.listen (judge.py:257-262) ends.  Ctrl-C makes it return (packet.py:158-159) or raise
    KeyboardInterrupt (judge.py:634-635).  Reconnecting is given up: SystemExit(0)
    (packet.py:117-120).  The site asks the judge to disconnect: the connection is closed, the grading
    aborted, and SystemExit(0) raised (packet.py:189-192).  Anything else wrong while reading:
    os._exit(1) (packet.py:160-165).
    Simplification: threads can be started, so that the except clause of judge.py:636-637 is idle. *)
Inductive listen_end := Returns | Interrupted | GivesUp | Disconnects | Fails.
(** Where the main thread is (judge.py:631-641 and 264-272): listening; in murder(), about to abort
    the grading, to set updater_exit, to set the signal, to close the connection; about to stop the
    HTTP server; about to stop the monitor (monitor.py:111-123); finished with a status; gone by
    os._exit(1), the process with it. *)
Inductive main_at := Listening | Aborting | Flagging | Signalling | Closing | StoppingApi | StoppingMonitor | Done (status : Z) | Exited.
(** The updater thread (judge.py:85-105): waiting for the signal; clearing it; looking at
    updater_exit; sending the list; returned. *)
Inductive updater_at := UWait | UClear | UTest | USend | UOver.
(** The flusher (packet.py:222-232): looking at _closed; asleep or flushing; returned. *)
Inductive flusher_at := FTest | FFlush | FOver.
Record state := State {
  main : main_at; updater : updater_at; flusher : flusher_at;
  status : Z;                                   (* what the process will exit with *)
  flag : bool; signal : bool; closed : bool;    (* updater_exit, updater_signal, _closed *)
  aborted : bool; api_stopped : bool; monitor_stopped : bool;
  sent : nat                                    (* problem lists sent by the updater *)
}.
Definition start : state := State Listening UWait FTest 0 false false false false false false 0.

(** What happens next: listen ends; a turn of the main thread, which [interrupt]s (Ctrl-C) may cut
    short; a turn of the updater; of the flusher; somebody asks for an update (judge.py:106-110). *)
Inductive move := Ends (e : listen_end) | Main (interrupt : bool) | Updater | Flusher | Request.

Section Step.
  Variable api : bool.           (* the HTTP interface runs, judge.py:617-628 *)

  (** judge.py:631-641.  Simplification: the operations of murder() do not raise by themselves. *)
  Definition main_step (interrupt : bool) (s : state) : state :=
    match s with
    | State m u f st fl sg cl ab ap mo n =>
        match m with
        | Listening | Done _ | Exited => s
        | StoppingMonitor => State (Done st) u f st fl sg cl ab ap true n
        | _ =>
            (* a KeyboardInterrupt in the finally clause goes through the with statement *)
            if interrupt then State StoppingMonitor u f 1 fl sg cl ab ap mo n
            else match m with
                 | Aborting => State Flagging u f st fl sg cl true ap mo n
                 | Flagging => State Signalling u f st true sg cl ab ap mo n
                 | Signalling => State Closing u f st fl true cl ab ap mo n
                 | Closing => State (if api then StoppingApi else StoppingMonitor) u f st fl sg true ab ap mo n
                 | _ => State StoppingMonitor u f st fl sg cl ab true mo n
                 end
        end
    end.
  (** One move in a living process: judge.py:85-110, 631-641; packet.py:189-192, 222-232. *)
  Definition act (s : state) (mv : move) : state :=
    match s with
    | State m u f st fl sg cl ab ap mo n =>
        match mv with
        | Ends e =>
            match m with
            | Listening =>
                match e with
                | Fails => State Exited u f 1 fl sg cl ab ap mo n
                | Disconnects => State Aborting u f st fl sg true true ap mo n
                | _ => State Aborting u f st fl sg cl ab ap mo n
                end
            | _ => s
            end
        | Main interrupt => main_step interrupt s
        | Updater =>
            match u with
            | UWait => if sg then State m UClear f st fl sg cl ab ap mo n else s
            | UClear => State m UTest f st fl false cl ab ap mo n
            | UTest => State m (if fl then UOver else USend) f st fl sg cl ab ap mo n
            | USend => State m UWait f st fl sg cl ab ap mo (S n)
            | UOver => s
            end
        | Flusher =>
            match f with
            | FTest => State m u (if cl then FOver else FFlush) st fl sg cl ab ap mo n
            | FFlush => State m u FTest st fl sg cl ab ap mo n
            | FOver => s
            end
        | Request => State m u f st fl true cl ab ap mo n
        end
    end.
  (** After os._exit(1) no thread moves (packet.py:165). *)
  Definition step (s : state) (mv : move) : state := match main s with Exited => s | _ => act s mv end.
  (** A history (judge.py:567-641). *)
  Definition run (ms : list move) : state := fold_left step ms start.
End Step.
(** The process ends when the main thread is done and the other two, which are not daemons
    (judge.py:78, packet.py:186), have returned; or by os._exit. *)
Definition process_over (s : state) : Prop :=
  main s = Exited \/ (exists k, main s = Done k) /\ updater s = UOver /\ flusher s = FOver.
