(** What reaches the site: the packets as dictionaries (dmoj/packet.py), and the queue when a result
    cannot be written as JSON. *)
From Coq Require Import String ZArith NArith List Bool Arith.
From Verif Require Import Model.Bytes Model.Utf8 Model.Json Model.Packets.
Import ListNotations.
Local Open Scope nat_scope.
Local Open Scope list_scope.

(** ** The queue with results that json.dumps may refuse (packet.py:194-232, judge.py:143-186, 273-297)

    The threads of Model/Packets, except that building the packet of a flush raises TypeError if a queued
    result is not [sendable].  The exception leaves the [with] block (the lock is released; the queue is not
    cleared).  In the flusher it is printed; in the grading thread it ends the loop over the worker's messages,
    log_internal_error flushes again, and what that raises is only logged. *)
Section Poison.
  Context {payload : Type}.
  Variable sendable : payload -> bool.
  Variable traceback : said.               (* the message made at judge.py:285 *)

  Definition raises (p : phase) (s : state payload) : bool :=
    match p, current _ s with
    | FlNonempty, Some _ => negb (forallb (fun c => sendable (info _ c)) (queue _ s))
    | _, _ => false
    end.
  (** what is left to do at the end of a submission: judge.py:178-186 *)
  Fixpoint at_end (prog : list (op payload)) : list (op payload) :=
    match prog with
    | [] => []
    | SetCurrent _ None :: _ => prog
    | _ :: r => at_end r
    end.
  (** An exception out of the flush the grading thread is in.  A flush followed by an internal-error packet is that
      of log_internal_error (packet.py:332-337), guarded by judge.py:289-297. *)
  Definition recover (prog : list (op payload)) : list (op payload) :=
    match prog with
    | Flush _ :: Send _ (InternalError _) :: r => r
    | Flush _ :: r => [Flush _; Send _ (InternalError traceback)] ++ at_end r
    | _ => prog
    end.
  Definition step' (s : state payload) (m : move) : state payload :=
    match m with
    | G => if raises (g_phase _ s) s
           then State _ (queue _ s) None (current _ s) (wire _ s) Out (recover (program _ s)) (f_phase _ s)
           else step _ s G
    | F => if raises (f_phase _ s) s
           then State _ (queue _ s) None (current _ s) (wire _ s) (g_phase _ s) (program _ s) Out
           else step _ s F
    | Net n => step _ s m
    end.
  Definition run' (s : state payload) (schedule : list move) : state payload := fold_left step' schedule s.
End Poison.

(** ** The packets as dictionaries *)
Section Packets.
  Variable float : Type.
  Notation value := (value float).
  (** What packet.py:204-214 takes from a Result. *)
  Record report := Report {
    r_status : Z; r_time : value; r_points : value; r_total : value; r_memory : value;
    r_output : value; r_extended : value; r_feedback : value
  }.
  (** packet.py:204-214 *)
  Definition case_dict (c : case report) : value :=
    let r := info _ c in
    VDict _ [(B "position", VInt _ (Z.of_nat (position _ c))); (B "status", VInt _ (r_status r)); (B "time", r_time r);
             (B "points", r_points r); (B "total-points", r_total r); (B "memory", r_memory r); (B "output", r_output r);
             (B "extended-feedback", r_extended r); (B "feedback", r_feedback r)].
  Definition said_value (x : said) : value := match x with Str s => VStr _ s | Bytes b => VBytes _ b end.
  Definition named (name : string) (id : nat) (rest : list (text * value)) : list (text * value) :=
    (B "name", VStr _ (B name)) :: (B "submission-id", VInt _ (Z.of_nat id)) :: rest.
  (** packet.py:321-369 *)
  Definition control_dict (c : ctl) (id : nat) : list (text * value) :=
    match c with
    | CompileError l => named "compile-error" id [(B "log", said_value l)]
    | CompileMessage l => named "compile-message" id [(B "log", said_value l)]
    | InternalError m => named "internal-error" id [(B "message", said_value m)]
    | GradingBegin p => named "grading-begin" id [(B "pretested", VBool _ p)]
    | GradingEnd => named "grading-end" id []
    | BatchBegin => named "batch-begin" id []
    | BatchEnd => named "batch-end" id []
    | Aborted => named "submission-terminated" id []
    end.
  (** [other]: the packets of other threads (ping-response, supported-problems, submission-acknowledged,
      current-submission-id; packet.py:303-305, 362-364, 371-379).  [None] = AttributeError. *)
  Variable other : nat -> list (text * value).
  Definition packet_dict (p : packet report) : option (list (text * value)) :=
    match p with
    | TestCaseStatus _ id cs => Some (named "test-case-status" id [(B "cases", VList _ (map case_dict cs))])
    | Control _ c (Some id) => Some (control_dict c id)
    | Control _ _ None => None
    | Other _ n => Some (other n)
    end.
  (** Does json.dumps take the case? *)
  Variable repr : float -> bytes.
  Definition sendable_report (r : report) : bool :=
    match dumps _ repr (case_dict (Case _ 0 0 r)) with Some _ => true | None => false end.
End Packets.
