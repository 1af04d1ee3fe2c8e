(** The threads around one sandboxed program: dmoj/cptbox/tracer.py TracedPopen. *)
From Coq Require Import String.
From Verif Require Import Model.Bytes.
Local Open Scope list_scope.

(** Where the thread that starts and watches the program is (tracer.py:296-330): about to spawn;
    closing the judge's copies of the program's pipe ends; announcing that the spawning is over;
    watching; the program has been reaped and its exit code is about to be stored
    (_cptbox.pyx:493-499); about to compare the time used with the limit; about to announce the
    end; finished. *)
Inductive worker_at := WSpawn | WClose | WAnnounce | WWatch | WStore | WCompare | WFinish | WOver.
(** Where the thread that enforces the limits is (tracer.py:332-352): waiting for the spawning;
    waiting for the end, a second at a time; looking at the clocks; in kill(), before and after its
    test that there is no exit code; marking the time limit as exceeded; about to wake the
    program; finished, or never started for want of a limit (tracer.py:158-161). *)
Inductive shocker_at := SWait | SPoll | SDecide | SCheck | SSend | SMark | SWake | SOver.
(** Where the caller is: in the constructor (tracer.py:162-167); left it by an exception, or with
    the object; has got wait()'s answer (tracer.py:185-186). *)
Inductive caller_at := CBuild | CRaised | CHolds | CWaited.
(** kill() (tracer.py:230-243) called by anyone who has the object: nothing going on; it has found
    no exit code. *)
Inductive killer_at := KIdle | KSend.

Inductive signal := Kill | Wake.
(** Whom a signal reaches: killpg(0), the judge's own group; the program's group; nobody, when the
    program has not yet made its group (ptproc.cpp:73); whoever has the number now that the program
    has been reaped. *)
Inductive target := OwnGroup | ProgramGroup | NoGroup | FormerGroup.

Record state := State {
  worker : worker_at; shocker : shocker_at; caller : caller_at; killer : killer_at;
  forked : bool;              (* pt_process::pid is no longer 0, ptproc.cpp:68-79 *)
  grouped : bool;             (* the program has made its group *)
  ended : bool;               (* the program has ended *)
  reaped : bool;              (* and wait4 has said so *)
  ends_open : bool;           (* the judge has its copies of the program's pipe ends *)
  spawn_error : bool;         (* _spawn_error is set *)
  spawned : bool; died : bool;(* the two events *)
  exited : bool;              (* _exited: returncode is not None *)
  tle : bool;                 (* _is_tle *)
  signals : list (signal * target)   (* sent, latest first *)
}.
Definition start (limited : bool) : state :=
  State WSpawn (if limited then SWait else SOver) CBuild KIdle false false false false true false false false false false [].

Definition target_of (s : state) : target :=
  if negb (forked s) then OwnGroup else if reaped s then FormerGroup else if grouped s then ProgramGroup else NoGroup.
Definition send (g : signal) (s : state) : list (signal * target) := (g, target_of s) :: signals s.

(** What can happen next.  [over]: the clocks the thread reads are past a limit.  [CpuSignal]:
    SIGXCPU reached the program (tracer.py:292-294). *)
Inductive move := Worker (over : bool) | Shocker (over : bool) | Caller | Killer | Groups | Ends | CpuSignal.

Section Step.
  Variable limited : bool.        (* a time limit was given *)
  Variable spawn_ok : bool.       (* _spawn does not raise *)

  (** tracer.py:296-330.  Closing pipe ends just made does not fail; what the program's OOM score
      is set to, and whether that works, changes nothing here. *)
  Definition worker_step (over : bool) (s : state) : state :=
    match s with
    | State w sh c k f g e r o er sp d x t l =>
        match w with
        | WSpawn => if spawn_ok then State WClose sh c k true g e r o er sp d x t l
                    else State WClose sh c k f g e r o true sp true x t l
        | WClose => State WAnnounce sh c k f g e r false er sp d x t l
        | WAnnounce => State (if er then WOver else WWatch) sh c k f g e r o er true d x t l
        | WWatch => if e then State WStore sh c k f g e true o er sp d x t l else s
        | WStore => State WCompare sh c k f g e r o er sp d true t l
        | WCompare => State WFinish sh c k f g e r o er sp d x (t || (limited && over)) l
        | WFinish => State WOver sh c k f g e r o er sp true x t l
        | WOver => s
        end
    end.
  (** tracer.py:332-352, with kill() inside *)
  Definition shocker_step (over : bool) (s : state) : state :=
    match s with
    | State w sh c k f g e r o er sp d x t l =>
        let at_ sh' := State w sh' c k f g e r o er sp d x t l in
        match sh with
        | SWait => if sp then at_ SPoll else s
        | SPoll => if d then at_ SOver else at_ SDecide
        | SDecide => if over then at_ SCheck else at_ SWake
        | SCheck => if x then at_ SMark else at_ SSend
        | SSend => State w SMark c k f g e r o er sp d x t (send Kill s)
        | SMark => State w SOver c k f g e r o er sp d x true l
        | SWake => State w SPoll c k f g e r o er sp d x t (send Wake s)
        | SOver => s
        end
    end.
  (** tracer.py:162-167, 185-186 *)
  Definition caller_step (s : state) : state :=
    match s with
    | State w sh c k f g e r o er sp d x t l =>
        match c with
        | CBuild => if sp then State w sh (if er then CRaised else CHolds) k f g e r o er sp d x t l else s
        | CHolds => if d then State w sh CWaited k f g e r o er sp d x t l else s
        | CRaised | CWaited => s
        end
    end.
  (** tracer.py:230-243 *)
  Definition killer_step (s : state) : state :=
    match s with
    | State w sh c k f g e r o er sp d x t l =>
        match k, c with
        | KSend, _ => State w sh c KIdle f g e r o er sp d x t (send Kill s)
        | KIdle, CHolds | KIdle, CWaited => if x then s else State w sh c KSend f g e r o er sp d x t l
        | KIdle, _ => s
        end
    end.
  Definition step (s : state) (m : move) : state :=
    match m with
    | Worker over => worker_step over s
    | Shocker over => shocker_step over s
    | Caller => caller_step s
    | Killer => killer_step s
    | Groups =>
        match s with State w sh c k f g e r o er sp d x t l => State w sh c k f (g || (f && negb e)) e r o er sp d x t l end
    | Ends =>
        match s with State w sh c k f g e r o er sp d x t l => State w sh c k f g (e || f) r o er sp d x t l end
    | CpuSignal =>
        match s with State w sh c k f g e r o er sp d x t l => State w sh c k f g e r o er sp d x (t || (f && negb r)) l end
    end.
  Definition run (ms : list move) : state := fold_left step ms (start limited).
End Step.

(** tracer.py:301-303, 165-167: what the constructor raises for an exception of this class with this
    message: the class is kept and raised anew. *)
Definition raised_again (class message : bytes) : bytes * bytes := (class, []).
