(** Grading one case: executors/base_executor.py populate_result,
    graders/standard.py, graders/interactive.py, graders/bridged.py.

    The run of the submission is an input: what [communicate] returned, the final
    process observables and the checker's behaviour.  Points are exact rationals. *)
From Coq Require Import String QArith.
From Verif Require Import Model.Bytes Model.Result.
From Verif Require Model.Contrib.
Local Open Scope list_scope.

Record case_result := CaseResult {
  result_flag : N;
  points : Q;
  feedback : option bytes;
  extended_feedback : option bytes;
  proc_output : bytes
}.
(** result.py:29-40 defaults *)
Definition fresh_result : case_result := CaseResult 0 0 (Some []) (Some []) [].

(** Raised exceptions that leave [grade]. *)
Inductive grade_error := TypeError | RuntimeError | AssertionError | InternalErr | CheckerError.
Inductive graded := Graded (r : case_result) | Raised (e : grade_error).

(** tracer.py:185-202 (wait): a process that never got past its first execve. *)
Definition wait_ok (p : process) : bool :=
  was_initialized p || match returncode p with Some r => (r <? 0)%Z | None => false end.

Section Grade.
  Variable parse_feedback : bytes -> option bytes.
  Variable strsignal_lower : Z -> bytes.
  (** Mono's extra rule (executors/mono_executor.py:72-75) applies when true. *)
  Variable mono : bool.

  Definition set_flag (c : code) (b : bool) (f : N) : N := if b then N.lor f (flag_of c) else f.

  (** base_executor.py:98-115, mono_executor.py:72-75; [None] = TypeError. *)
  Definition populate_flags (stderr : bytes) (p : process) : option N :=
    match is_ir p with
    | None => None
    | Some ir =>
        let f := set_flag IR ir 0 in
        let f := set_flag RTE (is_rte p) f in
        let f := set_flag OLE (ole p) f in
        let f := set_flag TLE (tle p) f in
        let f := set_flag MLE (is_mle p) f in
        let f := set_flag MLE (mono && ir && contains (B "Garbage collector could not allocate") stderr) f in
        Some f
    end.
  Definition populate_result (stderr : bytes) (p : process) (r : case_result) : option case_result :=
    match populate_flags stderr p, get_feedback_str parse_feedback strsignal_lower stderr p with
    | Some f, Some fb => Some (CaseResult f (points r) fb (extended_feedback r) (proc_output r))
    | _, _ => None
    end.

  (** What a checker (or interactor) does. *)
  Inductive check_ret :=
  | CkBool (b : bool)
  | CkResult (passed : bool) (pts : Q) (fb ext : option bytes)
  | CkOther                  (* anything else, e.g. None *)
  | CkUnicodeDecodeError
  | CkInternalError
  | CkRaise.                 (* any other exception *)

  (** standard.py:45-75; also tells whether the checker ran. *)
  Definition standard_check_result (flag : N) (run_on_error : bool) (checker : check_ret) : check_ret * bool :=
    if negb (truthy flag) || run_on_error then
      (match checker with
       | CkUnicodeDecodeError => CkResult false 0 (Some (B "invalid unicode")) None
       | c => c
       end, true)
    else (CkBool false, false).

  (** interactive.py:109-117; [check] is self.check and [fb] self.feedback. *)
  Definition interactive_check_result (flag : N) (check : check_ret) (case_points : Q) (fb : option bytes) : check_ret :=
    if truthy flag then CkBool false
    else match check with
         | CkBool b => CkResult b (if b then case_points else 0) fb None
         | c => c
         end.

  (** bridged.py:22-38; the interactor's exit code is parsed first, so its InternalError
      wins over the submission's own flags.  (For the peg protocol, whose points are
      doubles, see Model/Contrib.v.) *)
  Definition bridged_check_result (flag : N) (parsed : Contrib.outcome Q) : check_ret :=
    match parsed with
    | Contrib.InternalError => CkInternalError
    | Contrib.Verdict passed pts fb => if truthy flag then CkBool false else CkResult passed pts fb None
    | Contrib.Boolean b => if truthy flag then CkBool false else CkBool b
    | Contrib.ReturnsNone => if truthy flag then CkBool false else CkOther
    end.

  Definition or_text (a b : option bytes) : option bytes := if text a then a else b.

  (** standard.py:28-37 *)
  Definition finish (case_points : Q) (check : check_ret) (r : case_result) : graded :=
    let apply passed pts fb ext :=
      Graded (CaseResult (N.lor (result_flag r) (flag_of (if passed : bool then AC else WA))) pts
                (or_text fb (feedback r)) (or_text ext (extended_feedback r)) (proc_output r)) in
    match check with
    | CkBool b => apply b (if b then case_points else 0) None None
    | CkResult passed pts fb ext => apply passed pts fb ext
    | CkOther => Raised AssertionError
    | CkUnicodeDecodeError => Raised CheckerError
    | CkInternalError => Raised InternalErr
    | CkRaise => Raised CheckerError
    end.

  (** standard.py:88-99: communicate's (stdout, stderr), or [None] for
      OutputLimitExceeded, after which the output stays '' and the error text b''. *)
  Definition io_output (io : option (bytes * bytes)) : bytes := match io with Some (o, _) => o | None => [] end.
  Definition io_error (io : option (bytes * bytes)) : bytes := match io with Some (_, e) => e | None => [] end.
  (** communicate marks the process before raising (communicate.py:84). *)
  Definition mark_ole (io : option (bytes * bytes)) (p : process) : process :=
    match io with
    | Some _ => p
    | None => Process (returncode p) (signal p) (tle p) true (memory_limit p) (max_memory p)
                (was_initialized p) (protection_fault p) (own_feedback p)
    end.

  (** standard.py:13-40, with the check step of the grader in use. *)
  Definition grade_with (check : N -> check_ret) (case_points : Q)
    (io : option (bytes * bytes)) (p0 : process) : graded :=
    let p := mark_ole io p0 in
    let r0 := CaseResult 0 0 (Some []) (Some []) (io_output io) in
    if negb (wait_ok p) then Raised RuntimeError
    else match populate_result (io_error io) p r0 with
         | None => Raised TypeError
         | Some r => finish case_points (check (result_flag r)) r
         end.

  Definition standard_grade (run_on_error : bool) (checker : check_ret) case_points io p0 : graded :=
    grade_with (fun flag => fst (standard_check_result flag run_on_error checker)) case_points io p0.
  Definition interactive_grade (check : check_ret) (fb : option bytes) case_points (err : bytes) p0 : graded :=
    grade_with (fun flag => interactive_check_result flag check case_points fb) case_points (Some ([], err)) p0.
  Definition bridged_grade (parsed : Contrib.outcome Q) case_points (err : bytes) p0 : graded :=
    grade_with (fun flag => bridged_check_result flag parsed) case_points (Some ([], err)) p0.
End Grade.

(** ** How [_is_tle] gets set during a run (tracer.py:292-294, 326-328, 332-351).
    [TimeSignal]: SIGXCPU reached the process.  [Tick exec wall]: the shocker thread woke
    up (once a second) and read these clocks.  The shocker runs only when a time limit is
    set and stops after its first kill. *)
Inductive run_event := TimeSignal | Tick (exec_time wall_time : Q).
Record clock := Clock { is_tle_flag : bool; shocked : bool }.
Definition Qlt_bool (a b : Q) : bool := negb (Qle_bool b a).
Definition run_step (ignores_xcpu : bool) (time wall : Q) (c : clock) (e : run_event) : clock :=
  match e with
  | TimeSignal => Clock (is_tle_flag c || negb ignores_xcpu) (shocked c)
  | Tick ex wc =>
      if negb (Qeq_bool time 0) && negb (shocked c) && (Qlt_bool time ex || Qlt_bool wall wc)
      then Clock true true else c
  end.
Definition run_tle (ignores_xcpu : bool) (time wall : Q) (evs : list run_event) (final_exec : Q) : bool :=
  let c := fold_left (run_step ignores_xcpu time wall) evs (Clock false false) in
  is_tle_flag c || (negb (Qeq_bool time 0) && Qlt_bool time final_exec).
