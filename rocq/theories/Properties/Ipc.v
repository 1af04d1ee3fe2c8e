(** C78: the judge and the worker process that grades for it. *)
From Coq Require Import List Arith QArith.
From Verif Require Import Model.Ipc Spec.Ipc Proofs.Ipc.
Import ListNotations.
Local Open Scope nat_scope.

(** When a grading is over, whatever happened, the worker process is gone. *)
Theorem C78_no_orphan timeout ms : thread (run timeout (init timeout) ms) = JDone -> alive (run timeout (init timeout) ms) = false.
Proof. exact (no_orphan timeout ms). Qed.

(** Reports are handled in the order in which they were made, none twice and none invented; at
    most one internal error is reported; and if none is, all of them were handled. *)
Theorem C78_reports timeout ms : let s := run timeout (init timeout) ms in
  (exists rest, sent s = handled s ++ rest) /\ errors s <= 1 /\ ~ In Bye (handled s)
  /\ (thread s = JDone -> errors s = 0 -> sent s = handled s ++ [Bye]).
Proof.
  cbv zeta. split; [exact (handled_prefix timeout ms)|]. split; [exact (errors_le timeout ms)|].
  split; [exact (proj2 (proj2 (messages_ok timeout ms)))|exact (done_complete timeout ms)].
Qed.

(** The judge never waits long for its worker: once per report, and once for its end. *)
Theorem C78_wait timeout ms : let s := run timeout (init timeout) ms in
  waited s <= timeout * (length (handled s) + 1) + teardown_timeout.
Proof. cbv zeta. rewrite Nat.add_1_r. exact (wait_bound timeout ms). Qed.

(** It goes round at most twice per report. *)
Theorem C78_turns timeout ms : turns timeout (init timeout) ms <= 2 * length (handled (run timeout (init timeout) ms)) + 5.
Proof. exact (turns_bound timeout ms). Qed.

(** Every grading ends, if the worker makes only so many reports: whatever the worker does, and
    even if it does nothing, given that the others get their turn. *)
Theorem C78_ends timeout rs : let s := run timeout (init timeout) (in_rounds rs) in
  11 + timeout + (timeout + 2) * length (sent s) < length rs -> thread s = JDone /\ alive s = false.
Proof. cbv zeta. intros H. pose proof (rounds_end timeout rs H) as D. split; [exact D|exact (no_orphan timeout _ D)]. Qed.

(** Nothing is aborted that was not asked for; the caller waits five seconds at most, and when
    they return the process is gone. *)
Theorem C78_abort timeout ms : let s := run timeout (init timeout) ms in
  (abort s = true -> requested s = true)
  /\ (forall d, caller s = AJoining d -> clock s <= d <= clock s + 5)
  /\ (forall m d, caller s = AJoining d -> caller (step timeout s m) = AIdle -> alive (step timeout s m) = false).
Proof.
  cbv zeta. split; [intros H; exact (abort_requested timeout ms (or_introl H))|]. split; [exact (caller_bound timeout ms)|].
  intros m d. exact (caller_returns timeout _ m d).
Qed.

(** What was asked for is told: the order to abort is on its way until the worker has it, and it
    has it as soon as it has listened once more than there are orders before, unless it was told
    goodbye before that or is gone. *)
Theorem C78_abort_told timeout ms : let s := run timeout (init timeout) ms in
  requested s = true -> abort s = true \/ exists b1 b2, back s = b1 ++ OAbort :: b2
  /\ (recv s = RListening -> ~ In OBye b1 -> forall more, alive (run timeout s more) = true ->
      length b1 < length (filter (fun m => match m with Listen => true | _ => false end) more) -> abort (run timeout s more) = true).
Proof.
  cbv zeta. intros H. destruct (order_given timeout ms H) as [A|A]; [left; exact A|right].
  apply in_split in A as (b1&b2&E). exists b1, b2. split; [exact E|]. intros R Hn more Al Hl. exact (order_obeyed timeout more _ b1 b2 R E Hn Al Hl).
Qed.

(** An uneventful grading: no internal error, nothing killed, every report handled. *)
Theorem C78_clean timeout ms : 0 < timeout -> calm timeout (init timeout) ms -> let s := run timeout (init timeout) ms in
  errors s = 0 /\ killed s = false /\ (thread s = JDone -> sent s = handled s ++ [Bye]).
Proof. intros H C. exact (calm_clean timeout H ms C). Qed.

(** The judge waits at least a minute, and up to twice the time limit in whole seconds. *)
Theorem C78_timeout tl : 60 <= recv_timeout tl /\ (2 * tl < inject_Z (Z.of_nat (recv_timeout tl) + 1))%Q
  /\ ((2 * tl < 61)%Q -> recv_timeout tl = 60) /\ ((61 <= 2 * tl)%Q -> (inject_Z (Z.of_nat (recv_timeout tl)) <= 2 * tl)%Q).
Proof. exact (recv_timeout_bounds tl). Qed.

(** * Concrete gradings *)
Definition reading := [Judge false; Judge false].
Definition plain : list move :=
  [Tick; Greet; Start] ++ reading ++ [Emit 1] ++ reading ++ [Tick; Tick; Emit 2] ++ reading ++ [Finish] ++ reading
  ++ [Judge false; Listen; Tick; Exit; Judge false].
Example C78_plain_example : calm 60 (init 60) plain /\ thread (run 60 (init 60) plain) = JDone
  /\ handled (run 60 (init 60) plain) = [Hello; Report 1; Report 2] /\ errors (run 60 (init 60) plain) = 0.
Proof. split; [vm_compute; repeat match goal with |- _ /\ _ => split | |- True => exact I | |- _ -> _ => intros; try discriminate; reflexivity | |- _ = _ => reflexivity | |- _ <= _ => apply Nat.leb_le; reflexivity end|]. vm_compute. repeat split. Qed.
(** A worker that hangs is killed and its end reported. *)
Definition hung : list move := [Greet; Start] ++ reading ++ repeat Tick 60 ++ [Judge false; Judge false; Judge false].
Example C78_hung_example : let s := run 60 (init 60) hung in
  thread s = JDone /\ killed s = true /\ errors s = 1 /\ handled s = [Hello] /\ waited s = 60.
Proof. vm_compute. repeat split. Qed.
(** A worker that dies: likewise. *)
Definition died : list move := [Greet; Start; Emit 1; Crash] ++ reading ++ reading ++ [Judge false; Judge false; Judge false].
Example C78_died_example : let s := run 60 (init 60) died in
  thread s = JDone /\ killed s = false /\ errors s = 1 /\ handled s = [Hello; Report 1].
Proof. vm_compute. repeat split. Qed.
(** Someone asks to abort, the worker obeys and says so. *)
Definition aborted : list move :=
  [Greet; Start] ++ reading ++ [AbortCall; Listen; Emit 7; Finish] ++ reading ++ reading ++ [Listen; Exit; AbortWait; Judge false; Judge false].
Example C78_aborted_example : let s := run 60 (init 60) aborted in
  thread s = JDone /\ abort s = true /\ caller s = AIdle /\ killed s = false /\ errors s = 0 /\ sent s = handled s ++ [Bye].
Proof. vm_compute. repeat split. Qed.
(** A worker that does nothing at all: two minutes of rounds are more than enough. *)
Example C78_ends_example : let rs := repeat ([], false) 80 in
  11 + 60 + (60 + 2) * length (sent (run 60 (init 60) (in_rounds rs))) < length rs.
Proof. vm_compute. repeat constructor. Qed.
Example C78_timeout_example : recv_timeout (1 # 2) = 60 /\ recv_timeout (100 # 3) = 66.
Proof. vm_compute. repeat split. Qed.

(** * Findings *)
(** One would like: if nobody aborts, nothing crashes, no handler raises and the worker makes all
    its reports in time, there is no internal error.  But a worker that said goodbye only waits
    five seconds for the answer.  If handling its last reports takes longer (say the site's
    connection is slow), the answer is written to a process that is gone: the judge reports an
    internal error for a submission whose grading was complete and whose reports were all sent. *)
Definition eventless (m : move) : bool := match m with Crash | AbortCall | Lost | Judge true => false | _ => true end.
Theorem C78_late_refuted : ~ (forall ms, forallb eventless ms = true -> let s := run 60 (init 60) ms in
  killed s = false -> thread s = JDone -> errors s = 0).
Proof.
  intros H. specialize (H ([Greet; Start] ++ reading ++ [Emit 1; Finish; Judge false] ++ repeat Tick 5 ++ [Exit] ++ repeat (Judge false) 5) eq_refl).
  vm_compute in H. discriminate (H eq_refl eq_refl).
Qed.
Example C78_late_example : let s := run 60 (init 60) ([Greet; Start] ++ reading ++ [Emit 1; Finish; Judge false] ++ repeat Tick 5 ++ [Exit] ++ repeat (Judge false) 5) in
  sent s = handled s ++ [Bye] /\ errors s = 1 /\ killed s = false.
Proof. vm_compute. repeat split. Qed.
(** One would like: an abort that was asked for is no internal error.  But whoever asks also
    kills the worker after five seconds, and the grading thread reports that. *)
Theorem C78_abort_refuted : ~ (forall ms, forallb (fun m => match m with Crash | Lost | Judge true => false | _ => true end) ms = true ->
  let s := run 60 (init 60) ms in requested s = true -> waited s < 60 -> errors s = 0).
Proof.
  intros H. specialize (H ([Greet; Start] ++ reading ++ [AbortCall; Listen] ++ repeat Tick 5 ++ [AbortWait; Judge false; Judge false]) eq_refl).
  vm_compute in H. discriminate (H eq_refl ltac:(repeat constructor)).
Qed.

Print Assumptions C78_no_orphan.
Print Assumptions C78_reports.
Print Assumptions C78_wait.
Print Assumptions C78_turns.
Print Assumptions C78_ends.
Print Assumptions C78_abort.
Print Assumptions C78_abort_told.
Print Assumptions C78_clean.
Print Assumptions C78_timeout.
Print Assumptions C78_late_refuted.
Print Assumptions C78_abort_refuted.
