(** Property theorems for the judge worker (C15-C18). *)
From Coq Require Import QArith.
From Verif Require Import Model.Bytes Model.Result Model.Worker Spec.Worker.
From Verif Require Proofs.Worker.
Local Open Scope nat_scope.
Local Open Scope list_scope.

(** ** C15 *)
(** A grading that runs to the end sends one result per case: numbers 1..N in order,
    well-nested batches, batch numbers 1..M when no batch is empty, and two cases are
    reported in the same batch exactly when the problem puts them in one. *)
Theorem C15_numbering : forall grade abort_at short w p l e s,
  grade_cases grade abort_at short (Compiled w p (Some l)) = (e, Go s) ->
  case_numbers (messages e) = seq 1 (total l) /\ well_nested None (messages e) /\
  (no_empty_batch l -> batch_begins (messages e) = seq 1 (batches l)) /\
  (forall i j n, (nth_error (case_batches (messages e)) i = Some (Some n) /\ nth_error (case_batches (messages e)) j = Some (Some n)) ->
     same_batch l i j) /\
  (forall i j, same_batch l i j ->
     exists n, nth_error (case_batches (messages e)) i = Some (Some n) /\ nth_error (case_batches (messages e)) j = Some (Some n)).
Proof. exact Proofs.Worker.numbering. Qed.
Print Assumptions C15_numbering.

(** The whole transcript, and where its results come from: the [i]-th result of a case
    that was run is what grading the [i]-th configured case gave. *)
Theorem C15_transcript : forall grade abort_at short w p l e s,
  grade_cases grade abort_at short (Compiled w p (Some l)) = (e, Go s) ->
  exists rs, length rs = total l /\
    messages e = preamble w p ++ transcript 0 0 l rs ++ [GradingEnd] /\
    run_positions e = ran_indices rs /\
    forall i r, nth_error rs i = Some r -> ran r = true -> exists c, position c = i /\
      nth_error (all_points l) i = Some (case_points c) /\ grade c = GResult (rep_flag r) (rep_points r).
Proof. exact Proofs.Worker.complete. Qed.
Print Assumptions C15_transcript.

(** Without aborts and internal errors every grading runs to the end. *)
Theorem C15_reaches_end : forall grade abort_at short w p l, abort_at = None -> (forall c, grade c <> GRaise) ->
  exists e s, grade_cases grade abort_at short (Compiled w p (Some l)) = (e, Go s).
Proof. exact Proofs.Worker.reaches_end. Qed.
Print Assumptions C15_reaches_end.

(** Finding: an empty batch takes a number that is never announced. *)
Theorem C15_batches_consecutive_refuted : exists grade l e s,
  grade_cases grade None false (Compiled false false (Some l)) = (e, Go s) /\
  batch_begins (messages e) <> seq 1 (length (batch_begins (messages e))).
Proof.
  exists (fun _ => GResult 0 0), [CfgBatch []; CfgBatch [1%Q]]. eexists. eexists. split; [reflexivity|]. cbn. discriminate.
Qed.
Print Assumptions C15_batches_consecutive_refuted.

Definition ex_layout : layout := [CfgCase 0; CfgBatch [5%Q; 5%Q; 5%Q]; CfgCase 3; CfgBatch [7%Q]].
(** Cases 1 (in the batch) and 4 fail. *)
Definition ex_grade (c : test_case) : grade_ret :=
  if (position c =? 2) || (position c =? 4) then GResult 1 0 else GResult 0 (case_points c).
Example C15_ex : exists s, grade_cases ex_grade None false (Compiled true false (Some ex_layout)) =
  ([Send CompileMessage; Send (GradingBegin false);
    Run (TestCase 0 0 0); Send (CaseResult None 1 0 0);
    Send (BatchBegin 1);
    Run (TestCase 1 1 5); Send (CaseResult (Some 1) 2 0 5);
    Run (TestCase 2 1 5); Send (CaseResult (Some 1) 3 1 0);
    Send (CaseResult (Some 1) 4 32 0); Send (BatchEnd 1);
    Run (TestCase 4 0 3); Send (CaseResult None 5 1 0);
    Send (BatchBegin 2);
    Run (TestCase 5 2 7); Send (CaseResult (Some 2) 6 0 7);
    Send (BatchEnd 2); Send GradingEnd], Go s).
Proof. eexists. reflexivity. Qed.

(** ** C16 *)
(** For any way the grading goes (finished, aborted, failed), among the cases reported
    so far: a case was not run exactly when an earlier reported case stops it, and then
    it is reported SC with 0 points. *)
Theorem C16_skipping : forall grade abort_at short w p l e st,
  grade_cases grade abort_at short (Compiled w p (Some l)) = (e, st) ->
  exists rs, length rs <= total l /\
    (exists tail, messages e = preamble w p ++ transcript 0 0 l rs ++ tail /\ Forall terminal tail) /\
    (forall i r, nth_error rs i = Some r ->
      (ran r = false <-> exists j, stops short l rs j i) /\ (ran r = false -> reported_skipped r) /\
      (ran r = true <-> In i (run_positions e))).
Proof. exact Proofs.Worker.skipping. Qed.
Print Assumptions C16_skipping.

(** Short-circuiting on: everything after the first failure is skipped. *)
Example C16_ex : run_positions (fst (grade_cases ex_grade None true (Compiled true false (Some ex_layout)))) = [0; 1; 2].
Proof. reflexivity. Qed.
(** Off: only the rest of the failed batch is. *)
Example C16_ex2 : run_positions (fst (grade_cases ex_grade None false (Compiled true false (Some ex_layout)))) = [0; 1; 2; 4; 5].
Proof. reflexivity. Qed.

(** ** C17 *)
(** Whatever happens to the problem, the compiler, the cases, the abort flag and the
    pipe: the stream is finished with exactly one terminal message, or the pipe broke. *)
Theorem C17_stream : forall grade abort_at short set send,
  let ms := worker_stream send (grade_cases grade abort_at short set) in
  finished_stream ms \/ exists body i, ms = Hello :: body /\ in_progress body /\ send i = PipeBroken.
Proof. exact Proofs.Worker.stream. Qed.
Print Assumptions C17_stream.

Example C17_ex_compile_error : worker_stream (fun _ => Sent) (grade_cases ex_grade None false CompileFails) = [Hello; CompileErr; Bye].
Proof. reflexivity. Qed.
Example C17_ex_raise : worker_stream (fun _ => Sent) (grade_cases (fun _ => GRaise) None false (Compiled false true (Some ex_layout)))
  = [Hello; GradingBegin true; UnhandledException; Bye].
Proof. reflexivity. Qed.
Example C17_ex_pickle : worker_stream (fun i => if i =? 1 then PickleError else Sent) (grade_cases ex_grade None false (Compiled true true (Some ex_layout)))
  = [Hello; CompileMessage; UnhandledException; Bye].
Proof. reflexivity. Qed.

(** ** C18 *)
(** If an abort has been requested by the time a case that was run finishes, that case
    is the last one run, the submission is never reported as finished, and it is
    reported aborted (unless grading that very case raised). *)
Theorem C18_abort_stops : forall grade abort_at short w p l e st,
  grade_cases grade abort_at short (Compiled w p (Some l)) = (e, st) ->
  forall before i after, run_positions e = before ++ i :: after -> abort_seen abort_at i ->
  after = [] /\ ~ In GradingEnd (messages e) /\
  ((exists c, position c = i /\ grade c = GRaise) \/ exists ms, messages e = ms ++ [GradingAborted]).
Proof. exact Proofs.Worker.abort_stops. Qed.
Print Assumptions C18_abort_stops.

Theorem C18_aborted_only_if_requested : forall grade abort_at short w p l e st,
  grade_cases grade abort_at short (Compiled w p (Some l)) = (e, st) ->
  In GradingAborted (messages e) -> exists a, abort_at = Some a /\ a < total l.
Proof. exact Proofs.Worker.aborted_only_if. Qed.
Print Assumptions C18_aborted_only_if_requested.

(** Finding: an abort requested while the remaining cases are being skipped is ignored. *)
Theorem C18_any_time_refuted : exists grade l a,
  a < total l /\ In GradingEnd (messages (fst (grade_cases grade (Some a) true (Compiled false false (Some l))))).
Proof. exists (fun _ => GResult 1 0), [CfgCase 1; CfgCase 1], 1. split; [repeat constructor|]. cbn. auto 10. Qed.
Print Assumptions C18_any_time_refuted.

Example C18_ex : messages (fst (grade_cases ex_grade (Some 1) false (Compiled false false (Some ex_layout)))) =
  [GradingBegin false; CaseResult None 1 0 0; BatchBegin 1; GradingAborted].
Proof. reflexivity. Qed.
