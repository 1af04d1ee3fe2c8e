(** Property theorems for verdicts of single cases (C12, C13, C14, C52). *)
From Coq Require Import String QArith Sorted.
From Verif Require Import Model.Bytes Model.Result Model.Grading Spec.Grading.
From Verif Require Model.Contrib Proofs.Grading.
Local Open Scope nat_scope.
Local Open Scope list_scope.

(** ** C12 *)
Theorem C12_readable_codes : forall word,
  (forall c, In c (readable_codes word) <-> flagged word c \/ (c = AC /\ forall d, ~ flagged word d)) /\
  StronglySorted worse (readable_codes word) /\
  (readable_codes word = [AC] <-> forall c, ~ flagged word c).
Proof.
  exact (fun w => conj (Proofs.Grading.readable_in w) (conj (Proofs.Grading.readable_sorted w) (Proofs.Grading.readable_AC w))).
Qed.
Print Assumptions C12_readable_codes.

(** The main code is the worst one present (as a flag word), AC = 0 when none is. *)
Theorem C12_main_code : forall word, exists c,
  get_main_code word = match bit c with Some b => (2 ^ b)%N | None => 0%N end /\
  (flagged word c \/ (c = AC /\ forall d, ~ flagged word d)) /\
  (forall d, flagged word d -> d = c \/ worse c d).
Proof. exact Proofs.Grading.main_code. Qed.
Print Assumptions C12_main_code.

Example C12_ex : readable_codes 1073741893 = [IE; TLE; OLE; WA] /\ get_main_code 69 = 4%N /\ readable_codes 128 = [AC].
Proof. vm_compute. auto. Qed.

(** ** C13 *)
(** No flag (accepted) exactly when the run was clean and the checker passed; this
    holds even for checkers that ask to run on error. *)
Theorem C13_accepted_iff : forall parse_feedback strsignal mono run_on_error checker case_points io p r,
  standard_grade parse_feedback strsignal mono run_on_error checker case_points io p = Graded r ->
  (result_flag r = 0%N <-> clean io p /\ passes checker).
Proof. exact Proofs.Grading.standard_accept. Qed.
Print Assumptions C13_accepted_iff.

Theorem C13_clean_points : forall parse_feedback strsignal mono run_on_error checker case_points io p r,
  standard_grade parse_feedback strsignal mono run_on_error checker case_points io p = Graded r -> clean io p ->
  points r = worth case_points checker.
Proof. exact Proofs.Grading.standard_points. Qed.
Print Assumptions C13_clean_points.

(** After a failed run an ordinary checker is not run at all (what it would have done
    makes no difference); the case is worth 0 and carries WA. *)
Theorem C13_failed_run_zero : forall parse_feedback strsignal mono checker case_points io p r,
  standard_grade parse_feedback strsignal mono false checker case_points io p = Graded r -> ~ clean io p ->
  points r = 0%Q /\ flagged (result_flag r) WA /\ result_flag r <> 0%N.
Proof. exact Proofs.Grading.standard_unclean. Qed.
Print Assumptions C13_failed_run_zero.
Theorem C13_failed_run_checker_irrelevant : forall parse_feedback strsignal mono checker checker' case_points io p, ~ clean io p ->
  standard_grade parse_feedback strsignal mono false checker case_points io p =
  standard_grade parse_feedback strsignal mono false checker' case_points io p.
Proof. exact Proofs.Grading.standard_not_run. Qed.
Print Assumptions C13_failed_run_checker_irrelevant.

(** A result is produced whenever the program started and the checker returns a bool, a
    scored result, or stumbles over undecodable output. *)
Theorem C13_always_graded : forall parse_feedback strsignal mono run_on_error checker case_points io p,
  was_initialized p = true \/ killed_by_signal p -> returncode p <> None ->
  (exists b, checker = CkBool b) \/ (exists b q f e, checker = CkResult b q f e) \/ checker = CkUnicodeDecodeError ->
  exists r, standard_grade parse_feedback strsignal mono run_on_error checker case_points io p = Graded r.
Proof. exact Proofs.Grading.standard_total. Qed.
Print Assumptions C13_always_graded.

(** The same for interactive graders ... *)
Theorem C13_interactive : forall parse_feedback strsignal mono check fb case_points err p r,
  interactive_grade parse_feedback strsignal mono check fb case_points err p = Graded r ->
  (result_flag r = 0%N <-> clean (Some ([], err)) p /\ passes check) /\
  (~ clean (Some ([], err)) p -> points r = 0%Q) /\
  (clean (Some ([], err)) p -> points r = worth case_points check).
Proof. exact Proofs.Grading.interactive_accept. Qed.
Print Assumptions C13_interactive.

(** ... and bridged interactive graders, where an internal error of the interactor is
    reported whatever the submission did. *)
Definition verdict_of (o : Contrib.outcome Q) : check_ret :=
  match o with
  | Contrib.Verdict b q f => CkResult b q f None
  | Contrib.Boolean b => CkBool b
  | Contrib.ReturnsNone => CkOther
  | Contrib.InternalError => CkInternalError
  end.
Theorem C13_bridged : forall parse_feedback strsignal mono outcome case_points err p r,
  bridged_grade parse_feedback strsignal mono outcome case_points err p = Graded r ->
  (result_flag r = 0%N <-> clean (Some ([], err)) p /\ passes (verdict_of outcome)) /\
  (~ clean (Some ([], err)) p -> points r = 0%Q) /\
  (clean (Some ([], err)) p -> points r = worth case_points (verdict_of outcome)).
Proof. exact Proofs.Grading.bridged_accept. Qed.
Print Assumptions C13_bridged.
Theorem C13_bridged_internal_error : forall parse_feedback strsignal mono case_points err p,
  was_initialized p = true \/ killed_by_signal p -> returncode p <> None ->
  bridged_grade parse_feedback strsignal mono Contrib.InternalError case_points err p = Raised InternalErr.
Proof. intros pf ss mono cp err p W. apply Proofs.Grading.bridged_internal, Proofs.Grading.wait_ok_iff, W. Qed.
Print Assumptions C13_bridged_internal_error.
(** A program that exited before it was started is no verdict, under any grader. *)
Theorem C13_not_started : forall parse_feedback strsignal mono check case_points io p,
  was_initialized p = false -> ~ killed_by_signal p ->
  grade_with parse_feedback strsignal mono check case_points io p = Raised RuntimeError.
Proof.
  intros pf ss mono check cp io p I K. unfold grade_with.
  assert (wait_ok (mark_ole io p) = wait_ok p) as -> by (destruct io; reflexivity).
  destruct (wait_ok p) eqn:W; [|reflexivity]. apply Proofs.Grading.wait_ok_iff in W. destruct W; congruence || contradiction.
Qed.
Print Assumptions C13_not_started.
Example C13_ex_not_started : was_initialized (Process (Some 205%Z) None false false 65536 0 false None None) = false /\
  ~ killed_by_signal (Process (Some 205%Z) None false false 65536 0 false None None).
Proof. split; [reflexivity|]. intros (r & E & L). injection E as <-. discriminate L. Qed.

Definition ok_proc : process := Process (Some 0%Z) None false false 65536 1024 true None None.
Definition slow_proc : process := Process (Some (-9)%Z) (Some 9%Z) true false 65536 70000 true None None.
Definition no_fb (_ : bytes) : option bytes := None.
Definition sig_name (_ : Z) : bytes := B "killed".
Example C13_ex_accept : standard_grade no_fb sig_name false false (CkBool true) 5 (Some (B "42", [])) ok_proc
  = Graded (CaseResult 0 5 (Some []) (Some []) (B "42")) /\ clean (Some (B "42", [])) ok_proc.
Proof. split; [reflexivity|]. repeat split; unfold over_time, over_memory, over_output; cbn; try (intros [H|H]; discriminate); try discriminate. intros [_ H]. discriminate. Qed.
Example C13_ex_tle : exists r, standard_grade no_fb sig_name false false (CkBool true) 5 (Some (B "42", [])) slow_proc = Graded r
  /\ readable_codes (result_flag r) = [TLE; MLE; RTE; WA] /\ points r = 0%Q.
Proof. eexists. split; [reflexivity|]. vm_compute. auto. Qed.

(** A checker that runs on error can award points to a run that failed (the flags still
    show the failure): the "zero points" half of C13 does not extend to such checkers. *)
Theorem C13_run_on_error_points_refuted : exists r,
  standard_grade no_fb sig_name false true (CkResult true 3 None None) 5 (Some (B "42", [])) slow_proc = Graded r /\
  ~ clean (Some (B "42", [])) slow_proc /\ points r = 3%Q /\ ~ flagged (result_flag r) WA.
Proof.
  eexists. split; [reflexivity|]. split; [intros [H _]; discriminate|]. split; [reflexivity|].
  intros [b [H1 H2]]. injection H1 as <-. discriminate.
Qed.
Print Assumptions C13_run_on_error_points_refuted.

(** ** C14 *)
(** Each limit flag is set exactly for its reason (Mono additionally reports its own
    out-of-memory message as MLE), whatever the grader's check step does. *)
Definition mono_out_of_memory (mono : bool) (io : option (bytes * bytes)) (p : process) : Prop :=
  mono = true /\ nonzero_exit p /\ exists out err, io = Some (out, err) /\ occurs (B "Garbage collector could not allocate") err.
Theorem C14_flags_exact : forall parse_feedback strsignal mono check case_points io p r,
  grade_with parse_feedback strsignal mono check case_points io p = Graded r ->
  (flagged (result_flag r) IR <-> nonzero_exit p) /\
  (flagged (result_flag r) RTE <-> killed_by_signal p) /\
  (flagged (result_flag r) OLE <-> over_output io p) /\
  (flagged (result_flag r) TLE <-> over_time p) /\
  (flagged (result_flag r) MLE <-> over_memory p \/ mono_out_of_memory mono io p) /\
  (forall b, N.testbit (result_flag r) b = true -> In b [0; 1; 2; 3; 4; 6]%N).
Proof. exact Proofs.Grading.flags_exact_io. Qed.
Print Assumptions C14_flags_exact.

(** The time-limit flag of a run: final CPU time above the limit always sets it; other
    reasons are a CPU-limit signal (ignored under Mono) and a watchdog tick that saw the
    CPU or wall-clock limit exceeded. *)
Theorem C14_time_limit_exact : forall ignores_xcpu time wall evs final,
  run_tle ignores_xcpu time wall evs final = true <->
  (ignores_xcpu = false /\ In TimeSignal evs) \/
  (~ time == 0 /\ ((exists ex wc, In (Tick ex wc) evs /\ (time < ex \/ wall < wc)) \/ time < final))%Q.
Proof. exact Proofs.Grading.run_tle_iff. Qed.
Print Assumptions C14_time_limit_exact.

Example C14_ex_wall : run_tle false 2 6 [Tick (1#10) 1; Tick (2#10) 7] (2#10) = true /\ run_tle false 2 6 [Tick (1#10) 1] (2#10) = false.
Proof. vm_compute. auto. Qed.

(** ** C52 *)
Theorem C52_sandbox_violation_wins : forall parse_feedback strsignal err p name,
  returncode p <> None -> protection_fault p = Some name ->
  exists t, drop_leftmost (B "sys_") name t /\
    get_feedback_str parse_feedback strsignal err p = Some (Some (t ++ B " syscall disallowed")).
Proof. exact Proofs.Grading.feedback_fault. Qed.
Print Assumptions C52_sandbox_violation_wins.

Definition blank (o : option bytes) : Prop := o = None \/ o = Some [].
Theorem C52_feedback_cases : forall parse_feedback strsignal err p rc, returncode p = Some rc -> protection_fault p = None ->
  let own := match own_feedback p with Some t => t | None => parse_feedback err end in
  (forall t, own_feedback p = Some t -> ~ blank t -> get_feedback_str parse_feedback strsignal err p = Some t) /\
  (~ crashed p -> own_feedback p = None -> get_feedback_str parse_feedback strsignal err p = Some (Some [])) /\
  (crashed p -> own_feedback p = None -> ~ blank (parse_feedback err) ->
     get_feedback_str parse_feedback strsignal err p = Some (parse_feedback err)) /\
  (crashed p -> blank own -> was_initialized p = false \/ occurs (B "error while loading shared libraries") err ->
     get_feedback_str parse_feedback strsignal err p = Some (Some (B "failed initializing"))) /\
  (crashed p -> blank own -> was_initialized p = true -> ~ occurs (B "error while loading shared libraries") err ->
     forall s, signal p = Some s -> s <> 0%Z ->
     get_feedback_str parse_feedback strsignal err p = Some (Some (strsignal s))).
Proof. exact Proofs.Grading.feedback_cases. Qed.
Print Assumptions C52_feedback_cases.

Example C52_ex : get_feedback_str no_fb sig_name (B "boom") (Process (Some (-11)%Z) (Some 11%Z) false false 0 0 true None None) = Some (Some (B "killed"))
  /\ get_feedback_str no_fb sig_name (B "boom") (Process (Some (-9)%Z) (Some 9%Z) true false 0 0 true (Some (B "sys_socket")) None)
     = Some (Some (B "socket syscall disallowed")).
Proof. vm_compute. auto. Qed.

(** ** C13: what a checker says *)
(** A checker's feedback, short or long, is shown where it gives one; the long one is empty otherwise. *)
Theorem C13_checker_feedback : forall parse_feedback strsignal mono run_on_error passed pts fb ext case_points io p r,
  standard_grade parse_feedback strsignal mono run_on_error (CkResult passed pts fb ext) case_points io p = Graded r -> clean io p ->
  (forall c t, fb = Some (c :: t) -> feedback r = fb) /\
  (forall c t, ext = Some (c :: t) -> extended_feedback r = ext) /\
  (ext = None \/ ext = Some [] -> extended_feedback r = Some []).
Proof. exact Proofs.Grading.checker_feedback. Qed.
Print Assumptions C13_checker_feedback.
