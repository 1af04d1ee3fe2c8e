(** C77: what the judge's own test runner concludes. *)
From Coq Require Import String QArith.
From Verif Require Import Model.Bytes Model.Result Model.Testsuite Spec.Testsuite Proofs.Testsuite.
Local Open Scope list_scope.
Local Open Scope nat_scope.

(** The submissions made are those the selected tests ask for, in order, numbered from one, and
    the run exits with status zero exactly if no selected test is in error and every report
    about every submission is as its test expects. *)
Theorem C77_exit parse_int executors judge traceback case_selected problem_selected l : exists js,
  planned parse_int executors (selected case_selected problem_selected l) js
  /\ fst (test_all parse_int executors judge traceback case_selected problem_selected l 0) = numbered 1 js
  /\ ((forall p d, In (p, d) (selected case_selected problem_selected l) -> ordinary d) ->
      (main_status parse_int executors judge traceback case_selected problem_selected l = 0 <->
       (forall p d, In (p, d) (selected case_selected problem_selected l) -> ~ in_error parse_int executors d)
       /\ forall i j r, nth_error js i = Some j -> In r (judge (as_submission (S i) j)) -> fine parse_int (job_dir j) r)).
Proof. exact (suite parse_int executors judge traceback case_selected problem_selected l). Qed.

(** The plan is determined by the tests. *)
Theorem C77_plan parse_int executors l js js' : planned parse_int executors l js -> planned parse_int executors l js' -> js = js'.
Proof. intros H H'. exact (planned_fun parse_int executors l js H js' H'). Qed.

(** A single submission: it passes exactly if all its reports are as expected. *)
Theorem C77_submission parse_int d e traceback rs :
  expectations_of parse_int (rev (settings d)) = Ok e -> ordinary d ->
  (feed e traceback false rs = false <-> forall r, In r rs -> fine parse_int d r).
Proof.
  intros He Ho. pose proof (feed_fine parse_int d e He traceback Ho rs false) as H. intuition.
Qed.

(** Nothing reported is nothing unexpected: such a run passes. *)
Theorem C77_silent parse_int executors judge traceback case_selected problem_selected l :
  (forall p d, In (p, d) (selected case_selected problem_selected l) -> ordinary d /\ ~ in_error parse_int executors d) ->
  (forall s, judge s = []) -> main_status parse_int executors judge traceback case_selected problem_selected l = 0.
Proof. exact (silent_passes parse_int executors judge traceback case_selected problem_selected l). Qed.

(** * Concrete runs *)
Definition no_int : bytes -> option Z := fun _ => None.
Definition a_test (extra : list (bytes * yaml)) : case_dir :=
  {| files := [Loaded ([(B "language", YStr (B "PY3")); (B "time", YInt 2); (B "memory", YInt 65536);
                        (B "source", YList [YStr (B "a.py"); YStr (B "b.py")])] ++ extra); Missing; Missing];
     source_file := fun s => if beqb s (B "a.py") then Some (B "print(1)") else if beqb s (B "b.py") then Some (B "print(2)") else None |}.
Definition a_suite (extra : list (bytes * yaml)) : list (bytes * option (list entry)) :=
  [(B "aplusb", Some [{| entry_name := B "one"; entry_dir := Some (a_test extra) |}; {| entry_name := B "README"; entry_dir := None |};
                      {| entry_name := B "other"; entry_dir := Some {| files := [Missing; Missing; Missing]; source_file := fun _ => None |} |}]);
   (B "empty", None)].
Definition judged (reports : list report) : submission -> list report := fun s => if sub_id s =? 2 then reports else [CaseStatus 1 0%N 10 []].
Definition status (extra : list (bytes * yaml)) (reports : list report) : nat :=
  main_status no_int [B "PY3"] (judged reports) (B "Traceback") (fun _ => true) (fun _ => true) (a_suite extra).
Example C77_ids : map sub_id (fst (test_all no_int [B "PY3"] (judged []) [] (fun _ => true) (fun _ => true) (a_suite []) 0)) = [1; 2].
Proof. vm_compute. reflexivity. Qed.
Example C77_pass : status [] [CaseStatus 1 0%N 10 []; CaseStatus 2 0%N 10 []] = 0
  /\ status [(B "points_cases", YMap [(YInt 2, YInt 10)])] [CaseStatus 2 0%N 10 []] = 0
  /\ status [(B "expect", YStr (B "WA")); (B "cases", YList [YStr (B "AC")])] [CaseStatus 1 0%N 10 []; CaseStatus 2 1%N 0 []] = 0.
Proof. vm_compute. repeat split. Qed.
Example C77_fail : status [] [CaseStatus 1 0%N 10 []; CaseStatus 2 1%N 0 []] = 1
  /\ status [] [CompileFailed []] = 1 /\ status [] [InternalError []] = 1
  /\ status [(B "points_cases", YMap [(YInt 2, YInt 10)])] [CaseStatus 2 0%N 5 []] = 1
  /\ status [(B "feedback", YStr (B "ok"))] [CaseStatus 2 0%N 5 []] = 1
  /\ status [(B "expect", YStr (B "XX"))] [] = 1.
Proof. vm_compute. repeat split. Qed.
Lemma a_setting extra k def y : key_or (rev (settings (a_test extra))) k def = y -> forall y', setting_or (a_test extra) k def y' -> y' = y.
Proof. intros H y' H'. apply key_or_setting in H'. congruence. Qed.
(** the hypotheses of C77_exit and C77_silent hold of such a suite *)
Example C77_ordinary : ordinary (a_test []).
Proof.
  split.
  - intros y Hy. rewrite (a_setting [] (B "expect") (YStr (B "AC")) (YStr (B "AC")) eq_refl y Hy).
    intros [_ [C|[C|(l & C & _)]]]; [discriminate|discriminate|destruct (str_no_elements _ _ C)].
  - intros cases y Hc. rewrite (a_setting [] (B "points_cases") (YMap []) (YMap []) eq_refl cases Hc). intros [(l & C & _)|(l & k & [= <-] & [])]. discriminate.
Qed.

(** Where the points expected of one case are wrong, the runner's own message raises; if the
    test allows internal errors, that goes unnoticed. *)
Theorem C77_points_refuted : exists extra reports,
  status extra reports = 0 /\ exists r, In r reports /\ ~ fine no_int (a_test extra) r.
Proof.
  exists [(B "expect", YStr (B "*")); (B "points_cases", YMap [(YInt 1, YInt 10)])], [CaseStatus 1 0%N 5 []].
  split; [vm_compute; reflexivity|]. eexists. split; [left; reflexivity|]. intros (_ & (y & (cs & Hc & Hg) & Hp) & _).
  pose proof (a_setting _ _ _ _ eq_refl cs Hc) as E. vm_compute in E. subst cs.
  assert (for_case (YMap [(YInt 1, YInt 10)]) 1 (YInt 10)) as F.
  { right. exists [(YInt 1, YInt 10)]. split; [reflexivity|]. exists [], (YInt 1), []. split; [reflexivity|]. split; [left; reflexivity|]. intros k' v' []. }
  destruct Hg as [Hg|[Hg _]]; [|apply (Hg _ F)]. rewrite (for_case_fun _ _ _ _ Hg F) in Hp.
  destruct Hp as [[C|C]|[(z & [[= <-]|[[C _]|[[C _]|(s & C & _)]]] & Hp)|(l & x & z & [C|(m & C & _)] & _)]]; try discriminate.
Qed.
(** Points of '*' for a single case are not taken as any points: the runner raises. *)
Theorem C77_any_points_refuted : exists extra reports,
  status extra reports = 1 /\ forall r, In r reports -> fine no_int (a_test extra) r.
Proof.
  exists [(B "points_cases", YMap [(YInt 1, YStr (B "*"))])], [CaseStatus 1 0%N 5 []].
  split; [vm_compute; reflexivity|]. intros r [<-|[]].
  set (d := a_test _). cbn [fine].
  assert (forall k def, setting_or d k def (key_or (rev (settings d)) k def)) as K by (intros; apply key_or_self).
  assert (forall (a : Z) y, ~ for_case (YMap []) a y) as Z0.
  { intros a y [(l & C & _)|(l & [= <-] & (x & k & b & C & _))]; [discriminate|]. destruct x; discriminate. }
  split; [|split].
  - exists (YStr (B "AC")). split.
    + exists (YMap []). split; [exact (K (B "cases") (YMap []))|]. right. split; [apply Z0|]. exact (K (B "expect") (YStr (B "AC"))).
    + split; [vm_compute; auto|]. right; left. vm_compute. reflexivity.
  - exists (YStr (B "*")). split; [|left; right; reflexivity].
    exists (YMap [(YInt 1, YStr (B "*"))]). split; [exact (K (B "points_cases") (YMap []))|]. left. right. eexists. split; [reflexivity|].
    exists [], (YInt 1), []. split; [reflexivity|]. split; [left; reflexivity|]. intros k' v' [].
  - exists YNull. split; [|left; left; reflexivity].
    exists (YMap []). split; [exact (K (B "feedback_cases") (YMap []))|]. right. split; [apply Z0|]. exact (K (B "feedback") YNull).
Qed.

Print Assumptions C77_exit.
Print Assumptions C77_plan.
Print Assumptions C77_submission.
Print Assumptions C77_silent.
Print Assumptions C77_points_refuted.
Print Assumptions C77_any_points_refuted.
