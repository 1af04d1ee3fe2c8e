(** What a problem asks of a program, and what its runs deserve. *)
From Coq Require Import String QArith Permutation.
From Verif Require Import Model.Bytes Model.Config Model.Paths Model.Loading Spec.Loading Spec.Text.
From Verif Require Model.Problem Spec.Problem Model.Grading Spec.Grading Model.Worker Spec.Worker.
From Verif Require Import Model.Whole.
Local Open Scope list_scope.
Local Open Scope nat_scope.

(** ** Where the cases are listed *)
(** A case is a mapping; one with a list called batched is a batch of cases.  [up] is what encloses it. *)
Definition lacks (k : list N) (d : dict) : Prop := forall v, ~ In (k, v) d.
Inductive listed (up : chain) : value -> node -> Prop :=
| l_case : forall d, lacks (B "batched") d -> listed up (VDict d) (Lone (VDict d :: up))
| l_batch : forall d cs, In (B "batched", VList (map VDict cs)) d -> Forall (lacks (B "batched")) cs ->
    listed up (VDict d) (Batch (VDict d :: up) (map (fun x => VDict x :: VList (map VDict cs) :: VDict d :: up) cs)).
(** Pretests are used if the site asks for them and the problem has some. *)
Definition wants_pretests (meta : value) (d : dict) : Prop :=
  (exists v, attribute [or_empty meta] (B "pretests_only") v /\ truthy v = true) /\ ~ lacks (B "pretest_test_cases") d.
Definition case_list (pretested : bool) : list N := if pretested then B "pretest_test_cases" else B "test_cases".

(** ** What a case asks *)
(** Points are whole numbers; Python counts True as one and False as none. *)
Inductive counts : value -> Z -> Prop :=
| co_number : forall z, counts (VInt z) z
| co_true : counts (VBool true) 1
| co_false : counts (VBool false) 0.
Definition points_of (c : chain) (q : Z) : Prop := exists v, attribute c (B "points") v /\ counts v q.
Section Poses.
  Variable w : whole.
  Variable z : option entries.
  (** The bytes a problem has under a name: in its directory, or else in its archive. *)
  Definition stored (name raw : list N) : Prop :=
    file w (join (root w) name) = Some raw
    \/ (file w (join (root w) name) = None /\ exists e, z = Some e /\ last_entry e name (Some raw)).
  (** Data that is not binary is lines of text, whatever ends them. *)
  Definition as_data (binary : bool) (raw d : list N) : Prop :=
    if binary then d = raw else exists ls, Spec.Problem.Lines raw ls /\ d = Spec.Problem.unix ls.
  Definition data_under (c : chain) (binary : bool) (k d : list N) : Prop :=
    (unset c k /\ d = []) \/ exists s home raw, nearest c k (VStr s) home /\ s <> [] /\ stored s raw /\ as_data binary raw d.

  (** The built-in checkers that say yes or no: what makes an output right, given the answer. *)
  Inductive rule : list N -> list (list N * result) -> (list N -> list N -> Prop) -> Prop :=
  | r_standard : forall args, rule (B "standard") args (fun out ans => layout out = layout ans)
  | r_identical : forall args, rule (B "identical") args (fun out ans => out = ans)
  | r_easy : forall args, rule (B "easy") args (fun out ans => Permutation (visible_folded out) (visible_folded ans))
  | r_unordered : forall args, rule (B "unordered") args (fun out ans => Permutation (words out) (words ans))
  | r_rstripped : forall args, (forall v, ~ In (B "filter_new_line", v) args) ->
      rule (B "rstripped") args (fun out ans => Forall2 same_upto_trailing (lines out) (lines ans))
  | r_rstripped_lines : rule (B "rstripped") [(B "filter_new_line", Plain (VBool true))]
      (fun out ans => Forall2 same_upto_trailing (nonempty_lines out) (nonempty_lines ans))
  | r_sorted : forall args, (forall v, ~ In (B "split_on", v) args) ->
      rule (B "sorted") args (fun out ans => Permutation (map words (nonempty_lines out)) (map words (nonempty_lines ans)))
  | r_sorted_words : rule (B "sorted") [(B "split_on", Plain (VStr (B "whitespace")))] (fun out ans => Permutation (words out) (words ans)).

  (** The case with configuration node [c] is worth [pts]; it gives the program [input], and its checker [name] with
      [args] compares the output to [answer]. *)
  Record asked (c : chain) (pts : Z) (input answer name : list N) (args : list (list N * result)) : Prop := Asked {
    as_points : points_of c pts;
    as_given : exists b, attribute c (B "binary_data") b /\ (exists g, attribute c (B "generator") g /\ truthy g = false) /\
      data_under c (truthy b) (B "in") input /\ data_under c (truthy b) (B "out") answer;
    as_checker : asks c name args
  }.
  (** The same for the checkers that say yes or no: an output is right if it satisfies [right]. *)
  Definition poses (c : chain) (pts : Z) (input : list N) (right : list N -> Prop) : Prop :=
    exists answer name args eqv, asked c pts input answer name args /\ rule name args eqv /\ right = fun out => eqv out answer.

  (** What a checker says about the output [out] of case number [i], and whether it is asked even about runs that went
      wrong.  [judgement] is what code that is not modelled says: that of the problem, and of the other checkers. *)
  Inductive replies (i : nat) (pts : Z) (input answer : list N) (args : list (list N * result)) (out : list N) : list N -> bool -> Grading.check_ret -> Prop :=
  | re_right : forall name eqv, rule name args eqv -> eqv out answer -> replies i pts input answer args out name false (Grading.CkBool true)
  | re_wrong : forall name eqv, rule name args eqv -> ~ eqv out answer -> replies i pts input answer args out name false (Grading.CkBool false)
  | re_wrong_why : forall name eqv fb, rule name args eqv -> ~ eqv out answer -> replies i pts input answer args out name false (Grading.CkResult false 0 fb None)
  | re_long : length (nonempty_lines answer) < length (nonempty_lines out) -> replies i pts input answer args out (B "linecount") true (Grading.CkBool false)
  | re_none : nonempty_lines out = [] -> nonempty_lines answer = [] -> replies i pts input answer args out (B "linecount") true (Grading.CkBool true)
  | re_lines : forall k passed q fb, length (nonempty_lines out) <= length (nonempty_lines answer) -> nonempty_lines answer <> [] ->
      agree_count (nonempty_lines out) (nonempty_lines answer) k ->
      (passed = true <-> Forall2 same_upto_surrounding (nonempty_lines out) (nonempty_lines answer)) ->
      (q == inject_Z pts * (inject_Z (Z.of_nat k) / inject_Z (Z.of_nat (length (nonempty_lines answer)))))%Q ->
      replies i pts input answer args out (B "linecount") true (Grading.CkResult passed q fb None)
  | re_file : forall name, has_dot name -> execute w name = Module true ->
      replies i pts input answer args out name (on_error w name) (judgement w (FromFile name 0) args i out answer input)
  | re_other : forall name, In name [B "floats"; B "floatsabs"; B "floatsrel"; B "bridged"] ->
      replies i pts input answer args out name false (judgement w (Builtin name) args i out answer input).
End Poses.

(** The points of listed cases. *)
Inductive weighs : node -> Worker.cfg_entry -> Prop :=
| w_case : forall c q, points_of c q -> weighs (Lone c) (Worker.CfgCase (inject_Z q))
| w_batch : forall c cs qs, Forall2 points_of cs qs -> weighs (Batch c cs) (Worker.CfgBatch (map inject_Z qs)).

(** ** What a run deserves *)
(** The process got as far as running the program, and ended. *)
Definition started (r : option (list N * list N) * Result.process) : Prop :=
  Result.was_initialized (snd r) = true /\ Result.returncode (snd r) <> None.
(** It ended well within its limits, with an output that is right. *)
Definition solves (right : list N -> Prop) (r : option (list N * list N) * Result.process) : Prop :=
  Spec.Grading.clean (fst r) (snd r) /\ exists out err, fst r = Some (out, err) /\ right out.
Definition deserved (pts : Z) (right : list N -> Prop) (r : option (list N * list N) * Result.process) (rep : Spec.Worker.report) : Prop :=
  (solves right r -> Spec.Worker.rep_flag rep = 0%N /\ Spec.Worker.rep_points rep = inject_Z pts) /\
  (~ solves right r -> Spec.Worker.wrong rep /\ Spec.Worker.rep_points rep = 0%Q) /\
  (Spec.Grading.flagged (Spec.Worker.rep_flag rep) Result.TLE <-> Spec.Grading.over_time (snd r)) /\
  (Spec.Grading.flagged (Spec.Worker.rep_flag rep) Result.OLE <-> Spec.Grading.over_output (fst r) (snd r)) /\
  (Spec.Grading.flagged (Spec.Worker.rep_flag rep) Result.IR <-> Spec.Grading.nonzero_exit (snd r)) /\
  (Spec.Grading.flagged (Spec.Worker.rep_flag rep) Result.RTE <-> Spec.Grading.killed_by_signal (snd r)) /\
  (Spec.Grading.over_memory (snd r) -> Spec.Grading.flagged (Spec.Worker.rep_flag rep) Result.MLE).

(** The same for any checker that said [ck]; [always]: it was asked even if the run went wrong. *)
Definition deserves (pts : Z) (always : bool) (ck : Grading.check_ret) (r : option (list N * list N) * Result.process) (rep : Spec.Worker.report) : Prop :=
  let checked := Spec.Grading.clean (fst r) (snd r) \/ always = true in
  (Spec.Worker.rep_flag rep = 0%N <-> Spec.Grading.clean (fst r) (snd r) /\ Spec.Grading.passes ck) /\
  (checked -> Spec.Worker.rep_points rep = Spec.Grading.worth (inject_Z pts) ck /\ (Spec.Worker.wrong rep <-> ~ Spec.Grading.passes ck)) /\
  (~ checked -> Spec.Worker.wrong rep /\ Spec.Worker.rep_points rep = 0%Q) /\
  (Spec.Grading.flagged (Spec.Worker.rep_flag rep) Result.TLE <-> Spec.Grading.over_time (snd r)) /\
  (Spec.Grading.flagged (Spec.Worker.rep_flag rep) Result.OLE <-> Spec.Grading.over_output (fst r) (snd r)) /\
  (Spec.Grading.flagged (Spec.Worker.rep_flag rep) Result.IR <-> Spec.Grading.nonzero_exit (snd r)) /\
  (Spec.Grading.flagged (Spec.Worker.rep_flag rep) Result.RTE <-> Spec.Grading.killed_by_signal (snd r)) /\
  (Spec.Grading.over_memory (snd r) -> Spec.Grading.flagged (Spec.Worker.rep_flag rep) Result.MLE).
(** What the checker is given as the output. *)
Definition output_of (r : option (list N * list N) * Result.process) : list N := match fst r with Some (out, _) => out | None => [] end.
(** A checker's answer that can be made a verdict of: a truth value or a result, or that the output is no text. *)
Definition sensible (ck : Grading.check_ret) : Prop :=
  match ck with Grading.CkBool _ | Grading.CkResult _ _ _ _ | Grading.CkUnicodeDecodeError => True | _ => False end.

(** ** Standard problems *)
(** The problem in [w], loaded as [p] with settings [d], is graded case by case with the nodes [ns] by the standard
    grader, and for every case its data is there and the program gets to run. *)
Record standard (w : whole) (p : problem) (d : dict) (pre : bool) (ns : list node) : Prop := Standard {
  st_loaded : prepared w = Fine (p, [VDict d]);
  st_settings : static (VDict d);
  st_meta : static (meta w);
  st_grader : lacks (B "custom_judge") d /\ lacks (B "signature_grader") d /\ lacks (B "interactive") d;
  st_pretests : pre = true <-> wants_pretests (meta w) d;
  st_list : exists vs, In (case_list pre, VList vs) d /\ Forall2 (listed [VList vs; VDict d]) vs ns;
  st_cases : forall i c, nth_error (flat_map nodes_of ns) i = Some c ->
    exists pts input right, poses w (archive p) c pts input right /\ started (program w i input)
}.
(** The same with any checkers, as long as they answer when asked. *)
Record gradeable (w : whole) (p : problem) (d : dict) (pre : bool) (ns : list node) : Prop := Gradeable {
  gr_loaded : prepared w = Fine (p, [VDict d]);
  gr_settings : static (VDict d);
  gr_meta : static (meta w);
  gr_grader : lacks (B "custom_judge") d /\ lacks (B "signature_grader") d /\ lacks (B "interactive") d;
  gr_pretests : pre = true <-> wants_pretests (meta w) d;
  gr_list : exists vs, In (case_list pre, VList vs) d /\ Forall2 (listed [VList vs; VDict d]) vs ns;
  gr_cases : forall i c, nth_error (flat_map nodes_of ns) i = Some c ->
    exists pts input answer name args, asked w (archive p) c pts input answer name args /\ let r := program w i input in started r /\
      (exists always ck, replies w i pts input answer args (output_of r) name always ck) /\
      forall always ck, replies w i pts input answer args (output_of r) name always ck -> Spec.Grading.clean (fst r) (snd r) \/ always = true -> sensible ck
}.

(** The archive the document names, if any. *)
Definition archive_of (w : whole) (doc : dict) (z : option entries) : Prop :=
  (lacks (B "archive") doc /\ z = None)
  \/ exists s e, In (B "archive", VStr s) doc /\ s <> [] /\ zip w (join (root w) s) = Archive e /\ z = Some e.
(** How cases found by their file names are written down. *)
Definition called (n : option (list N)) : value := match n with Some s => VStr s | None => Null end.
Definition files_of (e : Problem.entry) : dict := [(B "in", called (Problem.input_file e)); (B "out", called (Problem.output_file e))].
Inductive written (pts : Z) : Problem.matched result -> value -> Prop :=
| wr_case : forall e, written pts (Problem.MCase e (Plain (VInt pts))) (VDict (files_of e ++ [(B "points", VInt pts)]))
| wr_batch : forall es, written pts (Problem.MBatch es (Plain (VInt pts)))
    (VDict [(B "batched", VList (map (fun e => VDict (files_of e)) es)); (B "points", VInt pts)]).
