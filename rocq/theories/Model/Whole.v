(** Standard grading as a whole: from the files of a problem to the messages of the worker.
    graders/base.py, graders/standard.py, judge.py _grade_cases, problem.py, put together from the
    models of their parts. *)
From Coq Require Import String QArith.
From Verif Require Import Model.Bytes Model.Result Model.Config Model.Paths Model.Loading.
From Verif Require Model.Checkers Model.Grading Model.Worker Model.Problem.
Local Open Scope list_scope.
Local Open Scope nat_scope.

Record whole := {
  dynamic : bool -> value -> chain -> option value;              (** dynamic keys *)
  file : list N -> option (list N);                              (** open(path, 'rb').read() *)
  yaml : list N -> yaml_outcome;
  zip : list N -> zip_outcome;
  compiles : list N -> bool;                                     (** re.compile *)
  matches : list N -> list N -> option (option Problem.id * option Problem.id);   (** pattern, file name: batch and case *)
  root : list N;                                                 (** the directory of the problem *)
  meta : value;                                                  (** sent with the submission *)
  execute : list N -> module;                                    (** a checker file *)
  on_error : list N -> bool;                                     (** ... whether it is run after a failed run *)
  judgement : chosen -> list (list N * result) -> nat -> list N -> list N -> list N -> Grading.check_ret;
    (** the checkers not modelled here: arguments, position, output, answer, input *)
  special : grader -> nat -> Worker.grade_ret;                   (** the graders not modelled here *)
  generator : nat -> nat -> option (list N) -> option (list N * list N * Problem.finished);   (** of a case, n-th run *)
  program : nat -> list N -> option (list N * list N) * process;
    (** the submission, run for the case at a position on an input: what communicate gave and how the process ended *)
  parse_feedback : list N -> option (list N);
  strsignal : Z -> list N;
  mono : bool
}.

(** The result of an attribute or item, without the node as the lookup leaves it.  Simplification: a dynamic
    key evaluated by one lookup is evaluated again by the next. *)
Definition found (o : outcome) : loading result := match o with Got r _ _ => Fine r | Invalid => Fails InvalidInit end.

(** ** The list of cases (problem.py:107-127, 148-155) *)
Definition raw_of (r : result) : value := match r with Plain v => v | Sub (raw :: _) => raw | Sub [] => Null end.
Definition name_value (n : option (list N)) : value := match n with Some s => VStr s | None => Null end.
Definition files_value (e : Problem.entry) : dict :=
  [(B "in", name_value (Problem.input_file e)); (B "out", name_value (Problem.output_file e))].
Definition matched_value (m : Problem.matched result) : value :=
  match m with
  | Problem.MCase e p => VDict (files_value e ++ [(B "points", raw_of p)])
  | Problem.MBatch es p => VDict [(B "batched", VList (map (fun e => VDict (files_value e)) es)); (B "points", raw_of p)]
  end.
(** iter(case_points) *)
Definition nth_points (p : points) (i : nat) : option result := match p with Always r => Some r | Each l => nth_error l i end.

(** A plain case, or a batch of cases, by their configuration nodes. *)
Inductive node := Lone (c : chain) | Batch (c : chain) (cs : list chain).
Definition nodes_of (n : node) : list chain := match n with Lone c => [c] | Batch _ cs => cs end.

Section Whole.
  Variable w : whole.

  (** problem.py:58-60, 148-155: the configuration with its list of cases. *)
  Definition with_cases (p : problem) : loading chain :=
    match test_cases p with
    | Listed => Fine (config p)
    | Guessed names i o pts =>
        match Problem.match_test_cases (fun r => matches w (match r with Problem.InputFile => i | Problem.OutputFile => o end)) names (nth_points pts) with
        | Problem.Err _ => Fails InvalidInit
        | Problem.Ok ms =>
            match config p with
            | VDict d :: ps => Fine (VDict (store (B "test_cases") (VList (map matched_value ms)) d) :: ps)
            | _ => Fails Raised
            end
        end
    end.
  Definition prepared : loading (problem * chain) :=
    match load (dynamic w) (file w) (yaml w) (zip w) (compiles w) (root w) (meta w) with
    | Fails f => Fails f
    | Fine p => match with_cases p with Fails f => Fails f | Fine c => Fine (p, c) end
    end.

  (** ** Listing (graders/base.py:33-53) *)
  (** [case_config.raw_config] and whether 'batched' is in it. *)
  Definition holds_batch (raw : value) : bool :=
    match raw with
    | VDict d => has (B "batched") d
    | VList l => existsb (fun v => match v with VStr s => beqb (B "batched") s | _ => false end) l
    | _ => false
    end.
  Definition members (r : result) : loading (list result) :=
    match r with
    | Sub c => Fine (iterate c)
    | Plain (VStr []) => Fine []
    | Plain _ => Fails Raised                        (* not iterable, or no raw_config *)
    end.
  Fixpoint all_fine {A X} (f : A -> loading X) (l : list A) : loading (list X) :=
    match l with
    | [] => Fine []
    | a :: r => match f a with
                | Fails e => Fails e
                | Fine x => match all_fine f r with Fails e => Fails e | Fine xs => Fine (x :: xs) end
                end
    end.
  (** A case inside a batch.  Simplification: of several errors in one listing, which one is raised. *)
  Definition inner_node (r : result) : loading chain :=
    match r with
    | Sub (raw :: ps) => if holds_batch raw then Fails InvalidInit else Fine (raw :: ps)      (* nested batches: problem.py:214-215 *)
    | _ => Fails Raised
    end.
  Definition as_node (r : result) : loading node :=
    match r with
    | Sub (raw :: ps) =>
        if holds_batch raw then
          match found (getitem (dynamic w) (raw :: ps) (Key (B "batched"))) with
          | Fails f => Fails f
          | Fine m =>
              match members m with
              | Fails f => Fails f
              | Fine l => match all_fine inner_node l with Fails f => Fails f | Fine cs => Fine (Batch (raw :: ps) cs) end
              end
          end
        else Fine (Lone (raw :: ps))
    | _ => Fails Raised
    end.
  (** base.py:13, 50-52 *)
  Definition is_pretested (c : chain) : loading bool :=
    match found (getattr (dynamic w) [or_empty (meta w)] (B "pretests_only")) with
    | Fails f => Fails f
    | Fine r => Fine (res_truthy r && in_node (B "pretest_test_cases") c)
    end.
  Definition list_nodes (pretested : bool) (c : chain) : loading (list node) :=
    match found (getitem (dynamic w) c (Key (if pretested then B "pretest_test_cases" else B "test_cases"))) with
    | Fails f => Fails f
    | Fine r => match members r with Fails f => Fails f | Fine l => all_fine as_node l end
    end.

  (** ** One case (problem.py:224-233) *)
  (** Simplification: points that are no whole number are an error at once. *)
  Definition points_at (c : chain) : loading Q :=
    match found (getattr (dynamic w) c (B "points")) with
    | Fine (Plain (VInt z)) => Fine (inject_Z z)
    | Fine (Plain (VBool b)) => Fine (if b then 1%Q else 0%Q)
    | Fine _ => Fails Raised
    | Fails f => Fails f
    end.
  Definition binary_at (c : chain) : loading bool :=
    match found (getattr (dynamic w) c (B "binary_data")) with Fine r => Fine (res_truthy r) | Fails f => Fails f end.
  Record graded_case := GradedCase { at_node : chain; worth : Q; is_binary : bool }.
  Definition make_case (c : chain) : loading graded_case :=
    match points_at c with
    | Fails f => Fails f
    | Fine q => match binary_at c with Fails f => Fails f | Fine b => Fine (GradedCase c q b) end
    end.
  (** Cases and batches; the points of a batch are read as well (problem.py:212) *)
  Inductive item := OneCase (c : graded_case) | Batched (cs : list graded_case).
  Definition make_item (n : node) : loading item :=
    match n with
    | Lone c => match make_case c with Fails f => Fails f | Fine t => Fine (OneCase t) end
    | Batch c cs =>
        match all_fine make_case cs with
        | Fails f => Fails f
        | Fine ts => match found (getattr (dynamic w) c (B "points")) with Fails f => Fails f | Fine _ => Fine (Batched ts) end
        end
    end.
  Definition cases_in (i : item) : list graded_case := match i with OneCase t => [t] | Batched ts => ts end.
  Definition entry_of (i : item) : Worker.cfg_entry :=
    match i with OneCase t => Worker.CfgCase (worth t) | Batched ts => Worker.CfgBatch (map worth ts) end.
  Definition listing (pretested : bool) (c : chain) : loading (list item) :=
    match list_nodes pretested c with Fails f => Fails f | Fine ns => all_fine make_item ns end.

  (** self.config['in'], self.config.out as names of data; [] if they do not count *)
  Definition data_name (o : outcome) : loading (list N) :=
    match found o with
    | Fails f => Fails f
    | Fine r => if res_truthy r then match r with Plain (VStr s) => Fine s | _ => Fails Raised end else Fine []
    end.
  (** problem.py:326-348 *)
  Definition source_of (t : graded_case) : loading Problem.source :=
    match data_name (getitem (dynamic w) (at_node t) (Key (B "in"))) with
    | Fails f => Fails f
    | Fine i =>
        match data_name (getattr (dynamic w) (at_node t) (B "out")) with
        | Fails f => Fails f
        | Fine o =>
            match found (getattr (dynamic w) (at_node t) (B "generator")) with
            | Fails f => Fails f
            | Fine g => Fine {| Problem.in_name := i; Problem.out_name := o; Problem.has_gen := res_truthy g; Problem.binary := is_binary t |}
            end
        end
    end.
  (** problem_data[name]; an unreadable archive member raises as well *)
  Definition read (z : option entries) (name : list N) : option (list N) :=
    match problem_data (file w) (root w) z name with Found d => Some d | _ => None end.

  (** ** Checkers *)
  Definition checked (o : Checkers.checker_out) : Grading.check_ret :=
    match o with
    | Checkers.RBool b => Grading.CkBool b
    | Checkers.RResult b q fb => Grading.CkResult b q fb None
    | Checkers.RInternalError => Grading.CkInternalError
    end.
  Fixpoint argument (k : list N) (args : list (list N * result)) : option result :=
    match args with [] => None | (k', v) :: r => if beqb k k' then Some v else argument k r end.
  Definition flag (k : list N) (default : bool) (args : list (list N * result)) : bool :=
    match argument k args with Some r => res_truthy r | None => default end.
  (** checkers/*.py: the parameters of each check function *)
  Definition apply_checker (ch : chosen) (args : list (list N * result)) (position : nat) (pts : Q) (output answer input : list N) : Grading.check_ret :=
    match ch with
    | Builtin name =>
        if beqb name (B "standard") then checked (Checkers.standard_check output answer)
        else if beqb name (B "identical") then checked (Checkers.identical_check output answer (flag (B "pe_allowed") true args))
        else if beqb name (B "easy") then checked (Checkers.easy_check output answer)
        else if beqb name (B "rstripped") then checked (Checkers.rstripped_check output answer (flag (B "filter_new_line") false args))
        else if beqb name (B "unordered") then checked (Checkers.unordered_check output answer)
        else if beqb name (B "linecount") then checked (Checkers.linecount_check output answer pts (flag (B "feedback") true args))
        else if beqb name (B "sorted") then
          match argument (B "split_on") args with
          | None => checked (Checkers.sorted_check output answer (B "lines"))
          | Some (Plain (VStr s)) => checked (Checkers.sorted_check output answer s)
          | Some (Sub _) => Grading.CkRaise                          (* unhashable *)
          | Some (Plain _) => Grading.CkInternalError
          end
        else judgement w ch args position output answer input
    | FromFile _ _ => judgement w ch args position output answer input
    end.
  (** standard.py:52; checkers/linecount.py:35 *)
  Definition runs_on_error (ch : chosen) : bool :=
    match ch with Builtin name => beqb name (B "linecount") | FromFile name _ => on_error w name end.

  (** ** Grading a case (standard.py:13-75) *)
  Definition grade_case (z : option entries) (position : nat) (t : graded_case) : Worker.grade_ret :=
    match source_of t with
    | Fails _ => Worker.GRaise
    | Fine s =>
        match Problem.input_data (read z) (generator w position) s Problem.fresh with
        | (Problem.Data input, st) =>
            let (io, p) := program w position input in
            match fst (checker (dynamic w) (fun _ => execute w) (at_node t) no_checkers) with
            | Fails _ => Worker.GRaise
            | Fine (ch, args) =>
                let check :=
                  match Problem.output_data (read z) (generator w position) s st with
                  | (Problem.Data answer, st1) =>
                      match Problem.input_data (read z) (generator w position) s st1 with
                      | (Problem.Data again, _) => apply_checker ch args position (worth t) (Grading.io_output io) answer again
                      | _ => Grading.CkRaise
                      end
                  | _ => Grading.CkRaise
                  end in
                match Grading.standard_grade (parse_feedback w) (strsignal w) (mono w) (runs_on_error ch) check (worth t) io p with
                | Grading.Graded r => Worker.GResult (Grading.result_flag r) (Grading.points r)
                | Grading.Raised _ => Worker.GRaise
                end
            end
        | _ => Worker.GRaise
        end
    end.

  (** ** A submission (judge.py:437-507): [compiled] says whether it compiles, and with a warning *)
  Definition nth_grade (c : chain) (z : option entries) (ts : list graded_case) (tc : Worker.test_case) : Worker.grade_ret :=
    match nth_error ts (Worker.position tc) with
    | None => Worker.GRaise
    | Some t =>
        match grader_class c with
        | StandardGrader => grade_case z (Worker.position tc) t
        | g => special w g (Worker.position tc)
        end
    end.
  Definition judged (compiled : option bool) (abort_at : option nat) (short_circuit : bool) : list Worker.event * Worker.status :=
    match prepared with
    | Fails _ => Worker.grade_cases (fun _ => Worker.GRaise) abort_at short_circuit Worker.SetupFails
    | Fine (p, c) =>
        match compiled with
        | None => Worker.grade_cases (fun _ => Worker.GRaise) abort_at short_circuit Worker.CompileFails
        | Some warning =>
            match is_pretested c with
            | Fails _ => Worker.grade_cases (fun _ => Worker.GRaise) abort_at short_circuit Worker.SetupFails
            | Fine pretested =>
                match listing pretested c with
                | Fails _ => Worker.grade_cases (fun _ => Worker.GRaise) abort_at short_circuit (Worker.Compiled warning pretested None)
                | Fine items =>
                    Worker.grade_cases (nth_grade c (archive p) (flat_map cases_in items)) abort_at short_circuit
                      (Worker.Compiled warning pretested (Some (map entry_of items)))
                end
            end
        end
    end.
End Whole.
