(** The judge worker: dmoj/judge.py JudgeWorker._grade_cases and _worker_process_main,
    dmoj/graders/base.py _resolve_testcases.

    Grading a case, compiling and loading the problem are oracles.  The abort flag is
    set by another thread at an arbitrary moment: [abort_at = Some a] means that the
    request becomes visible at the check that follows the case with index [a] (0-based
    in report order) or at the first check after it. *)
From Coq Require Import QArith.
From Verif Require Import Model.Bytes Model.Result.
Local Open Scope list_scope.
Local Open Scope nat_scope.

(** Test-case configuration: a plain case with its points, or a batch of plain cases.
    Simplification: a batch inside a batch is not modelled (its inner batch would be
    handed to the grader as if it were a case). *)
Inductive cfg_entry := CfgCase (points : Q) | CfgBatch (cases : list Q).

Record test_case := TestCase { position : nat; batch : nat; case_points : Q }.
Inductive entry := Single (c : test_case) | Batched (number : nat) (cs : list test_case).

(** graders/base.py:32-48; the counters are threaded.  [resolve_plain] is the
    recursive call for the cases of one batch. *)
Fixpoint resolve_plain (batch_no : nat) (counter : nat) (pts : list Q) : list test_case * nat :=
  match pts with
  | [] => ([], counter)
  | q :: r => let (cs, k) := resolve_plain batch_no (S counter) r in (TestCase counter batch_no q :: cs, k)
  end.
Fixpoint resolve_testcases (batch_counter testcase_counter : nat) (cfg : list cfg_entry) : list entry :=
  match cfg with
  | [] => []
  | CfgBatch pts :: r =>
      let b := S batch_counter in
      let (cs, k) := resolve_plain b testcase_counter pts in
      Batched b cs :: resolve_testcases b k r
  | CfgCase q :: r =>
      Single (TestCase testcase_counter 0 q) :: resolve_testcases batch_counter (S testcase_counter) r
  end.

(** judge.py:457-465 *)
Fixpoint flatten_cases (batch_number : nat) (es : list entry) : list (option nat * test_case) :=
  match es with
  | [] => []
  | Batched _ cs :: r => map (fun c => (Some (S batch_number), c)) cs ++ flatten_cases (S batch_number) r
  | Single c :: r => (None, c) :: flatten_cases batch_number r
  end.

(** itertools.groupby on the first component: maximal runs of equal keys. *)
Definition key_eqb (a b : option nat) : bool :=
  match a, b with Some x, Some y => x =? y | None, None => true | _, _ => false end.
Fixpoint groupby {A} (l : list (option nat * A)) : list (option nat * list A) :=
  match l with
  | [] => []
  | (k, a) :: r =>
      match groupby r with
      | (k', g) :: gs => if key_eqb k k' then (k, a :: g) :: gs else (k, [a]) :: (k', g) :: gs
      | [] => [(k, [a])]
      end
  end.

(** What grading one case yields: a result word and points, or an exception. *)
Inductive grade_ret := GResult (flag : N) (pts : Q) | GRaise.

Inductive msg :=
| Hello | CompileErr | CompileMessage | GradingBegin (pretested : bool)
| BatchBegin (n : nat) | CaseResult (batch : option nat) (number : nat) (flag : N) (pts : Q) | BatchEnd (n : nat)
| GradingEnd | GradingAborted | UnhandledException | Bye.
(** [Run c]: the submission is run on a case; [Send m]: a message is yielded. *)
Inductive event := Run (c : test_case) | Send (m : msg).

Record sc_state := SC_state { case_number : nat; is_short_circuiting : bool; enabled : bool }.
Inductive status := Go (s : sc_state) | Stop | Failed.

(** Python truth of a batch number (None or an int). *)
Definition batch_truthy (b : option nat) : bool := match b with Some (S _) => true | _ => false end.
(** [not case.points] *)
Definition no_points (c : test_case) : bool := Qeq_bool (case_points c) 0.

Section Worker.
  Variable grade : test_case -> grade_ret.
  Variable abort_at : option nat.
  (** self._abort_requested at the check after the [i]-th case. *)
  Definition abort_requested (i : nat) : bool := match abort_at with Some a => a <=? i | None => false end.

  (** judge.py:474-501, one iteration. *)
  Definition grade_one (b : option nat) (s : sc_state) (c : test_case) : list event * status :=
    let n := S (case_number s) in
    if is_short_circuiting s then
      ([Send (CaseResult b n (flag_of Result.SC) 0)], Go (SC_state n true (enabled s)))
    else
      match grade c with
      | GRaise => ([Run c], Failed)
      | GResult flag pts =>
          if abort_requested (case_number s) then ([Run c; Send GradingAborted], Stop)
          else
            let '(sc, en) :=
              if truthy (N.land flag (flag_of Result.WA)) then
                let en := enabled s || no_points c in
                (is_short_circuiting s || (match b with Some _ => true | None => false end || en), en)
              else (is_short_circuiting s, enabled s) in
            ([Run c; Send (CaseResult b n flag pts)], Go (SC_state n sc en))
      end.
  Fixpoint grade_group (b : option nat) (s : sc_state) (cs : list test_case) : list event * status :=
    match cs with
    | [] => ([], Go s)
    | c :: r =>
        match grade_one b s c with
        | (e, Go s') => let (e', st) := grade_group b s' r in (e ++ e', st)
        | other => other
        end
    end.
  (** judge.py:470-505 *)
  Fixpoint grade_groups (s : sc_state) (gs : list (option nat * list test_case)) : list event * status :=
    match gs with
    | [] => ([], Go s)
    | (b, cs) :: r =>
        let num := match b with Some n => n | None => 0 end in
        let pre := if batch_truthy b then [Send (BatchBegin num)] else [] in
        match grade_group b s cs with
        | (e, Go s1) =>
            let post := if batch_truthy b then [Send (BatchEnd num)] else [] in
            let s2 := if batch_truthy b then SC_state (case_number s1) (is_short_circuiting s1 && enabled s1) (enabled s1) else s1 in
            let (e', st) := grade_groups s2 r in (pre ++ e ++ post ++ e', st)
        | (e, st) => (pre ++ e, st)
        end
    end.

  (** judge.py:467-507 *)
  Definition grade_flattened (short_circuit : bool) (l : list (option nat * test_case)) : list event * status :=
    match grade_groups (SC_state 0 false short_circuit) (groupby l) with
    | (e, Go s) => (e ++ [Send GradingEnd], Go s)
    | other => other
    end.

  (** How loading the problem, compiling and listing the cases may end. *)
  Inductive setup :=
  | SetupFails                                    (* Problem(...) or the grader raises *)
  | CompileFails                                  (* CompileError *)
  | Compiled (warning : bool) (pretested : bool) (cases : option (list cfg_entry)).  (* None: cases() raises *)

  (** judge.py:437-507; [Failed] = an exception leaves the generator. *)
  Definition grade_cases (short_circuit : bool) (st : setup) : list event * status :=
    match st with
    | SetupFails => ([], Failed)
    | CompileFails => ([Send CompileErr], Stop)
    | Compiled warning pretested cases =>
        let pre := (if warning then [Send CompileMessage] else []) ++ [Send (GradingBegin pretested)] in
        match cases with
        | None => (pre, Failed)
        | Some cfg =>
            let (e, s) := grade_flattened short_circuit (flatten_cases 0 (resolve_testcases 0 0 cfg)) in
            (pre ++ e, s)
        end
    end.
End Worker.

(** judge.py:394-421: the stream of messages sent to the judge.  [send i] is the fate
    of the [i]-th generator message: sent, broken pipe (the process dies), or an error
    while pickling it. *)
Inductive send_ret := Sent | PipeBroken | PickleError.
Fixpoint send_all (send : nat -> send_ret) (i : nat) (ms : list msg) (tail : list msg) : list msg :=
  match ms with
  | [] => tail
  | m :: r =>
      match send i with
      | Sent => m :: send_all send (S i) r tail
      | PipeBroken => []
      | PickleError => [UnhandledException; Bye]
      end
  end.
Definition messages (es : list event) : list msg :=
  flat_map (fun e => match e with Send m => [m] | Run _ => [] end) es.
Definition worker_stream (send : nat -> send_ret) (gen : list event * status) : list msg :=
  let (e, s) := gen in
  Hello :: send_all send 0 (messages e) (match s with Failed => [UnhandledException; Bye] | _ => [Bye] end).
