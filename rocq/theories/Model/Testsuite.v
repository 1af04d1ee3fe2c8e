(** dmoj/testsuite.py: the judge's own test runner. *)
From Coq Require Import String QArith.
From Verif Require Import Model.Bytes Model.Result.
Local Open Scope list_scope.
Local Open Scope nat_scope.

(** Values of a test.yml (floating-point numbers left out). *)
Inductive yaml := YNull | YBool (b : bool) | YInt (z : Z) | YStr (s : bytes) | YList (l : list yaml) | YMap (l : list (yaml * yaml)).
(** A call that may raise. *)
Inductive outcome (A : Type) := Ok (a : A) | Raised.
Arguments Ok {A} _. Arguments Raised {A}.
Fixpoint all_ok {A} (l : list (outcome A)) : outcome (list A) :=
  match l with
  | [] => Ok []
  | Ok a :: r => match all_ok r with Ok t => Ok (a :: t) | Raised => Raised end
  | Raised :: _ => Raised
  end.
Definition bind {A C} (x : outcome A) (f : A -> outcome C) : outcome C := match x with Ok a => f a | Raised => Raised end.

(** testsuite.py:104 *)
Definition all_codes : list bytes :=
  [B "AC"; B "IE"; B "TLE"; B "MLE"; B "OLE"; B "RTE"; B "IR"; B "WA"; B "CE"; B "SC"].
Definition in_set (x : bytes) (l : list bytes) : bool := existsb (beqb x) l.
(** iterating over a value; only lists, mappings and strings can be; characters of a string are
    strings again but strings never get here *)
Definition iterate (y : yaml) : outcome (list yaml) :=
  match y with YList l => Ok l | YMap l => Ok (map fst l) | _ => Raised end.
(** testsuite.py:249-258.  A set is the list of its elements. *)
Definition parse_expected_codes (y : yaml) : outcome (list bytes) :=
  match y with
  | YStr s => if beqb s (B "*") then Ok all_codes else if in_set s all_codes then Ok [s] else Raised
  | _ => bind (iterate y) (fun l =>
           all_ok (map (fun x => match x with YStr s => if in_set s all_codes then Ok s else Raised | _ => Raised end) l))
  end.
Section Reading.
  (** int() of a text *)
  Variable parse_int : bytes -> option Z.
  Definition to_int (y : yaml) : outcome Z :=
    match y with
    | YInt z => Ok z
    | YBool b => Ok (if b then 1 else 0)%Z
    | YStr s => match parse_int s with Some z => Ok z | None => Raised end
    | _ => Raised
    end.
  (** testsuite.py:260-266; [None] = anything *)
  Definition parse_points (y : yaml) : outcome (option (list Z)) :=
    match y with
    | YNull => Ok None
    | YStr s => if beqb s (B "*") then Ok None else bind (to_int y) (fun z => Ok (Some [z]))
    | YInt _ | YBool _ => bind (to_int y) (fun z => Ok (Some [z]))
    | _ => bind (iterate y) (fun l => bind (all_ok (map to_int l)) (fun zs => Ok (Some zs)))
    end.
End Reading.
(** testsuite.py:268-274.  Feedback that is not a string is not modelled (it raises here). *)
Definition parse_feedback (y : yaml) : outcome (option (list bytes)) :=
  match y with
  | YNull => Ok None
  | YStr s => if beqb s (B "*") then Ok None else Ok (Some [s])
  | _ => bind (iterate y) (fun l => bind (all_ok (map (fun x => match x with YStr s => Ok s | _ => Raised end) l)) (fun ss => Ok (Some ss)))
  end.
(** A key as a position: True is 1 and False is 0 to Python; other keys equal no position. *)
Definition as_position (y : yaml) : option Z :=
  match y with YInt z => Some z | YBool b => Some (if b then 1 else 0)%Z | _ => None end.
(** enumerate(l, start) *)
Fixpoint enumerate {A} (start : Z) (l : list A) : list (yaml * A) :=
  match l with [] => [] | x :: r => (YInt start, x) :: enumerate (start + 1) r end.
(** testsuite.py:240-247 *)
Definition parse_expect {A} (whole cases : yaml) (func : yaml -> outcome A) : outcome (A * list (yaml * A)) :=
  bind (func whole) (fun e =>
  bind (match cases with YList l => Ok (enumerate 1 l) | YMap l => Ok l | _ => Raised end) (fun l =>
  bind (all_ok (map (fun kv => bind (func (snd kv)) (fun a => Ok (fst kv, a))) l)) (fun t => Ok (e, t)))).
(** dict lookup of a position: of equal keys the last was kept *)
Definition lookup {A} (pos : Z) (l : list (yaml * A)) : option A :=
  option_map snd (find (fun kv => match as_position (fst kv) with Some z => (z =? pos)%Z | None => false end) (rev l)).

(** testsuite.py:26-33 *)
Record expectations := {
  codes_all : list bytes; codes_cases : list (yaml * list bytes);
  points_all : option (list Z); points_cases : list (yaml * option (list Z));
  feedback_all : option (list bytes); feedback_cases : list (yaml * option (list bytes))
}.
(** What the judge tells the manager about a submission. *)
Inductive report :=
| CaseStatus (position : Z) (flags : N) (points : Q) (feedback : bytes)
| CompileFailed (log : bytes)
| InternalError (message : bytes)
| OtherReport.
Definition code_name (c : code) : bytes :=
  match c with
  | AC => B "AC" | WA => B "WA" | RTE => B "RTE" | TLE => B "TLE" | MLE => B "MLE" | IR => B "IR" | SC => B "SC" | OLE => B "OLE" | IE => B "IE"
  end.
(** result.points in a set of ints *)
Definition points_in (p : Q) (l : list Z) : bool := existsb (fun z => Qeq_bool p (inject_Z z)) l.
(** The manager's [failed] and whether the handler raised.
    testsuite.py:41-66 test_case_status_packet.  Two of its steps can raise: the test of
    membership when the case's points are '*' (None), and joining the expected points of a
    case, which are numbers, for the message. *)
Definition case_status (e : expectations) (failed : bool) (position : Z) (flags : N) (points : Q) (feedback : bytes) : bool * bool :=
  let name := code_name (hd AC (readable_codes flags)) in
  let failed := failed || negb (in_set name (match lookup position (codes_cases e) with Some l => l | None => codes_all e end)) in
  let '(failed, raised) :=
    match lookup position (points_cases e) with
    | Some None => (failed, true)
    | Some (Some l) => if points_in points l then (failed, false) else match l with [] => (true, false) | _ => (failed, true) end
    | None => match points_all e with
              | None => (failed, false)
              | Some l => (failed || negb (points_in points l), false)
              end
    end in
  if raised then (failed, true)
  else
    let wanted := match lookup position (feedback_cases e) with Some f => f | None => feedback_all e end in
    (failed || match wanted with Some l => negb (in_set feedback l) | None => false end, false).
(** testsuite.py:75-79 *)
Definition internal_error (e : expectations) (failed : bool) (message : bytes) : bool :=
  let allow_IE := in_set (B "IE") (codes_all e) in
  let allow_feedback := match feedback_all e with
                        | None | Some [] => true
                        | Some l => existsb (fun f => contains f message) l
                        end in
  failed || negb allow_IE || negb allow_feedback.
(** testsuite.py:68-70, 75-79 and the handlers that do nothing *)
Definition on_report (e : expectations) (failed : bool) (r : report) : bool * bool :=
  match r with
  | CaseStatus position flags points feedback => case_status e failed position flags points feedback
  | CompileFailed _ => (failed || negb (in_set (B "CE") (codes_all e)), false)
  | InternalError message => (internal_error e failed message, false)
  | OtherReport => (failed, false)
  end.
(** judge.py:143-186: a handler that raises ends the grading thread's loop, and the
    traceback is reported as an internal error. *)
Fixpoint feed (e : expectations) (traceback : bytes) (failed : bool) (rs : list report) : bool :=
  match rs with
  | [] => failed
  | r :: t => match on_report e failed r with
              | (f, false) => feed e traceback f t
              | (f, true) => internal_error e f traceback
              end
  end.

(** One of a case's files: missing (IOError), not a YAML mapping with text keys (anything
    else is taken to raise), or such a mapping. *)
Inductive conf_file := Missing | Broken | Loaded (l : list (bytes * yaml)).
Definition config := list (bytes * yaml).
(** dict.update, newest first *)
Definition update (c : config) (l : list (bytes * yaml)) : config := rev l ++ c.
Definition key (c : config) (k : bytes) : option yaml := option_map snd (find (fun kv => beqb (fst kv) k) c).
(** testsuite.py:185-191 *)
Fixpoint read_config (files : list conf_file) (c : config) : outcome config :=
  match files with
  | [] => Ok c
  | Missing :: r => read_config r c
  | Broken :: _ => Raised
  | Loaded l :: r => read_config r (update c l)
  end.
(** Python truth *)
Definition truth (y : yaml) : bool :=
  match y with
  | YNull => false | YBool b => b | YInt z => negb (z =? 0)%Z | YStr s => nonempty s | YList l => nonempty l | YMap l => nonempty l
  end.
Definition key_or (c : config) (k : bytes) (default : yaml) : yaml := match key c k with Some y => y | None => default end.
Definition need (c : config) (k : bytes) : outcome yaml := match key c k with Some y => Ok y | None => Raised end.
(** A submission made by the runner. *)
Record submission := { sub_id : nat; sub_problem : bytes; sub_language : bytes; sub_source : bytes; sub_time : yaml; sub_memory : yaml }.
(** A directory of a test. *)
Record case_dir := { files : list conf_file; source_file : bytes -> option bytes }.

Section Runner.
  Variable parse_int : bytes -> option Z.
  Variable executors : list bytes.                  (** names of the languages available *)
  Variable judge : submission -> list report.       (** what the judge reports about a submission *)
  Variable traceback : bytes.

  (** testsuite.py:207-214 *)
  Definition read_sources (d : case_dir) (y : yaml) : outcome (list bytes) :=
    let read := fun x => match x with
                         | YStr s => match source_file d s with Some t => Ok t | None => Raised end
                         | _ => Raised
                         end in
    match y with
    | YStr _ => bind (read y) (fun t => Ok [t])
    | _ => bind (iterate y) (fun l => all_ok (map read l))
    end.
  (** testsuite.py:215-223 *)
  Definition expectations_of (c : config) : outcome expectations :=
    bind (parse_expect (key_or c (B "expect") (YStr (B "AC"))) (key_or c (B "cases") (YMap [])) parse_expected_codes) (fun codes =>
    bind (parse_expect (key_or c (B "points") YNull) (key_or c (B "points_cases") (YMap [])) (parse_points parse_int)) (fun pts =>
    bind (parse_expect (key_or c (B "feedback") YNull) (key_or c (B "feedback_cases") (YMap [])) parse_feedback) (fun fb =>
    Ok {| codes_all := fst codes; codes_cases := snd codes; points_all := fst pts; points_cases := snd pts;
          feedback_all := fst fb; feedback_cases := snd fb |}))).
  (** testsuite.py:228-238: the submissions made, numbered on from [n], and the failures *)
  Fixpoint run_sources (e : expectations) (problem language : bytes) (time memory : yaml) (n : nat) (sources : list bytes)
    : list submission * nat :=
    match sources with
    | [] => ([], 0)
    | s :: r =>
        let sub := {| sub_id := S n; sub_problem := problem; sub_language := language; sub_source := s; sub_time := time; sub_memory := memory |} in
        let '(subs, fails) := run_sources e problem language time memory (S n) r in
        (sub :: subs, (if feed e traceback false (judge sub) then 1 else 0) + fails)
    end.
  (** testsuite.py:184-238 run_test_case; the language and problem are text *)
  Definition run_test_case (problem : bytes) (d : case_dir) (n : nat) : outcome (list submission * nat) :=
    bind (read_config (files d) []) (fun c =>
    match c with
    | [] => Ok ([], 0)
    | _ =>
      if match key c (B "skip") with Some y => truth y | None => false end then Ok ([], 0)
      else bind (need c (B "language")) (fun lang =>
        match lang with
        | YList _ | YMap _ => Raised
        | YStr language =>
            if negb (in_set language executors) then Ok ([], 0)
            else bind (need c (B "time")) (fun time => bind (need c (B "memory")) (fun memory =>
                 bind (need c (B "source")) (fun src => bind (read_sources d src) (fun sources =>
                 bind (expectations_of c) (fun e => Ok (run_sources e problem language time memory n sources))))))
        | _ => Ok ([], 0)
        end)
    end).
  (** What os.listdir shows in a problem's tests directory. *)
  Record entry := { entry_name : bytes; entry_dir : option case_dir }.
  Variable case_selected : bytes -> bool.           (** no case pattern, or it matches *)
  (** testsuite.py:152-182 *)
  Fixpoint test_entries (problem : bytes) (l : list entry) (n : nat) : list submission * nat :=
    match l with
    | [] => ([], 0)
    | x :: r =>
        match entry_dir x with
        | Some d =>
            if case_selected (entry_name x) then
              match run_test_case problem d n with
              | Ok (subs, fails) => let '(subs', fails') := test_entries problem r (n + length subs) in (subs ++ subs', fails + fails')
              | Raised => let '(subs', fails') := test_entries problem r n in (subs', 1 + fails')
              end
            else test_entries problem r n
        | None => test_entries problem r n
        end
    end.
  Variable problem_selected : bytes -> bool.
  (** testsuite.py:130-150: the problems found, with their tests directory if they have one *)
  Fixpoint test_all (l : list (bytes * option (list entry))) (n : nat) : list submission * nat :=
    match l with
    | [] => ([], 0)
    | (problem, tests) :: r =>
        match tests with
        | Some entries =>
            if problem_selected problem then
              let '(subs, fails) := test_entries problem entries n in
              let '(subs', fails') := test_all r (n + length subs) in (subs ++ subs', fails + fails')
            else test_all r n
        | None => test_all r n
        end
    end.
  (** testsuite.py:287-295: the exit status *)
  Definition main_status (l : list (bytes * option (list entry))) : nat := if snd (test_all l 0) =? 0 then 0 else 1.
End Runner.
