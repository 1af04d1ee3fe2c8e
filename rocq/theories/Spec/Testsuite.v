(** What a run of the test suite should do, in terms of the test directories. *)
From Coq Require Import String QArith.
From Verif Require Import Model.Bytes Model.Result Model.Testsuite.
Local Open Scope list_scope.
Local Open Scope nat_scope.

(** The value listed last for a key. *)
Definition last_for {K V} (is_key : K -> Prop) (l : list (K * V)) (v : V) : Prop :=
  exists a k b, l = a ++ (k, v) :: b /\ is_key k /\ forall k' v', In (k', v') b -> ~ is_key k'.
(** The settings of a test: its files one after the other. *)
Definition settings (d : case_dir) : list (bytes * yaml) :=
  concat (map (fun f => match f with Loaded l => l | _ => [] end) (files d)).
Definition setting (d : case_dir) (k : bytes) (y : yaml) : Prop := last_for (eq k) (settings d) y.
Definition setting_or (d : case_dir) (k : bytes) (default y : yaml) : Prop :=
  setting d k y \/ ((forall v, ~ In (k, v) (settings d)) /\ y = default).

(** A list of values, or the keys of a mapping. *)
Definition elements (y : yaml) (l : list yaml) : Prop := y = YList l \/ exists m, y = YMap m /\ l = map fst m.
Definition anything (y : yaml) : Prop := y = YNull \/ y = YStr (B "*").
Definition the_codes : list bytes :=
  [B "AC"; B "IE"; B "TLE"; B "MLE"; B "OLE"; B "RTE"; B "IR"; B "WA"; B "CE"; B "SC"].
(** What each kind of expectation may look like and what it allows. *)
Definition codes_valid (y : yaml) : Prop :=
  y = YStr (B "*") \/ (exists s, y = YStr s /\ In s the_codes)
  \/ exists l, elements y l /\ Forall (fun x => exists s, x = YStr s /\ In s the_codes) l.
Definition code_allowed (y : yaml) (name : bytes) : Prop :=
  In name the_codes /\ (y = YStr (B "*") \/ y = YStr name \/ exists l, elements y l /\ In (YStr name) l).
Section Points.
  Variable parse_int : bytes -> option Z.
  Definition number (y : yaml) (z : Z) : Prop :=
    y = YInt z \/ (y = YBool true /\ z = 1%Z) \/ (y = YBool false /\ z = 0%Z) \/ exists s, y = YStr s /\ parse_int s = Some z.
  Definition points_valid (y : yaml) : Prop :=
    anything y \/ (exists z, number y z) \/ exists l, elements y l /\ Forall (fun x => exists z, number x z) l.
  Definition points_allowed (y : yaml) (p : Q) : Prop :=
    anything y \/ (exists z, number y z /\ p == inject_Z z) \/ exists l x z, elements y l /\ In x l /\ number x z /\ p == inject_Z z.
End Points.
Definition feedback_valid (y : yaml) : Prop :=
  anything y \/ (exists s, y = YStr s) \/ exists l, elements y l /\ Forall (fun x => exists s, x = YStr s) l.
Definition feedback_allowed (y : yaml) (f : bytes) : Prop :=
  anything y \/ y = YStr f \/ exists l, elements y l /\ In (YStr f) l.
(** An internal error's text may contain the feedback expected. *)
Definition error_allowed (y : yaml) (message : bytes) : Prop :=
  anything y \/ elements y [] \/ exists f a b, feedback_allowed y f /\ ~ anything y /\ message = a ++ f ++ b.

(** Expectations for single cases: the list's element, counted from one, or the mapping's entry. *)
Definition is_position (pos : Z) (k : yaml) : Prop :=
  k = YInt pos \/ (k = YBool true /\ pos = 1%Z) \/ (k = YBool false /\ pos = 0%Z).
Definition for_case (cases : yaml) (pos : Z) (y : yaml) : Prop :=
  (exists l, cases = YList l /\ (1 <= pos)%Z /\ nth_error l (Z.to_nat (pos - 1)) = Some y)
  \/ (exists l, cases = YMap l /\ last_for (is_position pos) l y).
Definition of_case (cases y : yaml) : Prop :=
  (exists l, cases = YList l /\ In y l) \/ (exists l k, cases = YMap l /\ In (k, y) l).
Definition governs (d : case_dir) (of_cases of_all : bytes) (default : yaml) (pos : Z) (y : yaml) : Prop :=
  exists cases, setting_or d of_cases (YMap []) cases
    /\ (for_case cases pos y \/ ((forall v, ~ for_case cases pos v) /\ setting_or d of_all default y)).

(** The short names of the codes. *)
Definition short_name (c : code) : bytes :=
  match c with
  | AC => B "AC" | WA => B "WA" | RTE => B "RTE" | TLE => B "TLE" | MLE => B "MLE" | IR => B "IR" | SC => B "SC" | OLE => B "OLE" | IE => B "IE"
  end.
(** A report that is as the test expects. *)
Definition fine (parse_int : bytes -> option Z) (d : case_dir) (r : report) : Prop :=
  match r with
  | CaseStatus pos flags points feedback =>
      (exists y, governs d (B "cases") (B "expect") (YStr (B "AC")) pos y /\ code_allowed y (short_name (hd AC (readable_codes flags))))
      /\ (exists y, governs d (B "points_cases") (B "points") YNull pos y /\ points_allowed parse_int y points)
      /\ (exists y, governs d (B "feedback_cases") (B "feedback") YNull pos y /\ feedback_allowed y feedback)
  | CompileFailed _ => exists y, setting_or d (B "expect") (YStr (B "AC")) y /\ code_allowed y (B "CE")
  | InternalError message =>
      (exists y, setting_or d (B "expect") (YStr (B "AC")) y /\ code_allowed y (B "IE"))
      /\ (exists y, setting_or d (B "feedback") YNull y /\ error_allowed y message)
  | OtherReport => True
  end.
Definition expects_well (d : case_dir) (of_cases of_all : bytes) (default : yaml) (valid : yaml -> Prop) : Prop :=
  (exists y, setting_or d of_all default y /\ valid y)
  /\ exists cases, setting_or d of_cases (YMap []) cases /\ (exists l, cases = YList l \/ exists m, cases = YMap m /\ l = map snd m)
       /\ forall y, of_case cases y -> valid y.

(** The three things that can become of a test. *)
Definition skip_asked (d : case_dir) : Prop := exists y, setting d (B "skip") y /\ truth y = true.
Definition scalar (y : yaml) : Prop := forall l m, y <> YList l /\ y <> YMap m.
Definition skipped (executors : list bytes) (d : case_dir) : Prop :=
  ~ In Broken (files d)
  /\ (settings d = [] \/ skip_asked d
      \/ exists y, setting d (B "language") y /\ scalar y /\ forall s, y = YStr s -> ~ In s executors).
Definition sources (d : case_dir) (y : yaml) (texts : list bytes) : Prop :=
  (exists s t, y = YStr s /\ texts = [t] /\ source_file d s = Some t)
  \/ exists l, elements y l /\ Forall2 (fun x t => exists s, x = YStr s /\ source_file d s = Some t) l texts.
Definition runs (parse_int : bytes -> option Z) (executors : list bytes) (d : case_dir)
           (language : bytes) (time memory : yaml) (texts : list bytes) : Prop :=
  ~ In Broken (files d) /\ settings d <> [] /\ ~ skip_asked d
  /\ setting d (B "language") (YStr language) /\ In language executors
  /\ setting d (B "time") time /\ setting d (B "memory") memory
  /\ (exists y, setting d (B "source") y /\ sources d y texts)
  /\ expects_well d (B "cases") (B "expect") (YStr (B "AC")) codes_valid
  /\ expects_well d (B "points_cases") (B "points") YNull (points_valid parse_int)
  /\ expects_well d (B "feedback_cases") (B "feedback") YNull feedback_valid.
Definition in_error (parse_int : bytes -> option Z) (executors : list bytes) (d : case_dir) : Prop :=
  ~ skipped executors d /\ forall language time memory texts, ~ runs parse_int executors d language time memory texts.
(** A test that does not expect internal errors, nor any points at all for a single case. *)
Definition ordinary (d : case_dir) : Prop :=
  (forall y, setting_or d (B "expect") (YStr (B "AC")) y -> ~ code_allowed y (B "IE"))
  /\ (forall cases y, setting_or d (B "points_cases") (YMap []) cases -> of_case cases y -> ~ anything y).

(** The tests selected and the submissions they ask for. *)
Section Plan.
  Variable parse_int : bytes -> option Z.
  Variable executors : list bytes.
  Variables case_selected problem_selected : bytes -> bool.
  Definition selected (l : list (bytes * option (list entry))) : list (bytes * case_dir) :=
    flat_map (fun pt => match pt with
                        | (problem, Some tests) =>
                            if problem_selected problem then
                              flat_map (fun x => match entry_dir x with
                                                 | Some d => if case_selected (entry_name x) then [(problem, d)] else []
                                                 | None => []
                                                 end) tests
                            else []
                        | (_, None) => []
                        end) l.
  Record job := { job_dir : case_dir; job_problem : bytes; job_language : bytes; job_source : bytes; job_time : yaml; job_memory : yaml }.
  Inductive planned : list (bytes * case_dir) -> list job -> Prop :=
  | planned_nil : planned [] []
  | planned_skip p d r js : skipped executors d -> planned r js -> planned ((p, d) :: r) js
  | planned_error p d r js : in_error parse_int executors d -> planned r js -> planned ((p, d) :: r) js
  | planned_run p d r js language time memory texts : runs parse_int executors d language time memory texts -> planned r js ->
      planned ((p, d) :: r)
        (map (fun s => {| job_dir := d; job_problem := p; job_language := language; job_source := s; job_time := time; job_memory := memory |}) texts ++ js).
  Definition as_submission (n : nat) (j : job) : submission :=
    {| sub_id := n; sub_problem := job_problem j; sub_language := job_language j; sub_source := job_source j;
       sub_time := job_time j; sub_memory := job_memory j |}.
  Fixpoint numbered (n : nat) (js : list job) : list submission :=
    match js with [] => [] | j :: r => as_submission n j :: numbered (S n) r end.
End Plan.
