(** Model of the built-in checkers (dmoj/checkers/). *)
From Coq Require Import QArith String.
From Verif Require Import Model.Bytes.
Local Open Scope nat_scope.
Local Open Scope list_scope.

(** * The C scanner (dmoj/checkers/_checker.c)

    The C code works on two buffers with explicit lengths and two cursors.  Every
    read goes through [rd], which reports an out-of-bounds access as a value;
    every loop carries fuel, whose exhaustion is also a value. *)
Inductive cres (A : Type) :=
| Ok (a : A)
| OOB          (* read outside the buffer *)
| NoFuel.      (* loop bound of the model exhausted *)
Arguments Ok {A} a.
Arguments OOB {A}.
Arguments NoFuel {A}.

Definition cbind {A C} (m : cres A) (k : A -> cres C) : cres C :=
  match m with Ok a => k a | OOB => OOB | NoFuel => NoFuel end.
Notation "'LET' x <- m 'IN' k" := (cbind m (fun x => k)) (at level 200, x pattern, right associativity).

Definition rd (s : bytes) (i : nat) : cres N :=
  match nth_error s i with Some c => Ok c | None => OOB end.

(** _checker.c:13-20 [isline]. *)
Definition isline (ch : N) : bool := (if ch =? 10 then true else if ch =? 13 then true else false)%N.

(** _checker.c:22-33 [iswhite]: ' ', \t, \v, \f, \n, \r. *)
Definition iswhite (ch : N) : bool :=
  (if ch =? 32 then true else if ch =? 9 then true else if ch =? 11 then true
   else if ch =? 12 then true else if ch =? 10 then true else if ch =? 13 then true else false)%N.

(** _checker.c:37-48 [skip_spaces]: returns the code (2 newline seen, 1 only
    spaces seen, 0 nothing) and the new position. *)
Fixpoint skip_spaces_loop (fuel : nat) (str : bytes) (pos length : nat) (saw_line saw_space : bool)
  : cres (nat * nat) :=
  match fuel with
  | O => NoFuel
  | S fuel' =>
      if pos <? length then
        LET c <- rd str pos IN
        let saw_line := saw_line || isline c in
        if negb (iswhite c) then
          Ok (if saw_line then 2 else if saw_space then 1 else 0, pos)
        else skip_spaces_loop fuel' str (S pos) length saw_line true
      else Ok (if saw_line then 2 else if saw_space then 1 else 0, pos)
  end.
Definition skip_spaces (str : bytes) (pos length : nat) : cres (nat * nat) :=
  skip_spaces_loop (S (length - pos)) str pos length false false.

(** _checker.c:53-54: [while (j < jlen && iswhite(judge[j])) ++j;]. *)
Fixpoint skip_leading (fuel : nat) (str : bytes) (pos length : nat) : cres nat :=
  match fuel with
  | O => NoFuel
  | S fuel' =>
      if pos <? length then
        LET c <- rd str pos IN
        if iswhite c then skip_leading fuel' str (S pos) length else Ok pos
      else Ok pos
  end.

(** _checker.c:61-64: compare the judge's token with the process bytes; [None] is
    the early [return 0]. *)
Fixpoint match_token (fuel : nat) (judge : bytes) (jlen : nat) (process : bytes) (plen : nat) (j p : nat)
  : cres (option (nat * nat)) :=
  match fuel with
  | O => NoFuel
  | S fuel' =>
      if j <? jlen then
        LET c <- rd judge j IN
        if negb (iswhite c) then
          if plen <=? p then Ok None
          else
            LET d <- rd process p IN
            if (c =? d)%N then match_token fuel' judge jlen process plen (S j) (S p)
            else Ok None
        else Ok (Some (j, p))
      else Ok (Some (j, p))
  end.

(** _checker.c:55-65: the [for (;;)] loop. *)
Fixpoint standard_loop (fuel : nat) (judge : bytes) (jlen : nat) (process : bytes) (plen : nat) (j p : nat)
  : cres bool :=
  match fuel with
  | O => NoFuel
  | S fuel' =>
      LET (js, j) <- skip_spaces judge j jlen IN
      LET (ps, p) <- skip_spaces process p plen IN
      if (j =? jlen) || (p =? plen) then Ok ((j =? jlen) && (p =? plen))
      else if negb (js =? ps) then Ok false
      else
        LET r <- match_token (S (jlen - j)) judge jlen process plen j p IN
        match r with
        | None => Ok false
        | Some (j, p) => standard_loop fuel' judge jlen process plen j p
        end
  end.

(** _checker.c:50-66 [check_standard]. *)
Definition check_standard (judge : bytes) (jlen : nat) (process : bytes) (plen : nat) : cres bool :=
  LET j <- skip_leading (S jlen) judge 0 jlen IN
  LET p <- skip_leading (S plen) process 0 plen IN
  standard_loop (S jlen) judge jlen process plen j p.

(** _checker.c:68-91 [checker_standard]: the lengths passed are the real ones. *)
Definition checker_standard (expected actual : bytes) : cres bool :=
  check_standard expected (length expected) actual (length actual).

(** * The Python checkers

    What a checker's [check] may return: a bool, a [CheckerResult]
    (dmoj/result.py:104-110), or an exception.  Points are exact rationals here
    (Python ints/floats in the code); feedback texts are byte strings. *)
Inductive checker_out :=
| RBool (b : bool)
| RResult (passed : bool) (points : Q) (feedback : option bytes)
| RInternalError.

(** dmoj/checkers/standard.py:7-10.  (An [OOB]/[NoFuel] of the scanner would be
    undefined behaviour in the C code; it is mapped to an error here and
    theorem C02 shows that it cannot happen.) *)
Definition standard_check (process_output judge_output : bytes) : checker_out :=
  match checker_standard judge_output process_output with
  | Ok b => RBool b
  | _ => RInternalError
  end.

(** dmoj/checkers/identical.py:8-15. *)
Definition pe_message : bytes := B "Presentation Error, check your whitespace".
Definition identical_check (process_output judge_output : bytes) (pe_allowed : bool) : checker_out :=
  if beqb judge_output process_output then RBool true
  else
    let feedback :=
      if pe_allowed then
        match checker_standard judge_output process_output with
        | Ok true => Some pe_message
        | _ => None
        end
      else None in
    RResult false 0 feedback.

(** collections.Counter of a byte string: an insertion-ordered association list of
    counts. *)
Fixpoint counter_incr (c : N) (m : list (N * nat)) : list (N * nat) :=
  match m with
  | [] => [(c, 1)]
  | (k, n) :: r => if (k =? c)%N then (k, S n) :: r else (k, n) :: counter_incr c r
  end.
Definition counter (s : bytes) : list (N * nat) := fold_left (fun m c => counter_incr c m) s [].
Fixpoint counter_get (c : N) (m : list (N * nat)) : option nat :=
  match m with
  | [] => None
  | (k, n) :: r => if (k =? c)%N then Some n else counter_get c r
  end.
(** Dict equality: same number of keys and every key of the first has the same
    count in the second. *)
Definition counter_eqb (a b : list (N * nat)) : bool :=
  (length a =? length b) &&
  forallb (fun '(k, n) => match counter_get k b with Some m => n =? m | None => false end) a.

(** dmoj/checkers/easy.py:7-10.  [regex.sub(b'', s)] with [\s+] deletes every
    whitespace byte. *)
Definition strip_all_space (s : bytes) : bytes := filter (fun c => negb (py_isspace c)) s.
Definition easy_check (process_output judge_output : bytes) : checker_out :=
  let process_all := strip_all_space process_output in
  let judge_all := strip_all_space judge_output in
  RBool (counter_eqb (counter (py_lower process_all)) (counter (py_lower judge_all))).

(** dmoj/checkers/rstripped.py:6-21.  [zip] stops at the shorter list; the lengths
    have been compared before. *)
Fixpoint zip {A C} (a : list A) (b : list C) : list (A * C) :=
  match a, b with
  | x :: a', y :: b' => (x, y) :: zip a' b'
  | _, _ => []
  end.
Definition rstripped_check (process_output judge_output : bytes) (filter_new_line : bool) : checker_out :=
  let process_lines := re_split is_crlf process_output in
  let judge_lines := re_split is_crlf judge_output in
  let process_lines := if filter_new_line then filter_none process_lines else process_lines in
  let judge_lines := if filter_new_line then filter_none judge_lines else judge_lines in
  if negb (length process_lines =? length judge_lines) then RBool false
  else RBool (forallb (fun '(p, j) => beqb (py_rstrip p) (py_rstrip j)) (zip process_lines judge_lines)).

(** dmoj/checkers/sorted.py:8-34.  [split_on] is an arbitrary string; the two
    supported values select the split class. *)
Definition split_lines_mode : bytes := B "lines".
Definition split_ws_mode : bytes := B "whitespace".
Definition sorted_check (process_output judge_output split_on : bytes) : checker_out :=
  let split_pattern :=
    if beqb split_on split_lines_mode then Some is_crlf
    else if beqb split_on split_ws_mode then Some py_isspace else None in
  match split_pattern with
  | None => RInternalError
  | Some sep =>
      let process_lines := filter_none (re_split sep process_output) in
      let judge_lines := filter_none (re_split sep judge_output) in
      if negb (length process_lines =? length judge_lines) then RBool false
      else if beqb split_on split_lines_mode then
        let process_lines := sort tokens_leb (map py_split process_lines) in
        let judge_lines := sort tokens_leb (map py_split judge_lines) in
        RBool (forallb (fun '(p, j) => list_eqb beqb p j) (zip process_lines judge_lines))
      else
        let process_lines := sort bytes_leb process_lines in
        let judge_lines := sort bytes_leb judge_lines in
        RBool (forallb (fun '(p, j) => beqb p j) (zip process_lines judge_lines))
  end.

(** dmoj/checkers/unordered.py:6-10. *)
Definition unordered_check (process_output judge_output : bytes) : checker_out :=
  sorted_check process_output judge_output split_ws_mode.

(** dmoj/checkers/linecount.py:10-32.  The marks are U+2717 / U+2713.  Points are
    computed exactly (the code uses doubles; see Model/LineCountFloat.v). *)
Definition mark_wrong : N := 10007.
Definition mark_right : N := 10003.
(** The enumerate/zip loop 25-28: [cases] initially all wrong. *)
Fixpoint linecount_loop (process_lines judge_lines : list bytes) : list N * nat :=
  match process_lines, judge_lines with
  | p :: ps, j :: js =>
      let (cases, count) := linecount_loop ps js in
      if beqb (py_strip p) (py_strip j) then (mark_right :: cases, S count) else (mark_wrong :: cases, count)
  | _, js => (repeat mark_wrong (length js), 0)
  end.
Definition linecount_check (process_output judge_output : bytes) (point_value : Q) (feedback : bool) : checker_out :=
  let process_lines := filter_none (re_split is_crlf process_output) in
  let judge_lines := filter_none (re_split is_crlf judge_output) in
  if length judge_lines <? length process_lines then RBool false
  else match judge_lines with
  | [] => RBool true
  | _ =>
      let (cases, count) := linecount_loop process_lines judge_lines in
      RResult (count =? length judge_lines)
        (point_value * (inject_Z (Z.of_nat count) / inject_Z (Z.of_nat (length judge_lines))))%Q
        (Some (if feedback then cases else []))
  end.
