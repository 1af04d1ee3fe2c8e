(** Exit-code protocols of bridged checkers and interactors (dmoj/contrib/*.py,
    dmoj/utils/helper_files.py:64-83).

    A helper process is summarised by what the parsers read.  Feedback text is
    bytes.  Python numbers: points and the point value are exact rationals [Q]; the
    double rounding of coci's true division and product is a function argument [rnd]
    (identity = exact arithmetic), so that the bounds are proved for every monotone
    rounding.  The peg protocol, whose result depends on infinities and NaN, uses
    IEEE doubles and a [float()] oracle. *)
From Coq Require Import String QArith.
From Flocq Require Import IEEE754.BinarySingleNaN.
From Verif Require Import Model.Bytes Model.Checkers Model.Floats.
Local Open Scope nat_scope.
Local Open Scope list_scope.

(** What the parsers look at in [proc]. *)
Record helper := Helper {
  returncode : Z;              (* proc.returncode: exit code, or -signal *)
  is_tle : bool;               (* proc.is_tle *)
  is_mle : bool;               (* proc.is_mle *)
  protection_fault : bool      (* proc.protection_fault is not None *)
}.

(** What [parse_return_code] does: return a CheckerResult, a bool, None, or raise. *)
Inductive outcome (pts : Type) :=
| Verdict (passed : bool) (points : pts) (feedback : option bytes)
| Boolean (b : bool)
| ReturnsNone
| InternalError.
Arguments Verdict {pts}. Arguments Boolean {pts}. Arguments ReturnsNone {pts}. Arguments InternalError {pts}.

(** helper_files.py:64-83; the message is not modelled. *)
Definition parse_helper_file_error {pts} (proc : helper) : outcome pts :=
  if is_tle proc then InternalError
  else if is_mle proc then InternalError
  else if protection_fault proc then InternalError
  else if negb (returncode proc =? 0)%Z then InternalError
  else ReturnsNone.

(** contrib/default.py:21-27 *)
Definition default_parse (proc : helper) (point_value : Q) (feedback : bytes) : outcome Q :=
  if (returncode proc =? 0)%Z then Verdict true point_value (Some feedback)
  else if (returncode proc =? 1)%Z then Verdict false 0%Q (Some feedback)
  else parse_helper_file_error proc.

(** ** bytes regexes with re.M: [^] and [$] anchor at LF-separated lines *)
Definition is_lf (c : N) : bool := (c =? 10)%N.
Definition is_digit (c : N) : bool := ((48 <=? c) && (c <=? 57))%N.
Fixpoint strip_prefix (p s : bytes) : option bytes :=
  match p, s with
  | [], _ => Some s
  | a :: p', c :: s' => if (a =? c)%N then strip_prefix p' s' else None
  | _ :: _, [] => None
  end.
(** int() of ASCII digits. *)
Definition int_of_digits (s : bytes) : Z :=
  fold_left (fun acc c => (acc * 10 + (Z.of_N c - 48))%Z) s 0%Z.

(** First success over a list: [re.search] tries the lines in order. *)
Fixpoint find_map {A B} (f : A -> option B) (l : list A) : option B :=
  match l with
  | [] => None
  | a :: r => match f a with Some b => Some b | None => find_map f r end
  end.

(** testlib.py:17 [^points (\d+)$] on one line. *)
Definition points_line (l : bytes) : option Z :=
  match strip_prefix (B "points ") l with
  | Some ds => if nonempty ds && forallb is_digit ds then Some (int_of_digits ds) else None
  | None => None
  end.

(** coci.py:10 the regex for a line of the form partial D/E, where D is one or more digits and E is digits not all zero: the digits before the
    slash and the digits after it. *)
Fixpoint span_digits (s : bytes) : bytes * bytes :=
  match s with
  | c :: r => if is_digit c then let (a, b) := span_digits r in (c :: a, b) else ([], s)
  | [] => ([], [])
  end.
Definition fraction_line (l : bytes) : option (Z * Z) :=
  match strip_prefix (B "partial ") l with
  | Some r =>
      let (num, rest) := span_digits r in
      match rest with
      | c :: den =>
          if nonempty num && (c =? 47)%N && forallb is_digit den && existsb (fun d => negb (d =? 48)%N) den
          then Some (int_of_digits num, int_of_digits den) else None
      | [] => None
      end
  | None => None
  end.

(** testlib.py:23-42 *)
Definition testlib_parse (proc : helper) (point_value : Q) (feedback stderr : bytes) : outcome Q :=
  if (returncode proc =? 0)%Z then Verdict true point_value (Some feedback)
  else if (returncode proc =? 7)%Z then
    match find_map points_line (re_split is_lf stderr) with
    | None => InternalError
    | Some points =>
        if Qle_bool 0 (inject_Z points) && Qle_bool (inject_Z points) point_value
        then Verdict true (inject_Z points) (Some feedback)
        else InternalError
    end
  else if (returncode proc =? 1)%Z then Verdict false 0%Q (Some feedback)
  else if (returncode proc =? 2)%Z then
    Verdict false 0%Q (Some (if nonempty feedback then feedback else B "Presentation Error"))
  else if (returncode proc =? 3)%Z then InternalError
  else parse_helper_file_error proc.

(** coci.py:17-30; [rnd] is the double rounding of [/] and [*].  Not modelled: the
    OverflowError of a quotient beyond the double range and CPython's limit on the
    number of digits of int(); both are exceptions, like InternalError. *)
Definition coci_parse (rnd : Q -> Q) (proc : helper) (point_value : Q) (feedback stderr : bytes) : outcome Q :=
  if (returncode proc =? 7)%Z then
    match find_map fraction_line (re_split is_lf stderr) with
    | None => InternalError
    | Some (num, den) =>
        let percentage := rnd (inject_Z num / inject_Z den)%Q in
        if Qle_bool 0 percentage && Qle_bool percentage 1
        then Verdict true (rnd (percentage * point_value)%Q) (Some feedback)
        else InternalError
    end
  else testlib_parse proc point_value feedback stderr.

(** peg.py:15-32; [float()] is the oracle [parse] (None = ValueError).  Division by
    zero raises ZeroDivisionError and is skipped like a ValueError. *)
Section Peg.
  Variable parse : bytes -> option f64.
  Definition peg_ratio (line1 line2 : bytes) : option f64 :=
    match parse line1, parse line2 with
    | Some a, Some b => if f_is_zero b then None else Some (f_div a b)
    | _, _ => None
    end.
  Fixpoint peg_scan (point_value : f64) (l1 : bytes) (ls : list bytes) : outcome f64 :=
    match ls with
    | [] => Boolean false
    | l2 :: r =>
        match peg_ratio l1 l2 with
        | Some percentage =>
            if f_lt (B754_zero false) percentage
            then Verdict true (f_mul point_value percentage) None
            else peg_scan point_value l2 r
        | None => peg_scan point_value l2 r
        end
    end.
  Definition peg_parse (proc : helper) (point_value : f64) (feedback : bytes) : outcome f64 :=
    if (returncode proc =? 0)%Z then Boolean true
    else if (returncode proc =? 1)%Z then
      match re_split is_lf feedback with
      | l1 :: r => peg_scan point_value l1 r
      | [] => Boolean false
      end
    else parse_helper_file_error proc.
End Peg.
