(** Model of the floating-point checkers (dmoj/checkers/floats.py).

    Doubles are Flocq's IEEE binary64 numbers with a single NaN and every operation
    rounds to nearest even.  Python's [float(token)] is an oracle [parse]
    (None = ValueError).  The tolerance [epsilon] is a double given as an argument:
    the code computes it as [10 ** -int(precision)] (floats.py:47), whose last bit
    depends on the C library's pow; for [precision <= 0] that is an int, here
    replaced by the equal double.  A [precision] that is not an int literal raises
    before the loop and is not modelled. *)
From Coq Require Import String QArith.
From Flocq Require Import Core.Core IEEE754.BinarySingleNaN.
From Verif Require Import Model.Bytes Model.Checkers.
Local Open Scope nat_scope.
Local Open Scope list_scope.

Definition f64 := binary_float 53 1024.
Definition prec53 : Prec_gt_0 53 := eq_refl.
Definition emax1024 : Prec_lt_emax 53 1024 := eq_refl.
Definition f_add : f64 -> f64 -> f64 := @Bplus 53 1024 prec53 emax1024 mode_NE.
Definition f_sub : f64 -> f64 -> f64 := @Bminus 53 1024 prec53 emax1024 mode_NE.
Definition f_mul : f64 -> f64 -> f64 := @Bmult 53 1024 prec53 emax1024 mode_NE.
Definition f_div : f64 -> f64 -> f64 := @Bdiv 53 1024 prec53 emax1024 mode_NE.
Definition f_abs : f64 -> f64 := Babs.
Definition f_le : f64 -> f64 -> bool := Bleb.
Definition f_lt : f64 -> f64 -> bool := Bltb.
Definition f_one : f64 := @Bone 53 1024 prec53 emax1024.

(** Python's two-argument [min]/[max]: keep the first unless the second is strictly
    smaller/greater. *)
Definition py_min (a b : f64) : f64 := if f_lt b a then b else a.
Definition py_max (a b : f64) : f64 := if f_lt a b then b else a.

(** The outcome of a verifier: a bool, or a raised exception ([None]). *)

(** floats.py:7-11 *)
Definition verify_absolute (process_float judge_float epsilon : f64) : option bool :=
  Some (f_le (f_abs (f_sub process_float judge_float)) epsilon).

(** floats.py:14-19; [a <= x <= b] is the chained comparison. *)
Definition verify_relative (process_float judge_float epsilon : f64) : option bool :=
  let p1 := py_min (f_mul judge_float (f_sub f_one epsilon)) (f_mul judge_float (f_add f_one epsilon)) in
  let p2 := py_max (f_mul judge_float (f_sub f_one epsilon)) (f_mul judge_float (f_add f_one epsilon)) in
  Some (f_le p1 process_float && f_le process_float p2).

(** floats.py:22-29; Python's [/] raises ZeroDivisionError for a zero divisor. *)
Definition f_is_zero (x : f64) : bool := match x with B754_zero _ => true | _ => false end.
Definition verify_default (process_float judge_float epsilon : f64) : option bool :=
  if f_le (f_abs (f_sub process_float judge_float)) epsilon then Some true
  else if f_le epsilon (f_abs judge_float) then
    if f_is_zero judge_float then None
    else Some (f_le (f_abs (f_sub f_one (f_div process_float judge_float))) epsilon)
  else Some false.

Section Check.
  Variable parse : bytes -> option f64.   (* float(token) *)

  (** floats.py:57-69: the token loop; [false] for an early [return False] and for
      any exception (caught at 70-71). *)
  Fixpoint floats_tokens (verify : f64 -> f64 -> f64 -> option bool) (epsilon : f64)
    (tokens : list (bytes * bytes)) : bool :=
    match tokens with
    | [] => true
    | (process_token, judge_token) :: rest =>
        match parse judge_token with
        | None => if negb (beqb process_token judge_token) then false
                  else floats_tokens verify epsilon rest
        | Some judge_float =>
            match parse process_token with
            | None => false
            | Some process_float =>
                match verify process_float judge_float epsilon with
                | None => false
                | Some ok => if negb ok then false else floats_tokens verify epsilon rest
                end
            end
        end
    end.

  (** floats.py:50-55: the line loop. *)
  Fixpoint floats_lines (verify : f64 -> f64 -> f64 -> option bool) (epsilon : f64)
    (ls : list (bytes * bytes)) : bool :=
    match ls with
    | [] => true
    | (process_line, judge_line) :: rest =>
        let process_tokens := py_split process_line in
        let judge_tokens := py_split judge_line in
        if negb (length process_tokens =? length judge_tokens) then false
        else if floats_tokens verify epsilon (zip process_tokens judge_tokens)
             then floats_lines verify epsilon rest else false
    end.

  Definition mode_absolute := B "absolute".
  Definition mode_relative := B "relative".
  Definition mode_default := B "default".

  (** floats.py:32-72 *)
  Definition floats_check (process_output judge_output : bytes) (epsilon : f64) (error_mode : bytes) : checker_out :=
    let process_lines := filter_none (re_split is_crlf process_output) in
    let judge_lines := filter_none (re_split is_crlf judge_output) in
    if negb (length process_lines =? length judge_lines) then RBool false
    else
      let verify_float :=
        if beqb error_mode mode_absolute then Some verify_absolute
        else if beqb error_mode mode_relative then Some verify_relative
        else if beqb error_mode mode_default then Some verify_default
        else None in
      match verify_float with
      | None => RInternalError
      | Some verify => RBool (floats_lines verify epsilon (zip process_lines judge_lines))
      end.

  (** floatsabs.py:4-5, floatsrel.py:4-5 *)
  Definition floatsabs_check p j epsilon := floats_check p j epsilon mode_absolute.
  Definition floatsrel_check p j epsilon := floats_check p j epsilon mode_relative.
End Check.
