(** What the floats checkers promise. *)
From Coq Require Import Reals List NArith Bool.
From Flocq Require Import Core.Core IEEE754.BinarySingleNaN.
From Verif Require Import Spec.Text.
Import ListNotations.

Notation double := (binary_float 53 1024).

(** The real number denoted by a finite double, and finiteness (no NaN, no infinity). *)
Definition real (x : double) : R := B2R x.
Definition finite (x : double) : Prop := is_finite x = true.

(** Half a unit in the last place, relative, and the smallest positive double. *)
Definition u53 : R := (/ 2 ^ 53)%R.
Definition tiny : R := bpow radix2 (-1074).

Section Tokens.
  (** [parse] is Python's float(): [None] when the token is not a number. *)
  Variable parse : list N -> option double.
  (** When are two numbers considered equal? *)
  Variable close : double -> double -> Prop.

  (** A judge token that is a number must be answered by a close number, any other
      judge token by the very same bytes. *)
  Definition token_ok (p j : list N) : Prop :=
    match parse j with
    | None => p = j
    | Some jf => exists pf, parse p = Some pf /\ close pf jf
    end.
  Definition line_ok (p j : list N) : Prop := Forall2 token_ok (words p) (words j).
  (** The answers agree line by line (blank lines ignored) and token by token. *)
  Definition floats_accept (process judge : list N) : Prop :=
    Forall2 line_ok (nonempty_lines process) (nonempty_lines judge).
End Tokens.

(** Exact tolerances, over the reals. *)
Local Open Scope R_scope.
Definition within (bound : R) (p j : double) : Prop :=
  finite p /\ finite j /\ Rabs (real p - real j) <= bound.
Definition within_rel (ratio slack : R) (p j : double) : Prop :=
  finite p /\ finite j /\ Rabs (real p - real j) <= ratio * Rabs (real j) + slack.

(** The three tolerances in IEEE double arithmetic, round to nearest even. *)
Section Ieee.
  Let p53 : Prec_gt_0 53 := eq_refl.
  Let e1024 : Prec_lt_emax 53 1024 := eq_refl.
  Definition minus64 : double -> double -> double := @Bminus 53 1024 p53 e1024 mode_NE.
  Definition plus64 : double -> double -> double := @Bplus 53 1024 p53 e1024 mode_NE.
  Definition times64 : double -> double -> double := @Bmult 53 1024 p53 e1024 mode_NE.
  Definition over64 : double -> double -> double := @Bdiv 53 1024 p53 e1024 mode_NE.
  Definition one64 : double := @Bone 53 1024 p53 e1024.
End Ieee.
(** IEEE comparisons: false as soon as a NaN is involved. *)
Definition le64 (x y : double) : Prop := Bleb x y = true.
Definition smaller (a b : double) : double := if Bltb b a then b else a.
Definition larger (a b : double) : double := if Bltb a b then b else a.

Definition ieee_absolute (eps p j : double) : Prop := le64 (Babs (minus64 p j)) eps.
Definition ieee_relative (eps p j : double) : Prop :=
  let a := times64 j (minus64 one64 eps) in
  let b := times64 j (plus64 one64 eps) in
  le64 (smaller a b) p /\ le64 p (larger a b).
Definition ieee_default (eps p j : double) : Prop :=
  ieee_absolute eps p j \/
  (le64 eps (Babs j) /\ (forall s, j <> B754_zero s) /\ le64 (Babs (minus64 one64 (over64 p j))) eps).
