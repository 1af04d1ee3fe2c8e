(** The peg protocol: two consecutive lines of the feedback that are numbers with a
    positive quotient (in IEEE double arithmetic) give the fraction of the points. *)
From Coq Require Import List NArith.
From Flocq Require Import IEEE754.BinarySingleNaN.
From Verif Require Import Spec.Floats.

Definition nonzero (y : double) : Prop := match y with B754_zero _ => False | _ => True end.
Definition positive_ratio (parse : list N -> option double) (a b : list N) (q : double) : Prop :=
  exists x y, parse a = Some x /\ parse b = Some y /\ nonzero y /\ q = over64 x y /\ Bltb (B754_zero false) q = true.
