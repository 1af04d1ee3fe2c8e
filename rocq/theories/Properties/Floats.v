(** Property theorems for the floating-point checkers (C08, C09). *)
From Coq Require Import String Reals.
From Flocq Require Import Core.Core IEEE754.BinarySingleNaN.
From Verif Require Import Model.Bytes Model.Checkers Model.Floats Spec.Text Spec.Floats.
From Verif Require Proofs.Floats.
Local Open Scope nat_scope.
Local Open Scope list_scope.

(** C08: line by line and token by token; a numeric judge token needs a close number,
    any other judge token the same bytes.  [parse] (Python's float()) is arbitrary. *)
Theorem C08_floats_token_rule : forall parse process judge eps,
  (floats_check parse process judge eps (B "absolute") = RBool true <-> floats_accept parse (ieee_absolute eps) process judge) /\
  (floats_check parse process judge eps (B "relative") = RBool true <-> floats_accept parse (ieee_relative eps) process judge) /\
  (floats_check parse process judge eps (B "default") = RBool true <-> floats_accept parse (ieee_default eps) process judge).
Proof.
  exact (fun parse p j eps => conj (Proofs.Floats.decides_absolute parse p j eps)
    (conj (Proofs.Floats.decides_relative parse p j eps) (Proofs.Floats.decides_default parse p j eps))).
Qed.
Print Assumptions C08_floats_token_rule.

(** The documented modes always give a verdict; any other mode is reported as an
    internal error (unless the line counts already differ). *)
Theorem C08_floats_modes : forall parse process judge eps mode,
  (In mode [B "absolute"; B "relative"; B "default"] ->
     exists b, floats_check parse process judge eps mode = RBool b) /\
  (~ In mode [B "absolute"; B "relative"; B "default"] ->
     floats_check parse process judge eps mode =
       if length (nonempty_lines process) =? length (nonempty_lines judge) then RInternalError else RBool false).
Proof. exact Proofs.Floats.modes_total. Qed.
Print Assumptions C08_floats_modes.

(** Answering with the judge's own output is accepted when all its numbers are finite. *)
Theorem C08_floats_accepts_judge_answer : forall parse mode eps judge,
  In mode [B "absolute"; B "relative"; B "default"] ->
  finite eps -> (0 <= real eps <= 1)%R ->
  (forall l t x, In l (nonempty_lines judge) -> In t (words l) -> parse t = Some x -> finite x) ->
  floats_check parse judge judge eps mode = RBool true.
Proof. exact Proofs.Floats.self_accept. Qed.
Print Assumptions C08_floats_accepts_judge_answer.

(** Nothing is accepted against a judge token that parses as NaN, in any mode. *)
Theorem C08_floats_nan_rejected : forall parse mode eps process judge,
  floats_check parse process judge eps mode = RBool true ->
  forall l t, In l (nonempty_lines judge) -> In t (words l) -> parse t <> Some B754_nan.
Proof. exact Proofs.Floats.nan_reject. Qed.
Print Assumptions C08_floats_nan_rejected.

(** The two named checkers are the absolute and the relative rule. *)
Theorem C08_named_checkers : forall parse process judge eps,
  (floatsabs_check parse process judge eps = RBool true <-> floats_accept parse (ieee_absolute eps) process judge) /\
  (floatsrel_check parse process judge eps = RBool true <-> floats_accept parse (ieee_relative eps) process judge).
Proof.
  exact (fun parse p j eps => conj (Proofs.Floats.decides_absolute parse p j eps) (Proofs.Floats.decides_relative parse p j eps)).
Qed.
Print Assumptions C08_named_checkers.

(** Executable instances: a toy float() that knows a few literals. *)
Definition lit (m e : Z) : double := @binary_normalize 53 1024 eq_refl eq_refl mode_NE m e false.
Definition toy (t : bytes) : option double :=
  if beqb t (B "1") then Some (lit 1 0)
  else if beqb t (B "1.0000001") then Some (lit 4503600077730496 (-52))
  else if beqb t (B "1.5") then Some (lit 3 (-1))
  else if beqb t (B "inf") then Some (B754_infinity false)
  else if beqb t (B "nan") then Some B754_nan
  else if beqb t (B "1.7e308") then Some (lit 17 1019)
  else None.
Definition eps1e6 : double := lit 4722366482869645 (-72).

Example C08_ex_accept : floats_check toy (B "case 1.0000001
1.5") (B "case 1

1.5 ") eps1e6 (B "default") = RBool true.
Proof. vm_compute. reflexivity. Qed.
Example C08_ex_reject_value : floats_check toy (B "1.5") (B "1") eps1e6 (B "default") = RBool false.
Proof. vm_compute. reflexivity. Qed.
Example C08_ex_reject_word : floats_check toy (B "Case 1") (B "case 1") eps1e6 (B "default") = RBool false.
Proof. vm_compute. reflexivity. Qed.
Example C08_ex_reject_tokens : floats_check toy (B "1 1") (B "1") eps1e6 (B "relative") = RBool false.
Proof. vm_compute. reflexivity. Qed.
Example C08_ex_bad_mode : floats_check toy (B "1") (B "1") eps1e6 (B "abs") = RInternalError.
Proof. vm_compute. reflexivity. Qed.

(** Findings.  A judge answer with an infinite token is not accepted against itself in
    the absolute and default modes; the relative mode accepts "inf" for a finite judge
    answer close to the overflow threshold; with precision 0 the default mode accepts
    any finite answer when the judge's is infinite. *)
Theorem C08_infinite_self_refuted : exists parse judge eps,
  floats_check parse judge judge eps (B "default") = RBool false /\
  floats_check parse judge judge eps (B "absolute") = RBool false.
Proof. exists toy, (B "inf"), eps1e6. vm_compute. split; reflexivity. Qed.
Print Assumptions C08_infinite_self_refuted.
Theorem C09_relative_overflow_refuted : exists parse process judge eps pf jf,
  parse process = Some pf /\ parse judge = Some jf /\ ~ finite pf /\ finite jf /\
  floats_check parse process judge eps (B "relative") = RBool true.
Proof.
  exists toy, (B "inf"), (B "1.7e308"), one64, (B754_infinity false), (lit 17 1019).
  split; [reflexivity|]. split; [reflexivity|]. split; [discriminate|]. split; [vm_compute; reflexivity|]. vm_compute. reflexivity.
Qed.
Print Assumptions C09_relative_overflow_refuted.
Theorem C09_default_infinite_judge_refuted : exists parse process judge eps pf jf,
  parse process = Some pf /\ parse judge = Some jf /\ finite pf /\ ~ finite jf /\ finite eps /\ (real eps = 1)%R /\
  floats_check parse process judge eps (B "default") = RBool true.
Proof.
  exists toy, (B "1"), (B "inf"), one64, (lit 1 0), (B754_infinity false).
  repeat (split; [first [reflexivity | discriminate | apply Proofs.FloatArith.one_real]|]). vm_compute. reflexivity.
Qed.
Print Assumptions C09_default_infinite_judge_refuted.

(** C09: over the reals, for finite numbers.  Absolute mode: everything within the
    tolerance is accepted, nothing further than one rounding beyond it is. *)
Theorem C09_absolute_tolerance : forall parse eps process judge, finite eps ->
  (floats_accept parse (within (real eps)) process judge ->
     floats_check parse process judge eps (B "absolute") = RBool true) /\
  (floats_check parse process judge eps (B "absolute") = RBool true ->
     floats_accept parse (within (real eps * (1 + u53))) process judge).
Proof. exact Proofs.Floats.absolute_sandwich. Qed.
Print Assumptions C09_absolute_tolerance.

(** Relative mode, tolerance at most 1: exact up to 8 units of rounding (2^-50). *)
Theorem C09_relative_tolerance : forall parse eps process judge, finite eps -> (0 <= real eps <= 1)%R ->
  (floats_accept parse (within_rel (real eps - 8 * u53) (- tiny)) process judge ->
     floats_check parse process judge eps (B "relative") = RBool true) /\
  (floats_check parse process judge eps (B "relative") = RBool true ->
     floats_accept parse (fun x y => finite y -> (Rabs (real y) < bpow radix2 1022)%R ->
                                     within_rel (real eps + 8 * u53) tiny x y) process judge).
Proof. exact Proofs.Floats.relative_sandwich. Qed.
Print Assumptions C09_relative_tolerance.

(** Default mode: absolute error, or relative error when |judge| >= tolerance. *)
Theorem C09_default_tolerance : forall parse eps process judge, finite eps -> (0 <= real eps <= 1)%R ->
  (floats_accept parse (fun x y => within (real eps) x y \/
       ((real eps <= Rabs (real y))%R /\ (real y <> 0)%R /\ within_rel (real eps - 8 * u53) 0 x y)) process judge ->
     floats_check parse process judge eps (B "default") = RBool true) /\
  (floats_check parse process judge eps (B "default") = RBool true ->
     floats_accept parse (fun x y => finite y ->
       within (real eps * (1 + u53)) x y \/
       ((real eps <= Rabs (real y))%R /\ within_rel (real eps + 8 * u53) 0 x y)) process judge).
Proof. exact Proofs.Floats.default_sandwich. Qed.
Print Assumptions C09_default_tolerance.

Example C09_ex_eps_finite : finite eps1e6 /\ finite (lit 1 0).
Proof. split; vm_compute; reflexivity. Qed.
Example C09_ex_relative : floats_check toy (B "1.0000001") (B "1") eps1e6 (B "relative") = RBool true.
Proof. vm_compute. reflexivity. Qed.
