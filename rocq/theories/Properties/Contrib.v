(** Property theorems for the exit-code protocols of helper programs (C10, C11). *)
From Coq Require Import String QArith Qround Reals.
From Coq Require Floats.SpecFloat.
From Flocq Require Import Core.Core IEEE754.BinarySingleNaN.
From Verif Require Import Model.Bytes Model.Floats Model.Contrib Spec.Text Spec.Contrib Spec.Floats Spec.Peg.
From Verif Require Proofs.Contrib Proofs.Peg.
Local Open Scope nat_scope.
Local Open Scope list_scope.

(** A result never leaves [0, points], a failed one awards exactly 0, and the
    protocols always answer: a verdict or an internal error, never nothing. *)
Definition bounded_verdict (pv : Q) (o : outcome Q) : Prop :=
  match o with
  | Verdict true p _ => (0 <= p /\ p <= pv)%Q
  | Verdict false p _ => p = 0%Q
  | InternalError => True
  | Boolean _ | ReturnsNone => False
  end.

Theorem C10_points_bounded : forall rnd proc pv fb err, (0 <= pv)%Q -> rounding rnd pv ->
  bounded_verdict pv (default_parse proc pv fb) /\
  bounded_verdict pv (testlib_parse proc pv fb err) /\
  bounded_verdict pv (coci_parse rnd proc pv fb err).
Proof.
  exact (fun rnd proc pv fb err H R => conj (Proofs.Contrib.default_sound proc pv fb H)
    (conj (Proofs.Contrib.testlib_sound proc pv fb err H) (Proofs.Contrib.coci_sound rnd proc pv fb err H R))).
Qed.
Print Assumptions C10_points_bounded.

(** What each exit code means; a code outside the protocol, or death by signal (a
    negative code), is an internal error whatever else is known about the helper. *)
Theorem C10_default_exit_codes : forall proc pv fb,
  (returncode proc = 0%Z -> default_parse proc pv fb = Verdict true pv (Some fb)) /\
  (returncode proc = 1%Z -> default_parse proc pv fb = Verdict false 0%Q (Some fb)) /\
  (returncode proc <> 0%Z -> returncode proc <> 1%Z -> default_parse proc pv fb = InternalError).
Proof. exact Proofs.Contrib.default_codes. Qed.
Print Assumptions C10_default_exit_codes.

Theorem C10_testlib_exit_codes : forall proc pv fb err,
  (returncode proc = 0%Z -> testlib_parse proc pv fb err = Verdict true pv (Some fb)) /\
  (returncode proc = 1%Z -> testlib_parse proc pv fb err = Verdict false 0%Q (Some fb)) /\
  (returncode proc = 2%Z -> fb <> [] -> testlib_parse proc pv fb err = Verdict false 0%Q (Some fb)) /\
  (returncode proc = 2%Z -> fb = [] -> testlib_parse proc pv fb err = Verdict false 0%Q (Some (ascii_bytes "Presentation Error"))) /\
  (~ In (returncode proc) [0; 1; 2; 7]%Z -> testlib_parse proc pv fb err = InternalError).
Proof. exact Proofs.Contrib.testlib_codes. Qed.
Print Assumptions C10_testlib_exit_codes.

(** Exit code 7 of testlib: the first line "points N" decides, and N above the case's
    points, or no such line, is an internal error. *)
Theorem C10_testlib_partial_points : forall proc pv fb err, returncode proc = 7%Z -> (0 <= pv)%Q ->
  (forall n, first_line says_points err n -> (inject_Z n <= pv)%Q ->
     testlib_parse proc pv fb err = Verdict true (inject_Z n) (Some fb)) /\
  (forall n, first_line says_points err n -> (~ inject_Z n <= pv)%Q -> testlib_parse proc pv fb err = InternalError) /\
  (no_line says_points err -> testlib_parse proc pv fb err = InternalError).
Proof. exact Proofs.Contrib.testlib_partial. Qed.
Print Assumptions C10_testlib_partial_points.

(** coci differs from testlib only in exit code 7, where the first line
    "partial N/D" with D nonzero gives the fraction. *)
Theorem C10_coci_other_codes : forall rnd proc pv fb err, returncode proc <> 7%Z ->
  coci_parse rnd proc pv fb err = testlib_parse proc pv fb err.
Proof. exact Proofs.Contrib.coci_codes. Qed.
Print Assumptions C10_coci_other_codes.

Theorem C10_coci_partial_points : forall rnd proc pv fb err, returncode proc = 7%Z ->
  (forall n d, first_line says_ratio err (n, d) ->
     (0 <= rnd (inject_Z n / inject_Z d) <= 1)%Q ->
     coci_parse rnd proc pv fb err = Verdict true (rnd (rnd (inject_Z n / inject_Z d) * pv))%Q (Some fb)) /\
  (forall n d, first_line says_ratio err (n, d) ->
     ~ (0 <= rnd (inject_Z n / inject_Z d) <= 1)%Q -> coci_parse rnd proc pv fb err = InternalError) /\
  (no_line says_ratio err -> coci_parse rnd proc pv fb err = InternalError).
Proof. exact Proofs.Contrib.coci_partial. Qed.
Print Assumptions C10_coci_partial_points.

Definition nl : bytes := [10%N].
Example C10_ex_testlib : testlib_parse (Helper 7 true true true) 10 (B "half") (B "hello" ++ nl ++ B "points 004" ++ nl)
  = Verdict true (4 # 1) (Some (B "half")).
Proof. vm_compute. reflexivity. Qed.
Example C10_ex_testlib_too_many : testlib_parse (Helper 7 false false false) 10 (B "half") (B "points 11") = InternalError.
Proof. vm_compute. reflexivity. Qed.
Example C10_ex_coci : coci_parse (fun q => q) (Helper 7 false false false) 10 [] (B "partial 3/0" ++ nl ++ B "partial 3/5") = Verdict true (30 # 5) (Some []).
Proof. vm_compute. reflexivity. Qed.
Example C10_ex_signal : default_parse (Helper (-11) false false false) 10 [] = InternalError.
Proof. reflexivity. Qed.
Example C10_ex_first_line : first_line says_points (B "x" ++ nl ++ B "points 4") 4%Z.
Proof.
  exists [B "x"], (B "points 4"), []. split; [reflexivity|]. split.
  - exists [52%N]. split; [reflexivity|]. split; [split; [discriminate|repeat constructor; discriminate]|].
    change [52%N] with ([] ++ [52%N]). change 4%Z with (10 * 0 + (Z.of_N 52 - 48))%Z. repeat constructor; discriminate.
  - intros l' [<-|[]] x' [ds [E _]]. discriminate.
Qed.
(** A rounding that is not the identity: down to a multiple of 1/2. *)
Definition down_half (q : Q) : Q := (inject_Z (Qfloor (q * 2)) / 2)%Q.
Example C10_ex_rounding : rounding down_half 10 /\ ~ (down_half (3 # 5) == (3 # 5))%Q.
Proof.
  split; [|discriminate]. repeat split; try reflexivity. intros x y H. unfold down_half.
  apply Qmult_le_compat_r; [|discriminate]. rewrite <- Zle_Qle. apply Qfloor_resp_le, Qmult_le_compat_r; [exact H|discriminate].
Qed.
Example C10_ex_coci_rounded : coci_parse down_half (Helper 7 false false false) 10 [] (B "partial 3/5")
  = Verdict true (down_half (down_half (3 # 5) * 10)) (Some []).
Proof. vm_compute. reflexivity. Qed.

(** ** C11: peg *)
(** Full statement: forall parse proc pv fb, finite pv -> 0 <= real pv -> the points of
    [peg_parse parse proc pv fb] lie in [0, real pv].  It is false: the helper's own
    feedback may claim any ratio. *)
Definition peg_lit (m e : Z) : double := @binary_normalize 53 1024 eq_refl eq_refl mode_NE m e false.
Definition peg_toy (t : bytes) : option double :=
  if beqb t (B "3") then Some (peg_lit 3 0) else if beqb t (B "1") then Some (peg_lit 1 0)
  else if beqb t (B "4") then Some (peg_lit 4 0) else None.
Theorem C11_peg_bounded_refuted : exists proc fb p,
  peg_parse peg_toy proc (peg_lit 10 0) fb = Verdict true p None /\
  Bltb (peg_lit 10 0) p = true /\ B2SF p = B2SF (peg_lit 30 0).
Proof.
  exists (Helper 1 false false false), (B "3" ++ nl ++ B "1"), (times64 (peg_lit 10 0) (over64 (peg_lit 3 0) (peg_lit 1 0))).
  repeat split; vm_compute; reflexivity.
Qed.
Print Assumptions C11_peg_bounded_refuted.

(** What holds: the points are within bounds as long as every pair of consecutive
    numeric lines is finite with quotient at most 1.  Missing: quotients above 1. *)
Theorem C11_peg_bounded_partial : forall parse pv proc fb,
  finite pv -> (0 <= real pv)%R ->
  (forall pre a b post x y, lf_lines fb = pre ++ a :: b :: post -> parse a = Some x -> parse b = Some y ->
     finite x /\ finite y /\ (real y <> 0 -> real x / real y <= 1)%R) ->
  match peg_parse parse proc pv fb with
  | Verdict passed p _ => finite p /\ (0 <= real p <= real pv)%R
  | Boolean _ | InternalError => True
  | ReturnsNone => False
  end.
Proof. exact Proofs.Peg.peg_bounded. Qed.
Print Assumptions C11_peg_bounded_partial.

(** Exit codes, and which pair of lines is used: the first with a positive quotient. *)
Theorem C11_peg_exit_codes : forall parse proc pv fb,
  (returncode proc = 0%Z -> peg_parse parse proc pv fb = Boolean true) /\
  (returncode proc <> 0%Z -> returncode proc <> 1%Z -> peg_parse parse proc pv fb = InternalError) /\
  (returncode proc = 1%Z ->
     (forall pre a b post q, lf_lines fb = pre ++ a :: b :: post -> positive_ratio parse a b q ->
        (forall i x y, nth_error (pre ++ [a]) i = Some x -> nth_error (pre ++ [a]) (S i) = Some y ->
           forall q', ~ positive_ratio parse x y q') ->
        peg_parse parse proc pv fb = Verdict true (times64 pv q) None) /\
     ((forall pre a b post, lf_lines fb = pre ++ a :: b :: post -> forall q, ~ positive_ratio parse a b q) ->
        peg_parse parse proc pv fb = Boolean false)).
Proof. exact Proofs.Peg.peg_codes. Qed.
Print Assumptions C11_peg_exit_codes.

Definition peg_points (o : outcome f64) : option SpecFloat.spec_float :=
  match o with Verdict true p None => Some (B2SF p) | _ => None end.
Example C11_ex_partial_holds : peg_points (peg_parse peg_toy (Helper 1 false false false) (peg_lit 10 0)
    (B "ratio" ++ nl ++ B "3" ++ nl ++ B "4" ++ nl ++ B "end")) = Some (B2SF (peg_lit 15 (-1))).
Proof. vm_compute. reflexivity. Qed.
Example C11_ex_zero : peg_parse peg_toy (Helper 1 false false false) (peg_lit 10 0) (B "wrong") = Boolean false.
Proof. vm_compute. reflexivity. Qed.
(** The hypotheses of C11_peg_bounded_partial are met by a feedback of two numbers. *)
Example C11_ex_partial_hyps : forall pre a b post x y, lf_lines (B "1" ++ nl ++ B "1") = pre ++ a :: b :: post ->
  peg_toy a = Some x -> peg_toy b = Some y -> finite x /\ finite y /\ (real y <> 0 -> real x / real y <= 1)%R.
Proof.
  intros [|p pre] a b post x y E Ex Ey.
  - assert (a = B "1" /\ b = B "1") as [-> ->] by (cbn in E; injection E as <- <- _; split; reflexivity).
    assert (peg_toy (B "1") = Some (peg_lit 1 0)) as Et by reflexivity.
    rewrite Et in Ex, Ey. assert (finite (peg_lit 1 0)) as F by (vm_compute; reflexivity).
    injection Ex as <-. injection Ey as <-. split; [exact F|]. split; [exact F|].
    generalize (real (peg_lit 1 0)). intros r H. unfold Rdiv. rewrite (Rinv_r _ H). apply Rle_refl.
  - exfalso. apply (f_equal (@length _)) in E. cbn in E. rewrite app_length in E. cbn in E. lia.
Qed.
