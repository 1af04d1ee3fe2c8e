(** Rounding-error facts about the three verifiers. *)
From Coq Require Import Bool Reals Lra Psatz.
From Coq Require Import Floats.SpecFloat.
From Flocq Require Import Core.Core IEEE754.BinarySingleNaN Relative Plus_error.
From Verif Require Import Model.Floats Spec.Floats.
Local Open Scope R_scope.

Local Existing Instance prec53.
Local Existing Instance emax1024.
Notation fx := (FLT_exp (-1074) 53).
Notation rnd := (round radix2 fx ZnearestE).
Notation fmt := (generic_format radix2 fx).

Lemma fmt_B2R (x : double) : fmt (B2R x).
Proof. apply (generic_format_B2R 53 1024 x). Qed.
Lemma B2R_lt (x : double) : Rabs (B2R x) < bpow radix2 1024.
Proof. apply (abs_B2R_lt_emax 53 1024 x). Qed.

Lemma round_abs_le x y : fmt y -> Rabs x <= y -> Rabs (rnd x) <= y.
Proof. intros Hy H. apply abs_round_le_generic; auto with typeclass_instances. Qed.

Lemma u53_pos : 0 < u53. Proof. unfold u53. apply Rinv_0_lt_compat, pow_lt. lra. Qed.
Lemma u53_small : u53 <= / 1024.
Proof.
  unfold u53. apply Rinv_le; [lra|].
  replace 1024 with (2 ^ 10) by (cbn; ring). apply Rle_pow; [lra|repeat constructor].
Qed.
Lemma u_ro_eq : u_ro radix2 53 = u53.
Proof.
  unfold u_ro, u53. change (bpow radix2 (-53 + 1)) with (/ IZR (2 ^ 52)).
  rewrite pow_IZR. change (2 ^ Z.of_nat 53)%Z with (2 * 2 ^ 52)%Z. rewrite mult_IZR.
  rewrite Rinv_mult. reflexivity.
Qed.
Lemma tiny_pos : 0 < tiny. Proof. apply bpow_gt_0. Qed.
Lemma tiny_le_u : tiny <= u53.
Proof.
  unfold tiny. rewrite <- u_ro_eq. unfold u_ro.
  replace (/ 2) with (bpow radix2 (-1)) by reflexivity. rewrite <- bpow_plus. apply bpow_le. lia.
Qed.

(** Sums and differences: one relative error, even in the subnormal range. *)
Lemma add_err x y : fmt x -> fmt y ->
  exists d, Rabs d <= u53 /\ rnd (x + y) = (x + y) * (1 + d).
Proof.
  intros Hx Hy. destruct (FLT_plus_error_N_ex radix2 (-1074) 53 (fun x => negb (Z.even x)) x y Hx Hy) as [d [Hd E]].
  exists d. split; [|exact E]. rewrite u_ro_eq in Hd.
  eapply Rle_trans; [exact Hd|]. pose proof u53_pos. apply Rmult_le_reg_r with (1 + u53); [lra|].
  unfold Rdiv. rewrite Rmult_assoc, Rinv_l by lra. nra.
Qed.
Lemma add_err' x y : fmt x -> fmt y ->
  exists d, Rabs d <= u53 /\ x + y = rnd (x + y) * (1 + d).
Proof.
  intros Hx Hy. destruct (FLT_plus_error_N_round_ex radix2 (-1074) 53 (fun x => negb (Z.even x)) x y Hx Hy) as [d [Hd E]].
  rewrite u_ro_eq in Hd. eauto.
Qed.
Lemma sub_err' x y : fmt x -> fmt y ->
  exists d, Rabs d <= u53 /\ x - y = rnd (x - y) * (1 + d).
Proof. intros Hx Hy. apply (add_err' x (- y)); [exact Hx|apply generic_format_opp, Hy]. Qed.
Lemma sub_err x y : fmt x -> fmt y ->
  exists d, Rabs d <= u53 /\ rnd (x - y) = (x - y) * (1 + d).
Proof. intros Hx Hy. apply (add_err x (- y)); [exact Hx|apply generic_format_opp, Hy]. Qed.
(** Products and quotients: relative error plus underflow. *)
Lemma gen_err x : exists d h, Rabs d <= u53 /\ Rabs h <= tiny /\ rnd x = x * (1 + d) + h.
Proof.
  destruct (error_N_FLT radix2 (-1074) 53 ltac:(lia) (fun x => negb (Z.even x)) x) as [d [h [Hd [Hh [_ E]]]]].
  exists d, h. fold (u_ro radix2 53) in Hd. rewrite u_ro_eq in Hd. split; [exact Hd|]. split; [|exact E].
  pose proof tiny_pos. unfold tiny in *. lra.
Qed.

(** *** The machine operations *)
Lemma fx_eq : SpecFloat.fexp 53 1024 = fx. Proof. reflexivity. Qed.

Lemma sub_finite (p j : double) : finite p -> finite j ->
  Rabs (rnd (real p - real j)) < bpow radix2 1024 ->
  finite (f_sub p j) /\ real (f_sub p j) = rnd (real p - real j).
Proof.
  unfold finite, real. intros Hp Hj Hb. pose proof (Bminus_correct 53 1024 _ _ mode_NE p j Hp Hj) as H.
  cbn [round_mode] in H. change (SpecFloat.fexp 53 1024) with fx in H.
  rewrite Rlt_bool_true in H by exact Hb. destruct H as [E [F _]]. split; assumption.
Qed.
Lemma add_finite (p j : double) : finite p -> finite j ->
  Rabs (rnd (real p + real j)) < bpow radix2 1024 ->
  finite (f_add p j) /\ real (f_add p j) = rnd (real p + real j).
Proof.
  unfold finite, real. intros Hp Hj Hb. pose proof (Bplus_correct 53 1024 _ _ mode_NE p j Hp Hj) as H.
  cbn [round_mode] in H. change (SpecFloat.fexp 53 1024) with fx in H.
  rewrite Rlt_bool_true in H by exact Hb. destruct H as [E [F _]]. split; assumption.
Qed.
Lemma not_lt_bool x y : ~ x < y -> Rlt_bool x y = false.
Proof. intros H. apply Rlt_bool_false. lra. Qed.
Lemma B2SF_inf (x : double) s : B2SF x = S754_infinity s -> x = B754_infinity s.
Proof. destruct x; cbn; congruence. Qed.

Lemma sub_overflow (p j : double) : finite p -> finite j ->
  ~ Rabs (rnd (real p - real j)) < bpow radix2 1024 ->
  exists s, f_sub p j = B754_infinity s.
Proof.
  unfold finite, real. intros Hp Hj Hb. pose proof (Bminus_correct 53 1024 _ _ mode_NE p j Hp Hj) as H.
  cbn [round_mode] in H. change (SpecFloat.fexp 53 1024) with fx in H.
  rewrite not_lt_bool in H by exact Hb. destruct H as [E _]. exists (Bsign p). apply B2SF_inf. exact E.
Qed.
Lemma mul_finite (p j : double) : finite p -> finite j ->
  Rabs (rnd (real p * real j)) < bpow radix2 1024 ->
  finite (f_mul p j) /\ real (f_mul p j) = rnd (real p * real j).
Proof.
  unfold finite, real. intros Hp Hj Hb. pose proof (Bmult_correct 53 1024 _ _ mode_NE p j) as H.
  cbn [round_mode] in H. change (SpecFloat.fexp 53 1024) with fx in H.
  rewrite Rlt_bool_true in H by exact Hb. destruct H as [E [F _]]. unfold f_mul. rewrite F, Hp, Hj. auto.
Qed.
Lemma mul_overflow (p j : double) :
  ~ Rabs (rnd (real p * real j)) < bpow radix2 1024 ->
  f_mul p j = B754_infinity (xorb (Bsign p) (Bsign j)).
Proof.
  unfold real. intros Hb. pose proof (Bmult_correct 53 1024 _ _ mode_NE p j) as H.
  cbn [round_mode] in H. change (SpecFloat.fexp 53 1024) with fx in H.
  rewrite not_lt_bool in H by exact Hb. apply B2SF_inf. exact H.
Qed.
Lemma div_finite (p j : double) : finite p -> real j <> 0 ->
  Rabs (rnd (real p / real j)) < bpow radix2 1024 ->
  finite (f_div p j) /\ real (f_div p j) = rnd (real p / real j).
Proof.
  unfold finite, real. intros Hp Hj Hb. pose proof (Bdiv_correct 53 1024 _ _ mode_NE p j Hj) as H.
  cbn [round_mode] in H. change (SpecFloat.fexp 53 1024) with fx in H.
  rewrite Rlt_bool_true in H by exact Hb. destruct H as [E [F _]]. unfold f_div. rewrite F, Hp. auto.
Qed.
Lemma div_overflow (p j : double) : real j <> 0 ->
  ~ Rabs (rnd (real p / real j)) < bpow radix2 1024 ->
  f_div p j = B754_infinity (xorb (Bsign p) (Bsign j)).
Proof.
  unfold real. intros Hj Hb. pose proof (Bdiv_correct 53 1024 _ _ mode_NE p j Hj) as H.
  cbn [round_mode] in H. change (SpecFloat.fexp 53 1024) with fx in H.
  rewrite not_lt_bool in H by exact Hb. apply B2SF_inf. exact H.
Qed.

Lemma le_real (x y : double) : finite x -> finite y -> (f_le x y = true <-> real x <= real y).
Proof.
  unfold finite, f_le, real. intros Hx Hy. rewrite (Bleb_correct 53 1024 x y Hx Hy).
  split; intros H; [destruct (Rle_bool_spec (B2R x) (B2R y)); congruence|apply Rle_bool_true, H].
Qed.
Lemma lt_real (x y : double) : finite x -> finite y -> (f_lt x y = true <-> real x < real y).
Proof.
  unfold finite, f_lt, real. intros Hx Hy. rewrite (Bltb_correct 53 1024 x y Hx Hy).
  split; intros H; [destruct (Rlt_bool_spec (B2R x) (B2R y)); congruence|apply Rlt_bool_true, H].
Qed.
Lemma abs_finite (x : double) : finite x -> finite (f_abs x).
Proof. unfold finite, f_abs. now rewrite is_finite_Babs. Qed.
Lemma abs_real (x : double) : real (f_abs x) = Rabs (real x).
Proof. unfold real, f_abs. apply B2R_Babs. Qed.
Lemma le_abs_inv (x y : double) : finite y -> f_le (f_abs x) y = true -> finite x.
Proof. unfold finite. destruct x, y; cbn; congruence. Qed.

Lemma sub_finite_inv (p j : double) : finite (f_sub p j) -> finite p /\ finite j.
Proof. unfold finite. destruct p as [|[]| |], j as [|[]| |]; cbn; intros; auto; discriminate. Qed.

(** *** absolute mode *)
Lemma absolute_complete (p j eps : double) : finite eps ->
  within (real eps) p j -> f_le (f_abs (f_sub p j)) eps = true.
Proof.
  intros He [Hp [Hj H]].
  assert (Rabs (rnd (real p - real j)) <= real eps) as Hr.
  { apply round_abs_le; [apply fmt_B2R|exact H]. }
  destruct (sub_finite p j Hp Hj) as [F E].
  { eapply Rle_lt_trans; [exact Hr|]. eapply Rle_lt_trans; [apply Rle_abs|apply B2R_lt]. }
  apply le_real; [apply abs_finite, F|exact He|]. rewrite abs_real, E. exact Hr.
Qed.
Lemma absolute_sound (p j eps : double) : finite eps ->
  f_le (f_abs (f_sub p j)) eps = true -> within (real eps * (1 + u53)) p j.
Proof.
  intros He H. pose proof (le_abs_inv _ _ He H) as F. destruct (sub_finite_inv _ _ F) as [Hp Hj].
  split; [exact Hp|]. split; [exact Hj|].
  apply le_real in H; [|apply abs_finite, F|exact He]. rewrite abs_real in H.
  destruct (Rlt_le_dec (Rabs (rnd (real p - real j))) (bpow radix2 1024)) as [L|L].
  - destruct (sub_finite p j Hp Hj L) as [_ E]. rewrite E in H.
    destruct (sub_err' (real p) (real j) (fmt_B2R p) (fmt_B2R j)) as [d [Hd E']]. rewrite E'.
    rewrite Rabs_mult. pose proof u53_pos. apply Rmult_le_compat; try apply Rabs_pos; [exact H|].
    eapply Rle_trans; [apply Rabs_triang|]. rewrite Rabs_R1. lra.
  - destruct (sub_overflow p j Hp Hj) as [s E]; [lra|]. rewrite E in F. discriminate F.
Qed.

(** *** relative mode *)
Lemma one_real : real f_one = 1.
Proof. unfold real, f_one. apply Bone_correct. Qed.
Lemma one_finite : finite f_one.
Proof. unfold finite, f_one. apply is_finite_Bone. Qed.

Lemma fmt_1 : fmt 1. Proof. rewrite <- one_real. apply fmt_B2R. Qed.
Lemma fmt_2 : fmt 2.
Proof. change 2 with (bpow radix2 1). apply generic_format_bpow. unfold FLT_exp. lia. Qed.
Lemma lt_1024 x : Rabs x <= 2 -> Rabs x < bpow radix2 1024.
Proof. intros H. eapply Rle_lt_trans; [exact H|]. change 2 with (bpow radix2 1). apply bpow_lt. lia. Qed.

Section Rel.
  Variables (j eps : double).
  Hypothesis He : finite eps.
  Hypothesis He0 : 0 <= real eps <= 1.

  Lemma lo_factor : finite (f_sub f_one eps) /\ 0 <= real (f_sub f_one eps) <= 1 /\
    exists d, Rabs d <= u53 /\ real (f_sub f_one eps) = (1 - real eps) * (1 + d).
  Proof using He He0.
    assert (Rabs (rnd (real f_one - real eps)) <= 1) as Hb.
    { apply round_abs_le; [apply fmt_1|]. rewrite one_real. rewrite Rabs_pos_eq; lra. }
    destruct (sub_finite f_one eps one_finite He) as [F E]; [apply lt_1024; lra|].
    split; [exact F|]. split.
    - rewrite E. split.
      + apply round_ge_generic; auto with typeclass_instances; [apply generic_format_0|]. rewrite one_real. lra.
      + pose proof (Rle_abs (rnd (real f_one - real eps))). lra.
    - destruct (sub_err (real f_one) (real eps) (fmt_B2R _) (fmt_B2R _)) as [d [Hd Ed]].
      exists d. split; [exact Hd|]. rewrite E, Ed, one_real. reflexivity.
  Qed.
  Lemma hi_factor : finite (f_add f_one eps) /\ 1 <= real (f_add f_one eps) <= 2 /\
    exists d, Rabs d <= u53 /\ real (f_add f_one eps) = (1 + real eps) * (1 + d).
  Proof using He He0.
    assert (Rabs (rnd (real f_one + real eps)) <= 2) as Hb.
    { apply round_abs_le; [apply fmt_2|]. rewrite one_real. rewrite Rabs_pos_eq; lra. }
    destruct (add_finite f_one eps one_finite He) as [F E]; [apply lt_1024; lra|].
    split; [exact F|]. split.
    - rewrite E. split.
      + apply round_ge_generic; auto with typeclass_instances; [apply fmt_1|]. rewrite one_real. lra.
      + pose proof (Rle_abs (rnd (real f_one + real eps))). lra.
    - destruct (add_err (real f_one) (real eps) (fmt_B2R _) (fmt_B2R _)) as [d [Hd Ed]].
      exists d. split; [exact Hd|]. rewrite E, Ed, one_real. reflexivity.
  Qed.

  Definition lo := f_mul j (f_sub f_one eps).
  Definition hi := f_mul j (f_add f_one eps).
  Hypothesis Hj : finite j.

  (** A product of [j] with a slightly perturbed factor [c] in [0,2]. *)
  Lemma prod_err c d x : 0 <= c <= 2 -> Rabs d <= u53 ->
    x = c * (1 + d) -> Rabs (rnd (real j * x) - real j * c) <= 8 * u53 * Rabs (real j) + tiny.
  Proof using.
    intros Hc Hd ->. destruct (gen_err (real j * (c * (1 + d)))) as [d2 [h [Hd2 [Hh ->]]]].
    replace (real j * (c * (1 + d)) * (1 + d2) + h - real j * c) with (real j * c * (d + d2 + d * d2) + h) by ring.
    eapply Rle_trans; [apply Rabs_triang|]. apply Rplus_le_compat; [|exact Hh].
    rewrite !Rabs_mult, (Rabs_pos_eq c) by lra.
    pose proof u53_pos. pose proof u53_small. pose proof (Rabs_pos (real j)).
    assert (Rabs (d + d2 + d * d2) <= 3 * u53) as Hs.
    { eapply Rle_trans; [apply Rabs_triang|]. eapply Rle_trans; [apply Rplus_le_compat_r, Rabs_triang|].
      rewrite Rabs_mult. pose proof (Rabs_pos d). pose proof (Rabs_pos d2). nra. }
    pose proof (Rabs_pos (d + d2 + d * d2)). 
    apply Rle_trans with (Rabs (real j) * 2 * (3 * u53)); [|nra].
    apply Rmult_le_compat; [nra|assumption| |assumption]. apply Rmult_le_compat_l; lra.
  Qed.

  Lemma lo_spec : finite lo /\ Rabs (real lo - real j * (1 - real eps)) <= 8 * u53 * Rabs (real j) + tiny.
  Proof using He He0 Hj.
    destruct lo_factor as [F [B [d [Hd E]]]].
    destruct (mul_finite j (f_sub f_one eps) Hj F) as [Fm Em].
    { eapply Rle_lt_trans; [|apply (B2R_lt j)]. apply round_abs_le; [apply generic_format_abs, fmt_B2R|].
      rewrite Rabs_mult, (Rabs_pos_eq (real (f_sub f_one eps))) by lra. fold (real j).
      pose proof (Rabs_pos (real j)). nra. }
    split; [exact Fm|]. unfold lo. rewrite Em. apply prod_err with d; [lra|exact Hd|exact E].
  Qed.
  Lemma hi_spec : Rabs (rnd (real j * real (f_add f_one eps))) < bpow radix2 1024 ->
    finite hi /\ Rabs (real hi - real j * (1 + real eps)) <= 8 * u53 * Rabs (real j) + tiny.
  Proof using He He0 Hj.
    intros Hlt. destruct hi_factor as [F [B [d [Hd E]]]].
    destruct (mul_finite j (f_add f_one eps) Hj F Hlt) as [Fm Em].
    split; [exact Fm|]. unfold hi. rewrite Em. apply prod_err with d; [lra|exact Hd|exact E].
  Qed.
  Lemma hi_over : ~ Rabs (rnd (real j * real (f_add f_one eps))) < bpow radix2 1024 ->
    hi = B754_infinity (Bsign j) /\ real j <> 0.
  Proof using He He0 Hj.
    intros Hlt. split.
    - destruct hi_factor as [F [B _]]. unfold hi. rewrite mul_overflow by exact Hlt. f_equal.
      assert (Bsign (f_add f_one eps) = false) as ->; [|apply xorb_false_r].
      unfold real in B. clear Hlt. destruct (f_add f_one eps) as [s|s| |[|] m e Hm]; cbn in *; try lra; try reflexivity; try discriminate F.
      exfalso. assert (F2R (beta := radix2) {| Fnum := Z.neg m; Fexp := e |} < 0); [|lra]. apply F2R_lt_0. reflexivity.
    - intros H. rewrite H in Hlt. rewrite Rmult_0_l, round_0, Rabs_R0 in Hlt; auto with typeclass_instances.
      apply Hlt, bpow_gt_0.
  Qed.
  Lemma hi_no_over : Rabs (real j) < bpow radix2 1022 ->
    Rabs (rnd (real j * real (f_add f_one eps))) < bpow radix2 1024.
  Proof using He He0 Hj.
    intros Hs. destruct hi_factor as [F [B _]].
    apply Rle_lt_trans with (bpow radix2 1023); [|apply bpow_lt; lia].
    apply round_abs_le; [apply generic_format_bpow; unfold FLT_exp; lia|].
    change (bpow radix2 1023) with (bpow radix2 (1022 + 1)). rewrite bpow_plus. change (bpow radix2 1) with 2.
    rewrite Rabs_mult, (Rabs_pos_eq (real (f_add f_one eps))) by lra.
    apply Rmult_le_compat; try lra. apply Rabs_pos.
  Qed.
End Rel.

Definition between p j eps := f_le (py_min (lo j eps) (hi j eps)) p && f_le p (py_max (lo j eps) (hi j eps)).

Lemma min_real a b : finite a -> finite b -> finite (py_min a b) /\ real (py_min a b) = Rmin (real a) (real b).
Proof.
  intros Fa Fb. unfold py_min. destruct (f_lt b a) eqn:E.
  - apply lt_real in E; auto. split; [assumption|]. rewrite Rmin_right; lra.
  - split; [assumption|]. destruct (Rlt_le_dec (real b) (real a)) as [H|H].
    + apply (lt_real b a Fb Fa) in H. congruence.
    + rewrite Rmin_left; lra.
Qed.
Lemma max_real a b : finite a -> finite b -> finite (py_max a b) /\ real (py_max a b) = Rmax (real a) (real b).
Proof.
  intros Fa Fb. unfold py_max. destruct (f_lt a b) eqn:E.
  - apply lt_real in E; auto. split; [assumption|]. rewrite Rmax_right; lra.
  - split; [assumption|]. destruct (Rlt_le_dec (real a) (real b)) as [H|H].
    + apply (lt_real a b Fa Fb) in H. congruence.
    + rewrite Rmax_left; lra.
Qed.
Lemma le_finite_between (a b p : double) : finite a -> finite b -> f_le a p = true -> f_le p b = true -> finite p.
Proof. unfold finite. destruct a, b, p as [|[]| |]; cbn; try congruence. Qed.

Lemma relative_sound (p j eps : double) :
  finite eps -> 0 <= real eps <= 1 -> finite j -> Rabs (real j) < bpow radix2 1022 ->
  between p j eps = true -> within_rel (real eps + 8 * u53) tiny p j.
Proof.
  intros He He0 Hj Hs H.
  destruct (lo_spec j eps He He0 Hj) as [Fl El].
  destruct (hi_spec j eps He He0 Hj (hi_no_over j eps He He0 Hj Hs)) as [Fh Eh].
  unfold between in H. apply andb_true_iff in H as [H1 H2].
  destruct (min_real _ _ Fl Fh) as [Fmin Emin]. destruct (max_real _ _ Fl Fh) as [Fmax Emax].
  pose proof (le_finite_between _ _ _ Fmin Fmax H1 H2) as Fp.
  apply le_real in H1; auto. apply le_real in H2; auto. rewrite Emin in H1. rewrite Emax in H2.
  split; [exact Fp|]. split; [exact Hj|].
  pose proof u53_pos. pose proof tiny_pos.
  apply Rabs_le_inv in El. apply Rabs_le_inv in Eh. apply Rabs_le.
  revert H1 H2. unfold Rmin, Rmax. destruct (Rle_dec (real (lo j eps)) (real (hi j eps)));
    unfold Rabs in *; destruct (Rcase_abs (real j)); intros; nra.
Qed.

Lemma relative_complete (p j eps : double) :
  finite eps -> 0 <= real eps <= 1 ->
  within_rel (real eps - 8 * u53) (- tiny) p j -> between p j eps = true.
Proof.
  intros He He0 [Fp [Hj H]].
  destruct (lo_spec j eps He He0 Hj) as [Fl El]. unfold between.
  apply Rabs_le_inv in El. apply Rabs_le_inv in H.
  destruct (Rlt_le_dec (Rabs (rnd (real j * real (f_add f_one eps)))) (bpow radix2 1024)) as [L|L].
  - destruct (hi_spec j eps He He0 Hj L) as [Fh Eh]. apply Rabs_le_inv in Eh.
    destruct (min_real _ _ Fl Fh) as [Fmin Emin]. destruct (max_real _ _ Fl Fh) as [Fmax Emax].
    apply andb_true_iff; split; apply le_real; auto; rewrite ?Emin, ?Emax; unfold Rmin, Rmax;
      destruct (Rle_dec (real (lo j eps)) (real (hi j eps))); unfold Rabs in *; destruct (Rcase_abs (real j)); nra.
  - destruct (hi_over j eps He He0 Hj) as [Eh Hn]; [lra|]. rewrite Eh.
    assert (real (lo j eps) <= real p -> f_le (lo j eps) p = true) as L1 by (intros; apply le_real; auto).
    assert (real p <= real (lo j eps) -> f_le p (lo j eps) = true) as L2 by (intros; apply le_real; auto).
    assert ((Bsign j = false /\ 0 < real j) \/ (Bsign j = true /\ real j < 0)) as Hsgn.
    { clear -Hj Hn. unfold real, finite in *. destruct j as [|[]| |[] m e]; try discriminate Hj; try (exfalso; apply Hn; reflexivity).
      - right. split; [reflexivity|]. apply F2R_lt_0. reflexivity.
      - left. split; [reflexivity|]. apply F2R_gt_0. reflexivity. }
    set (l := lo j eps) in *. clearbody l. unfold py_min, py_max.
    destruct Hsgn as [[-> Hp]|[-> Hp]].
    + assert (f_lt (B754_infinity false) l = false) as -> by (clear -Fl; unfold finite in Fl; destruct l; cbn in *; congruence).
      assert (f_lt l (B754_infinity false) = true) as -> by (clear -Fl; unfold finite in Fl; destruct l; cbn in *; congruence).
      rewrite L1; [|unfold Rabs in *; destruct (Rcase_abs (real j)); nra].
      clear -Fp. unfold finite in Fp. destruct p; cbn in *; congruence.
    + assert (f_lt (B754_infinity true) l = true) as -> by (clear -Fl; unfold finite in Fl; destruct l; cbn in *; congruence).
      assert (f_lt l (B754_infinity true) = false) as -> by (clear -Fl; unfold finite in Fl; destruct l; cbn in *; congruence).
      rewrite L2; [|unfold Rabs in *; destruct (Rcase_abs (real j)); nra].
      rewrite andb_true_r. clear -Fp. unfold finite in Fp. destruct p; cbn in *; congruence.
Qed.

(** *** the relative half of the default mode *)
Definition ratio_ok p j eps := f_le (f_abs (f_sub f_one (f_div p j))) eps.

Lemma quot_err x : exists d h, Rabs d <= u53 /\ Rabs h <= tiny /\ rnd x - x = x * d + h.
Proof. destruct (gen_err x) as [d [h [H1 [H2 ->]]]]. exists d, h. repeat split; auto. ring. Qed.

Lemma div_finite_inv (p j : double) : finite j -> f_is_zero j = false -> finite (f_div p j) -> finite p.
Proof. unfold finite. destruct p as [|[]| |], j; cbn; congruence. Qed.
Lemma nonzero_real (j : double) : finite j -> f_is_zero j = false -> real j <> 0.
Proof.
  unfold finite, real. destruct j as [| | |s m e Hm]; cbn; try congruence. intros _ _ H.
  apply (F2R_neq_0 radix2 {| Fnum := cond_Zopp s (Z.pos m); Fexp := e |}); [|exact H]. destruct s; discriminate.
Qed.

Lemma default_sound (p j eps : double) :
  finite eps -> 0 <= real eps <= 1 -> finite j -> f_is_zero j = false ->
  ratio_ok p j eps = true -> within_rel (real eps + 8 * u53) 0 p j.
Proof.
  intros He He0 Hj Hz H. unfold ratio_ok in H.
  pose proof (le_abs_inv _ _ He H) as F. destruct (sub_finite_inv _ _ F) as [_ Fq].
  pose proof (div_finite_inv _ _ Hj Hz Fq) as Fp. pose proof (nonzero_real _ Hj Hz) as Hn.
  assert (real (f_div p j) = rnd (real p / real j)) as Eq.
  { destruct (Rlt_le_dec (Rabs (rnd (real p / real j))) (bpow radix2 1024)) as [L|L].
    - apply (div_finite p j Fp Hn L).
    - rewrite (div_overflow p j Hn) in Fq by lra. discriminate Fq. }
  assert (within (real eps * (1 + u53)) f_one (f_div p j)) as [_ [_ Hw]].
  { apply absolute_sound; assumption. }
  rewrite one_real, Eq in Hw.
  split; [exact Fp|]. split; [exact Hj|].
  destruct (quot_err (real p / real j)) as [d [h [Hd [Hh E]]]].
  set (x := real p / real j) in *. set (q := rnd x) in *.
  assert (real p = x * real j) as -> by (unfold x; field; exact Hn).
  replace (x * real j - real j) with ((x - 1) * real j) by ring.
  rewrite Rabs_mult, Rplus_0_r. apply Rmult_le_compat_r; [apply Rabs_pos|].
  pose proof u53_pos. pose proof u53_small. pose proof tiny_le_u. pose proof tiny_pos.
  apply Rabs_le_inv in Hw. apply Rabs_le_inv in Hd. apply Rabs_le_inv in Hh.
  assert (x * (1 + d) = q - h) as Ex by lra.
  assert (-4 <= x <= 4) as Hx by nra.
  apply Rabs_le. nra.
Qed.

Lemma default_complete (p j eps : double) :
  finite eps -> 0 <= real eps <= 1 -> f_is_zero j = false ->
  within_rel (real eps - 8 * u53) 0 p j -> ratio_ok p j eps = true.
Proof.
  intros He He0 Hz [Fp [Hj H]]. pose proof (nonzero_real _ Hj Hz) as Hn.
  destruct (quot_err (real p / real j)) as [d [h [Hd [Hh E]]]].
  set (x := real p / real j) in *. set (q := rnd x) in *.
  assert (Rabs (x - 1) <= real eps - 8 * u53) as Hx.
  { apply Rmult_le_reg_r with (Rabs (real j)); [apply Rabs_pos_lt, Hn|]. rewrite <- Rabs_mult.
    replace ((x - 1) * real j) with (real p - real j) by (unfold x; field; exact Hn). lra. }
  pose proof u53_pos. pose proof u53_small. pose proof tiny_le_u. pose proof tiny_pos.
  apply Rabs_le_inv in Hx. apply Rabs_le_inv in Hd. apply Rabs_le_inv in Hh.
  assert (Rabs (1 - q) <= real eps) as Hq.
  { apply Rabs_le. nra. }
  assert (-2 <= q <= 2) as Hq2 by (apply Rabs_le_inv in Hq; lra).
  destruct (div_finite p j Fp Hn) as [Fq Eq].
  { fold x q. apply lt_1024. apply Rabs_le. lra. }
  apply absolute_complete; [exact He|]. split; [apply one_finite|]. split; [exact Fq|].
  rewrite one_real, Eq. fold x q. exact Hq.
Qed.

(** Every finite number lies in its own relative window, whatever the rounding. *)
Lemma relative_self (x eps : double) :
  finite eps -> 0 <= real eps <= 1 -> finite x -> between x x eps = true.
Proof.
  intros He He0 Hx.
  destruct (lo_spec x eps He He0 Hx) as [Fl _]. unfold between.
  destruct (lo_factor eps He He0) as [F1 [B1 _]]. destruct (hi_factor eps He He0) as [F2 [B2 _]].
  assert (real (lo x eps) = rnd (real x * real (f_sub f_one eps))) as El.
  { apply (mul_finite x (f_sub f_one eps) Hx F1).
    eapply Rle_lt_trans; [|apply (B2R_lt x)]. apply round_abs_le; [apply generic_format_abs, fmt_B2R|].
    rewrite Rabs_mult, (Rabs_pos_eq (real (f_sub f_one eps))) by lra. fold (real x).
    pose proof (Rabs_pos (real x)). nra. }
  assert (0 <= real x -> real (lo x eps) <= real x) as L1.
  { intros H. rewrite El. apply round_le_generic; auto with typeclass_instances; [apply fmt_B2R|]. fold (real x). nra. }
  assert (real x <= 0 -> real x <= real (lo x eps)) as L2.
  { intros H. rewrite El. apply round_ge_generic; auto with typeclass_instances; [apply fmt_B2R|]. fold (real x). nra. }
  destruct (Rlt_le_dec (Rabs (rnd (real x * real (f_add f_one eps)))) (bpow radix2 1024)) as [L|L].
  - destruct (mul_finite x (f_add f_one eps) Hx F2 L) as [Fh Eh]. fold (hi x eps) in Fh, Eh.
    assert (0 <= real x -> real x <= real (hi x eps)) as H1.
    { intros H. rewrite Eh. apply round_ge_generic; auto with typeclass_instances; [apply fmt_B2R|]. fold (real x). nra. }
    assert (real x <= 0 -> real (hi x eps) <= real x) as H2.
    { intros H. rewrite Eh. apply round_le_generic; auto with typeclass_instances; [apply fmt_B2R|]. fold (real x). nra. }
    destruct (min_real _ _ Fl Fh) as [Fmin Emin]. destruct (max_real _ _ Fl Fh) as [Fmax Emax].
    apply andb_true_iff; split; apply le_real; auto; rewrite ?Emin, ?Emax; unfold Rmin, Rmax;
      destruct (Rle_dec (real (lo x eps)) (real (hi x eps))); destruct (Rle_lt_dec 0 (real x)); try lra.
  - destruct (hi_over x eps He He0 Hx) as [Eh Hn]; [lra|]. rewrite Eh. clear L Eh.
    assert (real (lo x eps) <= real x -> f_le (lo x eps) x = true) as L3 by (intros; apply le_real; auto).
    assert (real x <= real (lo x eps) -> f_le x (lo x eps) = true) as L4 by (intros; apply le_real; auto).
    assert ((Bsign x = false /\ 0 < real x) \/ (Bsign x = true /\ real x < 0)) as Hsgn.
    { clear -Hx Hn. unfold real, finite in *. destruct x as [|[]| |[] m e]; try discriminate Hx; try (exfalso; apply Hn; reflexivity).
      - right. split; [reflexivity|]. apply F2R_lt_0. reflexivity.
      - left. split; [reflexivity|]. apply F2R_gt_0. reflexivity. }
    set (l := lo x eps) in *. clearbody l. unfold py_min, py_max.
    destruct Hsgn as [[-> Hp]|[-> Hp]].
    + assert (f_lt (B754_infinity false) l = false) as -> by (clear -Fl; unfold finite in Fl; destruct l; cbn in *; congruence).
      assert (f_lt l (B754_infinity false) = true) as -> by (clear -Fl; unfold finite in Fl; destruct l; cbn in *; congruence).
      rewrite L3 by lra. clear -Hx. unfold finite in Hx. destruct x; cbn in *; congruence.
    + assert (f_lt (B754_infinity true) l = true) as -> by (clear -Fl; unfold finite in Fl; destruct l; cbn in *; congruence).
      assert (f_lt l (B754_infinity true) = false) as -> by (clear -Fl; unfold finite in Fl; destruct l; cbn in *; congruence).
      rewrite L4 by lra. rewrite andb_true_r. clear -Hx. unfold finite in Hx. destruct x; cbn in *; congruence.
Qed.
