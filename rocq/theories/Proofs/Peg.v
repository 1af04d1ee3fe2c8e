From Coq Require Import String QArith Reals Lra.
From Flocq Require Import Core.Core IEEE754.BinarySingleNaN.
From Verif Require Import Model.Bytes Model.Checkers Model.Floats Model.Contrib
  Spec.Text Spec.Contrib Spec.Floats Spec.Peg Proofs.BytesLemmas Proofs.FloatArith Proofs.Contrib.
Local Open Scope nat_scope.
Local Open Scope list_scope.

Section Peg.
  Variable parse : bytes -> option f64.
  Variable pv : f64.

  Lemma ratio_iff a b q : peg_ratio parse a b = Some q /\ f_lt (B754_zero false) q = true <-> positive_ratio parse a b q.
  Proof.
    unfold peg_ratio, positive_ratio. split.
    - intros [H1 H2]. destruct (parse a) as [x|]; [|discriminate]. destruct (parse b) as [y|]; [|discriminate].
      destruct (f_is_zero y) eqn:Ez; [discriminate|]. injection H1 as <-. exists x, y. repeat split; auto.
      destruct y; [discriminate Ez|exact I..].
    - intros [x [y [-> [-> [Hz [-> Hp]]]]]].
      split; [|exact Hp]. destruct y; [contradiction|reflexivity..].
  Qed.

  Lemma scan_first ls : forall l1,
    match peg_scan parse pv l1 ls with
    | Verdict b p f => b = true /\ f = None /\ exists pre a b' post q, l1 :: ls = pre ++ a :: b' :: post /\
        positive_ratio parse a b' q /\ p = f_mul pv q /\
        (forall i x y, nth_error (pre ++ [a]) i = Some x -> nth_error (pre ++ [a]) (S i) = Some y -> forall q', ~ positive_ratio parse x y q')
    | Boolean b => b = false /\ forall pre a b' post, l1 :: ls = pre ++ a :: b' :: post -> forall q, ~ positive_ratio parse a b' q
    | _ => False
    end.
  Proof.
    induction ls as [|l2 r IH]; intros l1; cbn [peg_scan].
    { split; [reflexivity|]. intros [|c pre] a b' post E; [discriminate|]. injection E as <- E. destruct pre; discriminate. }
    assert (forall q, positive_ratio parse l1 l2 q -> peg_ratio parse l1 l2 = Some q /\ f_lt (B754_zero false) q = true) as Hr
      by (intros q; apply ratio_iff).
    assert ((forall q, ~ positive_ratio parse l1 l2 q) -> match peg_scan parse pv l2 r with
    | Verdict b p f => b = true /\ f = None /\ exists pre a b' post q, l1 :: l2 :: r = pre ++ a :: b' :: post /\
        positive_ratio parse a b' q /\ p = f_mul pv q /\
        (forall i x y, nth_error (pre ++ [a]) i = Some x -> nth_error (pre ++ [a]) (S i) = Some y -> forall q', ~ positive_ratio parse x y q')
    | Boolean b => b = false /\ forall pre a b' post, l1 :: l2 :: r = pre ++ a :: b' :: post -> forall q, ~ positive_ratio parse a b' q
    | _ => False
    end) as Hno.
    { intros Hn. specialize (IH l2). destruct (peg_scan parse pv l2 r) as [b p f|b| |]; try contradiction.
      - destruct IH as [-> [-> [pre [a [b' [post [q [E [Hq [-> Hf]]]]]]]]]]. split; [reflexivity|]. split; [reflexivity|].
        exists (l1 :: pre), a, b', post, q. rewrite E. split; [reflexivity|]. split; [exact Hq|]. split; [reflexivity|].
        intros [|i] x y; cbn.
        + intros Ex Ey. injection Ex as <-. destruct pre as [|p0 pre]; cbn in Ey; injection Ey as <-; injection E as -> _; exact Hn.
        + intros Ex Ey. apply (Hf i); assumption.
      - destruct IH as [-> IH]. split; [reflexivity|]. intros [|c pre] a b' post E q.
        + injection E as <- <- _. apply Hn.
        + injection E as _ E. eapply IH, E. }
    destruct (peg_ratio parse l1 l2) as [q|] eqn:Er.
    - destruct (f_lt (B754_zero false) q) eqn:Eq.
      + split; [reflexivity|]. split; [reflexivity|]. exists [], l1, l2, r, q. split; [reflexivity|].
        split; [apply ratio_iff; auto|]. split; [reflexivity|]. intros [|[|i]] x y; cbn; discriminate.
      + apply Hno. intros q' H. destruct (Hr _ H) as [H1 H2]. injection H1 as <-. congruence.
    - apply Hno. intros q' H. destruct (Hr _ H) as [H1 H2]. discriminate.
  Qed.
End Peg.

Local Open Scope R_scope.
Local Existing Instance prec53.
Lemma rnd_le a b : fmt b -> a <= b -> rnd a <= b.
Proof. intros. apply round_le_generic; auto with typeclass_instances. Qed.
Lemma rnd_ge a b : fmt a -> a <= b -> a <= rnd b.
Proof. intros. apply round_ge_generic; auto with typeclass_instances. Qed.
Lemma fmt_0 : fmt 0. Proof. apply generic_format_0. Qed.
Lemma ratio_le_1 (x y : double) : finite x -> finite y -> f_is_zero y = false -> real x / real y <= 1 ->
  f_lt (B754_zero false) (f_div x y) = true -> finite (f_div x y) /\ 0 < real (f_div x y) <= 1.
Proof.
  intros Fx Fy Hz Hq Hp.
  pose proof (nonzero_real _ Fy Hz) as Hy.
  destruct (Rlt_le_dec (Rabs (rnd (real x / real y))) (bpow radix2 1024)) as [Hb|Hb].
  - destruct (div_finite x y Fx Hy Hb) as [F E]. split; [exact F|].
    apply (lt_real (B754_zero false)) in Hp; [|reflexivity|exact F]. cbn in Hp. split; [exact Hp|].
    rewrite E. apply rnd_le; [apply fmt_1|exact Hq].
  - exfalso. assert (f_div x y = B754_infinity false) as Hinf.
    { rewrite (div_overflow x y Hy) in Hp |- * by lra. destruct (xorb (Bsign x) (Bsign y)); [discriminate|reflexivity]. }
    (* the rounded quotient is at most 1, so a large one is negative; then its sign is wrong *)
    assert (rnd (real x / real y) <= 1) as Hle by (apply rnd_le; [apply fmt_1|exact Hq]).
    assert (1 < bpow radix2 1024) as H1 by (change 1 with (bpow radix2 0); apply bpow_lt; reflexivity).
    assert (rnd (real x / real y) < 0) as Hneg.
    { destruct (Rlt_le_dec (rnd (real x / real y)) 0) as [|Hge]; [assumption|]. rewrite Rabs_pos_eq in Hb by exact Hge.
      clear - Hb Hle H1. exfalso. apply (Rlt_irrefl 1). eapply Rlt_le_trans; [exact H1|]. eapply Rle_trans; eassumption. }
    assert (real x / real y < 0) as Hneg'.
    { destruct (Rlt_le_dec (real x / real y) 0) as [|Hge]; [assumption|].
      assert (0 <= rnd (real x / real y)) by (apply rnd_ge; [apply fmt_0|exact Hge]).
      clear - H Hneg. lra. }
    assert (~ Rabs (rnd (real x / real y)) < bpow radix2 1024) as Hb' by (apply Rle_not_lt, Hb).
    rewrite (div_overflow x y Hy Hb') in Hinf. injection Hinf as Hs.
    clear - Hs Hneg' Fx Fy Hy. unfold real, finite in *.
    assert (forall z : double, is_finite z = true -> (Bsign z = true -> B2R z <= 0) /\ (Bsign z = false -> 0 <= B2R z)) as S.
    { intros [s|s| |s m e Hm]; cbn; intros F; try discriminate; [split; intros; lra|].
      split; intros ->; [apply F2R_le_0|apply F2R_ge_0]; cbn; [apply Pos2Z.neg_is_nonpos|apply Pos2Z.is_nonneg]. }
    destruct (S x Fx) as [Sx1 Sx2], (S y Fy) as [Sy1 Sy2].
    assert (0 <= B2R x / B2R y); [|lra].
    destruct (Bsign x), (Bsign y); try discriminate.
    + replace (B2R x / B2R y) with ((- B2R x) / (- B2R y)) by (field; lra).
      apply Rmult_le_pos; [specialize (Sx1 eq_refl); lra|]. apply Rlt_le, Rinv_0_lt_compat. specialize (Sy1 eq_refl). lra.
    + apply Rmult_le_pos; [specialize (Sx2 eq_refl); lra|]. apply Rlt_le, Rinv_0_lt_compat. specialize (Sy2 eq_refl). lra.
Qed.

Lemma scaled_bounds (pv q : double) : finite pv -> 0 <= real pv -> finite q -> 0 < real q <= 1 ->
  finite (f_mul pv q) /\ 0 <= real (f_mul pv q) <= real pv.
Proof.
  intros Fp Hp Fq [Hq0 Hq1].
  assert (0 <= real pv * real q) as H0 by (apply Rmult_le_pos; lra).
  assert (real pv * real q <= real pv) as H1.
  { rewrite <- (Rmult_1_r (real pv)) at 2. apply Rmult_le_compat_l; assumption. }
  assert (0 <= rnd (real pv * real q)) as R0 by (apply rnd_ge; [apply fmt_0|exact H0]).
  assert (rnd (real pv * real q) <= real pv) as R1 by (apply rnd_le; [apply fmt_B2R|exact H1]).
  destruct (mul_finite pv q Fp Fq) as [F E].
  - rewrite Rabs_pos_eq by exact R0. eapply Rle_lt_trans; [exact R1|]. pose proof (B2R_lt pv) as HB.
    unfold real. eapply Rle_lt_trans; [apply Rle_abs|exact HB].
  - split; [exact F|]. rewrite E. split; assumption.
Qed.

Lemma peg_bounded parse pv proc fb :
  finite pv -> 0 <= real pv ->
  (forall pre a b post x y, lf_lines fb = (pre ++ a :: b :: post)%list -> parse a = Some x -> parse b = Some y ->
     finite x /\ finite y /\ (real y <> 0 -> real x / real y <= 1)) ->
  match peg_parse parse proc pv fb with
  | Verdict passed p _ => finite p /\ 0 <= real p <= real pv
  | Boolean _ | Contrib.InternalError => True
  | ReturnsNone => False
  end.
Proof.
  intros Fp Hp Hr. unfold peg_parse. destruct (Z.eqb_spec (returncode proc) 0) as [E|E]; [exact I|].
  destruct (Z.eqb_spec (returncode proc) 1) as [E1|E1]; [|rewrite (helper_error _ E); exact I].
  rewrite re_split_lf. destruct (lf_lines fb) as [|l1 ls] eqn:El; [exact I|].
  pose proof (scan_first parse pv ls l1) as H. destruct (peg_scan parse pv l1 ls) as [b p f|b| |]; try contradiction; try exact I.
  destruct H as [_ [_ [pre [a [b' [post [q [Ea [[x [y [Ex [Ey [Hz [-> Hpos]]]]]] [-> _]]]]]]]]]].
  destruct (Hr pre a b' post x y Ea Ex Ey) as [Fx [Fy Hle]].
  assert (f_is_zero y = false) as Hz' by (destruct y; [contradiction|reflexivity..]).
  destruct (ratio_le_1 x y Fx Fy Hz' (Hle (nonzero_real _ Fy Hz')) Hpos) as [F B].
  apply scaled_bounds; assumption.
Qed.

Lemma split_unique {A} (P : A -> A -> Prop) (pre pre' post post' : list A) a a' b b' :
  (pre ++ a :: b :: post = pre' ++ a' :: b' :: post')%list ->
  P a b -> P a' b' ->
  (forall i x y, nth_error (pre ++ [a])%list i = Some x -> nth_error (pre ++ [a])%list (S i) = Some y -> ~ P x y) ->
  (forall i x y, nth_error (pre' ++ [a'])%list i = Some x -> nth_error (pre' ++ [a'])%list (S i) = Some y -> ~ P x y) ->
  a = a' /\ b = b'.
Proof.
  revert pre'. induction pre as [|c pre IH]; intros [|c' pre'] E H H' N N'; cbn in E; injection E.
  - auto.
  - intros E1 E2. subst a. exfalso. apply (N' 0%nat c' b); [reflexivity| |exact H].
    destruct pre' as [|d pre']; cbn in E1 |- *; injection E1 as -> _; reflexivity.
  - intros E1 E2. subst a'. exfalso. apply (N 0%nat c b'); [reflexivity| |exact H'].
    destruct pre as [|d pre]; cbn in E1 |- *; injection E1 as -> _; reflexivity.
  - intros E1 _. apply (IH pre' E1 H H').
    + intros i x y Ex Ey. apply (N (S i)); assumption.
    + intros i x y Ex Ey. apply (N' (S i)); assumption.
Qed.

Lemma peg_codes parse proc pv fb :
  (returncode proc = 0%Z -> peg_parse parse proc pv fb = Boolean true) /\
  (returncode proc <> 0%Z -> returncode proc <> 1%Z -> peg_parse parse proc pv fb = InternalError) /\
  (returncode proc = 1%Z ->
     (forall pre a b post q, lf_lines fb = (pre ++ a :: b :: post)%list -> positive_ratio parse a b q ->
        (forall i x y, nth_error (pre ++ [a])%list i = Some x -> nth_error (pre ++ [a])%list (S i) = Some y ->
           forall q', ~ positive_ratio parse x y q') ->
        peg_parse parse proc pv fb = Verdict true (times64 pv q) None) /\
     ((forall pre a b post, lf_lines fb = (pre ++ a :: b :: post)%list -> forall q, ~ positive_ratio parse a b q) ->
        peg_parse parse proc pv fb = Boolean false)).
Proof.
  unfold peg_parse. split; [intros ->; reflexivity|]. split.
  { intros H0 H1. rewrite (proj2 (Z.eqb_neq _ _) H0), (proj2 (Z.eqb_neq _ _) H1). apply helper_error, H0. }
  intros ->. cbn [Z.eqb Pos.eqb]. rewrite re_split_lf.
  destruct (lf_lines fb) as [|l1 ls] eqn:El.
  { split; [|reflexivity]. intros [|c pre] a b post q E; discriminate. }
  pose proof (scan_first parse pv ls l1) as H. destruct (peg_scan parse pv l1 ls) as [b p f|b| |]; try contradiction.
  - destruct H as [-> [-> [pre [a [b' [post [q [Ea [Hq [-> Hf]]]]]]]]]]. split.
    + intros pre' a' b0 post' q' E Hq' Hf'. pose proof (eq_trans (eq_sym Ea) E) as E'.
      destruct (split_unique (fun x y => exists q, positive_ratio parse x y q) _ _ _ _ _ _ _ _ E') as [-> ->].
      * eauto.
      * eauto.
      * intros i x y Ex Ey [q0 Hq0]. exact (Hf i x y Ex Ey q0 Hq0).
      * intros i x y Ex Ey [q0 Hq0]. exact (Hf' i x y Ex Ey q0 Hq0).
      * destruct Hq as [x [y [Ex [Ey [_ [-> _]]]]]], Hq' as [x' [y' [Ex' [Ey' [_ [-> _]]]]]].
        rewrite Ex in Ex'. rewrite Ey in Ey'. injection Ex' as <-. injection Ey' as <-. reflexivity.
    + intros Hn. exfalso. eapply Hn; eauto.
  - destruct H as [-> Hn]. split; [|reflexivity]. intros pre a b post q E Hq. exfalso. eapply Hn; eauto.
Qed.
