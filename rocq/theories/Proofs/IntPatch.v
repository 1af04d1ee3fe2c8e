From Coq Require Import String Lia.
From Verif Require Import Model.Bytes Model.IntPatch Spec.IntPatch Proofs.BytesLemmas.
Local Open Scope list_scope.

Lemma same_eq a : forall b, same a b = true <-> a = b.
Proof.
  induction a as [| | |n x IH]; intros [| | |m y]; cbn; try (split; [discriminate|discriminate]); try (split; reflexivity).
  rewrite andb_true_iff, N.eqb_eq, IH. split; [intros [-> ->]; reflexivity|intros H; injection H; auto].
Qed.
Lemma same_refl a : same a a = true.
Proof. apply same_eq. reflexivity. Qed.
Lemma same_ne a b : a <> b -> same a b = false.
Proof. intros H. destruct (same a b) eqn:E; [apply same_eq in E; contradiction|reflexivity]. Qed.

Lemma derives_refl a : derives a a = true.
Proof. destruct a; cbn -[same]; rewrite same_refl; reflexivity. Qed.
Lemma derives_trans a : forall b c, derives a b = true -> derives b c = true -> derives a c = true.
Proof.
  induction a as [| | |n x IH]; intros b c H K.
  - destruct b; cbn in H; try discriminate. exact K.
  - destruct b; cbn in H; try discriminate; [destruct c; cbn in K; try discriminate; reflexivity|exact K].
  - destruct b; cbn in H; try discriminate; [destruct c; cbn in K; try discriminate; reflexivity| |exact K].
    destruct c; cbn in K; try discriminate; reflexivity.
  - cbn -[same] in H. apply orb_true_iff in H. destruct H as [H|H].
    + apply same_eq in H. subst b. exact K.
    + cbn -[same]. apply orb_true_iff. right. exact (IH _ _ H K).
Qed.
Lemma derives_below a : forall b, derives a b = true -> below a b.
Proof.
  induction a as [| | |n x IH]; intros b H.
  - destruct b; cbn in H; try discriminate. apply below_refl.
  - destruct b; cbn in H; try discriminate; [apply below_int|apply below_refl].
  - destruct b; cbn in H; try discriminate; [|apply below_patched|apply below_refl].
    eapply below_trans; [apply below_patched|apply below_int].
  - cbn -[same] in H. apply orb_true_iff in H. destruct H as [H|H].
    + apply same_eq in H. subst b. apply below_refl.
    + eapply below_trans; [apply below_base|apply IH, H].
Qed.
Lemma below_derives a b : below a b -> derives a b = true.
Proof.
  induction 1 as [c| | |n c|a b c _ IH1 _ IH2].
  - apply derives_refl.
  - reflexivity.
  - reflexivity.
  - cbn -[same]. rewrite derives_refl. apply orb_true_r.
  - exact (derives_trans _ _ _ IH1 IH2).
Qed.
Lemma derives_spec a b : derives a b = true <-> below a b.
Proof. split; [apply derives_below|apply below_derives]. Qed.
Lemma meta_int c : meta c = true -> derives c CInt = true.
Proof. intros H. apply (derives_trans _ CPatched); [exact H|reflexivity]. Qed.
Lemma isinstance_patched t : isinstance t CPatched = derives t CInt.
Proof.
  unfold isinstance. destruct (same t CPatched) eqn:E; [apply same_eq in E; subst; reflexivity|]. reflexivity.
Qed.
Lemma isinstance_other t c : meta c = false -> isinstance t c = derives t c.
Proof.
  intros M. unfold isinstance. rewrite M. destruct (same t c) eqn:E; [|reflexivity]. apply same_eq in E. subst. symmetry. apply derives_refl.
Qed.
