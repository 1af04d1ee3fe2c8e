From Coq Require Import String Reals Lra.
From Flocq Require Import Core.Core IEEE754.BinarySingleNaN.
From Verif Require Import Model.Bytes Model.Checkers Model.Floats Spec.Text Spec.Floats
  Proofs.BytesLemmas Proofs.Checkers Proofs.FloatArith.
Local Open Scope nat_scope.
Local Open Scope list_scope.

Definition verified (verify : f64 -> f64 -> f64 -> option bool) (eps p j : f64) : Prop :=
  verify p j eps = Some true.

Lemma zip_Forall2 {A} (R : A -> A -> Prop) l1 : forall l2, length l1 = length l2 ->
  (Forall2 R l1 l2 <-> Forall (fun ab => R (fst ab) (snd ab)) (zip l1 l2)).
Proof.
  induction l1 as [|a l1 IH]; intros [|b l2] H; try discriminate; cbn [zip].
  - split; constructor.
  - injection H as H. split; intros F; inversion F; subst; constructor; auto; apply IH; auto.
Qed.
Lemma Forall2_len {A B} (R : A -> B -> Prop) l1 l2 : Forall2 R l1 l2 -> length l1 = length l2.
Proof. induction 1; cbn; congruence. Qed.

Lemma Forall2_impl {A B} (R Q : A -> B -> Prop) l1 l2 :
  (forall a b, R a b -> Q a b) -> Forall2 R l1 l2 -> Forall2 Q l1 l2.
Proof. intros H. induction 1; constructor; auto. Qed.

Section Check.
  Variable parse : bytes -> option f64.
  Lemma tokens_iff verify eps l :
    floats_tokens parse verify eps l = true <->
    Forall (fun ab => token_ok parse (verified verify eps) (fst ab) (snd ab)) l.
  Proof.
    induction l as [|[p j] l IH]; cbn [floats_tokens].
    - split; auto.
    - rewrite Forall_cons_iff, <- IH. unfold token_ok at 1. cbn [fst snd].
      destruct (parse j) as [jf|] eqn:Ej.
      + destruct (parse p) as [pf|] eqn:Ep.
        * unfold verified at 1. destruct (verify pf jf eps) as [[]|] eqn:Ev; cbn [negb].
          -- split; [intros H; split; eauto|tauto].
          -- split; [discriminate|]. intros [[x [E V]] _]. injection E as <-. congruence.
          -- split; [discriminate|]. intros [[x [E V]] _]. injection E as <-. congruence.
        * split; [discriminate|]. intros [[x [E _]] _]. discriminate.
      + destruct (beqb p j) eqn:E; cbn [negb].
        * apply beqb_eq in E. tauto.
        * apply beqb_neq in E. split; [discriminate|tauto].
  Qed.

  Lemma lines_iff verify eps l :
    floats_lines parse verify eps l = true <->
    Forall (fun ab => line_ok parse (verified verify eps) (fst ab) (snd ab)) l.
  Proof.
    induction l as [|[p j] l IH]; cbn [floats_lines].
    - split; auto.
    - rewrite Forall_cons_iff, <- IH. unfold line_ok at 1. cbn [fst snd]. rewrite !py_split_words. unfold bytes in *.
      destruct (length (words p) =? length (words j)) eqn:El; cbn [negb].
      + apply Nat.eqb_eq in El. rewrite (zip_Forall2 _ _ _ El), <- tokens_iff.
        destruct (floats_tokens parse verify eps (zip (words p) (words j))).
        * split; [intros H; split; [reflexivity|exact H]|intros [_ H]; exact H].
        * split; [discriminate|intros [H _]; discriminate H].
      + apply Nat.eqb_neq in El. split; [discriminate|]. intros [H _]. apply Forall2_len in H. congruence.
  Qed.

  Definition verifier (mode : bytes) : option (f64 -> f64 -> f64 -> option bool) :=
    if beqb mode mode_absolute then Some verify_absolute
    else if beqb mode mode_relative then Some verify_relative
    else if beqb mode mode_default then Some verify_default else None.

  Lemma floats_check_known verify mode eps p j : verifier mode = Some verify ->
    exists b, floats_check parse p j eps mode = RBool b /\
              (b = true <-> floats_accept parse (verified verify eps) p j).
  Proof.
    intros Hv. unfold floats_check, floats_accept. fold (verifier mode). rewrite Hv.
    rewrite !re_split_lines, !filter_none_nonnil. fold (nonempty_lines p) (nonempty_lines j).
    destruct (length (nonempty_lines p) =? length (nonempty_lines j)) eqn:El; cbn [negb].
    - apply Nat.eqb_eq in El. eexists. split; [reflexivity|].
      rewrite lines_iff, (zip_Forall2 _ _ _ El). reflexivity.
    - apply Nat.eqb_neq in El. exists false. split; [reflexivity|]. split; [discriminate|].
      intros H. apply Forall2_len in H. congruence.
  Qed.
  Lemma floats_check_unknown mode eps p j : verifier mode = None ->
    floats_check parse p j eps mode =
      if length (nonempty_lines p) =? length (nonempty_lines j) then RInternalError else RBool false.
  Proof.
    intros Hv. unfold floats_check. fold (verifier mode). rewrite Hv.
    rewrite !re_split_lines, !filter_none_nonnil. fold (nonempty_lines p) (nonempty_lines j).
    destruct (length (nonempty_lines p) =? length (nonempty_lines j)); reflexivity.
  Qed.

  Lemma accept_impl (P Q : f64 -> f64 -> Prop) p j : (forall x y, P x y -> Q x y) ->
    floats_accept parse P p j -> floats_accept parse Q p j.
  Proof.
    intros HPQ. unfold floats_accept. apply Forall2_impl. intros a b. unfold line_ok. apply Forall2_impl.
    intros t t'. unfold token_ok. destruct (parse t'); [|auto]. intros [x [E H]]. eauto.
  Qed.
  Lemma Forall2_refl_Forall {A} (R : A -> A -> Prop) l : Forall (fun x => R x x) l -> Forall2 R l l.
  Proof. induction 1; constructor; auto. Qed.
End Check.

Lemma verified_absolute eps p j : verified verify_absolute eps p j <-> f_le (f_abs (f_sub p j)) eps = true.
Proof. unfold verified, verify_absolute. split; [intros H; injection H; auto|intros ->; reflexivity]. Qed.
Lemma verified_relative eps p j : verified verify_relative eps p j <-> between p j eps = true.
Proof. unfold verified, verify_relative. fold (lo j eps) (hi j eps). fold (between p j eps).
  split; [intros H; injection H; auto|intros ->; reflexivity]. Qed.
Lemma verified_default eps p j : verified verify_default eps p j <->
  f_le (f_abs (f_sub p j)) eps = true \/
  (f_le eps (f_abs j) = true /\ f_is_zero j = false /\ ratio_ok p j eps = true).
Proof.
  unfold verified, verify_default. fold (ratio_ok p j eps).
  destruct (f_le (f_abs (f_sub p j)) eps) eqn:E1; [tauto|].
  destruct (f_le eps (f_abs j)) eqn:E2.
  - destruct (f_is_zero j) eqn:E3.
    + split; [discriminate|]. intros [H|[_ [H _]]]; discriminate.
    + split; [intros H; injection H; auto|]. intros [H|[_ [_ ->]]]; [discriminate|reflexivity].
  - split; [discriminate|]. intros [H|[H _]]; discriminate.
Qed.

(** NaN is never accepted against a number, and never matched. *)
Lemma nan_sub_l x : f_sub B754_nan x = B754_nan. Proof. destruct x; reflexivity. Qed.
Lemma nan_sub_r x : f_sub x B754_nan = B754_nan. Proof. destruct x as [|[]| |]; reflexivity. Qed.
Lemma nan_mul_l x : f_mul B754_nan x = B754_nan. Proof. destruct x; reflexivity. Qed.
Lemma nan_div_l x : f_div B754_nan x = B754_nan. Proof. destruct x; reflexivity. Qed.
Lemma nan_le_l x : f_le B754_nan x = false. Proof. reflexivity. Qed.
Lemma nan_le_r x : f_le x B754_nan = false. Proof. destruct x as [|[]| |]; reflexivity. Qed.
Lemma nan_lt_l x : f_lt B754_nan x = false. Proof. reflexivity. Qed.

Lemma nan_never mode verify eps x : verifier mode = Some verify ->
  ~ verified verify eps B754_nan x /\ ~ verified verify eps x B754_nan.
Proof.
  unfold verifier. destruct (beqb mode mode_absolute); [|destruct (beqb mode mode_relative);
    [|destruct (beqb mode mode_default)]]; intros H; try discriminate; injection H as <-.
  - rewrite !verified_absolute, nan_sub_l, nan_sub_r. cbn. split; discriminate.
  - rewrite !verified_relative. unfold between. split.
    + rewrite nan_le_r. discriminate.
    + unfold lo, hi. rewrite !nan_mul_l. unfold py_min. rewrite nan_lt_l, nan_le_l. discriminate.
  - rewrite !verified_default, nan_sub_l, nan_sub_r. unfold ratio_ok. rewrite nan_div_l, nan_sub_r.
    split; intros [H|[H [H2 H3]]]; try discriminate.
    cbn in H. rewrite nan_le_r in H. discriminate.
Qed.

(** Every finite number matches itself. *)
Lemma finite_self mode verify eps x : verifier mode = Some verify ->
  finite eps -> (0 <= real eps <= 1)%R -> finite x -> verified verify eps x x.
Proof.
  intros Hv He H0 Hx.
  assert (f_le (f_abs (f_sub x x)) eps = true) as Ha.
  { apply absolute_complete; [exact He|]. split; [exact Hx|]. split; [exact Hx|].
    rewrite Rminus_eq_0, Rabs_R0. lra. }
  revert Hv. unfold verifier. destruct (beqb mode mode_absolute); [|destruct (beqb mode mode_relative) eqn:Em;
    [|destruct (beqb mode mode_default)]]; intros H; try discriminate; injection H as <-.
  - apply verified_absolute. exact Ha.
  - apply verified_relative. apply relative_self; auto.
  - apply verified_default. left. exact Ha.
Qed.

Section Top.
  Variable parse : bytes -> option f64.

  Lemma floats_decides mode verify eps p j : verifier mode = Some verify ->
    (floats_check parse p j eps mode = RBool true <-> floats_accept parse (verified verify eps) p j).
  Proof.
    intros Hv. destruct (floats_check_known parse _ _ eps p j Hv) as [b [-> Hb]]. rewrite <- Hb.
    split; [intros H; injection H; auto|intros ->; reflexivity].
  Qed.

  (** An answer identical to the judge's is accepted when its numbers are finite. *)
  Lemma floats_self mode verify eps p : verifier mode = Some verify ->
    finite eps -> (0 <= real eps <= 1)%R ->
    (forall l t x, In l (nonempty_lines p) -> In t (words l) -> parse t = Some x -> finite x) ->
    floats_check parse p p eps mode = RBool true.
  Proof.
    intros Hv He H0 Hf. apply (floats_decides _ _ _ _ _ Hv). unfold floats_accept.
    apply Forall2_refl_Forall, Forall_forall. intros l Hl. apply Forall2_refl_Forall, Forall_forall. intros t Ht.
    unfold token_ok. destruct (parse t) as [x|] eqn:E; [|reflexivity]. exists x. split; [reflexivity|].
    eapply finite_self; eauto.
  Qed.

  (** No NaN is ever matched with a number. *)
  Lemma floats_nan mode verify eps p j : verifier mode = Some verify ->
    floats_check parse p j eps mode = RBool true ->
    forall l t, In l (nonempty_lines j) -> In t (words l) -> parse t <> Some B754_nan.
  Proof.
    intros Hv H l t Hl Ht E. apply (floats_decides _ _ _ _ _ Hv) in H.
    unfold floats_accept in H. induction H as [|a b la lb Hab _ IH]; [destruct Hl|].
    destruct Hl as [->|Hl]; [|auto]. clear IH. unfold line_ok in Hab.
    induction Hab as [|c d lc ld Hcd _ IH]; [destruct Ht|]. destruct Ht as [->|Ht]; [|auto].
    unfold token_ok in Hcd. rewrite E in Hcd. destruct Hcd as [pf [_ V]].
    destruct (nan_never _ _ eps pf Hv) as [_ N]. contradiction.
  Qed.

  Lemma absolute_sandwich eps p j : finite eps ->
    (floats_accept parse (within (real eps)) p j -> floats_check parse p j eps mode_absolute = RBool true) /\
    (floats_check parse p j eps mode_absolute = RBool true -> floats_accept parse (within (real eps * (1 + u53))) p j).
  Proof.
    intros He. rewrite (floats_decides mode_absolute verify_absolute) by reflexivity. split.
    - apply accept_impl. intros x y H. apply verified_absolute, absolute_complete; assumption.
    - apply accept_impl. intros x y H. apply verified_absolute in H. apply absolute_sound; assumption.
  Qed.

  Lemma relative_sandwich eps p j : finite eps -> (0 <= real eps <= 1)%R ->
    (floats_accept parse (within_rel (real eps - 8 * u53) (- tiny)) p j ->
       floats_check parse p j eps mode_relative = RBool true) /\
    (floats_check parse p j eps mode_relative = RBool true ->
       floats_accept parse (fun x y => finite y -> (Rabs (real y) < bpow radix2 1022)%R ->
                                       within_rel (real eps + 8 * u53) tiny x y) p j).
  Proof.
    intros He H0. rewrite (floats_decides mode_relative verify_relative) by reflexivity. split.
    - apply accept_impl. intros x y H. apply verified_relative, relative_complete; assumption.
    - apply accept_impl. intros x y H Hf Hs. apply verified_relative in H. apply relative_sound; assumption.
  Qed.

  Lemma default_sandwich eps p j : finite eps -> (0 <= real eps <= 1)%R ->
    (floats_accept parse (fun x y => within (real eps) x y \/
                          ((real eps <= Rabs (real y))%R /\ (real y <> 0)%R /\ within_rel (real eps - 8 * u53) 0 x y)) p j ->
       floats_check parse p j eps mode_default = RBool true) /\
    (floats_check parse p j eps mode_default = RBool true ->
       floats_accept parse (fun x y => finite y ->
                            within (real eps * (1 + u53)) x y \/
                            ((real eps <= Rabs (real y))%R /\ within_rel (real eps + 8 * u53) 0 x y)) p j).
  Proof.
    intros He H0. rewrite (floats_decides mode_default verify_default) by reflexivity. split.
    - apply accept_impl. intros x y H. apply verified_default. destruct H as [H|[Hl [Hn H]]].
      + left. apply absolute_complete; assumption.
      + right. destruct H as [Fx [Fy H]]. split; [|split].
        * apply le_real; [assumption|apply abs_finite, Fy|]. rewrite abs_real. exact Hl.
        * destruct y; try reflexivity. exfalso. apply Hn. reflexivity.
        * apply default_complete; auto; [destruct y; try reflexivity; exfalso; apply Hn; reflexivity|].
          split; [|split]; assumption.
    - apply accept_impl. intros x y H Fy. apply verified_default in H. destruct H as [H|[Hl [Hz H]]].
      + left. apply absolute_sound; assumption.
      + right. split.
        * apply le_real in Hl; [|assumption|apply abs_finite, Fy]. rewrite abs_real in Hl. exact Hl.
        * apply default_sound; assumption.
  Qed.
End Top.

Lemma accept_iff parse (P Q : f64 -> f64 -> Prop) p j : (forall x y, P x y <-> Q x y) ->
  (floats_accept parse P p j <-> floats_accept parse Q p j).
Proof. intros H. split; apply accept_impl; intros x y; apply H. Qed.

Lemma decides_absolute parse p j eps :
  floats_check parse p j eps (B "absolute") = RBool true <-> floats_accept parse (ieee_absolute eps) p j.
Proof.
  rewrite (floats_decides parse (B "absolute") verify_absolute) by reflexivity. apply accept_iff.
  intros x y. apply verified_absolute.
Qed.
Lemma decides_relative parse p j eps :
  floats_check parse p j eps (B "relative") = RBool true <-> floats_accept parse (ieee_relative eps) p j.
Proof.
  rewrite (floats_decides parse (B "relative") verify_relative) by reflexivity. apply accept_iff.
  intros x y. rewrite verified_relative. unfold between. rewrite andb_true_iff. reflexivity.
Qed.
Lemma decides_default parse p j eps :
  floats_check parse p j eps (B "default") = RBool true <-> floats_accept parse (ieee_default eps) p j.
Proof.
  rewrite (floats_decides parse (B "default") verify_default) by reflexivity. apply accept_iff.
  intros x y. rewrite verified_default. unfold ieee_default, ieee_absolute, ratio_ok.
  assert (f_is_zero y = false <-> forall s, y <> B754_zero s) as ->; [|reflexivity].
  destruct y; cbn; split; intros; try discriminate; try reflexivity. exfalso. eapply H. reflexivity.
Qed.

Lemma known_mode_verifier mode : In mode [B "absolute"; B "relative"; B "default"] -> exists v, verifier mode = Some v.
Proof. intros [<-|[<-|[<-|[]]]]; eexists; reflexivity. Qed.
Lemma unknown_mode_verifier mode : ~ In mode [B "absolute"; B "relative"; B "default"] -> verifier mode = None.
Proof.
  intros H. unfold verifier.
  destruct (beqb mode mode_absolute) eqn:E1; [apply beqb_eq in E1; exfalso; apply H; left; symmetry; exact E1|].
  destruct (beqb mode mode_relative) eqn:E2; [apply beqb_eq in E2; exfalso; apply H; right; left; symmetry; exact E2|].
  destruct (beqb mode mode_default) eqn:E3; [apply beqb_eq in E3; exfalso; apply H; right; right; left; symmetry; exact E3|].
  reflexivity.
Qed.

Lemma modes_total parse p j eps mode :
  (In mode [B "absolute"; B "relative"; B "default"] ->
     exists b, floats_check parse p j eps mode = RBool b) /\
  (~ In mode [B "absolute"; B "relative"; B "default"] ->
     floats_check parse p j eps mode =
       if length (nonempty_lines p) =? length (nonempty_lines j) then RInternalError else RBool false).
Proof.
  split; intros H.
  - destruct (known_mode_verifier _ H) as [v Hv]. destruct (floats_check_known parse _ _ eps p j Hv) as [b [-> _]]. eauto.
  - apply floats_check_unknown, unknown_mode_verifier, H.
Qed.

Lemma self_accept parse mode eps p : In mode [B "absolute"; B "relative"; B "default"] ->
  finite eps -> (0 <= real eps <= 1)%R ->
  (forall l t x, In l (nonempty_lines p) -> In t (words l) -> parse t = Some x -> finite x) ->
  floats_check parse p p eps mode = RBool true.
Proof. intros H. destruct (known_mode_verifier _ H) as [v Hv]. eapply floats_self, Hv. Qed.

Lemma nan_reject parse mode eps p j :
  floats_check parse p j eps mode = RBool true ->
  forall l t, In l (nonempty_lines j) -> In t (words l) -> parse t <> Some B754_nan.
Proof.
  destruct (verifier mode) as [v|] eqn:Hv; [apply (floats_nan parse _ _ eps p j Hv)|].
  rewrite (floats_check_unknown parse _ _ _ _ Hv). destruct (_ =? _); discriminate.
Qed.
