(** Property theorems for the replacement of int (C103).

    [plain] stands for the interpreter's own conversion, of which nothing is assumed. *)
From Coq Require Import String Lia.
From Verif Require Import Model.Bytes Model.IntPatch Spec.IntPatch.
From Verif Require Proofs.IntPatch Proofs.BytesLemmas.
Local Open Scope list_scope.

(** ** C103 *)
(** Anything but a long text is converted as before, to the same number or the same exception, and
    to an ordinary int. *)
Theorem C103_same plain args : args <> [] -> ~ too_long args ->
  call plain CPatched args = call plain CInt args.
Proof.
  intros NE NL. destruct args as [|a r]; [contradiction|]. cbn. destruct a; try reflexivity. cbn in NL.
  unfold max_digits. destruct (N.ltb_spec 10000 (N.of_nat (length cs))); [contradiction|reflexivity].
Qed.
Print Assumptions C103_same.

(** A long text is refused, whatever its contents and base, by int and by every class derived from it. *)
Theorem C103_refused plain c args : below c CPatched -> too_long args ->
  call plain c args = Raised (ValueError (B "integer is too long")).
Proof.
  intros D L. unfold call, meta. rewrite (Proofs.IntPatch.below_derives _ _ D). destruct args as [|[cs| | |] r]; try contradiction L.
  cbn in L. cbn. unfold max_digits. rewrite (proj2 (N.ltb_lt _ _) L). reflexivity.
Qed.
Print Assumptions C103_refused.

(** The conversion that takes quadratic time never sees a long text: the answers do not depend on what it
    would say about one. *)
Theorem C103_unseen plain plain' c args : below c CPatched ->
  (forall a, ~ too_long a -> plain a = plain' a) -> call plain c args = call plain' c args.
Proof.
  intros D H. unfold call, meta. rewrite (Proofs.IntPatch.below_derives _ _ D). destruct args as [|a r]; [reflexivity|].
  unfold patched_new, plain_new, max_digits. destruct a.
  - destruct (N.ltb_spec 10000 (N.of_nat (length cs))) as [L|L]; [reflexivity|]. rewrite H; [reflexivity|]. cbn. lia.
  - rewrite H; [reflexivity|exact (fun X => X)].
  - rewrite H; [reflexivity|exact (fun X => X)].
  - rewrite H; [reflexivity|exact (fun X => X)].
Qed.
Print Assumptions C103_unseen.

(** A class derived from int gives its own objects. *)
Theorem C103_subclass plain n c args k z : call plain (CClass n c) args = Made k z -> k = CClass n c.
Proof.
  unfold call. destruct (meta (CClass n c)); unfold patched_new, plain_new.
  - destruct args as [|a r]; [discriminate|]. cbn [same]. destruct a; try (match goal with |- context [N.ltb ?x ?y] => destruct (N.ltb x y); [discriminate|] end);
      match goal with |- context [plain ?x] => destruct (plain x) end; try discriminate; intros H; injection H; congruence.
  - destruct (plain args); [intros H; injection H; congruence|discriminate].
Qed.
Print Assumptions C103_subclass.

(** isinstance and issubclass against int answer as before for every class, and against any class that
    has nothing to do with the new int. *)
Theorem C103_checks t : (isinstance t CPatched = true <-> below t CInt) /\ (issubclass t CPatched = true <-> below t CInt) /\
  (forall c, ~ below c CPatched -> (isinstance t c = true <-> below t c) /\ (issubclass t c = true <-> below t c)).
Proof.
  rewrite Proofs.IntPatch.isinstance_patched. split; [apply Proofs.IntPatch.derives_spec|]. split; [apply Proofs.IntPatch.derives_spec|].
  intros c N. assert (meta c = false) as M.
  { unfold meta. destruct (derives c CPatched) eqn:E; [|reflexivity]. contradiction N. apply Proofs.IntPatch.derives_below, E. }
  split; [rewrite (Proofs.IntPatch.isinstance_other _ _ M)|unfold issubclass; rewrite M]; apply Proofs.IntPatch.derives_spec.
Qed.
Print Assumptions C103_checks.

(** The old int and the new compare equal, both ways, and equal classes have equal hashes. *)
Theorem C103_equal : class_eq CInt CPatched = true /\ class_eq CPatched CInt = true /\
  (forall a b, class_eq a b = true -> class_hash a = class_hash b) /\ (forall a b, class_eq a b = class_eq b a) /\
  (forall c, ~ below c CPatched -> c <> CInt -> class_eq c CPatched = false).
Proof.
  assert (forall a b, same a b = same b a) as Sy.
  { intros a b. destruct (same a b) eqn:E; [apply Proofs.IntPatch.same_eq in E; subst; symmetry; apply Proofs.IntPatch.same_refl|].
    destruct (same b a) eqn:F; [|reflexivity]. apply Proofs.IntPatch.same_eq in F. subst. rewrite Proofs.IntPatch.same_refl in E. discriminate. }
  split; [reflexivity|]. split; [reflexivity|]. split; [|split].
  - intros a b. unfold class_eq, class_hash. destruct (meta a) eqn:Ma.
    + intros H. apply orb_true_iff in H. destruct H as [H|H]; apply Proofs.IntPatch.same_eq in H; subst; [rewrite Ma; reflexivity|reflexivity].
    + destruct (meta b) eqn:Mb; intros H.
      * apply orb_true_iff in H. destruct H as [H|H]; apply Proofs.IntPatch.same_eq in H; subst; [congruence|reflexivity].
      * apply Proofs.IntPatch.same_eq in H. exact H.
  - intros a b. unfold class_eq. destruct (meta a) eqn:Ma, (meta b) eqn:Mb; try reflexivity; try apply Sy.
    rewrite (Sy b a). assert (same a CInt = false) as -> by (apply Proofs.IntPatch.same_ne; intros ->; discriminate Ma).
    assert (same b CInt = false) as -> by (apply Proofs.IntPatch.same_ne; intros ->; discriminate Mb). reflexivity.
  - intros c N I. unfold class_eq. assert (meta c = false) as M.
    { unfold meta. destruct (derives c CPatched) eqn:E; [|reflexivity]. contradiction N. apply Proofs.IntPatch.derives_below, E. }
    rewrite M. cbn. rewrite (Proofs.IntPatch.same_ne c CInt I), orb_false_r. apply (Proofs.IntPatch.same_ne CPatched c). intros <-. discriminate M.
Qed.
Print Assumptions C103_equal.

(** Applying the patch changes the names int and int_ only; taking it back gives int again. *)
Theorem C103_names b n : apply b (B "int") = Some CPatched /\ apply b (B "int_") = Some CInt /\
  (n <> B "int" -> n <> B "int_" -> apply b n = b n) /\
  unapply (apply b) (B "int") = Some CInt /\ (n <> B "int" -> n <> B "int_" -> unapply (apply b) n = b n).
Proof.
  assert (forall k, n <> k -> beqb n k = false) as F.
  { intros k H. destruct (beqb n k) eqn:E; [apply Proofs.BytesLemmas.beqb_eq in E; contradiction|reflexivity]. }
  split; [reflexivity|]. split; [reflexivity|]. unfold unapply, apply, bind. split; [|split; [reflexivity|]]; intros A C; rewrite ?(F _ A), ?(F _ C); reflexivity.
Qed.
Print Assumptions C103_names.

(** Long bytes are not refused: they reach the slow conversion. *)
Theorem C103_bytes_refuted plain bs r : call plain CPatched (Bts bs :: r) = call plain CInt (Bts bs :: r).
Proof. reflexivity. Qed.
Print Assumptions C103_bytes_refuted.
(** int() without arguments, 0 before, raises. *)
Theorem C103_empty_refuted : exists plain, call plain CInt [] = Made CInt 0 /\ call plain CPatched [] = Raised TypeError.
Proof. exists (fun _ => inl 0%Z). split; reflexivity. Qed.
Print Assumptions C103_empty_refuted.
(** Every number is an instance of every class derived from the new int, and such a class equals the
    old int though not the new. *)
Theorem C103_derived_refuted t c : below c CPatched -> below t CInt -> isinstance t c = true /\
  (forall n, class_eq (CClass n CPatched) CInt = true /\ class_eq (CClass n CPatched) CPatched = false).
Proof.
  intros D T. split.
  - unfold isinstance, meta. rewrite (Proofs.IntPatch.below_derives _ _ D), (Proofs.IntPatch.below_derives _ _ T). destruct (same t c); reflexivity.
  - intros n. split; reflexivity.
Qed.
Print Assumptions C103_derived_refuted.
(** Taking the patch back leaves the name int_. *)
Theorem C103_names_refuted : exists b, b (B "int_") = None /\ unapply (apply b) (B "int_") <> None.
Proof. exists (fun _ => None). split; [reflexivity|]. vm_compute. discriminate. Qed.
Print Assumptions C103_names_refuted.

Example C103_ex : too_long [Str (List.repeat 57%N (N.to_nat 10001))] /\ ~ too_long [Str (List.repeat 57%N (N.to_nat 10000))] /\
  below (CClass 1 CInt) CInt /\ isinstance (CClass 1 CInt) CPatched = true /\ isinstance (CClass 2 CObject) CPatched = false /\
  ~ below (CClass 2 CObject) CPatched.
Proof.
  split; [vm_compute; reflexivity|]. split; [vm_compute; discriminate|]. split; [apply below_base|]. split; [reflexivity|]. split; [reflexivity|].
  intros H. apply Proofs.IntPatch.below_derives in H. discriminate H.
Qed.
