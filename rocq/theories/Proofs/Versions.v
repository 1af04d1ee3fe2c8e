From Coq Require Import String Lia.
From Verif Require Import Model.Bytes Proofs.BytesLemmas Model.Versions Spec.Versions.
Local Open Scope nat_scope.
Local Open Scope list_scope.

Section Ask.
  Variable parse : bytes -> option version.
  Lemma ask_useless l r : Forall (useless parse) l -> ask parse (l ++ r) = ask parse r.
  Proof. induction 1 as [|x l U _ IH]; [reflexivity|]. destruct U as [|o E|o E]; cbn; try rewrite E; exact IH. Qed.
  Lemma ask_iff flags v : ask parse flags = Some v <-> version_of parse flags v.
  Proof.
    split.
    - revert v. induction flags as [|[o| |] r IH]; intros v; cbn.
      + intros [= <-]. apply version_none. constructor.
      + destruct (parse o) as [[|z u]|] eqn:E.
        * intros H. destruct (IH _ H) as [l o' v' r' U P N|l U]; [apply (version_first parse (Printed o :: l)); try assumption|apply version_none];
            (constructor; [apply useless_empty; exact E | exact U]).
        * intros [= <-]. apply (version_first parse []); [constructor | exact E | discriminate].
        * intros H. destruct (IH _ H) as [l o' v' r' U P N|l U]; [apply (version_first parse (Printed o :: l)); try assumption|apply version_none];
            (constructor; [apply useless_none; exact E | exact U]).
      + intros H. destruct (IH _ H) as [l o' v' r' U P N|l U]; [apply (version_first parse (Failed :: l)); try assumption|apply version_none];
          (constructor; [apply useless_failed | exact U]).
      + discriminate.
    - intros [l o v' r U P N|l U].
      + rewrite ask_useless by exact U. cbn. rewrite P. destruct v'; [contradiction N; reflexivity | reflexivity].
      + rewrite <- (app_nil_r l), ask_useless by exact U. reflexivity.
  Qed.
  Lemma asked_iff w : forall r, asked parse w = Some r <-> reports parse w r.
  Proof.
    induction w as [|[n f] w IH]; intros r; cbn.
    - split; [intros [= <-]; constructor | intros H; inversion H; reflexivity].
    - split.
      + destruct (ask parse f) as [v|] eqn:A; [|discriminate]. destruct (asked parse w) as [l|] eqn:E; [|discriminate].
        intros [= <-]. constructor; [split; [reflexivity | apply ask_iff; exact A] | apply IH; reflexivity].
      + intros H. inversion H as [|? [n' v] ? l [E V] T]; subst. cbn in *. subst n'.
        apply ask_iff in V. rewrite V. apply IH in T. rewrite T. reflexivity.
  Qed.
  Lemma asked_none w : asked parse w = None <-> forall r, ~ reports parse w r.
  Proof.
    split.
    - intros E r H. apply asked_iff in H. rewrite E in H. discriminate H.
    - intros H. destruct (asked parse w) as [r|] eqn:E; [|reflexivity]. apply asked_iff in E. destruct (H _ E).
  Qed.
  Lemma fold_kept h : forall c n r, lookup n c = Some r ->
    lookup n (fold_left (fun c x => snd (get_runtime_versions parse c (fst x) (snd x))) h c) = Some r.
  Proof.
    induction h as [|[m w] h IH]; intros c n r L; [exact L|]. cbn [fold_left fst snd]. apply IH.
    unfold get_runtime_versions. destruct (lookup m c) as [r'|] eqn:M; [exact L|]. destruct (asked parse w) as [r'|]; [|exact L].
    cbn. destruct (beqb n m) eqn:E; [|exact L]. apply beqb_eq in E. subst m. rewrite L in M. discriminate M.
  Qed.
  Lemma fold_unknown h : forall c n, lookup n c = None -> not_yet parse n h ->
    lookup n (fold_left (fun c x => snd (get_runtime_versions parse c (fst x) (snd x))) h c) = None.
  Proof.
    induction h as [|[m w] h IH]; intros c n L Y; [exact L|]. cbn [fold_left fst snd]. apply IH.
    - unfold get_runtime_versions. destruct (lookup m c) as [r'|] eqn:M; [exact L|]. destruct (asked parse w) as [r'|] eqn:A; [|exact L].
      cbn. destruct (beqb n m) eqn:E; [|exact L]. apply beqb_eq in E. subst m.
      apply asked_iff in A. destruct (Y w (or_introl eq_refl) _ A).
    - intros w' I. apply (Y w'). right. exact I.
  Qed.
End Ask.
