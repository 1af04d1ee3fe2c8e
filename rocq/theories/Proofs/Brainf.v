(** Proofs about the Brainf*** translation. *)
From Coq Require Import String.
From Verif Require Import Model.Bytes Model.Brainf Spec.Brainf Proofs.BytesLemmas.
Local Open Scope list_scope.
Local Open Scope nat_scope.

(** ** Brackets *)
Fixpoint closes (n : nat) (s : bytes) : Prop :=
  match n with
  | 0 => balanced s
  | S m => exists b y, s = b ++ 93%N :: y /\ balanced b /\ closes m y
  end.
Lemma closes_cons_other : forall n c s, c <> 91%N -> c <> 93%N -> closes n s -> closes n (c :: s).
Proof.
  intros [|n] c s H1 H2 H; [constructor; assumption|]. destruct H as (b & y & E & Hb & Hy). exists (c :: b), y. split; [rewrite E; reflexivity|].
  split; [constructor; assumption|exact Hy].
Qed.
Lemma closes_open : forall n s, closes (S n) s -> closes n (91%N :: s).
Proof.
  intros n s (b & y & E & Hb & Hy). subst s. destruct n as [|n]; [apply bal_loop; assumption|].
  destruct Hy as (b2 & y2 & E2 & Hb2 & Hy2). subst y. exists (91%N :: b ++ 93%N :: b2), y2. split; [cbn; rewrite <- app_assoc; reflexivity|].
  split; [apply bal_loop; assumption|exact Hy2].
Qed.
Lemma invalid_closes : forall s n, invalid_from n s = false -> closes n s.
Proof.
  induction s as [|c s IH]; intros n H; cbn [invalid_from] in H.
  - destruct n as [|n]; [constructor|discriminate].
  - destruct (c =? 91)%N eqn:E1; [apply N.eqb_eq in E1; subst c; apply closes_open; apply IH; exact H|].
    destruct (c =? 93)%N eqn:E2.
    + apply N.eqb_eq in E2. subst c. destruct n as [|n]; [discriminate|]. exists [], s. split; [reflexivity|]. split; [constructor|apply IH; exact H].
    + apply N.eqb_neq in E1, E2. apply closes_cons_other; [exact E1|exact E2|apply IH; exact H].
Qed.
Lemma invalid_balanced : forall b, balanced b -> forall n y, invalid_from n (b ++ y) = invalid_from n y.
Proof.
  intros b H. induction H as [|c x H1 H2 H IH|b x Hb IHb Hx IHx]; intros n y; [reflexivity| |].
  - cbn [app invalid_from]. apply N.eqb_neq in H1, H2. rewrite H1, H2. apply IH.
  - cbn [app invalid_from]. change (91 =? 91)%N with true. cbv iota. rewrite <- app_assoc. rewrite IHb. cbn [app invalid_from].
    change (93 =? 91)%N with false. change (93 =? 93)%N with true. cbv iota. apply IHx.
Qed.
Theorem brackets : forall s, has_invalid_brackets s = false <-> balanced s.
Proof.
  intro s. split; [exact (invalid_closes s 0)|]. intro H. unfold has_invalid_brackets. rewrite <- (app_nil_r s). rewrite invalid_balanced by exact H. reflexivity.
Qed.

(** ** Statements and their texts *)
Section StmtInd.
  Variable P : stmt -> Prop.
  Hypothesis Hb : forall t, (forall b, t <> While b) -> P t.
  Hypothesis Hw : forall b, Forall P b -> P (While b).
  Fixpoint stmt_ind2 (t : stmt) : P t :=
    match t with
    | While b => Hw b ((fix go l : Forall P l := match l with [] => Forall_nil P | x :: r => Forall_cons x (stmt_ind2 x) (go r) end) b)
    | IncPtr => Hb IncPtr ltac:(discriminate) | DecPtr => Hb DecPtr ltac:(discriminate)
    | IncCell => Hb IncCell ltac:(discriminate) | DecCell => Hb DecCell ltac:(discriminate)
    | Put => Hb Put ltac:(discriminate) | Get => Hb Get ltac:(discriminate)
    end.
End StmtInd.
Fixpoint bf1 (t : stmt) : bytes :=
  match t with
  | IncPtr => [62%N] | DecPtr => [60%N] | IncCell => [43%N] | DecCell => [45%N] | Put => [46%N] | Get => [44%N]
  | While body => 91%N :: (fix go l := match l with [] => [] | x :: r => bf1 x ++ go r end) body ++ [93%N]
  end.
Definition bf (l : list stmt) : bytes := concat (map bf1 l).
Lemma bf_while : forall b, bf1 (While b) = 91%N :: bf b ++ [93%N].
Proof. intro b. cbn [bf1]. f_equal. f_equal. unfold bf. induction b as [|x r IH]; [reflexivity|]. cbn [map concat]. rewrite <- IH. reflexivity. Qed.
Lemma c_while : forall b, c_text1 (While b) = B "while(*p){" ++ c_text b ++ B "}".
Proof. intro b. cbn [c_text1]. f_equal. f_equal. unfold c_text. induction b as [|x r IH]; [reflexivity|]. cbn [map concat]. rewrite <- IH. reflexivity. Qed.
Lemma bf_app : forall a b, bf (a ++ b) = bf a ++ bf b.
Proof. intros. unfold bf. rewrite map_app, concat_app. reflexivity. Qed.
Lemma bf_cons : forall t l, bf (t :: l) = bf1 t ++ bf l.
Proof. reflexivity. Qed.
Lemma c_cons : forall t l, c_text (t :: l) = c_text1 t ++ c_text l.
Proof. reflexivity. Qed.

Lemma translated_app : forall a b, translated (a ++ b) = translated a ++ translated b.
Proof. intros. unfold translated. rewrite map_app, concat_app. reflexivity. Qed.
Lemma commands_app : forall a b, commands (a ++ b) = commands a ++ commands b.
Proof. intros. unfold commands. apply filter_app. Qed.
(** Each byte is a comment without a translation, or a command. *)
Lemma byte_cases : forall c, c <> 91%N -> c <> 93%N ->
  (is_command c = false /\ trans c = []) \/ (is_command c = true /\ exists t, (forall b, t <> While b) /\ bf1 t = [c] /\ trans c = c_text1 t).
Proof.
  intros c H1 H2.
  destruct (N.eq_dec c 62) as [E1|E1]; [subst c; right; split; [reflexivity|]; exists IncPtr; split; [discriminate|split; reflexivity]|].
  destruct (N.eq_dec c 60) as [E2|E2]; [subst c; right; split; [reflexivity|]; exists DecPtr; split; [discriminate|split; reflexivity]|].
  destruct (N.eq_dec c 43) as [E3|E3]; [subst c; right; split; [reflexivity|]; exists IncCell; split; [discriminate|split; reflexivity]|].
  destruct (N.eq_dec c 45) as [E4|E4]; [subst c; right; split; [reflexivity|]; exists DecCell; split; [discriminate|split; reflexivity]|].
  destruct (N.eq_dec c 46) as [E5|E5]; [subst c; right; split; [reflexivity|]; exists Put; split; [discriminate|split; reflexivity]|].
  destruct (N.eq_dec c 44) as [E6|E6]; [subst c; right; split; [reflexivity|]; exists Get; split; [discriminate|split; reflexivity]|].
  left. apply N.eqb_neq in H1, H2, E1, E2, E3, E4, E5, E6. unfold is_command, trans.
  change (B "><+-.,[]") with [62; 60; 43; 45; 46; 44; 91; 93]%N. cbn [existsb]. rewrite H1, H2, E1, E2, E3, E4, E5, E6. split; reflexivity.
Qed.
Lemma parsed : forall s, balanced s -> exists l, commands s = bf l /\ translated s = c_text l.
Proof.
  intros s H. induction H as [|c x H1 H2 H (l & A & C)|b x Hb (lb & A & C) Hx (lx & A2 & C2)].
  - exists []. split; reflexivity.
  - destruct (byte_cases c H1 H2) as [(X & Y)|(X & t & T & Y & Z)].
    + exists l. unfold commands, translated in *. cbn [filter map concat]. rewrite X, Y. split; assumption.
    + exists (t :: l). unfold commands, translated in *. cbn [filter map concat]. rewrite X, Z, bf_cons, c_cons, Y. cbn [app]. rewrite <- A, <- C. split; reflexivity.
  - exists (While lb :: lx). rewrite bf_cons, c_cons, bf_while, c_while. change (91%N :: b ++ 93%N :: x) with ([91%N] ++ b ++ [93%N] ++ x).
    rewrite !commands_app, !translated_app, A, C, A2, C2. cbn [app]. split; [rewrite <- app_assoc; reflexivity|rewrite <- !app_assoc; reflexivity].
Qed.

Lemma balanced_app : forall a b, balanced a -> balanced b -> balanced (a ++ b).
Proof.
  intros a b H. revert b. induction H as [|c x H1 H2 H IH|a x Ha IHa Hx IHx]; intros b Hb; [exact Hb|constructor; [exact H1|exact H2|apply IH; exact Hb]|].
  cbn [app]. rewrite <- app_assoc. cbn [app]. apply bal_loop; [exact Ha|apply IHx; exact Hb].
Qed.
Lemma bf1_balanced : forall t, balanced (bf1 t).
Proof.
  apply stmt_ind2.
  - intros t H. destruct t; cbn [bf1]; try (apply bal_other; [discriminate|discriminate|constructor]). exfalso. exact (H _ eq_refl).
  - intros b H. rewrite bf_while. apply bal_loop; [|constructor]. induction H as [|x l Hx Hl IH]; [constructor|]. rewrite bf_cons. apply balanced_app; assumption.
Qed.
Lemma bf_balanced : forall l, balanced (bf l).
Proof. induction l as [|t l IH]; [constructor|]. rewrite bf_cons. apply balanced_app; [apply bf1_balanced|exact IH]. Qed.

(** Depth: opening minus closing brackets. *)
Fixpoint depth (s : bytes) : Z :=
  match s with [] => 0 | c :: r => ((if (c =? 91)%N then 1 else if (c =? 93)%N then -1 else 0) + depth r)%Z end.
Lemma depth_app : forall a b, depth (a ++ b) = (depth a + depth b)%Z.
Proof. induction a as [|c a IH]; intro b; [reflexivity|]. cbn [app depth]. rewrite IH. lia. Qed.
Lemma balanced_depth : forall b, balanced b -> depth b = 0%Z.
Proof.
  intros b H. induction H as [|c x H1 H2 H IH|b x Hb IHb Hx IHx]; [reflexivity| |].
  - cbn [depth]. apply N.eqb_neq in H1, H2. rewrite H1, H2, IH. reflexivity.
  - change (91%N :: b ++ 93%N :: x) with ([91%N] ++ b ++ [93%N] ++ x). rewrite !depth_app, IHb, IHx. reflexivity.
Qed.
Lemma balanced_prefix : forall b, balanced b -> forall u v, b = u ++ v -> (0 <= depth u)%Z.
Proof.
  intros b H. induction H as [|c x H1 H2 H IH|b x Hb IHb Hx IHx]; intros u v E.
  - destruct u; [cbn; lia|discriminate].
  - destruct u as [|d u]; [cbn; lia|]. injection E as <- E. cbn [depth]. apply N.eqb_neq in H1, H2. rewrite H1, H2. specialize (IH u v E). lia.
  - destruct u as [|d u]; [cbn; lia|]. injection E as <- E. cbn [depth]. change (91 =? 91)%N with true. cbv iota.
    destruct (Nat.le_gt_cases (length u) (length b)) as [L|L].
    + assert (X : u = firstn (length u) b). { rewrite <- (firstn_all u) at 1. apply (f_equal (firstn (length u))) in E. rewrite firstn_app in E.
        replace (length u - length b) with 0 in E by lia. rewrite firstn_O, app_nil_r in E. rewrite firstn_app, Nat.sub_diag, firstn_O, app_nil_r, firstn_all in E. rewrite firstn_all. congruence. }
      specialize (IHb (firstn (length u) b) (skipn (length u) b) (eq_sym (firstn_skipn _ _))). rewrite <- X in IHb. lia.
    + assert (X : exists w, u = b ++ 93%N :: w /\ x = w ++ v).
      { clear - E L. revert u E L. induction b as [|a b IH]; intros u E L.
        - destruct u as [|d u]; [cbn in L; lia|]. injection E as <- E. exists u. split; [reflexivity|exact E].
        - destruct u as [|d u]; [cbn in L; lia|]. injection E as <- E. destruct (IH u E) as (w & A & C); [cbn in L; lia|]. exists w. split; [rewrite A; reflexivity|exact C]. }
      destruct X as (w & A & C). subst u. rewrite depth_app. cbn [depth]. change (93 =? 91)%N with false. change (93 =? 93)%N with true. cbv iota.
      rewrite (balanced_depth b Hb). specialize (IHx w v C). lia.
Qed.

(** The bracket that belongs to one is unique, in both directions. *)
Lemma split_eq : forall (a a' x x' : bytes), a ++ x = a' ++ x' -> length a = length a' -> a = a' /\ x = x'.
Proof.
  induction a as [|c a IH]; intros a' x x' E L; destruct a' as [|c' a']; try discriminate; [split; [reflexivity|exact E]|].
  injection E as -> E. cbn in L. destruct (IH a' x x' E ltac:(lia)) as [-> ->]. split; reflexivity.
Qed.
Lemma long_prefix : forall (a a' x x' : bytes), a ++ x = a' ++ x' -> length a < length a' -> exists c w, a' = a ++ c :: w /\ x = c :: w ++ x'.
Proof.
  induction a as [|c a IH]; intros a' x x' E L; destruct a' as [|c' a']; try (cbn in L; lia).
  - exists c', a'. split; [reflexivity|exact E].
  - injection E as -> E. destruct (IH a' x x' E ltac:(cbn in L; lia)) as (d & w & -> & ->). exists d, w. split; reflexivity.
Qed.
Lemma close_unique : forall b b' y y', balanced b -> balanced b' -> b ++ 93%N :: y = b' ++ 93%N :: y' -> b = b' /\ y = y'.
Proof.
  assert (Q : forall b b' y y', balanced b -> balanced b' -> b ++ 93%N :: y = b' ++ 93%N :: y' -> ~ length b < length b').
  { intros b b' y y' H H' E L. destruct (long_prefix _ _ _ _ E L) as (c & w & X & Y). injection Y as <- _.
    assert (D : (0 <= depth (b ++ [93%N]))%Z) by (apply (balanced_prefix b' H' _ w); rewrite X, <- app_assoc; reflexivity).
    rewrite depth_app, (balanced_depth b H) in D. cbn in D. lia. }
  intros b b' y y' H H' E. destruct (Nat.lt_trichotomy (length b) (length b')) as [L|[L|L]].
  - exfalso. exact (Q _ _ _ _ H H' E L).
  - destruct (split_eq _ _ _ _ E L) as [-> X]. injection X as ->. split; reflexivity.
  - exfalso. exact (Q _ _ _ _ H' H (eq_sym E) L).
Qed.
Lemma matching_right : forall p i j j', matching p i j -> matching p i j' -> j = j'.
Proof.
  intros p i j j' (a & b & c & E & Hb & La & Lj) (a' & b' & c' & E' & Hb' & La' & Lj'). rewrite E in E'.
  destruct (split_eq _ _ _ _ E' ltac:(lia)) as [_ X]. injection X as X. destruct (close_unique _ _ _ _ Hb Hb' X) as [-> _]. lia.
Qed.
Lemma matching_left : forall p i i' j, matching p i j -> matching p i' j -> i = i'.
Proof.
  assert (Q : forall p i i' j, matching p i j -> matching p i' j -> ~ i < i').
  { intros p i i' j (a & b & c & E & Hb & La & Lj) (a' & b' & c' & E' & Hb' & La' & Lj') L. rewrite E in E'.
    destruct (long_prefix _ _ _ _ E' ltac:(lia)) as (d & u & X & Y). injection Y as <- Y.
    assert (Lb : length b = length (u ++ 91%N :: b')). { rewrite app_length. cbn [length]. rewrite X, app_length in La'. cbn [length] in La'. lia. }
    replace (u ++ 91%N :: b' ++ 93%N :: c') with ((u ++ 91%N :: b') ++ 93%N :: c') in Y by (rewrite <- app_assoc; reflexivity).
    destruct (split_eq _ _ _ _ Y Lb) as [Z _]. pose proof (balanced_depth b Hb) as D. pose proof (balanced_prefix b Hb u (91%N :: b') Z) as D2.
    rewrite Z, depth_app in D. cbn [depth] in D. change (91 =? 91)%N with true in D. cbv iota in D. rewrite (balanced_depth b' Hb') in D. lia. }
  intros p i i' j H H'. destruct (Nat.lt_trichotomy i i') as [L|[L|L]]; [exfalso; exact (Q _ _ _ _ H H' L)|exact L|exfalso; exact (Q _ _ _ _ H' H L)].
Qed.
Lemma matching_at : forall p i j, matching p i j -> nth_error p i = Some 91%N /\ nth_error p j = Some 93%N.
Proof.
  intros p i j (a & b & c & E & _ & La & Lj). subst p i j. split.
  - rewrite nth_error_app2, Nat.sub_diag by lia. reflexivity.
  - rewrite nth_error_app2 by lia. replace (length a + 1 + length b - length a) with (S (length b)) by lia. cbn [nth_error]. rewrite nth_error_app2, Nat.sub_diag by lia. reflexivity.
Qed.

(** ** Lock step *)
(** Where the C program is when the source is between [pre] and [suf]. *)
Inductive at_ : bytes -> bytes -> list (list stmt) -> Prop :=
| at_top : forall pre l, at_ pre (bf l) [l]
| at_in : forall pre done l y r k, at_ pre (91%N :: bf (done ++ l) ++ 93%N :: y) ((While (done ++ l) :: r) :: k) ->
    at_ (pre ++ 91%N :: bf done) (bf l ++ 93%N :: y) (l :: (While (done ++ l) :: r) :: k).
Lemma at_advance : forall pre suf t l k, at_ pre suf ((t :: l) :: k) -> exists suf', suf = bf1 t ++ suf' /\ at_ (pre ++ bf1 t) suf' (l :: k).
Proof.
  intros pre suf t l k H. inversion H; subst.
  - exists (bf l). split; [reflexivity|]. constructor.
  - exists (bf l ++ 93%N :: y). split; [rewrite bf_cons, <- app_assoc; reflexivity|].
    replace ((pre0 ++ 91%N :: bf done) ++ bf1 t) with (pre0 ++ 91%N :: bf (done ++ [t])).
    2:{ rewrite bf_app, <- !app_assoc. cbn [app]. unfold bf at 2. cbn [map concat]. rewrite app_nil_r. reflexivity. }
    replace (done ++ t :: l) with ((done ++ [t]) ++ l) by (rewrite <- app_assoc; reflexivity). constructor.
    rewrite <- app_assoc. exact H3.
Qed.
Lemma nth_at : forall (pre : bytes) c suf, nth_error (pre ++ c :: suf) (length pre) = Some c.
Proof. intros. rewrite nth_error_app2, Nat.sub_diag by lia. reflexivity. Qed.
Lemma bf1_basic : forall t, (forall b, t <> While b) -> exists c, bf1 t = [c] /\ c <> 91%N /\ c <> 93%N /\ forall s, act c s = c_act t s.
Proof.
  intros t H. destruct t; try (eexists; split; [reflexivity|split; [discriminate|split; [discriminate|intro s; reflexivity]]]). exfalso. exact (H _ eq_refl).
Qed.
Definition sim (p : bytes) (x : nat * machine) (y : list (list stmt) * machine) : Prop :=
  snd x = snd y /\ exists pre suf, p = pre ++ suf /\ length pre = fst x /\ at_ pre suf (fst y).
Lemma at_nil : forall pre suf k, at_ pre suf ([] :: k) -> (suf = [] /\ k = [])
  \/ exists pre0 done y r k0, pre = pre0 ++ 91%N :: bf done /\ suf = 93%N :: y /\ k = (While done :: r) :: k0 /\ at_ pre0 (91%N :: bf done ++ 93%N :: y) ((While done :: r) :: k0).
Proof.
  intros pre suf k H. remember ([] :: k) as f eqn:F. destruct H as [pre l|pre done l y r k0 A].
  - injection F as -> <-. left. split; reflexivity.
  - injection F as -> <-. right. rewrite app_nil_r in *. exists pre, done, y, r, k0. split; [reflexivity|]. split; [reflexivity|]. split; [reflexivity|exact A].
Qed.
(** Wherever the C program is, both can take exactly the same steps. *)
Lemma at_step : forall p pre suf f s, p = pre ++ suf -> at_ pre suf f ->
  (suf = [] /\ f = [[]])
  \/ exists x' y', bf_step p (length pre, s) x' /\ c_step (f, s) y' /\ sim p x' y'
     /\ (forall x'', bf_step p (length pre, s) x'' -> x'' = x') /\ (forall y'', c_step (f, s) y'' -> y'' = y').
Proof.
  intros p pre suf f s E H. destruct f as [|l k]; [inversion H|]. destruct l as [|t l].
  - destruct (at_nil _ _ _ H) as [(-> & ->)|(pre0 & done & y & r & k0 & -> & -> & -> & A)]; [left; split; reflexivity|]. right.
      assert (M : matching p (length pre0) (length pre0 + 1 + length (bf done))).
      { exists pre0, (bf done), y. split; [rewrite E, <- app_assoc; reflexivity|]. split; [apply bf_balanced|]. split; reflexivity. }
      assert (Lp : length (pre0 ++ 91%N :: bf done) = length pre0 + 1 + length (bf done)) by (rewrite app_length; cbn [length]; lia).
      rewrite Lp.
      exists (length pre0, s), (((While done :: r) :: k0), s). split; [exact (bf_back _ _ _ s M)|]. split; [constructor|]. split; [|split].
      * split; [reflexivity|]. exists pre0. eexists. split; [|split; [reflexivity|exact A]]. rewrite E, <- app_assoc. reflexivity.
      * intros x'' S. destruct (matching_at _ _ _ M) as [_ N3]. inversion S as [i0 s0 c0 Q1 Q2 Q3|i0 s0 Q1 Q2|i0 j0 s0 Q1 Q2|i0 j0 s0 Q1]; subst x'' s0; try congruence.
        -- destruct (matching_at _ _ _ Q1) as [N1 _]. congruence.
        -- rewrite (matching_left _ _ _ _ Q1 M). reflexivity.
      * intros y'' S. inversion S; subst. reflexivity.
  - right. destruct (at_advance _ _ _ _ _ H) as (suf' & Es & A).
    destruct t as [ | | | | | |b].
    1-6: (match type of H with at_ _ _ ((?t :: _) :: _) => destruct (bf1_basic t ltac:(discriminate)) as (c & Ec & C1 & C2 & Ac) end;
      rewrite Ec in *; cbn [app] in Es; subst suf p;
      eexists; eexists; split; [apply (bf_act _ _ s c); [apply nth_at|exact C1|exact C2]|]; split; [apply c_basic; discriminate|]; split; [|split];
      [ split; [cbn [snd]; apply Ac|]; exists (pre ++ [c]), suf'; split; [rewrite <- app_assoc; reflexivity|]; split; [rewrite app_length; cbn; lia|exact A]
      | intros x'' S; pose proof (nth_at pre c suf') as N0; inversion S; subst;
        [ assert (c0 = c) by congruence; subst c0; reflexivity
        | exfalso; congruence
        | match goal with M : matching _ _ _ |- _ => destruct (matching_at _ _ _ M) as [N1 _]; exfalso; congruence end
        | match goal with M : matching _ _ _ |- _ => destruct (matching_at _ _ _ M) as [_ N1]; exfalso; congruence end ]
      | intros y'' S; inversion S; subst; reflexivity ]).
    rewrite bf_while in *. assert (Es' : suf = 91%N :: bf b ++ 93%N :: suf') by (rewrite Es; cbn [app]; rewrite <- app_assoc; reflexivity). clear Es.
    assert (M : matching p (length pre) (length pre + 1 + length (bf b))).
    { exists pre, (bf b), suf'. split; [rewrite E, Es'; reflexivity|]. split; [apply bf_balanced|]. split; reflexivity. }
    destruct (matching_at _ _ _ M) as [N1 N2]. destruct (N.eq_dec (cell s (ptr s)) 0) as [Z|Z].
    + exists (S (length pre + 1 + length (bf b)), s), (l :: k, s). split; [exact (bf_skip _ _ _ s M Z)|]. split; [apply c_leave; exact Z|]. split; [|split].
      * split; [reflexivity|]. exists (pre ++ 91%N :: bf b ++ [93%N]), suf'. split; [rewrite E, Es', <- app_assoc; cbn [app]; rewrite <- app_assoc; reflexivity|].
        split; [rewrite app_length; cbn [length]; rewrite app_length; cbn [length fst]; lia|exact A].
      * intros x'' S. inversion S as [i0 s0 c0 Q1 Q2 Q3|i0 s0 Q1 Q2|i0 j0 s0 Q1 Q2|i0 j0 s0 Q1]; subst x'' s0; try congruence; [|].
        -- rewrite (matching_right _ _ _ _ Q1 M). reflexivity.
        -- exfalso. destruct (matching_at _ _ _ Q1) as [_ N3]. congruence.
      * intros y'' S. inversion S; subst; try reflexivity; exfalso; solve [congruence | match goal with Q : forall b, _ <> _ |- _ => exact (Q _ eq_refl) end].
    + exists (S (length pre), s), (b :: (While b :: l) :: k, s). split; [exact (bf_enter _ _ s N1 Z)|]. split; [apply c_enter; exact Z|]. split; [|split].
      * split; [reflexivity|]. exists (pre ++ [91%N]), (bf b ++ 93%N :: suf'). split; [rewrite E, Es', <- app_assoc; reflexivity|].
        split; [rewrite app_length; cbn; lia|]. cbn [fst]. change (pre ++ [91%N]) with (pre ++ 91%N :: bf []). apply (at_in pre [] b suf' l k). rewrite Es' in H. exact H.
      * intros x'' S. inversion S as [i0 s0 c0 Q1 Q2 Q3|i0 s0 Q1 Q2|i0 j0 s0 Q1 Q2|i0 j0 s0 Q1]; subst x'' s0; try congruence. destruct (matching_at _ _ _ Q1) as [_ N3]. congruence.
      * intros y'' S. inversion S; subst; try reflexivity; exfalso; solve [congruence | match goal with Q : forall b, _ <> _ |- _ => exact (Q _ eq_refl) end].
Qed.
Lemma bf_stuck : forall p i s x, length p <= i -> ~ bf_step p (i, s) x.
Proof.
  intros p i s x L H. assert (N0 : nth_error p i = None) by (apply nth_error_None; exact L). inversion H as [i0 s0 c0 Q1 Q2 Q3|i0 s0 Q1 Q2|i0 j0 s0 Q1 Q2|i0 j0 s0 Q1]; try congruence.
  - destruct (matching_at _ _ _ Q1). congruence.
  - destruct (matching_at _ _ _ Q1). congruence.
Qed.
Lemma sim_finished : forall p x y, sim p x y -> fst x = length p <-> c_finished (fst y).
Proof.
  intros p [i s] [f s'] (E & pre & suf & Ep & L & A). cbn [fst snd] in *. subst p i. rewrite app_length. unfold c_finished. split.
  - intro H. destruct suf as [|c suf]; [|cbn in H; lia]. inversion A as [p0 l Q1 Q2 Q3|p0 d l y r k Q0 Q1 Q2 Q3]; [|destruct (bf l); discriminate].
    destruct l as [|t l]; [reflexivity|]. exfalso. rewrite bf_cons in Q2. destruct t; discriminate Q2.
  - intro H. subst f. inversion A; subst. cbn. lia.
Qed.
Lemma sim_bf : forall p n x x' y, sim p x y -> steps (bf_step p) n x x' -> exists y', steps c_step n y y' /\ sim p x' y'.
Proof.
  intros p n. induction n as [|n IH]; intros x x' y S H; inversion H as [x0|n0 x0 y0 z0 R1 R2]; subst.
  - exists y. split; [constructor|exact S].
  - destruct x as [i s], y as [f s']. destruct S as (E & pre & suf & Ep & L & A). cbn [fst snd] in *. subst s' i.
    destruct (at_step p pre suf f s Ep A) as [(X & Y)|(x1 & y1 & S1 & S2 & S3 & U1 & U2)].
    + exfalso. subst suf. apply (bf_stuck p (length pre) s y0); [rewrite Ep, app_nil_r; lia|exact R1].
    + rewrite (U1 _ R1) in R2. destruct (IH _ _ _ S3 R2) as (y' & T1 & T2). exists y'. split; [econstructor; [exact S2|exact T1]|exact T2].
Qed.
Lemma sim_c : forall p n x y y', sim p x y -> steps c_step n y y' -> exists x', steps (bf_step p) n x x' /\ sim p x' y'.
Proof.
  intros p n. induction n as [|n IH]; intros x y y' S H; inversion H as [x0|n0 x0 y0 z0 R1 R2]; subst.
  - exists x. split; [constructor|exact S].
  - destruct x as [i s], y as [f s']. destruct S as (E & pre & suf & Ep & L & A). cbn [fst snd] in *. subst s' i.
    destruct (at_step p pre suf f s Ep A) as [(X & Y)|(x1 & y1 & S1 & S2 & S3 & U1 & U2)].
    + exfalso. subst f. inversion R1.
    + rewrite (U2 _ R1) in R2. destruct (IH _ _ _ S3 R2) as (x' & T1 & T2). exists x'. split; [econstructor; [exact S1|exact T1]|exact T2].
Qed.
Lemma sim_start : forall l s, sim (bf l) (0, s) ([l], s).
Proof. intros l s. split; [reflexivity|]. exists [], (bf l). split; [reflexivity|]. split; [reflexivity|constructor]. Qed.

(** The text of a block can be read in one way only. *)
Lemma c_text_unique1 : forall t, forall t' x x', c_text1 t ++ x = c_text1 t' ++ x' -> (forall b, t <> While b) -> t' = t /\ x' = x.
Proof.
  intros t t' x x' E H. destruct t; try (exfalso; exact (H _ eq_refl)); destruct t'; try rewrite c_while in E; try discriminate E; cbn in E; injection E as E; (split; [reflexivity|congruence]).
Qed.
Lemma c_text_prefix : forall l, forall l' x x', c_text l ++ 125%N :: x = c_text l' ++ 125%N :: x' -> l' = l /\ x' = x.
Proof.
  assert (G : forall n l, length (c_text l) <= n -> forall l' x x', c_text l ++ 125%N :: x = c_text l' ++ 125%N :: x' -> l' = l /\ x' = x).
  2:{ intro l. apply (G (length (c_text l))). lia. }
  induction n as [|n IH]; intros l L l' x x' E.
  - destruct l as [|t l]; [|exfalso; rewrite c_cons, app_length in L; destruct t; try rewrite c_while in L; cbn in L; lia].
    destruct l' as [|t' l']; [injection E as ->; split; reflexivity|]. exfalso. rewrite c_cons in E. destruct t'; try rewrite c_while in E; discriminate E.
  - destruct l as [|t l], l' as [|t' l'].
    + injection E as ->. split; reflexivity.
    + exfalso. rewrite c_cons in E. destruct t'; try rewrite c_while in E; discriminate E.
    + exfalso. rewrite c_cons in E. destruct t; try rewrite c_while in E; discriminate E.
    + rewrite !c_cons, <- !app_assoc in E.
      assert (D : (forall b, t <> While b) \/ exists b, t = While b) by (destruct t; try (left; discriminate); right; eexists; reflexivity).
      destruct D as [D|(b & ->)].
      * apply c_text_unique1 in E; [|exact D]. destruct E as [-> E]. destruct (IH l ltac:(rewrite c_cons, app_length in L; destruct t; try (cbn in L; lia); exfalso; exact (D _ eq_refl)) l' x x' (eq_sym E)) as [-> ->].
        split; reflexivity.
      * destruct t' as [ | | | | | |b'].
        1-6: exfalso; rewrite c_while in E; discriminate E.
        rewrite !c_while, <- !app_assoc in E. apply app_inv_head in E. change (B "}") with [125%N] in E. cbn [app] in E.
        rewrite c_cons, app_length, c_while, !app_length in L. cbn [B length] in L.
        destruct (IH b ltac:(lia) _ _ _ E) as [-> E2]. destruct (IH l ltac:(lia) _ _ _ (eq_sym E2)) as [-> ->]. split; reflexivity.
Qed.
Lemma c_text_unique : forall l l', c_text l = c_text l' -> l' = l.
Proof. intros l l' E. apply (c_text_prefix l l' [] []). rewrite E. reflexivity. Qed.

(** ** Putting it into the template *)
Definition before : bytes := firstn (length template - 9) template.
Definition after : bytes := skipn (length template - 3) template.
Lemma template_replaced : forall code, replace (B "{code}") code template = before ++ code ++ after.
Proof. intro code. vm_compute. reflexivity. Qed.
Theorem translation : forall source, balanced source ->
  exists l, translated source = c_text l /\ (forall l', c_text l' = translated source -> l' = l) /\ commands source = bf l
  /\ (forall s n i t, steps (bf_step (commands source)) n (0, s) (i, t) -> exists f, steps c_step n ([l], s) (f, t) /\ (i = length (commands source) <-> c_finished f))
  /\ (forall s n f t, steps c_step n ([l], s) (f, t) -> exists i, steps (bf_step (commands source)) n (0, s) (i, t) /\ (i = length (commands source) <-> c_finished f)).
Proof.
  intros source H. destruct (parsed source H) as (l & A & C). exists l. split; [exact C|]. split; [intros l' E; apply c_text_unique; congruence|]. split; [exact A|].
  rewrite A. split.
  - intros s n i t S. destruct (sim_bf _ _ _ _ _ (sim_start l s) S) as ([f t'] & S1 & S2). pose proof (sim_finished _ _ _ S2) as F. destruct S2 as (E & _). cbn [snd fst] in *. subst t'.
    exists f. split; assumption.
  - intros s n f t S. destruct (sim_c _ _ _ _ _ (sim_start l s) S) as ([i t'] & S1 & S2). pose proof (sim_finished _ _ _ S2) as F. destruct S2 as (E & _). cbn [snd fst] in *. subst t'.
    exists i. split; assumption.
Qed.
