From Coq Require Import String QArith Lqa ZifyBool ZifyN.
From Flocq Require Import IEEE754.BinarySingleNaN.
From Verif Require Import Model.Bytes Model.Checkers Model.Floats Model.Contrib
  Spec.Text Spec.Contrib Proofs.BytesLemmas.
Local Open Scope nat_scope.
Local Open Scope list_scope.

Lemma ascii_bytes_B s : ascii_bytes s = B s.
Proof. induction s; cbn; congruence. Qed.

Lemma is_digit_iff c : is_digit c = true <-> digit c.
Proof. unfold is_digit, digit. lia. Qed.
Lemma forallb_digit ds : forallb is_digit ds = true <-> Forall digit ds.
Proof. rewrite forallb_forall, Forall_forall. split; intros H x Hx; apply is_digit_iff, H, Hx. Qed.
Lemma nonempty_iff {A} (l : list A) : nonempty l = true <-> l <> [].
Proof. destruct l; cbn; split; congruence. Qed.

Lemma denotes_int ds : Forall digit ds -> denotes ds (int_of_digits ds).
Proof.
  induction ds as [|c ds IH] using rev_ind; intros H; [constructor|].
  apply Forall_app in H as [H1 H2]. inversion H2; subst.
  unfold int_of_digits. rewrite fold_left_app. cbn [fold_left]. fold (int_of_digits ds).
  replace (int_of_digits ds * 10 + (Z.of_N c - 48))%Z with (10 * int_of_digits ds + (Z.of_N c - 48))%Z by lia.
  constructor; auto.
Qed.
Lemma denotes_fun ds a : denotes ds a -> forall b, denotes ds b -> a = b.
Proof.
  induction 1 as [|ds z c H IH Hc]; intros b Hb; inversion Hb as [E|ds' z' c' H' Hc' E]; subst.
  - reflexivity.
  - destruct ds'; discriminate.
  - destruct ds; discriminate.
  - apply app_inj_tail in E as [-> ->]. rewrite (IH _ H'). reflexivity.
Qed.
Lemma denotes_nonneg ds a : denotes ds a -> (0 <= a)%Z.
Proof. induction 1; unfold digit in *; lia. Qed.

Lemma strip_prefix_iff p s r : strip_prefix p s = Some r <-> s = p ++ r.
Proof.
  revert s. induction p as [|a p IH]; intros s; cbn.
  - split; congruence.
  - destruct s as [|c s]; [split; [discriminate|discriminate]|].
    destruct (N.eqb_spec a c) as [->|Hn].
    + rewrite IH. split; congruence.
    + split; [discriminate|congruence].
Qed.

Lemma points_line_iff l n : points_line l = Some n <-> says_points l n.
Proof.
  unfold points_line, says_points. rewrite (ascii_bytes_B "points "). split.
  - destruct (strip_prefix (B "points ") l) as [ds|] eqn:E; [|discriminate].
    apply strip_prefix_iff in E. destruct (nonempty ds && forallb is_digit ds) eqn:E2; [|discriminate].
    intros H. injection H as <-. apply andb_true_iff in E2 as [H1 H2].
    apply nonempty_iff in H1. apply forallb_digit in H2. exists ds. repeat split; auto. apply denotes_int, H2.
  - intros [ds [E [[H1 H2] Hd]]]. apply strip_prefix_iff in E. rewrite E.
    rewrite (proj2 (nonempty_iff ds) H1), (proj2 (forallb_digit ds) H2). cbn.
    f_equal. eapply denotes_fun; [apply denotes_int, H2|exact Hd].
Qed.

Lemma span_digits_spec s a b : span_digits s = (a, b) ->
  s = a ++ b /\ Forall digit a /\ match b with [] => True | c :: _ => ~ digit c end.
Proof.
  revert a b. induction s as [|c s IH]; intros a b; cbn.
  - intros E. injection E as <- <-. auto.
  - destruct (is_digit c) eqn:Ed.
    + destruct (span_digits s) as [a' b'] eqn:Es. intros E. injection E as <- <-.
      destruct (IH _ _ eq_refl) as [-> [Ha Hb]]. repeat split; auto. constructor; auto. apply is_digit_iff, Ed.
    + intros E. injection E as <- <-. repeat split; auto. rewrite <- is_digit_iff. congruence.
Qed.
Lemma span_digits_app a b : Forall digit a -> match b with [] => True | c :: _ => ~ digit c end ->
  span_digits (a ++ b) = (a, b).
Proof.
  induction 1 as [|c a Hc Ha IH]; intros Hb; cbn.
  - destruct b as [|c b]; [reflexivity|]. cbn. destruct (is_digit c) eqn:E; [|reflexivity].
    apply is_digit_iff in E. contradiction.
  - rewrite (proj2 (is_digit_iff c) Hc), (IH Hb). reflexivity.
Qed.

Lemma denotes_zero ds : Forall digit ds -> (existsb (fun d => negb (d =? 48)%N) ds = false <-> int_of_digits ds = 0%Z).
Proof.
  induction ds as [|c ds IH] using rev_ind; intros H; [cbn; tauto|].
  apply Forall_app in H as [H1 H2]. inversion H2; subst. rewrite existsb_app. cbn [existsb]. rewrite orb_false_r, orb_false_iff.
  rewrite (IH H1). unfold int_of_digits at 2. rewrite fold_left_app. cbn [fold_left]. fold (int_of_digits ds).
  pose proof (denotes_nonneg _ _ (denotes_int _ H1)). unfold digit in *. split.
  - intros [-> E]. lia.
  - intros E. split; lia.
Qed.

Lemma fraction_line_iff l n d : fraction_line l = Some (n, d) <-> says_fraction l n d.
Proof.
  unfold fraction_line, says_fraction. rewrite (ascii_bytes_B "partial "), (ascii_bytes_B "/"). split.
  - destruct (strip_prefix (B "partial ") l) as [r|] eqn:E; [|discriminate].
    apply strip_prefix_iff in E. destruct (span_digits r) as [num rest] eqn:Es.
    apply span_digits_spec in Es as [-> [Hn Hr]].
    destruct rest as [|c den]; [discriminate|].
    destruct (nonempty num && (c =? 47)%N && forallb is_digit den && existsb (fun d => negb (d =? 48)%N) den) eqn:E2; [|discriminate].
    intros H. injection H as <- <-. rewrite !andb_true_iff in E2. destruct E2 as [[[H1 H2] H3] H4].
    apply nonempty_iff in H1. apply forallb_digit in H3. apply N.eqb_eq in H2. subst c.
    exists num, den. split; [exact E|]. repeat split; auto; try (apply denotes_int; assumption).
    + intros ->. discriminate H4.
    + intros Hz. apply denotes_zero in Hz; [congruence|assumption].
  - intros [a [b [E [[Ha1 Ha2] [Da [[Hb1 Hb2] [Db Hd]]]]]]]. apply strip_prefix_iff in E. rewrite E.
    change (B "/") with [47%N]. cbn [app].
    rewrite span_digits_app; [|assumption|unfold digit; lia].
    rewrite (proj2 (nonempty_iff a) Ha1), (proj2 (forallb_digit b) Hb2). cbn.
    pose proof (denotes_fun _ _ (denotes_int _ Hb2) _ Db) as Eb.
    destruct (existsb (fun d0 => negb (d0 =? 48)%N) b) eqn:Ex.
    + rewrite Eb, (denotes_fun _ _ (denotes_int _ Ha2) _ Da). reflexivity.
    + apply denotes_zero in Ex; [congruence|assumption].
Qed.

Lemma re_split_lf s : re_split is_lf s = lf_lines s.
Proof.
  rewrite re_split_cut. unfold lf_lines. apply cut_ext. intros c. unfold is_lf. apply N.eqb_sym.
Qed.

Lemma find_map_first {X} (f : bytes -> option X) (P : bytes -> X -> Prop) l :
  (forall a x, f a = Some x <-> P a x) ->
  match find_map f l with
  | Some x => exists pre a post, l = pre ++ a :: post /\ P a x /\ forall a', In a' pre -> forall x', ~ P a' x'
  | None => forall a, In a l -> forall x, ~ P a x
  end.
Proof.
  intros Hf. induction l as [|a l IH]; cbn.
  - intros a [].
  - destruct (f a) as [x|] eqn:E.
    + exists [], a, l. repeat split; auto. apply Hf, E. 
    + destruct (find_map f l) as [x|].
      * destruct IH as [pre [a' [post [-> [HP Hpre]]]]]. exists (a :: pre), a', post. repeat split; auto.
        intros a'' [<-|Hin] x'; [|auto]. rewrite <- Hf. congruence.
      * intros a' [<-|Hin] x; [|auto]. rewrite <- Hf. congruence.
Qed.
Lemma first_line_fun {X} (P : list N -> X -> Prop) s x y :
  (forall l a b, P l a -> P l b -> a = b) -> first_line P s x -> first_line P s y -> x = y.
Proof.
  intros HP [p1 [l1 [q1 [E1 [H1 N1]]]]] [p2 [l2 [q2 [E2 [H2 N2]]]]]. rewrite E1 in E2. clear E1.
  revert p2 E2 N2. induction p1 as [|a p1 IH]; intros [|b p2] E2 N2; cbn in E2; injection E2 as E E2.
  - subst. eauto.
  - subst l1. exfalso. apply (N2 b (or_introl eq_refl) x H1).
  - subst a. exfalso. apply (N1 l2 (or_introl eq_refl) y H2).
  - apply (IH (fun a' Ha' => N1 a' (or_intror Ha')) p2 E2 (fun a' Ha' => N2 a' (or_intror Ha'))).
Qed.

Lemma says_points_fun l a b : says_points l a -> says_points l b -> a = b.
Proof. rewrite <- !points_line_iff. congruence. Qed.
Lemma says_fraction_fun l (a b : Z * Z) : says_fraction l (fst a) (snd a) -> says_fraction l (fst b) (snd b) -> a = b.
Proof. destruct a, b. cbn. rewrite <- !fraction_line_iff. congruence. Qed.

(** ** Verdict shape *)
Definition sound_outcome (pv : Q) (o : outcome Q) : Prop :=
  match o with
  | Verdict true p _ => (0 <= p /\ p <= pv)%Q
  | Verdict false p _ => p = 0%Q
  | Boolean _ => False
  | ReturnsNone => False
  | InternalError => True
  end.

Lemma helper_error {pts} p : returncode p <> 0%Z -> parse_helper_file_error p = @InternalError pts.
Proof.
  intros H. unfold parse_helper_file_error. destruct (is_tle p), (is_mle p), (protection_fault p); try reflexivity.
  destruct (Z.eqb_spec (returncode p) 0); [contradiction|reflexivity].
Qed.

Lemma default_sound proc pv fb : (0 <= pv)%Q -> sound_outcome pv (default_parse proc pv fb).
Proof.
  intros Hpv. unfold default_parse. destruct (Z.eqb_spec (returncode proc) 0) as [E|E]; [cbn; split; [exact Hpv|lra]|].
  destruct (Z.eqb_spec (returncode proc) 1); [reflexivity|]. rewrite (helper_error _ E). exact I.
Qed.
Lemma testlib_sound proc pv fb err : (0 <= pv)%Q -> sound_outcome pv (testlib_parse proc pv fb err).
Proof.
  intros Hpv. unfold testlib_parse. destruct (Z.eqb_spec (returncode proc) 0) as [E|E]; [cbn; split; [exact Hpv|lra]|].
  destruct (Z.eqb_spec (returncode proc) 7).
  { destruct (find_map points_line _) as [n|]; [|exact I].
    destruct (Qle_bool 0 (inject_Z n) && Qle_bool (inject_Z n) pv) eqn:Eb; [|exact I].
    apply andb_true_iff in Eb as [H1 H2]. apply Qle_bool_iff in H1, H2. split; assumption. }
  destruct (Z.eqb_spec (returncode proc) 1); [reflexivity|].
  destruct (Z.eqb_spec (returncode proc) 2); [reflexivity|].
  destruct (Z.eqb_spec (returncode proc) 3); [exact I|].
  rewrite (helper_error _ E). exact I.
Qed.
Lemma coci_sound rnd proc pv fb err : (0 <= pv)%Q -> rounding rnd pv -> sound_outcome pv (coci_parse rnd proc pv fb err).
Proof.
  intros Hpv [Hm [R0 [R1 Rp]]]. unfold coci_parse. destruct (Z.eqb_spec (returncode proc) 7); [|apply testlib_sound, Hpv].
  destruct (find_map fraction_line _) as [[n d]|]; [|exact I].
  destruct (Qle_bool 0 (rnd (inject_Z n / inject_Z d)%Q) && Qle_bool (rnd (inject_Z n / inject_Z d)%Q) 1) eqn:Eb; [|exact I].
  apply andb_true_iff in Eb as [H1 H2]. apply Qle_bool_iff in H1, H2.
  set (q := rnd (inject_Z n / inject_Z d)%Q) in *. cbn. split.
  - apply Qle_trans with (rnd 0%Q); [rewrite R0; apply Qle_refl|]. apply Hm. apply Qmult_le_0_compat; assumption.
  - apply Qle_trans with (rnd pv); [|rewrite Rp; apply Qle_refl]. apply Hm.
    apply Qle_trans with (1 * pv)%Q; [apply Qmult_le_compat_r; assumption|]. rewrite Qmult_1_l. apply Qle_refl.
Qed.

(** ** Exit codes *)
Lemma testlib_partial proc pv fb err : returncode proc = 7%Z -> (0 <= pv)%Q ->
  (forall n, first_line says_points err n -> (inject_Z n <= pv)%Q ->
     testlib_parse proc pv fb err = Verdict true (inject_Z n) (Some fb)) /\
  (forall n, first_line says_points err n -> (~ inject_Z n <= pv)%Q -> testlib_parse proc pv fb err = InternalError) /\
  (no_line says_points err -> testlib_parse proc pv fb err = InternalError).
Proof.
  intros E Hpv. unfold testlib_parse. rewrite E. cbn [Z.eqb Pos.eqb]. rewrite re_split_lf.
  pose proof (find_map_first points_line says_points (lf_lines err) points_line_iff) as H.
  destruct (find_map points_line (lf_lines err)) as [m|].
  - assert (forall n, first_line says_points err n -> n = m) as Hn.
    { intros n Hn. eapply first_line_fun; [apply says_points_fun|exact Hn|exact H]. }
    assert (0 <= inject_Z m)%Q as H0.
    { destruct H as [_ [l [_ [_ [[ds [_ [_ Hd]]] _]]]]]. change 0%Q with (inject_Z 0). rewrite <- Zle_Qle. eapply denotes_nonneg, Hd. }
    apply Qle_bool_iff in H0. rewrite H0. cbn [andb]. repeat split.
    + intros n Hf Hle. apply Hn in Hf. subst. apply Qle_bool_iff in Hle. rewrite Hle. reflexivity.
    + intros n Hf Hle. apply Hn in Hf. subst. destruct (Qle_bool (inject_Z m) pv) eqn:Eb; [|reflexivity].
      apply Qle_bool_iff in Eb. contradiction.
    + intros Hno. destruct H as [pre [l [post [El [Hl _]]]]]. exfalso. apply (Hno l) in Hl; [assumption|].
      rewrite El. apply in_or_app. right. left. reflexivity.
  - repeat split; try reflexivity; intros n [pre [l [post [El [Hl _]]]]]; exfalso; eapply H; eauto;
      rewrite El; apply in_or_app; right; left; reflexivity.
Qed.

Lemma coci_partial rnd proc pv fb err : returncode proc = 7%Z ->
  (forall n d, first_line (fun l x => says_fraction l (fst x) (snd x)) err (n, d) ->
     (0 <= rnd (inject_Z n / inject_Z d) <= 1)%Q ->
     coci_parse rnd proc pv fb err = Verdict true (rnd (rnd (inject_Z n / inject_Z d) * pv))%Q (Some fb)) /\
  (forall n d, first_line (fun l x => says_fraction l (fst x) (snd x)) err (n, d) ->
     ~ (0 <= rnd (inject_Z n / inject_Z d) <= 1)%Q -> coci_parse rnd proc pv fb err = InternalError) /\
  (no_line (fun l x => says_fraction l (fst x) (snd x)) err -> coci_parse rnd proc pv fb err = InternalError).
Proof.
  intros E. unfold coci_parse. rewrite E. cbn [Z.eqb Pos.eqb]. rewrite re_split_lf.
  assert (forall a x, fraction_line a = Some x <-> says_fraction a (fst x) (snd x)) as Hiff.
  { intros a [n d]. apply fraction_line_iff. }
  pose proof (find_map_first fraction_line (fun l x => says_fraction l (fst x) (snd x)) (lf_lines err) Hiff) as H.
  destruct (find_map fraction_line (lf_lines err)) as [[m k]|].
  - assert (forall n, first_line (fun l x => says_fraction l (fst x) (snd x)) err n -> n = (m, k)) as Hn.
    { intros n Hn. eapply first_line_fun; [apply says_fraction_fun|exact Hn|exact H]. }
    set (q := rnd (inject_Z m / inject_Z k)%Q) in *. repeat split.
    + intros n d Hf [H1 H2]. apply Hn in Hf. injection Hf as -> ->. fold q in H1, H2 |- *.
      apply Qle_bool_iff in H1, H2. rewrite H1, H2. reflexivity.
    + intros n d Hf Hle. apply Hn in Hf. injection Hf as -> ->. fold q in Hle.
      destruct (Qle_bool 0 q && Qle_bool q 1) eqn:Eb; [|reflexivity].
      apply andb_true_iff in Eb as [H1 H2]. apply Qle_bool_iff in H1, H2. tauto.
    + intros Hno. destruct H as [pre [l [post [El [Hl _]]]]]. exfalso. apply (Hno l) in Hl; [assumption|].
      rewrite El. apply in_or_app. right. left. reflexivity.
  - repeat split; try reflexivity; intros n d [pre [l [post [El [Hl _]]]]]; exfalso; eapply H; eauto;
      rewrite El; apply in_or_app; right; left; reflexivity.
Qed.

(** ** peg *)
Section Peg.
  Variable parse : bytes -> option f64.
  Lemma peg_scan_shape pv ls : forall l1,
    peg_scan parse pv l1 ls = Boolean false \/
    exists q, peg_scan parse pv l1 ls = Verdict true (f_mul pv q) None /\ f_lt (B754_zero false) q = true /\
      exists pre a b post x y, l1 :: ls = pre ++ a :: b :: post /\ parse a = Some x /\ parse b = Some y /\
        f_is_zero y = false /\ q = f_div x y.
  Proof.
    induction ls as [|l2 r IH]; intros l1; cbn [peg_scan]; [left; reflexivity|].
    destruct (peg_ratio parse l1 l2) as [q|] eqn:Er.
    - destruct (f_lt (B754_zero false) q) eqn:Eq.
      + right. exists q. split; [reflexivity|]. split; [assumption|].
        unfold peg_ratio in Er. destruct (parse l1) as [x|] eqn:E1; [|discriminate]. destruct (parse l2) as [y|] eqn:E2; [|discriminate].
        destruct (f_is_zero y) eqn:Ez; [discriminate|]. injection Er as <-.
        exists [], l1, l2, r, x, y. repeat split; auto.
      + destruct (IH l2) as [H|[q' [H [Hq [pre [a [b [post [x [y [El R]]]]]]]]]]]; [left; exact H|].
        right. exists q'. split; [exact H|]. split; [exact Hq|]. exists (l1 :: pre), a, b, post, x, y. rewrite El. auto.
    - destruct (IH l2) as [H|[q' [H [Hq [pre [a [b [post [x [y [El R]]]]]]]]]]]; [left; exact H|].
      right. exists q'. split; [exact H|]. split; [exact Hq|]. exists (l1 :: pre), a, b, post, x, y. rewrite El. auto.
  Qed.
End Peg.

(** ** Summary of the exit codes *)
Lemma default_codes proc pv fb :
  (returncode proc = 0%Z -> default_parse proc pv fb = Verdict true pv (Some fb)) /\
  (returncode proc = 1%Z -> default_parse proc pv fb = Verdict false 0%Q (Some fb)) /\
  (returncode proc <> 0%Z -> returncode proc <> 1%Z -> default_parse proc pv fb = InternalError).
Proof.
  unfold default_parse. split; [intros ->; reflexivity|]. split; [intros ->; reflexivity|].
  intros H0 H1. rewrite (proj2 (Z.eqb_neq _ _) H0), (proj2 (Z.eqb_neq _ _) H1). apply helper_error, H0.
Qed.
Lemma testlib_codes proc pv fb err :
  (returncode proc = 0%Z -> testlib_parse proc pv fb err = Verdict true pv (Some fb)) /\
  (returncode proc = 1%Z -> testlib_parse proc pv fb err = Verdict false 0%Q (Some fb)) /\
  (returncode proc = 2%Z -> fb <> [] -> testlib_parse proc pv fb err = Verdict false 0%Q (Some fb)) /\
  (returncode proc = 2%Z -> fb = [] -> testlib_parse proc pv fb err = Verdict false 0%Q (Some (ascii_bytes "Presentation Error"))) /\
  (~ In (returncode proc) [0; 1; 2; 7]%Z -> testlib_parse proc pv fb err = InternalError).
Proof.
  unfold testlib_parse. split; [intros ->; reflexivity|]. split; [intros ->; reflexivity|].
  split; [intros -> H; destruct fb; [contradiction|reflexivity]|]. split; [intros -> ->; reflexivity|].
  intros H. cbn [In] in H. destruct (Z.eqb_spec (returncode proc) 0); [exfalso; lia|].
  destruct (Z.eqb_spec (returncode proc) 7); [exfalso; lia|]. destruct (Z.eqb_spec (returncode proc) 1); [exfalso; lia|].
  destruct (Z.eqb_spec (returncode proc) 2); [exfalso; lia|]. destruct (Z.eqb_spec (returncode proc) 3); [reflexivity|].
  apply helper_error. assumption.
Qed.
Lemma coci_codes rnd proc pv fb err : returncode proc <> 7%Z ->
  coci_parse rnd proc pv fb err = testlib_parse proc pv fb err.
Proof. intros H. unfold coci_parse. rewrite (proj2 (Z.eqb_neq _ _) H). reflexivity. Qed.
