From Coq Require Import String.
From Verif Require Import Model.Bytes Model.Utf8 Model.Executors Model.Feedback Spec.Text Spec.Feedback
  Proofs.BytesLemmas Proofs.Executors.
Local Open Scope nat_scope.
Local Open Scope list_scope.

(** ** finditer *)
Fixpoint last_opt (s : bytes) : option N := match s with [] => None | [c] => Some c | _ :: r => last_opt r end.
Lemma last_opt_snoc a c : last_opt (a ++ [c]) = Some c.
Proof. induction a as [|x a IH]; [reflexivity|]. cbn. rewrite IH. destruct a; reflexivity. Qed.
Lemma last_opt_app a c u : last_opt (a ++ c :: u) = Some (last (c :: u) c).
Proof.
  revert a c; induction u as [|d u IH]; intros a c; [apply last_opt_snoc|].
  change (a ++ c :: d :: u) with (a ++ [c] ++ (d :: u)). rewrite app_assoc, IH. f_equal.
  change (last (d :: u) d = last (d :: u) c). clear. revert d c. induction u as [|e u IH]; intros d c; [reflexivity|].
  change (last (e :: u) d = last (e :: u) c). rewrite <- (IH e d), <- (IH e c). reflexivity.
Qed.

Section Scan.
  Variable m : option N -> bytes -> option (bytes * bytes).
  Hypothesis consumes : forall p s g r, m p s = Some (g, r) -> exists u, u <> [] /\ s = u ++ r.

  Lemma prev_after a (c : N) (s u r : bytes) : c :: s = u ++ r -> u <> [] ->
    Some (last (firstn (length (c :: s) - length r) (c :: s)) c) = last_opt (a ++ u).
  Proof.
    intros E Hu. rewrite E. replace (length (u ++ r) - length r) with (length u) by (rewrite app_length; lia).
    rewrite firstn_app, firstn_all, Nat.sub_diag. cbn [firstn]. rewrite app_nil_r.
    destruct u as [|d u]; [congruence|]. injection E as <- _. symmetry. apply last_opt_app.
  Qed.

  Lemma finditer_sound fuel : forall a t l g, finditer m fuel (last_opt a) t = l ++ [g] -> length t <= fuel ->
    exists x y r, t = x ++ y /\ m (last_opt (a ++ x)) y = Some (g, r) /\
      exists u, y = u ++ r /\ u <> [] /\ forall b y', r = b ++ y' -> m (last_opt (a ++ x ++ u ++ b)) y' = None \/ y' = [].
  Proof.
    assert (E : forall fuel a t, finditer m fuel (last_opt a) t = [] -> length t <= fuel ->
      forall b y', t = b ++ y' -> m (last_opt (a ++ b)) y' = None \/ y' = []).
    { clear fuel. induction fuel as [|f IH]; intros a t F L b y' ->.
      - destruct b; [|cbn in L; lia]. destruct y'; [right; reflexivity|cbn in L; lia].
      - destruct b as [|c b].
        + destruct y' as [|d y']; [right; reflexivity|]. left. rewrite app_nil_r. cbn [app finditer] in F.
          destruct (m (last_opt a) (d :: y')) as [[g r]|]; [discriminate|reflexivity].
        + cbn [app finditer] in F. destruct (m (last_opt a) (c :: b ++ y')) as [[g r]|]; [discriminate|].
          rewrite <- (last_opt_snoc a c) in F. cbn in L.
          specialize (IH (a ++ [c]) (b ++ y') F ltac:(lia) b y' eq_refl). rewrite <- app_assoc in IH. exact IH. }
    induction fuel as [|f IH]; intros a t l g F L; [destruct l; discriminate|].
    destruct t as [|c s]; [destruct l; discriminate|]. cbn [finditer] in F.
    destruct (m (last_opt a) (c :: s)) as [[g0 r]|] eqn:M.
    - destruct (consumes _ _ _ _ M) as (u & Hu & E1). rewrite (prev_after a c s u r E1 Hu) in F.
      assert (L2 : length r <= f).
      { apply (f_equal (@length N)) in E1. rewrite app_length in E1. destruct u; [congruence|]. cbn in E1, L. lia. }
      destruct l as [|g1 l].
      + injection F as <- F. exists [], (c :: s), r. rewrite app_nil_r. split; [reflexivity|split; [exact M|]].
        exists u. split; [exact E1|split; [exact Hu|]]. intros b y' Eb. cbn [app]. rewrite app_assoc.
        exact (E f (a ++ u) r F L2 b y' Eb).
      + injection F as _ F. destruct (IH (a ++ u) r l g F L2) as (x & y & r2 & -> & My & u2 & -> & Hu2 & N).
        exists (u ++ x), (u2 ++ r2), r2. split; [rewrite <- app_assoc; exact E1|].
        split; [rewrite app_assoc; exact My|]. exists u2. split; [reflexivity|split; [exact Hu2|]].
        intros b y' Eb. specialize (N b y' Eb). rewrite <- !app_assoc in *. exact N.
    - rewrite <- (last_opt_snoc a c) in F.
      destruct (IH (a ++ [c]) s l g F ltac:(cbn in L; lia)) as (x & y & r & -> & My & u & -> & Hu & N).
      exists (c :: x), (u ++ r), r. split; [reflexivity|]. split; [rewrite <- app_assoc in My; exact My|].
      exists u. split; [reflexivity|split; [exact Hu|]]. intros b y' Eb. specialize (N b y' Eb).
      rewrite <- app_assoc in N. exact N.
  Qed.

  Lemma finditer_none fuel : forall a t, (forall x y, t = x ++ y -> m (last_opt (a ++ x)) y = None \/ y = []) ->
    finditer m fuel (last_opt a) t = [].
  Proof.
    induction fuel as [|f IH]; intros a t N; [reflexivity|]. destruct t as [|c t]; [reflexivity|]. cbn [finditer].
    destruct (N [] (c :: t) eq_refl) as [E|E]; [|discriminate]. rewrite app_nil_r in E. rewrite E.
    rewrite <- (last_opt_snoc a c). apply IH. intros x y ->. destruct (N (c :: x) y eq_refl) as [H|H]; [left|right; exact H].
    rewrite <- app_assoc. exact H.
  Qed.

  Lemma finditer_last g A T R u : m (last_opt A) T = Some (g, R) -> T = u ++ R ->
    (forall x y, R = x ++ y -> m (last_opt (A ++ u ++ x)) y = None \/ y = []) ->
    (forall x y g' r', A ++ T = x ++ y -> length x < length A -> m (last_opt x) y = Some (g', r') ->
       length T <= length r' \/ (g' = g /\ r' = R)) ->
    forall fuel a t, A ++ T = a ++ t -> length t <= fuel -> length a <= length A ->
    exists l, finditer m fuel (last_opt a) t = l ++ [g].
  Proof.
    intros MT ET NR NS. induction fuel as [|f IH]; intros a t E L LA.
    - destruct t; [|cbn in L; lia]. apply (f_equal (@length N)) in E. rewrite !app_length in E. cbn in E.
      destruct (consumes _ _ _ _ MT) as (w & Hw & ->). rewrite app_length in E. destruct w; [congruence|]. cbn in E. lia.
    - assert (HT : T <> []) by (destruct (consumes _ _ _ _ MT) as (w & Hw & ->); destruct w; [congruence|discriminate]).
      destruct (Nat.eq_dec (length a) (length A)) as [EL|EL].
      + apply app_eq_app in E. assert (EA : a = A /\ t = T).
        { destruct E as (w & [[E1 E2]|[E1 E2]]); apply (f_equal (@length N)) in E1 as E3; rewrite app_length in E3;
            (destruct w; [|cbn in E3; lia]); rewrite app_nil_r in E1; cbn in E2; subst; split; reflexivity. }
        destruct EA as [-> ->]. destruct T as [|c T']; [congruence|]. cbn [finditer]. rewrite MT.
        assert (Hu : u <> []).
        { destruct (consumes _ _ _ _ MT) as (w & Hw & E2). rewrite ET in E2. apply app_inv_tail in E2. congruence. }
        rewrite (prev_after A c T' u R ET Hu). rewrite (finditer_none f (A ++ u) R).
        * exists []. reflexivity.
        * intros x y Exy. rewrite <- app_assoc. exact (NR x y Exy).
      + destruct t as [|c s].
        { apply (f_equal (@length N)) in E. rewrite !app_length in E. destruct T; [congruence|]. cbn in E. lia. }
        cbn [finditer]. destruct (m (last_opt a) (c :: s)) as [[g' r']|] eqn:M.
        * destruct (consumes _ _ _ _ M) as (w & Hw & Ew). rewrite (prev_after a c s w r' Ew Hw).
          assert (L2 : length r' <= f).
          { apply (f_equal (@length N)) in Ew. rewrite app_length in Ew. destruct w; [congruence|]. cbn in Ew, L. lia. }
          destruct (NS a (c :: s) g' r' E ltac:(lia) M) as [Hr|[-> ->]].
          -- destruct (IH (a ++ w) r') as (l & Hl).
             ++ rewrite <- app_assoc, <- Ew. exact E.
             ++ exact L2.
             ++ apply (f_equal (@length N)) in E. rewrite Ew in E. rewrite !app_length in *. lia.
             ++ exists (g' :: l). rewrite Hl. reflexivity.
          -- exists []. cbn [app]. f_equal. replace (a ++ w) with (A ++ u).
             ++ apply finditer_none. intros x y Exy. rewrite <- app_assoc. exact (NR x y Exy).
             ++ rewrite Ew, ET in E. rewrite !app_assoc in E. apply app_inv_tail in E. exact E.
        * rewrite <- (last_opt_snoc a c). apply IH.
          -- rewrite <- app_assoc. exact E.
          -- cbn in L. lia.
          -- rewrite app_length. cbn. lia.
  Qed.

  Lemma last_match_sound s g : last_match m s = Some g ->
    exists x u r, s = x ++ u ++ r /\ u <> [] /\ m (last_opt x) (u ++ r) = Some (g, r) /\
      forall b y, r = b ++ y -> m (last_opt (x ++ u ++ b)) y = None \/ y = [].
  Proof.
    unfold last_match. destruct (rev (finditer m (length s) None s)) as [|g0 l] eqn:E; [discriminate|].
    intros [= ->]. apply (f_equal (@rev bytes)) in E. rewrite rev_involutive in E. cbn in E.
    destruct (finditer_sound (length s) [] s (rev l) g E (le_n _)) as (x & y & r & -> & M & u & -> & Hu & N).
    exists x, u, r. repeat split; assumption.
  Qed.
  Lemma last_match_none s : (forall x y, s = x ++ y -> m (last_opt x) y = None \/ y = []) -> last_match m s = None.
  Proof. intros N. unfold last_match. change None with (last_opt []) at 1. rewrite finditer_none; [reflexivity|exact N]. Qed.
  Lemma last_match_last s g A u R : s = A ++ u ++ R -> m (last_opt A) (u ++ R) = Some (g, R) ->
    (forall x y, R = x ++ y -> m (last_opt (A ++ u ++ x)) y = None \/ y = []) ->
    (forall x y g' r', s = x ++ y -> length x < length A -> m (last_opt x) y = Some (g', r') ->
       length (u ++ R) <= length r' \/ (g' = g /\ r' = R)) -> last_match m s = Some g.
  Proof.
    intros E M NN S. unfold last_match.
    destruct (finditer_last g A (u ++ R) R u M eq_refl NN) with (fuel := length s) (a := @nil N) (t := s) as (l & Hl).
    - rewrite <- E. exact S.
    - symmetry. exact E.
    - apply le_n.
    - apply Nat.le_0_l.
    - change None with (last_opt []) at 1. rewrite Hl, rev_app_distr. reflexivity.
  Qed.
End Scan.

Lemma after_iff p s t : after p s = Some t <-> s = p ++ t.
Proof.
  revert s. induction p as [|x p IH]; intros s; cbn [after app]; [split; congruence|].
  destruct s as [|y s]; [split; discriminate|].
  destruct (N.eqb_spec x y) as [->|H]; [rewrite IH; split; congruence|split; congruence].
Qed.
Lemma eol_iff s : eol s = true <-> line_end s.
Proof.
  unfold line_end. destruct s as [|c s]; cbn; [intuition auto|]. rewrite N.eqb_eq. unfold LF. split.
  - intros ->. right. eauto.
  - intros [H|(t & H)]; congruence.
Qed.
Lemma letter_iff c : ascii_letter c = true <-> letter c.
Proof. unfold ascii_letter, letter. lia. Qed.
Lemma digit_iff c : ascii_digit c = true <-> digit c.
Proof. unfold ascii_digit, digit. lia. Qed.
(** Two ways of cutting the same list. *)
Lemma cut_later {A} (x y a t : list A) : x ++ y = a ++ t -> length x < length a -> exists w, y = w ++ t /\ w <> [].
Proof.
  intros E L. apply app_eq_app in E. destruct E as (w & [[E1 E2]|[E1 E2]]).
  - subst x. rewrite app_length in L. lia.
  - subst. exists w. split; [reflexivity|]. intros ->. rewrite app_nil_r in L. lia.
Qed.

(** ** C++ *)
Lemma name_char_iff c : name_char c = true <-> (letter c \/ digit c \/ c = 95 \/ c = 58)%N.
Proof. unfold name_char. rewrite !orb_true_iff, letter_iff, digit_iff, !N.eqb_eq. tauto. Qed.
Lemma forall_name n : Forall (fun c => name_char c = true) n <-> Forall (fun c => letter c \/ digit c \/ c = 95 \/ c = 58)%N n.
Proof. rewrite !Forall_forall. split; intros H c Hc; apply name_char_iff; auto. Qed.

Definition PRE : bytes := B "terminate called after throwing an instance of '".
Lemma recppexc_iff p s n r : recppexc p s = Some (n, r) <->
  cpp_name n /\ exists e, s = cpp_message n ++ e ++ r /\ (e = [] \/ e = [13%N]) /\ line_end r.
Proof.
  unfold recppexc, cpp_message, cpp_name. fold PRE. split.
  - destruct (after PRE s) as [t|] eqn:Ea; [|discriminate]. apply after_iff in Ea.
    pose proof (span_spec name_char t) as Hs. destruct (span name_char t) as [a b]. destruct Hs as (-> & Ha & Hb).
    destruct a as [|n0 ns]; [discriminate|]. destruct b as [|q b]; [discriminate|].
    destruct (N.eqb_spec q 39) as [->|]; [|discriminate]. apply forall_name in Ha.
    destruct (eol b) eqn:Eb.
    + intros [= <- <-]. split; [split; [discriminate|exact Ha]|]. exists []. apply eol_iff in Eb.
      split; [rewrite Ea, <- !app_assoc; reflexivity|]. split; [left; reflexivity|exact Eb].
    + destruct b as [|c b]; [discriminate|]. destruct (N.eqb_spec c CR) as [->|]; [|discriminate]. cbn [andb].
      destruct (eol b) eqn:E2; [|discriminate]. intros [= <- <-]. split; [split; [discriminate|exact Ha]|]. exists [13%N].
      apply eol_iff in E2. split; [rewrite Ea, <- !app_assoc; reflexivity|]. split; [right; reflexivity|exact E2].
  - intros ((Hn & Hc) & e & -> & He & Hr). rewrite <- !app_assoc.
    assert (Ea : after PRE (PRE ++ n ++ B "'" ++ e ++ r) = Some (n ++ B "'" ++ e ++ r)) by (apply after_iff; reflexivity).
    rewrite Ea. rewrite (span_app name_char n (B "'" ++ e ++ r)).
    2: { apply forall_name; exact Hc. }
    2: { reflexivity. }
    destruct n as [|n0 ns]; [congruence|]. cbn [B app]. rewrite N.eqb_refl. apply eol_iff in Hr.
    destruct He as [->| ->]; cbn [app].
    + rewrite Hr. reflexivity.
    + cbn [eol]. change ((13 =? LF)%N) with false. cbn [eol]. change ((13 =? CR)%N) with true. rewrite Hr. reflexivity.
Qed.
Lemma recppexc_consumes p s g r : recppexc p s = Some (g, r) -> exists u, u <> [] /\ s = u ++ r.
Proof.
  intros H. apply recppexc_iff in H. destruct H as (_ & e & -> & _). exists (cpp_message g ++ e). split; [discriminate|apply app_assoc].
Qed.
Lemma PRE_borderless : forallb (fun k => negb (starts_with (skipn k PRE) PRE)) (seq 1 (length PRE - 1)) = true.
Proof. vm_compute. reflexivity. Qed.
Lemma PRE_no_border w t r : w <> [] -> length w < length PRE -> PRE ++ r = w ++ PRE ++ t -> False.
Proof.
  intros Hw L E. pose proof PRE_borderless as Hb. rewrite forallb_forall in Hb. specialize (Hb (length w)).
  assert (Hk : In (length w) (seq 1 (length PRE - 1))) by (apply in_seq; destruct w; [congruence|cbn [length] in *; lia]).
  specialize (Hb Hk). apply negb_true_iff in Hb. assert (starts_with (skipn (length w) PRE) PRE = true); [|congruence].
  apply starts_with_app. apply (f_equal (skipn (length w))) in E. rewrite !skipn_app, skipn_all, Nat.sub_diag in E.
  replace (length w - length PRE) with 0 in E by lia. cbn [skipn app] in E.
  apply app_eq_app in E. destruct E as (v & [[E1 E2]|[E1 E2]]).
  - apply (f_equal (@length N)) in E1. rewrite app_length, skipn_length in E1. destruct w; [congruence|cbn [length] in E1, L; lia].
  - exists v. exact E1.
Qed.
Lemma recpp_no_straddle p q y T g' r' g R : recppexc p y = Some (g', r') -> recppexc q T = Some (g, R) ->
  forall w, w <> [] -> y = w ++ T -> length T <= length r'.
Proof.
  intros H1 H2 w Hw E. apply recppexc_iff in H1, H2.
  destruct H1 as ((Hn & Hc) & e & E1 & He & Hr). destruct H2 as (_ & e2 & E2 & _).
  unfold cpp_message in E1, E2. fold PRE in E1, E2. rewrite <- !app_assoc in E1, E2.
  destruct (Nat.le_gt_cases (length T) (length r')) as [L|L]; [exact L|exfalso].
  destruct (Nat.lt_ge_cases (length w) (length PRE)) as [Lw|Lw].
  - refine (PRE_no_border w _ _ Hw Lw _). rewrite E1, E2 in E. exact E.
  - rewrite E1 in E. clear E1. apply app_eq_app in E. destruct E as (v & [[E3 E4]|[E3 E4]]).
    { apply (f_equal (@length N)) in E3. rewrite app_length in E3. destruct v; [|exfalso; cbn [length] in E3; lia]. cbn [app] in E4.
      rewrite E2 in E4. destruct g' as [|c g'']; [congruence|]. apply Forall_inv_tail in Hc as Hc'. clear Hc'.
      (* T = g' ++ "'" ... *)
      apply (f_equal (span name_char)) in E4. rewrite (span_app name_char (c :: g'') (B "'" ++ e ++ r')) in E4;
        [|apply forall_name; exact Hc|reflexivity]. discriminate E4. }
    (* E4 : g' ++ "'" ++ e ++ r' = v ++ T *)
    destruct (Nat.le_gt_cases (length v) (length g')) as [Lv|Lv].
    + apply app_eq_app in E4. destruct E4 as (z & [[E5 E6]|[E5 E6]]).
      * subst g'. apply Forall_app in Hc. destruct Hc as [_ Hc]. rewrite E2 in E6.
        apply (f_equal (span name_char)) in E6. rewrite (span_app name_char z (B "'" ++ e ++ r')) in E6;
          [|apply forall_name; exact Hc|reflexivity]. discriminate E6.
      * apply (f_equal (@length N)) in E5. rewrite app_length in E5. destruct z; [|cbn in E5; lia]. cbn [app] in E6.
        rewrite E2 in E6. discriminate E6.
    + apply app_eq_app in E4. destruct E4 as (z & [[E5 E6]|[E5 E6]]).
      { apply (f_equal (@length N)) in E5. rewrite app_length in E5. lia. }
      subst v. rewrite app_length in Lv. destruct z as [|z0 z]; [cbn in Lv; lia|].
      cbn [B app] in E6. injection E6 as _ E6. destruct He as [->| ->]; cbn [app] in E6.
      * apply (f_equal (@length N)) in E6. rewrite app_length in E6. lia.
      * destruct z as [|z1 z]; cbn [app] in E6; [rewrite E2 in E6; discriminate E6|].
        injection E6 as _ E6. apply (f_equal (@length N)) in E6. rewrite app_length in E6. lia.
Qed.

Lemma decode_ascii s : Forall (fun c => c < 128)%N s -> utf8text_replace s = s.
Proof.
  unfold utf8text_replace. induction 1 as [|c s H _ IH]; [reflexivity|]. cbn [replace_from decode1].
  apply N.ltb_lt in H. rewrite H. cbn [pred]. rewrite IH. reflexivity.
Qed.
Lemma name_ascii n : cpp_name n -> utf8text_replace n = n.
Proof. intros [_ H]. apply decode_ascii. eapply Forall_impl; [|exact H]. unfold letter, digit. cbn. lia. Qed.

Lemma cpp_shows_match s pre n : cpp_shows s pre n <->
  exists u r, s = pre ++ u ++ r /\ u <> [] /\ forall p, recppexc p (u ++ r) = Some (n, r).
Proof.
  split.
  - intros (Hn & post & -> & Hp). destruct Hp as [Hp|(post' & -> & Hp)].
    + exists (cpp_message n), post. split; [reflexivity|split; [discriminate|]]. intros p. apply recppexc_iff. split; [exact Hn|].
      exists []. repeat split; [left; reflexivity|exact Hp].
    + exists (cpp_message n ++ [13%N]), post'. rewrite <- !app_assoc. split; [reflexivity|split; [discriminate|]]. intros p.
      apply recppexc_iff. split; [exact Hn|]. exists [13%N]. repeat split; [right; reflexivity|exact Hp].
  - intros (u & r & -> & Hu & H). specialize (H None). apply recppexc_iff in H. destruct H as (Hn & e & E & He & Hr).
    split; [exact Hn|]. exists (e ++ r). split; [rewrite E; reflexivity|].
    destruct He as [->| ->]; [left; exact Hr|right; exists r; split; [reflexivity|exact Hr]].
Qed.
Lemma cpp_last_match s pre n : cpp_shows s pre n -> (forall pre' n', cpp_shows s pre' n' -> length pre' <= length pre) ->
  last_match recppexc s = Some n.
Proof.
  intros H Hmax. pose proof H as H'. apply cpp_shows_match in H'. destruct H' as (u & r & E & Hu & M).
  apply (last_match_last recppexc recppexc_consumes s n pre u r E (M _)).
  - intros x y ->. destruct (recppexc (last_opt (pre ++ u ++ x)) y) as [[n' r']|] eqn:M'; [exfalso|left; reflexivity].
    assert (S : cpp_shows s (pre ++ u ++ x) n').
    { apply cpp_shows_match. destruct (recppexc_consumes _ _ _ _ M') as (u' & Hu' & E').
      exists u', r'. split; [rewrite E, E', <- !app_assoc; reflexivity|]. split; [exact Hu'|].
      intros p. rewrite <- E'. apply recppexc_iff. apply recppexc_iff in M'. exact M'. }
    specialize (Hmax _ _ S). rewrite !app_length in Hmax. destruct u; [congruence|]. cbn in Hmax. lia.
  - intros x y g' r' Exy L M'. left. rewrite E in Exy. symmetry in Exy.
    destruct (cut_later _ _ _ _ Exy L) as (w & Ew & Hw).
    exact (recpp_no_straddle _ _ _ _ _ _ _ _ M' (M None) w Hw Ew).
Qed.

Lemma small_guard s : (match s with [] => true | _ => false end) || (2048 <? N.of_nat (length s))%N = false <-> small s.
Proof.
  unfold small. rewrite orb_false_iff, N.ltb_ge. destruct s; split; intros [H1 H2]; try congruence; split; congruence || assumption.
Qed.
Lemma gcc_feedback_last s pre n : small s -> cpp_shows s pre n ->
  (forall pre' n', cpp_shows s pre' n' -> length pre' <= length pre) ->
  gcc_feedback s = if length n <=? 40 then n else [].
Proof.
  intros Hs H Hmax. unfold gcc_feedback. apply small_guard in Hs. rewrite Hs, (cpp_last_match s pre n H Hmax).
  rewrite (name_ascii n (proj1 H)). rewrite Nat.ltb_antisym. destruct (length n <=? 40); reflexivity.
Qed.
Lemma gcc_feedback_none s : (~ small s \/ forall pre n, ~ cpp_shows s pre n) -> gcc_feedback s = [].
Proof.
  intros H. unfold gcc_feedback. destruct ((match s with [] => true | _ => false end) || (2048 <? N.of_nat (length s))%N) eqn:G; [reflexivity|].
  apply small_guard in G. destruct H as [H|H]; [contradiction|].
  rewrite last_match_none; [reflexivity|]. intros x y ->.
  destruct (recppexc (last_opt x) y) as [[n r]|] eqn:M; [exfalso|left; reflexivity].
  destruct (recppexc_consumes _ _ _ _ M) as (u & Hu & ->). apply (H x n). apply cpp_shows_match. exists u, r.
  split; [reflexivity|]. split; [exact Hu|]. intros p. apply recppexc_iff. apply recppexc_iff in M. exact M.
Qed.
(** conversely, a reported name is the last one shown *)
Lemma gcc_feedback_sound s n : gcc_feedback s = n -> n <> [] ->
  small s /\ length n <= 40 /\ exists pre, cpp_shows s pre n /\ forall pre' n', cpp_shows s pre' n' -> length pre' <= length pre.
Proof.
  unfold gcc_feedback. destruct ((match s with [] => true | _ => false end) || (2048 <? N.of_nat (length s))%N) eqn:G; [congruence|].
  apply small_guard in G. destruct (last_match recppexc s) as [e|] eqn:M; [|congruence].
  destruct (40 <? length e) eqn:L; [congruence|]. apply Nat.ltb_ge in L.
  destruct (last_match_sound recppexc recppexc_consumes s e M) as (x & u & r & E & Hu & Mx & Nx).
  assert (S : cpp_shows s x e).
  { apply cpp_shows_match. exists u, r. split; [exact E|]. split; [exact Hu|]. intros p. apply recppexc_iff. apply recppexc_iff in Mx. exact Mx. }
  rewrite (name_ascii e (proj1 S)). intros <- _. split; [exact G|split; [exact L|]]. exists x. split; [exact S|].
  intros pre' n' S'. destruct (Nat.le_gt_cases (length pre') (length x)) as [L'|L']; [exact L'|exfalso].
  apply cpp_shows_match in S'. destruct S' as (u' & r' & E' & Hu' & M').
  rewrite E in E'. destruct (cut_later _ _ _ _ E' L') as (w & Ew & Hw).
  pose proof (recpp_no_straddle _ _ _ _ _ _ _ _ Mx (M' None) w Hw Ew) as Hlen.
  assert (exists b, r = b ++ u' ++ r') as [b ->].
  { rewrite Ew in *. symmetry in Ew. apply app_eq_app in Ew. destruct Ew as (z & [[E5 E6]|[E5 E6]]).
    - exists z. exact E6.
    - exists []. cbn [app]. apply (f_equal (@length N)) in E6 as E7. rewrite !app_length in E7. rewrite app_length in Hlen.
      destruct z; [cbn in E6; congruence|cbn in E7; lia]. }
  destruct (Nx b (u' ++ r') eq_refl) as [H|H]; [rewrite M' in H; discriminate|destruct u'; [congruence|discriminate]].
Qed.

(** ** Python *)
Lemma span_app_stop p a b : match b with [] => True | c :: _ => p c = false end ->
  span p (a ++ b) = (fst (span p a), snd (span p a) ++ b).
Proof.
  intros Hb. induction a as [|c a IH]; cbn [app span].
  - destruct b as [|c b]; [reflexivity|]. cbn [span]. rewrite Hb. reflexivity.
  - destruct (p c); [|reflexivity]. rewrite IH. destruct (span p a) as [x y]. reflexivity.
Qed.
Lemma lf_lines_app a b : lf_lines (a ++ 10%N :: b) = lf_lines a ++ lf_lines b.
Proof.
  unfold lf_lines. induction a as [|c a IH]; [reflexivity|]. cbn [app cut]. rewrite IH.
  destruct (10 =? c)%N; [reflexivity|]. pose proof (cut_nonnil (N.eqb 10) a) as Ha.
  destruct (cut (N.eqb 10) a) as [|w ws]; [congruence|]. reflexivity.
Qed.
Lemma lf_lines_one l : ~ In 10%N l -> lf_lines l = [l].
Proof.
  unfold lf_lines. induction l as [|c l IH]; intros H; [reflexivity|]. cbn [cut].
  destruct (N.eqb_spec 10 c) as [E|E]; [exfalso; apply H; left; congruence|]. rewrite IH; [reflexivity|].
  intros Hc; apply H; right; exact Hc.
Qed.
Lemma lf_lines_nonnil s : lf_lines s <> [].
Proof. apply cut_nonnil. Qed.
Lemma first_line s : exists l r, s = l ++ r /\ ~ In 10%N l /\ line_end r.
Proof.
  induction s as [|c s (l & r & -> & Hl & Hr)].
  - exists [], []. repeat split; [intros []|left; reflexivity].
  - destruct (N.eqb_spec c 10) as [->|Hc].
    + exists [], (10%N :: l ++ r). repeat split; [intros []|right; eauto].
    + exists (c :: l), r. repeat split; [|exact Hr]. intros [H|H]; [congruence|exact (Hl H)].
Qed.

Section Python.
  Variable wb : N -> bool.
  Let W : N -> Prop := fun c => word wb c = true.
  Let noexc (l : bytes) : Prop := forall n, ~ exception_line W n l.

  Lemma exception_line_in l : ~ In 10%N l -> forall r, line_end r ->
    (forall n, exception_line W n l -> exception_at wb (l ++ r) = Some (n, r)) /\
    (forall n r', exception_at wb (l ++ r) = Some (n, r') -> exception_line W n l /\ r' = r).
  Proof.
    intros Hl r Hr. split.
    - intros n ((c & w & -> & Hc & Hw) & El).
      assert (Hc' : ascii_letter c || (c =? 95)%N = true) by (rewrite orb_true_iff, letter_iff, N.eqb_eq; exact Hc).
      destruct El as [->|(m & ->)].
      + cbn [app exception_at]. rewrite Hc'. rewrite (span_app (word wb) w r Hw).
        * destruct Hr as [->|(t & ->)]; reflexivity.
        * destruct Hr as [->|(t & ->)]; [exact I|reflexivity].
      + cbn [app exception_at]. rewrite Hc'. rewrite <- app_assoc. cbn [app]. rewrite (span_app (word wb) w (58%N :: m ++ r) Hw); [|reflexivity].
        change ((58 =? LF)%N) with false. change ((58 =? 58)%N) with true. cbv iota.
        rewrite (span_app (fun x => negb (x =? LF)%N) m r); [reflexivity| |].
        * apply Forall_forall. intros x Hx. apply negb_true_iff, N.eqb_neq. intros ->. apply Hl. apply in_app_iff. right. right. exact Hx.
        * destruct Hr as [->|(t & ->)]; [exact I|reflexivity].
    - intros n r'. destruct l as [|c l].
      { cbn [app]. destruct Hr as [->|(t & ->)]; [discriminate|]. cbn [exception_at].
        change (ascii_letter 10 || (10 =? 95)%N) with false. discriminate. }
      cbn [app exception_at]. destruct (ascii_letter c || (c =? 95)%N) eqn:Hc; [|discriminate].
      rewrite orb_true_iff, letter_iff, N.eqb_eq in Hc.
      rewrite span_app_stop; [|destruct Hr as [->|(t & ->)]; [exact I|reflexivity]].
      pose proof (span_spec (word wb) l) as Hs. destruct (span (word wb) l) as [w u]. destruct Hs as (-> & Hw & Hu). cbn [fst snd].
      assert (Hid : identifier W (c :: w)) by (exists c, w; auto).
      destruct u as [|d u]; cbn [app].
      + rewrite app_nil_r. destruct Hr as [->|(t & ->)].
        * intros [= <- <-]. split; [split; [exact Hid|left; reflexivity]|reflexivity].
        * change ((10 =? LF)%N) with true. cbv iota. intros [= <- <-]. split; [split; [exact Hid|left; reflexivity]|reflexivity].
      + destruct (N.eqb_spec d LF) as [->|Hd].
        { exfalso. apply Hl. right. apply in_app_iff. right. left. reflexivity. }
        destruct (N.eqb_spec d 58) as [->|]; [|discriminate].
        rewrite (span_app (fun x => negb (x =? LF)%N) u r).
        * intros [= <- <-]. split; [split; [exact Hid|right; exists u; reflexivity]|reflexivity].
        * apply Forall_forall. intros x Hx. apply negb_true_iff, N.eqb_neq. intros ->. apply Hl. right. apply in_app_iff. right. right. exact Hx.
        * destruct Hr as [->|(t & ->)]; [exact I|reflexivity].
  Qed.
  Lemma exception_at_none l r : ~ In 10%N l -> line_end r -> noexc l -> exception_at wb (l ++ r) = None.
  Proof.
    intros Hl Hr Hn. destruct (exception_at wb (l ++ r)) as [[n r']|] eqn:E; [|reflexivity].
    apply (exception_line_in l Hl r Hr) in E. destruct E as [E _]. destruct (Hn n E).
  Qed.
  Lemma nearest_skip l s : ~ In 10%N l -> nearest_exception wb (l ++ s) = nearest_exception wb s.
  Proof.
    induction l as [|c l IH]; intros H; [reflexivity|]. cbn [app nearest_exception].
    destruct (N.eqb_spec c LF) as [->|_]; [exfalso; apply H; left; reflexivity|]. apply IH. intros Hc; apply H; right; exact Hc.
  Qed.
  Lemma nearest_lf s : nearest_exception wb (10%N :: s) =
    match exception_at wb s with Some x => Some x | None => nearest_exception wb s end.
  Proof. reflexivity. Qed.

  Lemma nearest_complete k : forall mid, length mid <= k -> Forall noexc (tl (lf_lines mid)) ->
    forall n l r, exception_line W n l -> ~ In 10%N l -> line_end r ->
    nearest_exception wb (mid ++ 10%N :: l ++ r) = Some (n, r).
  Proof.
    induction k as [|k IH]; intros mid Hk Hm n l r He Hl Hr;
      destruct (first_line mid) as (l0 & r0 & -> & Hl0 & [->|(t & ->)]).
    - rewrite app_nil_r. rewrite nearest_skip by exact Hl0. rewrite nearest_lf.
      rewrite (proj1 (exception_line_in l Hl r Hr) n He). reflexivity.
    - rewrite app_length in Hk. cbn in Hk. lia.
    - rewrite app_nil_r. rewrite nearest_skip by exact Hl0. rewrite nearest_lf.
      rewrite (proj1 (exception_line_in l Hl r Hr) n He). reflexivity.
    - rewrite lf_lines_app, (lf_lines_one l0 Hl0) in Hm. cbn [app tl] in Hm.
      rewrite <- app_assoc. rewrite nearest_skip by exact Hl0. cbn [app]. rewrite nearest_lf.
      destruct (first_line t) as (l1 & r1 & Et & Hl1 & Hr1).
      assert (Hn1 : noexc l1 /\ Forall noexc (tl (lf_lines t))).
      { destruct Hr1 as [->|(t1 & ->)].
        - rewrite app_nil_r in Et. subst t. rewrite (lf_lines_one l1 Hl1) in *. split; [exact (Forall_inv Hm)|constructor].
        - subst t. rewrite lf_lines_app, (lf_lines_one l1 Hl1) in *. cbn [app tl] in *. split; [exact (Forall_inv Hm)|exact (Forall_inv_tail Hm)]. }
      assert (E1 : exception_at wb (t ++ 10%N :: l ++ r) = None).
      { rewrite Et, <- app_assoc. apply exception_at_none; [exact Hl1| |exact (proj1 Hn1)].
        destruct Hr1 as [->|(t1 & ->)]; right; eexists; reflexivity. }
      rewrite E1. apply IH; try assumption; [|exact (proj2 Hn1)]. rewrite app_length in Hk. cbn in Hk. lia.
  Qed.
  Lemma nearest_sound k : forall t, length t <= k -> forall n r, nearest_exception wb t = Some (n, r) ->
    exists mid l, t = mid ++ 10%N :: l ++ r /\ exception_line W n l /\ ~ In 10%N l /\ line_end r /\ Forall noexc (tl (lf_lines mid)).
  Proof.
    induction k as [|k IH]; intros t Hk n r E; destruct (first_line t) as (l0 & r0 & -> & Hl0 & [->|(t' & ->)]);
      rewrite nearest_skip in E by exact Hl0; [discriminate| |discriminate|].
    - rewrite app_length in Hk. cbn in Hk. lia.
    - rewrite nearest_lf in E. destruct (first_line t') as (l1 & r1 & -> & Hl1 & Hr1).
      destruct (exception_at wb (l1 ++ r1)) as [[n1 r1']|] eqn:E1.
      + injection E as -> ->. apply (exception_line_in l1 Hl1 r1 Hr1) in E1. destruct E1 as [E1 ->].
        exists l0, l1. rewrite (lf_lines_one l0 Hl0). repeat split; try assumption; [exact (proj1 E1)|exact (proj2 E1)|constructor].
      + rewrite app_length in Hk. cbn [length] in Hk. destruct (IH (l1 ++ r1) ltac:(lia) n r E) as (mid & l & E2 & He & Hl & Hr & Hm).
        exists (l0 ++ 10%N :: mid), l. rewrite lf_lines_app, (lf_lines_one l0 Hl0). cbn [app tl].
        split; [rewrite E2, <- app_assoc; reflexivity|]. split; [exact He|split; [exact Hl|split; [exact Hr|]]].
        (* the first line of mid is not one either *)
        destruct (first_line mid) as (lm & rm & Em & Hlm & Hrm).
        assert (Hnl : noexc lm).
        { intros n' Hn'. enough (exception_at wb (l1 ++ r1) = Some (n', rm ++ 10%N :: l ++ r)) by congruence.
          rewrite E2, Em, <- app_assoc. apply (exception_line_in lm Hlm); [|exact Hn'].
          destruct Hrm as [->|(tm & ->)]; right; eexists; reflexivity. }
        destruct Hrm as [->|(tm & ->)].
        * rewrite app_nil_r in Em. subst mid. rewrite (lf_lines_one lm Hlm). constructor; [exact Hnl|constructor].
        * subst mid. rewrite lf_lines_app, (lf_lines_one lm Hlm) in *. cbn [app tl] in *. constructor; [exact Hnl|exact Hm].
  Qed.
  Lemma nearest_none_lines k : forall t, length t <= k -> nearest_exception wb t = None -> Forall noexc (tl (lf_lines t)).
  Proof.
    induction k as [|k IH]; intros t Hk E; destruct (first_line t) as (l0 & r0 & -> & Hl0 & [->|(t' & ->)]).
    - rewrite app_nil_r, (lf_lines_one l0 Hl0). constructor.
    - rewrite app_length in Hk. cbn in Hk. lia.
    - rewrite app_nil_r, (lf_lines_one l0 Hl0). constructor.
    - rewrite nearest_skip in E by exact Hl0. rewrite nearest_lf in E. rewrite lf_lines_app, (lf_lines_one l0 Hl0). cbn [app tl].
      destruct (exception_at wb t') as [x|] eqn:E1; [discriminate|]. rewrite app_length in Hk. cbn in Hk. specialize (IH t' ltac:(lia) E).
      destruct (first_line t') as (l1 & r1 & -> & Hl1 & Hr1).
      assert (Hn1 : noexc l1) by (intros n Hn; apply (exception_line_in l1 Hl1 r1 Hr1) in Hn; congruence).
      destruct Hr1 as [->|(t1 & ->)].
      + rewrite app_nil_r, (lf_lines_one l1 Hl1). constructor; [exact Hn1|constructor].
      + rewrite lf_lines_app, (lf_lines_one l1 Hl1) in *. cbn [app tl] in *. constructor; assumption.
  Qed.

  Definition HL : bytes := traceback ++ [10%N].
  Lemma retraceback_iff p s n r : retraceback wb p s = Some (n, r) <-> exists t, s = HL ++ t /\ nearest_exception wb t = Some (n, r).
  Proof.
    unfold retraceback. change (B "Traceback (most recent call last):" ++ [LF]) with HL.
    destruct (after HL s) as [t|] eqn:E.
    - apply after_iff in E. split.
      + intros H. exists t. split; assumption.
      + intros (t' & -> & H). apply app_inv_head in E. congruence.
    - split; [discriminate|]. intros (t & -> & _). assert (after HL (HL ++ t) = Some t) by (apply after_iff; reflexivity). congruence.
  Qed.
  Lemma retraceback_consumes p s g r : retraceback wb p s = Some (g, r) -> exists u, u <> [] /\ s = u ++ r.
  Proof.
    intros H. apply retraceback_iff in H. destruct H as (t & -> & H). destruct (nearest_sound _ t (le_n _) g r H) as (mid & l & -> & _).
    exists (HL ++ mid ++ 10%N :: l). split; [discriminate|]. rewrite <- !app_assoc. reflexivity.
  Qed.
  Lemma header_noexc : noexc traceback.
  Proof.
    intros n H. apply (exception_line_in traceback) with (r := []) in H; [|vm_compute; intuition discriminate|left; reflexivity].
    vm_compute in H. discriminate.
  Qed.
  Lemma HL_border w T y : w ++ T = HL ++ y -> (exists w0, w = w0 ++ [10%N]) -> exists w', w = HL ++ w' /\ y = w' ++ T.
  Proof.
    intros E (w0 & ->). apply app_eq_app in E. destruct E as (v & [[E1 E2]|[E1 E2]]).
    - exists v. split; [exact E1|exact E2].
    - (* HL = w ++ v *) assert (v = []) as ->.
      { destruct v as [|c v]; [reflexivity|exfalso]. unfold HL in E1. rewrite <- app_assoc in E1. cbn [app] in E1.
        assert (Hin : In 10%N traceback).
        { destruct (exists_last (l := c :: v)) as (v' & d & Ed); [discriminate|]. rewrite Ed in E1.
          replace (w0 ++ 10%N :: v' ++ [d]) with ((w0 ++ 10%N :: v') ++ [d]) in E1 by (rewrite <- app_assoc; reflexivity).
          apply app_inj_tail in E1. destruct E1 as [-> _]. apply in_app_iff. right. left. reflexivity. }
        vm_compute in Hin. intuition discriminate. }
      rewrite app_nil_r in E1. exists []. rewrite app_nil_r. split; [symmetry; exact E1|]. cbn [app] in *. congruence.
  Qed.

  Lemma whole_iff s : whole_traceback W s <-> exists x y n r, s = x ++ y /\ forall p, retraceback wb p y = Some (n, r).
  Proof.
    split.
    - intros (pre & mid & n & l & post & -> & He & Hl & Hp).
      destruct (nearest_exception wb (mid ++ 10%N :: l ++ post)) as [[n' r']|] eqn:E.
      + exists pre, (traceback ++ 10%N :: mid ++ 10%N :: l ++ post), n', r'. split; [reflexivity|]. intros p.
        apply retraceback_iff. exists (mid ++ 10%N :: l ++ post). split; [unfold HL; rewrite <- app_assoc; reflexivity|exact E].
      + exfalso. pose proof (nearest_none_lines _ _ (le_n _) E) as F. rewrite lf_lines_app in F.
        pose proof (lf_lines_nonnil mid) as Hm. destruct (lf_lines mid) as [|l0 ls]; [congruence|]. cbn [app tl] in F.
        apply Forall_app in F. destruct F as [_ F].
        assert (Hin : In l (lf_lines (l ++ post))).
        { destruct Hp as [->|(t & ->)]; [rewrite app_nil_r, (lf_lines_one l Hl)|rewrite lf_lines_app, (lf_lines_one l Hl)]; left; reflexivity. }
        rewrite Forall_forall in F. exact (F l Hin n He).
    - intros (x & y & n & r & -> & H). specialize (H None). apply retraceback_iff in H. destruct H as (t & -> & H).
      destruct (nearest_sound _ t (le_n _) n r H) as (mid & l & -> & He & Hl & Hr & _).
      exists x, mid, n, l, r. split; [unfold HL; rewrite <- app_assoc; reflexivity|]. split; [exact He|split; assumption].
  Qed.
  Lemma retraceback_prev p q s : retraceback wb p s = retraceback wb q s.
  Proof. reflexivity. Qed.

  Lemma python_last pre body n l r : (pre = [] \/ exists q, pre = q ++ [10%N]) ->
    Forall noexc (lf_lines body) -> exception_line W n l -> ~ In 10%N l -> line_end r -> ~ whole_traceback W r ->
    last_match (retraceback wb) (pre ++ traceback ++ 10%N :: body ++ 10%N :: l ++ r) = Some n.
  Proof.
    intros Hpre Hb He Hl Hr Hw.
    assert (Hm : Forall noexc (tl (lf_lines body))).
    { pose proof (lf_lines_nonnil body). destruct (lf_lines body); [constructor|exact (Forall_inv_tail Hb)]. }
    set (u := HL ++ body ++ 10%N :: l).
    assert (ET : traceback ++ 10%N :: body ++ 10%N :: l ++ r = u ++ r).
    { unfold u, HL. rewrite <- !app_assoc. cbn [app]. reflexivity. }
    rewrite ET. assert (EU : u ++ r = HL ++ body ++ 10%N :: l ++ r).
    { unfold u. rewrite <- !app_assoc. cbn [app]. reflexivity. }
    apply (last_match_last (retraceback wb) retraceback_consumes _ n pre u r eq_refl).
    - apply retraceback_iff. exists (body ++ 10%N :: l ++ r). split; [exact EU|]. exact (nearest_complete _ body (le_n _) Hm n l r He Hl Hr).
    - intros x y ->. destruct (retraceback wb (last_opt (pre ++ u ++ x)) y) as [[n' r']|] eqn:M; [exfalso|left; reflexivity].
      apply Hw. apply whole_iff. exists x, y, n', r'. split; [reflexivity|]. intros p. rewrite (retraceback_prev p (last_opt (pre ++ u ++ x))). exact M.
    - intros x y g' r' Exy Lx M. symmetry in Exy. destruct (cut_later _ _ _ _ Exy Lx) as (w & -> & Hw0).
      assert (Hwl : exists w0, w = w0 ++ [10%N]).
      { rewrite app_assoc in Exy. apply app_inv_tail in Exy.
        destruct Hpre as [->|(q & ->)]; [destruct x; [cbn in Exy; congruence|discriminate]|].
        destruct (exists_last Hw0) as (w0 & d & ->). rewrite app_assoc in Exy. apply app_inj_tail in Exy. destruct Exy as [_ ->]. eauto. }
      apply retraceback_iff in M. destruct M as (t & Et & M). destruct (HL_border w (u ++ r) t Et Hwl) as (w' & -> & ->).
      assert (Hw' : w' = [] \/ exists w4, w' = w4 ++ [10%N]).
      { destruct Hwl as (w0 & Hwl). destruct w' as [|c w']; [left; reflexivity|right].
        destruct (exists_last (l := c :: w')) as (w4 & d & Ew4); [discriminate|]. rewrite Ew4 in *. rewrite app_assoc in Hwl.
        apply app_inj_tail in Hwl. destruct Hwl as [_ ->]. eauto. }
      destruct (nearest_exception wb w') as [[g3 r3]|] eqn:E3.
      + destruct (nearest_sound _ w' (le_n _) g3 r3 E3) as (mid3 & l3 & Ew & He3 & Hl3 & Hr3 & Hm3). left.
        destruct Hr3 as [->|(t3 & ->)].
        * exfalso. destruct Hw' as [->|(w4 & ->)]; [destruct mid3; discriminate|].
          rewrite app_nil_r in Ew. destruct He3 as ((c & z & -> & _) & El).
          assert (l3 <> []) as Hl3n by (destruct El as [->|(m & ->)]; discriminate).
          destruct (exists_last Hl3n) as (l4 & d & ->).
          replace (mid3 ++ 10%N :: l4 ++ [d]) with ((mid3 ++ 10%N :: l4) ++ [d]) in Ew by (rewrite <- app_assoc; reflexivity).
          apply app_inj_tail in Ew. destruct Ew as [_ <-]. apply Hl3. apply in_app_iff. right. left. reflexivity.
        * assert (E4 : nearest_exception wb (w' ++ u ++ r) = Some (g3, (10%N :: t3) ++ u ++ r)).
          { rewrite Ew, <- app_assoc. cbn [app]. rewrite <- app_assoc.
            apply (nearest_complete _ mid3 (le_n _) Hm3); try assumption. right. eexists. reflexivity. }
          rewrite E4 in M. assert (E5 : r' = (10%N :: t3) ++ u ++ r) by congruence. rewrite E5, (app_length (10%N :: t3)). lia.
      + right. assert (E4 : nearest_exception wb (w' ++ u ++ r) = Some (n, r)).
        { rewrite EU. unfold HL. rewrite <- app_assoc. cbn [app].
          replace (w' ++ traceback ++ 10%N :: body ++ 10%N :: l ++ r) with ((w' ++ traceback ++ 10%N :: body) ++ 10%N :: l ++ r)
            by (rewrite <- !app_assoc; reflexivity).
          apply (nearest_complete _ _ (le_n _)); try assumption.
          pose proof (nearest_none_lines _ w' (le_n _) E3) as F.
          assert (Eh : lf_lines (traceback ++ 10%N :: body) = traceback :: lf_lines body).
          { rewrite lf_lines_app, lf_lines_one; [reflexivity|]. vm_compute. intuition discriminate. }
          destruct Hw' as [->|(w4 & ->)].
          - cbn [app]. rewrite Eh. exact Hb.
          - rewrite <- app_assoc. cbn [app]. rewrite lf_lines_app, Eh. rewrite lf_lines_app in F.
            pose proof (lf_lines_nonnil w4). destruct (lf_lines w4) as [|l0 ls]; [congruence|]. cbn [app tl] in *.
            apply Forall_app in F. apply Forall_app. split; [exact (proj1 F)|]. constructor; [exact header_noexc|exact Hb]. }
        rewrite E4 in M. injection M as <- <-. split; reflexivity.
  Qed.

  Lemma python_feedback_last s pre body n l r : small s ->
    utf8text_replace s = pre ++ traceback ++ 10%N :: body ++ 10%N :: l ++ r ->
    (pre = [] \/ exists q, pre = q ++ [10%N]) -> (forall k, In k (lf_lines body) -> forall m, ~ exception_line W m k) ->
    exception_line W n l -> ~ In 10%N l -> line_end r -> ~ whole_traceback W r ->
    python_feedback wb s = if length n <=? 20 then n else [].
  Proof.
    intros Hs E Hp Hb He Hl Hr Hw. unfold python_feedback. apply small_guard in Hs. rewrite Hs, E.
    rewrite (python_last pre body n l r Hp); try assumption.
    - rewrite Nat.ltb_antisym. destruct (length n <=? 20); reflexivity.
    - apply Forall_forall. exact Hb.
  Qed.
  Lemma python_feedback_none s : (~ small s \/ ~ whole_traceback W (utf8text_replace s)) -> python_feedback wb s = [].
  Proof.
    intros H. unfold python_feedback. destruct ((match s with [] => true | _ => false end) || (2048 <? N.of_nat (length s))%N) eqn:G; [reflexivity|].
    apply small_guard in G. destruct H as [H|H]; [contradiction|]. rewrite last_match_none; [reflexivity|]. intros x y E.
    destruct (retraceback wb (last_opt x) y) as [[n r]|] eqn:M; [exfalso|left; reflexivity]. apply H. apply whole_iff.
    exists x, y, n, r. split; [exact E|]. intros p. rewrite (retraceback_prev p (last_opt x)). exact M.
  Qed.
  Lemma python_feedback_sound s n : python_feedback wb s = n -> n <> [] ->
    small s /\ length n <= 20 /\ exists pre mid l r, utf8text_replace s = pre ++ traceback ++ 10%N :: mid ++ 10%N :: l ++ r /\
      exception_line W n l /\ ~ In 10%N l /\ line_end r /\ ~ whole_traceback W r.
  Proof.
    unfold python_feedback. destruct ((match s with [] => true | _ => false end) || (2048 <? N.of_nat (length s))%N) eqn:G; [congruence|].
    apply small_guard in G. destruct (last_match (retraceback wb) (utf8text_replace s)) as [e|] eqn:M; [|congruence].
    destruct (20 <? length e) eqn:L; [congruence|]. apply Nat.ltb_ge in L. intros <- _. split; [exact G|split; [exact L|]].
    destruct (last_match_sound _ retraceback_consumes _ e M) as (x & u & r & E & Hu & Mx & Nx).
    apply retraceback_iff in Mx. destruct Mx as (t & Et & Mt). destruct (nearest_sound _ t (le_n _) e r Mt) as (mid & l & -> & He & Hl & Hr & _).
    exists x, mid, l, r. split; [rewrite E, Et; unfold HL; rewrite <- app_assoc; reflexivity|].
    split; [exact He|split; [exact Hl|split; [exact Hr|]]]. intros Hw. apply whole_iff in Hw. destruct Hw as (b & y & n' & r' & Eb & H).
    destruct (Nx b y Eb) as [H'|H']; [rewrite H in H'; discriminate|]. subst y. specialize (H None).
    apply retraceback_iff in H. destruct H as (? & H & _). discriminate.
  Qed.
End Python.

(** ** Java and Mono: matches that stay on one line *)
Lemma no_straddle_line (pre T x y u' r' : bytes) : line_start pre -> pre ++ T = x ++ y -> length x < length pre ->
  y = u' ++ r' -> ~ In 10%N u' -> length T <= length r'.
Proof.
  intros Hpre Exy Lx -> Hu. symmetry in Exy. destruct (cut_later _ _ _ _ Exy Lx) as (w & Ew & Hw0).
  assert (Hwl : exists w0, w = w0 ++ [10%N]).
  { rewrite Ew, app_assoc in Exy. apply app_inv_tail in Exy.
    destruct Hpre as [->|(q & ->)]; [cbn in Lx; lia|].
    destruct (exists_last Hw0) as (w0 & d & ->). rewrite app_assoc in Exy. apply app_inj_tail in Exy. destruct Exy as [_ ->]. eauto. }
  destruct Hwl as (w0 & ->). rewrite <- app_assoc in Ew. apply app_eq_app in Ew. destruct Ew as (v & [[E1 E2]|[E1 E2]]).
  - destruct v as [|d v].
    + cbn [app] in E2. rewrite <- E2. cbn [length]. lia.
    + cbn [app] in E2. injection E2 as <- _. exfalso. apply Hu. rewrite E1. apply in_app_iff. right. left. reflexivity.
  - rewrite E2, app_length. cbn [length app]. lia.
Qed.
Lemma span_no_lf (f : N -> bool) t : f LF = false -> ~ In 10%N (fst (span f t)).
Proof.
  intros Hf Hin. pose proof (span_spec f t) as H. destruct (span f t) as [a b]. destruct H as (_ & Ha & _).
  rewrite Forall_forall in Ha. apply Ha in Hin. unfold LF in Hf. congruence.
Qed.

Lemma reexception_iff p s e r : reexception p s = Some (e, r) <-> s = java_marker ++ e ++ r /\ ~ In 10%N e /\ line_end r.
Proof.
  unfold reexception. fold java_marker. split.
  - destruct (after java_marker s) as [t|] eqn:E; [|discriminate]. apply after_iff in E. intros [= H].
    pose proof (span_spec (fun c => negb (c =? LF)%N) t) as Hs. rewrite H in Hs. destruct Hs as (-> & Ha & Hb).
    split; [exact E|]. split.
    + intros Hin. rewrite Forall_forall in Ha. apply Ha in Hin. discriminate.
    + destruct r as [|c r]; [left; reflexivity|right]. exists r. f_equal. destruct (N.eqb_spec c LF) as [->|]; [reflexivity|discriminate].
  - intros (-> & He & Hr). assert (E : after java_marker (java_marker ++ e ++ r) = Some (e ++ r)) by (apply after_iff; reflexivity).
    rewrite E, (span_app (fun c => negb (c =? LF)%N) e r); [reflexivity| |].
    + apply Forall_forall. intros x Hx. apply negb_true_iff, N.eqb_neq. intros ->. exact (He Hx).
    + destruct Hr as [->|(t & ->)]; [exact I|reflexivity].
Qed.
Lemma reexception_consumes p s g r : reexception p s = Some (g, r) -> exists u, u <> [] /\ s = u ++ r.
Proof. intros H. apply reexception_iff in H. destruct H as (-> & _). exists (java_marker ++ g). split; [discriminate|apply app_assoc]. Qed.
Lemma java_last pre e r : line_start pre -> ~ In 10%N e -> line_end r -> ~ occurs java_marker r ->
  last_match reexception (pre ++ java_marker ++ e ++ r) = Some e.
Proof.
  intros Hp He Hr Ho. rewrite (app_assoc java_marker).
  apply (last_match_last reexception reexception_consumes _ e pre (java_marker ++ e) r eq_refl).
  - apply reexception_iff. rewrite <- app_assoc. repeat split; assumption.
  - intros x y ->. destruct (reexception (last_opt (pre ++ (java_marker ++ e) ++ x)) y) as [[n' r']|] eqn:M; [exfalso|left; reflexivity].
    apply reexception_iff in M. destruct M as (-> & _). apply Ho. exists x, (n' ++ r'). reflexivity.
  - intros x y g' r' Exy L M. left. apply reexception_iff in M. destruct M as (Ey & Hg & _). rewrite app_assoc in Ey.
    refine (no_straddle_line pre _ x y _ r' Hp Exy L Ey _). intros Hin. apply in_app_iff in Hin. destruct Hin as [Hin|Hin]; [|exact (Hg Hin)].
    vm_compute in Hin. intuition discriminate.
Qed.
Lemma java_none s : ~ occurs java_marker s -> last_match reexception s = None.
Proof.
  intros H. apply last_match_none. intros x y ->. destruct (reexception (last_opt x) y) as [[n r]|] eqn:M; [exfalso|left; reflexivity].
  apply reexception_iff in M. destruct M as (-> & _). apply H. exists x, (n ++ r). reflexivity.
Qed.
Lemma before_colon_app k m : ~ In 58%N k -> before_colon k = k /\ before_colon (k ++ 58%N :: m) = k.
Proof.
  intros H. unfold before_colon. assert (Hk : Forall (fun c => negb (c =? 58)%N = true) k).
  { apply Forall_forall. intros x Hx. apply negb_true_iff, N.eqb_neq. intros ->. exact (H Hx). }
  split.
  - rewrite <- (app_nil_r k) at 1. rewrite (span_app _ k []); [reflexivity|exact Hk|exact I].
  - rewrite (span_app _ k (58%N :: m)); [reflexivity|exact Hk|reflexivity].
Qed.
Lemma before_colon_cut e : ~ In 58%N (before_colon e) /\ exists m, e = before_colon e ++ m /\ (m = [] \/ exists m', m = 58%N :: m').
Proof.
  unfold before_colon. pose proof (span_spec (fun c => negb (c =? 58)%N) e) as H. destruct (span (fun c => negb (c =? 58)%N) e) as [a b]. destruct H as (-> & F & L). cbn [fst]. split.
  - intros I. rewrite Forall_forall in F. specialize (F _ I). discriminate.
  - exists b. split; [reflexivity|]. destruct b as [|c b]; [left; reflexivity|]. right. exists b. apply negb_false_iff, N.eqb_eq in L. congruence.
Qed.
Lemma contains_occurs p s : contains p s = true <-> occurs p s.
Proof.
  unfold occurs. induction s as [|c s IH]; cbn [contains]; rewrite orb_true_iff, starts_with_app.
  - split.
    + intros [(r & H)|H]; [exists [], r; exact H|discriminate].
    + intros (a & b & H). left. destruct a; [exists b; exact H|discriminate].
  - rewrite IH. split.
    + intros [(r & H)|(a & b & ->)]; [exists [], r; exact H|exists (c :: a), b; reflexivity].
    + intros ([|d a] & b & H); [left; exists b; exact H|right; injection H as _ H; exists a, b; exact H].
Qed.
Lemma not_contains p s : ~ occurs p s -> contains p s = false.
Proof. intros H. destruct (contains p s) eqn:E; [apply contains_occurs in E; contradiction|reflexivity]. Qed.

Lemma crashed_iff rc : (match rc with Some 0%Z | None => false | _ => true end) = true <-> crashed rc.
Proof.
  unfold crashed. destruct rc as [[|p|p]|]; split; try discriminate; try reflexivity.
  - intros (c & [= <-] & H). congruence.
  - intros _. exists (Z.pos p). split; [reflexivity|discriminate].
  - intros _. exists (Z.neg p). split; [reflexivity|discriminate].
  - intros (c & H & _). discriminate.
Qed.
Lemma java_crash rc t stderr : crashed rc ->
  java_feedback rc (Log t) stderr = if contains (B "There is insufficient memory for the Java Runtime") t
    then Feedback (B "insufficient memory to initialize JVM") else InternalErr ([10; 10]%N ++ t).
Proof. intros H. apply crashed_iff in H. unfold java_feedback. rewrite H. reflexivity. Qed.
Lemma java_rest rc log stderr : (~ crashed rc \/ log = NoLog) ->
  java_feedback rc log stderr = Feedback (if contains (B "Error: Main method not found in class") stderr
              then B "public static void main(String[] args) not found"
              else match last_match reexception (utf8text_replace stderr) with
                   | None => B "abnormal termination"
                   | Some e => before_colon e
                   end).
Proof.
  intros H. unfold java_feedback.
  destruct (match rc with Some 0%Z | None => false | _ => true end) eqn:E; [|reflexivity].
  apply crashed_iff in E. destruct H as [H| ->]; [contradiction|reflexivity].
Qed.

Lemma java_only rc log stderr k : (~ crashed rc \/ log = NoLog) -> java_feedback rc log stderr = Feedback k ->
  ~ occurs (B "Error: Main method not found in class") stderr -> k <> B "abnormal termination" ->
  ~ In 58%N k /\ exists pre more r, utf8text_replace stderr = pre ++ java_marker ++ (k ++ more) ++ r /\
    (more = [] \/ exists m, more = 58%N :: m) /\ ~ In 10%N (k ++ more) /\ line_end r.
Proof.
  intros Hc H Hm Hk. rewrite (java_rest rc log stderr Hc), (not_contains _ _ Hm) in H.
  destruct (last_match reexception (utf8text_replace stderr)) as [e|] eqn:M; [|congruence].
  apply (last_match_sound _ reexception_consumes) in M as (x & u & r & E & _ & M & _). apply reexception_iff in M as (Eu & H1 & H2).
  destruct (before_colon_cut e) as (Nk & m & Em & Hm'). injection H as H. rewrite H in Nk, Em. split; [exact Nk|].
  exists x, m, r. rewrite <- Em. split; [rewrite E, Eu; reflexivity|]. split; [exact Hm'|]. split; assumption.
Qed.

Section Mono.
  Variable wb : N -> bool.
  Lemma mono_sound p s g r : mono_exception wb p s = Some (g, r) ->
    s = (mono_marker ++ g ++ [58%N]) ++ r /\ ~ In 10%N g /\ ~ In 58%N g /\ match p with Some c => word wb c = false | None => True end.
  Proof.
    unfold mono_exception. fold mono_marker. intros H.
    destruct (match p with Some q => word wb q | None => false end) eqn:Ep in H; [discriminate|].
    destruct (after mono_marker s) as [t|] eqn:E; [|discriminate]. apply after_iff in E.
    pose proof (span_spec (fun c => negb ((c =? 58) || (c =? LF))%N) t) as Hs.
    destruct (span (fun c => negb ((c =? 58) || (c =? LF))%N) t) as [a [|c b]]; [discriminate|].
    destruct (N.eqb_spec c 58) as [->|]; [|discriminate]. injection H as -> ->. destruct Hs as (-> & Ha & _).
    rewrite Forall_forall in Ha. split; [rewrite E, <- !app_assoc; reflexivity|]. split; [|split].
    - intros Hin. apply Ha in Hin. discriminate.
    - intros Hin. apply Ha in Hin. discriminate.
    - destruct p; [exact Ep|exact I].
  Qed.
  Lemma mono_complete p g r : ~ In 10%N g -> ~ In 58%N g -> match p with Some c => word wb c = false | None => True end ->
    mono_exception wb p ((mono_marker ++ g ++ [58%N]) ++ r) = Some (g, r).
  Proof.
    intros H1 H2 Hp. unfold mono_exception. fold mono_marker.
    replace (match p with Some q => word wb q | None => false end) with false by (destruct p; [symmetry; exact Hp|reflexivity]).
    rewrite <- !app_assoc. assert (E : after mono_marker (mono_marker ++ g ++ [58%N] ++ r) = Some (g ++ 58%N :: r)) by (apply after_iff; reflexivity).
    rewrite E. rewrite (span_app (fun c => negb ((c =? 58) || (c =? LF))%N) g (58%N :: r)); [reflexivity| |reflexivity].
    apply Forall_forall. intros x Hx. apply negb_true_iff, orb_false_iff. rewrite !N.eqb_neq. split; intros ->; auto.
  Qed.
  Lemma mono_consumes p s g r : mono_exception wb p s = Some (g, r) -> exists u, u <> [] /\ s = u ++ r.
  Proof. intros H. apply mono_sound in H. destruct H as (-> & _). exists (mono_marker ++ g ++ [58%N]). split; [discriminate|reflexivity]. Qed.
  Lemma mono_last pre g r : line_start pre -> ~ In 10%N g -> ~ In 58%N g -> ~ occurs mono_marker r ->
    last_match (mono_exception wb) (pre ++ mono_marker ++ g ++ 58%N :: r) = Some g.
  Proof.
    intros Hp H1 H2 Ho. replace (mono_marker ++ g ++ 58%N :: r) with ((mono_marker ++ g ++ [58%N]) ++ r) by (rewrite <- !app_assoc; reflexivity).
    apply (last_match_last (mono_exception wb) mono_consumes _ g pre (mono_marker ++ g ++ [58%N]) r eq_refl).
    - apply mono_complete; try assumption. destruct Hp as [->|(q & ->)]; [exact I|]. rewrite last_opt_snoc. reflexivity.
    - intros x y ->. destruct (mono_exception wb (last_opt (pre ++ (mono_marker ++ g ++ [58%N]) ++ x)) y) as [[n' r']|] eqn:M; [exfalso|left; reflexivity].
      apply mono_sound in M. destruct M as (-> & _). apply Ho. exists x, ((n' ++ [58%N]) ++ r'). rewrite <- !app_assoc. reflexivity.
    - intros x y g' r' Exy L M. left. apply mono_sound in M. destruct M as (Ey & Hg & _).
      refine (no_straddle_line pre _ x y _ r' Hp Exy L Ey _). intros Hin.
      apply in_app_iff in Hin. destruct Hin as [Hin|Hin]; [vm_compute in Hin; intuition discriminate|].
      apply in_app_iff in Hin. destruct Hin as [Hin|[Hin|[]]]; [exact (Hg Hin)|discriminate].
  Qed.
  Lemma mono_feedback_none s : ~ occurs mono_marker (utf8text_replace s) -> mono_feedback wb s = [].
  Proof.
    intros H. unfold mono_feedback. rewrite last_match_none; [reflexivity|]. intros x y E.
    destruct (mono_exception wb (last_opt x) y) as [[n r]|] eqn:M; [exfalso|left; reflexivity].
    apply mono_sound in M. destruct M as (-> & _). apply H. rewrite E. exists x, ((n ++ [58%N]) ++ r). rewrite <- !app_assoc. reflexivity.
  Qed.
  Lemma mono_feedback_only s n : mono_feedback wb s = n -> n <> [] ->
    exists pre r, utf8text_replace s = pre ++ mono_marker ++ n ++ 58%N :: r /\ ~ In 10%N n /\ ~ In 58%N n /\
      (forall q c, pre = q ++ [c] -> word wb c = false).
  Proof.
    unfold mono_feedback. intros H Hn. destruct (last_match (mono_exception wb) (utf8text_replace s)) as [g|] eqn:M; [subst g|congruence].
    apply (last_match_sound _ mono_consumes) in M as (x & u & r & E & _ & M & _). apply mono_sound in M as (Eu & H1 & H2 & H3).
    exists x, r. split; [rewrite E, Eu, <- !app_assoc; reflexivity|]. split; [exact H1|]. split; [exact H2|].
    intros q c ->. rewrite last_opt_snoc in H3. exact H3.
  Qed.
  Lemma mono_feedback_last s pre g r : utf8text_replace s = pre ++ mono_marker ++ g ++ 58%N :: r ->
    line_start pre -> ~ In 10%N g -> ~ In 58%N g -> ~ occurs mono_marker r -> mono_feedback wb s = g.
  Proof. intros E H1 H2 H3 H4. unfold mono_feedback. rewrite E, mono_last; auto. Qed.
End Mono.
