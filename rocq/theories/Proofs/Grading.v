From Coq Require Import String QArith Sorted ZifyBool ZifyN ZifyNat.
From Verif Require Import Model.Bytes Model.Result Model.Grading Spec.Grading Proofs.BytesLemmas.
From Verif Require Model.Contrib.
Local Open Scope list_scope.
Local Open Scope nat_scope.

(** ** codes *)
Lemma land_pow f k : N.land f (N.shiftl 1 k) = if N.testbit f k then N.shiftl 1 k else 0%N.
Proof.
  apply N.bits_inj. intros i. rewrite N.land_spec, N.shiftl_1_l, N.pow2_bits_eqb.
  destruct (N.eqb_spec k i) as [->|Hn].
  - destruct (N.testbit f i) eqn:E; [now rewrite N.pow2_bits_true|now rewrite N.bits_0].
  - rewrite andb_false_r. destruct (N.testbit f k); [|now rewrite N.bits_0]. symmetry. apply N.pow2_bits_false. congruence.
Qed.
Lemma truthy_land f k : truthy (N.land f (N.shiftl 1 k)) = N.testbit f k.
Proof.
  rewrite land_pow. unfold truthy. destruct (N.testbit f k); [|reflexivity].
  rewrite N.shiftl_1_l. pose proof (N.pow_nonzero 2 k). destruct (N.eqb_spec (2 ^ k) 0); [lia|reflexivity].
Qed.
Definition fl (f : N) (c : code) : bool := match bit c with Some b => N.testbit f b | None => false end.
Lemma fl_iff f c : fl f c = true <-> flagged f c.
Proof.
  unfold fl, flagged. destruct (bit c) as [b|]; [|split; [discriminate|intros [b [H _]]; discriminate]].
  split; [eauto|]. intros [b' [H H']]. injection H as <-. exact H'.
Qed.
Lemma truthy_fl f c : truthy (N.land f (flag_of c)) = fl f c.
Proof. destruct c; try apply truthy_land. cbn. now rewrite N.land_0_r. Qed.

Lemma readable_eq f : readable_codes f =
  match filter (fl f) CODE_DISPLAY_ORDER with [] => [AC] | l => l end.
Proof.
  unfold readable_codes. erewrite filter_ext; [reflexivity|]. intros c. apply truthy_fl.
Qed.
Lemma all_codes c : c <> AC -> In c CODE_DISPLAY_ORDER.
Proof. destruct c; cbn; tauto. Qed.
Lemma fl_AC f : fl f AC = false. Proof. reflexivity. Qed.

Lemma readable_in f c : In c (readable_codes f) <-> flagged f c \/ (c = AC /\ forall d, ~ flagged f d).
Proof.
  rewrite readable_eq. destruct (filter (fl f) CODE_DISPLAY_ORDER) as [|x l] eqn:E.
  - assert (forall d, ~ flagged f d) as Hn.
    { intros d Hd. apply fl_iff in Hd. assert (In d (filter (fl f) CODE_DISPLAY_ORDER)) as Hi; [|rewrite E in Hi; exact Hi].
      apply filter_In. split; [apply all_codes; intros ->; discriminate|exact Hd]. }
    cbn. split; [intros [<-|[]]; right; auto|]. intros [H|[-> _]]; [exfalso; eapply Hn, H|auto].
  - rewrite <- E, filter_In, fl_iff. split; [tauto|]. intros [H|[-> H]].
    + split; [|exact H]. apply all_codes. intros ->. apply fl_iff in H. discriminate.
    + exfalso. assert (In x (filter (fl f) CODE_DISPLAY_ORDER)) as Hx by (rewrite E; left; reflexivity).
      apply filter_In in Hx as [_ Hx]. apply fl_iff in Hx. eapply H, Hx.
Qed.
Lemma StronglySorted_filter {A} (R : A -> A -> Prop) f l : StronglySorted R l -> StronglySorted R (filter f l).
Proof.
  induction 1 as [|a l H IH Ha]; cbn; [constructor|]. destruct (f a); [|exact IH]. constructor; [exact IH|].
  apply Forall_forall. intros x Hx. apply filter_In in Hx. rewrite Forall_forall in Ha. apply Ha, Hx.
Qed.
Lemma readable_sorted f : StronglySorted worse (readable_codes f).
Proof.
  rewrite readable_eq. destruct (filter (fl f) CODE_DISPLAY_ORDER) as [|x l] eqn:E; [repeat constructor|].
  rewrite <- E. apply StronglySorted_filter. unfold CODE_DISPLAY_ORDER, worse.
  repeat (constructor; [|repeat (constructor; [cbn; lia|]); constructor]). constructor.
Qed.
Lemma find_filter {A} (f : A -> bool) l : find f l = hd_error (filter f l).
Proof. induction l as [|a l IH]; [reflexivity|]. cbn. destruct (f a); [reflexivity|exact IH]. Qed.
Lemma main_head f : exists c, hd_error (readable_codes f) = Some c /\ get_main_code f = flag_of c.
Proof.
  unfold get_main_code. rewrite find_filter, readable_eq.
  rewrite (filter_ext _ (fl f) (truthy_fl f)). destruct (filter (fl f) CODE_DISPLAY_ORDER) as [|x l]; cbn; eauto.
Qed.
Lemma readable_AC f : readable_codes f = [AC] <-> forall c, ~ flagged f c.
Proof.
  split.
  - intros E c Hc. assert (In c (readable_codes f)) as Hi by (apply readable_in; auto). rewrite E in Hi.
    destruct Hi as [<-|[]]. apply fl_iff in Hc. discriminate.
  - intros H. rewrite readable_eq. destruct (filter (fl f) CODE_DISPLAY_ORDER) as [|x l] eqn:E; [reflexivity|].
    exfalso. assert (In x (filter (fl f) CODE_DISPLAY_ORDER)) as Hx by (rewrite E; left; reflexivity).
    apply filter_In in Hx as [_ Hx]. apply fl_iff in Hx. eapply H, Hx.
Qed.
Lemma main_code f : exists c, get_main_code f = match bit c with Some b => (2 ^ b)%N | None => 0%N end /\
  (flagged f c \/ (c = AC /\ forall d, ~ flagged f d)) /\ (forall d, flagged f d -> d = c \/ worse c d).
Proof.
  destruct (main_head f) as [c [Hh Hm]]. exists c. split; [rewrite Hm; destruct c; reflexivity|].
  pose proof (readable_sorted f) as S. pose proof (fun d => readable_in f d) as I.
  destruct (readable_codes f) as [|x l]; [discriminate|]. injection Hh as ->. split; [apply I; left; reflexivity|].
  intros d Hd. inversion S as [|? ? _ Hf]; subst. assert (In d (c :: l)) as [<-|Hi] by (apply I; auto); [auto|].
  right. rewrite Forall_forall in Hf. apply Hf, Hi.
Qed.

(** ** flags of a run *)
Lemma testbit_lor_flag f c b i : bit c = Some b -> N.testbit (N.lor f (flag_of c)) i = N.testbit f i || (i =? b)%N.
Proof.
  intros Hb. rewrite N.lor_spec. f_equal.
  assert (flag_of c = N.shiftl 1 b) as -> by (destruct c; try discriminate; injection Hb as <-; reflexivity).
  rewrite N.shiftl_1_l, N.pow2_bits_eqb. apply N.eqb_sym.
Qed.
Lemma testbit_set c b x f i : bit c = Some b -> N.testbit (set_flag c x f) i = N.testbit f i || (x && (i =? b)%N).
Proof.
  intros Hb. unfold set_flag. destruct x; [apply testbit_lor_flag, Hb|]. cbn. now rewrite orb_false_r.
Qed.

Lemma populate_bits mono stderr p f i : populate_flags mono stderr p = Some f ->
  exists r, returncode p = Some r /\
  N.testbit f i =
    (((0 <? r)%Z && (i =? 4)%N) || ((r <? 0)%Z && (i =? 1)%N) || (ole p && (i =? 6)%N) || (tle p && (i =? 2)%N)
     || (is_mle p && (i =? 3)%N)
     || (mono && (0 <? r)%Z && contains (B "Garbage collector could not allocate") stderr && (i =? 3)%N)).
Proof.
  unfold populate_flags, is_ir, is_rte. destruct (returncode p) as [r|]; [|discriminate].
  intros H. injection H as <-. exists r. split; [reflexivity|].
  rewrite (testbit_set MLE 3) by reflexivity. rewrite (testbit_set MLE 3) by reflexivity.
  rewrite (testbit_set TLE 2) by reflexivity. rewrite (testbit_set OLE 6) by reflexivity.
  rewrite (testbit_set RTE 1) by reflexivity. rewrite (testbit_set IR 4) by reflexivity.
  rewrite N.bits_0. reflexivity.
Qed.

Lemma over_memory_iff p : is_mle p = true <-> over_memory p.
Proof.
  unfold is_mle, over_memory. rewrite andb_true_iff, !negb_true_iff. split; intros [H1 H2]; split.
  - intros E. apply Qeq_bool_iff in E. congruence.
  - destruct (Qlt_le_dec (memory_limit p) (max_memory p)) as [H|H]; [exact H|]. apply Qle_bool_iff in H. congruence.
  - destruct (Qeq_bool (memory_limit p) 0) eqn:E; [|reflexivity]. apply Qeq_bool_iff in E. contradiction.
  - destruct (Qle_bool (max_memory p) (memory_limit p)) eqn:E; [|reflexivity]. apply Qle_bool_iff in E.
    exfalso. apply (Qlt_not_le _ _ H2 E).
Qed.

Lemma starts_with_iff pat s : starts_with pat s = true <-> exists b, s = pat ++ b.
Proof.
  revert s. induction pat as [|x pat IH]; intros s; cbn.
  - split; [eauto|reflexivity].
  - destruct s as [|y s]; [split; [discriminate|intros [b H]; discriminate]|].
    rewrite andb_true_iff, IH, N.eqb_eq. split.
    + intros [-> [b ->]]. eauto.
    + intros [b H]. injection H as -> ->. eauto.
Qed.
Lemma contains_iff pat s : contains pat s = true <-> occurs pat s.
Proof.
  unfold occurs. induction s as [|c s IH]; cbn [contains]; rewrite orb_true_iff, starts_with_iff.
  - split.
    + intros [[b H]|H]; [exists [], b; exact H|discriminate].
    + intros [a [b H]]. destruct a; [left; eauto|discriminate].
  - rewrite IH. split.
    + intros [[b H]|[a [b ->]]]; [exists [], b; exact H|exists (c :: a), b; reflexivity].
    + intros [a [b H]]. destruct a as [|d a]; [left; eauto|right]. injection H as -> ->. eauto.
Qed.

(** ** a graded case *)
Lemma finish_inv cp ck r r' : finish cp ck r = Graded r' ->
  result_flag r' = N.lor (result_flag r) (if match ck with CkBool b => b | CkResult b _ _ _ => b | _ => false end then 0 else 1)
  /\ points r' = worth cp ck /\ (forall e, finish cp ck r <> Raised e).
Proof.
  unfold finish. destruct ck as [b|b q fb ext| | | |]; try discriminate; intros H; injection H as <-; cbn.
  - destruct b; repeat split; discriminate.
  - destruct b; repeat split; discriminate.
Qed.

Section Run.
  Variable pf : bytes -> option bytes.
  Variable ss : Z -> bytes.
  Variable mono : bool.

  Definition mono_oom (io : option (bytes * bytes)) (p : process) : Prop :=
    mono = true /\ nonzero_exit p /\ occurs (B "Garbage collector could not allocate") (io_error io).

  Lemma populate_inv stderr p r r' : populate_result pf ss mono stderr p r = Some r' ->
    populate_flags mono stderr p = Some (result_flag r') /\ points r' = points r /\ proc_output r' = proc_output r.
  Proof.
    unfold populate_result. destruct (populate_flags mono stderr p); [|discriminate].
    destruct (get_feedback_str pf ss stderr p); [|discriminate]. intros H. injection H as <-. auto.
  Qed.

  Lemma grade_inv chk cp io p r : grade_with pf ss mono chk cp io p = Graded r ->
    exists f r0, populate_flags mono (io_error io) (mark_ole io p) = Some f /\ result_flag r0 = f /\
      finish cp (chk f) r0 = Graded r /\ proc_output r = io_output io.
  Proof.
    unfold grade_with. destruct (wait_ok (mark_ole io p)); [|discriminate]. cbn [negb].
    destruct (populate_result pf ss mono (io_error io) (mark_ole io p) _) as [r0|] eqn:E; [|discriminate].
    apply populate_inv in E as [E1 [E2 E3]]. intros H. exists (result_flag r0), r0. repeat split; auto.
    cbn in E3. rewrite <- E3. unfold finish in H. destruct (chk (result_flag r0)) as [b|b q fb ext| | | |]; try discriminate; injection H as <-; reflexivity.
  Qed.

  Lemma flags_exact chk cp io p r : grade_with pf ss mono chk cp io p = Graded r ->
    (flagged (result_flag r) IR <-> nonzero_exit p) /\
    (flagged (result_flag r) RTE <-> killed_by_signal p) /\
    (flagged (result_flag r) OLE <-> over_output io p) /\
    (flagged (result_flag r) TLE <-> over_time p) /\
    (flagged (result_flag r) MLE <-> over_memory p \/ mono_oom io p) /\
    (forall b, N.testbit (result_flag r) b = true -> In b [0; 1; 2; 3; 4; 6]%N).
  Proof.
    intros H. destruct (grade_inv _ _ _ _ _ H) as [f [r0 [Ef [E0 [Hf _]]]]].
    destruct (finish_inv _ _ _ _ Hf) as [Hr _]. rewrite E0 in Hr.
    set (w := if match chk f with CkBool b => b | CkResult b _ _ _ => b | _ => false end then 0%N else 1%N) in Hr.
    assert (forall i, (0 < i)%N -> N.testbit w i = false) as Hw.
    { intros i Hi. unfold w. destruct (match chk f with CkBool b => b | CkResult b _ _ _ => b | _ => false end); [apply N.bits_0|].
      change 1%N with (2 ^ 0)%N. apply N.pow2_bits_false. lia. }
    assert (returncode (mark_ole io p) = returncode p) as R1 by (destruct io; reflexivity).
    assert (tle (mark_ole io p) = tle p) as R2 by (destruct io; reflexivity).
    assert (is_mle (mark_ole io p) = is_mle p) as R3 by (destruct io; reflexivity).
    assert (ole (mark_ole io p) = true <-> over_output io p) as R4.
    { unfold over_output. destruct io as [[o e]|]; cbn; [split; [auto|intros [H'|H']; [discriminate|exact H']]|tauto]. }
    assert (forall i, (0 < i)%N -> exists rc, returncode p = Some rc /\ N.testbit (result_flag r) i =
        (((0 <? rc)%Z && (i =? 4)%N) || ((rc <? 0)%Z && (i =? 1)%N) || (ole (mark_ole io p) && (i =? 6)%N) || (tle p && (i =? 2)%N)
     || (is_mle p && (i =? 3)%N)
     || (mono && (0 <? rc)%Z && contains (B "Garbage collector could not allocate") (io_error io) && (i =? 3)%N))) as HB.
    { intros i Hi. destruct (populate_bits _ _ _ _ i Ef) as [rc [Erc Eb]]. exists rc. rewrite R1 in Erc. split; [exact Erc|].
      rewrite Hr, N.lor_spec, (Hw i Hi), orb_false_r, Eb, R2, R3. reflexivity. }
    unfold nonzero_exit, killed_by_signal.
    assert (exists rc, returncode p = Some rc) as [rc Erc] by (destruct (HB 1%N eq_refl) as [rc [E _]]; eauto).
    assert (forall i, (0 < i)%N -> N.testbit (result_flag r) i =
        (((0 <? rc)%Z && (i =? 4)%N) || ((rc <? 0)%Z && (i =? 1)%N) || (ole (mark_ole io p) && (i =? 6)%N) || (tle p && (i =? 2)%N)
     || (is_mle p && (i =? 3)%N)
     || (mono && (0 <? rc)%Z && contains (B "Garbage collector could not allocate") (io_error io) && (i =? 3)%N))) as HC.
    { intros i Hi. destruct (HB i Hi) as [rc' [E E']]. rewrite E in Erc. injection Erc as ->. exact E'. }
    clear HB. unfold flagged, mono_oom.
    assert (forall c b, bit c = Some b -> ((exists b', bit c = Some b' /\ N.testbit (result_flag r) b' = true) <-> N.testbit (result_flag r) b = true)) as HF.
    { intros c b Hb. split; [intros [b' [H1 H2]]; congruence|eauto]. }
    rewrite (HF IR 4%N), (HF RTE 1%N), (HF OLE 6%N), (HF TLE 2%N), (HF MLE 3%N) by reflexivity.
    rewrite !HC by reflexivity. cbn [N.eqb Pos.eqb]. rewrite !andb_false_r, !andb_true_r. cbn [orb]. rewrite !orb_false_r.
    repeat split.
    - intros Hx. exists rc. split; [exact Erc|lia].
    - intros [r' [E' Hx]]. assert (r' = rc) by congruence. lia.
    - intros Hx. exists rc. split; [exact Erc|lia].
    - intros [r' [E' Hx]]. assert (r' = rc) by congruence. lia.
    - apply R4.
    - apply R4.
    - auto.
    - auto.
    - rewrite orb_true_iff, !andb_true_iff, over_memory_iff, contains_iff. intros [Hx|[[Hm Hx] Hy]]; [auto|right].
      split; [exact Hm|]. split; [exists rc; split; [exact Erc|lia]|exact Hy].
    - rewrite orb_true_iff, !andb_true_iff, over_memory_iff, contains_iff. intros [Hx|[Hm [[r' [E' Hx]] Hy]]]; [auto|right].
      assert (r' = rc) by congruence. repeat split; auto. lia.
    - intros b Hb. destruct (N.eq_dec b 0) as [->|Hn]; [left; reflexivity|].
      rewrite HC in Hb by lia. cbn [In].
      assert (b = 4 \/ b = 1 \/ b = 6 \/ b = 2 \/ b = 3)%N as Hd.
      { destruct (N.eqb_spec b 4); [auto|]. destruct (N.eqb_spec b 1); [auto|]. destruct (N.eqb_spec b 6); [auto|].
        destruct (N.eqb_spec b 2); [auto|]. destruct (N.eqb_spec b 3); [auto 6|]. exfalso.
        rewrite !andb_false_r in Hb. discriminate. }
      intuition (subst; auto 10).
  Qed.

  Lemma wa_exact chk cp io p r : grade_with pf ss mono chk cp io p = Graded r ->
    exists f, populate_flags mono (io_error io) (mark_ole io p) = Some f /\
      (flagged (result_flag r) WA <-> ~ passes (chk f)) /\ points r = worth cp (chk f) /\
      (result_flag r = 0%N <-> f = 0%N /\ passes (chk f)).
  Proof.
    intros H. destruct (grade_inv _ _ _ _ _ H) as [f [r0 [Ef [E0 [Hf _]]]]]. exists f. split; [exact Ef|].
    destruct (finish_inv _ _ _ _ Hf) as [Hr [Hp _]]. rewrite E0 in Hr.
    destruct (populate_bits _ _ _ _ 0 Ef) as [rc [_ Eb]]. cbn [N.eqb] in Eb. rewrite !andb_false_r in Eb. cbn [orb] in Eb.
    assert (passes (chk f) <-> match chk f with CkBool b => b | CkResult b _ _ _ => b | _ => false end = true) as HP.
    { unfold passes. destruct (chk f); split; auto; discriminate || contradiction. }
    split.
    - unfold flagged, bit. rewrite HP.
      destruct (match chk f with CkBool b => b | CkResult b _ _ _ => b | _ => false end) eqn:E.
      + rewrite N.lor_0_r in Hr. rewrite Hr. split; [intros [b [Hb1 Hb2]]; injection Hb1 as <-; congruence|intros X; contradiction].
      + split; [discriminate|]. intros _. exists 0%N. split; [reflexivity|]. rewrite Hr, N.lor_spec. cbn. apply orb_true_r.
    - split; [exact Hp|]. rewrite HP, Hr.
      destruct (match chk f with CkBool b => b | CkResult b _ _ _ => b | _ => false end) eqn:E.
      + rewrite N.lor_0_r. tauto.
      + split; [|intros [_ X]; discriminate]. intros X. apply N.lor_eq_0_iff in X as [_ X]. discriminate.
  Qed.

  Lemma flags_zero io p f : populate_flags mono (io_error io) (mark_ole io p) = Some f -> (f = 0%N <-> clean io p).
  Proof.
    intros Ef.
    assert (returncode (mark_ole io p) = returncode p) as R1 by (destruct io; reflexivity).
    assert (tle (mark_ole io p) = tle p) as R2 by (destruct io; reflexivity).
    assert (is_mle (mark_ole io p) = is_mle p) as R3 by (destruct io; reflexivity).
    assert (ole (mark_ole io p) = true <-> over_output io p) as R4.
    { unfold over_output. destruct io as [[o e]|]; cbn; [split; [auto|intros [H'|H']; [discriminate|exact H']]|tauto]. }
    destruct (populate_bits _ _ _ _ 0 Ef) as [rc [Erc _]]. rewrite R1 in Erc.
    assert (forall i, N.testbit f i =
        (((0 <? rc)%Z && (i =? 4)%N) || ((rc <? 0)%Z && (i =? 1)%N) || (ole (mark_ole io p) && (i =? 6)%N) || (tle p && (i =? 2)%N)
     || (is_mle p && (i =? 3)%N)
     || (mono && (0 <? rc)%Z && contains (B "Garbage collector could not allocate") (io_error io) && (i =? 3)%N))) as HC.
    { intros i. destruct (populate_bits _ _ _ _ i Ef) as [rc' [E E']]. rewrite R1, Erc in E. injection E as <-.
      rewrite E', R2, R3. reflexivity. }
    unfold clean, over_time. rewrite <- over_memory_iff, <- R4, Erc. split.
    - intros ->. pose proof (HC 4%N) as H4. pose proof (HC 1%N) as H1. pose proof (HC 6%N) as H6. pose proof (HC 2%N) as H2. pose proof (HC 3%N) as H3.
      cbn [N.eqb Pos.eqb] in *. rewrite N.bits_0 in *. rewrite !andb_false_r, !andb_true_r, ?orb_false_r in *. cbn [orb] in *.
      symmetry in H3. apply orb_false_iff in H3 as [H3 _].
      split; [f_equal; lia|]. rewrite <- H2, H3, <- H6. repeat split; discriminate.
    - intros [E [H2 [H3 H6]]]. injection E as ->. apply N.bits_inj. intros i. rewrite N.bits_0, HC. cbn [Z.ltb Z.compare andb orb].
      destruct (tle p); [contradiction|]. destruct (is_mle p); [contradiction|]. destruct (ole (mark_ole io p)); [contradiction|].
      rewrite andb_false_r. reflexivity.
  Qed.

  (** Standard grader *)
  Lemma standard_accept roe ck cp io p r : standard_grade pf ss mono roe ck cp io p = Graded r ->
    (result_flag r = 0%N <-> clean io p /\ passes ck).
  Proof.
    intros H. destruct (wa_exact _ _ _ _ _ H) as [f [Ef [_ [_ Hz]]]]. rewrite Hz, (flags_zero _ _ _ Ef).
    assert (clean io p -> (passes (fst (standard_check_result f roe ck)) <-> passes ck)) as Hc.
    { intros C. apply (flags_zero _ _ _ Ef) in C. subst f. cbn. destruct ck; cbn; split; auto; discriminate || contradiction. }
    split; intros [C P]; (split; [exact C|]); apply Hc; auto.
  Qed.
  Lemma standard_points roe ck cp io p r : standard_grade pf ss mono roe ck cp io p = Graded r -> clean io p ->
    points r = worth cp ck.
  Proof.
    intros H C. destruct (wa_exact _ _ _ _ _ H) as [f [Ef [_ [Hp _]]]]. rewrite Hp.
    apply (flags_zero _ _ _ Ef) in C. subst f. cbn. destruct ck; reflexivity.
  Qed.
  Lemma checker_feedback roe passed pts fb ext cp io p r : standard_grade pf ss mono roe (CkResult passed pts fb ext) cp io p = Graded r -> clean io p ->
    (forall c t, fb = Some (c :: t) -> feedback r = fb) /\ (forall c t, ext = Some (c :: t) -> extended_feedback r = ext) /\
    (ext = None \/ ext = Some [] -> extended_feedback r = Some []).
  Proof.
    intros H C. unfold standard_grade, grade_with in H. destruct (negb (wait_ok (mark_ole io p))); [discriminate|].
    unfold populate_result in H. destruct (populate_flags mono (io_error io) (mark_ole io p)) as [f|] eqn:Ef; [|discriminate].
    destruct (get_feedback_str pf ss (io_error io) (mark_ole io p)) as [g|]; [|discriminate].
    apply (flags_zero _ _ _ Ef) in C. subst f. cbn in H. injection H as <-. cbn [feedback extended_feedback]. unfold or_text.
    split; [intros c t ->; reflexivity|]. split; [intros c t ->; reflexivity|]. intros [->| ->]; reflexivity.
  Qed.
  Lemma standard_unclean ck cp io p r : standard_grade pf ss mono false ck cp io p = Graded r -> ~ clean io p ->
    points r = 0%Q /\ flagged (result_flag r) WA /\ result_flag r <> 0%N.
  Proof.
    intros H C. destruct (wa_exact _ _ _ _ _ H) as [f [Ef [Hw [Hp Hz]]]].
    assert (f <> 0%N) as Hf by (intros E; apply C, (flags_zero _ _ _ Ef), E).
    unfold standard_check_result, truthy in *. destruct (N.eqb_spec f 0); [contradiction|]. cbn in *.
    split; [exact Hp|]. split; [apply Hw; discriminate|]. rewrite Hz. tauto.
  Qed.
  (** The checker's behaviour is irrelevant after a failure: it is not run. *)
  Lemma standard_not_run ck ck' cp io p : ~ clean io p ->
    standard_grade pf ss mono false ck cp io p = standard_grade pf ss mono false ck' cp io p.
  Proof.
    intros C. unfold standard_grade, grade_with. destruct (wait_ok (mark_ole io p)); [|reflexivity]. cbn [negb].
    destruct (populate_result pf ss mono (io_error io) (mark_ole io p) _) as [r0|] eqn:E; [|reflexivity].
    apply populate_inv in E as [E1 _].
    assert (result_flag r0 <> 0%N) as Hf by (intros E; apply C, (flags_zero _ _ _ E1), E).
    unfold standard_check_result, truthy. destruct (N.eqb_spec (result_flag r0) 0); [contradiction|]. reflexivity.
  Qed.

  Lemma feedback_total stderr p : returncode p <> None -> exists fb, get_feedback_str pf ss stderr p = Some fb.
  Proof. unfold get_feedback_str, is_ir. destruct (returncode p); [eauto|contradiction]. Qed.
  Lemma populate_total stderr p r : returncode p <> None -> exists r', populate_result pf ss mono stderr p r = Some r'.
  Proof.
    intros H. unfold populate_result, populate_flags. destruct (feedback_total stderr p H) as [fb ->].
    unfold is_ir. destruct (returncode p); [eauto|contradiction].
  Qed.
  Lemma wait_ok_iff p : wait_ok p = true <-> was_initialized p = true \/ killed_by_signal p.
  Proof.
    unfold wait_ok, killed_by_signal. rewrite orb_true_iff. split; (intros [H|H]; [left; exact H|right]).
    - destruct (returncode p) as [r|]; [|discriminate]. exists r. split; [reflexivity|apply Z.ltb_lt, H].
    - destruct H as (r & -> & H). apply Z.ltb_lt, H.
  Qed.
  Lemma standard_total roe ck cp io p :
    was_initialized p = true \/ killed_by_signal p -> returncode p <> None -> (exists b, ck = CkBool b) \/ (exists b q f e, ck = CkResult b q f e) \/ ck = CkUnicodeDecodeError ->
    exists r, standard_grade pf ss mono roe ck cp io p = Graded r.
  Proof.
    intros Hi Hr Hc. unfold standard_grade, grade_with.
    assert (wait_ok (mark_ole io p) = true) as -> by (apply wait_ok_iff; destruct io; exact Hi). cbn [negb].
    assert (returncode (mark_ole io p) <> None) as Hr' by (destruct io; exact Hr).
    match goal with |- context [populate_result _ _ _ _ _ ?r0] => destruct (populate_total (io_error io) (mark_ole io p) r0 Hr') as [r' ->] end.
    unfold standard_check_result. destruct (negb (truthy (result_flag r')) || roe); cbn [fst].
    - destruct Hc as [[b ->]|[[b [q [f [e ->]]]]| ->]]; cbn; eauto.
    - cbn. eauto.
  Qed.

  (** Interactive and bridged graders *)
  Lemma interactive_accept ck fb cp err p r : interactive_grade pf ss mono ck fb cp err p = Graded r ->
    (result_flag r = 0%N <-> clean (Some ([], err)) p /\ passes ck) /\
    (~ clean (Some ([], err)) p -> points r = 0%Q) /\ (clean (Some ([], err)) p -> points r = worth cp ck).
  Proof.
    intros H. destruct (wa_exact _ _ _ _ _ H) as [f [Ef [_ [Hp Hz]]]]. rewrite Hz, (flags_zero _ _ _ Ef).
    unfold interactive_check_result, truthy in *.
    assert (clean (Some ([], err)) p <-> f = 0%N) as HC by (symmetry; apply (flags_zero _ _ _ Ef)). rewrite HC.
    destruct (N.eqb_spec f 0) as [->|Hf]; cbn [negb] in *.
    - assert (passes match ck with CkBool b => CkResult b (if b then cp else 0%Q) fb None | c => c end <-> passes ck) as ->.
      { destruct ck; cbn; tauto. }
      split; [tauto|]. split; [tauto|]. intros _. rewrite Hp. destruct ck as [[]| | | | |]; reflexivity.
    - split; [split; [intros [X _]; contradiction|tauto]|]. split; [intros _; exact Hp|tauto].
  Qed.
  Definition verdict_of (o : Contrib.outcome Q) : check_ret :=
    match o with
    | Contrib.Verdict b q f => CkResult b q f None
    | Contrib.Boolean b => CkBool b
    | Contrib.ReturnsNone => CkOther
    | Contrib.InternalError => CkInternalError
    end.
  Lemma bridged_accept o cp err p r : bridged_grade pf ss mono o cp err p = Graded r ->
    (result_flag r = 0%N <-> clean (Some ([], err)) p /\ passes (verdict_of o)) /\
    (~ clean (Some ([], err)) p -> points r = 0%Q) /\ (clean (Some ([], err)) p -> points r = worth cp (verdict_of o)).
  Proof.
    intros H. destruct (wa_exact _ _ _ _ _ H) as [f [Ef [_ [Hp Hz]]]]. rewrite Hz, (flags_zero _ _ _ Ef).
    unfold bridged_check_result, truthy in *.
    assert (clean (Some ([], err)) p <-> f = 0%N) as HC by (symmetry; apply (flags_zero _ _ _ Ef)). rewrite HC.
    destruct (N.eqb_spec f 0) as [->|Hf]; cbn [negb] in *.
    - destruct o as [b q fb|b| |]; cbn [verdict_of] in *; (split; [tauto|]); (split; [tauto|]); intros _; exact Hp.
    - destruct o as [b q fb|b| |]; cbn in *;
        (split; [split; [intros [X _]; contradiction|tauto]|]); (split; [intros _; exact Hp|tauto]).
  Qed.
  Lemma bridged_internal cp err p : wait_ok p = true -> returncode p <> None ->
    bridged_grade pf ss mono Contrib.InternalError cp err p = Raised InternalErr.
  Proof.
    intros Hw Hr. unfold bridged_grade, grade_with. cbn [mark_ole]. rewrite Hw. cbn [negb].
    match goal with |- context [populate_result _ _ _ _ _ ?r0] => destruct (populate_total (io_error (Some ([], err))) p r0 Hr) as [r' ->] end.
    reflexivity.
  Qed.
End Run.

(** ** the TLE flag *)
Lemma run_fold ig time wall evs c :
  is_tle_flag (fold_left (run_step ig time wall) evs c) = true ->
  is_tle_flag c = true \/ (ig = false /\ In TimeSignal evs) \/
  (~ time == 0 /\ exists ex wc, In (Tick ex wc) evs /\ (time < ex \/ wall < wc))%Q.
Proof.
  revert c. induction evs as [|e evs IH]; intros c; cbn [fold_left]; [auto|].
  intros H. apply IH in H as [H|[[Hg Hi]|[Hz [ex [wc [Hi Hx]]]]]].
  - destruct e as [|ex wc]; cbn [run_step] in H.
    + cbn in H. apply orb_true_iff in H as [H|H]; [auto|]. right. left. split; [now destruct ig|left; reflexivity].
    + destruct (negb (Qeq_bool time 0) && negb (shocked c) && (Qlt_bool time ex || Qlt_bool wall wc)) eqn:E; [|auto].
      right. right. rewrite !andb_true_iff in E. destruct E as [[E1 _] E2]. split.
      * intros X. apply Qeq_bool_iff in X. rewrite X in E1. discriminate.
      * exists ex, wc. split; [left; reflexivity|]. unfold Qlt_bool in E2. apply orb_true_iff in E2 as [E2|E2]; apply negb_true_iff in E2; [left|right];
          match goal with |- (?a < ?b)%Q => destruct (Qlt_le_dec a b) as [L|L]; [exact L|apply Qle_bool_iff in L; congruence] end.
  - right. left. split; [exact Hg|right; exact Hi].
  - right. right. split; [exact Hz|]. exists ex, wc. split; [right; exact Hi|exact Hx].
Qed.
Lemma run_mono ig time wall evs c : is_tle_flag c = true -> is_tle_flag (fold_left (run_step ig time wall) evs c) = true.
Proof.
  revert c. induction evs as [|e evs IH]; intros c H; [exact H|]. cbn. apply IH. destruct e; cbn; [now rewrite H|].
  destruct (_ && _); [reflexivity|exact H].
Qed.
Lemma shocked_tle ig time wall c e : (shocked c = true -> is_tle_flag c = true) ->
  shocked (run_step ig time wall c e) = true -> is_tle_flag (run_step ig time wall c e) = true.
Proof.
  intros H. destruct e as [|ex wc]; cbn.
  - intros Hs. rewrite (H Hs). reflexivity.
  - destruct (_ && _); [reflexivity|exact H].
Qed.
Lemma run_fold_conv ig time wall evs c : (shocked c = true -> is_tle_flag c = true) ->
  (ig = false /\ In TimeSignal evs) \/ (~ time == 0 /\ exists ex wc, In (Tick ex wc) evs /\ (time < ex \/ wall < wc))%Q ->
  is_tle_flag (fold_left (run_step ig time wall) evs c) = true.
Proof.
  revert c. induction evs as [|e evs IH]; intros c Hc H.
  - destruct H as [[_ []]|[_ [? [? [[] _]]]]].
  - cbn [fold_left].
    assert ((is_tle_flag (run_step ig time wall c e) = true) \/
      ((ig = false /\ In TimeSignal evs) \/ (~ time == 0 /\ exists ex wc, In (Tick ex wc) evs /\ (time < ex \/ wall < wc))%Q)) as [X|X].
    { destruct H as [[Hg [->|Hi]]|[Hz [ex [wc [[->|Hi] Hx]]]]].
      - left. cbn. rewrite Hg. apply orb_true_r.
      - auto.
      - left. cbn. destruct (shocked c) eqn:Es.
        + cbn [negb]. rewrite andb_false_r. cbn. auto.
        + cbn [negb]. rewrite andb_true_r.
          assert (Qeq_bool time 0 = false) as ->.
          { destruct (Qeq_bool time 0) eqn:E; [|reflexivity]. apply Qeq_bool_iff in E. contradiction. }
          assert (Qlt_bool time ex || Qlt_bool wall wc = true) as ->; [|reflexivity].
          unfold Qlt_bool. apply orb_true_iff. destruct Hx as [Hx|Hx]; [left|right]; apply negb_true_iff;
            match goal with |- ?b = false => destruct b eqn:E; [apply Qle_bool_iff in E; exfalso; apply (Qlt_not_le _ _ Hx E)|reflexivity] end.
      - right. right. split; [exact Hz|]. eauto. }
    + apply run_mono, X.
    + apply IH; [|exact X]. apply shocked_tle, Hc.
Qed.
Lemma run_tle_iff ig time wall evs final :
  run_tle ig time wall evs final = true <->
  (ig = false /\ In TimeSignal evs) \/
  (~ time == 0 /\ ((exists ex wc, In (Tick ex wc) evs /\ (time < ex \/ wall < wc)) \/ time < final))%Q.
Proof.
  unfold run_tle. rewrite orb_true_iff, andb_true_iff. split.
  - intros [H|[H1 H2]].
    + apply run_fold in H as [H|[H|[Hz H]]]; [discriminate|auto|auto].
    + right. split.
      * intros X. apply Qeq_bool_iff in X. rewrite X in H1. discriminate.
      * right. unfold Qlt_bool in H2. destruct (Qlt_le_dec time final) as [L|L]; [exact L|]. apply Qle_bool_iff in L. rewrite L in H2. discriminate.
  - intros [H|[Hz [H|H]]].
    + left. apply run_fold_conv; [discriminate|auto].
    + left. apply run_fold_conv; [discriminate|auto].
    + right. split.
      * destruct (Qeq_bool time 0) eqn:E; [|reflexivity]. apply Qeq_bool_iff in E. contradiction.
      * unfold Qlt_bool. destruct (Qle_bool final time) eqn:E; [|reflexivity]. apply Qle_bool_iff in E. exfalso. apply (Qlt_not_le _ _ H E).
Qed.

(** ** feedback *)
Lemma remove_first_spec pat s : pat <> [] -> drop_leftmost pat s (remove_first pat s).
Proof.
  intros Hp. induction s as [|c s IH].
  - left. split; [|reflexivity]. intros [a [b H]]. destruct a; [destruct pat; [contradiction|discriminate]|discriminate].
  - cbn [remove_first]. destruct (starts_with pat (c :: s)) eqn:E.
    + right. apply starts_with_iff in E as [b E]. exists [], b. rewrite E. rewrite skipn_app, Nat.sub_diag, skipn_all.
      repeat split. intros. cbn. lia.
    + assert (forall b, c :: s <> pat ++ b) as Hn.
      { intros b Hb. assert (starts_with pat (c :: s) = true) by (apply starts_with_iff; eauto). congruence. }
      destruct IH as [[Ho ->]|[a [b [-> [-> Hmin]]]]].
      * left. split; [|reflexivity]. intros [a [b H]]. destruct a as [|d a]; [apply (Hn b H)|]. injection H as -> ->. apply Ho. exists a, b. reflexivity.
      * right. exists (c :: a), b. repeat split. intros a' b' H. destruct a' as [|d a']; [exfalso; apply (Hn b' H)|].
        injection H as _ H. apply Hmin in H. cbn. lia.
Qed.

Section Fb.
  Variable pf : bytes -> option bytes.
  Variable ss : Z -> bytes.
  Definition blank (o : option bytes) : Prop := o = None \/ o = Some [].
  Lemma text_blank o : text o = false <-> blank o.
  Proof.
    unfold blank. destruct o as [[|c l]|]; cbn; split; auto; try discriminate. intros [H|H]; discriminate.
  Qed.
  Lemma feedback_fault err p name : returncode p <> None -> protection_fault p = Some name ->
    exists t, drop_leftmost (B "sys_") name t /\ get_feedback_str pf ss err p = Some (Some (t ++ B " syscall disallowed")).
  Proof.
    intros Hr Hf. exists (remove_first (B "sys_") name). split; [apply remove_first_spec; discriminate|].
    unfold get_feedback_str, is_ir. destruct (returncode p); [|contradiction]. rewrite Hf. reflexivity.
  Qed.
  Definition ir_or_rte (p : process) (rc : Z) : bool := ((0 <? rc)%Z || is_rte p) && negb (tle p || is_mle p || ole p).
  Lemma crashed_iff p rc : returncode p = Some rc -> (ir_or_rte p rc = true <-> crashed p).
  Proof.
    intros E. unfold ir_or_rte, crashed, is_rte, nonzero_exit, killed_by_signal, over_time. rewrite E, <- over_memory_iff.
    rewrite andb_true_iff, negb_true_iff, !orb_false_iff, orb_true_iff. split.
    - intros [H [[H1 H2] H3]]. rewrite H1, H2, H3. repeat split; try discriminate.
      destruct H as [H|H]; [left|right]; exists rc; split; auto; lia.
    - intros [H [H1 [H2 H3]]]. split.
      + destruct H as [[r [Er H]]|[r [Er H]]]; injection Er as ->; lia.
      + destruct (tle p); [exfalso; auto|]. destruct (is_mle p); [exfalso; auto|]. auto.
  Qed.
  Lemma feedback_cases err p rc : returncode p = Some rc -> protection_fault p = None ->
    (forall t, own_feedback p = Some t -> ~ blank t -> get_feedback_str pf ss err p = Some t) /\
    (~ crashed p -> own_feedback p = None -> get_feedback_str pf ss err p = Some (Some [])) /\
    (crashed p -> own_feedback p = None -> ~ blank (pf err) -> get_feedback_str pf ss err p = Some (pf err)) /\
    (crashed p -> blank match own_feedback p with Some t => t | None => pf err end ->
       was_initialized p = false \/ occurs (B "error while loading shared libraries") err ->
       get_feedback_str pf ss err p = Some (Some (B "failed initializing"))) /\
    (crashed p -> blank match own_feedback p with Some t => t | None => pf err end ->
       was_initialized p = true -> ~ occurs (B "error while loading shared libraries") err ->
       forall s, signal p = Some s -> s <> 0%Z ->
       get_feedback_str pf ss err p = Some (Some (ss s))).
  Proof.
    intros E Ef. unfold get_feedback_str, is_ir. rewrite E, Ef.
    change (((0 <? rc)%Z || is_rte p) && negb (tle p || is_mle p || ole p)) with (ir_or_rte p rc).
    pose proof (crashed_iff p rc E) as HC. rewrite <- HC. clear HC.
    assert (forall o, ~ blank o -> text o = true) as HT.
    { intros o H. destruct (text o) eqn:X; [reflexivity|]. apply text_blank in X. contradiction. }
    repeat split.
    - intros t Ht Hb. rewrite Ht, (HT _ Hb). cbn [negb andb]. reflexivity.
    - intros Hc Ho. rewrite Ho. destruct (ir_or_rte p rc); [contradiction|]. reflexivity.
    - intros Hc Ho Hb. rewrite Ho, Hc, (HT _ Hb). reflexivity.
    - intros Hc Hb Hi. rewrite Hc. apply text_blank in Hb. rewrite Hb. cbn [negb andb].
      assert (negb (was_initialized p) || contains (B "error while loading shared libraries") err = true) as ->; [|reflexivity].
      apply orb_true_iff. destruct Hi as [->|Hi]; [left; reflexivity|right; apply contains_iff, Hi].
    - intros Hc Hb Hi Hn s Hs Hz. rewrite Hc. apply text_blank in Hb. rewrite Hb, Hi, Hs. cbn [negb andb orb].
      destruct (contains (B "error while loading shared libraries") err) eqn:X; [apply contains_iff in X; contradiction|].
      destruct (Z.eqb_spec s 0); [contradiction|reflexivity].
  Qed.
End Fb.

Lemma flags_exact_io pf ss mono chk cp io p r : grade_with pf ss mono chk cp io p = Graded r ->
  (flagged (result_flag r) IR <-> nonzero_exit p) /\
  (flagged (result_flag r) RTE <-> killed_by_signal p) /\
  (flagged (result_flag r) OLE <-> over_output io p) /\
  (flagged (result_flag r) TLE <-> over_time p) /\
  (flagged (result_flag r) MLE <-> over_memory p \/
     (mono = true /\ nonzero_exit p /\ exists out err, io = Some (out, err) /\ occurs (B "Garbage collector could not allocate") err)) /\
  (forall b, N.testbit (result_flag r) b = true -> In b [0; 1; 2; 3; 4; 6]%N).
Proof.
  intros H. destruct (flags_exact _ _ _ _ _ _ _ _ H) as [H1 [H2 [H3 [H4 [H5 H6]]]]]. repeat split; try tauto; try apply H1; try apply H2; try apply H3; try apply H4.
  - intros Hm. apply H5 in Hm as [Hm|[Hm [Hx Ho]]]; [auto|right]. split; [exact Hm|]. split; [exact Hx|].
    destruct io as [[o e]|]; [eauto|]. destruct Ho as [a [b Ho]]. destruct a; discriminate.
  - intros [Hm|[Hm [Hx [o [e [-> Ho]]]]]]; apply H5; [auto|right]. repeat split; assumption.
Qed.
