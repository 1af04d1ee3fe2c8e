From Coq Require Import Reals Lra.
From Flocq Require Import Core.Core.
From Verif Require Import Model.Bytes Model.Clock Spec.Clock.
Local Open Scope list_scope.
Local Open Scope Z_scope.

Lemma zero_normal : normal zero.
Proof. unfold normal, zero; cbn; lia. Qed.
Lemma add_spec : forall a b, normal a -> normal b -> normal (timespec_add a b) /\ ns (timespec_add a b) = ns a + ns b.
Proof.
  intros [s1 n1] [s2 n2]. unfold normal, ns, timespec_add. cbn [tv_sec tv_nsec]. intros.
  rewrite Z.geb_leb. destruct (1000000000 <=? n1 + n2) eqn:E; [apply Z.leb_le in E|apply Z.leb_gt in E]; cbn [tv_sec tv_nsec]; lia.
Qed.
Lemma sub_spec : forall a b, normal a -> normal b -> normal (timespec_sub a b) /\ ns (timespec_sub a b) = Z.max 0 (ns a - ns b).
Proof.
  intros [s1 n1] [s2 n2]. unfold normal, ns, timespec_sub, zero. cbn [tv_sec tv_nsec]. intros.
  destruct (s1 <? s2) eqn:E1; [apply Z.ltb_lt in E1|apply Z.ltb_ge in E1]; cbn [orb tv_sec tv_nsec]; [lia|].
  destruct (s1 =? s2) eqn:E2; [apply Z.eqb_eq in E2|apply Z.eqb_neq in E2]; cbn [andb].
  - destruct (n1 <=? n2) eqn:E3; [apply Z.leb_le in E3|apply Z.leb_gt in E3]; cbn [tv_sec tv_nsec]; [lia|].
    destruct (n1 <? n2) eqn:E4; [apply Z.ltb_lt in E4|apply Z.ltb_ge in E4]; cbn [tv_sec tv_nsec]; lia.
  - destruct (n1 <? n2) eqn:E4; [apply Z.ltb_lt in E4|apply Z.ltb_ge in E4]; cbn [tv_sec tv_nsec]; lia.
Qed.

Lemma fold_exec : forall l c, normal_readings l -> normal (exec_time c) ->
  normal (exec_time (fold_left (turn false) l c)) /\ ns (exec_time (fold_left (turn false) l c)) = ns (exec_time c) + total l
  /\ start_time (fold_left (turn false) l c) = start_time c /\ end_time (fold_left (turn false) l c) = end_time c.
Proof.
  induction l as [|[s e] l IH]; intros c N C; cbn [fold_left total].
  - split; [exact C|]. split; [lia|]. split; reflexivity.
  - destruct (N s e (or_introl eq_refl)) as [Ns Ne]. destruct (sub_spec e s Ne Ns) as [D1 D2].
    destruct (add_spec (exec_time c) (timespec_sub e s) C D1) as [A1 A2].
    destruct (IH (turn false c (s, e))) as (I1 & I2 & I3 & I4).
    + intros s' e' H. apply N. right. exact H.
    + exact A1.
    + split; [exact I1|]. split; [|split; [exact I3|exact I4]].
      rewrite I2. unfold turn. cbn [exec_time]. rewrite A2, D2. lia.
Qed.
Theorem exec_total : forall l, normal_readings l ->
  normal (exec_time (turns l)) /\ ns (exec_time (turns l)) = total l.
Proof.
  intros [|[s e] l] N; [split; [exact zero_normal|reflexivity]|].
  destruct (N s e (or_introl eq_refl)) as [Ns Ne]. destruct (sub_spec e s Ne Ns) as [D1 D2].
  destruct (add_spec zero (timespec_sub e s) zero_normal D1) as [A1 A2].
  destruct (fold_exec l (turn true new_clock (s, e))) as (I1 & I2 & _).
  - intros s' e' H. apply N. right. exact H.
  - exact A1.
  - split; [exact I1|]. cbn [turns total]. rewrite I2. unfold turn. cbn [exec_time new_clock]. rewrite A2, D2. change (ns zero) with 0. lia.
Qed.
Lemma total_app : forall l l2, total (l ++ l2) = total l + total l2.
Proof. induction l as [|[s e] l IH]; intros l2; cbn [app total]; [lia|]. rewrite IH. lia. Qed.
Lemma total_nonneg : forall l, 0 <= total l.
Proof. induction l as [|[s e] l IH]; cbn [total]; lia. Qed.
Theorem exec_grows : forall l l2, normal_readings (l ++ l2) ->
  ns (exec_time (turns l)) <= ns (exec_time (turns (l ++ l2))).
Proof.
  intros l l2 N. destruct (exec_total (l ++ l2) N) as [_ ->]. destruct (exec_total l) as [_ ->].
  - intros s e H. apply N. apply in_or_app. left. exact H.
  - rewrite total_app. pose proof (total_nonneg l2). lia.
Qed.
Lemma mono_last : forall l a, monotone a l -> l <> [] -> a <= ns (snd (last l (zero, zero))).
Proof.
  induction l as [|[s e] l IH]; intros a M H; [congruence|]. destruct M as (M1 & M2 & M3).
  destruct l as [|p l]; [cbn; lia|]. change (last ((s, e) :: p :: l) (zero, zero)) with (last (p :: l) (zero, zero)).
  specialize (IH _ M3 ltac:(discriminate)). lia.
Qed.
Lemma total_span : forall l a, monotone a l -> total l <= Z.max a (ns (snd (last l (zero, zero)))) - a.
Proof.
  induction l as [|[s e] l IH]; intros a M; [cbn [total]; lia|].
  destruct M as (M1 & M2 & M3). cbn [total]. specialize (IH _ M3).
  destruct l as [|p l]; [cbn [last snd total] in *; lia|].
  change (last ((s, e) :: p :: l) (zero, zero)) with (last (p :: l) (zero, zero)).
  pose proof (mono_last _ _ M3 ltac:(discriminate)). lia.
Qed.
Lemma last_normal : forall l, normal_readings l -> normal (snd (last l (zero, zero))).
Proof.
  intros l N. destruct l as [|p l]; [exact zero_normal|].
  assert (I : In (last (p :: l) (zero, zero)) (p :: l)).
  { destruct (exists_last (l := p :: l) ltac:(discriminate)) as (l' & x & E). rewrite E, last_last. apply in_or_app. right. left. reflexivity. }
  destruct (last (p :: l) (zero, zero)) as [s e]. exact (proj2 (N s e I)).
Qed.
Lemma is_set_ns : forall t, normal t -> is_set t = negb (ns t =? 0).
Proof.
  intros [s n] N. unfold normal, is_set, ns in *. cbn [tv_sec tv_nsec] in *.
  destruct (s =? 0) eqn:E1; [apply Z.eqb_eq in E1|apply Z.eqb_neq in E1]; cbn [negb orb].
  - subst s. rewrite Z.mul_0_l, Z.add_0_l. reflexivity.
  - symmetry. apply Bool.negb_true_iff. apply Z.eqb_neq. lia.
Qed.
Lemma turns_start : forall s e l, start_time (turns ((s, e) :: l)) = s /\ end_time (turns ((s, e) :: l)) = zero.
Proof.
  intros s e l. cbn [turns]. assert (G : forall l c, start_time (fold_left (turn false) l c) = start_time c /\ end_time (fold_left (turn false) l c) = end_time c).
  { clear. induction l as [|[a b] l IH]; intro c; [split; reflexivity|]. cbn [fold_left]. destruct (IH (turn false c (a, b))) as [-> ->]. split; reflexivity. }
  destruct (G l (turn true new_clock (s, e))) as [-> ->]. split; reflexivity.
Qed.
Theorem wall_running : forall s e l now, normal_readings ((s, e) :: l) -> normal now -> 0 < ns s ->
  ns (wall_clock (turns ((s, e) :: l)) now) = Z.max 0 (ns now - ns s) /\ normal (wall_clock (turns ((s, e) :: l)) now).
Proof.
  intros s e l now N Nn P. destruct (N s e (or_introl eq_refl)) as [Ns _].
  unfold wall_clock. destruct (turns_start s e l) as [-> ->]. rewrite (is_set_ns s Ns).
  destruct (ns s =? 0) eqn:E; [apply Z.eqb_eq in E; lia|]. cbn [negb is_set zero tv_sec tv_nsec Z.eqb orb].
  destruct (sub_spec now s Nn Ns) as [A ->]. split; [reflexivity|exact A].
Qed.
Theorem wall_finished : forall s e l now, normal_readings ((s, e) :: l) -> 0 < ns s -> monotone 0 ((s, e) :: l) ->
  ns (wall_clock (finish ((s, e) :: l)) now) = ns (snd (last ((s, e) :: l) (zero, zero))) - ns s.
Proof.
  intros s e l now N P M. destruct (N s e (or_introl eq_refl)) as [Ns _].
  pose proof (last_normal _ N) as Nl. pose proof (mono_last _ _ (proj2 (proj2 M))) as L2.
  assert (L : ns s <= ns (snd (last ((s, e) :: l) (zero, zero)))).
  { destruct l as [|p l]; [cbn; destruct M as (_ & M & _); exact M|].
    change (last ((s, e) :: p :: l) (zero, zero)) with (last (p :: l) (zero, zero)). specialize (L2 ltac:(discriminate)). destruct M as (_ & M & _). lia. }
  unfold wall_clock, finish. cbn [start_time end_time]. destruct (turns_start s e l) as [-> _].
  rewrite (is_set_ns s Ns). destruct (ns s =? 0) eqn:E; [apply Z.eqb_eq in E; lia|]. cbn [negb].
  rewrite (is_set_ns _ Nl). destruct (ns (snd (last ((s, e) :: l) (zero, zero))) =? 0) eqn:E2; [apply Z.eqb_eq in E2; lia|]. cbn [negb].
  destruct (sub_spec _ s Nl Ns) as [_ ->]. lia.
Qed.
Theorem exec_below_wall : forall s e l now, normal_readings ((s, e) :: l) -> 0 < ns s -> monotone 0 ((s, e) :: l) ->
  ns (exec_time (finish ((s, e) :: l))) <= ns (wall_clock (finish ((s, e) :: l)) now).
Proof.
  intros s e l now N P M. rewrite (wall_finished s e l now N P M). cbn [finish exec_time]. destruct (exec_total _ N) as [_ ->].
  assert (M' : monotone (ns s) ((s, e) :: l)) by (destruct M as (_ & M2 & M3); split; [lia|split; assumption]).
  pose proof (total_span _ _ M'). pose proof (mono_last _ _ M' ltac:(discriminate)). lia.
Qed.

(** ** Doubles *)
Local Open Scope R_scope.
#[local] Instance v_exp : Valid_exp (FLT_exp (-1074) 53) := @FLT_exp_valid (-1074) 53 eq_refl.
Lemma rnd_mono : forall x y, x <= y -> rnd x <= rnd y.
Proof. intros. apply round_le; [exact v_exp|apply valid_rnd_N|assumption]. Qed.
Lemma rnd_exact : forall m e, (Z.abs m < 2 ^ 53)%Z -> (-1074 <= e)%Z -> rnd (IZR m * bpow radix2 e) = IZR m * bpow radix2 e.
Proof.
  intros m e A C. apply round_generic; [apply valid_rnd_N|].
  apply generic_format_FLT. exists (Float radix2 m e); [reflexivity|exact A|exact C].
Qed.
Lemma rnd_int : forall m, (Z.abs m < 2 ^ 53)%Z -> rnd (IZR m) = IZR m.
Proof. intros m A. pose proof (rnd_exact m 0 A ltac:(lia)) as E. change (bpow radix2 0) with 1 in E. rewrite Rmult_1_r in E. exact E. Qed.
Definition frac (n : Z) : R := rnd (rnd (IZR n) / 1000000000).
Lemma frac_mono : forall m n, (m <= n)%Z -> frac m <= frac n.
Proof.
  intros m n H. apply rnd_mono. apply Rmult_le_compat_r; [lra|]. apply rnd_mono. apply IZR_le. exact H.
Qed.
Lemma frac0 : frac 0 = 0.
Proof. unfold frac. rewrite (rnd_int 0) by (cbn; lia). replace (0 / 1000000000) with (IZR 0) by lra. apply rnd_int. cbn. lia. Qed.
Lemma frac_top : frac 1000000000 = 1.
Proof. unfold frac. rewrite (rnd_int 1000000000) by (cbn; lia). replace (1000000000 / 1000000000) with (IZR 1) by (field; lra). apply rnd_int. cbn. lia. Qed.
Lemma seconds_int : forall s, (0 <= s < 2 ^ 52)%Z -> forall n, seconds {| tv_sec := s; tv_nsec := n |} = rnd (IZR s + frac n).
Proof. intros s H n. unfold seconds. cbn [tv_sec tv_nsec]. rewrite (rnd_int s); [reflexivity|]. rewrite Z.abs_eq; lia. Qed.
Theorem seconds_mono : forall a b, normal a -> normal b -> (tv_sec b < 2 ^ 52)%Z -> (ns a <= ns b)%Z -> seconds a <= seconds b.
Proof.
  intros [s1 n1] [s2 n2] (A1 & A2) (B1 & B2) Hs H. unfold ns in H. cbn [tv_sec tv_nsec] in *.
  assert (s1 <= s2)%Z by lia. rewrite !seconds_int by lia. apply rnd_mono.
  destruct (Z.eq_dec s1 s2) as [E|E].
  - subst s2. apply Rplus_le_compat_l. apply frac_mono. lia.
  - assert (S12 : (s1 + 1 <= s2)%Z) by lia. apply IZR_le in S12. rewrite plus_IZR in S12.
    pose proof (frac_mono n1 1000000000 ltac:(lia)) as F1. rewrite frac_top in F1.
    pose proof (frac_mono 0 n2 ltac:(lia)) as F2. rewrite frac0 in F2. lra.
Qed.
Lemma frac_one : bpow radix2 (-30) <= frac 1.
Proof.
  unfold frac. rewrite (rnd_int 1) by (cbn; lia).
  rewrite <- (Rmult_1_l (bpow radix2 (-30))). rewrite <- (rnd_exact 1 (-30)); [|cbn; lia|lia].
  apply rnd_mono. cbn [bpow]. rewrite Rmult_1_l. change (Z.pow_pos radix2 30) with 1073741824%Z. lra.
Qed.
(** With a whole number of seconds as limit the double comparison is exact. *)
Theorem seconds_exact : forall limit t, (0 <= limit < 2 ^ 22)%Z -> normal t -> (tv_sec t < 2 ^ 52)%Z ->
  (IZR limit < seconds t <-> (limit * 1000000000 < ns t)%Z).
Proof.
  intros limit t L N T. split.
  - intro H. apply Z.lt_nge. intro C.
    assert (X : seconds t <= seconds {| tv_sec := limit; tv_nsec := 0 |}).
    { apply seconds_mono; [exact N|split; cbn; lia|cbn; lia|unfold ns at 2; cbn [tv_sec tv_nsec]; lia]. }
    rewrite seconds_int in X by lia. rewrite frac0, Rplus_0_r, rnd_int in X by (rewrite Z.abs_eq; lia). lra.
  - intro H.
    assert (X : seconds {| tv_sec := limit; tv_nsec := 1 |} <= seconds t).
    { apply seconds_mono; [split; cbn; lia|exact N|exact T|unfold ns at 1; cbn [tv_sec tv_nsec]; lia]. }
    rewrite seconds_int in X by lia.
    assert (Y : IZR limit < rnd (IZR limit + frac 1)).
    { apply Rlt_le_trans with (IZR (limit * 2 ^ 30 + 1) * bpow radix2 (-30)).
      - rewrite plus_IZR, mult_IZR. cbn [bpow]. change (Z.pow_pos radix2 30) with 1073741824%Z. change (2 ^ 30)%Z with 1073741824%Z. lra.
      - rewrite <- rnd_exact; [|rewrite Z.abs_eq; lia|lia]. apply rnd_mono.
        rewrite plus_IZR, mult_IZR, Rmult_plus_distr_r, Rmult_1_l. change (2 ^ 30)%Z with 1073741824%Z.
        pose proof frac_one as F. assert (E : IZR limit * 1073741824 * bpow radix2 (-30) = IZR limit).
        { cbn [bpow]. change (Z.pow_pos radix2 30) with 1073741824%Z. lra. } rewrite E. lra. }
    lra.
Qed.

Lemma shocks_iff : forall t w e x, shocks t w e x = true <-> t < seconds e \/ w < seconds x.
Proof. intros t w e x. unfold shocks. destruct (Rlt_dec t (seconds e)), (Rlt_dec w (seconds x)); split; intro H; try reflexivity; try tauto; discriminate. Qed.
Theorem tle_iff : forall t w polls xcpu exec,
  is_tle (Some (t, w)) polls xcpu exec = true <->
  xcpu = true \/ t < seconds exec \/ exists e x, In (e, x) polls /\ (t < seconds e \/ w < seconds x).
Proof.
  intros t w polls xcpu exec. unfold is_tle. rewrite !Bool.orb_true_iff, existsb_exists.
  assert (E : (if Rlt_dec t (seconds exec) then true else false) = true <-> t < seconds exec).
  { destruct (Rlt_dec t (seconds exec)); split; intro H; try reflexivity; try assumption; try discriminate; contradiction. }
  rewrite E. split.
  - intros [[((e & x) & I & S)|H]|H]; [|left; exact H|right; left; exact H].
    right. right. exists e, x. split; [exact I|]. apply shocks_iff. exact S.
  - intros [H|[H|(e & x & I & S)]]; [left; right; exact H|right; exact H|].
    left. left. exists (e, x). split; [exact I|]. apply shocks_iff. exact S.
Qed.
(** The polls look at the running total, so a poll that finds the time limit passed agrees
    with the final verdict. *)
Theorem tle_sound : forall t w l polls xcpu,
  normal_readings l -> (tv_sec (exec_time (turns l)) < 2 ^ 52)%Z ->
  (forall e x, In (e, x) polls -> exists l1 l2, l = l1 ++ l2 /\ e = exec_time (turns l1)) ->
  is_tle (Some (t, w)) polls xcpu (exec_time (turns l)) = true ->
  xcpu = true \/ t < seconds (exec_time (turns l)) \/ exists e x, In (e, x) polls /\ w < seconds x.
Proof.
  intros t w l polls xcpu N S P H. apply tle_iff in H. destruct H as [H|[H|(e & x & I & [H|H])]]; [left; exact H|right; left; exact H| |right; right; exists e, x; split; assumption].
  right. left. destruct (P e x I) as (l1 & l2 & -> & ->).
  apply Rlt_le_trans with (1 := H). apply seconds_mono; [|exact (proj1 (exec_total _ N))|exact S|exact (exec_grows _ _ N)].
  apply exec_total. intros s e I1. apply N. apply in_or_app. left. exact I1.
Qed.
