From Coq Require Import String ZArith Lia List.
From Verif Require Import Model.Bytes Proofs.BytesLemmas Model.Registers Spec.Registers.
Import ListNotations.
Local Open Scope list_scope.
Local Open Scope Z_scope.

Lemma put_same r n v : put r n v n = v.
Proof. unfold put. rewrite (proj2 (beqb_eq n n) eq_refl). reflexivity. Qed.
Lemma put_other r n m v : m <> n -> put r n v m = r m.
Proof. intros H. unfold put. destruct (beqb m n) eqn:E; [apply beqb_eq in E; contradiction|reflexivity]. Qed.

Lemma pow_pos bits : 0 <= bits -> 0 < 2 ^ bits.
Proof. intros H. apply Z.pow_pos_nonneg; lia. Qed.
Lemma half bits : 0 < bits -> 2 ^ bits = 2 * 2 ^ (bits - 1).
Proof. intros H. rewrite <- Z.pow_succ_r by lia. f_equal. lia. Qed.
Lemma signed_range bits v : 0 < bits -> - 2 ^ (bits - 1) <= signed bits v < 2 ^ (bits - 1).
Proof.
  intros H. unfold signed. pose proof (half bits H) as Hh. pose proof (pow_pos (bits - 1) ltac:(lia)). pose proof (Z.mod_pos_bound v (2 ^ bits) ltac:(lia)).
  destruct (v mod 2 ^ bits <? 2 ^ (bits - 1)) eqn:E; [apply Z.ltb_lt in E|apply Z.ltb_ge in E]; lia.
Qed.
Lemma signed_mod bits v : 0 < bits -> (signed bits v) mod 2 ^ bits = v mod 2 ^ bits.
Proof.
  intros H. unfold signed. pose proof (pow_pos bits ltac:(lia)). destruct (_ <? _).
  - apply Z.mod_mod. lia.
  - replace (v mod 2 ^ bits - 2 ^ bits) with (v mod 2 ^ bits + (-1) * 2 ^ bits) by lia. rewrite Z.mod_add by lia. apply Z.mod_mod. lia.
Qed.
Lemma signed_mod_less bits less v : 0 < less <= bits -> (signed bits v) mod 2 ^ less = v mod 2 ^ less.
Proof.
  intros H. pose proof (signed_mod bits v ltac:(lia)) as E. pose proof (pow_pos less ltac:(lia)). pose proof (pow_pos (bits - less) ltac:(lia)).
  assert (2 ^ bits = 2 ^ (bits - less) * 2 ^ less) as Hp by (rewrite <- Z.pow_add_r by lia; f_equal; lia).
  assert (forall x, (x mod 2 ^ bits) mod 2 ^ less = x mod 2 ^ less) as Hm.
  { intros x. rewrite (Z.mod_eq x (2 ^ bits)) by (rewrite Hp; nia). rewrite Hp at 1.
    replace (x - 2 ^ (bits - less) * 2 ^ less * (x / 2 ^ bits)) with (x + (- (2 ^ (bits - less) * (x / 2 ^ bits))) * 2 ^ less) by ring.
    apply Z.mod_add. lia. }
  rewrite <- (Hm (signed bits v)), E, Hm. reflexivity.
Qed.
Lemma signed_small bits v : 0 <= v < 2 ^ (bits - 1) -> 0 < bits -> signed bits v = v.
Proof.
  intros H Hb. unfold signed. pose proof (half bits Hb). rewrite Z.mod_small by lia. destruct (v <? 2 ^ (bits - 1)) eqn:E; [reflexivity|apply Z.ltb_ge in E; lia].
Qed.
Lemma unsigned_signed bits v : 0 < bits -> unsigned bits (signed bits v) = v mod 2 ^ bits.
Proof. apply signed_mod. Qed.

Lemma supported_register b a x : supports_abi b a = true -> sound b x -> register b a x = Some (conv a x) \/ (a = ARM /\ b = Arm32 /\ x = Arg0 /\ register b a x = Some (B "orig_r0")).
Proof. destruct b, a; intros H S; try discriminate H; destruct x; cbn in S; try contradiction; auto. Qed.
Lemma supported_call b a : supports_abi b a = true -> call_register b a = conv_call a.
Proof. destruct b, a; intros H; try discriminate H; reflexivity. Qed.
Lemma abi_supported b w r : supports_abi b (abi_from_reg_size b w r) = true.
Proof. unfold abi_from_reg_size. destruct b, w; try reflexivity. cbn [negb]. destruct (Z.testbit (r (B "orig_rax")) 30); reflexivity. Qed.
Lemma bits_le b a : supports_abi b a = true -> 0 < reg_bits a <= long_bits b.
Proof. destruct b, a; intros H; try discriminate H; cbn; lia. Qed.
Lemma supported_valid b a : supports_abi b a = true -> a <> NoAbi.
Proof. destruct b, a; intros H; try discriminate H; discriminate. Qed.

Lemma get_register b d x n : supports_abi b (abi_ d) = true -> register b (abi_ d) x = Some n -> get b d x = signed (long_bits b) (held d n).
Proof. intros H R. unfold get. destruct (abi_ d) eqn:E; try (rewrite R; reflexivity). destruct b; discriminate H. Qed.
Lemma set_register b d x n v : supports_abi b (abi_ d) = true -> register b (abi_ d) x = Some n ->
  set b d x v = Debugger (abi_ d) (put (held d) n (unsigned (reg_bits (abi_ d)) v)) true (real d) (told d).
Proof. intros H R. unfold set. destruct (abi_ d) eqn:E; try (rewrite R; reflexivity). destruct b; discriminate H. Qed.

(** ** Reading *)
Lemma reads b wide d x : let d' := pre_syscall b (Some wide) d in let a := abi_ d' in
  entering a (real d) -> sound b x -> py_uget b d' x = real d (conv a x) /\ agree (long_bits b) (py_get b d' x) (real d (conv a x))
  /\ - 2 ^ (long_bits b - 1) <= py_get b d' x < 2 ^ (long_bits b - 1).
Proof.
  cbv zeta. cbn [pre_syscall abi_]. set (a := abi_from_reg_size b wide (real d)). intros [Hs Hc] So. pose proof (abi_supported b wide (real d)) as Hv. fold a in Hv.
  pose proof (bits_le b a Hv) as Hb.
  assert (exists n, register b a x = Some n /\ real d n = real d (conv a x)) as (n & R & E).
  { destruct (supported_register b a x Hv So) as [R|(Ea & -> & -> & R)]; [eauto|]. eexists. split; [exact R|]. rewrite Ea. apply Hc, Ea. }
  unfold py_uget, py_get. rewrite (get_register b _ x n); cbn [abi_ held]; fold a; try assumption. rewrite E. specialize (Hs (conv a x)).
  assert (2 ^ reg_bits a <= 2 ^ long_bits b) as Hp by (apply Z.pow_le_mono_r; lia).
  rewrite unsigned_signed by lia. rewrite Z.mod_small by lia. split; [reflexivity|]. split; [|apply signed_range; lia].
  unfold agree. rewrite Zminus_mod, signed_mod by lia. rewrite Z.sub_diag. apply Z.mod_0_l. pose proof (pow_pos (long_bits b) ltac:(lia)). lia.
Qed.

Lemma agree_signed bits v : 0 < bits -> agree bits (signed bits v) v.
Proof. intros H. unfold agree. rewrite Zminus_mod, signed_mod by lia. rewrite Z.sub_diag. apply Z.mod_0_l. pose proof (pow_pos bits ltac:(lia)). lia. Qed.
Lemma clear_bit r : 0 <= r -> Z.testbit r 30 = true -> Z.land r (Z.lnot x32_bit) = r - x32_bit.
Proof.
  intros H T. change x32_bit with (2 ^ 30). rewrite <- Z.ldiff_land. symmetry. apply Z.sub_nocarry_ldiff.
  apply Z.bits_inj'. intros n Hn. rewrite Z.ldiff_spec, Z.pow2_bits_eqb, Z.bits_0 by lia. destruct (Z.eqb_spec 30 n); [subst; rewrite T; reflexivity|reflexivity].
Qed.
Lemma call b wide d : let d' := pre_syscall b (Some wide) d in let a := abi_ d' in sized a (real d) ->
  - 2 ^ 31 <= syscall b d' < 2 ^ 31
  /\ agree 32 (syscall b d') (real d (conv_call a) - match a with X32 => x32_bit | _ => 0 end).
Proof.
  cbv zeta. cbn [pre_syscall abi_]. remember (abi_from_reg_size b wide (real d)) as a eqn:Ea. intros Hs. pose proof (abi_supported b wide (real d)) as Hv. rewrite <- Ea in Hv.
  unfold syscall. cbn [abi_ held]. pose proof (supported_call b a Hv) as Hc. pose proof (supported_valid b a Hv) as Hn.
  assert (a = X32 -> Z.testbit (real d (B "orig_rax")) 30 = true) as Hx.
  { intros ->. unfold abi_from_reg_size in Ea. destruct b; try discriminate Ea.
    - destruct wide; cbn [negb] in Ea; [|discriminate Ea]. destruct (Z.testbit (real d (B "orig_rax")) 30); [reflexivity|discriminate Ea].
    - destruct wide; discriminate Ea. }
  destruct a; try congruence; rewrite Hc; (split; [exact (signed_range 32 _ eq_refl)|]); try (rewrite Z.sub_0_r; apply agree_signed; lia).
  rewrite clear_bit; [apply agree_signed; lia| |]; [apply (Hs (conv_call X32))|]. apply Hx. reflexivity.
Qed.
Lemma call_exact b wide d n : let d' := pre_syscall b (Some wide) d in let a := abi_ d' in 0 <= n < 2 ^ 30 ->
  real d (conv_call a) = n + match a with X32 => x32_bit | _ => 0 end -> syscall b d' = n.
Proof.
  cbv zeta. cbn [pre_syscall abi_]. remember (abi_from_reg_size b wide (real d)) as a eqn:Ea. intros H E. pose proof (abi_supported b wide (real d)) as Hv. rewrite <- Ea in Hv.
  unfold syscall. cbn [abi_ held]. pose proof (supported_call b a Hv) as Hc. pose proof (supported_valid b a Hv) as Hn.
  assert (signed 32 n = n) as Es by (apply signed_small; lia).
  destruct a; try congruence; rewrite Hc, E; try (rewrite Z.add_0_r; exact Es).
  rewrite clear_bit; [replace (n + x32_bit - x32_bit) with n by lia; exact Es|unfold x32_bit; lia|].
  change x32_bit with (1 * 2 ^ 30). rewrite Z.testbit_true by lia. rewrite Z.div_add by lia. rewrite Z.div_small by lia. reflexivity.
Qed.
Lemma interface b wide d : let a := abi_ (pre_syscall b (Some wide) d) in supports_abi b a = true
  /\ (b = Amd64 -> (a = X86 <-> wide = false) /\ (a = X32 <-> wide = true /\ Z.testbit (real d (B "orig_rax")) 30 = true))
  /\ (b = Aarch64 -> (a = ARM <-> wide = false)).
Proof.
  cbv zeta. cbn [pre_syscall abi_]. split; [apply abi_supported|]. unfold abi_from_reg_size. split; intros ->.
  - destruct wide; cbn [negb]; [destruct (Z.testbit (real d (B "orig_rax")) 30)|]; intuition congruence.
  - destruct wide; cbn [negb]; intuition congruence.
Qed.

(** ** Writing *)
Lemma range_ok b v : (- 2 ^ (long_bits b - 1) <=? v) && (v <? 2 ^ (long_bits b - 1)) = true <-> - 2 ^ (long_bits b - 1) <= v < 2 ^ (long_bits b - 1).
Proof. rewrite Bool.andb_true_iff, Z.leb_le, Z.ltb_lt. reflexivity. Qed.
Lemma writes b d x v : supports_abi b (abi_ d) = true -> sound b x ->
  (- 2 ^ (long_bits b - 1) <= v < 2 ^ (long_bits b - 1) -> exists d', py_set b d x v = Ok d'
     /\ abi_ d' = abi_ d /\ py_uget b d' x = v mod 2 ^ reg_bits (abi_ d)
     /\ (forall y, y <> x -> py_get b d' y = py_get b d y) /\ syscall b d' = syscall b d)
  /\ (~ (- 2 ^ (long_bits b - 1) <= v < 2 ^ (long_bits b - 1)) -> py_set b d x v = Overflow).
Proof.
  intros Hv So. split.
  - intros Hr. unfold py_set. rewrite (proj2 (range_ok b v) Hr). eexists. split; [reflexivity|].
    assert (exists n, register b (abi_ d) x = Some n /\ n <> call_register b (abi_ d) /\ forall y, y <> x -> register b (abi_ d) y <> Some n) as (n & R & Hc & Ho).
    { destruct b, (abi_ d); try discriminate Hv; destruct x; cbn in So; try contradiction; (eexists; split; [reflexivity|]; split; [discriminate|]; intros y Hy; destruct y; try congruence; discriminate). }
    rewrite (set_register b d x n v Hv R). cbn [abi_]. pose proof (bits_le b (abi_ d) Hv) as Hb. split; [reflexivity|]. split; [|split].
    + unfold py_uget. rewrite (get_register b _ x n); cbn [abi_ held]; try assumption. rewrite put_same, unsigned_signed by lia. apply Z.mod_small.
      unfold unsigned. pose proof (Z.mod_pos_bound v (2 ^ reg_bits (abi_ d)) (pow_pos (reg_bits (abi_ d)) ltac:(lia))). pose proof (Z.pow_le_mono_r 2 (reg_bits (abi_ d)) (long_bits b) ltac:(lia) ltac:(lia)). lia.
    + intros y Hy. unfold py_get, get. cbn [abi_ held]. specialize (Ho y Hy).
      destruct (abi_ d); try (destruct (register b _ y) as [m|]; [|reflexivity]; rewrite put_other by congruence; reflexivity). reflexivity.
    + unfold syscall. cbn [abi_ held]. destruct (abi_ d); try (rewrite put_other by congruence; reflexivity). reflexivity.
  - intros Hr. unfold py_set. destruct ((_ <=? _) && _) eqn:E; [apply range_ok in E; contradiction|reflexivity].
Qed.
Lemma uwrites b d x v : supports_abi b (abi_ d) = true ->
  (0 <= v < 2 ^ long_bits b -> py_uset b d x v = py_set b d x (signed (long_bits b) v))
  /\ (~ (0 <= v < 2 ^ long_bits b) -> py_uset b d x v = Overflow).
Proof.
  intros Hv. assert (0 < long_bits b) as Hl by (destruct b; cbn; lia). unfold py_uset. split; intros H.
  - replace ((0 <=? v) && (v <? 2 ^ long_bits b)) with true by (symmetry; rewrite Bool.andb_true_iff, Z.leb_le, Z.ltb_lt; exact H).
    unfold py_set. rewrite (proj2 (range_ok b _) (signed_range (long_bits b) v Hl)). reflexivity.
  - destruct ((_ <=? _) && _) eqn:E; [|reflexivity]. rewrite Bool.andb_true_iff, Z.leb_le, Z.ltb_lt in E. contradiction.
Qed.

(** ** One stop *)
Definition intel (b : build) : Prop := b = Amd64 \/ b = I386.
Lemma changes_fun b a s k u n v v' : changes b a s k u n v -> changes b a s k u n v' -> v = v'.
Proof. intros H H'. inversion H; subst; inversion H'; subst; try reflexivity. Qed.
Lemma used_spec b s k d u : intel b -> supports_abi b (abi_ d) = true -> let d' := used b s k d u in
  abi_ d' = abi_ d /\ real d' = real d /\ told d' = told d
  /\ (forall n v, changes b (abi_ d) s k u n v -> held d' n = v /\ changed d' = true)
  /\ (forall n, (forall v, ~ changes b (abi_ d) s k u n v) -> held d' n = held d n)
  /\ ((forall n v, ~ changes b (abi_ d) s k u n v) -> d' = d).
Proof.
  intros Hi Hv. cbv zeta.
  assert (forall x v, sound b x -> - 2 ^ (long_bits b - 1) <= v < 2 ^ (long_bits b - 1) -> py_set b d x v = Ok (Debugger (abi_ d) (put (held d) (conv (abi_ d) x) (v mod 2 ^ reg_bits (abi_ d))) true (real d) (told d))) as Hset.
  { intros x v So Hr. unfold py_set. rewrite (proj2 (range_ok b v) Hr). f_equal. apply set_register; [exact Hv|].
    destruct (supported_register b (abi_ d) x Hv So) as [R|(_ & -> & _)]; [exact R|]. destruct Hi; discriminate. }
  assert (forall x v, ~ sound b x -> py_set b d x v = Ok d \/ py_set b d x v = Overflow) as Hno.
  { intros x v So. unfold py_set. destruct (_ && _); auto. left. f_equal. destruct b, x; cbn in So; try (exfalso; tauto); try (destruct Hi; discriminate).
    unfold set. destruct (abi_ d) eqn:E; try discriminate Hv. cbn. reflexivity. }
  assert (forall x : accessor, sound b x \/ ~ sound b x) as Sd by (intros x; destruct b, x; cbn; tauto).
  assert (forall n v r c, held (Debugger (abi_ d) (put (held d) n v) c r (told d)) n = v) as Hh by (intros; apply put_same).
  destruct u as [x|x v|x v| |v]; cbn [used].
  - repeat split; auto; intros; try (exfalso; match goal with H : changes _ _ _ _ _ _ _ |- _ => inversion H end).
  - destruct (Sd x) as [So|So].
    + destruct (Z_le_dec (- 2 ^ (long_bits b - 1)) v) as [L|L]; [destruct (Z_lt_dec v (2 ^ (long_bits b - 1))) as [M|M]|].
      * rewrite (Hset x v So (conj L M)). cbn [abi_ real told held changed]. split; [reflexivity|]. split; [reflexivity|]. split; [reflexivity|]. split; [|split].
        -- intros n w H. inversion H; subst. split; [apply put_same|reflexivity].
        -- intros n H. apply put_other. intros ->. apply (H (v mod 2 ^ reg_bits (abi_ d))). constructor; auto.
        -- intros H. destruct (H (conv (abi_ d) x) (v mod 2 ^ reg_bits (abi_ d))). constructor; auto.
      * rewrite (proj2 (writes b d x v Hv So)) by lia. repeat split; auto; intros; exfalso; match goal with H : changes _ _ _ _ _ _ _ |- _ => inversion H; subst; lia end.
      * rewrite (proj2 (writes b d x v Hv So)) by lia. repeat split; auto; intros; exfalso; match goal with H : changes _ _ _ _ _ _ _ |- _ => inversion H; subst; lia end.
    + destruct (Hno x v So) as [-> | ->]; (repeat split; auto; intros; exfalso; match goal with H : changes _ _ _ _ _ _ _ |- _ => inversion H; subst; contradiction end).
  - assert (0 < long_bits b) as Hl by (destruct b; cbn; lia). destruct (Z_le_dec 0 v) as [L|L]; [destruct (Z_lt_dec v (2 ^ long_bits b)) as [M|M]|].
    + rewrite (proj1 (uwrites b d x v Hv) (conj L M)). destruct (Sd x) as [So|So].
      * rewrite (Hset x _ So (signed_range _ v Hl)). cbn [abi_ real told held changed]. pose proof (bits_le b (abi_ d) Hv) as Hb. rewrite (signed_mod_less (long_bits b) (reg_bits (abi_ d)) v) by lia.
        split; [reflexivity|]. split; [reflexivity|]. split; [reflexivity|]. split; [|split].
        -- intros n w H. inversion H; subst. split; [apply put_same|reflexivity].
        -- intros n H. apply put_other. intros ->. apply (H (v mod 2 ^ reg_bits (abi_ d))). constructor; auto.
        -- intros H. destruct (H (conv (abi_ d) x) (v mod 2 ^ reg_bits (abi_ d))). constructor; auto.
      * destruct (Hno x (signed (long_bits b) v) So) as [-> | ->]; (repeat split; auto; intros; exfalso; match goal with H : changes _ _ _ _ _ _ _ |- _ => inversion H; subst; contradiction end).
    + rewrite (proj2 (uwrites b d x v Hv)) by lia. repeat split; auto; intros; exfalso; match goal with H : changes _ _ _ _ _ _ _ |- _ => inversion H; subst; lia end.
    + rewrite (proj2 (uwrites b d x v Hv)) by lia. repeat split; auto; intros; exfalso; match goal with H : changes _ _ _ _ _ _ _ |- _ => inversion H; subst; lia end.
  - repeat split; auto; intros; try (exfalso; match goal with H : changes _ _ _ _ _ _ _ |- _ => inversion H end).
  - unfold py_set_syscall. destruct ((- 2 ^ 31 <=? v) && (v <? 2 ^ 31)) eqn:E.
    + rewrite Bool.andb_true_iff, Z.leb_le, Z.ltb_lt in E. set (v' := if negb s && (v =? -1) then k else v).
      assert (v' = if s then v else if v =? -1 then k else v) as Ev by (unfold v'; destruct s; reflexivity).
      assert (set_syscall b d v' = Some (Debugger (abi_ d) (put (held d) (conv_call (abi_ d)) ((match abi_ d with X32 => Z.lor v' x32_bit | _ => v' end) mod 2 ^ reg_bits (abi_ d))) true (real d) (told d))) as Es.
      { unfold set_syscall. rewrite <- (supported_call b (abi_ d) Hv). destruct Hi as [-> | ->]; destruct (abi_ d); try discriminate Hv; reflexivity. }
      rewrite Es. cbn [abi_ real told held changed]. split; [reflexivity|]. split; [reflexivity|]. split; [reflexivity|]. split; [|split].
      * intros n w H. inversion H; subst. rewrite Ev. split; [apply put_same|reflexivity].
      * intros n H. apply put_other. intros ->. eapply H. eapply ch_call; [exact E|exact Ev|reflexivity].
      * intros H. exfalso. eapply H. eapply ch_call; [exact E|exact Ev|reflexivity].
    + repeat split; auto; intros; exfalso; match goal with H : changes _ _ _ _ _ _ _ |- _ => inversion H; subst end;
        (assert ((- 2 ^ 31 <=? v) && (v <? 2 ^ 31) = true) by (rewrite Bool.andb_true_iff, Z.leb_le, Z.ltb_lt; assumption); congruence).
Qed.
Lemma changes_dec b a s k u n : (exists v, changes b a s k u n v) \/ (forall v, ~ changes b a s k u n v).
Proof.
  assert (forall x : accessor, sound b x \/ ~ sound b x) as Sd by (intros x; destruct b, x; cbn; tauto).
  assert (forall m : list N, n = m \/ n <> m) as En by (intros m; destruct (beqb n m) eqn:E; [left; apply beqb_eq, E|right; intros ->; rewrite (proj2 (beqb_eq m m) eq_refl) in E; discriminate E]).
  destruct u as [x|x v|x v| |v].
  - right. intros v H. inversion H.
  - destruct (Sd x) as [So|So]; [|right; intros w H; inversion H; subst; contradiction]. destruct (En (conv a x)) as [E|E]; [|right; intros w H; inversion H; subst; contradiction].
    destruct (Z_le_dec (- 2 ^ (long_bits b - 1)) v) as [L|L]; [destruct (Z_lt_dec v (2 ^ (long_bits b - 1))) as [M|M]|]; [left; eexists; constructor; auto| |]; (right; intros w H; inversion H; subst; lia).
  - destruct (Sd x) as [So|So]; [|right; intros w H; inversion H; subst; contradiction]. destruct (En (conv a x)) as [E|E]; [|right; intros w H; inversion H; subst; contradiction].
    destruct (Z_le_dec 0 v) as [L|L]; [destruct (Z_lt_dec v (2 ^ long_bits b)) as [M|M]|]; [left; eexists; constructor; auto| |]; (right; intros w H; inversion H; subst; lia).
  - right. intros v H. inversion H.
  - destruct (En (conv_call a)) as [E|E]; [|right; intros w H; inversion H; subst; contradiction].
    destruct (Z_le_dec (- 2 ^ 31) v) as [L|L]; [destruct (Z_lt_dec v (2 ^ 31)) as [M|M]|]; [left; eexists; eapply ch_call; eauto| |]; (right; intros w H; inversion H; subst; lia).
Qed.
Lemma uses_spec b s k d l : intel b -> supports_abi b (abi_ d) = true -> let d' := uses b s k d l in
  abi_ d' = abi_ d /\ real d' = real d /\ told d' = told d
  /\ (forall n, final (changes b (abi_ d) s k) n (held d n) l (held d' n))
  /\ (changed d' = false -> held d' = held d).
Proof.
  intros Hi Hv. cbv zeta. induction l as [|u l IH] using rev_ind.
  - cbn. repeat split; auto. intros n. constructor.
  - unfold uses in *. rewrite fold_left_app. cbn [fold_left]. set (d1 := fold_left (used b s k) l d) in *. clearbody d1.
    destruct IH as (Ea & Er & Et & Hf & Hc). assert (supports_abi b (abi_ d1) = true) as Hv1 by (rewrite Ea; exact Hv).
    pose proof (used_spec b s k d1 u Hi Hv1) as (Ea' & Er' & Et' & Hch & Hk & Hn). rewrite Ea in *. split; [exact Ea'|]. split; [congruence|]. split; [congruence|]. split.
    + intros n. destruct (changes_dec b (abi_ d) s k u n) as [[v H]|H].
      * rewrite (proj1 (Hch n v H)). eapply f_change; eauto.
      * rewrite (Hk n H). apply f_keep; auto.
    + intros H. assert (used b s k d1 u = d1) as E.
      { apply Hn. intros n v C. destruct (Hch n v C) as [_ C2]. congruence. }
      rewrite E in *. auto.
Qed.
Lemma final_fun b a s k n old l : forall v w, final (changes b a s k) n old l v -> final (changes b a s k) n old l w -> v = w.
Proof.
  induction l as [|u l IH] using rev_ind; intros v w H H'.
  - inversion H; subst; try (destruct l; discriminate). inversion H'; subst; try (destruct l; discriminate). reflexivity.
  - inversion H; subst; try (destruct l; discriminate); (match goal with E : _ ++ [_] = _ ++ [_] |- _ => apply app_inj_tail in E; destruct E; subst end);
    (inversion H'; subst; try (destruct l; discriminate); (match goal with E : _ ++ [_] = _ ++ [_] |- _ => apply app_inj_tail in E; destruct E; subst end)).
    + eapply changes_fun; eauto.
    + match goal with N : forall v, ~ _ |- _ => edestruct N; eauto end.
    + match goal with N : forall v, ~ _ |- _ => edestruct N; eauto end.
    + eauto.
Qed.
Lemma stops b s k wide l d : intel b -> let a := abi_ (pre_syscall b (Some wide) d) in
  exists d', stop b s k (Some wide) l d = Some d' /\ told d' = told d /\ forall n, final (changes b a s k) n (real d n) l (real d' n).
Proof.
  intros Hi. cbv zeta. pose proof (interface b wide d) as [Hv _]. unfold stop. set (d0 := pre_syscall b (Some wide) d) in *.
  destruct (uses_spec b s k d0 l Hi Hv) as (Ea & Er & Et & Hf & Hc). set (d1 := uses b s k d0 l) in *.
  assert (post_syscall d1 = Some (if changed d1 then Debugger (abi_ d1) (held d1) (changed d1) (held d1) (told d1) else d1)) as Ep.
  { unfold post_syscall. pose proof (supported_valid b (abi_ d0) Hv) as Hn. rewrite <- Ea in Hn. destruct (abi_ d1); congruence || reflexivity. }
  rewrite Ep. eexists. split; [reflexivity|]. destruct (changed d1) eqn:E; cbn [told real].
  - split; [exact Et|]. intros n. exact (Hf n).
  - split; [exact Et|]. intros n. specialize (Hf n). rewrite (Hc eq_refl) in Hf. rewrite Er. exact Hf.
Qed.
Lemma unread b s k l d : stop b s k None l d = None /\ real (uses b s k (pre_syscall b None d) l) = real d.
Proof.
  assert (abi_ (uses b s k (pre_syscall b None d) l) = NoAbi /\ real (uses b s k (pre_syscall b None d) l) = real d) as [E R].
  { induction l as [|u l IH] using rev_ind; [split; reflexivity|]. unfold uses in *. rewrite fold_left_app. cbn [fold_left].
    set (d1 := fold_left (used b s k) l _) in *. clearbody d1. destruct IH as [Ea Er].
    assert (forall x v, abi_ (set b d1 x v) = NoAbi /\ real (set b d1 x v) = real d) as Hs.
    { intros x v. unfold set. rewrite Ea. destruct b, x; cbn; auto. }
    destruct u; cbn [used]; auto.
    - unfold py_set. destruct (_ && _); auto.
    - unfold py_uset. destruct (_ && _); auto.
    - unfold py_set_syscall. destruct (_ && _); auto. unfold set_syscall. rewrite Ea. destruct b; auto. }
  split; [|exact R]. unfold stop, post_syscall. rewrite E. reflexivity.
Qed.

(** ** Refusing a call *)
Lemma refused b code wide d : intel b -> 0 < code < 4096 -> let a := abi_ (pre_syscall b (Some wide) d) in
  exists d', refuse b code wide d = Some d' /\ real d' (conv_call a) = 2 ^ reg_bits a - 1 /\ real d' (conv a Result) = 2 ^ reg_bits a - code
  /\ forall n, n <> conv_call a -> n <> conv a Result -> real d' n = real d n.
Proof.
  intros Hi Hcode. cbv zeta. pose proof (interface b wide d) as [Hv _]. destruct (stops b true 0 wide [WriteCall (-1); Write Result (- code)] d Hi) as (d' & E & _ & Hf). cbv zeta in Hf.
  set (a := abi_ (pre_syscall b (Some wide) d)) in *. exists d'. split; [exact E|].
  assert (0 < reg_bits a) as Hb by (apply (bits_le b a Hv)).
  assert (conv_call a <> conv a Result) as Hd by (destruct Hi as [-> | ->]; destruct a; try discriminate Hv; discriminate).
  assert (sound b Result) as So by (destruct Hi as [-> | ->]; exact I).
  assert (changes b a true 0 (WriteCall (-1)) (conv_call a) (2 ^ reg_bits a - 1)) as C1.
  { replace (2 ^ reg_bits a - 1) with ((match a with X32 => Z.lor (-1) x32_bit | _ => -1 end) mod 2 ^ reg_bits a) by (destruct a; reflexivity).
    eapply ch_call; [lia|reflexivity|reflexivity]. }
  assert (changes b a true 0 (Write Result (- code)) (conv a Result) (2 ^ reg_bits a - code)) as C2.
  { assert (4096 <= 2 ^ reg_bits a) as Hk by (destruct a; cbn; lia).
    replace (2 ^ reg_bits a - code) with ((- code) mod 2 ^ reg_bits a).
    - constructor; auto. destruct b; cbn; lia.
    - rewrite Z.mod_opp_l_nz; rewrite ?Z.mod_small; lia. }
  assert (forall n v, changes b a true 0 (WriteCall (-1)) n v -> n = conv_call a) as I1 by (intros n v H; inversion H; auto).
  assert (forall n v, changes b a true 0 (Write Result (- code)) n v -> n = conv a Result) as I2 by (intros n v H; inversion H; auto).
  change [WriteCall (-1); Write Result (- code)] with (([] ++ [WriteCall (-1)]) ++ [Write Result (- code)]) in Hf.
  split; [|split].
  - eapply final_fun; [apply Hf|]. apply f_keep; [eapply f_change; [constructor|exact C1]|]. intros v H. apply I2 in H. auto.
  - eapply final_fun; [apply Hf|]. eapply f_change; [|exact C2]. apply f_keep; [constructor|]. intros v H. apply I1 in H. congruence.
  - intros n N1 N2. eapply final_fun; [apply Hf|]. apply f_keep; [apply f_keep; [constructor|]|]; intros v H; [apply I1 in H|apply I2 in H]; contradiction.
Qed.
Lemma refused_arm code wide d : 0 < code < 4096 ->
  exists d', refuse Arm32 code wide d = Some d' /\ told d' = Some (-1) /\ real d' (B "r0") = 2 ^ 32 - code /\ forall n, n <> B "r0" -> real d' n = real d n.
Proof.
  intros H. eexists. split.
  - unfold refuse, stop, uses. cbn [fold_left used pre_syscall abi_from_reg_size]. unfold py_set_syscall. change ((- 2 ^ 31 <=? -1) && (-1 <? 2 ^ 31)) with true. cbn iota.
    cbn [negb andb set_syscall]. unfold py_set. rewrite (proj2 (range_ok Arm32 (- code))) by (cbn; lia).
    rewrite (set_register Arm32 _ Result (B "r0")) by reflexivity. reflexivity.
  - cbn [changed told real held abi_ reg_bits]. split; [reflexivity|]. split.
    + rewrite put_same. unfold unsigned. rewrite Z.mod_opp_l_nz; rewrite ?Z.mod_small; lia.
    + intros n Hn. apply put_other. exact Hn.
Qed.
Lemma refused_aarch64 code d : 0 < code < 4096 ->
  exists d', refuse Aarch64 code true d = Some d' /\ real d' (B "x0") = real d (B "x0") /\ real d' (B "x8") = 2 ^ 64 - code.
Proof.
  intros H. eexists. split.
  - unfold refuse, stop, uses. cbn [fold_left used pre_syscall abi_from_reg_size negb]. unfold py_set_syscall. change ((- 2 ^ 31 <=? -1) && (-1 <? 2 ^ 31)) with true. cbn iota.
    cbn [negb andb set_syscall]. unfold py_set. rewrite (proj2 (range_ok Aarch64 (- code))) by (cbn; lia).
    rewrite (set_register Aarch64 _ Result (B "x8")) by reflexivity. reflexivity.
  - cbn [changed told real held abi_ reg_bits]. split.
    + apply put_other. discriminate.
    + rewrite put_same. unfold unsigned. rewrite Z.mod_opp_l_nz; rewrite ?Z.mod_small; lia.
Qed.
Lemma refused_traced b code k wide after d : intel b -> 0 < code < 4096 -> 0 <= k < 2 ^ 30 -> let a := abi_ (pre_syscall b (Some wide) d) in
  (forall e, real (after e) (conv_call a) = real e (conv_call a)) ->
  exists d1 d', stop b false k (Some wide) [WriteCall (-1)] d = Some d1 /\ refuse_traced b code k wide after d = Some d'
  /\ real d1 (conv_call a) = k + match a with X32 => x32_bit | _ => 0 end /\ (forall n, n <> conv_call a -> real d1 n = real d n)
  /\ real d' (conv a Result) = 2 ^ reg_bits a - code /\ (forall n, n <> conv a Result -> real d' n = real (after d1) n).
Proof.
  intros Hi Hcode Hk. cbv zeta. pose proof (interface b wide d) as [Hv _]. remember (abi_ (pre_syscall b (Some wide) d)) as a eqn:Ea. intros Ha.
  destruct (stops b false k wide [WriteCall (-1)] d Hi) as (d1 & E1 & _ & Hf). cbv zeta in Hf. rewrite <- Ea in Hf.
  destruct (stops b false k wide [Write Result (- code)] (after d1) Hi) as (d' & E2 & _ & Hf2). cbv zeta in Hf2.
  exists d1, d'. split; [exact E1|]. split; [unfold refuse_traced; rewrite E1; exact E2|].
  assert (0 < reg_bits a) as Hb by (apply (bits_le b a Hv)).
  change [WriteCall (-1)] with ([] ++ [WriteCall (-1)]) in Hf. change [Write Result (- code)] with ([] ++ [Write Result (- code)]) in Hf2.
  assert (forall n v, changes b a false k (WriteCall (-1)) n v -> n = conv_call a) as I1 by (intros n v H; inversion H; auto).
  assert (Z.testbit k 30 = false) as T2 by (rewrite Z.testbit_false by lia; rewrite Z.div_small by lia; reflexivity).
  assert (Z.lor k x32_bit = k + x32_bit) as Eor.
  { change x32_bit with (2 ^ 30). symmetry. rewrite Z.add_nocarry_lxor.
    - apply Z.bits_inj'. intros n Hn. rewrite Z.lxor_spec, Z.lor_spec, Z.pow2_bits_eqb by lia. destruct (Z.eqb_spec 30 n); [subst; rewrite T2; reflexivity|destruct (Z.testbit k n); reflexivity].
    - apply Z.bits_inj'. intros n Hn. rewrite Z.land_spec, Z.pow2_bits_eqb, Z.bits_0 by lia. destruct (Z.eqb_spec 30 n); [subst; rewrite T2; reflexivity|apply Bool.andb_false_r]. }
  assert (real d1 (conv_call a) = k + match a with X32 => x32_bit | _ => 0 end) as Ec.
  { eapply final_fun; [apply Hf|]. eapply f_change; [constructor|].
    replace (k + match a with X32 => x32_bit | _ => 0 end) with ((match a with X32 => Z.lor k x32_bit | _ => k end) mod 2 ^ reg_bits a).
    - eapply ch_call; [lia|reflexivity|reflexivity].
    - destruct Hi as [-> | ->]; destruct a; try discriminate Hv; rewrite ?Eor, ?Z.add_0_r; apply Z.mod_small; unfold x32_bit; cbn; lia. }
  split; [exact Ec|]. split; [intros n Hn; eapply final_fun; [apply Hf|]; apply f_keep; [constructor|]; intros v H; apply I1 in H; contradiction|].
  assert (abi_ (pre_syscall b (Some wide) (after d1)) = a) as Ea2.
  { rewrite Ea. cbn [pre_syscall abi_]. cbn [pre_syscall abi_] in Ea. unfold abi_from_reg_size in *. destruct Hi as [-> | ->]; [|reflexivity]. destruct wide; cbn [negb] in *; [|reflexivity].
    assert (Z.testbit (k + x32_bit) 30 = true) as T1 by (rewrite <- Eor, Z.lor_spec; change (Z.testbit x32_bit 30) with true; apply Bool.orb_true_r).
    specialize (Ha d1). rewrite Ec in Ha. destruct (Z.testbit (real d (B "orig_rax")) 30); subst a; cbn [conv_call] in Ha; rewrite Ha.
    - rewrite T1. reflexivity.
    - rewrite Z.add_0_r, T2. reflexivity. }
  rewrite Ea2 in Hf2. assert (sound b Result) as So by (destruct Hi as [-> | ->]; exact I).
  split.
  - eapply final_fun; [apply Hf2|]. eapply f_change; [constructor|]. assert (4096 <= 2 ^ reg_bits a) as Hl by (destruct a; cbn; lia).
    replace (2 ^ reg_bits a - code) with ((- code) mod 2 ^ reg_bits a) by (rewrite Z.mod_opp_l_nz; rewrite ?Z.mod_small; lia).
    constructor; auto. destruct b; cbn; lia.
  - intros n Hn. eapply final_fun; [apply Hf2|]. apply f_keep; [constructor|]. intros v H. inversion H. contradiction.
Qed.

(** When the program counts as started. *)
Lemma number_is : forall b wide d k, let d' := pre_syscall b (Some wide) d in let a := abi_ d' in sized a (real d) -> 0 <= k < 2 ^ 31 ->
  (syscall b d' =? k) = true <-> agree 32 (real d (conv_call a)) (k + mark a).
Proof.
  intros b wide d k d' a Z_ K. destruct (call b wide d Z_) as [R A]. fold d' a in R, A. unfold agree in *. rewrite Z.eqb_eq.
  change (match a with X32 => x32_bit | _ => 0 end) with (mark a) in A.
  apply Z.mod_divide in A; [|lia]. destruct A as [q Q]. split.
  - intros E. rewrite E in Q. replace (real d (conv_call a) - (k + mark a)) with (- q * 2 ^ 32) by lia. apply Z.mod_mul. lia.
  - intros E. apply Z.mod_divide in E; [|lia]. destruct E as [p P]. assert (syscall b d' - k = (q + p) * 2 ^ 32) by lia. nia.
Qed.
Lemma started_seccomp : forall b wide enter d, let d' := pre_syscall b (Some wide) d in let a := abi_ d' in sized a (real d) ->
  is_end_of_first_execve b true enter d' = true <-> agree 32 (real d (conv_call a)) (execve_number (native b) + mark a).
Proof.
  intros b wide enter d d' a Z_. unfold is_end_of_first_execve.
  destruct b; cbn [native execve_number]; apply number_is; auto; lia.
Qed.
Lemma result_is : forall b wide d, let d' := pre_syscall b (Some wide) d in let a := abi_ d' in sized a (real d) -> b <> Aarch64 ->
  (get b d' Result =? 0) = true <-> real d (conv a Result) = 0.
Proof.
  intros b wide d d' a Z_ NB. rewrite Z.eqb_eq.
  assert (E : get b d' Result = signed (long_bits b) (real d (conv a Result))).
  { subst a d'. destruct b; [| | |congruence]; unfold get, pre_syscall, abi_from_reg_size; cbn [abi_ held];
      repeat match goal with |- context [if ?c then _ else _] => destruct c end; reflexivity. }
  rewrite E. specialize (Z_ (conv a Result)). split.
  - unfold signed. intros H.
    assert (L : 2 ^ reg_bits a <= 2 ^ long_bits b).
    { subst a d'. destruct b; [| | |congruence]; unfold pre_syscall, abi_from_reg_size; cbn [abi_ held];
        repeat match goal with |- context [if ?c then _ else _] => destruct c end; cbn; lia. }
    rewrite Z.mod_small in H by lia. destruct (_ <? _) eqn:F; [auto|]. lia.
  - intros ->. destruct b; reflexivity.
Qed.
Lemma started_ptrace : forall b wide enter d, let d' := pre_syscall b (Some wide) d in let a := abi_ d' in sized a (real d) -> b <> Aarch64 -> a <> X32 ->
  is_end_of_first_execve b false enter d' = true <->
  enter = false /\ agree 32 (real d (conv_call a)) (execve_left a) /\ real d (conv a Result) = 0.
Proof.
  intros b wide enter d d' a Z_ NB NX. pose proof (result_is b wide d Z_ NB) as R. fold d' a in R.
  assert (K : forall k, 0 <= k < 2 ^ 31 -> (syscall b d' =? k) = true <-> agree 32 (real d (conv_call a)) k).
  { intros k L. pose proof (number_is b wide d k Z_ L) as Q. fold d' a in Q. rewrite Q. unfold mark. destruct a; try congruence; rewrite Z.add_0_r; reflexivity. }
  assert (I : (b = Amd64 -> a = X86 \/ a = X64) /\ (b = I386 -> a = X86) /\ (b = Arm32 -> a = ARM)).
  { clear -NX. subst a d'. repeat split; intros ->; auto. revert NX. unfold pre_syscall, abi_from_reg_size; cbn [abi_]. destruct wide; cbn [negb]; auto.
    match goal with |- context [if ?c then _ else _] => destruct c end; auto. congruence. }
  destruct I as [I1 [I2 I3]]. unfold is_end_of_first_execve. change (abi_ d') with a. clearbody a. clearbody d'.
  destruct b; [destruct (I1 eq_refl) as [A|A]|pose proof (I2 eq_refl) as A|pose proof (I3 eq_refl) as A|congruence];
    rewrite A in *; cbn [execve_left execve_number]; destruct enter; cbn [negb andb];
    try (split; [discriminate|intros [? _]; discriminate]);
    rewrite andb_true_iff, R, K by lia; tauto.
Qed.
Lemma started_x32 : forall d r, let d' := pre_syscall Amd64 (Some true) d in
  real d = r -> r (B "orig_rax") = execve_left X32 + mark X32 ->
  abi_ d' = X32 /\ syscall Amd64 d' = execve_number X32 /\ is_end_of_first_execve Amd64 false false d' = false.
Proof.
  intros d r d' Hr E. rewrite <- Hr in E. subst d'. unfold is_end_of_first_execve, syscall, pre_syscall, abi_from_reg_size, call_register; cbn [abi_ held negb].
  rewrite E. vm_compute. auto.
Qed.
