From Coq Require Import String.
From Verif Require Import Model.Bytes Model.Paths Spec.Paths Proofs.BytesLemmas.
Local Open Scope list_scope.

(** ** Splitting *)
Lemma re_split_acc_last : forall c cur, ~ In 47%N c -> re_split_acc is_slash cur c = [rev cur ++ c].
Proof.
  induction c as [|x c IH]; intros cur Hn; cbn [re_split_acc].
  - rewrite app_nil_r; reflexivity.
  - assert (is_slash x = false) as ->.
    { apply N.eqb_neq. intros E. apply Hn. left. exact E. }
    rewrite IH by (intros Hin; apply Hn; right; exact Hin). cbn [rev]. rewrite <- app_assoc. reflexivity.
Qed.
Lemma re_split_acc_more : forall c cur r, ~ In 47%N c ->
  re_split_acc is_slash cur (c ++ 47%N :: r) = (rev cur ++ c) :: re_split_acc is_slash [] r.
Proof.
  induction c as [|x c IH]; intros cur r Hn; cbn [re_split_acc app].
  - rewrite app_nil_r; reflexivity.
  - assert (is_slash x = false) as ->.
    { apply N.eqb_neq. intros E. apply Hn. left. exact E. }
    rewrite IH by (intros Hin; apply Hn; right; exact Hin). cbn [rev]. rewrite <- app_assoc. reflexivity.
Qed.
Lemma components_split : forall p cs, Components p cs -> re_split is_slash p = cs.
Proof.
  unfold re_split. induction 1 as [c Hn|c r cs Hn H IH].
  - rewrite re_split_acc_last by exact Hn. reflexivity.
  - rewrite re_split_acc_more by exact Hn. cbn [rev app]. rewrite IH. reflexivity.
Qed.
Lemma split_components_acc : forall p cur, ~ In 47%N cur -> Components (rev cur ++ p) (re_split_acc is_slash cur p).
Proof.
  induction p as [|x p IH]; intros cur Hn; cbn [re_split_acc].
  - rewrite app_nil_r. apply comp_last. rewrite <- in_rev. exact Hn.
  - destruct (is_slash x) eqn:E.
    + apply N.eqb_eq in E. subst x. unfold slash.
      apply comp_more; [rewrite <- in_rev; exact Hn|]. apply (IH []). intros [].
    + specialize (IH (x :: cur)). cbn [rev] in IH. rewrite <- app_assoc in IH. apply IH.
      intros [H|H]; [|exact (Hn H)]. subst x. discriminate E.
Qed.
Lemma split_components : forall p, Components p (re_split is_slash p).
Proof. intros p. apply (split_components_acc p []). intros []. Qed.
Lemma components_no_slash : forall p cs, Components p cs -> Forall (fun c => ~ In 47%N c) cs.
Proof. induction 1; repeat constructor; auto. Qed.

(** ** The loop of normpath *)
Lemma name_ok_not_dotdot : forall n, name_ok n -> beqb n dotdot = false.
Proof. intros n (_ & _ & _ & H). apply beqb_neq. exact H. Qed.
Lemma name_ok_not_dot : forall n, name_ok n -> beqb n [] || beqb n dot = false.
Proof.
  intros n (H1 & _ & H2 & _). apply Bool.orb_false_iff. split; apply beqb_neq; assumption.
Qed.
Lemma norm_loop_name : forall acc n r, name_ok n -> norm_loop true acc (n :: r) = norm_loop true (n :: acc) r.
Proof.
  intros acc n r Hn. cbn [norm_loop]. rewrite (name_ok_not_dot n Hn), (name_ok_not_dotdot n Hn). reflexivity.
Qed.
Lemma norm_loop_up : forall acc r, Forall name_ok acc ->
  norm_loop true acc (B ".." :: r) = norm_loop true (tl acc) r.
Proof.
  intros acc r Ha. cbn [norm_loop].
  change (beqb (B "..") [] || beqb (B "..") dot) with false.
  change (beqb (B "..") dotdot) with true. cbn [negb orb andb].
  destruct acc as [|t acc]; [reflexivity|].
  inversion Ha as [|x y H1 H2]; subst. rewrite (name_ok_not_dotdot t H1). reflexivity.
Qed.
Lemma norm_loop_stay : forall acc c r, c = [] \/ c = B "." ->
  norm_loop true acc (c :: r) = norm_loop true acc r.
Proof. intros acc c r [-> | ->]; reflexivity. Qed.
Lemma norm_loop_names : forall d acc r, Forall name_ok d -> norm_loop true acc (d ++ r) = norm_loop true (rev d ++ acc) r.
Proof.
  induction d as [|n d IH]; intros acc r Hd; [reflexivity|].
  inversion Hd as [|x y H1 H2]; subst. cbn [app rev]. rewrite norm_loop_name by exact H1.
  rewrite IH by exact H2. rewrite <- app_assoc. reflexivity.
Qed.
Lemma tl_rev_removelast : forall (p : place), tl (rev p) = rev (removelast p).
Proof.
  intros p. destruct p as [|x p] using rev_ind; [reflexivity|].
  rewrite removelast_last, rev_app_distr. reflexivity.
Qed.
Lemma forall_removelast : forall (P : list N -> Prop) p, Forall P p -> Forall P (removelast p).
Proof.
  intros P p H. destruct p as [|x p] using rev_ind; [exact H|].
  rewrite removelast_last. apply Forall_app in H. apply H.
Qed.
Lemma walk_norm : forall is_dir p cs q, Walk is_dir (fun _ => None) p cs q -> Forall name_ok p ->
  norm_loop true (rev p) cs = q /\ Forall name_ok q.
Proof.
  intros is_dir p cs q W.
  induction W as [p|p c cs q Hc Hd W IH|p cs q Hd W IH|p n cs q Hn Hd W IH]; intros Hp.
  - cbn [norm_loop]. rewrite rev_involutive. auto.
  - rewrite norm_loop_stay by exact Hc. auto.
  - rewrite norm_loop_up by (apply Forall_rev; exact Hp). rewrite tl_rev_removelast.
    apply IH. apply forall_removelast. exact Hp.
  - rewrite norm_loop_name by exact Hn.
    cbn iota in IH. rewrite rev_app_distr in IH. cbn [rev app] in IH. apply IH.
    apply Forall_app. split; [exact Hp|]. constructor; [exact Hn|constructor].
Qed.
Lemma norm_loop_ok : forall cs acc, Forall (fun c => ~ In 47%N c) cs -> Forall name_ok acc ->
  Forall name_ok (norm_loop true acc cs).
Proof.
  induction cs as [|c cs IH]; intros acc Hc Ha; cbn [norm_loop].
  - apply Forall_rev. exact Ha.
  - inversion Hc as [|x y H1 H2]; subst.
    destruct (beqb c [] || beqb c dot) eqn:E1; [apply IH; assumption|].
    apply Bool.orb_false_iff in E1. destruct E1 as [E1 E1'].
    destruct (beqb c dotdot) eqn:E2.
    + apply beqb_eq in E2. subst c. cbn [negb orb andb].
      destruct acc as [|t acc]; [apply IH; [exact H2|constructor]|].
      inversion Ha as [|x y H3 H4]; subst. rewrite (name_ok_not_dotdot t H3). cbn [tl].
      apply IH; assumption.
    + cbn [negb orb]. apply IH; [exact H2|]. constructor; [|exact Ha].
      repeat split; [|exact H1| |]; apply beqb_neq; assumption.
Qed.

(** ** Spelling *)
Lemma name_ok_no_lead : forall n, name_ok n -> lstrip_slash n = n /\ n <> [].
Proof.
  intros n (H1 & H2 & _ & _). split; [|exact H1]. destruct n as [|c n]; [reflexivity|].
  cbn [lstrip_slash]. assert (is_slash c = false) as ->; [|reflexivity].
  apply N.eqb_neq. intros E. apply H2. left. exact E.
Qed.
Lemma slash_join_spelled : forall l, Forall name_ok l -> spelled l = slash :: slash_join l.
Proof.
  intros [|n l] Hl; [reflexivity|]. inversion Hl as [|x y H1 H2]; subst. clear Hl H1.
  cbn [spelled map concat]. unfold slash. cbn [app]. f_equal. revert n.
  induction l as [|m l IH]; intros n; cbn [slash_join map concat].
  - apply app_nil_r.
  - inversion H2 as [|x y H3 H4]; subst. specialize (IH H4 m). cbn [app]. rewrite IH. reflexivity.
Qed.
Lemma slash_join_lead : forall l, Forall name_ok l -> lstrip_slash (slash_join l) = slash_join l.
Proof.
  intros [|n l] Hl; [reflexivity|]. inversion Hl as [|x y H1 H2]; subst.
  destruct (name_ok_no_lead n H1) as [E Hn].
  destruct n as [|c n]; [congruence|]. cbn [lstrip_slash] in E.
  assert (is_slash c = false) as Hc.
  { destruct H1 as (_ & H1 & _). apply N.eqb_neq. intros X. apply H1. left. exact X. }
  destruct l as [|m l]; cbn [slash_join app lstrip_slash]; rewrite Hc; reflexivity.
Qed.
(** What happens to an absolute path. *)
Lemma normal_absolute : forall r,
  slash :: lstrip_slash (normpath (slash :: r)) = spelled (norm_loop true [] (re_split is_slash r)).
Proof.
  intros r.
  assert (Hok : Forall name_ok (norm_loop true [] (re_split is_slash r))).
  { apply norm_loop_ok; [|constructor]. apply (components_no_slash r). apply split_components. }
  unfold normpath. change (starts_slash (slash :: r)) with true. cbv iota zeta.
  change (re_split is_slash (slash :: r)) with ([] :: re_split is_slash r).
  rewrite norm_loop_stay by (left; reflexivity).
  remember (norm_loop true [] (re_split is_slash r)) as q eqn:Eq.
  rewrite slash_join_spelled by exact Hok. f_equal.
  destruct (match r with [] => false | _ => _ end); cbn [app lstrip_slash is_slash slash N.eqb Pos.eqb];
    apply slash_join_lead; exact Hok.
Qed.
Lemma starts_slash_hd : forall r, starts_slash r = true <-> hd_error r = Some 47%N.
Proof.
  intros [|c r]; cbn; [split; discriminate|]. unfold is_slash, slash. rewrite N.eqb_eq. split; congruence.
Qed.
Lemma split_spelled : forall d r, Forall name_ok d ->
  exists s, join (spelled d) r = (if starts_slash r then r else slash :: s)
            /\ (starts_slash r = false ->
                re_split is_slash s = d ++ re_split is_slash r).
Proof.
  intros d r Hd. unfold join. destruct (starts_slash r) eqn:Es; [exists []; split; [reflexivity|discriminate]|].
  destruct d as [|n d].
  - exists r. split; [reflexivity|]. reflexivity.
  - assert (He : ends_slash (spelled (n :: d)) = false).
    { cbn [spelled]. destruct (@exists_last _ (n :: d)) as (l & m & E); [discriminate|].
      rewrite E in *. apply Forall_app in Hd. destruct Hd as [_ Hm].
      inversion Hm as [|x y Hm1 _]; subst.
      unfold ends_slash. rewrite map_app, concat_app, rev_app_distr. cbn [map concat].
      rewrite app_nil_r. cbn [rev]. destruct Hm1 as (H1 & H2 & _).
      destruct m as [|c m] using rev_ind; [congruence|].
      rewrite rev_app_distr. cbn [rev app starts_slash].
      apply N.eqb_neq. intros X. apply H2. rewrite in_app_iff. right. left. exact X. }
    rewrite He. exists (slash_join (n :: d) ++ slash :: r). split.
    + rewrite (slash_join_spelled (n :: d) Hd). reflexivity.
    + intros _. clear He. revert n Hd. induction d as [|m d IH]; intros n Hd.
      * inversion Hd as [|x y H1 H2]; subst. cbn [slash_join app]. unfold re_split, slash.
        rewrite re_split_acc_more by apply H1. reflexivity.
      * inversion Hd as [|x y H1 H2]; subst. cbn [slash_join]. rewrite <- app_assoc. cbn [app].
        unfold re_split, slash in *. rewrite re_split_acc_more by apply H1.
        cbn [rev app]. f_equal. apply (IH m H2).
Qed.

Lemma full_path_denotes : forall is_dir dir file q cwd fd dirfd,
  Denotes is_dir (fun _ => None) dir file q -> Forall name_ok dir ->
  (if (as_descriptor dirfd =? AT_FDCWD)%Z then Some cwd else fd (as_descriptor dirfd)) = Some (spelled dir) ->
  get_full_path cwd fd file dirfd = Some (spelled q) /\ Forall name_ok q.
Proof.
  intros is_dir dir file q cwd fd dirfd D Hd Hdir. unfold get_full_path.
  inversion D as [r cs q' C W|r cs q' Hh C W]; subst.
  - change (starts_slash (47%N :: r)) with true. cbv iota.
    change 47%N with slash. rewrite normal_absolute. rewrite (components_split _ _ C).
    destruct (walk_norm _ _ _ _ W (Forall_nil _)) as [E Hq]. cbn [rev] in E. rewrite E. auto.
  - destruct (starts_slash file) eqn:Es; [apply starts_slash_hd in Es; congruence|].
    rewrite Hdir. destruct (split_spelled dir file Hd) as (s & E1 & E2). rewrite Es in E1.
    rewrite E1, normal_absolute, (E2 Es), (components_split _ _ C).
    destruct (walk_norm _ _ _ _ W Hd) as [E Hq].
    rewrite norm_loop_names by exact Hd. rewrite app_nil_r, E. auto.
Qed.
Lemma full_path_canonical : forall cwd fd file dirfd f,
  get_full_path cwd fd file dirfd = Some f ->
  (starts_slash file = false ->
   forall d, (if (as_descriptor dirfd =? AT_FDCWD)%Z then Some cwd else fd (as_descriptor dirfd)) = Some d ->
     hd_error d = Some 47%N) ->
  exists q, Forall name_ok q /\ f = spelled q.
Proof.
  intros cwd fd file dirfd f H Ha. unfold get_full_path in H.
  assert (K : forall r, exists q, Forall name_ok q /\ slash :: lstrip_slash (normpath (slash :: r)) = spelled q).
  { intros r. rewrite normal_absolute. eexists. split; [|reflexivity].
    apply norm_loop_ok; [|constructor]. apply (components_no_slash r). apply split_components. }
  destruct (starts_slash file) eqn:Es.
  - destruct file as [|c file]; [discriminate|]. cbn in Es. apply N.eqb_eq in Es. subst c.
    injection H as <-. apply K.
  - destruct (if (as_descriptor dirfd =? AT_FDCWD)%Z then Some cwd else fd (as_descriptor dirfd)) as [d|]; [|discriminate].
    injection H as <-. specialize (Ha eq_refl d eq_refl).
    destruct d as [|c d]; [discriminate|]. injection Ha as ->.
    unfold join. rewrite Es. destruct (ends_slash (47%N :: d)); apply K.
Qed.
Lemma full_path_absolute : forall cwd fd cwd' fd' r dirfd dirfd',
  get_full_path cwd fd (47%N :: r) dirfd = get_full_path cwd' fd' (47%N :: r) dirfd'.
Proof. reflexivity. Qed.

(** ** Descriptors *)
Lemma as_descriptor_spec : forall reg,
  (- 2 ^ 31 <= as_descriptor reg < 2 ^ 31)%Z /\ (as_descriptor reg mod 2 ^ 32 = reg mod 2 ^ 32)%Z.
Proof.
  intros reg. unfold as_descriptor.
  change 0x7FFFFFFF%Z with (Z.ones 31).
  assert (E : Z.land reg (Z.ones 32) = (Z.land reg (Z.ones 31) + Z.land reg 0x80000000)%Z).
  { change (Z.ones 32) with (Z.lor (Z.ones 31) 0x80000000). rewrite Z.land_lor_distr_r.
    rewrite <- Z.lxor_lor, <- Z.add_nocarry_lxor; try reflexivity;
      rewrite (Z.land_comm reg), <- Z.land_assoc, (Z.land_assoc reg), (Z.land_comm _ (Z.land (Z.land reg reg) _));
      rewrite <- (Z.land_assoc (Z.land reg reg)); change (Z.land 0x80000000 (Z.ones 31)) with 0%Z; apply Z.land_0_r. }
  rewrite !Z.land_ones in * by lia.
  assert (Hh : (Z.land reg 0x80000000 mod 2 ^ 31 = 0)%Z).
  { rewrite <- Z.land_ones by lia. rewrite <- Z.land_assoc. apply Z.land_0_r. }
  pose proof (Z.mod_pos_bound reg (2 ^ 31) ltac:(lia)) as B1.
  pose proof (Z.mod_pos_bound reg (2 ^ 32) ltac:(lia)) as B2.
  remember (Z.land reg 0x80000000) as h eqn:Eh.
  apply Z.mod_divide in Hh; [|lia]. destruct Hh as [k Hk]. subst h. rewrite Hk in *.
  change (2 ^ 31)%Z with 2147483648%Z in *. change (2 ^ 32)%Z with 4294967296%Z in *.
  assert (k = 0 \/ k = 1)%Z as [-> | ->] by lia.
  - split; [lia|]. rewrite E. rewrite Z.mod_small by lia. lia.
  - split; [lia|]. rewrite E.
    replace (reg mod 2147483648 - 1 * 2147483648)%Z with (reg mod 2147483648 + 1 * 2147483648 + (-1) * 4294967296)%Z by lia.
    rewrite Z.mod_add by lia. rewrite Z.mod_small by lia. reflexivity.
Qed.
