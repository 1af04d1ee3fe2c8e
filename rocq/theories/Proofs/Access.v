From Coq Require Import String.
From Verif Require Import Model.Bytes Model.Paths Model.Regex Model.Access
  Spec.Paths Spec.Regex Spec.Access Proofs.BytesLemmas Proofs.Paths Proofs.Regex.
Local Open Scope list_scope.

(** ** Flags *)
Lemma land_bit : forall n k, (N.land n (2 ^ k) =? 2 ^ k)%N = N.testbit n k.
Proof.
  intros n k. destruct (N.testbit n k) eqn:E.
  - apply N.eqb_eq. apply N.bits_inj. intros m. rewrite N.land_spec.
    destruct (N.eq_dec m k) as [->|Hn].
    + rewrite E. rewrite N.pow2_bits_true. reflexivity.
    + rewrite N.pow2_bits_false by congruence. apply Bool.andb_false_r.
  - apply N.eqb_neq. intros H. apply (f_equal (fun x => N.testbit x k)) in H.
    rewrite N.land_spec, N.pow2_bits_true, E in H. discriminate H.
Qed.
Lemma land_two : forall n j k, j <> k ->
  (N.land n (2 ^ j + 2 ^ k) =? 2 ^ j + 2 ^ k)%N = N.testbit n j && N.testbit n k.
Proof.
  intros n j k Hjk.
  assert (Hb : forall m, N.testbit (2 ^ j + 2 ^ k) m = N.eqb j m || N.eqb k m).
  { intros m. assert (Hd : N.land (2 ^ j) (2 ^ k) = 0%N).
    { apply N.bits_inj_0. intros i. rewrite N.land_spec, !N.pow2_bits_eqb.
      destruct (N.eqb_spec j i), (N.eqb_spec k i); try reflexivity. congruence. }
    rewrite N.add_nocarry_lxor by exact Hd. rewrite N.lxor_spec, !N.pow2_bits_eqb.
    destruct (N.eqb_spec j m), (N.eqb_spec k m); try reflexivity. congruence. }
  destruct (N.testbit n j && N.testbit n k) eqn:E.
  - apply N.eqb_eq. apply N.bits_inj. intros m. rewrite N.land_spec, Hb.
    apply andb_prop in E. destruct E as [E1 E2].
    destruct (N.eqb_spec j m) as [<-|]; [rewrite E1; reflexivity|].
    destruct (N.eqb_spec k m) as [<-|]; [rewrite E2; reflexivity|]. apply Bool.andb_false_r.
  - apply N.eqb_neq. intros H.
    assert (H1 := f_equal (fun x => N.testbit x j) H). assert (H2 := f_equal (fun x => N.testbit x k) H).
    cbn beta in H1, H2. rewrite N.land_spec, !Hb, N.eqb_refl in H1, H2. cbn [orb] in H1.
    rewrite Bool.orb_true_r in H2. rewrite Bool.andb_true_r in H1, H2. rewrite H1, H2 in E. discriminate E.
Qed.
Lemma is_write_flags_spec : forall flags, is_write_flags flags = writing flags.
Proof.
  intros flags. unfold is_write_flags, open_write_flags, writing. cbn [existsb].
  pose proof (land_bit flags 0) as H0. pose proof (land_bit flags 1) as H1. pose proof (land_bit flags 9) as H9.
  pose proof (land_bit flags 6) as H6. pose proof (land_bit flags 7) as H7.
  pose proof (land_two flags 16 22 ltac:(discriminate)) as H16.
  change (2 ^ 0)%N with 1%N in H0. change (2 ^ 1)%N with 2%N in H1. change (2 ^ 9)%N with 512%N in H9.
  change (2 ^ 6)%N with 64%N in H6. change (2 ^ 7)%N with 128%N in H7.
  change (2 ^ 16 + 2 ^ 22)%N with 4259840%N in H16.
  rewrite H0, H1, H9, H6, H7, H16. rewrite Bool.orb_false_r.
  destruct (N.testbit flags 0), (N.testbit flags 1), (N.testbit flags 9), (N.testbit flags 6), (N.testbit flags 7);
    reflexivity.
Qed.

(** ** Rules *)
Lemma all_some_map : forall (f : list N -> option (list N)) l,
  (forall x, In x l -> exists y, f x = Some y) ->
  exists l', all_some (map f l) = Some l' /\ (forall y, In y l' <-> exists x, In x l /\ f x = Some y) /\ length l' = length l.
Proof.
  induction l as [|x l IH]; intros H.
  - exists []. split; [reflexivity|]. split; [|reflexivity]. intros y. cbn. split; [intros []|intros (x & [] & _)].
  - destruct (H x (or_introl eq_refl)) as (y & Hy).
    destruct IH as (l' & H1 & H2 & H3); [intros z Hz; apply H; right; exact Hz|].
    exists (y :: l'). cbn [map all_some]. rewrite Hy, H1. split; [reflexivity|]. split.
    + intros z. cbn [In]. rewrite H2. split.
      * intros [<-|(w & Hw & E)]; [exists x; auto|exists w; auto].
      * intros (w & [<-|Hw] & E); [left; congruence|right; exists w; auto].
    + cbn. lia.
Qed.
Lemma empty_rules : exists r, compile (B "(?!)") = Some r /\ forall s, matches r s = false.
Proof.
  eexists. split; [vm_compute; reflexivity|]. intros s. reflexivity.
Qed.
Lemma jail_re_spec : forall rules pid, Forall (rule_ok pid) rules ->
  exists r, jail_re rules pid = Some r /\
    forall path, matches r path = true <-> exists rule, In rule rules /\ covers pid rule path.
Proof.
  intros rules pid Hok. rewrite Forall_forall in Hok. unfold jail_re.
  destruct rules as [|r0 rules].
  - destruct empty_rules as (r & E & H). exists r. split; [exact E|]. intros path. rewrite H.
    split; [discriminate|]. intros (x & [] & _).
  - remember (r0 :: rules) as rs eqn:Ers.
    assert (Hne : rs <> []) by (subst rs; discriminate). clear Ers.
    destruct (all_some_map (format_pid (decimal pid)) rs) as (l & E1 & E2 & E3).
    { intros x Hx. destruct (Hok x Hx) as (r & p & Hp & _). eauto. }
    rewrite E1. destruct (compile_join l) as (r & Hr & Hm).
    { intros ->. destruct rs; [congruence|discriminate]. }
    { intros p Hp. apply E2 in Hp. destruct Hp as (x & Hx & Ex). destruct (Hok x Hx) as (r & p' & Hp' & Hc).
      exists r. congruence. }
    exists r. split; [exact Hr|]. intros path. rewrite matches_iff. split.
    + intros (t & H). apply Hm in H. destruct H as (p & rp & H1 & H2 & H3). apply E2 in H1.
      destruct H1 as (x & Hx & Ex). exists x. split; [exact Hx|]. exists rp, t. split; [|exact H3].
      exists p. auto.
    + intros (x & Hx & r' & t & (p & Hp & Hc) & H). exists t. apply Hm. exists p, r'. split; [|auto].
      apply E2. exists x. auto.
Qed.

(** ** The calls that name files *)
Definition cache_ok (t : tracer) : Prop :=
  (forall p r, find_pid p (read_jail t) = Some r -> jail_re (read_fs t) p = Some r)
  /\ (forall p r, find_pid p (write_jail t) = Some r -> jail_re (write_fs t) p = Some r).
Lemma fresh_ok : forall r w, cache_ok (fresh r w).
Proof. intros r w. split; intros p x H; discriminate H. Qed.
Lemma get_fs_jail_spec : forall t pid w, cache_ok t ->
  fst (get_fs_jail t pid w) = jail_re (if w then write_fs t else read_fs t) pid
  /\ cache_ok (snd (get_fs_jail t pid w))
  /\ read_fs (snd (get_fs_jail t pid w)) = read_fs t /\ write_fs (snd (get_fs_jail t pid w)) = write_fs t.
Proof.
  intros t pid w [C1 C2]. unfold get_fs_jail.
  destruct (find_pid pid (if w then write_jail t else read_jail t)) as [r|] eqn:E.
  - cbn [fst snd]. split; [|split; [split; assumption|split; reflexivity]].
    destruct w; [symmetry; apply C2|symmetry; apply C1]; exact E.
  - destruct (jail_re (if w then write_fs t else read_fs t) pid) as [r|] eqn:J;
      cbn [fst snd]; (split; [reflexivity|]); [|split; [split; assumption|split; reflexivity]].
    destruct w; cbn; (split; [|split; reflexivity]); split; cbn; intros p x H;
      try (apply C1; exact H); try (apply C2; exact H);
      destruct (N.eqb_spec pid p) as [->|]; try congruence; try (apply C1; exact H); apply C2; exact H.
Qed.
Lemma handle_history : forall t d c, cache_ok t ->
  fst (handle t d c) = fst (handle (fresh (read_fs t) (write_fs t)) d c)
  /\ cache_ok (snd (handle t d c))
  /\ read_fs (snd (handle t d c)) = read_fs t /\ write_fs (snd (handle t d c)) = write_fs t.
Proof.
  intros t d c Ht.
  assert (K : forall file o f dir,
    fst (file_access t d file o f dir) = fst (file_access (fresh (read_fs t) (write_fs t)) d file o f dir)
    /\ cache_ok (snd (file_access t d file o f dir))
    /\ read_fs (snd (file_access t d file o f dir)) = read_fs t
    /\ write_fs (snd (file_access t d file o f dir)) = write_fs t).
  { intros file o f dir. unfold file_access.
    destruct file as [s| | |]; try (cbn [fst snd]; auto).
    destruct (get_full_path (cwd d) (fds d) s dir) as [full|]; [|cbn [fst snd]; auto].
    destruct (get_fs_jail_spec t (pid d) (o && is_write_flags (uarg d f)) Ht) as (E1 & E2 & E3 & E4).
    destruct (get_fs_jail_spec (fresh (read_fs t) (write_fs t)) (pid d) (o && is_write_flags (uarg d f)) (fresh_ok _ _)) as (F1 & _).
    cbn [read_fs write_fs fresh] in F1. rewrite <- E1 in F1.
    destruct (get_fs_jail t (pid d) (o && is_write_flags (uarg d f))) as [[r|] t'];
      destruct (get_fs_jail (fresh (read_fs t) (write_fs t)) (pid d) (o && is_write_flags (uarg d f))) as [[r2|] t2];
      cbn [fst snd] in *; try discriminate F1; [injection F1 as ->|]; auto. }
  destruct c; cbn [handle]; unfold check_file_access_at, check_file_access; try apply K; cbn [fst snd]; auto.
Qed.
Lemma handle_all_history : forall l t, cache_ok t ->
  fst (handle_all t l) = map (fun '(d, c) => fst (handle (fresh (read_fs t) (write_fs t)) d c)) l.
Proof.
  induction l as [|[d c] l IH]; intros t Ht; [reflexivity|]. cbn [handle_all map].
  destruct (handle_history t d c Ht) as (E1 & E2 & E3 & E4).
  destruct (handle t d c) as [v t1]. cbn [fst snd] in *.
  specialize (IH t1 E2). destruct (handle_all t1 l) as [vs t2]. cbn [fst] in *.
  rewrite E1, IH, E3, E4. reflexivity.
Qed.
Lemma handle_file_call : forall t d c, file_call c = true ->
  handle t d c = file_access t d (path_of d c) (opens c) (if at_call c then 2 else 1) (dir_of d c).
Proof. intros t d c H. destruct c; try discriminate H; reflexivity. Qed.
Lemma file_call_spec : forall r w d c, file_call c = true ->
  Forall (rule_ok (pid d)) r -> Forall (rule_ok (pid d)) w ->
  let v := fst (handle (fresh r w) d c) in
  (v = Run <-> exists path full rule, path_of d c = Str path
      /\ get_full_path (cwd d) (fds d) path (dir_of d c) = Some full
      /\ In rule (if wants_write d c then w else r) /\ covers (pid d) rule full)
  /\ (v = Kill <-> exists path, path_of d c = Str path
      /\ get_full_path (cwd d) (fds d) path (dir_of d c) = None)
  /\ (v = Run \/ v = Kill \/ v = Fail ENOENT).
Proof.
  intros r w d c Hc Hr Hw. cbv zeta. rewrite handle_file_call by exact Hc. unfold file_access.
  destruct (path_of d c) as [s| | |] eqn:Ep; cbn [fst];
    try (repeat split; try discriminate; [intros (a & b & e & H & _); discriminate H|intros (a & H & _); discriminate H|auto]).
  destruct (get_full_path (cwd d) (fds d) s (dir_of d c)) as [full|] eqn:Ef; cbn [fst].
  2:{ split; [|split; [|auto]].
      - split; [discriminate|]. intros (a & b & e & H1 & H2 & _). congruence.
      - split; [intros _; exists s; auto|reflexivity]. }
  change (is_write_flags (uarg d (if at_call c then 2 else 1))) with (is_write_flags (flags_of d c)).
  rewrite is_write_flags_spec. fold (wants_write d c).
  destruct (get_fs_jail_spec (fresh r w) (pid d) (wants_write d c) (fresh_ok r w)) as (E1 & _).
  cbn [read_fs write_fs fresh] in E1.
  assert (Hrules : Forall (rule_ok (pid d)) (if wants_write d c then w else r)) by (destruct (wants_write d c); assumption).
  destruct (jail_re_spec _ _ Hrules) as (re0 & J & M). rewrite J in E1.
  destruct (get_fs_jail (fresh r w) (pid d) (wants_write d c)) as [o t']. cbn [fst] in E1. subst o. cbn [fst].
  destruct (matches re0 full) eqn:Em.
  - split; [|split; [|auto]].
    + split; [intros _|reflexivity]. apply M in Em. destruct Em as (rule & H1 & H2). exists s, full, rule. auto.
    + split; [discriminate|]. intros (a & H1 & H2). congruence.
  - split; [|split; [|auto]].
    + split; [discriminate|]. intros (a & b & rule & H1 & H2 & H3 & H4).
      assert (matches re0 full = true); [|congruence].
      apply M. exists rule. injection H1 as <-. split; [exact H3|]. congruence.
    + split; [discriminate|]. intros (a & H1 & H2). congruence.
Qed.

(** ** Decimal numerals *)
Lemma digits_aux_spec : forall fuel n acc, (n < 2 ^ N.of_nat fuel)%N ->
  exists ds, digits_aux fuel n acc = ds ++ acc /\ Forall (fun c => (48 <= c <= 57)%N) ds
             /\ (fuel <> O -> ds <> [])
             /\ forall a, fold_left (fun x c => (10 * x + (c - 48))%N) ds a = (a * 10 ^ N.of_nat (length ds) + n)%N.
Proof.
  induction fuel as [|fuel IH]; intros n acc Hn.
  - exists []. cbn in *. assert (n = 0%N) by lia. subst n. split; [reflexivity|]. split; [constructor|].
    split; [congruence|]. intros a. cbn. lia.
  - cbn [digits_aux].
    assert (Hm : (n mod 10 < 10)%N) by (apply N.mod_lt; discriminate).
    assert (Hd : n = (10 * (n / 10) + n mod 10)%N) by (apply N.div_mod; discriminate).
    destruct (N.eqb_spec (n / 10) 0) as [E|E].
    + exists [(48 + n mod 10)%N]. split; [reflexivity|]. split; [constructor; [lia|constructor]|].
      split; [discriminate|]. intros a. cbn [fold_left length]. change (10 ^ N.of_nat 1)%N with 10%N. lia.
    + destruct (IH (n / 10)%N ((48 + n mod 10)%N :: acc)) as (ds & H1 & H2 & _ & H3).
      { rewrite Nat2N.inj_succ, N.pow_succ_r' in Hn. apply N.div_lt_upper_bound; lia. }
      exists (ds ++ [(48 + n mod 10)%N]). rewrite H1, <- app_assoc. split; [reflexivity|].
      split; [apply Forall_app; split; [exact H2|constructor; [lia|constructor]]|].
      split; [intros _ X; apply app_eq_nil in X; destruct X; discriminate|].
      intros a. rewrite fold_left_app, H3, app_length. cbn [fold_left length].
      rewrite Nat.add_1_r, Nat2N.inj_succ, N.pow_succ_r'. lia.
Qed.
Lemma decimal_spec : forall n, numeral_value (decimal n) = n /\ Forall (fun c => (48 <= c <= 57)%N) (decimal n)
  /\ decimal n <> [].
Proof.
  intros n. unfold decimal.
  destruct (digits_aux_spec (S (N.to_nat (N.log2 n))) n []) as (ds & H1 & H2 & H3 & H4).
  { rewrite Nat2N.inj_succ, N2Nat.id.
    destruct (N.eq_dec n 0) as [->|Hn]; [reflexivity|]. apply N.log2_spec. lia. }
  rewrite H1, app_nil_r. split; [|split; [exact H2|apply H3; discriminate]].
  unfold numeral_value. rewrite H4. lia.
Qed.
Lemma decimal_inj : forall m n, decimal m = decimal n -> m = n.
Proof.
  intros m n H. destruct (decimal_spec m) as [<- _]. destruct (decimal_spec n) as [<- _]. f_equal. exact H.
Qed.
Lemma tokens_digits : forall ds, Forall (fun c => (48 <= c <= 57)%N) ds -> tokens ds = Some (map TChr ds).
Proof.
  induction 1 as [|c ds Hc H IH]; [reflexivity|].
  assert (special c = false) as Es.
  { destruct (special c) eqn:E; [|reflexivity]. apply special_alnum in E. unfold is_alnum in E.
    assert ((48 <=? c)%N = true) as E1 by (apply N.leb_le; lia). assert ((c <=? 57)%N = true) as E2 by (apply N.leb_le; lia).
    rewrite E1, E2 in E. discriminate E. }
  destruct (not_special c Es) as (H1 & H2 & H4 & H3). cbn [tokens map]. rewrite H1, H2, H4, H3, IH. reflexivity.
Qed.

(** ** The words a pattern stands for *)
Definition shape := (list N * list re)%type.
Definition join_shapes (l1 l2 : list shape) : option (list shape) :=
  if forallb (fun s1 : shape => match snd s1 with [] => true | _ => forallb (fun s2 : shape => beqb (fst s2) []) l2 end) l1
  then Some (flat_map (fun s1 : shape => map (fun s2 : shape => (fst s1 ++ fst s2, snd s1 ++ snd s2)) l2) l1)
  else None.
Fixpoint shapes (r : re) : option (list shape) :=
  match r with
  | Eps => Some [([], [])]
  | Chr c => Some [([c], [])]
  | End => Some [([], [End])]
  | Not a => Some [([], [Not a])]
  | Cls _ | Many _ => None
  | Alt a b => match shapes a, shapes b with Some x, Some y => Some (x ++ y) | _, _ => None end
  | Opt a => match shapes a with Some x => Some (x ++ [([], [])]) | None => None end
  | Cat a b => match shapes a, shapes b with Some x, Some y => join_shapes x y | _, _ => None end
  end.
Definition fits (l : list shape) (s t : list N) : Prop :=
  exists w a, In (w, a) l /\ s = w ++ t /\ Forall (fun x => Matches x t t) a.
Lemma shapes_ok : forall r l, shapes r = Some l -> forall s t, Matches r s t <-> fits l s t.
Proof.
  induction r as [|c|a IHa b IHb|a IHa b IHb|a IHa| |a IHa|k|k]; cbn [shapes]; intros l H s t; try discriminate H.
  - injection H as <-. cbn [Matches]. unfold fits. split.
    + intros ->. exists [], []. split; [left; reflexivity|]. auto.
    + intros (w & a & [E|[]] & H1 & H2). injection E as <- <-. auto.
  - injection H as <-. cbn [Matches]. unfold fits. split.
    + intros ->. exists [c], []. split; [left; reflexivity|]. auto.
    + intros (w & a & [E|[]] & H1 & H2). injection E as <- <-. auto.
  - destruct (shapes a) as [x|] eqn:Ea; [|discriminate]. destruct (shapes b) as [y|] eqn:Eb; [|discriminate].
    unfold join_shapes in H.
    destruct (forallb _ x) eqn:Ef; [|discriminate]. injection H as <-. rewrite forallb_forall in Ef.
    cbn [Matches]. split.
    + intros (u & H1 & H2). apply (IHa x eq_refl) in H1. apply (IHb y eq_refl) in H2.
      destruct H1 as (w1 & a1 & I1 & -> & F1). destruct H2 as (w2 & a2 & I2 & -> & F2).
      exists (w1 ++ w2), (a1 ++ a2). split; [|split; [apply app_assoc|]].
      * apply in_flat_map. exists (w1, a1). split; [exact I1|]. apply in_map_iff. exists (w2, a2). auto.
      * apply Forall_app. split; [|exact F2]. specialize (Ef _ I1). cbn [snd] in Ef.
        destruct a1 as [|e a1]; [constructor|]. rewrite forallb_forall in Ef. specialize (Ef _ I2).
        apply beqb_eq in Ef. cbn [fst] in Ef. subst w2. exact F1.
    + intros (w & al & I & -> & F). apply in_flat_map in I. destruct I as ((w1 & a1) & I1 & I2).
      apply in_map_iff in I2. destruct I2 as ((w2 & a2) & E & I2). cbn [fst snd] in E. injection E as <- <-.
      apply Forall_app in F. destruct F as [F1 F2]. exists (w2 ++ t). split.
      * apply (IHa x eq_refl). exists w1, a1. split; [exact I1|]. split; [symmetry; apply app_assoc|].
        specialize (Ef _ I1). cbn [snd] in Ef. destruct a1 as [|e a1]; [constructor|].
        rewrite forallb_forall in Ef. specialize (Ef _ I2). apply beqb_eq in Ef. cbn [fst] in Ef. subst w2. exact F1.
      * apply (IHb y eq_refl). exists w2, a2. auto.
  - destruct (shapes a) as [x|]; [|discriminate]. destruct (shapes b) as [y|]; [|discriminate]. injection H as <-.
    cbn [Matches]. rewrite (IHa x eq_refl), (IHb y eq_refl). unfold fits. split.
    + intros [(w & al & I & H)|(w & al & I & H)]; exists w, al; (split; [|exact H]); apply in_app_iff; auto.
    + intros (w & al & I & H). apply in_app_iff in I. destruct I as [I|I]; [left|right]; exists w, al; auto.
  - destruct (shapes a) as [x|]; [|discriminate]. injection H as <-. cbn [Matches]. rewrite (IHa x eq_refl). unfold fits. split.
    + intros [(w & al & I & H)| ->]; [exists w, al|exists [], []]; (split; [apply in_app_iff|]); auto.
      right. left. reflexivity.
    + intros (w & al & I & H1 & H2). apply in_app_iff in I. destruct I as [I|[I|[]]]; [left; exists w, al; auto|].
      injection I as <- <-. auto.
  - injection H as <-. cbn [Matches]. unfold fits. split.
    + intros [-> H]. exists [], [End]. split; [left; reflexivity|]. split; [reflexivity|].
      constructor; [|constructor]. cbn [Matches]. auto.
    + intros (w & al & [E|[]] & H1 & H2). injection E as <- <-. cbn [app] in H1. subst t.
      inversion H2 as [|e f H3 H4]; subst. exact H3.
  - injection H as <-. cbn [Matches]. unfold fits. split.
    + intros [-> H]. exists [], [Not a]. split; [left; reflexivity|]. split; [reflexivity|].
      constructor; [|constructor]. cbn [Matches]. auto.
    + intros (w & al & [E|[]] & H1 & H2). injection E as <- <-. cbn [app] in H1. subst t.
      inversion H2 as [|e f H3 H4]; subst. exact H3.
Qed.
Lemma shapes_literal : forall w, shapes (cat (rev (map Chr w))) = Some [(w, [])].
Proof.
  intros w. unfold cat. rewrite <- fold_left_rev_right, rev_involutive.
  induction w as [|c w IH]; [reflexivity|]. cbn [map fold_right shapes]. rewrite IH. reflexivity.
Qed.

(** ** The base rules *)
Definition shapes_of (pid : list N) (rule : list N) : option (list shape) :=
  match format_pid pid rule with
  | Some p => match compile p with Some r => shapes r | None => None end
  | None => None
  end.
Lemma covers_shapes : forall p rule l, shapes_of (decimal p) rule = Some l ->
  rule_ok p rule /\ forall path, covers p rule path <-> exists t, fits l path t.
Proof.
  intros p rule l H. unfold shapes_of in H.
  destruct (format_pid (decimal p) rule) as [q|] eqn:Ef; [|discriminate].
  destruct (compile q) as [r|] eqn:Ec; [|discriminate].
  split; [exists r, q; auto|]. intros path. split.
  - intros (r' & t & (q' & E1 & E2) & M). exists t. apply (shapes_ok r l H). congruence.
  - intros (t & F). exists r, t. split; [exists q; auto|]. apply (shapes_ok r l H). exact F.
Qed.
Lemma pid_rule_compile : forall pre post ds lpre lpost st,
  Forall (fun c => (48 <= c <= 57)%N) ds ->
  tokens pre = Some lpre -> tokens post = Some lpost -> steps start lpre = Some st -> cur st = [] ->
  compile (pre ++ ds ++ post) =
  match steps {| stack := stack st; cur_alts := cur_alts st; cur := rev (map Chr ds) |} lpost with
  | Some st' => match stack st' with [] => Some (group (cur_alts st') (cur st')) | _ => None end
  | None => None
  end.
Proof.
  intros pre post ds lpre lpost st Hd H1 H2 H3 H4. unfold compile.
  rewrite (tokens_app pre (ds ++ post) lpre (map TChr ds ++ lpost) H1).
  2:{ apply tokens_app; [apply tokens_digits; exact Hd|exact H2]. }
  rewrite steps_app, H3. rewrite steps_app, steps_chars. rewrite H4, app_nil_r. reflexivity.
Qed.
Definition lits (w : list N) (k : re) : re := fold_right (fun c k => Cat (Chr c) k) k w.
Lemma shapes_lits : forall w k l, shapes k = Some l ->
  shapes (lits w k) = Some (map (fun s : shape => (w ++ fst s, snd s)) l).
Proof.
  induction w as [|c w IH]; intros k l H.
  - cbn [lits fold_right app]. rewrite H. f_equal. symmetry. rewrite <- (map_id l) at 2. apply map_ext. intros [x y]. reflexivity.
  - unfold lits in *. cbn [fold_right shapes]. rewrite (IH k l H). unfold join_shapes. cbn [forallb snd andb flat_map app fst].
    rewrite map_map, app_nil_r. f_equal.
Qed.
Lemma shapes_cat : forall a b x y z, shapes a = Some x -> shapes b = Some y -> join_shapes x y = Some z -> shapes (Cat a b) = Some z.
Proof. intros a b x y z H1 H2 H3. cbn [shapes]. rewrite H1, H2. exact H3. Qed.
Lemma shapes_alt : forall a b x y, shapes a = Some x -> shapes b = Some y -> shapes (Alt a b) = Some (x ++ y).
Proof. intros a b x y H1 H2. cbn [shapes]. rewrite H1, H2. reflexivity. Qed.
Definition proc_dir_re (X : re) : re := lits (B "/proc/") (Cat (Alt (lits (B "self") Eps) X) (Cat End Eps)).
Definition proc_files_re (X : re) : re :=
  lits (B "/proc/") (Cat (Alt (lits (B "self") Eps) X)
    (lits (B "/") (Cat (Alt (lits (B "maps") Eps) (Alt (lits (B "exe") Eps) (lits (B "auxv") Eps))) (Cat End Eps)))).
Lemma proc_files_shapes : forall ds, Forall (fun c => (48 <= c <= 57)%N) ds ->
  shapes_of ds (B "/proc/(?:self|{pid})/(?:maps|exe|auxv)$") =
  Some [(B "/proc/self/maps", [End]); (B "/proc/self/exe", [End]); (B "/proc/self/auxv", [End]);
        (B "/proc/" ++ ds ++ B "/maps", [End]); (B "/proc/" ++ ds ++ B "/exe", [End]); (B "/proc/" ++ ds ++ B "/auxv", [End])].
Proof.
  intros ds Hd. unfold shapes_of.
  replace (format_pid ds (B "/proc/(?:self|{pid})/(?:maps|exe|auxv)$"))
    with (Some (B "/proc/(?:self|" ++ ds ++ B ")/(?:maps|exe|auxv)$")) by reflexivity.
  assert (E : compile (B "/proc/(?:self|" ++ ds ++ B ")/(?:maps|exe|auxv)$") = Some (proc_files_re (cat (rev (map Chr ds))))).
  { erewrite pid_rule_compile by (exact Hd || (vm_compute; reflexivity)).
    generalize (rev (map Chr ds)) as C. intros C. vm_compute. reflexivity. }
  rewrite E. unfold proc_files_re. erewrite shapes_lits.
  2:{ eapply shapes_cat; [apply shapes_alt; [vm_compute; reflexivity|apply shapes_literal]| |reflexivity].
      apply shapes_lits. vm_compute. reflexivity. }
  reflexivity.
Qed.
Lemma proc_dir_shapes : forall ds, Forall (fun c => (48 <= c <= 57)%N) ds ->
  shapes_of ds (B "/proc/(?:self|{pid})$") =
  Some [(B "/proc/self", [End]); (B "/proc/" ++ ds, [End])].
Proof.
  intros ds Hd. unfold shapes_of.
  replace (format_pid ds (B "/proc/(?:self|{pid})$"))
    with (Some (B "/proc/(?:self|" ++ ds ++ B ")$")) by reflexivity.
  assert (E : compile (B "/proc/(?:self|" ++ ds ++ B ")$") = Some (proc_dir_re (cat (rev (map Chr ds))))).
  { erewrite pid_rule_compile by (exact Hd || (vm_compute; reflexivity)).
    generalize (rev (map Chr ds)) as C. intros C. vm_compute. reflexivity. }
  rewrite E. unfold proc_dir_re. erewrite shapes_lits.
  2:{ eapply shapes_cat; [apply shapes_alt; [vm_compute; reflexivity|apply shapes_literal]| |reflexivity].
      vm_compute. reflexivity. }
  cbn. rewrite app_nil_r. reflexivity.
Qed.
(** All shapes of a list of rules. *)
Fixpoint all_shapes (pid : list N) (rules : list (list N)) : option (list shape) :=
  match rules with
  | [] => Some []
  | r :: rest => match shapes_of pid r, all_shapes pid rest with Some x, Some y => Some (x ++ y) | _, _ => None end
  end.
Lemma all_shapes_ok : forall p rules l, all_shapes (decimal p) rules = Some l ->
  Forall (rule_ok p) rules /\
  forall path, (exists rule, In rule rules /\ covers p rule path) <-> exists t, fits l path t.
Proof.
  induction rules as [|r rules IH]; cbn [all_shapes]; intros l H.
  - injection H as <-. split; [constructor|]. intros path. split.
    + intros (rule & [] & _).
    + intros (t & w & a & [] & _).
  - destruct (shapes_of (decimal p) r) as [x|] eqn:Ex; [|discriminate].
    destruct (all_shapes (decimal p) rules) as [y|]; [|discriminate]. injection H as <-.
    destruct (covers_shapes p r x Ex) as [O C]. destruct (IH y eq_refl) as [O' C'].
    split; [constructor; assumption|]. intros path. split.
    + intros (rule & [<-|I] & Hc).
      * apply C in Hc. destruct Hc as (t & w & a & I & F). exists t, w, a. split; [apply in_app_iff; auto|exact F].
      * assert (exists t, fits y path t) as (t & w & a & I' & F) by (apply C'; eauto).
        exists t, w, a. split; [apply in_app_iff; auto|exact F].
    + intros (t & w & a & I & F). apply in_app_iff in I. destruct I as [I|I].
      * exists r. split; [left; reflexivity|]. apply C. exists t, w, a. auto.
      * assert (exists rule, In rule rules /\ covers p rule path) as (rule & I1 & I2).
        { apply C'. exists t, w, a. auto. }
        exists rule. split; [right; exact I1|exact I2].
Qed.
Definition home_ahead : re := Not (cat (rev (map Chr (B "home")))).
Definition base_shapes (ds : list N) : list shape :=
  map (fun w => (w, [End]))
    [B "/dev/null"; B "/dev/tty"; B "/dev/zero"; B "/dev/urandom"; B "/dev/random"]
  ++ [(B "/usr/", [home_ahead]); (B "/lib32/", []); (B "/lib64/", []); (B "/lib/", []); (B "/opt/", [])]
  ++ map (fun w => (w, [End]))
    [B "/etc"; B "/etc/localtime"; B "/etc/timezone"; B "/usr"; B "/tmp"; B "/"; B "/sys/devices/system/cpu"]
  ++ [(B "/sys/devices/system/cpu/online", [])]
  ++ map (fun w => (w, [End]))
    [B "/etc/selinux/config"; B "/proc";
     B "/proc/self/maps"; B "/proc/self/exe"; B "/proc/self/auxv";
     B "/proc/" ++ ds ++ B "/maps"; B "/proc/" ++ ds ++ B "/exe"; B "/proc/" ++ ds ++ B "/auxv";
     B "/proc/self"; B "/proc/" ++ ds;
     B "/proc/meminfo"; B "/proc/stat"; B "/proc/cpuinfo"; B "/proc/filesystems"; B "/proc/xen"; B "/proc/uptime";
     B "/proc/sys/vm/overcommit_memory";
     B "/etc/ld.so.nohwcap"; B "/etc/ld.so.preload"; B "/etc/ld.so.cache"].
Lemma all_shapes_app : forall pid a b x y, all_shapes pid a = Some x -> all_shapes pid b = Some y ->
  all_shapes pid (a ++ b) = Some (x ++ y).
Proof.
  induction a as [|r a IH]; cbn [all_shapes app]; intros b x y H1 H2.
  - injection H1 as <-. exact H2.
  - destruct (shapes_of pid r) as [z|]; [|discriminate]. destruct (all_shapes pid a) as [v|]; [|discriminate].
    injection H1 as <-. rewrite (IH b v y eq_refl H2). rewrite <- app_assoc. reflexivity.
Qed.
Lemma all_shapes_one : forall pid r x, shapes_of pid r = Some x -> all_shapes pid [r] = Some x.
Proof. intros pid r x H. cbn [all_shapes]. rewrite H, app_nil_r. reflexivity. Qed.
Lemma base_shapes_ok : forall ds, Forall (fun c => (48 <= c <= 57)%N) ds ->
  exists l, all_shapes ds BASE_FILESYSTEM = Some l /\ incl l (base_shapes ds) /\ incl (base_shapes ds) l.
Proof.
  intros ds Hd.
  remember (firstn 12 BASE_FILESYSTEM) as b1 eqn:E1.
  remember (skipn 14 BASE_FILESYSTEM) as b3 eqn:E3.
  assert (E : BASE_FILESYSTEM = b1 ++ [B "/proc/(?:self|{pid})/(?:maps|exe|auxv)$"] ++ [B "/proc/(?:self|{pid})$"] ++ b3)
    by (subst; reflexivity).
  assert (S1 : exists l1, all_shapes ds b1 = Some l1 /\ l1 = firstn 20 (base_shapes ds)).
  { eexists. split; [subst b1; vm_compute; reflexivity|reflexivity]. }
  assert (S3 : exists l3, all_shapes ds b3 = Some l3 /\ l3 = skipn 28 (base_shapes ds)).
  { eexists. split; [subst b3; vm_compute; reflexivity|reflexivity]. }
  destruct S1 as (l1 & S1 & L1). destruct S3 as (l3 & S3 & L3).
  exists (base_shapes ds). split; [|split; apply incl_refl].
  pose proof (all_shapes_app ds b1 _ _ _ S1
            (all_shapes_app ds _ _ _ _ (all_shapes_one ds _ _ (proc_files_shapes ds Hd))
              (all_shapes_app ds _ _ _ _ (all_shapes_one ds _ _ (proc_dir_shapes ds Hd)) S3))) as H.
  rewrite E. etransitivity; [exact H|]. subst l1 l3. reflexivity.
Qed.
Lemma matches_end : forall t, Matches End t t <-> t = [] \/ t = [10%N].
Proof. intros t. cbn [Matches]. intuition. Qed.
Lemma matches_home : forall t, Matches home_ahead t t <-> ~ Spec.Access.below (B "home") t.
Proof.
  intros t. unfold home_ahead. cbn [Matches]. unfold Spec.Access.below. split.
  - intros [_ H] (r & ->). apply (H r). apply cat_literal. reflexivity.
  - intros H. split; [reflexivity|]. intros u M. apply cat_literal in M. apply H. exists u. exact M.
Qed.
Lemma fits_base : forall ds path, (exists t, fits (base_shapes ds) path t) <-> base_readable ds path.
Proof.
  intros ds path. split.
  - intros (t & w & a & I & -> & F).
    assert (K : (a = [End] /\ In w (base_files ds))
             \/ (a = [] /\ In w [B "/lib/"; B "/lib32/"; B "/lib64/"; B "/opt/"; B "/sys/devices/system/cpu/online"])
             \/ (a = [home_ahead] /\ w = B "/usr/")).
    { unfold base_shapes in I. repeat rewrite in_app_iff in I.
      destruct I as [I|[I|[I|[I|I]]]].
      - left. apply in_map_iff in I. destruct I as (x & E & I). injection E as <- <-. split; [reflexivity|].
        cbn [In] in I. decompose [or] I; try contradiction; subst x; unfold base_files;
          repeat (first [left; reflexivity | right]).
      - cbn [In] in I. decompose [or] I; try contradiction;
          match goal with X : (_, _) = (w, a) |- _ => injection X as <- <- end.
        + right. right. auto.
        + right. left. split; [reflexivity|]. repeat (first [left; reflexivity | right]).
        + right. left. split; [reflexivity|]. repeat (first [left; reflexivity | right]).
        + right. left. split; [reflexivity|]. repeat (first [left; reflexivity | right]).
        + right. left. split; [reflexivity|]. repeat (first [left; reflexivity | right]).
      - left. apply in_map_iff in I. destruct I as (x & E & I). injection E as <- <-. split; [reflexivity|].
        cbn [In] in I. decompose [or] I; try contradiction; subst x; unfold base_files;
          repeat (first [left; reflexivity | right]).
      - right. left. cbn [In] in I. destruct I as [I|[]]. injection I as <- <-. split; [reflexivity|].
        repeat (first [left; reflexivity | right]).
      - left. apply in_map_iff in I. destruct I as (x & E & I). injection E as <- <-. split; [reflexivity|].
        cbn [In] in I. decompose [or] I; try contradiction; subst x; unfold base_files;
          repeat (first [left; reflexivity | right]). }
    destruct K as [[-> I']|[[-> I']|[-> ->]]].
    + left. exists w. split; [exact I'|]. inversion F as [|x y F1 _]; subst.
      apply matches_end in F1. destruct F1 as [-> | ->]; [left; apply app_nil_r|right; reflexivity].
    + right. left. exists w. split; [exact I'|]. exists t. reflexivity.
    + right. right. inversion F as [|x y F1 _]; subst. apply matches_home in F1. split; [exists t; reflexivity|].
      intros (r & E). apply F1. exists r. change (B "/usr/home") with (B "/usr/" ++ B "home") in E.
      rewrite <- app_assoc in E. apply app_inv_head in E. exact E.
  - intros [(w & I & X)|[(w & I & (r & ->))|[(r & ->) Hn]]].
    + assert (I' : In (w, [End]) (base_shapes ds)).
      { unfold base_files in I. cbn [In] in I. unfold base_shapes. cbn [map app].
        decompose [or] I; try contradiction; subst w; repeat (first [left; reflexivity | right]). }
      assert (exists t, path = w ++ t /\ (t = [] \/ t = [10%N])) as (t & -> & Ht).
      { destruct X as [-> | ->]; [exists []; rewrite app_nil_r|exists [10%N]]; auto. }
      exists t, w, [End]. split; [exact I'|]. split; [reflexivity|]. constructor; [|constructor].
      apply matches_end. exact Ht.
    + exists r, w, []. split; [|split; [reflexivity|constructor]].
      cbn [In] in I. unfold base_shapes. cbn [map app].
      decompose [or] I; try contradiction; subst w; repeat (first [left; reflexivity | right]).
    + exists r, (B "/usr/"), [home_ahead]. split; [|split; [reflexivity|]].
      * unfold base_shapes. cbn [map app]. repeat (first [left; reflexivity | right]).
      * constructor; [|constructor]. apply matches_home. intros (q & ->). apply Hn. exists q. reflexivity.
Qed.
Lemma base_rules : forall p, Forall (rule_ok p) BASE_FILESYSTEM /\
  forall path, (exists rule, In rule BASE_FILESYSTEM /\ covers p rule path) <-> base_readable (decimal p) path.
Proof.
  intros p. destruct (decimal_spec p) as (_ & Hd & _).
  destruct (base_shapes_ok (decimal p) Hd) as (l & H & I1 & I2).
  destruct (all_shapes_ok p BASE_FILESYSTEM l H) as [O C]. split; [exact O|].
  intros path. rewrite C, <- fits_base. split; intros (t & w & a & I & F); exists t, w, a; split; auto.
Qed.
Lemma write_rules : forall p, Forall (rule_ok p) BASE_WRITE_FILESYSTEM /\
  forall path, (exists rule, In rule BASE_WRITE_FILESYSTEM /\ covers p rule path) <->
    exists w, In w [B "/dev/stdout"; B "/dev/stderr"; B "/dev/null"] /\ exactly w path.
Proof.
  intros p.
  destruct (all_shapes_ok p BASE_WRITE_FILESYSTEM
    (map (fun w => (w, [End])) [B "/dev/stdout"; B "/dev/stderr"; B "/dev/null"])) as [O C]; [reflexivity|].
  split; [exact O|]. intros path. rewrite C. split.
  - intros (t & w & a & I & -> & F). apply in_map_iff in I. destruct I as (x & E & I). injection E as <- <-.
    exists x. split; [exact I|]. inversion F as [|y z F1 _]; subst. apply matches_end in F1.
    destruct F1 as [-> | ->]; [left; apply app_nil_r|right; reflexivity].
  - intros (w & I & X).
    assert (exists t, path = w ++ t /\ (t = [] \/ t = [10%N])) as (t & -> & Ht).
    { destruct X as [-> | ->]; [exists []; rewrite app_nil_r|exists [10%N]]; auto. }
    exists t, w, [End]. split; [apply in_map_iff; eauto|]. split; [reflexivity|]. constructor; [|constructor].
    apply matches_end. exact Ht.
Qed.

(** ** The scratch directory *)
Lemma escape_braces : forall w, ~ In 123%N w -> ~ In 125%N w -> ~ In 123%N (escape w) /\ ~ In 125%N (escape w).
Proof.
  intros w H1 H2. unfold escape. split; intros H; apply in_flat_map in H; destruct H as (c & Hc & H);
    destruct (special c); cbn in H; decompose [or] H; try contradiction; try discriminate; subst c; auto.
Qed.
Lemma escape_rule : forall p dir, ~ In 123%N dir -> ~ In 125%N dir ->
  rule_ok p (escape dir) /\ forall path, covers p (escape dir) path <-> Spec.Access.below dir path.
Proof.
  intros p dir H1 H2. destruct (escape_braces dir H1 H2) as [B1 B2].
  destruct (compile_escape dir) as (r & Hr & M).
  assert (P : rule_pattern p (escape dir) r).
  { exists (escape dir). split; [apply format_pid_plain; assumption|exact Hr]. }
  split; [exists r; exact P|]. intros path. split.
  - intros (r' & t & (q & E1 & E2) & Hm). exists t. apply M.
    rewrite format_pid_plain in E1 by assumption. congruence.
  - intros (t & ->). exists r, t. split; [exact P|]. apply M. reflexivity.
Qed.
Lemma get_fs_rules : forall p own extra dir, ~ In 123%N dir -> ~ In 125%N dir ->
  Forall (rule_ok p) own -> Forall (rule_ok p) extra ->
  Forall (rule_ok p) (get_fs own extra dir) /\
  forall path, (exists rule, In rule (get_fs own extra dir) /\ covers p rule path) <->
    base_readable (decimal p) path \/ Spec.Access.below dir path
    \/ exists rule, In rule (own ++ extra) /\ covers p rule path.
Proof.
  intros p own extra dir H1 H2 Ho He. destruct (base_rules p) as [O C]. destruct (escape_rule p dir H1 H2) as [Od Cd].
  unfold get_fs. split; [repeat (apply Forall_app; split); auto|].
  intros path. rewrite <- C, <- Cd. split.
  - intros (rule & I & X). repeat rewrite in_app_iff in I. destruct I as [I|[I|[I|[<-|[]]]]].
    + left. eauto.
    + right. right. exists rule. rewrite in_app_iff. auto.
    + right. right. exists rule. rewrite in_app_iff. auto.
    + right. left. exact X.
  - intros [(rule & I & X)|[X|(rule & I & X)]].
    + exists rule. repeat rewrite in_app_iff. auto.
    + exists (escape dir). repeat rewrite in_app_iff. split; [right; right; right; left; reflexivity|exact X].
    + exists rule. repeat rewrite in_app_iff in *. tauto.
Qed.
(** What is not among the base rules. *)
Lemma below_app : forall a b w, Spec.Access.below (a ++ b) w -> Spec.Access.below a w.
Proof. intros a b w (r & ->). exists (b ++ r). rewrite app_assoc. reflexivity. Qed.
Lemma common_prefix_whole : forall s d, common_prefix s d = d <-> Spec.Access.below d s.
Proof.
  intros s d. revert s. induction d as [|y d IH]; intros s.
  - split; [intros _; exists s; reflexivity|]. intros _. destruct s; reflexivity.
  - destruct s as [|x s]; cbn [common_prefix].
    + split; [discriminate|]. intros (r & E). discriminate E.
    + destruct (N.eqb_spec x y) as [->|Hn].
      * split.
        -- intros E. injection E as E. apply IH in E. destruct E as (r & ->). exists r. reflexivity.
        -- intros (r & E). injection E as E. f_equal. apply IH. exists r. exact E.
      * split; [discriminate|]. intros (r & E). injection E as E _. congruence.
Qed.
Lemma link_place_spec : forall dir src q,
  link_place dir src = Some q <-> q = normpath (join dir src) /\ Spec.Access.below dir q.
Proof.
  intros dir src q. unfold link_place. destruct (beqb_spec (common_prefix (normpath (join dir src)) dir) dir) as [E|E].
  - apply common_prefix_whole in E. split; [intros H; injection H as <-; auto|intros [-> _]; reflexivity].
  - split; [discriminate|]. intros [-> H]. apply common_prefix_whole in H. congruence.
Qed.
(** ** Hidden places *)
Lemma hidden : forall ds w p,
  In w [B "/root"; B "/home"; B "/var"; B "/boot"; B "/run"; B "/mnt"; B "/media"; B "/srv"; B "/bin"; B "/sbin";
        B "/usr/home"; B "/tmp/"; B "/etc/passwd"; B "/etc/shadow"; B "/etc/ssh"; B "/sys/k"; B "/dev/s"; B "/dev/m"] ->
  Spec.Access.below w p -> ~ base_readable ds p.
Proof.
  intros ds w p I (r & ->) [(v & J & X)|[(v & J & (q & E))|[(q & E) Hn]]].
  - unfold base_files in J. cbn [In] in I, J. unfold exactly in X.
    decompose [or] I; try contradiction; subst w; decompose [or] J; try contradiction; subst v;
      destruct X as [X|X]; discriminate X.
  - cbn [In] in I, J. decompose [or] I; try contradiction; subst w; decompose [or] J; try contradiction; subst v; discriminate E.
  - cbn [In] in I. decompose [or] I; try contradiction; subst w; try discriminate E. apply Hn. exists r. reflexivity.
Qed.
Definition ends_digits (r : list N) : Prop := match r with [] => True | c :: _ => ~ (48 <= c <= 57)%N end.
Lemma digits_prefix : forall a b r s, Forall (fun c => (48 <= c <= 57)%N) a -> Forall (fun c => (48 <= c <= 57)%N) b ->
  ends_digits r -> ends_digits s -> a ++ r = b ++ s -> a = b.
Proof.
  induction a as [|x a IH]; intros [|y b] r s Ha Hb Hr Hs E; cbn [app] in E.
  - reflexivity.
  - subst r. inversion Hb; subst. destruct (Hr ltac:(assumption)).
  - subst s. inversion Ha; subst. destruct (Hs ltac:(assumption)).
  - injection E as -> E. inversion Ha; inversion Hb; subst. f_equal. apply (IH b r s); assumption.
Qed.
Lemma other_process : forall p q rest, q <> p -> ends_digits rest ->
  ~ base_readable (decimal p) (B "/proc/" ++ decimal q ++ rest).
Proof.
  intros p q rest Hne Hr H.
  destruct (decimal_spec p) as (_ & Dp & _). destruct (decimal_spec q) as (_ & Dq & Nq).
  destruct (decimal q) as [|c dq] eqn:Eq; [congruence|].
  assert (Hc : (48 <= c <= 57)%N) by (inversion Dq; assumption).
  assert (K : forall s, ends_digits s -> B "/proc/" ++ (c :: dq) ++ rest = B "/proc/" ++ decimal p ++ s -> False).
  { intros s Hs E. apply app_inv_head in E.
    assert (c :: dq = decimal p) as E'.
    { apply (digits_prefix _ _ rest s); assumption. }
    apply Hne. apply decimal_inj. congruence. }
  destruct H as [(v & J & X)|[(v & J & (u & E))|[(u & E) Hn]]].
  - unfold base_files in J. cbn [In] in J. unfold exactly in X.
    decompose [or] J; try contradiction; subst v; destruct X as [X|X];
      try discriminate X;
      try (injection X as X; subst c; exfalso; revert Hc; clear; lia);
      try (injection X as X _; subst c; exfalso; revert Hc; clear; lia).
    + refine (K [] I _). rewrite app_nil_r. exact X.
    + refine (K [10%N] _ _); [cbn; lia|]. rewrite X, <- app_assoc. reflexivity.
    + refine (K _ _ X). cbn; lia.
    + refine (K (B "/maps" ++ [10%N]) _ _); [cbn; lia|]. rewrite X, <- !app_assoc. reflexivity.
    + refine (K _ _ X). cbn; lia.
    + refine (K (B "/exe" ++ [10%N]) _ _); [cbn; lia|]. rewrite X, <- !app_assoc. reflexivity.
    + refine (K _ _ X). cbn; lia.
    + refine (K (B "/auxv" ++ [10%N]) _ _); [cbn; lia|]. rewrite X, <- !app_assoc. reflexivity.
  - cbn [In] in J. decompose [or] J; try contradiction; subst v; discriminate E.
  - discriminate E.
Qed.

(** ** Statements used by Properties.Sandbox *)
Lemma descriptor_unique : forall n reg, (- 2 ^ 31 <= n < 2 ^ 31)%Z -> (n mod 2 ^ 32 = reg mod 2 ^ 32)%Z -> as_descriptor reg = n.
Proof.
  intros n reg Hn E. destruct (as_descriptor_spec reg) as [B1 B2]. rewrite <- E in B2.
  pose proof (Z.div_mod n (2 ^ 32) ltac:(lia)) as D1. pose proof (Z.div_mod (as_descriptor reg) (2 ^ 32) ltac:(lia)) as D2.
  rewrite B2 in D2. nia.
Qed.
Lemma descriptor_cwd : forall reg, (reg mod 2 ^ 32 = 2 ^ 32 - 100)%Z <-> as_descriptor reg = AT_FDCWD.
Proof.
  intros reg. split.
  - intros H. apply descriptor_unique; [unfold AT_FDCWD; lia|]. rewrite H. reflexivity.
  - intros H. destruct (as_descriptor_spec reg) as [_ <-]. rewrite H. reflexivity.
Qed.
Lemma full_path_registers : forall is_dir dir file q cwd fd reg,
  Denotes is_dir (fun _ => None) dir file q -> Forall name_ok dir ->
  ((reg mod 2 ^ 32 = 2 ^ 32 - 100)%Z /\ cwd = spelled dir
   \/ exists n, (- 2 ^ 31 <= n < 2 ^ 31)%Z /\ (n mod 2 ^ 32 = reg mod 2 ^ 32)%Z /\ n <> (-100)%Z /\ fd n = Some (spelled dir)) ->
  get_full_path cwd fd file reg = Some (spelled q) /\ Forall name_ok q.
Proof.
  intros is_dir dir file q cwd fd reg D Hd H. apply (full_path_denotes is_dir dir); [exact D|exact Hd|].
  destruct H as [[H ->]|(n & H1 & H2 & H3 & H4)].
  - apply descriptor_cwd in H. rewrite H. reflexivity.
  - rewrite (descriptor_unique n reg H1 H2). destruct (Z.eqb_spec n AT_FDCWD) as [E|_]; [contradiction|exact H4].
Qed.
Lemma full_path_canonical' : forall cwd fd file reg f,
  get_full_path cwd fd file reg = Some f ->
  hd_error cwd = Some 47%N -> (forall n d, fd n = Some d -> hd_error d = Some 47%N) ->
  exists q, Forall name_ok q /\ f = spelled q.
Proof.
  intros cwd fd file reg f H H1 H2. apply (full_path_canonical cwd fd file reg f H).
  intros _ d Hd. destruct (as_descriptor reg =? AT_FDCWD)%Z.
  - injection Hd as <-. exact H1.
  - exact (H2 _ _ Hd).
Qed.
Lemma symlink_refuted :
  ~ forall is_dir link dir file q cwd fd,
      Denotes is_dir link dir file q -> Forall name_ok dir -> cwd = spelled dir ->
      get_full_path cwd fd file (-100) = Some (spelled q).
Proof.
  intros H.
  specialize (H (fun _ => true)
    (fun p => if match p with [a; b] => beqb a (B "usr") && beqb b (B "tmp") | _ => false end then Some [B "var"; B "tmp"] else None)
    [] (B "/usr/tmp/x") [B "var"; B "tmp"; B "x"] (B "/") (fun _ => None)).
  assert (D : get_full_path (B "/") (fun _ => None) (B "/usr/tmp/x") (-100) = Some (spelled [B "var"; B "tmp"; B "x"])); [|discriminate D].
  apply H; [|constructor|reflexivity].
  apply (d_abs _ _ _ (B "usr/tmp/x") [B "usr"; B "tmp"; B "x"]); [apply (split_components (B "usr/tmp/x"))|].
  apply w_down; [vm_compute; intuition discriminate|reflexivity|].
  apply w_down; [vm_compute; intuition discriminate|reflexivity|].
  apply w_down; [vm_compute; intuition discriminate|reflexivity|]. apply w_done.
Qed.
Lemma full_path_cwd : forall cwd fd file reg, (reg mod 2 ^ 32 = 2 ^ 32 - 100)%Z ->
  forall fd' reg', (reg' mod 2 ^ 32 = 2 ^ 32 - 100)%Z ->
  get_full_path cwd fd file reg = get_full_path cwd fd' file reg'.
Proof.
  intros cwd fd file reg H fd' reg' H'. apply descriptor_cwd in H, H'. unfold get_full_path. rewrite H, H'. reflexivity.
Qed.
Lemma full_path_fd : forall cwd cwd' fd fd' file reg reg', (reg mod 2 ^ 32 = reg' mod 2 ^ 32)%Z ->
  (reg mod 2 ^ 32 <> 2 ^ 32 - 100)%Z ->
  (forall n, (n mod 2 ^ 32 = reg mod 2 ^ 32)%Z -> (- 2 ^ 31 <= n < 2 ^ 31)%Z -> fd n = fd' n) ->
  get_full_path cwd fd file reg = get_full_path cwd' fd' file reg'.
Proof.
  intros cwd cwd' fd fd' file reg reg' E Hn Hfd.
  destruct (as_descriptor_spec reg) as [B1 B2].
  assert (as_descriptor reg' = as_descriptor reg) as E' by (apply descriptor_unique; [exact B1|congruence]).
  unfold get_full_path. rewrite E'. destruct (Z.eqb_spec (as_descriptor reg) AT_FDCWD) as [X|_].
  - apply descriptor_cwd in X. congruence.
  - rewrite (Hfd _ B2 B1). reflexivity.
Qed.
Lemma file_call_denied : forall r w d c, file_call c = true ->
  Forall (rule_ok (pid d)) r -> Forall (rule_ok (pid d)) w ->
  fst (handle (fresh r w) d c) <> Run ->
  fst (handle (fresh r w) d c) = Fail 2
  \/ (fst (handle (fresh r w) d c) = Kill
      /\ exists path, path_of d c = Str path /\ get_full_path (cwd d) (fds d) path (dir_of d c) = None).
Proof.
  intros r w d c H1 H2 H3 Hn. destruct (file_call_spec r w d c H1 H2 H3) as (_ & K & [X|[X|X]]).
  - contradiction.
  - right. split; [exact X|]. apply K. exact X.
  - left. exact X.
Qed.
Lemma empty_jail_never : forall r w d c, file_call c = true -> (if wants_write d c then w else r) = [] ->
  fst (handle (fresh r w) d c) <> Run.
Proof.
  intros r w d c Hc E. rewrite handle_file_call by exact Hc. unfold file_access.
  destruct (path_of d c) as [s| | |]; try discriminate.
  destruct (get_full_path (cwd d) (fds d) s (dir_of d c)) as [full|]; [|discriminate].
  change (is_write_flags (uarg d (if at_call c then 2 else 1))) with (is_write_flags (flags_of d c)).
  rewrite is_write_flags_spec. fold (wants_write d c).
  destruct (get_fs_jail_spec (fresh r w) (pid d) (wants_write d c) (fresh_ok r w)) as (E1 & _).
  cbn [read_fs write_fs fresh] in E1. rewrite E in E1. cbn [jail_re] in E1.
  destruct empty_rules as (x & X & M). rewrite X in E1.
  destruct (get_fs_jail (fresh r w) (pid d) (wants_write d c)) as [o t']. cbn [fst] in E1. subst o. cbn [fst].
  rewrite M. discriminate.
Qed.
Lemma no_read_rules : forall w d c, file_call c = true -> wants_write d c = false ->
  fst (handle (fresh [] w) d c) <> Run.
Proof. intros w d c H E. apply empty_jail_never; [exact H|]. rewrite E. reflexivity. Qed.
Lemma no_write_rules : forall r d c, file_call c = true -> wants_write d c = true ->
  fst (handle (fresh r []) d c) <> Run.
Proof. intros r d c H E. apply empty_jail_never; [exact H|]. rewrite E. reflexivity. Qed.
Lemma never_run : forall r w d c, In c [Mkdir; Unlink; Socket; Socketcall] ->
  exists e, fst (handle (fresh r w) d c) = Fail e.
Proof.
  intros r w d c H. cbn in H. decompose [or] H; try contradiction; subst c; cbn [handle fst];
    [exists EPERM|exists EPERM|exists EACCES|exists EACCES]; reflexivity.
Qed.
Lemma standard_rules_ok : forall dir p, ~ In 123%N dir -> ~ In 125%N dir ->
  Forall (rule_ok p) (get_fs [] [] dir) /\ Forall (rule_ok p) (get_write_fs []).
Proof.
  intros dir p H1 H2. split; [apply get_fs_rules; auto|]. unfold get_write_fs. rewrite app_nil_r. apply write_rules.
Qed.
Lemma standard_reads : forall dir d c path, ~ In 123%N dir -> ~ In 125%N dir ->
  file_call c = true -> wants_write d c = false -> path_of d c = Str path ->
  (fst (handle (fresh (get_fs [] [] dir) (get_write_fs [])) d c) = Run <->
   exists full, get_full_path (cwd d) (fds d) path (dir_of d c) = Some full
     /\ (base_readable (decimal (pid d)) full \/ Spec.Access.below dir full)).
Proof.
  intros dir d c path H1 H2 Hc Hw Hp. destruct (standard_rules_ok dir (pid d) H1 H2) as [O1 O2].
  rewrite (proj1 (file_call_spec _ _ d c Hc O1 O2)). rewrite Hw, Hp.
  destruct (get_fs_rules (pid d) [] [] dir H1 H2 (Forall_nil _) (Forall_nil _)) as [_ C]. split.
  - intros (s & full & rule & E1 & E2 & E3 & E4). injection E1 as <-. exists full. split; [exact E2|].
    destruct (proj1 (C full)) as [X|[X|(x & [] & _)]]; eauto.
  - intros (full & E & X). destruct (proj2 (C full)) as (rule & I & Y); [tauto|]. exists path, full, rule. auto.
Qed.
Lemma standard_writes : forall dir d c path, ~ In 123%N dir -> ~ In 125%N dir ->
  file_call c = true -> wants_write d c = true -> path_of d c = Str path ->
  (fst (handle (fresh (get_fs [] [] dir) (get_write_fs [])) d c) = Run <->
   exists full w, get_full_path (cwd d) (fds d) path (dir_of d c) = Some full
     /\ In w [B "/dev/stdout"; B "/dev/stderr"; B "/dev/null"] /\ exactly w full).
Proof.
  intros dir d c path H1 H2 Hc Hw Hp. destruct (standard_rules_ok dir (pid d) H1 H2) as [O1 O2].
  rewrite (proj1 (file_call_spec _ _ d c Hc O1 O2)). rewrite Hw, Hp.
  unfold get_write_fs. rewrite app_nil_r. destruct (write_rules (pid d)) as [_ C]. split.
  - intros (s & full & rule & E1 & E2 & E3 & E4). injection E1 as <-.
    destruct (proj1 (C full)) as (w & I & X); [eauto|]. exists full, w. auto.
  - intros (full & w & E & I & X). destruct (proj2 (C full)) as (rule & I' & Y); [eauto|]. exists path, full, rule. auto.
Qed.
Lemma signals : forall r w d c, c = Kill_ \/ c = Tgkill ->
  (fst (handle (fresh r w) d c) = Run <-> uarg d 0 = pid d)
  /\ (fst (handle (fresh r w) d c) <> Run -> fst (handle (fresh r w) d c) = Fail 1).
Proof.
  intros r w d c [-> | ->]; cbn [handle fst]; unfold do_kill; destruct (N.eqb_spec (uarg d 0) (pid d)) as [E|E];
    (split; [split; congruence|]); auto; congruence.
Qed.
Lemma prlimit : forall r w d,
  (fst (handle (fresh r w) d Prlimit64) = Run <-> uarg d 0 = 0%N \/ uarg d 0 = pid d)
  /\ (fst (handle (fresh r w) d Prlimit64) <> Run -> fst (handle (fresh r w) d Prlimit64) = Fail 1).
Proof.
  intros r w d. cbn [handle fst]. unfold do_prlimit.
  destruct (N.eqb_spec (uarg d 0) 0) as [E|E], (N.eqb_spec (uarg d 0) (pid d)) as [F|F]; cbn [orb];
    (split; [split; [intros X; try discriminate X; auto|intros [X|X]; try reflexivity; contradiction]|]); auto; congruence.
Qed.
Lemma prctl : forall r w d,
  (fst (handle (fresh r w) d Prctl) = Run <-> In (arg0 d) [3; 15; 16; 41; 1398164801]%Z)
  /\ (fst (handle (fresh r w) d Prctl) <> Run -> fst (handle (fresh r w) d Prctl) = Kill).
Proof.
  intros r w d. cbn [handle fst]. unfold do_prctl.
  change 0x53564D41%Z with 1398164801%Z.
  destruct (existsb (Z.eqb (arg0 d)) [3; 15; 16; 41; 1398164801]%Z) eqn:E.
  - apply existsb_exists in E. destruct E as (x & I & X). apply Z.eqb_eq in X. subst x.
    split; [split; [intros _; exact I|reflexivity]|congruence].
  - split; [|reflexivity]. split; [discriminate|]. intros I. exfalso.
    assert (existsb (Z.eqb (arg0 d)) [3; 15; 16; 41; 1398164801]%Z = true); [|congruence].
    apply existsb_exists. exists (arg0 d). split; [exact I|apply Z.eqb_refl].
Qed.
Lemma equal_length_hidden : forall p dir a b rest, a <> b -> length a = length b ->
  ~ In 123%N (dir ++ a) -> ~ In 125%N (dir ++ a) -> Spec.Access.below (B "/tmp/") dir ->
  ~ exists rule, In rule (get_fs [] [] (dir ++ a)) /\ covers p rule (dir ++ b ++ rest).
Proof.
  intros p dir a b rest Hne Hl H1 H2 Hd H.
  destruct (get_fs_rules p [] [] (dir ++ a) H1 H2 (Forall_nil _) (Forall_nil _)) as [_ C].
  apply C in H. destruct H as [H|[(t & E)|(x & [] & _)]].
  - apply (hidden (decimal p) (B "/tmp/") (dir ++ b ++ rest)); [cbn; tauto| |exact H].
    destruct Hd as (r & ->). exists (r ++ b ++ rest). rewrite <- app_assoc. reflexivity.
  - rewrite <- app_assoc in E. apply app_inv_head in E. apply Hne. symmetry.
    apply (f_equal (firstn (length b))) in E. rewrite firstn_app, firstn_all, Nat.sub_diag in E. cbn [firstn] in E.
    rewrite app_nil_r in E. rewrite <- Hl in E. rewrite firstn_app, firstn_all, Nat.sub_diag in E. cbn [firstn] in E.
    rewrite app_nil_r in E. exact E.
Qed.
Lemma sibling_refuted :
  ~ forall dir other rest p, other <> dir -> ~ Spec.Access.below (dir ++ [47%N]) other -> Spec.Access.below (B "/tmp/") other ->
      ~ exists rule, In rule (get_fs [] [] dir) /\ covers p rule (other ++ 47%N :: rest).
Proof.
  intros H. apply (H (B "/tmp/ab") (B "/tmp/abc") (B "x") 1%N).
  - discriminate.
  - intros (r & E). discriminate E.
  - exists (B "abc"). reflexivity.
  - exists (escape (B "/tmp/ab")). split; [unfold get_fs; repeat rewrite in_app_iff; right; right; right; left; reflexivity|].
    apply escape_rule; [intros X; vm_compute in X; intuition discriminate|intros X; vm_compute in X; intuition discriminate|].
    exists (B "c/x"). reflexivity.
Qed.
Lemma link_sibling_refuted :
  ~ forall dir src q, link_place dir src = Some q -> q = dir \/ Spec.Access.below (dir ++ [47%N]) q.
Proof.
  intros H. destruct (H (B "/tmp/ab") (B "../abc/x") (B "/tmp/abc/x") eq_refl) as [E|(r & E)]; discriminate E.
Qed.

(** A spelling that starts with another one. *)
Lemma spelled_below : forall d l n, Forall name_ok (d ++ [n]) -> Forall name_ok l ->
  Spec.Access.below (spelled (d ++ [n])) (spelled l) ->
  exists m rest, l = d ++ (n ++ m) :: rest.
Proof.
  assert (K : forall d l n r, Forall name_ok (d ++ [n]) -> Forall name_ok l ->
    concat (map (fun x => 47%N :: x) l) = concat (map (fun x => 47%N :: x) (d ++ [n])) ++ r ->
    exists m rest, l = d ++ (n ++ m) :: rest).
  { assert (Split : forall (x y : list N) u v, ~ In 47%N x -> ~ In 47%N y ->
      (u = [] \/ hd_error u = Some 47%N) -> (v = [] \/ hd_error v = Some 47%N) -> x ++ u = y ++ v -> x = y /\ u = v).
    { induction x as [|a x IH]; intros [|b y] u v Hx Hy Hu Hv E; cbn [app] in E.
      - auto.
      - subst u. destruct Hu as [Hu|Hu]; [discriminate|]. cbn in Hu. injection Hu as ->. destruct Hy. left. reflexivity.
      - subst v. destruct Hv as [Hv|Hv]; [discriminate|]. cbn in Hv. injection Hv as ->. destruct Hx. left. reflexivity.
      - injection E as -> E. destruct (IH y u v) as [-> ->]; auto; intros X; [apply Hx|apply Hy]; right; exact X. }
    assert (Hd : forall l : list (list N), concat (map (fun x => 47%N :: x) l) = [] \/ hd_error (concat (map (fun x => 47%N :: x) l)) = Some 47%N)
      by (intros [|x l]; cbn; auto).
    induction d as [|x d IH]; intros l n r Hn Hl E.
    - cbn [app map concat] in E. rewrite app_nil_r in E. destruct l as [|y l]; [discriminate|].
      cbn [map concat app] in E. injection E as E.
      inversion Hl as [|a b Hy Hl']; subst. inversion Hn as [|a b Hn1 _]; subst.
      (* y ++ rest = n ++ r *)
      assert (exists m, y = n ++ m) as (m & ->).
      { destruct Hn1 as (_ & Hn1 & _ & _). destruct Hy as (_ & Hy & _ & _). clear - E Hn1 Hd.
        revert n Hn1 E. induction y as [|b y IH]; intros [|a n] Hn1 E; cbn [app] in *.
        - exists []. reflexivity.
        - exfalso. destruct (Hd l) as [X|X]; rewrite E in X; [discriminate X|]. injection X as ->. apply Hn1. left. reflexivity.
        - exists (b :: y). reflexivity.
        - injection E as -> E. destruct (IH n) as (m & ->); [intros X; apply Hn1; right; exact X|exact E|]. exists m. reflexivity. }
      exists m, l. reflexivity.
    - destruct l as [|y l]; [discriminate|]. cbn [app map concat] in E. injection E as E. rewrite <- app_assoc in E.
      inversion Hl as [|a b Hy Hl']; subst. inversion Hn as [|a b Hx Hn']; subst.
      destruct (Split y x (concat (map (fun x => 47%N :: x) l)) (concat (map (fun x => 47%N :: x) (d ++ [n])) ++ r)) as [-> E'].
      + apply Hy.
      + apply Hx.
      + apply Hd.
      + destruct d; right; reflexivity.
      + exact E.
      + destruct (IH l n r Hn' Hl' E') as (m & rest & ->). exists m, rest. reflexivity. }
  intros d l n Hn Hl (r & E). apply (K d l n r Hn Hl).
  destruct l as [|y l].
  - exfalso. assert (exists x dn, d ++ [n] = x :: dn) as (x & dn & Ed) by (destruct d; cbn; eauto).
    rewrite Ed in E, Hn. inversion Hn as [|a b (Hx & Hx' & _) _]; subst. cbn in E. injection E as E.
    destruct x; [congruence|discriminate E].
  - destruct (d ++ [n]) eqn:Ed; [destruct d; discriminate|]. exact E.
Qed.
Lemma link_parent : forall d n src q, Forall name_ok (d ++ [n]) ->
  link_place (spelled (d ++ [n])) src = Some q ->
  exists m rest, q = spelled (d ++ (n ++ m) :: rest) /\ Forall name_ok (d ++ (n ++ m) :: rest).
Proof.
  intros d n src q Hn H. apply link_place_spec in H. destruct H as [Hq Hb].
  assert (Hj : exists r, join (spelled (d ++ [n])) src = slash :: r).
  { destruct (split_spelled (d ++ [n]) src Hn) as (s & E & _). rewrite E. destruct (starts_slash src) eqn:Es; [|eauto].
    destruct src as [|c src]; [discriminate|]. apply N.eqb_eq in Es. subst c. eauto. }
  destruct Hj as (r & Hj). rewrite Hj in Hq.
  pose proof (normal_absolute r) as NA. rewrite <- Hq in NA.
  assert (Hok : Forall name_ok (norm_loop true [] (re_split is_slash r))).
  { apply norm_loop_ok; [|constructor]. apply (components_no_slash r). apply split_components. }
  remember (norm_loop true [] (re_split is_slash r)) as l eqn:El.
  assert (Hql : q = spelled l).
  { rewrite <- NA. destruct Hb as (u & Hb).
    assert (exists x c w, spelled (d ++ [n]) = slash :: c :: w /\ is_slash c = false /\ name_ok x) as (x & c & w & Ed & Hc & _).
    { assert (exists x dn, d ++ [n] = x :: dn) as (x & dn & Ed) by (destruct d; cbn; eauto).
      rewrite Ed in *. inversion Hn as [|a b Hx _]; subst a b. destruct x as [|c x]; [destruct Hx; congruence|].
      exists (c :: x), c, (x ++ concat (map (fun n => 47%N :: n) dn)). split; [reflexivity|]. split; [|exact Hx].
      destruct Hx as (_ & Hx & _). apply N.eqb_neq. intros X. apply Hx. left. exact X. }
    rewrite Hb, Ed. cbn [app lstrip_slash]. rewrite Hc. reflexivity. }
  rewrite Hql in Hb. destruct (spelled_below d l n Hn Hok Hb) as (m & rest & E).
  exists m, rest. rewrite <- E. auto.
Qed.
