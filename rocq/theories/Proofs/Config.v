From Coq Require Import String ZifyBool ZifyNat.
From Verif Require Import Model.Bytes Proofs.BytesLemmas Model.Config Spec.Config.
Local Open Scope list_scope.

Lemma find_In k v d : find k d = Some v -> In (k, v) d.
Proof. induction d as [|[k' v'] r IH]; cbn; [discriminate|]. destruct (beqb_spec k k'); [intros E; injection E as ->; subst; auto|auto]. Qed.
Lemma find_None k d : find k d = None <-> forall v, ~ In (k, v) d.
Proof.
  induction d as [|[k' v'] r IH]; cbn; [split; auto|]. destruct (beqb_spec k k') as [->|Hn].
  - split; [discriminate|]. intros H. exfalso. apply (H v'). auto.
  - rewrite IH. split; intros H v; [intros [E|E]; [congruence|apply (H v E)]|intros E; apply (H v); auto].
Qed.
Lemma In_find k v d : NoDup (map fst d) -> In (k, v) d -> find k d = Some v.
Proof.
  induction d as [|[k' v'] r IH]; cbn; [contradiction|]. intros HN. inversion HN; subst. intros [E|E].
  - injection E as -> ->. rewrite beqb_refl. reflexivity.
  - destruct (beqb_spec k k') as [->|Hn]; [|auto]. exfalso. apply H1. apply (in_map fst) in E. exact E.
Qed.
Lemma find_store_same k v d : find k (store k v d) = Some v.
Proof. induction d as [|[k' v'] r IH]; cbn; [rewrite beqb_refl; reflexivity|]. destruct (beqb_spec k k') as [->|Hn]; cbn; [rewrite beqb_refl; reflexivity|]. destruct (beqb_spec k k'); [contradiction|exact IH]. Qed.
Lemma find_store_other k k2 v d : k2 <> k -> find k2 (store k v d) = find k2 d.
Proof.
  intros H. induction d as [|[k' v'] r IH]; cbn; [destruct (beqb_spec k2 k); [contradiction|reflexivity]|].
  destruct (beqb_spec k k') as [->|Hn]; cbn; destruct (beqb_spec k2 k'); try reflexivity; try contradiction. exact IH.
Qed.
Lemma find_remove_other k k2 d : k2 <> k -> find k2 (remove k d) = find k2 d.
Proof.
  intros H. induction d as [|[k' v'] r IH]; cbn; [reflexivity|].
  destruct (beqb_spec k k') as [->|Hn]; cbn; destruct (beqb_spec k2 k'); try reflexivity; try contradiction. exact IH.
Qed.
Lemma find_remove_same k d : NoDup (map fst d) -> find k (remove k d) = None.
Proof.
  induction d as [|[k' v'] r IH]; cbn; [reflexivity|]. intros HN. inversion HN; subst.
  destruct (beqb_spec k k') as [->|Hn]; cbn.
  - apply find_None. intros v Hi. apply H1. apply (in_map fst) in Hi. exact Hi.
  - destruct (beqb_spec k k'); [contradiction|auto].
Qed.
Lemma keys_remove k d x : In x (map fst (remove k d)) -> In x (map fst d).
Proof. induction d as [|[k' v'] r IH]; cbn; [auto|]. destruct (beqb k k'); cbn; intuition. Qed.
Lemma keys_store k v d x : In x (map fst (store k v d)) -> x = k \/ In x (map fst d).
Proof. induction d as [|[k' v'] r IH]; cbn; [intuition|]. destruct (beqb k k'); cbn; intuition. Qed.
Lemma nodup_remove k d : NoDup (map fst d) -> NoDup (map fst (remove k d)).
Proof. induction d as [|[k' v'] r IH]; cbn; [auto|]. intros HN. inversion HN; subst. destruct (beqb k k'); cbn; [assumption|]. constructor; [|auto]. intros X. apply H1. eapply keys_remove, X. Qed.
Lemma nodup_store k v d : NoDup (map fst d) -> NoDup (map fst (store k v d)).
Proof.
  induction d as [|[k' v'] r IH]; cbn; [intros _; constructor; [intros []|constructor]|]. intros HN. inversion HN; subst.
  destruct (beqb_spec k k') as [->|Hn]; cbn; [constructor; assumption|]. constructor; [|auto]. intros X. apply keys_store in X as [->|X]; [contradiction|contradiction].
Qed.
Lemma store_nonempty k v d : truthy (VDict (store k v d)) = true.
Proof. destruct d as [|[k' v'] r]; cbn; [reflexivity|]. destruct (beqb k k'); reflexivity. Qed.

Lemma nth_error_rev {A} (l : list A) i : i < length l -> nth_error (rev l) i = nth_error l (length l - S i).
Proof.
  revert i. induction l as [|x l IH]; intros i H; cbn in *; [lia|]. destruct (Nat.eq_dec i (length l)) as [->|Hn].
  - rewrite nth_error_app2 by (rewrite rev_length; lia). rewrite rev_length, Nat.sub_diag. reflexivity.
  - rewrite nth_error_app1 by (rewrite rev_length; lia). rewrite IH by lia. replace (length l - i) with (S (length l - S i)) by lia. reflexivity.
Qed.
Lemma raw_item_defines raw it v : unique_keys raw -> defines raw it v -> raw_item raw it = Some v.
Proof.
  intros U D. destruct D as [d k v H|l i v H|l i v H]; cbn.
  - apply In_find; assumption.
  - unfold list_index. destruct (0 <=? Z.of_nat i)%Z eqn:E; [rewrite Nat2Z.id; exact H|lia].
  - unfold list_index. destruct (0 <=? - Z.of_nat i - 1)%Z eqn:E; [lia|].
    assert (i < length l) as Hl by (rewrite <- rev_length; apply nth_error_Some; congruence).
    rewrite nth_error_rev in H by exact Hl.
    destruct (0 <=? - Z.of_nat i - 1 + Z.of_nat (length l))%Z eqn:E2; [|lia].
    replace (Z.to_nat (- Z.of_nat i - 1 + Z.of_nat (length l))) with (length l - S i) by lia. exact H.
Qed.
Lemma defines_raw_item raw it v : raw_item raw it = Some v -> defines raw it v.
Proof.
  destruct raw as [|b|z|s|l|d], it as [k|z']; cbn; try discriminate.
  - unfold list_index. destruct (0 <=? z')%Z eqn:E.
    + intros H. replace z' with (Z.of_nat (Z.to_nat z')) by lia. constructor. exact H.
    + destruct (0 <=? z' + Z.of_nat (length l))%Z eqn:E2; [|discriminate]. intros H.
      replace z' with (- Z.of_nat (Z.to_nat (- z' - 1)) - 1)%Z by lia. constructor.
      rewrite nth_error_rev by lia. replace (length l - S (Z.to_nat (- z' - 1))) with (Z.to_nat (z' + Z.of_nat (length l))) by lia. exact H.
  - intros H. constructor. apply find_In, H.
Qed.
Lemma raw_item_undefined raw it : undefined raw it <-> raw_item raw it = None.
Proof.
  split.
  - intros H. destruct (raw_item raw it) eqn:E; [|reflexivity]. exfalso. eapply H, defines_raw_item, E.
  - intros H v D. destruct D as [d k v H'|l i v H'|l i v H']; cbn in H.
    + rewrite find_None in H. eapply H, H'.
    + unfold list_index in H. destruct (0 <=? Z.of_nat i)%Z eqn:E; [rewrite Nat2Z.id in H; congruence|lia].
    + assert (raw_item (VList l) (Index (- Z.of_nat i - 1)) = Some v) as X by (apply raw_item_defines; [exact I|constructor; exact H']). cbn in X. congruence.
Qed.

Lemma nodup_app {A} (a b : list A) : NoDup a -> NoDup b -> (forall x, In x a -> ~ In x b) -> NoDup (a ++ b).
Proof. induction 1 as [|x a Hx Ha IH]; intros Hb H; [exact Hb|]. cbn. constructor; [|apply IH; [exact Hb|intros y Hy; apply H; right; exact Hy]]. intros X. apply in_app_or in X as [X|X]; [contradiction|]. apply (H x); [left; reflexivity|exact X]. Qed.

Section Run.
  Variable run : bool -> value -> chain -> option value.
  Notation getitem := (getitem run).
  Notation resolve := (resolve run).

  Lemma resolve_plain raw ps it : plain_for it raw -> resolve raw ps it = Some (raw, []).
  Proof.
    destruct raw as [|b|z|s|l|d], it as [k|z']; try reflexivity. cbn [plain_for]. intros [H1 H2]. cbn [Config.resolve].
    apply raw_item_undefined in H1, H2. cbn [raw_item] in H1, H2. unfold block_key, expr_key. rewrite H1, H2. reflexivity.
  Qed.
  (** What a resolve does. *)
  Lemma resolve_cases raw ps it raw' ev : resolve raw ps it = Some (raw', ev) ->
    (raw' = raw /\ ev = [] /\ plain_for it raw) \/
    (exists d k kk v, raw = VDict d /\ it = Key k /\ (kk = block_key k \/ (kk = expr_key k /\ find (block_key k) d = None)) /\ find kk d <> None /\ ev = [kk] /\
      raw' = VDict (store k v (remove kk d))).
  Proof.
    destruct raw as [|b|z|s|l|d], it as [k|z']; cbn [resolve]; intros H; try (injection H as <- <-; left; split; [reflexivity|]; split; [reflexivity|]; cbn; auto; split; intros v D; inversion D; fail).
    revert H. unfold Config.resolve. destruct (find (block_key k) d) as [code|] eqn:E1.
    - destruct (run true code _) as [v|]; [|discriminate]. intros H. injection H as <- <-. right. exists d, k, (block_key k), v. repeat split; auto. congruence.
    - destruct (find (expr_key k) d) as [code|] eqn:E2.
      + destruct (run false code _) as [v|]; [|discriminate]. intros H. injection H as <- <-. right. exists d, k, (expr_key k), v. repeat split; auto. congruence.
      + intros H. injection H as <- <-. left. split; [reflexivity|]. split; [reflexivity|]. split; apply raw_item_undefined; assumption.
  Qed.

  (** Proper ancestors are never empty. *)
  Definition solid (c : chain) : Prop := Forall (fun p => truthy p = true) (tl c).
  Lemma solid_inv a p ps : solid (a :: p :: ps) -> truthy p = true /\ solid (p :: ps).
  Proof. intros S. inversion S; subst. split; assumption. Qed.
  Lemma raw_item_truthy raw it v : raw_item raw it = Some v -> truthy raw = true.
  Proof.
    destruct raw as [|b|z|s|[|x l]|[|x d]], it as [k|z']; cbn; try discriminate; auto.
    unfold list_index. destruct (0 <=? z')%Z; [destruct (Z.to_nat z'); discriminate|]. destruct (0 <=? z' + _)%Z; [|discriminate]. destruct (Z.to_nat _); discriminate.
  Qed.
  Lemma resolve_truthy raw ps it raw' ev : resolve raw ps it = Some (raw', ev) -> truthy raw = true -> truthy raw' = true.
  Proof. intros H. apply resolve_cases in H as [[-> _]|[d [k [kk [v [_ [_ [_ [_ [_ ->]]]]]]]]]]; auto. intros _. apply store_nonempty. Qed.
  Lemma getitem_solid it : forall c r c' ev, solid c -> getitem c it = Got r c' ev ->
    solid c' /\ length c' = length c /\ (match c with raw :: _ => truthy raw = true | [] => False end -> match c' with raw :: _ => truthy raw = true | [] => False end) /\
    match r with Sub c1 => solid c1 /\ exists a b, c1 = a :: b | Plain _ => True end.
  Proof.
    induction c as [|raw ps IH]; intros r c' ev S H.
    - cbn in H. injection H as <- <- <-. repeat split; auto; constructor.
    - cbn [Config.getitem] in H. destruct (resolve raw ps it) as [[raw' ev0]|] eqn:Er; [|discriminate].
      pose proof (resolve_truthy _ _ _ _ _ Er) as Ht. destruct (raw_item raw' it) as [v|] eqn:Ei.
      + injection H as <- <- <-. split; [exact S|]. split; [reflexivity|]. split; [exact Ht|].
        unfold wrap. destruct (is_container v); [|exact I]. split; [|eauto]. constructor; [eapply raw_item_truthy, Ei|exact S].
      + destruct ps as [|p ps].
        * injection H as <- <- <-. repeat split; auto; constructor.
        * destruct (solid_inv _ _ _ S) as [Hp S0]. rewrite Hp in H. destruct (getitem (p :: ps) it) as [r2 c2 ev2|] eqn:Eg; [|discriminate]. injection H as <- <- <-.
          destruct (IH _ _ _ S0 eq_refl) as [A [Hlen [C D]]].
          specialize (C Hp). split; [|split; [|split; [exact Ht|exact D]]].
          -- destruct c2 as [|q c2]; [contradiction|]. constructor; [exact C|exact A].
          -- cbn. cbn in Hlen. rewrite Hlen. reflexivity.
  Qed.
  Lemma reachable_solid c : reachable run c -> solid c /\ exists a b, c = a :: b.
  Proof.
    induction 1 as [raw|c it r c' ev _ [S [a [b ->]]] H|c it c1 c' ev _ [S [a [b ->]]] H|c c1 _ [S [a [b ->]]] H].
    - split; [constructor|eauto].
    - destruct (getitem_solid _ _ _ _ _ S H) as [A [Hl _]]. split; [exact A|]. destruct c' as [|x y]; [discriminate|eauto].
    - destruct (getitem_solid _ _ _ _ _ S H) as [_ [_ [_ D]]]. exact D.
    - destruct a as [|bb|z|s|l|d]; cbn in H; try contradiction.
      + apply in_map_iff in H as [v [E Hi]]. unfold wrap in E. destruct (is_container v); [|discriminate]. injection E as <-.
        split; [|eauto]. constructor; [|exact S]. destruct l; [contradiction|reflexivity].
      + apply in_map_iff in H as [v [E Hi]]. discriminate.
  Qed.

  Theorem nearest_solid before : forall raw after it v, solid (before ++ raw :: after) ->
    Forall (fun r => undefined r it) before -> defines raw it v -> unique_keys raw ->
    Forall (plain_for it) (before ++ [raw]) ->
    getitem (before ++ raw :: after) it = Got (wrap v (raw :: after)) (before ++ raw :: after) [].
  Proof.
    induction before as [|r0 before IH]; intros raw after it v S U D K P.
    - cbn. inversion P; subst. rewrite resolve_plain by assumption. rewrite (raw_item_defines _ _ _ K D). reflexivity.
    - inversion U; subst. inversion P; subst. cbn [app Config.getitem]. rewrite resolve_plain by assumption.
      apply raw_item_undefined in H1. rewrite H1.
      assert (solid (before ++ raw :: after)) as S'.
      { unfold solid in S |- *. cbn in S. destruct before; cbn in S |- *; inversion S; assumption. }
      specialize (IH raw after it v S' H2 D K H4).
      destruct (before ++ raw :: after) as [|p q] eqn:E; [destruct before; discriminate|].
      cbn [app] in S; rewrite E in S; destruct (solid_inv _ _ _ S) as [Hp _]. rewrite Hp, IH. reflexivity.
  Qed.
  Theorem none_solid c : forall it, solid c -> Forall (fun r => undefined r it) c -> Forall (plain_for it) c -> getitem c it = Got (Plain Null) c [].
  Proof.
    induction c as [|raw ps IH]; intros it S U P; [reflexivity|]. inversion U; subst. inversion P; subst.
    cbn [Config.getitem]. rewrite resolve_plain by assumption. apply raw_item_undefined in H1. rewrite H1.
    destruct ps as [|p ps]; [reflexivity|]. destruct (solid_inv _ _ _ S) as [Hp S']. rewrite Hp. rewrite IH; [reflexivity|exact S'|assumption|assumption].
  Qed.

  (** Evaluation. *)
  Definition dict_has (raw : value) (k : list N) : Prop := match raw with VDict d => find k d <> None | _ => False end.
  Definition at_depth (c : chain) (i : nat) (k : list N) : Prop := exists before raw after, c = before ++ raw :: after /\ length after = i /\ dict_has raw k.
  Lemma at_depth_cons raw ps i k : at_depth (raw :: ps) i k <-> (i = length ps /\ dict_has raw k) \/ at_depth ps i k.
  Proof.
    split.
    - intros [[|x b] [r [a [E [Hl Hd]]]]].
      + injection E as <- <-. left. auto.
      + injection E as <- ->. right. exists b, r, a. auto.
    - intros [[-> H]|[b [r [a [-> [Hl Hd]]]]]]; [exists [], raw, ps; auto|exists (raw :: b), r, a; auto].
  Qed.
  Lemma at_depth_lt c i k : at_depth c i k -> i < length c.
  Proof. intros [b [r [a [-> [<- _]]]]]. rewrite app_length. cbn. lia. Qed.
  Lemma plus_neq k kk : ~ ends_in_plus k -> ends_in_plus kk -> kk <> k.
  Proof. intros H1 H2 ->. contradiction. Qed.
  Lemma block_plus k : ends_in_plus (block_key k).
  Proof. exists (k ++ B "+"). unfold block_key. rewrite <- app_assoc. reflexivity. Qed.
  Lemma expr_plus k : ends_in_plus (expr_key k).
  Proof. exists k. reflexivity. Qed.
  Lemma block_expr k : block_key k <> expr_key k.
  Proof. unfold block_key, expr_key. intros H. apply app_inv_head in H. discriminate. Qed.
  Lemma suffix_neq (k p : list N) : p <> [] -> k ++ p <> k.
  Proof. intros Hp H. apply (f_equal (@length N)) in H. rewrite app_length in H. destruct p; [contradiction|cbn in H; lia]. Qed.

  Lemma resolve_unique raw ps it raw' ev : resolve raw ps it = Some (raw', ev) -> unique_keys raw -> unique_keys raw'.
  Proof. intros H U. apply resolve_cases in H as [[-> _]|[d [k [kk [v [-> [_ [_ [_ [_ ->]]]]]]]]]]; auto. cbn in *. apply nodup_store, nodup_remove, U. Qed.
  Lemma resolve_effect raw ps k raw' ev : unique_keys raw -> ~ ends_in_plus k -> resolve raw ps (Key k) = Some (raw', ev) ->
    (forall kk, ends_in_plus kk -> dict_has raw' kk -> dict_has raw kk) /\
    (forall kk, In kk ev -> dict_has raw kk /\ ~ dict_has raw' kk /\ ends_in_plus kk) /\ NoDup ev /\
    (ev <> [] -> raw_item raw' (Key k) <> None).
  Proof.
    intros U Hk H. apply resolve_cases in H as [[-> [-> _]]|[d [k0 [kk [v [-> [E [Hkk [Hf [-> ->]]]]]]]]]].
    - split; [auto|]. split; [intros kk []|]. split; [constructor|]. intros X. contradiction.
    - injection E as <-. assert (ends_in_plus kk) as Hp by (destruct Hkk as [->|[-> _]]; [apply block_plus|apply expr_plus]).
      split; [|split; [|split]].
      + intros k2 Hp2. cbn. rewrite find_store_other by (apply plus_neq; assumption). intros X. destruct (beqb_spec k2 kk) as [->|Hn]; [exact Hf|].
        rewrite find_remove_other in X by exact Hn. exact X.
      + intros k2 [<-|[]]. split; [exact Hf|]. split; [|exact Hp]. cbn. rewrite find_store_other by (apply plus_neq; assumption).
        rewrite find_remove_same by exact U. intros X. apply X. reflexivity.
      + constructor; [intros []|constructor].
      + intros _. cbn. rewrite find_store_same. discriminate.
  Qed.
  Lemma getitem_effect k : ~ ends_in_plus k -> forall c r c' ev, Forall unique_keys c -> getitem c (Key k) = Got r c' ev ->
    Forall unique_keys c' /\ (forall i kk, ends_in_plus kk -> at_depth c' i kk -> at_depth c i kk) /\
    (forall i kk, In (i, kk) ev -> at_depth c i kk /\ ~ at_depth c' i kk /\ ends_in_plus kk) /\ NoDup ev /\ length c' = length c.
  Proof.
    intros Hk. induction c as [|raw ps IH]; intros r c' ev U H.
    - cbn in H. injection H as <- <- <-. split; [constructor|]. split; [auto|]. split; [intros i kk []|]. split; [constructor|reflexivity].
    - inversion U; subst. cbn [Config.getitem] in H. destruct (resolve raw ps (Key k)) as [[raw' ev0]|] eqn:Er; [|discriminate].
      pose proof (resolve_unique _ _ _ _ _ Er H2) as U'. pose proof (resolve_effect _ _ _ _ _ H2 Hk Er) as [R1 [R2 [R3 R4]]].
      assert (forall i kk, In (i, kk) (map (fun k0 => (length ps, k0)) ev0) -> i = length ps /\ In kk ev0) as HI.
      { intros i kk X. apply in_map_iff in X as [x [E X]]. injection E as <- <-. auto. }
      assert (NoDup (map (fun k0 : list N => (length ps, k0)) ev0)) as HD.
      { clear -R3. induction R3; cbn; constructor; auto. intros X. apply in_map_iff in X as [y [E X]]. injection E as <-. contradiction. }
      assert (Forall unique_keys (raw' :: ps) /\ (forall i kk, ends_in_plus kk -> at_depth (raw' :: ps) i kk -> at_depth (raw :: ps) i kk) /\
        (forall i kk, In (i, kk) (map (fun k0 => (length ps, k0)) ev0) -> at_depth (raw :: ps) i kk /\ ~ at_depth (raw' :: ps) i kk /\ ends_in_plus kk)) as HH.
      { split; [constructor; assumption|]. split.
        - intros i kk Hp. rewrite !at_depth_cons. intros [[-> X]|X]; [left; auto|right; exact X].
        - intros i kk X. apply HI in X as [-> X]. destruct (R2 _ X) as [X1 [X2 X3]]. rewrite !at_depth_cons. split; [auto|]. split; [|exact X3].
          intros [[_ Y]|Y]; [contradiction|]. apply at_depth_lt in Y. lia. }
      destruct HH as [HH1 [HH2 HH3]].
      destruct (raw_item raw' (Key k)) as [v|] eqn:Ei.
      + injection H as <- <- <-. exact (conj HH1 (conj HH2 (conj HH3 (conj HD eq_refl)))).
      + assert (ev0 = []) as -> by (destruct ev0; [reflexivity|exfalso; apply R4; [discriminate|reflexivity]]). cbn in H.
        destruct ps as [|p ps].
        * injection H as <- <- <-. exact (conj HH1 (conj HH2 (conj HH3 (conj HD eq_refl)))).
        * destruct (truthy p).
          -- destruct (getitem (p :: ps) (Key k)) as [r2 c2 ev2|] eqn:Eg; [|discriminate]. injection H as <- <- <-.
             destruct (IH _ _ _ H3 eq_refl) as [I1 [I2 [I3 [I4 I5]]]].
             split; [constructor; assumption|]. split; [|split; [|split; [exact I4|cbn; rewrite I5; reflexivity]]].
             ++ intros i kk Hp. rewrite (at_depth_cons raw' c2), (at_depth_cons raw (p :: ps)), I5. intros [[-> X]|X]; [left; auto|right; auto].
             ++ intros i kk X. destruct (I3 _ _ X) as [X1 [X2 X3]]. rewrite (at_depth_cons raw' c2), (at_depth_cons raw (p :: ps)), I5. split; [auto|]. split; [|exact X3].
                intros [[-> _]|Y]; [|contradiction]. apply at_depth_lt in X1. cbn in X1. lia.
          -- injection H as <- <- <-. exact (conj HH1 (conj HH2 (conj HH3 (conj HD eq_refl)))).
  Qed.
  Theorem once ks : forall c, Forall unique_keys c -> Forall (fun k => ~ ends_in_plus k) ks ->
    NoDup (snd (reads run c ks)) /\ forall i kk, In (i, kk) (snd (reads run c ks)) -> at_depth c i kk /\ ends_in_plus kk.
  Proof.
    induction ks as [|k ks IH]; intros c U K; [split; [constructor|intros i kk []]|]. inversion K; subst. cbn [reads].
    destruct (getitem c (Key k)) as [r c' ev|] eqn:Eg; [|apply IH; assumption].
    destruct (getitem_effect k H1 _ _ _ _ U Eg) as [E1 [E2 [E3 [E4 _]]]]. destruct (IH c' E1 H2) as [I1 I2].
    destruct (reads run c' ks) as [c2 ev2]. cbn in *. split.
    - apply nodup_app; [exact E4|exact I1|]. intros [i kk] X Y. destruct (E3 i kk X) as [_ [Z _]]. apply Z, I2, Y.
    - intros i kk X. apply in_app_or in X as [X|X]; [destruct (E3 _ _ X) as [A [_ C]]; auto|]. destruct (I2 _ _ X) as [A C]. auto.
  Qed.

  (** Stability. *)
  Inductive settled (k : list N) (v : value) : chain -> Prop :=
  | st_here : forall raw ps, plain_for (Key k) raw -> raw_item raw (Key k) = Some v -> settled k v (raw :: ps)
  | st_up : forall raw ps, plain_for (Key k) raw -> raw_item raw (Key k) = None -> settled k v ps -> settled k v (raw :: ps).
  Inductive settled0 (k : list N) : chain -> Prop :=
  | s0_nil : settled0 k []
  | s0_cons : forall raw ps, plain_for (Key k) raw -> raw_item raw (Key k) = None -> settled0 k ps -> settled0 k (raw :: ps).
  Lemma settled_nonempty k v c : settled k v c -> exists p ps, c = p :: ps.
  Proof. intros H; inversion H; eauto. Qed.
  Lemma settled_read k v c : solid c -> settled k v c -> exists r c', getitem c (Key k) = Got r c' [] /\ value_of r = (if is_container v then or_empty v else v).
  Proof.
    intros S H. revert S. induction H as [raw ps P H|raw ps P H Hs IH]; intros S; cbn [Config.getitem]; rewrite resolve_plain by exact P; rewrite H.
    - eexists. eexists. split; [reflexivity|]. unfold wrap. destruct (is_container v); reflexivity.
    - destruct (settled_nonempty _ _ _ Hs) as [p [ps' ->]]. destruct (solid_inv _ _ _ S) as [Hp S']. rewrite Hp. destruct (IH S') as [r [c' [E V]]]. rewrite E. eauto.
  Qed.
  Lemma settled0_read k c : solid c -> settled0 k c -> getitem c (Key k) = Got (Plain Null) c [].
  Proof.
    intros S H. revert S. induction H as [|raw ps P H Hs IH]; intros S; [reflexivity|]; cbn [Config.getitem]; rewrite resolve_plain by exact P; rewrite H.
    destruct ps as [|p ps]; [reflexivity|]. destruct (solid_inv _ _ _ S) as [Hp S']. rewrite Hp. rewrite (IH S'). reflexivity.
  Qed.
  Definition both_forms (k : list N) (raw : value) : Prop := dict_has raw (block_key k) /\ dict_has raw (expr_key k).
  Lemma plain_find k d : plain_for (Key k) (VDict d) <-> find (block_key k) d = None /\ find (expr_key k) d = None.
  Proof. cbn [plain_for]. rewrite !raw_item_undefined. reflexivity. Qed.
  Lemma undefined_other k raw : match raw with VDict _ => False | _ => True end -> undefined raw (Key k).
  Proof. intros H. apply raw_item_undefined. destruct raw; try reflexivity. contradiction. Qed.
  Lemma resolve_plain_after raw ps k raw' ev : unique_keys raw -> ~ both_forms k raw -> resolve raw ps (Key k) = Some (raw', ev) -> plain_for (Key k) raw'.
  Proof.
    intros U NB H. apply resolve_cases in H as [[-> [_ P]]|[d [k0 [kk [v [-> [E [Hkk [Hf [-> ->]]]]]]]]]]; [exact P|].
    injection E as <-. apply plain_find. assert (block_key k <> k /\ expr_key k <> k) as [N1 N2] by (split; apply suffix_neq; discriminate).
    rewrite !find_store_other by assumption. destruct Hkk as [->|[-> Hb]].
    - rewrite find_remove_same by exact U. split; [reflexivity|]. rewrite find_remove_other by (intros X; symmetry in X; exact (block_expr _ X)).
      destruct (find (expr_key k) d) eqn:E; [|reflexivity]. exfalso. apply NB. split; cbn; congruence.
    - rewrite find_remove_other by apply block_expr. rewrite find_remove_same by exact U. auto.
  Qed.
  Lemma read_settles k : forall c r c' ev, solid c -> Forall unique_keys c -> Forall (fun raw => ~ both_forms k raw) c ->
    getitem c (Key k) = Got r c' ev -> (exists v, settled k v c' /\ value_of r = (if is_container v then or_empty v else v)) \/ (settled0 k c' /\ r = Plain Null).
  Proof.
    induction c as [|raw ps IH]; intros r c' ev S U NB H.
    - cbn in H. injection H as <- <- <-. right. split; [constructor|reflexivity].
    - inversion U; subst. inversion NB; subst. cbn [Config.getitem] in H. destruct (resolve raw ps (Key k)) as [[raw' ev0]|] eqn:Er; [|discriminate].
      pose proof (resolve_plain_after _ _ _ _ _ H2 H4 Er) as P. destruct (raw_item raw' (Key k)) as [v|] eqn:Ei.
      + injection H as <- <- <-. left. exists v. split; [apply st_here; assumption|]. unfold wrap. destruct (is_container v); reflexivity.
      + destruct ps as [|p ps]; [injection H as <- <- <-; right; split; [apply s0_cons; [exact P|exact Ei|constructor]|reflexivity]|].
        destruct (solid_inv _ _ _ S) as [Hp S0]. rewrite Hp in H. destruct (getitem (p :: ps) (Key k)) as [r2 c2 ev2|] eqn:Eg; [|discriminate]. injection H as <- <- <-.
        destruct (IH _ _ _ S0 H3 H5 eq_refl) as [[v [A C]]|[A C]].
        * left. exists v. split; [apply st_up; assumption|exact C].
        * right. split; [apply s0_cons; assumption|exact C].
  Qed.
  (** A read of another key does not disturb what was settled. *)
  Lemma resolve_other k k2 raw ps raw' ev : k2 <> k -> ~ ends_in_plus k2 -> ~ ends_in_plus k -> resolve raw ps (Key k2) = Some (raw', ev) -> plain_for (Key k) raw ->
    plain_for (Key k) raw' /\ raw_item raw' (Key k) = raw_item raw (Key k).
  Proof.
    intros Hn Hp Hpk H P. apply resolve_cases in H as [[-> _]|[d [k0 [kk [v [-> [E [Hkk [Hf [-> ->]]]]]]]]]]; [auto|]. injection E as <-.
    apply plain_find in P as [P1 P2]. assert (ends_in_plus kk) as Hpp by (destruct Hkk as [->|[-> _]]; [apply block_plus|apply expr_plus]).
    split.
    - apply plain_find. rewrite !find_store_other by (apply plus_neq; [assumption|apply block_plus || apply expr_plus]).
      split.
      + destruct (beqb_spec (block_key k) kk) as [<-|X]; [congruence|]. rewrite find_remove_other by exact X. exact P1.
      + destruct (beqb_spec (expr_key k) kk) as [<-|X]; [congruence|]. rewrite find_remove_other by exact X. exact P2.
    - cbn. rewrite find_store_other by congruence. apply find_remove_other. intros ->. contradiction.
  Qed.
  Lemma settled_keep k v k2 : ~ ends_in_plus k2 -> ~ ends_in_plus k -> forall c r c' ev, solid c -> settled k v c -> getitem c (Key k2) = Got r c' ev -> settled k v c'.
  Proof.
    intros Hp2 Hp. induction c as [|raw ps IH]; intros r c' ev S H G; [inversion H|].
    destruct (beqb_spec k2 k) as [->|Hn].
    - assert (forall c, solid c -> settled k v c -> exists r, getitem c (Key k) = Got r c []) as HX.
      { clear. intros c S H. induction H as [raw ps P H|raw ps P H Hs IH]; cbn [Config.getitem]; rewrite resolve_plain by exact P; rewrite H; [eauto|].
        destruct (settled_nonempty _ _ _ Hs) as [p [ps' ->]]. destruct (solid_inv _ _ _ S) as [Hp S']. rewrite Hp. destruct (IH S') as [r E]. rewrite E. eauto. }
      destruct (HX _ S H) as [r0 E]. rewrite E in G. injection G as <- <- <-. exact H.
    - cbn [Config.getitem] in G. destruct (resolve raw ps (Key k2)) as [[raw' ev0]|] eqn:Er; [|discriminate].
      assert (plain_for (Key k) raw) as P by (inversion H; assumption).
      destruct (resolve_other k k2 raw ps raw' ev0 Hn Hp2 Hp Er P) as [P' EI].
      assert (settled k v (raw' :: ps)) as HS.
      { inversion H; subst; [apply st_here; congruence|apply st_up; auto; congruence]. }
      destruct (raw_item raw' (Key k2)); [injection G as <- <- <-; exact HS|].
      destruct ps as [|p ps]; [injection G as <- <- <-; exact HS|]. destruct (solid_inv _ _ _ S) as [Hp0 S0]. rewrite Hp0 in G.
      destruct (getitem (p :: ps) (Key k2)) as [r2 c2 ev2|] eqn:Eg; [|discriminate]. injection G as <- <- <-.
      inversion H; subst; [apply st_here; congruence|]. apply st_up; [exact P'|congruence|]. eapply IH; eauto.
  Qed.
  Lemma settled0_keep k k2 : ~ ends_in_plus k2 -> ~ ends_in_plus k -> forall c r c' ev, solid c -> settled0 k c -> getitem c (Key k2) = Got r c' ev -> settled0 k c' \/ k2 = k.
  Proof.
    intros Hp2 Hp. destruct (beqb_spec k2 k) as [->|Hn]; [auto|]. induction c as [|raw ps IH]; intros r c' ev S H G.
    - cbn in G. injection G as <- <- <-. left. exact H.
    - cbn [Config.getitem] in G. destruct (resolve raw ps (Key k2)) as [[raw' ev0]|] eqn:Er; [|discriminate]. inversion H; subst.
      destruct (resolve_other k k2 raw ps raw' ev0 Hn Hp2 Hp Er H2) as [P' EI].
      assert (settled0 k (raw' :: ps)) as HS by (apply s0_cons; auto; congruence).
      destruct (raw_item raw' (Key k2)); [injection G as <- <- <-; auto|].
      destruct ps as [|p ps]; [injection G as <- <- <-; auto|]. destruct (solid_inv _ _ _ S) as [Hp0 S0]. rewrite Hp0 in G.
      destruct (getitem (p :: ps) (Key k2)) as [r2 c2 ev2|] eqn:Eg; [|discriminate]. injection G as <- <- <-.
      left. apply s0_cons; [exact P'|congruence|]. destruct (IH _ _ _ S0 H4 eq_refl) as [X|X]; [exact X|contradiction].
  Qed.
  Lemma reads_keep k ks : ~ ends_in_plus k -> Forall (fun k => ~ ends_in_plus k) ks -> forall c, solid c ->
    solid (fst (reads run c ks)) /\ (forall v, settled k v c -> settled k v (fst (reads run c ks))) /\ (settled0 k c -> settled0 k (fst (reads run c ks))).
  Proof.
    intros Hp. induction 1 as [|k2 ks Hk Hks IH]; intros c S; [cbn; auto|]. cbn [reads].
    destruct (getitem c (Key k2)) as [r c' ev|] eqn:Eg; [|apply IH; exact S].
    destruct (getitem_solid _ _ _ _ _ S Eg) as [S' _]. destruct (IH c' S') as [A [Hb C]]. destruct (reads run c' ks) as [c2 ev2]. cbn in *.
    split; [exact A|]. split.
    - intros v Hs. apply Hb. exact (settled_keep k v k2 Hk Hp _ _ _ _ S Hs Eg).
    - intros Hs. apply C. destruct (settled0_keep k k2 Hk Hp _ _ _ _ S Hs Eg) as [X| ->]; [exact X|].
      rewrite (settled0_read _ _ S Hs) in Eg. injection Eg as <- <- <-. exact Hs.
  Qed.
  Theorem same_later c k r c1 ev ks r2 c2 ev2 : solid c -> Forall unique_keys c -> Forall (fun raw => ~ both_forms k raw) c ->
    ~ ends_in_plus k -> Forall (fun k => ~ ends_in_plus k) ks ->
    getitem c (Key k) = Got r c1 ev -> getitem (fst (reads run c1 ks)) (Key k) = Got r2 c2 ev2 -> value_of r2 = value_of r /\ ev2 = [].
  Proof.
    intros S U NB Hp Hks G1 G2. destruct (getitem_solid _ _ _ _ _ S G1) as [S1 _].
    destruct (reads_keep k ks Hp Hks c1 S1) as [S2 [K1 K2]].
    destruct (read_settles k c r c1 ev S U NB G1) as [[v [Hs V]]|[Hs ->]].
    - destruct (settled_read k v _ S2 (K1 v Hs)) as [r3 [c3 [E3 V3]]]. rewrite E3 in G2. injection G2 as <- <- <-. rewrite V, V3. auto.
    - rewrite (settled0_read k _ S2 (K2 Hs)) in G2. injection G2 as <- <- <-. auto.
  Qed.
End Run.

(** ** Graders *)
Lemma in_node_dict k d ps : in_node k (VDict d :: ps) = true <-> In k (map fst d).
Proof.
  unfold in_node. cbn. rewrite existsb_exists. split.
  - intros [r [Hi Hr]]. apply in_map_iff in Hi as [[k' v] [<- Hi]]. cbn in Hr. apply beqb_eq in Hr. subst. apply (in_map fst) in Hi. exact Hi.
  - intros H. apply in_map_iff in H as [[k' v] [E H]]. cbn in E. subst. exists (Plain (VStr k)). split; [apply in_map_iff; exists (k, v); auto|]. cbn. apply beqb_refl.
Qed.

(** ** Numbering *)
Section Num.
  Context {A : Type}.
  Implicit Types (x : case_cfg A).
  Lemma resolve_batch a l bn st : @resolve_one A (BatchCfg a l) bn st =
    match resolve_testcases l (S (fst st)) (S (fst st), snd st) with
    | None => None
    | Some (ts, st') => if existsb is_batch ts then None else Some (Batch (S (fst st)) a ts, st')
    end.
  Proof.
    cbn. match goal with |- match ?X with _ => _ end = match ?Y with _ => _ end => replace X with Y; [reflexivity|] end.
    generalize (S (fst st), snd st) as s. generalize (S (fst st)) as b. induction l as [|x l IH]; intros b s; cbn; [reflexivity|].
    destruct (resolve_one x b s) as [[t s1]|]; [|reflexivity]. rewrite IH. reflexivity.
  Qed.
  Definition span (ts : list (test_case A)) (st st' : nat * nat) : Prop :=
    flat_map positions ts = seq (snd st) (snd st' - snd st) /\ flat_map batches ts = seq (S (fst st)) (fst st' - fst st) /\
    fst st <= fst st' /\ snd st <= snd st'.
  Lemma span_app t ts a b c : span [t] a b -> span ts b c -> span (t :: ts) a c.
  Proof.
    unfold span. cbn. rewrite !app_nil_r. intros [P1 [P2 [P3 P4]]] [Q1 [Q2 [Q3 Q4]]]. rewrite P1, P2, Q1, Q2. repeat split; try lia.
    - replace (snd c - snd a) with ((snd b - snd a) + (snd c - snd b)) by lia. rewrite seq_app. f_equal. f_equal. lia.
    - replace (fst c - fst a) with ((fst b - fst a) + (fst c - fst b)) by lia. rewrite seq_app. f_equal. f_equal. lia.
  Qed.
  Fixpoint csize x : nat := match x with CaseCfg _ => 1 | BatchCfg _ l => S (list_sum (map csize l)) end.
  Lemma one_ok n : forall x bn st t st', csize x <= n -> resolve_one x bn st = Some (t, st') ->
    span [t] st st' /\ erase t = x /\ flat_batch x /\
    match t with Case _ b _ => b = bn | Batch k _ l => Forall (fun y => match y with Case _ b _ => b = k | Batch _ _ _ => False end) l end.
  Proof.
    induction n as [|n IH]; intros x bn st t st' Hs H; [destruct x; cbn in Hs; lia|].
    assert (forall l bn st ts st', list_sum (map csize l) <= n -> resolve_testcases l bn st = Some (ts, st') ->
      span ts st st' /\ map erase ts = l /\ Forall (fun t => match t with Case _ b _ => b = bn | Batch _ _ _ => True end) ts) as HL.
    { induction l as [|y l IHl]; intros bn0 st0 ts st0' Hl E; cbn in E.
      - injection E as <- <-. unfold span. cbn. rewrite !Nat.sub_diag. repeat split; auto.
      - destruct (resolve_one y bn0 st0) as [[t1 st1]|] eqn:E1; [|discriminate].
        destruct (resolve_testcases l bn0 st1) as [[ts2 st2]|] eqn:E2; [|discriminate]. injection E as <- <-. change (csize y + list_sum (map csize l) <= n) in Hl.
        destruct (IH y bn0 st0 t1 st1 ltac:(lia) E1) as [P1 [P2 [P3 P4]]]. destruct (IHl bn0 st1 ts2 st2 ltac:(lia) E2) as [Q1 [Q2 Q3]].
        split; [eapply span_app; eassumption|]. split; [cbn; rewrite P2, Q2; reflexivity|]. constructor; [destruct t1; auto|exact Q3]. }
    destruct x as [a|a l].
    - cbn in H. injection H as <- <-. split; [|split; [reflexivity|split; [exact I|reflexivity]]]. unfold span. cbn [flat_map positions batches app fst snd].
      replace (S (snd st) - snd st) with 1 by lia. rewrite Nat.sub_diag. split; [reflexivity|]. split; [reflexivity|]. lia.
    - rewrite resolve_batch in H. destruct (resolve_testcases l (S (fst st)) (S (fst st), snd st)) as [[ts st1]|] eqn:E; [|discriminate].
      destruct (existsb is_batch ts) eqn:Eb; [discriminate|]. injection H as <- <-. change (S (list_sum (map csize l)) <= S n) in Hs.
      destruct (HL l _ _ _ _ ltac:(lia) E) as [[P1 [P2 [P3 P4]]] [Q R]]. cbn [fst snd] in *.
      assert (Forall (fun t => is_batch t = false) ts) as HB.
      { clear -Eb. induction ts as [|t ts IHt]; [constructor|]. cbn in Eb. apply orb_false_iff in Eb as [E1 E2]. constructor; auto. }
      split; [|split; [cbn; rewrite Q; reflexivity|split]].
      + unfold span. cbn. rewrite !app_nil_r, P1, P2. repeat split; try lia.
        replace (fst st1 - fst st) with (S (fst st1 - S (fst st))) by lia. reflexivity.
      + cbn. rewrite <- Q. apply Forall_forall. intros y Hy. apply in_map_iff in Hy as [t [<- Ht]].
        rewrite Forall_forall in HB. specialize (HB _ Ht). destruct t; [eexists; reflexivity|discriminate].
      + apply Forall_forall. intros t Ht. rewrite Forall_forall in HB, R. specialize (HB _ Ht). specialize (R _ Ht). destruct t; [exact R|discriminate].
  Qed.
  Lemma list_ok l : forall bn st ts st', resolve_testcases l bn st = Some (ts, st') ->
      span ts st st' /\ map erase ts = l /\ Forall flat_batch l /\
      Forall (fun t => match t with Case _ b _ => b = bn | Batch k _ l => Forall (fun y => match y with Case _ b _ => b = k | Batch _ _ _ => False end) l end) ts.
  Proof.
    induction l as [|y l IHl]; intros bn st ts st' E; cbn in E.
    - injection E as <- <-. unfold span. cbn. rewrite !Nat.sub_diag. repeat split; auto.
    - destruct (resolve_one y bn st) as [[t1 st1]|] eqn:E1; [|discriminate].
      destruct (resolve_testcases l bn st1) as [[ts2 st2]|] eqn:E2; [|discriminate]. injection E as <- <-.
      destruct (one_ok (csize y) y bn st t1 st1 (le_n _) E1) as [P1 [P2 [P3 P4]]]. destruct (IHl bn st1 ts2 st2 E2) as [Q1 [Q2 [Q3 Q4]]].
      split; [eapply span_app; eassumption|]. split; [cbn; rewrite P2, Q2; reflexivity|]. split; constructor; assumption.
  Qed.
  Theorem numbering (l : list (case_cfg A)) ts : cases l = Some ts ->
    flat_map positions ts = seq 0 (length (flat_map positions ts)) /\ flat_map batches ts = seq 1 (length (flat_map batches ts)) /\
    map erase ts = l /\ Forall in_own_batch ts.
  Proof.
    unfold cases. destruct (resolve_testcases l 0 (0, 0)) as [[ts' st']|] eqn:E; [|discriminate]. intros X. injection X as <-.
    destruct (list_ok l 0 (0, 0) ts' st' E) as [[P1 [P2 _]] [Q [_ R]]]. cbn [fst snd] in *.
    rewrite P1, P2, !seq_length. repeat split; auto. 
  Qed.
  Theorem accepted_iff (l : list (case_cfg A)) : cases l <> None <-> Forall flat_batch l.
  Proof.
    unfold cases. split.
    - destruct (resolve_testcases l 0 (0, 0)) as [[ts' st']|] eqn:E; [|intros X; contradiction]. intros _.
      apply (list_ok l 0 (0, 0) ts' st' E).
    - intros H. assert (forall bn st, resolve_testcases l bn st <> None) as HH.
      { assert (forall (m : list (case_cfg A)), Forall (fun x => exists a, x = CaseCfg a) m -> forall bn st, exists ts st', resolve_testcases m bn st = Some (ts, st') /\ existsb is_batch ts = false) as HM.
        { induction 1 as [|x m [a ->] Hm IH]; intros bn st; [exists [], st; auto|]. cbn. destruct (IH bn (fst st, S (snd st))) as [ts [st' [-> Hb]]]. eexists. eexists. split; [reflexivity|]. exact Hb. }
        induction H as [|x m Hx Hm IH]; intros bn st; [discriminate|]. cbn [resolve_testcases].
        assert (exists t st1, resolve_one x bn st = Some (t, st1)) as [t [st1 ->]].
        { destruct x as [a|a m']; [eexists; eexists; reflexivity|]. rewrite resolve_batch. destruct (HM m' Hx (S (fst st)) (S (fst st), snd st)) as [ts [st' [-> ->]]]. eauto. }
        specialize (IH bn st1). destruct (resolve_testcases m bn st1) as [[ts st2]|]; [discriminate|contradiction]. }
      specialize (HH 0 (0, 0)). destruct (resolve_testcases l 0 (0, 0)) as [[ts st]|]; [discriminate|contradiction].
  Qed.
End Num.
