From Verif Require Import Model.Bytes Model.Cache Spec.Cache Proofs.BytesLemmas.
Local Open Scope list_scope.
Local Open Scope nat_scope.

Lemma lookup_cons : forall A n m (v : A) l, lookup n ((m, v) :: l) = if m =? n then Some v else lookup n l.
Proof. intros. unfold lookup. cbn [find fst]. destruct (m =? n); reflexivity. Qed.
Lemma lookup_removed : forall A n m (l : list (nat * A)), lookup n (removed m l) = if n =? m then None else lookup n l.
Proof.
  intros A n m l. induction l as [|[a v] l IH]; [destruct (n =? m); reflexivity|].
  unfold removed in *. cbn [filter fst]. destruct (a =? m) eqn:E; cbn [negb].
  - rewrite IH. apply Nat.eqb_eq in E. subst a. destruct (n =? m) eqn:F; [reflexivity|]. rewrite lookup_cons, Nat.eqb_sym, F. reflexivity.
  - rewrite !lookup_cons, IH. destruct (a =? n) eqn:G; [|reflexivity]. apply Nat.eqb_eq in G. subst a. rewrite E. reflexivity.
Qed.
Lemma find_key_in : forall k c n, find_key k c = Some n -> In (k, n) c.
Proof.
  intros k c n H. unfold find_key in H. destruct (find _ c) as [[k' m]|] eqn:F; [|discriminate]. injection H as <-.
  apply find_some in F. destruct F as [I E]. cbn [fst] in E. apply beqb_eq in E. subst k'. exact I.
Qed.
Lemma find_key_none : forall k c, find_key k c = None -> ~ In k (map fst c).
Proof.
  intros k c H I. apply in_map_iff in I. destruct I as ([k' n] & E & I). cbn [fst] in E. subst k'. unfold find_key in H.
  destruct (find (fun p => beqb (fst p) k) c) as [[k' m]|] eqn:F; [discriminate|].
  pose proof (find_none _ _ F _ I) as X. cbn [fst] in X. rewrite beqb_refl in X. discriminate.
Qed.
Lemma in_without : forall k c k' n, In (k', n) (without_key k c) <-> In (k', n) c /\ k' <> k.
Proof.
  intros. unfold without_key. rewrite filter_In. cbn [fst]. rewrite Bool.negb_true_iff. split; intros [A C]; split; try assumption.
  - intro X. subst. rewrite beqb_refl in C. discriminate.
  - apply beqb_neq. exact C.
Qed.
Lemma without_keys : forall k c, map fst (without_key k c) = filter (fun x => negb (beqb x k)) (map fst c).
Proof. intros k c. induction c as [|[a n] c IH]; [reflexivity|]. unfold without_key in *. cbn [filter map fst]. destruct (beqb a k); cbn [negb map fst]; rewrite IH; reflexivity. Qed.
Lemma NoDup_map_filter : forall A C (f : A -> C) g l, NoDup (map f l) -> NoDup (map f (filter g l)).
Proof.
  intros A C f g l. induction l as [|x l IH]; intro H; [constructor|]. cbn [map] in H. apply NoDup_cons_iff in H. destruct H as [H1 H2].
  cbn [filter]. destruct (g x); [|apply IH; exact H2]. cbn [map]. constructor; [|apply IH; exact H2].
  intro X. apply H1. apply in_map_iff in X. destruct X as (y & E & I). apply filter_In in I. apply in_map_iff. exists y. split; [exact E|apply I].
Qed.
Lemma NoDup_snd : forall c k k' (n : nat), NoDup (map snd c) -> In (k, n) c -> In (k', n) c -> (k : bytes) = k'.
Proof.
  induction c as [|[a m] c IH]; intros k k' n H I1 I2; [destruct I1|]. cbn [map snd] in H. apply NoDup_cons_iff in H. destruct H as [H1 H2].
  destruct I1 as [I1|I1], I2 as [I2|I2].
  - congruence.
  - exfalso. apply H1. injection I1 as -> ->. apply in_map_iff. exists (k', n). split; [reflexivity|exact I2].
  - exfalso. apply H1. injection I2 as -> ->. apply in_map_iff. exists (k, n). split; [reflexivity|exact I1].
  - exact (IH _ _ _ H2 I1 I2).
Qed.

Lemma nodup_app_l : forall A (a b : list A), NoDup (a ++ b) -> NoDup a.
Proof.
  induction a as [|x a IH]; intros b H; [constructor|]. cbn in H. apply NoDup_cons_iff in H. destruct H as [H1 H2].
  constructor; [intro X; apply H1; apply in_or_app; left; exact X|exact (IH _ H2)].
Qed.
Section Proofs.
  Context {job : Type}.
  Variable key : job -> bytes.
  Variable capacity : nat.
  Hypothesis Cp : 0 < capacity.
  Variable V : bool.   (* nothing vanished so far *)
  Notation state := (state job).
  Notation op := (op job).

  Definition refd (s : state) (n : nat) : Prop := In n (held s) \/ In n (map snd (cache s)).
  (** Everything but that the objects alive are referred to; x may not be. *)
  Record inv (x : nat -> Prop) (s : state) : Prop := {
    A1 : forall n o, lookup n (objs s) = Some o -> n < next s /\ o_dir o < next s;
    A2 : forall n, In n (held s) -> lookup n (objs s) <> None;
    A3 : forall k n, In (k, n) (cache s) -> exists o, lookup n (objs s) = Some o /\ o_dir o = n /\ o_cached o = true;
    A4 : NoDup (map fst (cache s)) /\ length (cache s) <= capacity;
    A5 : forall d y, lookup d (disk s) = Some y -> d < next s;
    A6 : forall k n y, In (k, n) (cache s) -> lookup n (disk s) = Some y -> exists j, y = Some j /\ key j = k;
    A7 : forall n o, lookup n (objs s) = Some o -> o_dir o <> n -> o_cached o = true;
    A8 : V = true -> forall n o, lookup n (objs s) = Some o -> o_dir o = n -> exists j, lookup n (disk s) = Some (Some j);
    A9 : forall n, lookup n (objs s) <> None -> refd s n \/ x n;
    A10 : forall n o y, lookup n (objs s) = Some o -> lookup (o_dir o) (disk s) = Some y -> exists j, y = Some j;
    A11 : NoDup (map snd (cache s)) }.
  Definition never (n : nat) : Prop := False.

  Lemma refd_dec : forall (s : state) n, (existsb (Nat.eqb n) (held s) || existsb (fun p => snd p =? n) (cache s) = true) <-> refd s n.
  Proof.
    intros s n. rewrite Bool.orb_true_iff, !existsb_exists. unfold refd. rewrite in_map_iff. split.
    - intros [(m & I & E)|([k m] & I & E)]; [left; apply Nat.eqb_eq in E; subst; exact I|right; exists (k, m); apply Nat.eqb_eq in E; split; [exact E|exact I]].
    - intros [I|([k m] & E & I)]; [left; exists n; split; [exact I|apply Nat.eqb_refl]|right; exists (k, m); split; [exact I|apply Nat.eqb_eq; exact E]].
  Qed.
  Lemma release_inv : forall s n, inv (fun m => m = n) s -> inv never (release n s).
  Proof.
    intros s n I. unfold release. destruct (existsb (Nat.eqb n) (held s) || existsb (fun p => snd p =? n) (cache s)) eqn:R.
    - apply refd_dec in R. destruct I as [I1 I2 I3 I4 I5 I6 I7 I8 I9 I10 I11]. constructor; try assumption.
      intros m H. destruct (I9 m H) as [X|X]; [left; exact X|left; subst m; exact R].
    - assert (NR : ~ refd s n) by (intro X; apply refd_dec in X; congruence). clear R.
      destruct (lookup n (objs s)) as [o|] eqn:Lo.
      + assert (D : o_cached o = false -> o_dir o = n).
        { intro C. destruct (Nat.eq_dec (o_dir o) n) as [E|E]; [exact E|]. rewrite (A7 _ _ I n o Lo E) in C. discriminate. }
        assert (Dk : forall d, d <> n -> lookup d (if o_cached o then disk s else removed (o_dir o) (disk s)) = lookup d (disk s)).
        { intros d Hd. destruct (o_cached o); [reflexivity|]. rewrite lookup_removed, (D eq_refl). apply Nat.eqb_neq in Hd. rewrite Hd. reflexivity. }
        assert (Dk' : forall d y, lookup d (if o_cached o then disk s else removed (o_dir o) (disk s)) = Some y -> lookup d (disk s) = Some y).
        { intros d y H. destruct (o_cached o); [exact H|]. rewrite lookup_removed in H. destruct (d =? o_dir o); [discriminate|exact H]. }
        assert (Ob : forall m p, lookup m (removed n (objs s)) = Some p -> m <> n /\ lookup m (objs s) = Some p).
        { intros m p H. rewrite lookup_removed in H. destruct (m =? n) eqn:E; [discriminate|]. apply Nat.eqb_neq in E. split; assumption. }
        assert (Ob2 : forall m, m <> n -> lookup m (removed n (objs s)) = lookup m (objs s)).
        { intros m H. rewrite lookup_removed. apply Nat.eqb_neq in H. rewrite H. reflexivity. }
        destruct I as [I1 I2 I3 I4 I5 I6 I7 I8 I9 I10 I11]. constructor; cbn [objs held cache disk next].
        * intros m p H. apply Ob in H. apply I1. apply H.
        * intros m H. rewrite Ob2; [apply I2; exact H|]. intro X. subst m. apply NR. left. exact H.
        * intros k m H. rewrite Ob2; [exact (I3 k m H)|]. intro X. subst m. apply NR. right. apply in_map_iff. exists (k, n). split; [reflexivity|exact H].
        * exact I4.
        * intros d y H. apply Dk' in H. exact (I5 d y H).
        * intros k m y H1 H2. apply Dk' in H2. exact (I6 k m y H1 H2).
        * intros m p H. apply Ob in H. apply I7. apply H.
        * intros Hv m p H E. apply Ob in H. destruct H as [H1 H2]. rewrite Dk by exact H1. exact (I8 Hv m p H2 E).
        * intros m H. destruct (Nat.eq_dec m n) as [E|E]; [subst m; rewrite lookup_removed, Nat.eqb_refl in H; congruence|].
          rewrite Ob2 in H by exact E. destruct (I9 m H) as [X|X]; [left; exact X|congruence].
        * intros m p y H1 H2. apply Ob in H1. apply Dk' in H2. exact (I10 m p y (proj2 H1) H2).
        * exact I11.
      + destruct I as [I1 I2 I3 I4 I5 I6 I7 I8 I9 I10 I11]. constructor; try assumption.
        intros m H. destruct (I9 m H) as [X|X]; [left; exact X|subst m; congruence].
  Qed.
  Lemma inv_weaken : forall x s (y : nat -> Prop), inv x s -> (forall n, x n -> y n) -> inv y s.
  Proof.
    intros x s y [I1 I2 I3 I4 I5 I6 I7 I8 I9 I10 I11] H. constructor; try assumption.
    intros n Hn. destruct (I9 n Hn) as [X|X]; [left; exact X|right; apply H; exact X].
  Qed.

  (** Putting an entry for a fresh object in front of part of the entries. *)
  Lemma put_inv : forall s k n c old j, inv never s -> (forall k' m, In (k', m) c -> In (k', m) (cache s)) -> NoDup (map snd c) -> NoDup (map fst c) ->
    S (length c) <= capacity -> ~ In k (map fst c) -> ~ In n (map snd (cache s)) ->
    (exists o, lookup n (objs s) = Some o /\ o_dir o = n /\ o_cached o = true) -> (lookup n (disk s) = Some (Some j)) -> key j = k ->
    (forall m, In m (map snd (cache s)) -> In m (map snd c) \/ m = old) ->
    inv (fun m => m = old) (with_cache ((k, n) :: c) s).
  Proof.
    intros s k n c old j [I1 I2 I3 I4 I5 I6 I7 I8 I9 I10 I11] Sub Ns Nk L Fk Fn Ho Hd Hk Old. constructor; cbn [with_cache objs held cache disk next]; try assumption.
    - intros k' m [H|H]; [injection H as <- <-; exact Ho|]. exact (I3 k' m (Sub _ _ H)).
    - split; [cbn [map fst]; constructor; assumption|exact L].
    - intros k' m y [H|H] Hy; [injection H as <- <-; exists j; split; [congruence|exact Hk]|]. exact (I6 k' m y (Sub _ _ H) Hy).
    - intros m H. destruct (I9 m H) as [[X|X]|X]; [left; left; exact X| |destruct X].
      destruct (Old m X) as [Y|Y]; [left; right; right; exact Y|right; exact Y].
    - cbn [map snd]. constructor; [|exact Ns]. intro X. apply Fn. apply in_map_iff in X. destruct X as ([k' m] & E & X). cbn [snd] in E. subst m.
      apply in_map_iff. exists (k', n). split; [reflexivity|exact (Sub _ _ X)].
  Qed.
  Lemma without_len : forall k c, NoDup (map fst c) -> In k (map fst c) -> S (length (without_key k c)) = length c.
  Proof.
    intros k c. induction c as [|[a m] c IH]; intros N I; [destruct I|]. cbn [map fst] in N. apply NoDup_cons_iff in N. destruct N as [N1 N2].
    unfold without_key in *. cbn [filter fst]. destruct (beqb a k) eqn:E; cbn [negb length].
    - apply beqb_eq in E. subst a. f_equal. apply f_equal. clear IH I. induction c as [|[b m'] c IH]; [reflexivity|]. cbn [filter fst].
      destruct (beqb b k) eqn:F; [apply beqb_eq in F; subst b; exfalso; apply N1; left; reflexivity|]. cbn [negb]. f_equal. apply IH.
      + intro X. apply N1. right. exact X.
      + cbn [map fst] in N2. apply NoDup_cons_iff in N2. apply N2.
    - f_equal. apply IH; [exact N2|]. destruct I as [I|I]; [|exact I]. cbn [fst] in I. subst a. rewrite beqb_refl in E. discriminate.
  Qed.
  Lemma set_item_inv : forall s k n j, inv never s -> ~ In n (map snd (cache s)) ->
    (exists o, lookup n (objs s) = Some o /\ o_dir o = n /\ o_cached o = true) -> lookup n (disk s) = Some (Some j) -> key j = k ->
    inv never (set_item capacity k n s).
  Proof.
    intros s k n j I Fn Ho Hd Hk. unfold set_item. pose proof (A4 _ _ I) as [Nk Le]. pose proof (A11 _ _ I) as Ns.
    destruct (find_key k (cache s)) as [old|] eqn:F.
    - apply find_key_in in F. apply release_inv. apply (put_inv s k n _ old j); try assumption.
      + intros k' m H. apply in_without in H. apply H.
      + apply NoDup_map_filter. exact Ns.
      + apply NoDup_map_filter. exact Nk.
      + rewrite without_len; [exact Le|exact Nk|apply in_map_iff; exists (k, old); split; [reflexivity|exact F]].
      + rewrite without_keys. intro X. apply filter_In in X. rewrite beqb_refl in X. destruct X as [_ X]. discriminate.
      + intros m H. apply in_map_iff in H. destruct H as ([k' m'] & E & H). cbn [snd] in E. subst m'.
        destruct (beqb_spec k' k) as [X|X].
        * subst k'. right. assert (Q : forall c, NoDup (map fst c) -> forall (a : bytes) (p q : nat), In (a, p) c -> In (a, q) c -> p = q).
          { clear. induction c as [|[b r] c IH]; intros N a p q H1 H2; [destruct H1|]. cbn [map fst] in N. apply NoDup_cons_iff in N. destruct N as [N1 N2].
            destruct H1 as [H1|H1], H2 as [H2|H2]; [congruence| | |exact (IH N2 a p q H1 H2)].
            - injection H1 as -> ->. exfalso. apply N1. apply in_map_iff. exists (a, q). split; [reflexivity|exact H2].
            - injection H2 as -> ->. exfalso. apply N1. apply in_map_iff. exists (a, p). split; [reflexivity|exact H1]. }
          exact (Q _ Nk _ _ _ H F).
        * left. apply in_map_iff. exists (k', m). split; [reflexivity|]. apply in_without. split; assumption.
    - apply find_key_none in F. destruct (length (cache s) <? capacity) eqn:E.
      + apply Nat.ltb_lt in E. apply inv_weaken with (fun m => m = n /\ False); [|intros m [_ []]].
        assert (P : inv (fun m => m = next s) (with_cache ((k, n) :: cache s) s)).
        { apply (put_inv s k n _ (next s) j); try assumption; [intros k' m H; exact H|intros m H; left; exact H]. }
        destruct P as [I1 I2 I3 I4 I5 I6 I7 I8 I9 I10 I11]. constructor; try assumption.
        intros m H. destruct (I9 m H) as [X|X]; [left; exact X|]. exfalso. destruct (lookup m (objs (with_cache ((k, n) :: cache s) s))) as [o|] eqn:Lo; [|congruence].
        destruct (I1 m o Lo) as [Y _]. cbn [with_cache next] in Y. lia.
      + apply Nat.ltb_ge in E. destruct (rev (cache s)) as [|[k0 old] rest] eqn:R.
        { apply (f_equal (@length _)) in R. rewrite rev_length in R. cbn in R. lia. }
        assert (Ce : cache s = rev rest ++ [(k0, old)]) by (rewrite <- (rev_involutive (cache s)), R; reflexivity).
        assert (Fo : ~ In old (map snd (rev rest))).
        { rewrite Ce, map_app in Ns. cbn [map snd] in Ns. apply NoDup_remove_2 in Ns. rewrite app_nil_r in Ns. exact Ns. }
        assert (Lk : forall m, lookup m (objs (cleanup_cache_entry old s)) =
          match lookup m (objs s) with Some o => Some (if m =? old then {| o_dir := o_dir o; o_cached := false |} else o) | None => None end).
        { intro m. cbn [cleanup_cache_entry objs]. clear. induction (objs s) as [|[a o] l IH]; [reflexivity|]. cbn [map fst].
          destruct (a =? old) eqn:X.
          - apply Nat.eqb_eq in X. subst a. cbn [snd]. rewrite !lookup_cons, IH. destruct (old =? m) eqn:Y; [|reflexivity].
            apply Nat.eqb_eq in Y. subst m. rewrite Nat.eqb_refl. reflexivity.
          - rewrite !lookup_cons, IH. destruct (a =? m) eqn:Y; [|reflexivity]. apply Nat.eqb_eq in Y. subst m. rewrite X. reflexivity. }
        assert (Io : exists oo, lookup old (objs s) = Some oo /\ o_dir oo = old /\ o_cached oo = true).
        { apply (A3 _ _ I k0). rewrite Ce. apply in_or_app. right. left. reflexivity. }
        assert (Nn : n <> old). { intro X. subst n. apply Fn. apply in_map_iff. exists (k0, old). split; [reflexivity|]. rewrite Ce. apply in_or_app. right. left. reflexivity. }
        (* the state after the callback, with the last entry still in *)
        apply release_inv. destruct I as [I1 I2 I3 I4 I5 I6 I7 I8 I9 I10 I11].
        assert (Sub : forall k' m, In (k', m) (rev rest) -> In (k', m) (cache s)) by (intros; rewrite Ce; apply in_or_app; left; assumption).
        constructor; cbn [with_cache cleanup_cache_entry held cache disk next].
        * intros m o H. change (objs (with_cache ((k, n) :: rev rest) (cleanup_cache_entry old s))) with (objs (cleanup_cache_entry old s)) in H. rewrite Lk in H.
          destruct (lookup m (objs s)) as [o'|] eqn:X; [|discriminate]. destruct (I1 m o' X) as [Y1 Y2]. injection H as <-. destruct (m =? old); split; assumption.
        * intros m H. change (objs (with_cache ((k, n) :: rev rest) (cleanup_cache_entry old s))) with (objs (cleanup_cache_entry old s)). rewrite Lk.
          specialize (I2 m H). destruct (lookup m (objs s)); [discriminate|congruence].
        * intros k' m H. change (objs (with_cache ((k, n) :: rev rest) (cleanup_cache_entry old s))) with (objs (cleanup_cache_entry old s)). rewrite Lk.
          assert (Y : m <> old /\ exists o, lookup m (objs s) = Some o /\ o_dir o = m /\ o_cached o = true).
          { destruct H as [H|H]; [injection H as <- <-; split; [exact Nn|exact Ho]|]. split; [|exact (I3 k' m (Sub _ _ H))].
            intro X. subst m. apply Fo. apply in_map_iff. exists (k', old). split; [reflexivity|exact H]. }
          destruct Y as (Y & o & -> & Y1 & Y2). apply Nat.eqb_neq in Y. rewrite Y. exists o. split; [reflexivity|]. split; assumption.
        * split.
          -- cbn [map fst]. constructor.
             ++ intro X. apply F. rewrite Ce, map_app. apply in_or_app. left. exact X.
             ++ rewrite Ce, map_app in Nk. apply nodup_app_l in Nk. exact Nk.
          -- rewrite Ce, app_length in Le. cbn [length] in Le |- *. lia.
        * exact I5.
        * intros k' m y [H|H] Hy; [injection H as <- <-; exists j; split; [congruence|exact Hk]|]. exact (I6 k' m y (Sub _ _ H) Hy).
        * intros m o H E1. change (objs (with_cache ((k, n) :: rev rest) (cleanup_cache_entry old s))) with (objs (cleanup_cache_entry old s)) in H. rewrite Lk in H.
          destruct (lookup m (objs s)) as [o'|] eqn:X; [|discriminate]. injection H as <-. destruct (m =? old) eqn:Y; [|exact (I7 m o' X E1)].
          cbn [o_dir] in E1. apply Nat.eqb_eq in Y. subst m. destruct Io as (oo & X1 & X2 & _). congruence.
        * intros Hv m o H E1. change (objs (with_cache ((k, n) :: rev rest) (cleanup_cache_entry old s))) with (objs (cleanup_cache_entry old s)) in H. rewrite Lk in H.
          destruct (lookup m (objs s)) as [o'|] eqn:X; [|discriminate]. injection H as <-. apply (I8 Hv m o' X). destruct (m =? old); exact E1.
        * intros m H. change (objs (with_cache ((k, n) :: rev rest) (cleanup_cache_entry old s))) with (objs (cleanup_cache_entry old s)) in H. rewrite Lk in H.
          destruct (lookup m (objs s)) as [o'|] eqn:X; [|congruence]. destruct (I9 m) as [[Y|Y]|[]]; [congruence|left; left; exact Y|].
          rewrite Ce, map_app in Y. apply in_app_or in Y. destruct Y as [Y|[Y|[]]]; [left; right; right; exact Y|right; symmetry; exact Y].
        * intros m o y H Hy. change (objs (with_cache ((k, n) :: rev rest) (cleanup_cache_entry old s))) with (objs (cleanup_cache_entry old s)) in H. rewrite Lk in H.
          destruct (lookup m (objs s)) as [o'|] eqn:X; [|discriminate]. injection H as <-. apply (I10 m o' y X). destruct (m =? old); exact Hy.
        * cbn [map snd]. constructor.
          -- intro X. apply Fn. rewrite Ce, map_app. apply in_or_app. left. exact X.
          -- rewrite Ce, map_app in Ns. apply nodup_app_l in Ns. exact Ns.
  Qed.

  Lemma touch_inv : forall s k n, inv never s -> In (k, n) (cache s) -> inv never (touch k n s).
  Proof.
    intros s k n [I1 I2 I3 I4 I5 I6 I7 I8 I9 I10 I11] H. destruct I4 as [Nk Le].
    assert (Sub : forall k' m, In (k', m) ((k, n) :: without_key k (cache s)) -> In (k', m) (cache s)).
    { intros k' m [X|X]; [injection X as <- <-; exact H|]. apply in_without in X. apply X. }
    constructor; cbn [touch with_cache objs held cache disk next]; try assumption.
    - intros k' m X. exact (I3 k' m (Sub _ _ X)).
    - split.
      + cbn [map fst]. constructor; [|apply NoDup_map_filter; exact Nk]. rewrite without_keys. intro X. apply filter_In in X. rewrite beqb_refl in X. destruct X as [_ X]. discriminate.
      + cbn [length]. rewrite without_len; [exact Le|exact Nk|]. apply in_map_iff. exists (k, n). split; [reflexivity|exact H].
    - intros k' m y X. exact (I6 k' m y (Sub _ _ X)).
    - intros m X. destruct (I9 m X) as [[Y|Y]|[]]; [left; left; exact Y|]. left. right. cbn [touch with_cache cache map snd].
      apply in_map_iff in Y. destruct Y as ([k' m'] & E & Y). cbn [snd] in E. subst m'.
      destruct (beqb_spec k' k) as [Z|Z].
      + subst k'. left. assert (Q : forall c, NoDup (map fst c) -> forall (a : bytes) (p q : nat), In (a, p) c -> In (a, q) c -> p = q).
        { clear. induction c as [|[b r] c IH]; intros N a p q H1 H2; [destruct H1|]. cbn [map fst] in N. apply NoDup_cons_iff in N. destruct N as [N1 N2].
          destruct H1 as [H1|H1], H2 as [H2|H2]; [congruence| | |exact (IH N2 a p q H1 H2)].
          - injection H1 as -> ->. exfalso. apply N1. apply in_map_iff. exists (a, q). split; [reflexivity|exact H2].
          - injection H2 as -> ->. exfalso. apply N1. apply in_map_iff. exists (a, p). split; [reflexivity|exact H1]. }
        exact (Q _ Nk _ _ _ H Y).
      + right. apply in_map_iff. exists (k', m). split; [reflexivity|]. apply in_without. split; assumption.
    - cbn [map snd]. constructor; [|apply NoDup_map_filter; exact I11]. intro X. apply in_map_iff in X. destruct X as ([k' m'] & E & X). cbn [snd] in E. subst m'.
      apply in_without in X. destruct X as [X Y]. apply Y. exact (NoDup_snd _ _ _ _ I11 X H).
  Qed.
  Lemma fresh_cache : forall x s, inv x s -> ~ In (next s) (map snd (cache s)).
  Proof.
    intros x s I X. apply in_map_iff in X. destruct X as ([k m] & E & X). cbn [snd] in E. subst m.
    destruct (A3 _ _ I _ _ X) as (o & L & _). destruct (A1 _ _ I _ _ L) as [Y _]. lia.
  Qed.
  Lemma create_inv : forall s j cached ok, inv never s -> inv never (fst (create key capacity j cached ok s)).
  Proof.
    intros s j cached ok I. unfold create. pose proof (fresh_cache _ _ I) as Fc.
    destruct I as [I1 I2 I3 I4 I5 I6 I7 I8 I9 I10 I11]. destruct ok; cbn [fst].
    - set (s1 := {| objs := _; held := _; cache := _; disk := _; next := _ |}).
      assert (J : inv never s1).
      { constructor; unfold s1; cbn [objs held cache disk next]; try assumption.
        - intros m o H. rewrite lookup_cons in H. destruct (next s =? m) eqn:E.
          + apply Nat.eqb_eq in E. injection H as <-. cbn [o_dir]. lia.
          + destruct (I1 m o H). lia.
        - intros m [H|H]; rewrite lookup_cons; [subst m; rewrite Nat.eqb_refl; discriminate|]. destruct (next s =? m); [discriminate|apply I2; exact H].
        - intros k m H. rewrite lookup_cons. destruct (next s =? m) eqn:E; [|exact (I3 k m H)]. apply Nat.eqb_eq in E. subst m.
          exfalso. apply Fc. apply in_map_iff. exists (k, next s). split; [reflexivity|exact H].
        - intros d y H. rewrite lookup_cons in H. destruct (next s =? d) eqn:E; [apply Nat.eqb_eq in E; lia|]. specialize (I5 d y H). lia.
        - intros k m y H H2. rewrite lookup_cons in H2. destruct (next s =? m) eqn:E; [|exact (I6 k m y H H2)]. apply Nat.eqb_eq in E. subst m.
          exfalso. apply Fc. apply in_map_iff. exists (k, next s). split; [reflexivity|exact H].
        - intros m o H H2. rewrite lookup_cons in H. destruct (next s =? m) eqn:E; [|exact (I7 m o H H2)]. injection H as <-. cbn [o_dir] in H2. apply Nat.eqb_eq in E. congruence.
        - intros Hv m o H H2. rewrite lookup_cons in H |- *. destruct (next s =? m) eqn:E; [exists j; reflexivity|]. exact (I8 Hv m o H H2).
        - intros m H. rewrite lookup_cons in H. destruct (next s =? m) eqn:E; [apply Nat.eqb_eq in E; left; left; left; exact E|].
          destruct (I9 m H) as [[X|X]|[]]; [left; left; right; exact X|left; right; exact X].
        - intros m o y H H2. rewrite lookup_cons in H, H2. destruct (next s =? m) eqn:E.
          + injection H as <-. cbn [o_dir] in H2. rewrite Nat.eqb_refl in H2. injection H2 as <-. exists j. reflexivity.
          + destruct (next s =? o_dir o) eqn:E2; [injection H2 as <-; exists j; reflexivity|]. exact (I10 m o y H H2). }
      destruct cached; [|exact J]. apply (set_item_inv s1 (key j) (next s) j J).
      + exact Fc.
      + eexists. unfold s1. cbn [objs]. rewrite lookup_cons, Nat.eqb_refl. split; [reflexivity|]. split; reflexivity.
      + unfold s1. cbn [disk]. rewrite lookup_cons, Nat.eqb_refl. reflexivity.
      + reflexivity.
    - assert (Dk : forall d y, d <> next s -> lookup d (if cached then (next s, None) :: disk s else disk s) = Some y <-> lookup d (disk s) = Some y).
      { intros d y H. destruct cached; [|reflexivity]. rewrite lookup_cons. apply Nat.neq_sym in H. apply Nat.eqb_neq in H. rewrite H. reflexivity. }
      constructor; cbn [objs held cache disk next]; try assumption.
      + intros m o H. destruct (I1 m o H). lia.
      + intros d y H. destruct (Nat.eq_dec d (next s)) as [E|E]; [lia|]. apply Dk in H; [|exact E]. specialize (I5 d y H). lia.
      + intros k m y H H2. destruct (Nat.eq_dec m (next s)) as [E|E].
        * subst m. exfalso. apply Fc. apply in_map_iff. exists (k, next s). split; [reflexivity|exact H].
        * apply Dk in H2; [|exact E]. exact (I6 k m y H H2).
      + intros Hv m o H H2. destruct (I8 Hv m o H H2) as (j' & X). exists j'. apply Dk; [|exact X]. destruct (I1 m o H). lia.
      + intros m o y H H2. apply Dk in H2; [exact (I10 m o y H H2)|]. destruct (I1 m o H). lia.
  Qed.
  Lemma compile_inv : forall s j cached ok, inv never s -> inv never (fst (compile key capacity j cached ok s)).
  Proof.
    intros s j cached ok I. unfold compile. destruct cached; [|apply create_inv; exact I].
    destruct (find_key (key j) (cache s)) as [e|] eqn:F; [|apply create_inv; exact I].
    apply find_key_in in F. pose proof (touch_inv s (key j) e I F) as T. set (s1 := touch (key j) e s) in *. clearbody s1.
    destruct (lookup e (objs s1)) as [o|] eqn:Lo; [|apply create_inv; exact T].
    destruct (lookup (o_dir o) (disk s1)) as [[j'|]|] eqn:Ld; [|apply create_inv; exact T|apply create_inv; exact T].
    pose proof (fresh_cache _ _ T) as Fc. pose proof (A1 _ _ T e o Lo) as [Le Ldir].
    destruct T as [I1 I2 I3 I4 I5 I6 I7 I8 I9 I10 I11]. constructor; cbn [fst objs held cache disk next]; try assumption.
    - intros m p H. rewrite lookup_cons in H. destruct (next s1 =? m) eqn:E.
      + apply Nat.eqb_eq in E. injection H as <-. cbn [o_dir]. lia.
      + destruct (I1 m p H). lia.
    - intros m [H|H]; rewrite lookup_cons; [subst m; rewrite Nat.eqb_refl; discriminate|]. destruct (next s1 =? m); [discriminate|apply I2; exact H].
    - intros k m H. rewrite lookup_cons. destruct (next s1 =? m) eqn:E; [|exact (I3 k m H)]. apply Nat.eqb_eq in E. subst m.
      exfalso. apply Fc. apply in_map_iff. exists (k, next s1). split; [reflexivity|exact H].
    - intros d y H. specialize (I5 d y H). lia.
    - intros m p H H2. rewrite lookup_cons in H. destruct (next s1 =? m) eqn:E; [|exact (I7 m p H H2)]. injection H as <-. reflexivity.
    - intros Hv m p H H2. rewrite lookup_cons in H. destruct (next s1 =? m) eqn:E; [|exact (I8 Hv m p H H2)]. injection H as <-. cbn [o_dir] in H2. apply Nat.eqb_eq in E. lia.
    - intros m H. rewrite lookup_cons in H. destruct (next s1 =? m) eqn:E; [apply Nat.eqb_eq in E; left; left; left; exact E|].
      destruct (I9 m H) as [[X|X]|[]]; [left; left; right; exact X|left; right; exact X].
    - intros m p y H H2. rewrite lookup_cons in H. destruct (next s1 =? m) eqn:E; [|exact (I10 m p y H H2)]. injection H as <-. cbn [o_dir] in H2. exists j'. congruence.
  Qed.
  Lemma step_inv : forall s o, inv never s -> (V = true -> forall d, o <> Vanish d) -> inv never (step key capacity s o).
  Proof.
    intros s o I NV. destruct o as [j cached ok|n|d]; cbn [step].
    - apply compile_inv. exact I.
    - apply release_inv. destruct I as [I1 I2 I3 I4 I5 I6 I7 I8 I9 I10 I11]. constructor; cbn [objs held cache disk next]; try assumption.
      + intros m H. apply filter_In in H. apply I2. apply H.
      + intros m H. destruct (I9 m H) as [[X|X]|[]]; [|left; right; exact X]. destruct (Nat.eq_dec m n) as [E|E]; [right; exact E|].
        left. left. cbn [held]. apply filter_In. split; [exact X|]. apply Nat.eqb_neq in E. rewrite E. reflexivity.
    - assert (Dk : forall a y, lookup a (removed d (disk s)) = Some y -> lookup a (disk s) = Some y).
      { intros a y H. rewrite lookup_removed in H. destruct (a =? d); [discriminate|exact H]. }
      destruct I as [I1 I2 I3 I4 I5 I6 I7 I8 I9 I10 I11]. constructor; cbn [objs held cache disk next]; try assumption.
      + intros a y H. apply Dk in H. exact (I5 a y H).
      + intros k n y H H2. apply Dk in H2. exact (I6 k n y H H2).
      + intros Hv. exfalso. exact (NV Hv d eq_refl).
      + intros n o y H H2. apply Dk in H2. exact (I10 n o y H H2).
  Qed.
  Lemma start_inv : inv never start.
  Proof.
    constructor; cbn [start objs held cache disk next map].
    - intros n o H. discriminate.
    - intros n [].
    - intros k n [].
    - split; [constructor|cbn; lia].
    - intros d y H. discriminate.
    - intros k n y [].
    - intros n o H. discriminate.
    - intros _ n o H. discriminate.
    - intros n H. exfalso. apply H. reflexivity.
    - intros n o y H. discriminate.
    - constructor.
  Qed.
  Lemma run_inv : forall l, (V = true -> no_vanish l) -> inv never (run key capacity l).
  Proof.
    intros l NV. unfold run. assert (G : forall l s, inv never s -> (V = true -> no_vanish l) -> inv never (fold_left (step key capacity) l s)).
    { clear l NV. induction l as [|o l IH]; intros s I NV; [exact I|]. cbn [fold_left]. apply IH.
      - apply step_inv; [exact I|]. intros Hv d E. subst o. exact (NV Hv d (or_introl eq_refl)).
      - intros Hv d H. exact (NV Hv d (or_intror H)). }
    apply G; [exact start_inv|exact NV].
  Qed.
End Proofs.

(** ** What never changes *)
Section Frame.
  Context {job : Type}.
  Variable key : job -> bytes.
  Variable capacity : nat.
  Notation state := (state job).
  Definition frame (s s' : state) : Prop :=
    next s <= next s'
    /\ (forall n o', n < next s -> lookup n (objs s') = Some o' -> exists o, lookup n (objs s) = Some o /\ o_dir o = o_dir o')
    /\ (forall d y, d < next s -> lookup d (disk s') = Some y -> lookup d (disk s) = Some y).
  Lemma frame_refl : forall s, frame s s.
  Proof. intro s. split; [lia|]. split; [intros n o' _ H; exists o'; split; [exact H|reflexivity]|intros d y _ H; exact H]. Qed.
  Lemma frame_trans : forall a b c, frame a b -> frame b c -> frame a c.
  Proof.
    intros a b c (A1 & A2 & A3) (B1 & B2 & B3). split; [lia|]. split.
    - intros n o' L H. destruct (B2 n o') as (o1 & X & Y); [lia|exact H|]. destruct (A2 n o1 L X) as (o2 & Z & W). exists o2. split; [exact Z|congruence].
    - intros d y L H. apply A3; [exact L|]. apply B3; [lia|exact H].
  Qed.
  Lemma release_frame : forall n s, frame s (release n s).
  Proof.
    intros n s. unfold release. destruct (_ || _); [apply frame_refl|]. destruct (lookup n (objs s)) as [o|]; [|apply frame_refl].
    split; [cbn; lia|]. cbn [objs disk]. split.
    - intros m o' _ H. rewrite lookup_removed in H. destruct (m =? n); [discriminate|]. exists o'. split; [exact H|reflexivity].
    - intros d y _ H. destruct (o_cached o); [exact H|]. rewrite lookup_removed in H. destruct (d =? o_dir o); [discriminate|exact H].
  Qed.
  Lemma cleanup_frame : forall n s, frame s (cleanup_cache_entry n s).
  Proof.
    intros n s. split; [cbn; lia|]. split; [|intros d y _ H; exact H]. intros m o' _ H. cbn [cleanup_cache_entry objs] in H.
    induction (objs s) as [|[a o] l IH]; [discriminate|]. cbn [map fst] in H. rewrite lookup_cons. destruct (a =? n) eqn:E; cbn [snd] in H; rewrite lookup_cons in H.
    - apply Nat.eqb_eq in E. subst a. destruct (n =? m) eqn:F; [|apply IH; exact H]. injection H as <-. exists o. split; reflexivity.
    - destruct (a =? m) eqn:F; [|apply IH; exact H]. injection H as <-. exists o. split; reflexivity.
  Qed.
  Lemma with_cache_frame : forall c s, frame s (with_cache c s).
  Proof. intros c s. exact (frame_refl s). Qed.
  Lemma set_item_frame : forall k n s, frame s (set_item capacity k n s).
  Proof.
    intros k n s. unfold set_item. destruct (find_key k (cache s)) as [old|].
    - apply frame_trans with (with_cache ((k, n) :: without_key k (cache s)) s); [apply with_cache_frame|apply release_frame].
    - destruct (length (cache s) <? capacity); [apply with_cache_frame|]. destruct (rev (cache s)) as [|[k0 old] rest]; [apply with_cache_frame|].
      apply frame_trans with (cleanup_cache_entry old s); [apply cleanup_frame|].
      apply frame_trans with (with_cache ((k, n) :: rev rest) (cleanup_cache_entry old s)); [apply with_cache_frame|apply release_frame].
  Qed.
  Lemma create_frame : forall j cached ok s, frame s (fst (create key capacity j cached ok s)).
  Proof.
    intros j cached ok s. unfold create. destruct ok; cbn [fst].
    - set (s1 := {| objs := _; held := _; cache := _; disk := _; next := _ |}). assert (F : frame s s1).
      { unfold s1. split; [cbn; lia|]. cbn [objs disk]. split.
        - intros n o' L H. rewrite lookup_cons in H. destruct (next s =? n) eqn:E; [apply Nat.eqb_eq in E; lia|]. exists o'. split; [exact H|reflexivity].
        - intros d y L H. rewrite lookup_cons in H. destruct (next s =? d) eqn:E; [apply Nat.eqb_eq in E; lia|exact H]. }
      destruct cached; [|exact F]. apply frame_trans with s1; [exact F|apply set_item_frame].
    - split; [cbn; lia|]. cbn [objs disk]. split; [intros n o' _ H; exists o'; split; [exact H|reflexivity]|].
      intros d y L H. destruct cached; [|exact H]. rewrite lookup_cons in H. destruct (next s =? d) eqn:E; [apply Nat.eqb_eq in E; lia|exact H].
  Qed.
  Lemma compile_frame : forall j cached ok s, frame s (fst (compile key capacity j cached ok s)).
  Proof.
    intros j cached ok s. unfold compile. destruct cached; [|apply create_frame]. destruct (find_key (key j) (cache s)) as [e|]; [|apply create_frame].
    assert (T : frame s (touch (key j) e s)) by apply with_cache_frame. set (s1 := touch (key j) e s) in *. clearbody s1.
    destruct (lookup e (objs s1)) as [o|]; [|exact (frame_trans _ _ _ T (create_frame _ _ _ _))].
    destruct (lookup (o_dir o) (disk s1)) as [[j'|]|]; [|exact (frame_trans _ _ _ T (create_frame _ _ _ _))|exact (frame_trans _ _ _ T (create_frame _ _ _ _))].
    apply frame_trans with s1; [exact T|]. split; [cbn; lia|]. cbn [fst objs disk]. split; [|intros d y _ H; exact H].
    intros n o' L H. rewrite lookup_cons in H. destruct (next s1 =? n) eqn:E; [apply Nat.eqb_eq in E; lia|]. exists o'. split; [exact H|reflexivity].
  Qed.
  Lemma step_frame : forall s o, frame s (step key capacity s o).
  Proof.
    intros s [j cached ok|n|d]; cbn [step]; [apply compile_frame| |].
    - eapply frame_trans; [|apply release_frame]. split; [cbn; lia|]. split; [intros m o' _ H; exists o'; split; [exact H|reflexivity]|intros a y _ H; exact H].
    - split; [cbn; lia|]. split; [intros m o' _ H; exists o'; split; [exact H|reflexivity]|]. intros a y _ H. cbn [disk] in H. rewrite lookup_removed in H. destruct (a =? d); [discriminate|exact H].
  Qed.
  Lemma fold_frame : forall l s, frame s (fold_left (step key capacity) l s).
  Proof. induction l as [|o l IH]; intro s; [apply frame_refl|]. cbn [fold_left]. exact (frame_trans _ _ _ (step_frame s o) (IH _)). Qed.

  Lemma release_held : forall n (s : state), held (release n s) = held s /\ cache (release n s) = cache s.
  Proof. intros n s. unfold release. destruct (_ || _); [split; reflexivity|]. destruct (lookup n (objs s)); split; reflexivity. Qed.
  Lemma set_item_held : forall k n (s : state), held (set_item capacity k n s) = held s.
  Proof.
    intros k n s. unfold set_item. destruct (find_key k (cache s)); [rewrite (proj1 (release_held _ _)); reflexivity|].
    destruct (length (cache s) <? capacity); [reflexivity|]. destruct (rev (cache s)) as [|[k0 old] rest]; [reflexivity|]. rewrite (proj1 (release_held _ _)). reflexivity.
  Qed.
  Lemma create_held : forall j cached ok (s : state), held (fst (create key capacity j cached ok s)) = (if ok then [next s] else []) ++ held s.
  Proof.
    intros j cached ok s. unfold create. destruct ok; cbn [fst]; [|reflexivity]. destruct cached; [|reflexivity]. rewrite set_item_held. reflexivity.
  Qed.
  Lemma compile_held : forall j cached ok (s : state) n, In n (held s) -> In n (held (fst (compile key capacity j cached ok s))).
  Proof.
    intros j cached ok s n H. unfold compile. assert (C : forall s, In n (held s) -> In n (held (fst (create key capacity j cached ok s)))).
    { intros s0 H0. rewrite create_held. apply in_or_app. right. exact H0. }
    destruct cached; [|apply C; exact H]. destruct (find_key (key j) (cache s)) as [e|]; [|apply C; exact H].
    destruct (lookup e (objs (touch (key j) e s))) as [o|]; [|apply C; exact H].
    destruct (lookup (o_dir o) (disk (touch (key j) e s))) as [[j'|]|]; [|apply C; exact H|apply C; exact H]. right. exact H.
  Qed.
  Lemma step_held : forall s o n, In n (held s) -> o <> Drop n -> In n (held (step key capacity s o)).
  Proof.
    intros s [j cached ok|m|d] n H D; cbn [step]; [apply compile_held; exact H| |exact H].
    rewrite (proj1 (release_held _ _)). cbn [held]. apply filter_In. split; [exact H|].
    destruct (n =? m) eqn:E; [apply Nat.eqb_eq in E; congruence|reflexivity].
  Qed.
  Lemma fold_held : forall l s n, In n (held s) -> ~ In (Drop n) l -> In n (held (fold_left (step key capacity) l s)).
  Proof.
    induction l as [|o l IH]; intros s n H D; [exact H|]. cbn [fold_left]. apply IH; [|intro X; apply D; right; exact X].
    apply step_held; [exact H|]. intro X. apply D. left. exact X.
  Qed.
End Frame.

(** ** What a construction returns *)
Section Results.
  Context {job : Type}.
  Variable key : job -> bytes.
  Variable capacity : nat.
  Hypothesis Cp : 0 < capacity.
  Notation state := (state job).
  Notation run := (run key capacity).
  Notation compile := (compile key capacity).
  Notation steps := (fold_left (step key capacity)).

  Lemma release_other : forall (s : state) m n, m <> n -> lookup m (objs (release n s)) = lookup m (objs s).
  Proof.
    intros s m n H. unfold release. destruct (_ || _); [reflexivity|]. destruct (lookup n (objs s)); [|reflexivity]. cbn [objs]. rewrite lookup_removed.
    apply Nat.eqb_neq in H. rewrite H. reflexivity.
  Qed.
  (** A new object stands by itself, with its own directory. *)
  Lemma created : forall V s j cached ok n s', inv key capacity V never s -> create key capacity j cached ok s = (s', Ready n) ->
    ok = true /\ n = next s /\ In n (held s') /\ exists o, lookup n (objs s') = Some o /\ o_dir o = n /\ lookup n (disk s') = Some (Some j).
  Proof.
    intros V s j cached ok n s' I E. pose proof (create_inv key capacity Cp V s j cached ok I) as I'. rewrite E in I'. cbn [fst] in I'.
    assert (H : held s' = (if ok then [next s] else []) ++ held s) by (rewrite <- (create_held key capacity j cached ok s), E; reflexivity).
    unfold create in E. destruct ok; [|discriminate]. assert (n = next s) by congruence. subst n.
    split; [reflexivity|]. split; [reflexivity|]. assert (Hn : In (next s) (held s')) by (rewrite H; left; reflexivity). split; [exact Hn|].
    set (s1 := {| objs := _; held := _; cache := _; disk := _; next := _ |}) in E.
    assert (F : frame s1 s'). { injection E as <-. destruct cached; [apply set_item_frame|apply frame_refl]. }
    destruct F as (F1 & F2 & F3). destruct (lookup (next s) (objs s')) as [o|] eqn:Lo; [|exfalso; exact (A2 _ _ _ _ _ I' _ Hn Lo)].
    exists o. split; [reflexivity|]. assert (Hlt : next s < next s1) by (unfold s1; cbn [next]; lia). destruct (F2 _ _ Hlt Lo) as (o1 & X & Y). unfold s1 in X. cbn [objs] in X. rewrite lookup_cons, Nat.eqb_refl in X.
    injection X as <-. cbn [o_dir] in Y. split; [congruence|].
    (* the new directory is still there *)
    injection E as <-. destruct cached; [|unfold s1; cbn [disk]; rewrite lookup_cons, Nat.eqb_refl; reflexivity].
    assert (R : forall m (t : state), m <> next s -> lookup (next s) (disk t) = Some (Some j) -> (forall o, lookup m (objs t) = Some o -> o_dir o <> next s) -> lookup (next s) (disk (release m t)) = Some (Some j)).
    { intros m t _ D Q. unfold release. destruct (_ || _); [exact D|]. destruct (lookup m (objs t)) as [o'|]; [|exact D]. cbn [disk]. specialize (Q o' eq_refl).
      destruct (o_cached o'); [exact D|]. rewrite lookup_removed. apply Nat.neq_sym in Q. apply Nat.eqb_neq in Q. rewrite Q. exact D. }
    pose proof (fresh_cache key capacity Cp V _ s I) as Fc.
    assert (Q : forall m k (t : state), In (k, m) (cache s) -> (forall o, lookup m (objs t) = Some o -> exists o2, lookup m (objs s) = Some o2 /\ o_dir o2 = o_dir o) -> forall o, lookup m (objs t) = Some o -> m <> next s /\ o_dir o <> next s).
    { intros m k t Hm Ht o' Ho. destruct (Ht o' Ho) as (o2 & P1 & P2). destruct (A1 _ _ _ _ _ I _ _ P1). split; lia. }
    unfold set_item. destruct (find_key (key j) (cache s1)) as [old|] eqn:Fk.
    - apply find_key_in in Fk. assert (On : old <> next s). { intro X. subst old. apply Fc. apply in_map_iff. exists (key j, next s). split; [reflexivity|exact Fk]. }
      apply R; [exact On|unfold s1; cbn [with_cache disk]; rewrite lookup_cons, Nat.eqb_refl; reflexivity|].
      intros o' Ho. cbn [with_cache objs] in Ho. unfold s1 in Ho. cbn [objs] in Ho. rewrite lookup_cons in Ho. destruct (next s =? old) eqn:Z; [apply Nat.eqb_eq in Z; congruence|].
      destruct (A1 _ _ _ _ _ I _ _ Ho). lia.
    - destruct (length (cache s1) <? capacity); [unfold s1; cbn [with_cache disk]; rewrite lookup_cons, Nat.eqb_refl; reflexivity|].
      destruct (rev (cache s1)) as [|[k0 old] rest] eqn:Rv; [unfold s1; cbn [with_cache disk]; rewrite lookup_cons, Nat.eqb_refl; reflexivity|].
      assert (Hin : In (k0, old) (cache s)). { apply in_rev. change (cache s) with (cache s1). rewrite Rv. left. reflexivity. }
      assert (On : old <> next s). { intro X. subst old. apply Fc. apply in_map_iff. exists (k0, next s). split; [reflexivity|exact Hin]. }
      apply R; [exact On|unfold s1; cbn [with_cache cleanup_cache_entry disk]; rewrite lookup_cons, Nat.eqb_refl; reflexivity|].
      intros o' Ho. change (objs (with_cache ((key j, next s) :: rev rest) (cleanup_cache_entry old s1))) with (objs (cleanup_cache_entry old s1)) in Ho.
      assert (Lt : old < next s1). { destruct (A3 _ _ _ _ _ I _ _ Hin) as (o2 & P1 & _). destruct (A1 _ _ _ _ _ I _ _ P1). cbn. lia. }
      destruct (cleanup_frame old s1) as (_ & G & _). destruct (G old o' Lt Ho) as (o2 & P1 & P2). unfold s1 in P1. cbn [objs] in P1. rewrite lookup_cons in P1.
      destruct (next s =? old) eqn:Z; [apply Nat.eqb_eq in Z; congruence|]. destruct (A1 _ _ _ _ _ I _ _ P1). lia.
  Qed.
  Lemma cached_lookup : forall V s (k : bytes) e, inv key capacity V never s -> find_key k (cache s) = Some e ->
    exists o, lookup e (objs s) = Some o /\ o_dir o = e.
  Proof. intros V s k e I F. apply find_key_in in F. destruct (A3 _ _ _ _ _ I _ _ F) as (o & A & C & _). exists o. split; assumption. Qed.

  (** The three ways a construction can return. *)
  Lemma compiled : forall V s j cached ok n s', inv key capacity V never s -> compile j cached ok s = (s', Ready n) ->
    n = next s /\ In n (held s') /\ exists o, lookup n (objs s') = Some o /\
    ((o_dir o = n /\ ok = true /\ lookup n (disk s') = Some (Some j))
     \/ (cached = true /\ In (key j, o_dir o) (cache s) /\ In (key j, o_dir o) (cache s') /\ exists j', lookup (o_dir o) (disk s') = Some (Some j') /\ lookup (o_dir o) (disk s) = Some (Some j') /\ key j' = key j)).
  Proof.
    intros V s j cached ok n s' I E. unfold compile in E.
    assert (C : forall t, next t = next s -> inv key capacity V never t -> create key capacity j cached ok t = (s', Ready n) ->
      n = next s /\ In n (held s') /\ exists o, lookup n (objs s') = Some o /\ ((o_dir o = n /\ ok = true /\ lookup n (disk s') = Some (Some j))
     \/ (cached = true /\ In (key j, o_dir o) (cache s) /\ In (key j, o_dir o) (cache s') /\ exists j', lookup (o_dir o) (disk s') = Some (Some j') /\ lookup (o_dir o) (disk s) = Some (Some j') /\ key j' = key j))).
    { intros t Nt It Et. destruct (created V t j cached ok n s' It Et) as (P0 & P1 & P2 & o & P3 & P4 & P5). split; [congruence|]. split; [exact P2|].
      exists o. split; [exact P3|]. left. split; [exact P4|]. split; assumption. }
    destruct cached; [|exact (C s eq_refl I E)]. destruct (find_key (key j) (cache s)) as [e|] eqn:F; [|exact (C s eq_refl I E)].
    pose proof (find_key_in _ _ _ F) as Fin. pose proof (touch_inv key capacity V s (key j) e I Fin) as T.
    destruct (cached_lookup V s _ e I F) as (o & Lo & Do). change (objs (touch (key j) e s)) with (objs s) in E. rewrite Lo in E.
    change (disk (touch (key j) e s)) with (disk s) in E. rewrite Do in E.
    destruct (lookup e (disk s)) as [[j'|]|] eqn:Ld; [|exact (C (touch (key j) e s) eq_refl T E)|exact (C (touch (key j) e s) eq_refl T E)].
    injection E as <- <-. split; [reflexivity|]. split; [left; reflexivity|]. eexists. cbn [objs cache disk]. rewrite lookup_cons, Nat.eqb_refl. split; [reflexivity|].
    right. cbn [o_dir]. split; [reflexivity|]. split; [exact Fin|]. split; [left; reflexivity|]. exists j'. split; [exact Ld|]. split; [exact Ld|].
    destruct (A6 _ _ _ _ _ I _ _ _ Fin Ld) as (j2 & X & Y). congruence.
  Qed.
  Lemma inv_false : forall l, inv key capacity false never (run l).
  Proof. intro l. apply run_inv; [exact Cp|discriminate]. Qed.
  Lemma inv_true : forall l, no_vanish l -> inv key capacity true never (run l).
  Proof. intros l H. apply run_inv; [exact Cp|intros _; exact H]. Qed.
  Lemma run_app : forall l l2, run (l ++ l2) = steps l2 (run l).
  Proof. intros. apply fold_left_app. Qed.

  (** What is returned was compiled for that key, and stays that. *)
  Theorem returned : forall l j cached ok s' n, compile j cached ok (run l) = (s', Ready n) ->
    exists j', artefact s' n = Some j' /\ key j' = key j /\ (cached = false -> j' = j)
     /\ (~ In (key j) (map fst (cache (run l))) -> j' = j)
     /\ forall l2 x, artefact (steps l2 s') n = Some x -> x = j'.
  Proof.
    intros l j cached ok s' n E. destruct (compiled false _ _ _ _ _ _ (inv_false l) E) as (Hn & Hh & o & Lo & K).
    assert (G : forall j', lookup (o_dir o) (disk s') = Some (Some j') -> artefact s' n = Some j' /\ forall l2 x, artefact (steps l2 s') n = Some x -> x = j').
    { intros j' D. split; [unfold artefact; rewrite Lo, D; reflexivity|]. intros l2 x A. unfold artefact in A.
      assert (I' : inv key capacity false never s').
      { replace s' with (fst (compile j cached ok (run l))) by (rewrite E; reflexivity). apply compile_inv; [exact Cp|apply inv_false]. }
      destruct (fold_frame key capacity l2 s') as (_ & F2 & F3). destruct (A1 _ _ _ _ _ I' _ _ Lo) as [B1 B2].
      destruct (lookup n (objs (steps l2 s'))) as [o'|] eqn:L'; [|discriminate]. destruct (F2 n o' B1 L') as (o2 & X & Y). assert (o2 = o) by congruence. subst o2.
      rewrite <- Y in A. destruct (lookup (o_dir o) (disk (steps l2 s'))) as [y|] eqn:D2; [|discriminate]. pose proof (F3 _ _ B2 D2) as D3. rewrite D in D3. injection D3 as <-. congruence. }
    destruct K as [(K1 & K2 & K3)|(K1 & K2 & K3 & j' & K4 & K5 & K6)].
    - exists j. rewrite <- K1 in K3. destruct (G j K3) as [G1 G2]. split; [exact G1|]. split; [reflexivity|]. split; [reflexivity|]. split; [reflexivity|exact G2].
    - exists j'. destruct (G j' K4) as [G1 G2]. split; [exact G1|]. split; [exact K6|]. split; [congruence|]. split; [|exact G2].
      intro X. exfalso. apply X. apply in_map_iff. eexists. split; [|exact K2]. reflexivity.
  Qed.
  (** Without deletions from outside: an object that compiled its own program can be launched while it is held. *)
  Theorem own_kept : forall l j cached ok s' n l2, compile j cached ok (run l) = (s', Ready n) ->
    no_vanish l -> no_vanish l2 -> ~ In (Drop n) l2 -> cached = false \/ ~ In (key j) (map fst (cache (run l))) ->
    artefact (steps l2 s') n = Some j.
  Proof.
    intros l j cached ok s' n l2 E V1 V2 D Hc. destruct (compiled true _ _ _ _ _ _ (inv_true l V1) E) as (Hn & Hh & o & Lo & K).
    destruct K as [(K1 & K2 & K3)|(K1 & K2 & _)].
    2:{ exfalso. destruct Hc as [Hc|Hc]; [congruence|]. apply Hc. apply in_map_iff. eexists. split; [|exact K2]. reflexivity. }
    assert (V : no_vanish (l ++ Compile j cached ok :: l2)).
    { intros d X. apply in_app_or in X. destruct X as [X|[X|X]]; [exact (V1 d X)|discriminate|exact (V2 d X)]. }
    pose proof (inv_true _ V) as I2. rewrite run_app in I2. cbn [fold_left step] in I2. rewrite E in I2. cbn [fst] in I2.
    assert (I' : inv key capacity true never s').
    { replace s' with (fst (compile j cached ok (run l))) by (rewrite E; reflexivity). apply compile_inv; [exact Cp|apply inv_true; exact V1]. }
    pose proof (fold_held key capacity l2 s' n Hh D) as H2. destruct (fold_frame key capacity l2 s') as (_ & F2 & F3). destruct (A1 _ _ _ _ _ I' _ _ Lo) as [B1 B2].
    unfold artefact. destruct (lookup n (objs (steps l2 s'))) as [o'|] eqn:L'; [|exfalso; exact (A2 _ _ _ _ _ I2 _ H2 L')].
    destruct (F2 n o' B1 L') as (o2 & X & Y). assert (o2 = o) by congruence. subst o2. assert (O' : o_dir o' = n) by congruence.
    destruct (A8 _ _ _ _ _ I2 eq_refl n o' L' O') as (j2 & D2). rewrite O', D2. rewrite K1 in B2. pose proof (F3 _ _ B2 D2) as D3. congruence.
  Qed.
  (** One that came from the cache can be launched while the object that compiled it is still referred to. *)
  Theorem hit_kept : forall l j ok s' n l2 e, compile j true ok (run l) = (s', Ready n) ->
    no_vanish l -> no_vanish l2 -> ~ In (Drop n) l2 -> In (key j, e) (cache (run l)) -> referred (steps l2 s') e ->
    exists j', key j' = key j /\ artefact (steps l2 s') n = Some j' /\ artefact (steps l2 s') e = Some j'.
  Proof.
    intros l j ok s' n l2 e E V1 V2 D Hc Rf. pose proof (inv_true l V1) as I. destruct (compiled true _ _ _ _ _ _ I E) as (Hn & Hh & o & Lo & K).
    assert (V : no_vanish (l ++ Compile j true ok :: l2)).
    { intros d X. apply in_app_or in X. destruct X as [X|[X|X]]; [exact (V1 d X)|discriminate|exact (V2 d X)]. }
    pose proof (inv_true _ V) as I2. rewrite run_app in I2. cbn [fold_left step] in I2. rewrite E in I2. cbn [fst] in I2.
    assert (I' : inv key capacity true never s').
    { replace s' with (fst (compile j true ok (run l))) by (rewrite E; reflexivity). apply compile_inv; [exact Cp|exact I]. }
    destruct (A3 _ _ _ _ _ I _ _ Hc) as (oe & Le & De & _). destruct (A8 _ _ _ _ _ I eq_refl e oe Le De) as (j' & Dj).
    destruct (A6 _ _ _ _ _ I _ _ _ Hc Dj) as (j2 & X & Kj). injection X as <-.
    (* the cache entry was found, so this was a hit *)
    assert (Fk : find_key (key j) (cache (run l)) = Some e).
    { destruct (find_key (key j) (cache (run l))) as [e'|] eqn:F.
      - apply find_key_in in F. pose proof (A4 _ _ _ _ _ I) as [Nk _].
        assert (Q : forall c, NoDup (map fst c) -> forall (a : bytes) (p q : nat), In (a, p) c -> In (a, q) c -> p = q).
        { clear. induction c as [|[b r] c IH]; intros N a p q H1 H2; [destruct H1|]. cbn [map fst] in N. apply NoDup_cons_iff in N. destruct N as [N1 N2].
          destruct H1 as [H1|H1], H2 as [H2|H2]; [congruence| | |exact (IH N2 a p q H1 H2)].
          - injection H1 as -> ->. exfalso. apply N1. apply in_map_iff. exists (a, q). split; [reflexivity|exact H2].
          - injection H2 as -> ->. exfalso. apply N1. apply in_map_iff. exists (a, p). split; [reflexivity|exact H1]. }
        f_equal. exact (Q _ Nk _ _ _ F Hc).
      - exfalso. apply find_key_none in F. apply F. apply in_map_iff. exists (key j, e). split; [reflexivity|exact Hc]. }
    unfold Cache.compile in E. rewrite Fk in E. change (objs (touch (key j) e (run l))) with (objs (run l)) in E. rewrite Le in E.
    change (disk (touch (key j) e (run l))) with (disk (run l)) in E. rewrite De, Dj in E. injection E as <- <-.
    set (s' := {| objs := _; held := _; cache := _; disk := _; next := _ |}) in *. set (n := next (touch (key j) e (run l))) in *.
    assert (Lo' : lookup n (objs s') = Some {| o_dir := e; o_cached := true |}) by (unfold s'; cbn [objs]; rewrite lookup_cons, Nat.eqb_refl; reflexivity).
    pose proof (fold_held key capacity l2 s' n Hh D) as H2. destruct (fold_frame key capacity l2 s') as (_ & F2 & F3).
    destruct (A1 _ _ _ _ _ I' _ _ Lo') as [B1 B2]. cbn [o_dir] in B2.
    assert (Le' : exists o', lookup e (objs (steps l2 s')) = Some o').
    { destruct Rf as [Rf|(k & Rf)].
      - destruct (lookup e (objs (steps l2 s'))) as [o'|] eqn:X; [exists o'; reflexivity|exfalso; exact (A2 _ _ _ _ _ I2 _ Rf X)].
      - destruct (A3 _ _ _ _ _ I2 _ _ Rf) as (o' & X & _). exists o'. exact X. }
    destruct Le' as (o' & Le'). destruct (F2 e o' B2 Le') as (oe2 & X & Y). assert (Ee : o_dir oe2 = e).
    { unfold s' in X. cbn [objs] in X. rewrite lookup_cons in X. change (next (touch (key j) e (run l))) with (next (run l)) in X. change (objs (touch (key j) e (run l))) with (objs (run l)) in X.
      destruct (next (run l) =? e) eqn:Z.
      - apply Nat.eqb_eq in Z. destruct (A1 _ _ _ _ _ I _ _ Le) as [Q _]. lia.
      - congruence. }
    assert (O' : o_dir o' = e) by congruence. destruct (A8 _ _ _ _ _ I2 eq_refl e o' Le' O') as (j2 & D2).
    pose proof (F3 _ _ B2 D2) as D3. change (disk s') with (disk (run l)) in D3. assert (j2 = j') by congruence. subst j2.
    exists j'. split; [exact Kj|]. split.
    - change (artefact (steps l2 s') n = Some j'). unfold artefact. destruct (lookup n (objs (steps l2 s'))) as [o2|] eqn:L2; [|exfalso; exact (A2 _ _ _ _ _ I2 _ H2 L2)].
      destruct (F2 n o2 B1 L2) as (o3 & X3 & Y3). rewrite Lo' in X3. injection X3 as <-. cbn [o_dir] in Y3. rewrite <- Y3, D2. reflexivity.
    - unfold artefact. rewrite Le', O', D2. reflexivity.
  Qed.
  (** The cache: bounded, one entry per key, each usable object compiled for its key. *)
  Theorem bounded_cache : forall l, length (cache (run l)) <= capacity /\ NoDup (map fst (cache (run l)))
    /\ forall k n j, In (k, n) (cache (run l)) -> artefact (run l) n = Some j -> key j = k.
  Proof.
    intro l. pose proof (inv_false l) as I. destruct (A4 _ _ _ _ _ I) as [A C]. split; [exact C|]. split; [exact A|].
    intros k n j H E. destruct (A3 _ _ _ _ _ I _ _ H) as (o & Lo & Do & _). unfold artefact in E. rewrite Lo, Do in E.
    destruct (lookup n (disk (run l))) as [y|] eqn:D; [|discriminate]. destruct (A6 _ _ _ _ _ I _ _ _ H D) as (j' & -> & K). congruence.
  Qed.
  (** A failed compilation leaves the cache's objects as they were. *)
  Theorem failed_not_cached : forall l j cached ok s', compile j cached ok (run l) = (s', Failed) ->
    ok = false /\ (forall k n, In (k, n) (cache s') <-> In (k, n) (cache (run l))) /\ held s' = held (run l).
  Proof.
    intros l j cached ok s' E. pose proof (inv_false l) as I. unfold Cache.compile in E.
    assert (C : forall t, cache t = cache t -> create key capacity j cached ok t = (s', Failed) -> ok = false /\ cache s' = cache t /\ held s' = held t).
    { intros t _ Et. unfold create in Et. destruct ok; [discriminate|]. injection Et as <-. split; [reflexivity|]. split; reflexivity. }
    destruct cached; [|destruct (C _ eq_refl E) as (A & -> & ->); split; [exact A|split; [intros; reflexivity|reflexivity]]].
    destruct (find_key (key j) (cache (run l))) as [e|] eqn:F; [|destruct (C _ eq_refl E) as (A & -> & ->); split; [exact A|split; [intros; reflexivity|reflexivity]]].
    pose proof (find_key_in _ _ _ F) as Fin. pose proof (A4 _ _ _ _ _ I) as [Nk _].
    assert (T : forall k n, In (k, n) (cache (touch (key j) e (run l))) <-> In (k, n) (cache (run l))).
    { intros k n. cbn [touch with_cache cache]. split.
      - intros [X|X]; [injection X as <- <-; exact Fin|]. apply in_without in X. apply X.
      - intro X. destruct (beqb_spec k (key j)) as [Y|Y].
        + subst k. left. assert (Q : forall c, NoDup (map fst c) -> forall (a : bytes) (p q : nat), In (a, p) c -> In (a, q) c -> p = q).
          { clear. induction c as [|[b r] c IH]; intros N a p q H1 H2; [destruct H1|]. cbn [map fst] in N. apply NoDup_cons_iff in N. destruct N as [N1 N2].
            destruct H1 as [H1|H1], H2 as [H2|H2]; [congruence| | |exact (IH N2 a p q H1 H2)].
            - injection H1 as -> ->. exfalso. apply N1. apply in_map_iff. exists (a, q). split; [reflexivity|exact H2].
            - injection H2 as -> ->. exfalso. apply N1. apply in_map_iff. exists (a, p). split; [reflexivity|exact H1]. }
          f_equal. exact (Q _ Nk _ _ _ Fin X).
        + right. apply in_without. split; assumption. }
    destruct (lookup e (objs (touch (key j) e (run l)))) as [o|].
    - destruct (lookup (o_dir o) (disk (touch (key j) e (run l)))) as [[j'|]|]; [discriminate| |];
      destruct (C _ eq_refl E) as (A & -> & ->); (split; [exact A|]); (split; [exact T|reflexivity]).
    - destruct (C _ eq_refl E) as (A & -> & ->). split; [exact A|]. split; [exact T|reflexivity].
  Qed.

  (** Directories: without caching, exactly those of the objects held. *)
  Theorem uncached_clean : forall l, no_vanish l -> only_uncached l -> forall d, lookup d (disk (run l)) <> None <-> In d (held (run l)).
  Proof.
    intros l V U. assert (G : forall l, only_uncached l -> cache (run l) = [] /\ (forall n o, lookup n (objs (run l)) = Some o -> o_dir o = n /\ o_cached o = false)
       /\ forall d, lookup d (disk (run l)) <> None -> lookup d (objs (run l)) <> None).
    { clear l V U. induction l as [|o l IH] using rev_ind; intro U; [split; [reflexivity|split; [intros n o H; discriminate|intros d H; exfalso; apply H; reflexivity]]|].
      destruct IH as (C & O & D); [intros j ok X; apply (U j ok); apply in_or_app; left; exact X|]. rewrite run_app. cbn [fold_left].
      destruct o as [j cached ok|n|d]; cbn [step].
      - destruct cached; [exfalso; apply (U j ok); apply in_or_app; right; left; reflexivity|]. unfold Cache.compile, create. destruct ok; cbn [fst cache objs disk].
        + split; [exact C|]. split.
          * intros n o H. rewrite lookup_cons in H. destruct (next (run l) =? n) eqn:E; [|exact (O n o H)]. apply Nat.eqb_eq in E. injection H as <-. split; [exact E|reflexivity].
          * intros d H. rewrite lookup_cons in H |- *. destruct (next (run l) =? d); [discriminate|exact (D d H)].
        + split; [exact C|]. split; assumption.
      - unfold release. cbn [held cache objs disk next]. destruct (_ || _); cbn [cache objs disk]; [split; [exact C|split; assumption]|].
        destruct (lookup n (objs (run l))) as [o|] eqn:Lo; cbn [cache objs disk]; [|split; [exact C|split; assumption]]. split; [exact C|]. destruct (O n o Lo) as [O1 O2]. split.
        + intros m p H. rewrite lookup_removed in H. destruct (m =? n); [discriminate|exact (O m p H)].
        + intros d H. rewrite O2, O1 in H. rewrite lookup_removed in H |- *. destruct (d =? n); [congruence|exact (D d H)].
      - cbn [cache objs disk]. split; [exact C|]. split; [exact O|]. intros a H. rewrite lookup_removed in H. destruct (a =? d); [congruence|exact (D a H)]. }
    destruct (G l U) as (C & O & D). pose proof (inv_true l V) as I. intro d. split.
    - intro H. destruct (A9 _ _ _ _ _ I d (D d H)) as [[X|X]|[]]; [exact X|rewrite C in X; destruct X].
    - intro H. pose proof (A2 _ _ _ _ _ I d H) as X. destruct (lookup d (objs (run l))) as [o|] eqn:Lo; [|congruence].
      destruct (O d o Lo) as [O1 _]. destruct (A8 _ _ _ _ _ I eq_refl d o Lo O1) as (j & ->). discriminate.
  Qed.
End Results.

(** ** Least recently used *)
Section Lru.
  Definition not_key (k : bytes) (x : bytes) : bool := negb (beqb x k).
  Lemma keys_without : forall k c, map fst (without_key k c) = filter (not_key k) (map fst c).
  Proof.
    intros k c. induction c as [|[a n] c IH]; [reflexivity|]. cbn [map fst filter]. unfold without_key. cbn [filter fst]. fold (without_key k c). rewrite <- IH.
    unfold not_key. destruct (negb (beqb a k)); reflexivity.
  Qed.
  Lemma filter_all : forall k l, ~ In k l -> filter (not_key k) l = l.
  Proof.
    intros k l. induction l as [|a l IH]; intro H; [reflexivity|]. cbn [filter]. unfold not_key at 1.
    destruct (beqb_spec a k) as [E|E]; [exfalso; apply H; left; exact E|]. cbn [negb]. rewrite IH; [reflexivity|]. intro X. apply H. right. exact X.
  Qed.
  Lemma filter_firstn : forall k l c, NoDup l -> firstn c (filter (not_key k) l) = firstn c (filter (not_key k) (firstn (S c) l)).
  Proof.
    intros k l. induction l as [|a l IH]; intros c N; [reflexivity|]. apply NoDup_cons_iff in N. destruct N as [N1 N2].
    change (firstn (S c) (a :: l)) with (a :: firstn c l). cbn [filter]. assert (Q : not_key k a = negb (beqb a k)) by reflexivity. rewrite Q. destruct (beqb_spec a k) as [E|E]; cbn [negb].
    - subst a. rewrite (filter_all k l N1), (filter_all k (firstn c l)); [symmetry; rewrite firstn_firstn, Nat.min_id; reflexivity|]. intro X. apply N1. rewrite <- (firstn_skipn c l). apply in_or_app. left. exact X.
    - destruct c as [|c]; [reflexivity|]. cbn [firstn]. f_equal. exact (IH c N2).
  Qed.
  Lemma nodup_distinct : forall h, NoDup (distinct h) /\ forall x, In x (distinct h) <-> In x h.
  Proof.
    induction h as [|k h IH]; [split; [constructor|intro x; reflexivity]|]. destruct IH as [N E]. cbn [distinct]. split.
    - constructor; [intro X; apply filter_In in X; destruct X as [_ X]; rewrite beqb_refl in X; discriminate|]. apply NoDup_filter. exact N.
    - intro x. cbn [In]. rewrite filter_In, E. split.
      + intros [X|[X _]]; [left; exact X|right; exact X].
      + intros [X|X]; [left; exact X|]. destruct (beqb_spec x k) as [Y|Y]; [left; congruence|right; split; [exact X|reflexivity]].
  Qed.
  (** Using one key: it comes first, the others follow, as many as fit. *)
  Lemma recent_cons : forall c k h, recent (S c) (k :: h) = k :: firstn c (filter (not_key k) (recent (S c) h)).
  Proof.
    intros c k h. unfold recent. cbn [distinct firstn]. f_equal. apply (filter_firstn k (distinct h) c). apply nodup_distinct.
  Qed.
End Lru.
Section Lru2.
  Context {job : Type}.
  Variable key : job -> bytes.
  Variable capacity : nat.
  Hypothesis Cp : 0 < capacity.
  Notation state := (state job).
  Lemma touch_keys : forall k n (s : state), In k (map fst (cache s)) -> NoDup (map fst (cache s)) -> length (cache s) <= capacity ->
    map fst (cache (touch k n s)) = k :: firstn (capacity - 1) (filter (not_key k) (map fst (cache s))).
  Proof.
    intros k n s H N L. cbn [touch with_cache cache map fst]. f_equal. rewrite keys_without. symmetry. apply firstn_all2.
    assert (Q : forall l, In k l -> S (length (filter (not_key k) l)) <= length l).
    { clear. assert (W : forall l : list bytes, length (filter (not_key k) l) <= length l).
      { induction l as [|b l IHl]; [cbn; lia|]. cbn [filter]. destruct (not_key k b); cbn [length]; lia. }
      induction l as [|a l IH]; intro H; [destruct H|]. cbn [filter]. destruct H as [H|H].
      - subst a. unfold not_key at 1. rewrite beqb_refl. cbn [negb length]. specialize (W l). lia.
      - specialize (IH H). destruct (not_key k a); cbn [length]; lia. }
    specialize (Q _ H). rewrite map_length in Q. lia.
  Qed.
  Lemma set_item_keys : forall k n (s : state), NoDup (map fst (cache s)) -> length (cache s) <= capacity ->
    map fst (cache (set_item capacity k n s)) = k :: firstn (capacity - 1) (filter (not_key k) (map fst (cache s))).
  Proof.
    intros k n s N L. unfold set_item. destruct (find_key k (cache s)) as [old|] eqn:F.
    - rewrite (proj2 (release_held _ _)). apply find_key_in in F. exact (touch_keys k n s ltac:(apply in_map_iff; exists (k, old); split; [reflexivity|exact F]) N L).
    - apply find_key_none in F. rewrite filter_all by exact F. destruct (length (cache s) <? capacity) eqn:E.
      + apply Nat.ltb_lt in E. cbn [with_cache cache map fst]. f_equal. symmetry. apply firstn_all2. rewrite map_length. lia.
      + apply Nat.ltb_ge in E. destruct (rev (cache s)) as [|[k0 old] rest] eqn:R.
        * exfalso. apply (f_equal (@length _)) in R. rewrite rev_length in R. cbn in R. lia.
        * rewrite (proj2 (release_held _ _)). cbn [with_cache cache map fst]. f_equal.
          assert (X : cache s = rev rest ++ [(k0, old)]) by (rewrite <- (rev_involutive (cache s)), R; reflexivity). rewrite X, map_app. rewrite X, app_length in E, L. cbn [length] in E, L.
          replace (capacity - 1) with (length (map fst (rev rest))) by (rewrite map_length; lia). rewrite firstn_app, Nat.sub_diag, firstn_all. cbn [firstn]. rewrite app_nil_r. reflexivity.
  Qed.
  Lemma without_without : forall k (l : list bytes), filter (not_key k) (k :: firstn (capacity - 1) (filter (not_key k) l)) = firstn (capacity - 1) (filter (not_key k) l).
  Proof.
    intros k l. cbn [filter]. unfold not_key at 1. rewrite beqb_refl. cbn [negb]. apply filter_all. intro X.
    assert (In k (filter (not_key k) l)) as Y by (rewrite <- (firstn_skipn (capacity - 1)); apply in_or_app; left; exact X).
    apply filter_In in Y. unfold not_key in Y. rewrite beqb_refl in Y. destruct Y. discriminate.
  Qed.
  Definition used (k : bytes) (l : list bytes) : list bytes := k :: firstn (capacity - 1) (filter (not_key k) l).
  Lemma create_keys : forall j cached ok (s : state), NoDup (map fst (cache s)) -> length (cache s) <= capacity ->
    map fst (cache (fst (create key capacity j cached ok s))) = if cached && ok then used (key j) (map fst (cache s)) else map fst (cache s).
  Proof.
    intros j cached ok s N L. unfold create. destruct ok, cached; cbn [andb fst]; [|reflexivity|reflexivity|reflexivity].
    rewrite set_item_keys; [reflexivity|exact N|exact L].
  Qed.
  Lemma compile_keys : forall j cached ok (s : state), NoDup (map fst (cache s)) -> length (cache s) <= capacity ->
    map fst (cache (fst (compile key capacity j cached ok s)))
    = if cached && (ok || existsb (fun k => beqb k (key j)) (map fst (cache s))) then used (key j) (map fst (cache s)) else map fst (cache s).
  Proof.
    intros j cached ok s N L. unfold compile. destruct cached; cbn [andb]; [|rewrite create_keys by assumption; reflexivity].
    destruct (find_key (key j) (cache s)) as [e|] eqn:F.
    - apply find_key_in in F. assert (Hin : In (key j) (map fst (cache s))) by (apply in_map_iff; exists (key j, e); split; [reflexivity|exact F]).
      assert (X : existsb (fun k => beqb k (key j)) (map fst (cache s)) = true) by (apply existsb_exists; exists (key j); split; [exact Hin|apply beqb_refl]).
      rewrite X, Bool.orb_true_r. pose proof (touch_keys (key j) e s Hin N L) as T. fold (used (key j) (map fst (cache s))) in T.
      set (s1 := touch (key j) e s) in *. 
      assert (N1 : NoDup (map fst (cache s1))).
      { rewrite T. unfold used. constructor; [intro Y|].
        - assert (In (key j) (filter (not_key (key j)) (map fst (cache s)))) as Z by (rewrite <- (firstn_skipn (capacity - 1)); apply in_or_app; left; exact Y).
          apply filter_In in Z. unfold not_key in Z. rewrite beqb_refl in Z. destruct Z. discriminate.
        - assert (Z : NoDup (filter (not_key (key j)) (map fst (cache s)))) by (apply NoDup_filter; exact N). rewrite <- (firstn_skipn (capacity - 1)) in Z.
          exact (nodup_app_l _ _ _ Z). }
      assert (L1 : length (cache s1) <= capacity).
      { rewrite <- (map_length fst), T. unfold used. cbn [length]. rewrite firstn_length. lia. }
      assert (C : map fst (cache (fst (create key capacity j true ok s1))) = used (key j) (map fst (cache s))).
      { rewrite create_keys by assumption. cbn [andb]. rewrite T. destruct ok; [|reflexivity]. unfold used at 1. unfold used at 1. rewrite without_without.
        unfold used. f_equal. rewrite firstn_firstn, Nat.min_id. reflexivity. }
      clearbody s1. destruct (lookup e (objs s1)) as [o|]; [|exact C]. destruct (lookup (o_dir o) (disk s1)) as [[j'|]|]; [exact T|exact C|exact C].
    - apply find_key_none in F. rewrite create_keys by assumption. cbn [andb].
      assert (X : existsb (fun k => beqb k (key j)) (map fst (cache s)) = false).
      { destruct (existsb _ _) eqn:X; [|reflexivity]. apply existsb_exists in X. destruct X as (k & X1 & X2). apply beqb_eq in X2. subst k. contradiction. }
      rewrite X, Bool.orb_false_r. reflexivity.
  Qed.
  (** The cache holds the keys most recently used, in order. *)
  Theorem lru : forall l, map fst (cache (run key capacity l)) = recent capacity (history key capacity l).
  Proof.
    induction l as [|o l IH] using rev_ind; [unfold recent; cbn; rewrite firstn_nil; reflexivity|].
    pose proof (bounded_cache key capacity Cp l) as (L & N & _). unfold history. rewrite fold_left_app. fold (history key capacity l). cbn [fold_left].
    rewrite run_app. cbn [fold_left]. destruct o as [j cached ok|n|d]; cbn [step].
    - rewrite compile_keys by assumption. rewrite IH. destruct cached; cbn [andb]; [|reflexivity].
      destruct (ok || existsb (fun k => beqb k (key j)) (recent capacity (history key capacity l))); [|reflexivity].
      unfold used. destruct capacity as [|c]; [lia|]. rewrite recent_cons. replace (S c - 1) with c by lia. reflexivity.
    - rewrite (proj2 (release_held _ _)). exact IH.
    - exact IH.
  Qed.
End Lru2.

(** ** Keys *)
Theorem plain_source : forall h j j', (forall x y : bytes, h x = h y -> x = y) -> p_class j = p_class j' -> p_module j = p_module j' -> p_problem j = p_problem j' ->
  (h (plain_material j) : bytes) = h (plain_material j') -> p_source j = p_source j'.
Proof.
  intros h j j' H A C D E. apply H in E. unfold plain_material in E. rewrite A, C, D in E. apply app_inv_head in E. apply app_inv_head in E. apply app_inv_head in E. exact E.
Qed.
Lemma same_prefix : forall (c : N) (a a' x x' : bytes), ~ In c a -> ~ In c a' -> a ++ c :: x = a' ++ c :: x' -> a = a' /\ x = x'.
Proof.
  intros c a. induction a as [|b a IH]; intros a' x x' H H' E; destruct a' as [|b' a'].
  - injection E as ->. split; reflexivity.
  - injection E as -> _. exfalso. apply H'. left. reflexivity.
  - injection E as -> _. exfalso. apply H. left. reflexivity.
  - injection E as -> E. destruct (IH a' x x') as [-> ->]; [intro X; apply H; right; exact X|intro X; apply H'; right; exact X|exact E|]. split; reflexivity.
Qed.
Theorem gcc_problem : forall h j j', (forall x y : bytes, h x = h y -> x = y) -> g_class j = g_class j' -> g_module j = g_module j' ->
  ~ In 47%N (g_problem j) -> ~ In 47%N (g_problem j') -> (exists c, g_command j = 47%N :: c) -> (exists c, g_command j' = 47%N :: c) ->
  (h (gcc_material j) : bytes) = h (gcc_material j') -> g_problem j = g_problem j'.
Proof.
  intros h j j' H A C P P' (c & Ec) (c' & Ec') E. apply H in E. unfold gcc_material in E. rewrite A, C, Ec, Ec' in E. apply app_inv_head in E. apply app_inv_head in E.
  rewrite <- !app_assoc in E. cbn [app] in E. apply same_prefix in E; [apply E|exact P|exact P'].
Qed.
Theorem gcc_sources : forall h j j', (forall x y : bytes, h x = h y -> x = y) -> g_class j = g_class j' -> g_module j = g_module j' -> g_problem j = g_problem j' ->
  g_command j = g_command j' -> g_march j = g_march j' -> g_defines j = g_defines j' -> g_flags j = g_flags j' -> g_ldflags j = g_ldflags j' ->
  (h (gcc_material j) : bytes) = h (gcc_material j') -> concat (map snd (g_sources j)) = concat (map snd (g_sources j')).
Proof.
  intros h j j' H E1 E2 E3 E4 E5 E6 E7 E8 E. apply H in E. unfold gcc_material in E. rewrite E1, E2, E3, E4, E5, E6, E7, E8 in E.
  apply app_inv_head in E. apply app_inv_head in E. apply app_inv_head in E. exact E.
Qed.
