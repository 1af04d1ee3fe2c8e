From Coq Require Import String QArith Qround.
From Verif Require Import Model.Bytes Model.Child Spec.Child.
Local Open Scope list_scope.
Local Open Scope nat_scope.

Lemma set_same : forall t n d, set_fd t n d n = d.
Proof. intros. unfold set_fd. rewrite Nat.eqb_refl. reflexivity. Qed.
Lemma set_other : forall t n d m, m <> n -> set_fd t n d m = t m.
Proof. intros t n d m H. unfold set_fd. apply Nat.eqb_neq in H. rewrite H. reflexivity. Qed.

(** ** Numbers *)
Lemma parse_app : forall a b num, (forall c, In c a -> digit c = true) ->
  exists v, pos_int_from_ascii num a = Some v /\ pos_int_from_ascii num (a ++ b) = pos_int_from_ascii v b.
Proof.
  induction a as [|c a IH]; intros b num D; [exists num; split; reflexivity|]. cbn [app pos_int_from_ascii].
  rewrite (D c (or_introl eq_refl)). apply IH. intros x H. apply D. right. exact H.
Qed.
Lemma digit_of : forall n, n < 10 -> digit (N.of_nat (48 + n)) = true /\ N.to_nat (N.of_nat (48 + n) - 48) = n.
Proof.
  intros n H. unfold digit. split; [|lia]. apply andb_true_intro. split; apply N.leb_le; lia.
Qed.
Lemma decimal_acc_app : forall fuel n acc, decimal_acc fuel n acc = decimal_acc fuel n [] ++ acc.
Proof.
  induction fuel as [|f IH]; intros n acc; [reflexivity|]. cbn [decimal_acc]. destruct (n <? 10); [reflexivity|].
  rewrite IH. rewrite (IH (n / 10) [_]). rewrite <- app_assoc. reflexivity.
Qed.
Lemma decimal_digits : forall fuel n c, In c (decimal_acc fuel n []) -> digit c = true.
Proof.
  induction fuel as [|f IH]; intros n c H; [destruct H|]. cbn [decimal_acc] in H. destruct (n <? 10) eqn:E.
  - apply Nat.ltb_lt in E. destruct H as [H|[]]. subst c. apply digit_of. exact E.
  - rewrite decimal_acc_app in H. apply in_app_or in H. destruct H as [H|[H|[]]]; [exact (IH _ _ H)|].
    subst c. apply digit_of. apply Nat.mod_upper_bound. lia.
Qed.
Lemma parse_decimal_acc : forall fuel n, n < fuel -> pos_int_from_ascii 0 (decimal_acc fuel n []) = Some n.
Proof.
  induction fuel as [|f IH]; intros n H; [lia|]. cbn [decimal_acc]. destruct (n <? 10) eqn:E.
  - apply Nat.ltb_lt in E. cbn [pos_int_from_ascii]. destruct (digit_of n E) as [-> D]. rewrite D. reflexivity.
  - apply Nat.ltb_ge in E. rewrite decimal_acc_app.
    destruct (parse_app (decimal_acc f (n / 10) []) [N.of_nat (48 + n mod 10)] 0 (decimal_digits f (n / 10))) as (v & E1 & ->).
    rewrite IH in E1 by (apply Nat.lt_le_trans with n; [apply Nat.div_lt; lia|lia]). injection E1 as <-.
    cbn [pos_int_from_ascii]. destruct (digit_of (n mod 10)) as [-> D]; [apply Nat.mod_upper_bound; lia|]. rewrite D. f_equal.
    change (fst (Nat.divmod n 9 0 9)) with (n / 10). pose proof (Nat.div_mod n 10 ltac:(lia)). lia.
Qed.
Theorem parse_decimal : forall n, pos_int_from_ascii 0 (decimal n) = Some n.
Proof. intro n. apply parse_decimal_acc. lia. Qed.
Theorem parse_not_number : forall name, (exists c, In c name /\ digit c = false) -> forall num, pos_int_from_ascii num name = None.
Proof.
  induction name as [|c name IH]; intros (x & H & D) num; [destruct H|]. cbn [pos_int_from_ascii].
  destruct H as [H|H]; [subst x; rewrite D; reflexivity|]. destruct (digit c); [|reflexivity]. apply IH. exists x. split; assumption.
Qed.

(** ** Closing *)
Definition entries (t : table) (l : list nat) : list (nat * bytes) :=
  flat_map (fun p => match name_at t p with Some n => [(p, n)] | None => [] end) l.
Definition endpos (l : list (nat * bytes)) (d : nat) : nat := match rev l with (p, _) :: _ => S p | [] => d end.
Lemma endpos_cons : forall x y l d d', endpos (x :: y :: l) d = endpos (y :: l) d'.
Proof.
  intros x y l d d'. unfold endpos. change (rev (x :: y :: l)) with (rev (y :: l) ++ [x]).
  destruct (rev (y :: l)) as [|z r] eqn:E; [|reflexivity]. apply (f_equal (@length _)) in E. rewrite rev_length in E. discriminate E.
Qed.
Lemma entries_spec : forall t len a k l, firstn k (entries t (seq a len)) = l -> l <> [] -> forall d,
  (forall q n, In (q, n) l -> a <= q < endpos l d /\ name_at t q = Some n)
  /\ (forall q n, a <= q < endpos l d -> name_at t q = Some n -> In (q, n) l)
  /\ a < endpos l d <= a + len.
Proof.
  induction len as [|len IH]; intros a k l E Hne d.
  - cbn in E. destruct k; cbn in E; congruence.
  - cbn [seq entries flat_map] in E. fold (entries t (seq (S a) len)) in E.
    destruct (name_at t a) as [nm|] eqn:Na.
    + cbn [app] in E. destruct k as [|k]; [cbn in E; congruence|]. cbn [firstn] in E.
      destruct (firstn k (entries t (seq (S a) len))) as [|y r] eqn:Er.
      * subst l. unfold endpos. cbn [rev app]. split; [|split; [|lia]].
        -- intros q n [H|[]]. injection H as <- <-. split; [lia|exact Na].
        -- intros q n H Hn. assert (q = a) by lia. subst q. rewrite Na in Hn. injection Hn as <-. left. reflexivity.
      * destruct (IH (S a) k (y :: r) Er ltac:(discriminate) d) as (I1 & I2 & I3). subst l.
        rewrite (endpos_cons _ _ _ d d). split; [|split; [|lia]].
        -- intros q n [H|H]; [injection H as <- <-; split; [lia|exact Na]|]. destruct (I1 q n H) as [A C]. split; [lia|exact C].
        -- intros q n H Hn. destruct (Nat.eq_dec q a) as [X|X]; [subst q; rewrite Na in Hn; injection Hn as <-; left; reflexivity|].
           right. apply I2; [lia|exact Hn].
    + cbn [app] in E. destruct (IH (S a) k l E Hne d) as (I1 & I2 & I3). split; [|split; [|lia]].
      * intros q n H. destruct (I1 q n H) as [A C]. split; [lia|exact C].
      * intros q n H Hn. destruct (Nat.eq_dec q a) as [X|X]; [subst q; rewrite Na in Hn; discriminate|]. apply I2; [lia|exact Hn].
Qed.
Lemma entries_nil : forall t len a k, 0 < k -> firstn k (entries t (seq a len)) = [] -> forall q, a <= q < a + len -> name_at t q = None.
Proof.
  induction len as [|len IH]; intros a k K E q H; [lia|]. cbn [seq entries flat_map] in E. fold (entries t (seq (S a) len)) in E.
  destruct (name_at t a) as [nm|] eqn:Na.
  - destruct k; [lia|discriminate E].
  - destruct (Nat.eq_dec q a) as [X|X]; [subst q; exact Na|]. apply (IH (S a) k K E). lia.
Qed.

(** What happens to descriptor n when the names of the positions in l are handled. *)
Definition hit (lowfd fd_dir n : nat) : bool := negb (n =? fd_dir) && (lowfd <=? n).
Lemma name_parse : forall t q n, name_at t q = Some n ->
  pos_int_from_ascii 0 n = if q <? 2 then None else Some (q - 2).
Proof.
  intros t q n H. unfold name_at in H. destruct (q =? 0) eqn:E0; [apply Nat.eqb_eq in E0; subst q; injection H as <-; reflexivity|].
  destruct (q =? 1) eqn:E1; [apply Nat.eqb_eq in E1; subst q; injection H as <-; reflexivity|].
  apply Nat.eqb_neq in E0. apply Nat.eqb_neq in E1. destruct (t (q - 2)); [|discriminate]. injection H as <-.
  assert (E : q <? 2 = false) by (apply Nat.ltb_ge; lia). rewrite E. apply parse_decimal.
Qed.
Lemma close_names_spec : forall lowfd fd_dir t0 l t, (forall q n, In (q, n) l -> name_at t0 q = Some n) ->
  forall n, close_names lowfd fd_dir t (map snd l) n =
    if hit lowfd fd_dir n && existsb (fun e => fst e =? n + 2) l then None else t n.
Proof.
  intros lowfd fd_dir t0. unfold close_names. induction l as [|[q nm] l IH]; intros t H n; cbn [map fold_left existsb snd fst].
  - rewrite andb_false_r. reflexivity.
  - rewrite IH by (intros q' n' H'; apply H; right; exact H').
    pose proof (name_parse t0 q nm (H q nm (or_introl eq_refl))) as P.
    rewrite P. clear P IH.
    set (ex := existsb (fun e => fst e =? n + 2) l). clearbody ex.
    destruct (q <? 2) eqn:Q2.
    + apply Nat.ltb_lt in Q2. assert (Q3 : q =? n + 2 = false) by (apply Nat.eqb_neq; lia). rewrite Q3. reflexivity.
    + apply Nat.ltb_ge in Q2. unfold hit.
      destruct (negb (q - 2 =? fd_dir) && (lowfd <=? q - 2)) eqn:Hq.
      * unfold close_fd, set_fd. destruct (n =? q - 2) eqn:Nq.
        -- apply Nat.eqb_eq in Nq. subst n. rewrite Hq. assert (Q3 : q =? q - 2 + 2 = true) by (apply Nat.eqb_eq; lia). rewrite Q3.
           cbn [orb andb]. destruct ex; reflexivity.
        -- apply Nat.eqb_neq in Nq. assert (Q3 : q =? n + 2 = false) by (apply Nat.eqb_neq; lia). rewrite Q3. cbn [orb]. reflexivity.
      * destruct (n =? q - 2) eqn:Nq.
        -- apply Nat.eqb_eq in Nq. subst n. rewrite Hq. reflexivity.
        -- apply Nat.eqb_neq in Nq. assert (Q3 : q =? n + 2 = false) by (apply Nat.eqb_neq; lia). rewrite Q3. reflexivity.
Qed.
Lemma loop_spec : forall fuel fit i lowfd fd_dir b pos t, (forall j, exists k, fit j = Some (S k)) -> bounded t b ->
  b + 2 - pos < fuel ->
  exists t', closefrom_loop fuel fit i lowfd fd_dir b pos t = Some t'
    /\ forall n, t' n = if hit lowfd fd_dir n && (pos <=? n + 2) then None else t n.
Proof.
  induction fuel as [|f IH]; intros fit i lowfd fd_dir b pos t F Bd Hf; [lia|]. cbn [closefrom_loop].
  destruct (F i) as (k & ->). unfold getdents, present. fold (entries t (seq pos (b + 2 - pos))).
  set (l := firstn (S k) (entries t (seq pos (b + 2 - pos)))).
  change (match rev l with [] => pos | (p, _) :: _ => S p end) with (endpos l pos).
  destruct l as [|x r] eqn:El.
  - cbn [map]. exists t. split; [reflexivity|]. intro n.
    destruct (hit lowfd fd_dir n && (pos <=? n + 2)) eqn:E; [|reflexivity]. apply andb_prop in E. destruct E as [_ E]. apply Nat.leb_le in E.
    destruct (le_lt_dec b n) as [L|L]; [apply Bd; exact L|].
    pose proof (entries_nil t (b + 2 - pos) pos (S k) ltac:(lia) El (n + 2) ltac:(lia)) as N. unfold name_at in N.
    assert (E0 : n + 2 =? 0 = false) by (apply Nat.eqb_neq; lia). assert (E1 : n + 2 =? 1 = false) by (apply Nat.eqb_neq; lia).
    rewrite E0, E1 in N. replace (n + 2 - 2) with n in N by lia. destruct (t n); [discriminate N|reflexivity].
  - destruct (entries_spec t _ _ _ (x :: r) El ltac:(discriminate) pos) as (I1 & I2 & I3).
    cbn [map]. change (snd x :: map snd r) with (map snd (x :: r)).
    assert (CN := close_names_spec lowfd fd_dir t (x :: r) t (fun q n H => proj2 (I1 q n H))).
    destruct (IH fit (S i) lowfd fd_dir b (endpos (x :: r) pos) (close_names lowfd fd_dir t (map snd (x :: r)))) as (t' & E & T).
    + exact F.
    + intros n H. rewrite CN. destruct (_ && _); [reflexivity|apply Bd; exact H].
    + lia.
    + exists t'. split; [exact E|]. intro n. rewrite T, CN.
      destruct (hit lowfd fd_dir n) eqn:Hh; cbn [andb]; [|reflexivity].
      destruct (endpos (x :: r) pos <=? n + 2) eqn:E1.
      * apply Nat.leb_le in E1. assert (E2 : pos <=? n + 2 = true) by (apply Nat.leb_le; lia). rewrite E2. reflexivity.
      * apply Nat.leb_gt in E1. destruct (existsb (fun e => fst e =? n + 2) (x :: r)) eqn:E2.
        -- apply existsb_exists in E2. destruct E2 as ([q nm] & I & Q). cbn [fst] in Q. apply Nat.eqb_eq in Q. subst q.
           destruct (I1 _ _ I) as [L _]. assert (E3 : pos <=? n + 2 = true) by (apply Nat.leb_le; lia). rewrite E3. reflexivity.
        -- destruct (pos <=? n + 2) eqn:E3; [|reflexivity]. apply Nat.leb_le in E3.
           destruct (t n) as [d|] eqn:Tn; [|reflexivity]. exfalso.
           assert (Nm : name_at t (n + 2) = Some (decimal n)).
           { unfold name_at. assert (E0 : n + 2 =? 0 = false) by (apply Nat.eqb_neq; lia). assert (E4 : n + 2 =? 1 = false) by (apply Nat.eqb_neq; lia).
             rewrite E0, E4. replace (n + 2 - 2) with n by lia. rewrite Tn. reflexivity. }
           specialize (I2 _ _ (conj E3 E1) Nm).
           assert (X : existsb (fun e => fst e =? n + 2) (x :: r) = true).
           { apply existsb_exists. exists (n + 2, decimal n). split; [exact I2|apply Nat.eqb_refl]. }
           congruence.
Qed.
Lemma free_spec : forall t b, bounded t b -> lowest_free t b <= b /\ t (lowest_free t b) = None
  /\ forall n, n < lowest_free t b -> t n <> None.
Proof.
  intros t b Bd. unfold lowest_free.
  assert (G : forall len a, (exists n, a <= n < a + len /\ t n = None) ->
    exists n, find (fun n => match t n with None => true | Some _ => false end) (seq a len) = Some n
      /\ a <= n < a + len /\ t n = None /\ forall m, a <= m < n -> t m <> None).
  { induction len as [|len IH]; intros a (n & H & Tn); [lia|]. cbn [seq find]. destruct (t a) eqn:Ta.
    - destruct (IH (S a)) as (m & E & R & Tm & L).
      + exists n. split; [|exact Tn]. destruct (Nat.eq_dec n a) as [X|X]; [subst n; congruence|lia].
      + exists m. split; [exact E|]. split; [lia|]. split; [exact Tm|]. intros x Hx. destruct (Nat.eq_dec x a) as [X|X]; [subst x; congruence|apply L; lia].
    - exists a. split; [reflexivity|]. split; [lia|]. split; [exact Ta|]. intros; lia. }
  destruct (G (S b) 0) as (n & -> & R & Tn & L).
  - exists b. split; [lia|apply Bd; lia].
  - split; [lia|]. split; [exact Tn|]. intros m Hm. apply L. lia.
Qed.
Theorem closefrom_spec : forall max_fd fit lowfd b t, bounded t b -> (forall j, exists k, fit j = Some (S k)) ->
  exists t', closefrom true max_fd fit lowfd b t = Some t' /\ forall n, t' n = if n <? lowfd then t n else None.
Proof.
  intros max_fd fit lowfd b t Bd F. unfold closefrom. destruct (free_spec t b Bd) as (L & Tf & _).
  set (fd := lowest_free t b) in *.
  destruct (loop_spec (b + 4) fit 0 lowfd fd (S b) 0 (set_fd t fd (Some (Other 0)))) as (t' & -> & T).
  - exact F.
  - intros n H. rewrite set_other by lia. apply Bd. lia.
  - lia.
  - exists (close_fd t' fd). split; [reflexivity|]. intro n. unfold close_fd, set_fd at 1. destruct (n =? fd) eqn:E.
    + apply Nat.eqb_eq in E. subst n. rewrite Tf. destruct (fd <? lowfd); reflexivity.
    + rewrite T. unfold hit. rewrite E. cbn [negb andb]. rewrite andb_true_r. rewrite set_other by (apply Nat.eqb_neq; exact E).
      rewrite Nat.ltb_antisym. destruct (lowfd <=? n); reflexivity.
Qed.
Theorem brute_spec : forall max_fd fit lowfd b t,
  exists t', closefrom false max_fd fit lowfd b t = Some t'
   /\ forall n, t' n = if (lowfd <=? n) && (n <=? match max_fd with Some m => m | None => Nat.pow 2 14 end) then None else t n.
Proof.
  intros max_fd fit lowfd b t. unfold closefrom, closefrom_brute. set (m := match max_fd with Some m => m | None => _ end). clearbody m.
  eexists. split; [reflexivity|]. intro n.
  assert (G : forall len a t, fold_left close_fd (seq a len) t n = if (a <=? n) && (n <? a + len) then None else t n).
  { clear. induction len as [|len IH]; intros a t; cbn [seq fold_left].
    - destruct (a <=? n) eqn:E1; [|reflexivity]. assert (E2 : n <? a + 0 = false) by (apply Nat.ltb_ge; apply Nat.leb_le in E1; lia). rewrite E2. reflexivity.
    - rewrite IH. unfold close_fd, set_fd. destruct (Nat.eq_dec n a) as [X|X].
      + subst n. rewrite Nat.eqb_refl. assert (E1 : a <=? a = true) by (apply Nat.leb_le; lia). assert (E2 : a <? a + S len = true) by (apply Nat.ltb_lt; lia).
        rewrite E1, E2. destruct (_ && _); reflexivity.
      + assert (E0 : n =? a = false) by (apply Nat.eqb_neq; exact X). rewrite E0.
        assert (E : (S a <=? n) && (n <? S a + len) = (a <=? n) && (n <? a + S len)).
        { apply eq_true_iff_eq. rewrite !andb_true_iff, !Nat.leb_le, !Nat.ltb_lt. lia. }
        rewrite E. reflexivity. }
  rewrite G. assert (E : (lowfd <=? n) && (n <? lowfd + (S m - lowfd)) = (lowfd <=? n) && (n <=? m)).
  { apply eq_true_iff_eq. rewrite !andb_true_iff, !Nat.leb_le, !Nat.ltb_lt. lia. }
  rewrite E. reflexivity.
Qed.

(** ** Streams *)
Lemma wire_one_same : forall t fd slot, wire_one t fd slot slot =
  if (0 <=? fd)%Z then match t (Z.to_nat fd) with Some d => Some d | None => t slot end else t slot.
Proof. intros. unfold wire_one, dup2. destruct (0 <=? fd)%Z; [|reflexivity]. destruct (t (Z.to_nat fd)); [apply set_same|reflexivity]. Qed.
Lemma wire_one_other : forall t fd slot n, n <> slot -> wire_one t fd slot n = t n.
Proof. intros. unfold wire_one, dup2. destruct (0 <=? fd)%Z; [|reflexivity]. destruct (t (Z.to_nat fd)); [apply set_other; assumption|reflexivity]. Qed.
Definition slot_value (t : table) (slot : nat) (fd : Z) : option desc :=
  if (0 <=? fd)%Z then match t (Z.to_nat fd) with Some d => Some d | None => t slot end else t slot.
Definition disjoint (slot : nat) (fd : Z) : Prop := (fd < 0)%Z \/ Z.to_nat fd = slot \/ 3 <= Z.to_nat fd.
Lemma wire_spec : forall t i o e, disjoint 0 i -> disjoint 1 o -> disjoint 2 e ->
  wire t i o e 0 = slot_value t 0 i /\ wire t i o e 1 = slot_value t 1 o /\ wire t i o e 2 = slot_value t 2 e
  /\ forall n, 3 <= n -> wire t i o e n = t n.
Proof.
  intros t i o e Di Do De. unfold wire. split; [|split; [|split]].
  - rewrite !wire_one_other by lia. apply wire_one_same.
  - rewrite wire_one_other by lia. rewrite wire_one_same. unfold slot_value. destruct (0 <=? o)%Z eqn:E; [|apply wire_one_other; lia].
    apply Z.leb_le in E. destruct Do as [H|H]; [lia|]. rewrite !wire_one_other by lia. reflexivity.
  - rewrite wire_one_same. unfold slot_value. destruct (0 <=? e)%Z eqn:E; [|rewrite !wire_one_other by lia; reflexivity].
    apply Z.leb_le in E. destruct De as [H|H]; [lia|]. rewrite !wire_one_other by lia. reflexivity.
  - intros n H. rewrite !wire_one_other by lia. reflexivity.
Qed.

(** One stream set up in the judge: old descriptors stay, new ones are the pipe's, from 3 on. *)
Lemma init_stream_spec : forall reads t b id s t' e, bounded t b -> standard_open t -> init_stream reads t b id s = (t', e) ->
  bounded t' (b + 2) /\ standard_open t' /\ (forall n, t n <> None -> t' n = t n)
  /\ match s with
     | Pipe => exists c j, child_fd e = Z.of_nat c /\ judge_fd e = Some j /\ needs_close e = true /\ 3 <= c /\ 3 <= j /\ c <> j
                /\ t c = None /\ t j = None
                /\ t' c = Some (if reads then PipeRead id else PipeWrite id)
                /\ t' j = Some (if reads then PipeWrite id else PipeRead id)
                /\ forall n, n <> c -> n <> j -> t' n = t n
     | Number fd => t' = t /\ child_fd e = fd /\ judge_fd e = None /\ needs_close e = false
     | Inherit => t' = t /\ child_fd e = (-1)%Z /\ judge_fd e = None /\ needs_close e = false
     end.
Proof.
  intros reads t b id s t' e Bd (O0 & O1 & O2) E. unfold init_stream in E. destruct s as [|fd|].
  - unfold os_pipe in E. destruct (free_spec t b Bd) as (L1 & F1 & M1). set (r := lowest_free t b) in *.
    set (t1 := set_fd t r (Some (PipeRead id))) in *.
    assert (Bd1 : bounded t1 (S b)). { intros n H. unfold t1. rewrite set_other by lia. apply Bd. lia. }
    destruct (free_spec t1 (S b) Bd1) as (L2 & F2 & M2). set (w := lowest_free t1 (S b)) in *. clearbody w r.
    assert (R3 : 3 <= r). { destruct r as [|[|[|r]]]; try congruence; lia. }
    assert (Wr : w <> r). { intro X. subst w. unfold t1 in F2. rewrite set_same in F2. discriminate. }
    assert (F2' : t w = None). { unfold t1 in F2. rewrite set_other in F2 by exact Wr. exact F2. }
    assert (W3 : 3 <= w). { destruct w as [|[|[|w]]]; try congruence; lia. }
    assert (K : forall n, n <> r -> n <> w -> set_fd t1 w (Some (PipeWrite id)) n = t n).
    { intros n A C. rewrite set_other by exact C. unfold t1. apply set_other. exact A. }
    assert (Kr : set_fd t1 w (Some (PipeWrite id)) r = Some (PipeRead id)).
    { rewrite set_other by (intro X; apply Wr; symmetry; exact X). apply set_same. }
    assert (Kw : set_fd t1 w (Some (PipeWrite id)) w = Some (PipeWrite id)) by apply set_same.
    injection E as <- <-. split; [|split; [|split]].
    + intros n H. rewrite K by lia. apply Bd. lia.
    + unfold standard_open. rewrite !K by lia. split; [exact O0|split; [exact O1|exact O2]].
    + intros n H. apply K; intro X; subst n; congruence.
    + destruct reads; cbn [child_fd judge_fd needs_close].
      * exists r, w. split; [reflexivity|]. split; [reflexivity|]. split; [reflexivity|]. split; [exact R3|]. split; [exact W3|].
        split; [intro X; apply Wr; symmetry; exact X|]. split; [exact F1|]. split; [exact F2'|]. split; [exact Kr|]. split; [exact Kw|exact K].
      * exists w, r. split; [reflexivity|]. split; [reflexivity|]. split; [reflexivity|]. split; [exact W3|]. split; [exact R3|].
        split; [exact Wr|]. split; [exact F2'|]. split; [exact F1|]. split; [exact Kw|]. split; [exact Kr|]. intros n A C. apply K; assumption.
  - injection E as <- <-. split; [intros n H; apply Bd; lia|]. split; [split; [exact O0|split; [exact O1|exact O2]]|].
    split; [reflexivity|]. cbn. split; [reflexivity|split; [reflexivity|split; reflexivity]].
  - injection E as <- <-. split; [intros n H; apply Bd; lia|]. split; [split; [exact O0|split; [exact O1|exact O2]]|].
    split; [reflexivity|]. cbn. split; [reflexivity|split; [reflexivity|split; reflexivity]].
Qed.
(** What a stream contributes, seen from a later table that kept it. *)
Lemma stream_ready : forall slot reads t b id s t' e tf, bounded t b -> standard_open t -> reads = (slot =? 0) ->
  init_stream reads t b id s = (t', e) -> (forall n, t' n <> None -> tf n = t' n) ->
  forall t0, (forall n, t0 n <> None -> t n = t0 n) -> standard_open t0 -> slot < 3 -> sensible t0 slot s ->
  disjoint slot (child_fd e) /\ slot_value tf slot (child_fd e) = wanted t0 slot id s.
Proof.
  intros slot reads t b id s t' e tf Bd O R E K t0 K0 O0 Sl Se.
  destruct (init_stream_spec reads t b id s t' e Bd O E) as (_ & _ & K1 & C). destruct s as [|fd|].
  - destruct C as (c & j & -> & _ & _ & C3 & _ & _ & _ & _ & Tc & _). split; [right; right; lia|].
    unfold slot_value. assert (Z0 : (0 <=? Z.of_nat c)%Z = true) by (apply Z.leb_le; lia). rewrite Z0, Nat2Z.id, (K c) by congruence.
    rewrite Tc, R. cbn [wanted]. reflexivity.
  - destruct C as (-> & -> & _). destruct Se as (n & -> & Hn & D). split; [right; rewrite Nat2Z.id; exact D|].
    unfold slot_value. assert (Z0 : (0 <=? Z.of_nat n)%Z = true) by (apply Z.leb_le; lia). rewrite Z0, Nat2Z.id.
    cbn [wanted]. rewrite Nat2Z.id. rewrite (K n) by (rewrite (K0 n Hn); exact Hn). rewrite (K0 n Hn). destruct (t0 n); [reflexivity|congruence].
  - destruct C as (-> & -> & _). split; [left; lia|]. unfold slot_value. cbn [Z.leb Z.compare wanted].
    assert (H0 : t0 slot <> None). { destruct O0 as (A & C & D). destruct slot as [|[|[|x]]]; [exact A|exact C|exact D|lia]. }
    rewrite (K slot) by (rewrite (K0 slot H0); exact H0). apply K0. exact H0.
Qed.
Theorem streams_child : forall t b i o e tj ei eo ee max_fd fit,
  bounded t b -> standard_open t -> sensible t 0 i -> sensible t 1 o -> sensible t 2 e ->
  init_streams t b i o e = (tj, ei, eo, ee) -> (forall j, exists k, fit j = Some (S k)) ->
  exists tc, child_table true max_fd fit (b + 6) tj (child_fd ei) (child_fd eo) (child_fd ee) = Some tc
   /\ tc 0 = wanted t 0 0 i /\ tc 1 = wanted t 1 1 o /\ tc 2 = wanted t 2 2 e /\ forall n, 3 <= n -> tc n = None.
Proof.
  intros t b i o e tj ei eo ee max_fd fit Bd O Si So Se E F. unfold init_streams in E.
  destruct (init_stream true t b 0 i) as [t1 e1] eqn:E1. destruct (init_stream false t1 (b + 2) 1 o) as [t2 e2] eqn:E2.
  destruct (init_stream false t2 (b + 4) 2 e) as [t3 e3] eqn:E3. injection E as <- <- <- <-.
  destruct (init_stream_spec _ _ _ _ _ _ _ Bd O E1) as (B1 & O1 & K1 & _).
  destruct (init_stream_spec _ _ _ _ _ _ _ B1 O1 E2) as (B2 & O2 & K2 & _). replace (b + 2 + 2) with (b + 4) in B2 by lia.
  destruct (init_stream_spec _ _ _ _ _ _ _ B2 O2 E3) as (B3 & O3 & K3 & _). replace (b + 4 + 2) with (b + 6) in B3 by lia.
  assert (K23 : forall n, t1 n <> None -> t3 n = t1 n). { intros n H. rewrite (K3 n) by (rewrite (K2 n H); exact H). apply K2. exact H. }
  assert (K02 : forall n, t n <> None -> t2 n = t n). { intros n H. rewrite (K2 n) by (rewrite (K1 n H); exact H). apply K1. exact H. }
  destruct (stream_ready 0 true t b 0 i t1 e1 t3 Bd O eq_refl E1 K23 t (fun n _ => eq_refl) O ltac:(lia) Si) as (D0 & V0).
  destruct (stream_ready 1 false t1 (b + 2) 1 o t2 e2 t3 B1 O1 eq_refl E2 K3 t K1 O ltac:(lia) So) as (D1 & V1).
  destruct (stream_ready 2 false t2 (b + 4) 2 e t3 e3 t3 B2 O2 eq_refl E3 (fun n _ => eq_refl) t K02 O ltac:(lia) Se) as (D2 & V2).
  destruct (wire_spec t3 _ _ _ D0 D1 D2) as (W0 & W1 & W2 & Wn).
  unfold child_table. destruct (closefrom_spec max_fd fit 3 (b + 6) (wire t3 (child_fd e1) (child_fd e2) (child_fd e3))) as (tc & Ec & Tc).
  - intros n H. rewrite Wn by lia. apply B3. exact H.
  - exact F.
  - exists tc. split; [exact Ec|]. rewrite (Tc 0), (Tc 1), (Tc 2). cbn [Nat.ltb Nat.leb]. rewrite W0, W1, W2.
    split; [exact V0|]. split; [exact V1|]. split; [exact V2|]. intros n H. rewrite Tc.
    assert (Hn : n <? 3 = false) by (apply Nat.ltb_ge; exact H). rewrite Hn. reflexivity.
Qed.

Lemma close_end_other : forall t e n, (needs_close e = true -> Z.to_nat (child_fd e) <> n) -> close_end t e n = t n.
Proof. intros t e n H. unfold close_end. destruct (needs_close e); [|reflexivity]. apply set_other. intro X. apply (H eq_refl). symmetry. exact X. Qed.
Lemma close_end_none : forall t e n, t n = None -> close_end t e n = None.
Proof. intros t e n H. unfold close_end. destruct (needs_close e); [|exact H]. unfold close_fd, set_fd. destruct (n =? _); [reflexivity|exact H]. Qed.
(** What the judge holds afterwards: what it had, and its own end of each pipe. *)
Lemma stream_left : forall slot reads t b id s t' e, bounded t b -> standard_open t -> reads = (slot =? 0) ->
  init_stream reads t b id s = (t', e) ->
  (forall n, close_end t' e n = match s with
     | Pipe => if match judge_fd e with Some j => n =? j | None => false end
               then Some (if slot =? 0 then PipeWrite id else PipeRead id) else t n
     | _ => t n end)
  /\ (needs_close e = true -> t (Z.to_nat (child_fd e)) = None)
  /\ match s with Pipe => exists j, judge_fd e = Some j /\ t j = None | _ => judge_fd e = None end.
Proof.
  intros slot reads t b id s t' e Bd O R E. destruct (init_stream_spec _ _ _ _ _ _ _ Bd O E) as (_ & _ & _ & C). destruct s as [|fd|].
  - destruct C as (c & j & Ec & Ej & En & _ & _ & Cj & Tc & Tj & Tc' & Tj' & K). rewrite Ec, Nat2Z.id.
    split; [|split; [intros _; exact Tc|exists j; split; [exact Ej|exact Tj]]].
    intro n. unfold close_end. rewrite En, Ec, Ej, Nat2Z.id. unfold close_fd, set_fd. destruct (n =? c) eqn:X.
    + apply Nat.eqb_eq in X. subst n. assert (Y : c =? j = false) by (apply Nat.eqb_neq; exact Cj). rewrite Y. symmetry. exact Tc.
    + apply Nat.eqb_neq in X. destruct (n =? j) eqn:Y; [apply Nat.eqb_eq in Y; subst n; rewrite Tj', R; reflexivity|].
      apply K; [exact X|apply Nat.eqb_neq; exact Y].
  - destruct C as (-> & _ & Ej & En). split; [|split; [rewrite En; discriminate|exact Ej]]. intro n. unfold close_end. rewrite En. reflexivity.
  - destruct C as (-> & _ & Ej & En). split; [|split; [rewrite En; discriminate|exact Ej]]. intro n. unfold close_end. rewrite En. reflexivity.
Qed.
Theorem streams_judge : forall t b i o e tj ei eo ee,
  bounded t b -> standard_open t -> no_pipes t -> init_streams t b i o e = (tj, ei, eo, ee) ->
  let left := judge_table tj ei eo ee in
  holds_other_end left 0 0 i ei /\ holds_other_end left 1 1 o eo /\ holds_other_end left 2 2 e ee
  /\ (forall n, t n <> None -> left n = t n)
  /\ (forall n, left n <> Some (PipeRead 0) /\ left n <> Some (PipeWrite 1) /\ left n <> Some (PipeWrite 2)).
Proof.
  intros t b i o e tj ei eo ee Bd O NP E. unfold init_streams in E.
  destruct (init_stream true t b 0 i) as [t1 e1] eqn:E1. destruct (init_stream false t1 (b + 2) 1 o) as [t2 e2] eqn:E2.
  destruct (init_stream false t2 (b + 4) 2 e) as [t3 e3] eqn:E3. injection E as <- <- <- <-.
  destruct (init_stream_spec _ _ _ _ _ _ _ Bd O E1) as (B1 & O1 & K1 & C1).
  destruct (init_stream_spec _ _ _ _ _ _ _ B1 O1 E2) as (B2 & O2 & K2 & C2). replace (b + 2 + 2) with (b + 4) in B2 by lia.
  destruct (init_stream_spec _ _ _ _ _ _ _ B2 O2 E3) as (B3 & O3 & K3 & C3).
  (* positions of the new descriptors *)
  assert (P : forall n, judge_table t3 e1 e2 e3 n =
     if match i with Pipe => match judge_fd e1 with Some j => n =? j | None => false end | _ => false end then Some (PipeWrite 0)
     else if match o with Pipe => match judge_fd e2 with Some j => n =? j | None => false end | _ => false end then Some (PipeRead 1)
     else if match e with Pipe => match judge_fd e3 with Some j => n =? j | None => false end | _ => false end then Some (PipeRead 2)
     else t n).
  { intro n. unfold judge_table.
    destruct (stream_left 0 true t b 0 i t1 e1 Bd O eq_refl E1) as (L1 & N1 & J1).
    destruct (stream_left 1 false t1 (b + 2) 1 o t2 e2 B1 O1 eq_refl E2) as (L2 & N2 & J2).
    destruct (stream_left 2 false t2 (b + 4) 2 e t3 e3 B2 O2 eq_refl E3) as (L3 & N3 & J3).
    (* closing commutes: compute pointwise *)
    assert (Sw : close_end (close_end (close_end t3 e1) e2) e3 n = 
       if (needs_close e1 && (n =? Z.to_nat (child_fd e1))) then None else if (needs_close e2 && (n =? Z.to_nat (child_fd e2))) then None else close_end t3 e3 n).
    { unfold close_end, close_fd, set_fd. destruct (needs_close e1), (needs_close e2), (needs_close e3); cbn [andb];
        destruct (n =? Z.to_nat (child_fd e1)), (n =? Z.to_nat (child_fd e2)), (n =? Z.to_nat (child_fd e3)); reflexivity. }
    rewrite Sw, L3. specialize (L2 n). specialize (L1 n). unfold close_end, close_fd, set_fd in L1, L2. cbn [Nat.eqb] in L1, L2. cbn [Nat.eqb]. clear Sw L3.
    (* facts that new descriptors are distinct *)
    assert (Q1 : needs_close e1 = true -> t1 (Z.to_nat (child_fd e1)) <> None).
    { intro H. destruct i as [|fd|]; [|destruct C1 as (_ & _ & _ & C1); congruence|destruct C1 as (_ & _ & _ & C1); congruence].
      destruct C1 as (c & j & Ec & _ & _ & _ & _ & _ & _ & _ & Tc & _). rewrite Ec, Nat2Z.id, Tc. discriminate. }
    assert (Q2 : needs_close e2 = true -> t2 (Z.to_nat (child_fd e2)) <> None).
    { intro H. destruct o as [|fd|]; [|destruct C2 as (_ & _ & _ & C2); congruence|destruct C2 as (_ & _ & _ & C2); congruence].
      destruct C2 as (c & j & Ec & _ & _ & _ & _ & _ & _ & _ & Tc & _). rewrite Ec, Nat2Z.id, Tc. discriminate. }
    assert (R1 : match i with Pipe => exists j, judge_fd e1 = Some j /\ t j = None /\ t1 j = Some (PipeWrite 0) /\ Z.to_nat (child_fd e1) <> j | _ => True end).
    { destruct i as [|fd|]; [|exact I|exact I]. destruct C1 as (c & j & Ec & Ej & _ & _ & _ & Cj & _ & Tj & _ & Tj' & _). exists j.
      rewrite Ec, Nat2Z.id. split; [exact Ej|]. split; [exact Tj|]. split; [exact Tj'|exact Cj]. }
    assert (R2 : match o with Pipe => exists j, judge_fd e2 = Some j /\ t1 j = None /\ t2 j = Some (PipeRead 1) /\ Z.to_nat (child_fd e2) <> j | _ => True end).
    { destruct o as [|fd|]; [|exact I|exact I]. destruct C2 as (c & j & Ec & Ej & _ & _ & _ & Cj & _ & Tj & _ & Tj' & _). exists j.
      rewrite Ec, Nat2Z.id. split; [exact Ej|]. split; [exact Tj|]. split; [exact Tj'|exact Cj]. }
    assert (R3 : match e with Pipe => exists j, judge_fd e3 = Some j /\ t2 j = None | _ => True end) by (destruct e; [exact J3|exact I|exact I]).
    (* the value in t2 *)
    assert (V3 : match e with Pipe => if match judge_fd e3 with Some j => n =? j | None => false end then Some (PipeRead 2) else t2 n | _ => t2 n end
      = if match e with Pipe => match judge_fd e3 with Some j => n =? j | None => false end | _ => false end then Some (PipeRead 2) else t2 n) by (destruct e; reflexivity).
    cbn [Nat.eqb]. rewrite V3. clear V3.
    set (p3 := match e with Pipe => match judge_fd e3 with Some j => n =? j | None => false end | _ => false end).
    assert (X3 : p3 = true -> t2 n = None).
    { unfold p3. destruct e; try discriminate. destruct R3 as (j & Ej & Tj). rewrite Ej. intro H. apply Nat.eqb_eq in H. subst n. exact Tj. }
    clearbody p3. clear C3 R3 J3.
    assert (V2 : (if needs_close e2 && (n =? Z.to_nat (child_fd e2)) then None else t2 n)
      = if match o with Pipe => match judge_fd e2 with Some j => n =? j | None => false end | _ => false end then Some (PipeRead 1) else t1 n).
    { destruct (needs_close e2); cbn [andb]; rewrite L2; destruct o; reflexivity. }
    set (p2 := match o with Pipe => match judge_fd e2 with Some j => n =? j | None => false end | _ => false end) in *.
    assert (X2 : p2 = true -> t1 n = None /\ t2 n <> None).
    { unfold p2. destruct o; try discriminate. destruct R2 as (j & Ej & Tj & Tj' & _). rewrite Ej. intro H. apply Nat.eqb_eq in H. subst n. split; [exact Tj|congruence]. }
    clearbody p2. clear R2 J2 C2 L2.
    assert (V1 : (if needs_close e1 && (n =? Z.to_nat (child_fd e1)) then None else t1 n)
      = if match i with Pipe => match judge_fd e1 with Some j => n =? j | None => false end | _ => false end then Some (PipeWrite 0) else t n).
    { destruct (needs_close e1); cbn [andb]; rewrite L1; destruct i; reflexivity. }
    set (p1 := match i with Pipe => match judge_fd e1 with Some j => n =? j | None => false end | _ => false end) in *.
    assert (X1 : p1 = true -> t n = None /\ t1 n <> None).
    { unfold p1. destruct i; try discriminate. destruct R1 as (j & Ej & Tj & Tj' & _). rewrite Ej. intro H. apply Nat.eqb_eq in H. subst n. split; [exact Tj|congruence]. }
    clearbody p1. clear R1 J1 C1 L1.
    assert (H2 : t1 n <> None -> t2 n <> None) by (intros H; rewrite (K2 n H); exact H).
    destruct (needs_close e1 && (n =? Z.to_nat (child_fd e1))) eqn:D1.
    - apply andb_prop in D1. destruct D1 as [D1 Dn]. apply Nat.eqb_eq in Dn. specialize (Q1 D1). rewrite <- Dn in Q1.
      assert (p2 = false) by (destruct p2; [destruct (X2 eq_refl); congruence|reflexivity]). subst p2.
      assert (p3 = false) by (destruct p3; [specialize (X3 eq_refl); exfalso; exact (H2 Q1 X3)|reflexivity]). subst p3.
      destruct p1; [congruence|]. exact V1.
    - destruct p1.
      + destruct (X1 eq_refl) as [A C]. assert (p2 = false) by (destruct p2; [destruct (X2 eq_refl); congruence|reflexivity]). subst p2.
        assert (p3 = false) by (destruct p3; [specialize (X3 eq_refl); exfalso; exact (H2 C X3)|reflexivity]). subst p3.
        rewrite <- V1. exact V2.
      + destruct (needs_close e2 && (n =? Z.to_nat (child_fd e2))) eqn:D2.
        * apply andb_prop in D2. destruct D2 as [D2 Dn]. apply Nat.eqb_eq in Dn. specialize (Q2 D2). rewrite <- Dn in Q2.
          assert (p3 = false) by (destruct p3; [specialize (X3 eq_refl); congruence|reflexivity]). subst p3.
          destruct p2; [congruence|]. rewrite <- V1. exact V2.
        * destruct p2; [|rewrite <- V1, <- V2; reflexivity].
          destruct (X2 eq_refl) as [A C]. assert (p3 = false) by (destruct p3; [specialize (X3 eq_refl); congruence|reflexivity]). subst p3. exact V2. }
  assert (D12 : forall j1 j2, i = Pipe -> o = Pipe -> judge_fd e1 = Some j1 -> judge_fd e2 = Some j2 -> j2 <> j1).
  { intros j1 j2 -> -> X1 X2 X. subst j2. destruct C1 as (c & j & _ & Ej & _ & _ & _ & _ & _ & _ & _ & T1 & _).
    destruct C2 as (c' & j' & _ & Ej' & _ & _ & _ & _ & _ & T1' & _). congruence. }
  assert (D13 : forall j1 j2, i = Pipe -> e = Pipe -> judge_fd e1 = Some j1 -> judge_fd e3 = Some j2 -> j2 <> j1).
  { intros j1 j2 -> -> X1 X2 X. subst j2. destruct C1 as (c & j & _ & Ej & _ & _ & _ & _ & _ & _ & _ & T1 & _).
    destruct C3 as (c' & j' & _ & Ej' & _ & _ & _ & _ & _ & T1' & _). assert (j = j') by congruence. subst j'. rewrite (K2 j) in T1' by congruence. congruence. }
  assert (D23 : forall j1 j2, o = Pipe -> e = Pipe -> judge_fd e2 = Some j1 -> judge_fd e3 = Some j2 -> j2 <> j1).
  { intros j1 j2 -> -> X1 X2 X. subst j2. destruct C2 as (c & j & _ & Ej & _ & _ & _ & _ & _ & _ & _ & T1 & _).
    destruct C3 as (c' & j' & _ & Ej' & _ & _ & _ & _ & _ & T1' & _). congruence. }
  intro left. unfold left. clear left. split; [|split; [|split; [|split]]].
  - destruct i as [|fd|]; cbn [holds_other_end]; [|apply C1|apply C1]. destruct C1 as (c & j & _ & Ej & _). exists j. split; [exact Ej|].
    rewrite P, Ej, Nat.eqb_refl. reflexivity.
  - destruct o as [|fd|]; cbn [holds_other_end]; [|apply C2|apply C2]. destruct C2 as (c & j & _ & Ej & _). exists j. split; [exact Ej|].
    rewrite P, Ej, Nat.eqb_refl. destruct i as [|fd|]; [|reflexivity|reflexivity]. destruct (judge_fd e1) as [j1|] eqn:J1; [|reflexivity].
    destruct (j =? j1) eqn:X; [|reflexivity]. apply Nat.eqb_eq in X. exfalso. exact (D12 j1 j eq_refl eq_refl eq_refl Ej X).
  - destruct e as [|fd|]; cbn [holds_other_end]; [|apply C3|apply C3]. destruct C3 as (c & j & _ & Ej & _). exists j. split; [exact Ej|].
    rewrite P, Ej, Nat.eqb_refl.
    assert (A1 : match i with Pipe => match judge_fd e1 with Some j0 => j =? j0 | None => false end | _ => false end = false).
    { destruct i as [|fd|]; [|reflexivity|reflexivity]. destruct (judge_fd e1) as [j1|] eqn:J1; [|reflexivity]. apply Nat.eqb_neq. exact (D13 j1 j eq_refl eq_refl eq_refl Ej). }
    assert (A2 : match o with Pipe => match judge_fd e2 with Some j0 => j =? j0 | None => false end | _ => false end = false).
    { destruct o as [|fd|]; [|reflexivity|reflexivity]. destruct (judge_fd e2) as [j1|] eqn:J1; [|reflexivity]. apply Nat.eqb_neq. exact (D23 j1 j eq_refl eq_refl eq_refl Ej). }
    rewrite A1, A2. reflexivity.
  - intros n H. rewrite P.
    assert (A1 : match i with Pipe => match judge_fd e1 with Some j0 => n =? j0 | None => false end | _ => false end = false).
    { destruct i as [|fd|]; [|reflexivity|reflexivity]. destruct C1 as (c & j & _ & Ej & _ & _ & _ & _ & _ & Tj & _). rewrite Ej. apply Nat.eqb_neq. intro X. subst n. congruence. }
    assert (A2 : match o with Pipe => match judge_fd e2 with Some j0 => n =? j0 | None => false end | _ => false end = false).
    { destruct o as [|fd|]; [|reflexivity|reflexivity]. destruct C2 as (c & j & _ & Ej & _ & _ & _ & _ & _ & Tj & _). rewrite Ej. apply Nat.eqb_neq. intro X. subst n.
      rewrite (K1 j H) in Tj. congruence. }
    assert (A3 : match e with Pipe => match judge_fd e3 with Some j0 => n =? j0 | None => false end | _ => false end = false).
    { destruct e as [|fd|]; [|reflexivity|reflexivity]. destruct C3 as (c & j & _ & Ej & _ & _ & _ & _ & _ & Tj & _). rewrite Ej. apply Nat.eqb_neq. intro X. subst n.
      rewrite (K2 j) in Tj by (rewrite (K1 j H); exact H). rewrite (K1 j H) in Tj. congruence. }
    rewrite A1, A2, A3. reflexivity.
  - intro n. rewrite P. destruct (NP n 0) as [X0 _]. destruct (NP n 1) as [_ X1]. destruct (NP n 2) as [_ X2].
    destruct (match i with Pipe => _ | _ => _ end); [repeat split; discriminate|]. destruct (match o with Pipe => _ | _ => _ end); [repeat split; discriminate|].
    destruct (match e with Pipe => _ | _ => _ end); [repeat split; discriminate|]. split; [exact X0|split; [exact X1|exact X2]].
Qed.

(** ** Limits *)
Lemma res_eqb_refl : forall r, res_eqb r r = true.
Proof. intros []; reflexivity. Qed.
Lemma res_eqb_eq : forall a b, res_eqb a b = true -> a = b.
Proof. intros [] []; intro H; try reflexivity; discriminate. Qed.
Lemma set_ok : forall p l r s h, limits_ok l -> limits_ok (setrlimit p l r s h).
Proof.
  intros p l r s h O. unfold setrlimit. destruct (h <? s)%N eqn:E; [exact O|]. cbn [orb]. destruct (negb p && _); [exact O|].
  apply N.ltb_ge in E. intro r'. destruct (res_eqb r' r); [exact E|apply O].
Qed.
(** However the call goes, the soft limit ends below the requested one when the hard limit is
    at most one above. *)
Lemma set_bound : forall p l r s h, limits_ok l -> (s <= h <= s + 1)%N ->
  (fst (setrlimit p l r s h r) <= s)%N.
Proof.
  intros p l r s h O H. unfold setrlimit. assert (E : (h <? s)%N = false) by (apply N.ltb_ge; lia). rewrite E. cbn [orb].
  destruct (negb p && (snd (l r) <? h)%N) eqn:E2.
  - apply andb_prop in E2. destruct E2 as [_ E2]. apply N.ltb_lt in E2. specialize (O r). lia.
  - rewrite res_eqb_refl. cbn [fst]. lia.
Qed.
Lemma set_elsewhere : forall p l r s h r', r' <> r -> setrlimit p l r s h r' = l r'.
Proof.
  intros p l r s h r' H. unfold setrlimit. destruct (_ || _); [reflexivity|]. destruct (res_eqb r' r) eqn:E; [|reflexivity].
  apply res_eqb_eq in E. congruence.
Qed.
Lemma set_granted : forall p l r s h, (s <= h)%N -> p = true \/ (h <= snd (l r))%N -> setrlimit p l r s h r = (s, h).
Proof.
  intros p l r s h H G. unfold setrlimit. assert (E : (h <? s)%N = false) by (apply N.ltb_ge; exact H). rewrite E. cbn [orb].
  assert (E2 : negb p && (snd (l r) <? h)%N = false).
  { destruct G as [->|G]; [reflexivity|]. destruct p; [reflexivity|]. cbn [negb andb]. apply N.ltb_ge. exact G. }
  rewrite E2, res_eqb_refl. reflexivity.
Qed.
Lemma set_hard : forall l r s h r', (snd (setrlimit false l r s h r') <= snd (l r'))%N.
Proof.
  intros l r s h r'. unfold setrlimit. destruct (h <? s)%N; cbn [orb negb andb]; [lia|]. destruct (snd (l r) <? h)%N eqn:E; [lia|].
  apply N.ltb_ge in E. destruct (res_eqb r' r) eqn:E2; [|lia]. apply res_eqb_eq in E2. subst r'. exact E.
Qed.
Definition only (p : bool) (on : bool) (l : rlimits) r s h : N * N := if on then setrlimit p l r s h r else l r.
Lemma apply_each : forall p c l,
  apply_limits p c l AS = only p (negb (c_address c =? 0)%N) l AS (c_address c) (c_address c)
  /\ apply_limits p c l DATA = only p (negb (c_memory c =? 0)%N) l DATA (c_memory c) (c_memory c)
  /\ apply_limits p c l CPU = only p (negb (c_cpu c =? 0)%N) l CPU (c_cpu c) (c_cpu c + 1)%N
  /\ apply_limits p c l NPROC = only p (0 <=? c_nproc c)%Z l NPROC (Z.to_N (c_nproc c)) (Z.to_N (c_nproc c))
  /\ apply_limits p c l FSIZE = only p (0 <=? c_fsize c)%Z l FSIZE (Z.to_N (c_fsize c)) (Z.to_N (c_fsize c))
  /\ apply_limits p c l STACK = only p true l STACK INFINITY INFINITY
  /\ apply_limits p c l CORE = only p true l CORE 0%N 0%N.
Proof.
  intros p c l.
  assert (G : forall l1 l2 r s h, l1 r = l2 r -> setrlimit p l1 r s h r = setrlimit p l2 r s h r).
  { intros l1 l2 r s h H. unfold setrlimit. rewrite H. destruct (_ || _); [exact H|]. rewrite res_eqb_refl. reflexivity. }
  assert (O : forall (on : bool) l r s h r', r' <> r -> (if on then setrlimit p l r s h else l) r' = l r').
  { intros on l0 r s h r' H. destruct on; [apply set_elsewhere; exact H|reflexivity]. }
  assert (I : forall (on : bool) l1 l2 r s h, l1 r = l2 r -> (if on then setrlimit p l1 r s h else l1) r = only p on l2 r s h).
  { intros on l1 l2 r s h H. unfold only. destruct on; [apply G; exact H|exact H]. }
  unfold apply_limits.
  assert (S1 : forall l r s h r', r' <> r -> setrlimit p l r s h r' = l r') by (intros; apply set_elsewhere; assumption).
  repeat split.
  - rewrite !S1 by discriminate. rewrite !O by discriminate. apply I. reflexivity.
  - rewrite !S1 by discriminate. rewrite !O by discriminate. apply I. rewrite !O by discriminate. reflexivity.
  - rewrite !S1 by discriminate. rewrite !O by discriminate. apply I. rewrite !O by discriminate. reflexivity.
  - rewrite !S1 by discriminate. rewrite !O by discriminate. apply I. rewrite !O by discriminate. reflexivity.
  - rewrite !S1 by discriminate. apply I. rewrite !O by discriminate. reflexivity.
  - rewrite !S1 by discriminate. apply (I true). rewrite !O by discriminate. reflexivity.
  - apply (I true). rewrite !S1 by discriminate. rewrite !O by discriminate. reflexivity.
Qed.
Lemma cpu_value : forall time m ag dg np fs, (0 < time)%Q ->
  let c := c_cpu (child_config time m ag dg np fs) in
  (c <> 0)%N /\ (time < inject_Z (Z.of_N c))%Q /\ (inject_Z (Z.of_N c) <= time + 5)%Q.
Proof.
  intros time m ag dg np fs T c. unfold c, child_config. cbn [c_cpu].
  assert (E : Qeq_bool time 0 = false). { destruct (Qeq_bool time 0) eqn:E; [|reflexivity]. apply Qeq_bool_eq in E. rewrite E in T. discriminate T. }
  rewrite E. pose proof (Qfloor_le (time + 5)) as L. pose proof (Qlt_floor (time + 5)) as U.
  rewrite inject_Z_plus in U. change (inject_Z 1) with 1%Q in U.
  assert (P : (5 <= Qfloor (time + 5))%Z).
  { change 5%Z with (Qfloor 5). apply Qfloor_resp_le. rewrite <- (Qplus_0_l 5) at 1. apply Qplus_le_l. apply Qlt_le_weak. exact T. }
  rewrite Z2N.id by lia. split; [lia|]. split; [|exact L].
  apply (Qplus_lt_l _ _ 1). apply Qlt_trans with (2 := U). apply Qplus_lt_r. reflexivity.
Qed.

(** The limits of a launch. *)
Section Limits.
  Variables (p : bool) (time : Q) (memory address_grace data_grace : N) (nproc fsize : Z) (l : rlimits).
  Hypothesis O : limits_ok l.
  Let r := apply_limits p (child_config time memory address_grace data_grace nproc fsize) l.
  Theorem cpu_bound : (0 < time)%Q ->
    let cpu := Z.to_N (Qfloor (time + 5)) in
    (fst (r CPU) <= cpu)%N /\ (p = true \/ (cpu + 1 <= snd (l CPU))%N -> r CPU = (cpu, (cpu + 1)%N))
    /\ (time < inject_Z (Z.of_N cpu))%Q /\ (inject_Z (Z.of_N cpu) <= time + 5)%Q.
  Proof.
    intros T cpu. destruct (cpu_value time memory address_grace data_grace nproc fsize T) as (Z0 & A & C).
    assert (E : c_cpu (child_config time memory address_grace data_grace nproc fsize) = cpu).
    { unfold child_config. cbn [c_cpu]. assert (X : Qeq_bool time 0 = false). { destruct (Qeq_bool time 0) eqn:X; [|reflexivity]. apply Qeq_bool_eq in X. rewrite X in T. discriminate. } rewrite X. reflexivity. }
    unfold r. destruct (apply_each p (child_config time memory address_grace data_grace nproc fsize) l) as (_ & _ & -> & _).
    rewrite E in *. unfold only. apply N.eqb_neq in Z0. rewrite Z0. cbn [negb]. split; [apply set_bound; [exact O|lia]|].
    split; [intro G; apply set_granted; [lia|exact G]|]. split; assumption.
  Qed.
  Theorem memory_bound : (0 < memory)%N ->
    (fst (r AS) <= (memory + address_grace) * 1024)%N /\ (fst (r DATA) <= (memory + data_grace) * 1024)%N
    /\ (p = true \/ ((memory + address_grace) * 1024 <= snd (l AS))%N -> r AS = ((memory + address_grace) * 1024, (memory + address_grace) * 1024)%N)
    /\ (p = true \/ ((memory + data_grace) * 1024 <= snd (l DATA))%N -> r DATA = ((memory + data_grace) * 1024, (memory + data_grace) * 1024)%N).
  Proof.
    intro M. unfold r. destruct (apply_each p (child_config time memory address_grace data_grace nproc fsize) l) as (-> & -> & _).
    unfold only, child_config. cbn [c_address c_memory]. assert (E : (memory =? 0)%N = false) by (apply N.eqb_neq; lia). rewrite E.
    assert (E2 : (memory * 1024 + address_grace * 1024 =? 0)%N = false) by (apply N.eqb_neq; lia). rewrite E2.
    assert (E3 : (memory * 1024 + data_grace * 1024 =? 0)%N = false) by (apply N.eqb_neq; lia). rewrite E3. cbn [negb].
    replace (memory * 1024 + address_grace * 1024)%N with ((memory + address_grace) * 1024)%N by lia.
    replace (memory * 1024 + data_grace * 1024)%N with ((memory + data_grace) * 1024)%N by lia.
    split; [apply set_bound; [exact O|lia]|]. split; [apply set_bound; [exact O|lia]|].
    split; intro G; apply set_granted; try exact G; lia.
  Qed.
  Theorem core_zero : r CORE = (0, 0)%N.
  Proof.
    unfold r. destruct (apply_each p (child_config time memory address_grace data_grace nproc fsize) l) as (_ & _ & _ & _ & _ & _ & ->).
    apply set_granted; [lia|]. right. lia.
  Qed.
  Theorem count_bounds :
    (if (0 <=? nproc)%Z then (fst (r NPROC) <= Z.to_N nproc)%N else r NPROC = l NPROC)
    /\ (if (0 <=? fsize)%Z then (fst (r FSIZE) <= Z.to_N fsize)%N else r FSIZE = l FSIZE).
  Proof.
    unfold r. destruct (apply_each p (child_config time memory address_grace data_grace nproc fsize) l) as (_ & _ & _ & -> & -> & _).
    unfold only, child_config. cbn [c_nproc c_fsize]. split.
    - destruct (0 <=? nproc)%Z; [apply set_bound; [exact O|lia]|reflexivity].
    - destruct (0 <=? fsize)%Z; [apply set_bound; [exact O|lia]|reflexivity].
  Qed.
  (** Nothing the judge may not raise is raised, and the result is well formed. *)
  Theorem hard_kept : p = false -> forall x, (snd (r x) <= snd (l x))%N.
  Proof.
    intros -> x. unfold r. destruct (apply_each false (child_config time memory address_grace data_grace nproc fsize) l) as (A & C & D & E & F & G & H).
    assert (K : forall on y s h, (snd (only false on l y s h) <= snd (l y))%N) by (intros [] y s h; [apply set_hard|apply N.le_refl]).
    destruct x; [rewrite A|rewrite C|rewrite D|rewrite E|rewrite F|rewrite G|rewrite H]; apply K.
  Qed.
  Theorem limits_kept : limits_ok r.
  Proof.
    intro x. unfold r. destruct (apply_each p (child_config time memory address_grace data_grace nproc fsize) l) as (A & C & D & E & F & G & H).
    assert (K : forall on y s h, (fst (only p on l y s h) <= snd (only p on l y s h))%N) by (intros [] y s h; [apply (set_ok p l y s h O)|apply O]).
    destruct x; [rewrite A|rewrite C|rewrite D|rewrite E|rewrite F|rewrite G|rewrite H]; apply K.
  Qed.
  Theorem stack_unlimited : p = true \/ (INFINITY <= snd (l STACK))%N -> r STACK = (INFINITY, INFINITY).
  Proof.
    intro G. unfold r. destruct (apply_each p (child_config time memory address_grace data_grace nproc fsize) l) as (_ & _ & _ & _ & _ & -> & _).
    apply set_granted; [lia|exact G].
  Qed.
  (** No limit asked for, none set. *)
  Theorem no_cpu : (time == 0)%Q -> r CPU = l CPU.
  Proof.
    intro T. unfold r. destruct (apply_each p (child_config time memory address_grace data_grace nproc fsize) l) as (_ & _ & -> & _).
    unfold only, child_config. cbn [c_cpu]. assert (X : Qeq_bool time 0 = true) by (apply Qeq_eq_bool; exact T). rewrite X. reflexivity.
  Qed.
  Theorem no_memory : memory = 0%N -> r AS = l AS.
  Proof.
    intros ->. unfold r. destruct (apply_each p (child_config time 0 address_grace data_grace nproc fsize) l) as (-> & _). reflexivity.
  Qed.
End Limits.
Theorem wall_default : forall t, (0 < t)%Q -> (t < wall_limit t None)%Q /\ (wall_limit t None == 3 * t)%Q /\ forall w, wall_limit t (Some w) = w.
Proof. intros t T. unfold wall_limit. split; [|split; [ring|reflexivity]]. rewrite <- (Qmult_1_r t) at 1. apply Qmult_lt_l; [exact T|reflexivity]. Qed.

(** ** Where it goes wrong *)
Definition three : table := fun n => if n <? 5 then Some (Other n) else None.
(** A failing getdents ends the closing without the fallback. *)
Theorem getdents_fails : exists t', closefrom true None (fun _ => None) 3 5 three = Some t' /\ t' 4 = Some (Other 4).
Proof. eexists. split; reflexivity. Qed.
(** Streams that use each other's numbers overwrite one another. *)
Theorem crossed : wire three 1 0 2 1 = Some (Other 1) /\ wire three 1 0 2 0 = Some (Other 1).
Proof. split; reflexivity. Qed.
(** A negative number, such as subprocess.STDOUT, leaves the judge's own stream in place. *)
Theorem negative_inherits : forall t, wire t (-1) (-1) (-2) 2 = t 2.
Proof. reflexivity. Qed.
