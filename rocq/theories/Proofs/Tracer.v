From Coq Require Import String.
From Verif Require Import Model.Bytes Model.Access Model.SyscallTables Model.Tracer Spec.Tracer.
Local Open Scope list_scope.

(** ** Names and numbers *)
Lemma lookup_cons : forall k v l name, lookup name ((k, v) :: l) = if String.eqb k name then Some v else lookup name l.
Proof. reflexivity. Qed.

Lemma alias_line_lookup : forall names l i name,
  lookup name (alias_line l i names) = if existsb (fun k => String.eqb k name) names then Some i else lookup name l.
Proof.
  unfold alias_line. induction names as [|k r IH]; intros l i name; [reflexivity|].
  cbn [fold_left existsb]. rewrite IH. rewrite lookup_cons.
  destruct (String.eqb k name), (existsb (fun k => String.eqb k name) r); reflexivity.
Qed.

Lemma alias_line_snd : forall names l i v, In v (map snd (alias_line l i names)) -> v = i \/ In v (map snd l).
Proof.
  unfold alias_line. induction names as [|k r IH]; intros l i v H; [right; exact H|].
  cbn [fold_left] in H. destruct (IH _ _ _ H) as [E|E]; [left; exact E|].
  cbn [map In snd] in E. destruct E as [E|E]; [left; symmetry; exact E|right; exact E].
Qed.

Lemma existsb_name : forall names name, existsb (fun k => String.eqb k name) names = true <-> In name names.
Proof.
  intros names name. rewrite existsb_exists. split.
  - intros (x & Hx & E). apply String.eqb_eq in E. subst. exact Hx.
  - intro H. exists name. split; [exact H|apply String.eqb_refl].
Qed.

Lemma alias_lines_lookup : forall lines i l name k,
  lookup name (alias_lines i l lines) = Some k ->
  (exists line, i <= k /\ nth_error lines (k - i) = Some line /\ In name line)
  \/ lookup name l = Some k.
Proof.
  induction lines as [|ns r IH]; intros i l name k H; [right; exact H|].
  cbn [alias_lines] in H. destruct (IH _ _ _ _ H) as [(line & Hle & Hn & Hin)|E].
  - left. exists line. split; [lia|]. split; [|exact Hin].
    replace (k - i) with (S (k - S i)) by lia. exact Hn.
  - rewrite alias_line_lookup in E.
    destruct (existsb (fun k => String.eqb k name) ns) eqn:X; [|right; exact E].
    injection E as <-. left. exists ns. split; [lia|]. rewrite Nat.sub_diag. split; [reflexivity|].
    apply existsb_name. exact X.
Qed.

Lemma alias_lines_known : forall lines i l name,
  ((exists line, In line lines /\ In name line) \/ lookup name l <> None) ->
  lookup name (alias_lines i l lines) <> None.
Proof.
  induction lines as [|ns r IH]; intros i l name H.
  - destruct H as [(line & [] & _)|H]; exact H.
  - cbn [alias_lines]. apply IH. destruct H as [(line & [E|Hl] & Hin)|H].
    + subst ns. right. rewrite alias_line_lookup.
      rewrite (proj2 (existsb_name line name) Hin). discriminate.
    + left. exists line. split; assumption.
    + right. rewrite alias_line_lookup. destruct (existsb _ ns); [discriminate|exact H].
Qed.

Lemma lookup_in_snd : forall l name k, lookup name l = Some k -> In k (map snd l).
Proof.
  induction l as [|[a v] r IH]; intros name k H; [discriminate|].
  rewrite lookup_cons in H. destruct (String.eqb a name).
  - injection H as <-. left. reflexivity.
  - right. exact (IH _ _ H).
Qed.

Lemma max_bound : forall l k, In k l -> k <= fold_right Nat.max 0 l.
Proof.
  induction l as [|x r IH]; intros k H; [destruct H|].
  cbn [fold_right]. destruct H as [E|H]; [subst; lia|]. specialize (IH _ H). lia.
Qed.

(** The state after reading the rows [done] (table, number, name). *)
Record Inv (lines : list (list string)) (done : list (nat * N * string)) (st : ids) : Prop := {
  inv_rows : forall key ix n, In (key, ix, n) (rows st) <-> exists name, In (ix, n, name) done /\ lookup name (by_name st) = Some key;
  inv_max : forall name k, lookup name (by_name st) = Some k -> k <= max_id st;
  inv_same : forall a b k, lookup a (by_name st) = Some k -> lookup b (by_name st) = Some k -> same_call lines a b;
  inv_alias : forall a k line, lookup a (by_name st) = Some k -> In line lines -> In a line ->
              exists line', nth_error lines k = Some line' /\ In a line';
  inv_known : forall name, (exists line, In line lines /\ In name line) \/ (exists ix n, In (ix, n, name) done) ->
              lookup name (by_name st) <> None;
  inv_only : forall name, lookup name (by_name st) <> None ->
             (exists line, In line lines /\ In name line) \/ (exists ix n, In (ix, n, name) done)
}.

Lemma inv_start : forall lines, Inv lines [] (aliased lines).
Proof.
  intro lines. unfold aliased.
  assert (A : forall name k, lookup name (alias_lines 0 [] lines) = Some k ->
              exists line, nth_error lines k = Some line /\ In name line).
  { intros name k H. destruct (alias_lines_lookup _ _ _ _ _ H) as [(line & _ & Hn & Hin)|E]; [|discriminate].
    rewrite Nat.sub_0_r in Hn. exists line. split; assumption. }
  constructor; cbn [by_name max_id rows].
  - intros key ix n. split; [intros []|]. intros (name & [] & _).
  - intros name k H. apply max_bound. exact (lookup_in_snd _ _ _ H).
  - intros a b k Ha Hb. right. destruct (A _ _ Ha) as (la & Ea & Ia). destruct (A _ _ Hb) as (lb & Eb & Ib).
    assert (la = lb) by congruence. subst lb. exists la. split; [exact (nth_error_In _ _ Ea)|split; assumption].
  - intros a k line H _ _. exact (A _ _ H).
  - intros name [H|(ix & n & [])]. apply alias_lines_known. left. exact H.
  - intros name H. left. destruct (lookup name (alias_lines 0 [] lines)) as [k|] eqn:E; [|contradiction].
    destruct (A _ _ E) as (line & Hn & Hin). exists line. split; [exact (nth_error_In _ _ Hn)|exact Hin].
Qed.

Lemma inv_row : forall lines done st ix n name,
  Inv lines done st -> Inv lines (done ++ [(ix, n, name)]) (add_row ix st (n, name)).
Proof.
  intros lines done st ix n name [Hr Hm Hs Ha Hk Ho]. unfold add_row, alloc_id. cbn [fst snd].
  destruct (lookup name (by_name st)) as [i|] eqn:L.
  - constructor; cbn [by_name max_id rows].
    + intros key ix' n'. rewrite in_app_iff, Hr. split.
      * intros [(nm & Hin & El)|[E|[]]].
        -- exists nm. split; [apply in_app_iff; left; exact Hin|exact El].
        -- injection E as <- <- <-. exists name. split; [apply in_app_iff; right; left; reflexivity|exact L].
      * intros (nm & Hin & El). apply in_app_iff in Hin. destruct Hin as [Hin|[E|[]]].
        -- left. exists nm. split; assumption.
        -- injection E as <- <- <-. right. left. congruence.
    + exact Hm.
    + exact Hs.
    + exact Ha.
    + intros nm [H|(ix' & n' & Hin)]; [apply Hk; left; exact H|].
      apply in_app_iff in Hin. destruct Hin as [Hin|[E|[]]]; [apply Hk; right; exists ix', n'; exact Hin|].
      injection E as _ _ <-. congruence.
    + intros nm H. destruct (Ho nm H) as [X|(ix' & n' & X)]; [left; exact X|].
      right. exists ix', n'. apply in_app_iff. left. exact X.
  - assert (Fresh : forall nm k, lookup nm (by_name st) = Some k -> k <> S (max_id st)).
    { intros nm k E X. specialize (Hm _ _ E). lia. }
    assert (LK : forall nm, lookup nm ((name, S (max_id st)) :: by_name st)
                 = if String.eqb name nm then Some (S (max_id st)) else lookup nm (by_name st)) by reflexivity.
    assert (Keep : forall nm k, lookup nm (by_name st) = Some k -> String.eqb name nm = false).
    { intros nm k E. apply String.eqb_neq. intros ->. congruence. }
    constructor; cbn [by_name max_id rows].
    + intros key ix' n'. rewrite in_app_iff, Hr. split.
      * intros [(nm & Hin & El)|[E|[]]].
        -- exists nm. split; [apply in_app_iff; left; exact Hin|]. rewrite LK, (Keep _ _ El). exact El.
        -- injection E as <- <- <-. exists name. split; [apply in_app_iff; right; left; reflexivity|].
           rewrite LK, String.eqb_refl. reflexivity.
      * intros (nm & Hin & El). rewrite LK in El. apply in_app_iff in Hin.
        destruct (String.eqb name nm) eqn:En.
        -- apply String.eqb_eq in En. subst nm. injection El as <-.
           destruct Hin as [Hin|[E|[]]].
           ++ exfalso. apply (Hk name); [right; exists ix', n'; exact Hin|exact L].
           ++ injection E as <- <-. right. left. reflexivity.
        -- destruct Hin as [Hin|[E|[]]]; [left; exists nm; split; assumption|].
           injection E as _ _ <-. rewrite String.eqb_refl in En. discriminate.
    + intros nm k E. rewrite LK in E. destruct (String.eqb name nm); [injection E as <-; lia|].
      specialize (Hm _ _ E). lia.
    + intros a b k Ea Eb. rewrite LK in Ea, Eb.
      destruct (String.eqb name a) eqn:Na, (String.eqb name b) eqn:Nb.
      * apply String.eqb_eq in Na, Nb. left. congruence.
      * injection Ea as <-. exfalso. exact (Fresh _ _ Eb eq_refl).
      * injection Eb as <-. exfalso. exact (Fresh _ _ Ea eq_refl).
      * exact (Hs _ _ _ Ea Eb).
    + intros a k line E Hl Hin. rewrite LK in E. destruct (String.eqb name a) eqn:Na.
      * apply String.eqb_eq in Na. subst a. exfalso. apply (Hk name); [left; exists line; split; assumption|exact L].
      * exact (Ha _ _ _ E Hl Hin).
    + intros nm H. rewrite LK. destruct (String.eqb name nm) eqn:Na; [discriminate|].
      apply Hk. destruct H as [H|(ix' & n' & Hin)]; [left; exact H|].
      apply in_app_iff in Hin. destruct Hin as [Hin|[E|[]]]; [right; exists ix', n'; exact Hin|].
      injection E as _ _ <-. rewrite String.eqb_refl in Na. discriminate.
    + intros nm H. rewrite LK in H. destruct (String.eqb name nm) eqn:Na.
      * apply String.eqb_eq in Na. subst nm. right. exists ix, n. apply in_app_iff. right. left. reflexivity.
      * destruct (Ho nm H) as [X|(ix' & n' & X)]; [left; exact X|].
        right. exists ix', n'. apply in_app_iff. left. exact X.
Qed.

Definition tagged (ix : nat) (t : list (N * string)) : list (nat * N * string) := map (fun r => (ix, fst r, snd r)) t.
Fixpoint all_rows (ix : nat) (tables : list (list (N * string))) : list (nat * N * string) :=
  match tables with [] => [] | t :: r => tagged ix t ++ all_rows (S ix) r end.

Lemma inv_table : forall t lines done st ix,
  Inv lines done st -> Inv lines (done ++ tagged ix t) (fold_left (add_row ix) t st).
Proof.
  induction t as [|[n name] r IH]; intros lines done st ix H.
  - cbn. rewrite app_nil_r. exact H.
  - cbn [fold_left tagged map fst snd]. change (map _ r) with (tagged ix r).
    change ((ix, n, name) :: tagged ix r) with ([(ix, n, name)] ++ tagged ix r).
    rewrite app_assoc. apply IH. apply inv_row. exact H.
Qed.
Lemma inv_tables : forall tables lines done st ix,
  Inv lines done st -> Inv lines (done ++ all_rows ix tables) (add_tables ix st tables).
Proof.
  induction tables as [|t r IH]; intros lines done st ix H.
  - cbn. rewrite app_nil_r. exact H.
  - cbn [add_tables all_rows]. rewrite app_assoc. apply IH. apply inv_table. exact H.
Qed.
Lemma inv_create : forall lines tables, Inv lines (all_rows 0 tables) (create lines tables).
Proof. intros. apply (inv_tables tables lines [] _ 0). apply inv_start. Qed.

Lemma tagged_in : forall t ix ix' n name, In (ix', n, name) (tagged ix t) <-> ix' = ix /\ In (n, name) t.
Proof.
  intros. unfold tagged. rewrite in_map_iff. split.
  - intros ([a b] & E & H). cbn in E. injection E as <- <- <-. split; [reflexivity|exact H].
  - intros [-> H]. exists (n, name). split; [reflexivity|exact H].
Qed.
Lemma all_rows_in : forall tables ix ix' n name,
  In (ix', n, name) (all_rows ix tables) <-> ix <= ix' /\ In (n, name) (nth (ix' - ix) tables []).
Proof.
  induction tables as [|t r IH]; intros ix ix' n name.
  - cbn [all_rows]. split; [intros []|]. intros [_ H]. destruct (ix' - ix); destruct H.
  - cbn [all_rows]. rewrite in_app_iff, tagged_in, IH. split.
    + intros [[-> H]|[Hle H]]; [rewrite Nat.sub_diag; split; [lia|exact H]|].
      split; [lia|]. replace (ix' - ix) with (S (ix' - S ix)) by lia. exact H.
    + intros [Hle H]. destruct (Nat.eq_dec ix ix') as [E|E].
      * subst ix'. rewrite Nat.sub_diag in H. left. split; [reflexivity|exact H].
      * right. split; [lia|]. replace (ix' - ix) with (S (ix' - S ix)) in H by lia. exact H.
Qed.

(** ids to numbers *)
Lemma translator_spec : forall lines tables i ix n,
  let st := create lines tables in
  In n (translator st i ix) <-> exists name, In (n, name) (nth ix tables []) /\ lookup name (by_name st) = Some i.
Proof.
  intros lines tables i ix n st. unfold translator. rewrite in_map_iff.
  destruct (inv_create lines tables) as [Hr _ _ _ _ _]. fold st in Hr. split.
  - intros ([[k x] m] & E & H). cbn in E. subst m. apply filter_In in H. cbn [fst snd] in H.
    destruct H as [H T]. apply andb_true_iff in T. destruct T as [T1 T2].
    apply Nat.eqb_eq in T1, T2. subst k x. apply Hr in H. destruct H as (name & Hin & El).
    apply all_rows_in in Hin. rewrite Nat.sub_0_r in Hin. exists name. split; [exact (proj2 Hin)|exact El].
  - intros (name & Hin & El). exists (i, ix, n). split; [reflexivity|]. apply filter_In. cbn [fst snd].
    rewrite !Nat.eqb_refl. split; [|reflexivity]. apply Hr. exists name. split; [|exact El].
    apply all_rows_in. rewrite Nat.sub_0_r. split; [lia|exact Hin].
Qed.

(** names of one call share an id, others do not *)
Lemma nodup_lines : forall (lines : list (list string)) i j l m a, NoDup (concat lines) ->
  nth_error lines i = Some l -> nth_error lines j = Some m -> In a l -> In a m -> i = j.
Proof.
  induction lines as [|x r IH]; intros i j l m a ND Hi Hj Hl Hm; [destruct i; discriminate|].
  cbn [concat] in ND.
  assert (Sep : forall k y, nth_error r k = Some y -> In a y -> In a x -> False).
  { intros k y E Hy Hx. assert (In a (concat r)) by (apply in_concat; exists y; split; [exact (nth_error_In _ _ E)|exact Hy]).
    clear -ND Hx H. induction x as [|b x IH]; [destruct Hx|]. cbn in ND. inversion ND as [|? ? N1 N2]; subst.
    destruct Hx as [->|Hx]; [apply N1; apply in_app_iff; right; exact H|exact (IH N2 Hx)]. }
  destruct i as [|i], j as [|j].
  - reflexivity.
  - injection Hi as <-. exfalso. exact (Sep _ _ Hj Hm Hl).
  - injection Hj as <-. exfalso. exact (Sep _ _ Hi Hl Hm).
  - f_equal. apply (IH i j l m a); [|assumption..]. clear -ND. induction x as [|b x IH]; [exact ND|].
    cbn in ND. inversion ND. apply IH. assumption.
Qed.

Lemma ids_same : forall lines tables a b i j, NoDup (concat lines) ->
  let st := create lines tables in
  lookup a (by_name st) = Some i -> lookup b (by_name st) = Some j ->
  (i = j <-> same_call lines a b).
Proof.
  intros lines tables a b i j ND st Ha Hb.
  destruct (inv_create lines tables) as [_ _ Hs Hal _ _]. fold st in Hs, Hal. split.
  - intros <-. exact (Hs _ _ _ Ha Hb).
  - intros [E|(line & Hl & Ia & Ib)]; [subst b; congruence|].
    destruct (Hal _ _ _ Ha Hl Ia) as (la & Ea & Ja). destruct (Hal _ _ _ Hb Hl Ib) as (lb & Eb & Jb).
    destruct (In_nth_error _ _ Hl) as (k & Ek).
    rewrite (nodup_lines lines i k la line a ND Ea Ek Ja Ia).
    rewrite (nodup_lines lines j k lb line b ND Eb Ek Jb Ib). reflexivity.
Qed.

Lemma classic_in : forall (l : list (nat * nat * N)) a c, (exists i, In (a, i, c) l) \/ (forall i, ~ In (a, i, c) l).
Proof.
  induction l as [|[[a' i'] c'] r IH]; intros a c; [right; intros i []|].
  destruct (IH a c) as [(i & H)|H]; [left; exists i; right; exact H|].
  destruct (Nat.eq_dec a' a) as [->|Na].
  - destruct (N.eq_dec c' c) as [->|Nc]; [left; exists i'; left; reflexivity|].
    right. intros i [E|X]; [injection E; congruence|exact (H i X)].
  - right. intros i [E|X]; [injection E; congruence|exact (H i X)].
Qed.

Section Policy.
Context {F : Type}.
Implicit Types sec : list (nat * hval F).

Lemma security_dict_get : forall st (policy : list (string * hval F)) acc sec i,
  security_dict st policy acc = Some sec ->
  (forall n h, In (n, h) policy -> lookup n (by_name st) <> Some i) ->
  security_get sec i = security_get acc i.
Proof.
  intro st. induction policy as [|[n h] r IH]; intros acc sec i E H; [injection E as <-; reflexivity|].
  cbn [security_dict] in E. destruct (lookup n (by_name st)) as [k|] eqn:L; [|discriminate].
  rewrite (IH _ _ i E) by (intros n' h' Hin; apply (H n' h'); right; exact Hin).
  cbn [security_get]. destruct (k =? i) eqn:X; [|reflexivity].
  apply Nat.eqb_eq in X. subst k. exfalso. exact (H n h (or_introl eq_refl) L).
Qed.
Lemma security_dict_last : forall st (p q : list (string * hval F)) n h acc sec i,
  security_dict st (p ++ (n, h) :: q) acc = Some sec -> lookup n (by_name st) = Some i ->
  (forall n' h', In (n', h') q -> lookup n' (by_name st) <> Some i) ->
  security_get sec i = h.
Proof.
  intros st. induction p as [|[n0 h0] p IH]; intros q n h acc sec i E L H.
  - cbn [app security_dict] in E. rewrite L in E. rewrite (security_dict_get _ _ _ _ i E H).
    cbn [security_get]. rewrite Nat.eqb_refl. reflexivity.
  - cbn [app security_dict] in E. destruct (lookup n0 (by_name st)) as [k|]; [|discriminate].
    exact (IH _ _ _ _ _ _ E L H).
Qed.
Lemma security_dict_known : forall st (policy : list (string * hval F)) acc sec,
  security_dict st policy acc = Some sec -> forall n h, In (n, h) policy -> exists i, lookup n (by_name st) = Some i.
Proof.
  intro st. induction policy as [|[n h] r IH]; intros acc sec E n' h' Hin; [destruct Hin|].
  cbn [security_dict] in E. destruct (lookup n (by_name st)) as [k|] eqn:L; [|discriminate].
  destruct Hin as [X|Hin]; [injection X as <- <-; exists k; exact L|]. exact (IH _ _ E _ _ Hin).
Qed.
Lemma security_dict_total : forall st (policy : list (string * hval F)) acc,
  (forall n h, In (n, h) policy -> lookup n (by_name st) <> None) -> exists sec, security_dict st policy acc = Some sec.
Proof.
  intro st. induction policy as [|[n h] r IH]; intros acc H; [exists acc; reflexivity|].
  cbn [security_dict]. destruct (lookup n (by_name st)) as [k|] eqn:L; [|exfalso; exact (H n h (or_introl eq_refl) L)].
  apply IH. intros n' h' Hin. apply (H n' h'). right. exact Hin.
Qed.

(** ** The tables *)
Definition flat (st : ids) (supported : list nat) : list (nat * nat * N) :=
  flat_map (fun abi => flat_map (fun i => map (fun c => (abi, i, c)) (translator st i (syscall_index abi)))
                                (seq 0 (syscall_count st))) supported.
Lemma fold_flat_map : forall A B C (f : C -> B -> C) (g : A -> list B) (l : list A) (c : C),
  fold_left f (flat_map g l) c = fold_left (fun c a => fold_left f (g a) c) l c.
Proof.
  intros A B C f g. induction l as [|a r IH]; intro c; [reflexivity|].
  cbn [flat_map fold_left]. rewrite fold_left_app, IH. reflexivity.
Qed.
Lemma fold_map : forall A B C (f : C -> B -> C) (g : A -> B) (l : list A) (c : C),
  fold_left f (map g l) c = fold_left (fun c a => f c (g a)) l c.
Proof. intros A B C f g. induction l as [|a r IH]; intro c; [reflexivity|]. cbn. apply IH. Qed.
Lemma fold_ext : forall A C (f g : C -> A -> C), (forall c a, f c a = g c a) -> forall l c, fold_left f l c = fold_left g l c.
Proof. intros A C f g H. induction l as [|a r IH]; intro c; [reflexivity|]. cbn. rewrite H. apply IH. Qed.

Definition put sec (t : option (tables F)) (e : nat * nat * N) : option (tables F) :=
  install (security_get sec (snd (fst e))) t (fst (fst e)) (snd e).
Lemma build_flat : forall st sec supported,
  build st sec supported = fold_left (put sec) (flat st supported) (Some empty_tables).
Proof.
  intros. unfold build, flat. rewrite fold_flat_map. apply fold_ext. intros t abi.
  unfold install_abi. rewrite fold_flat_map. apply fold_ext. intros t' i.
  unfold install_id. rewrite fold_map. reflexivity.
Qed.

Definition code (h : hval F) : N := match h with Num n => n | Fn _ => 2%N end.
Definition cb (h : hval F) : option F := match h with Num _ => None | Fn f => Some f end.
Lemma put_all : forall sec l,
  (forall a i c, In (a, i, c) l -> (c < MAX_SYSCALL)%N) ->
  (forall a i j c, In (a, i, c) l -> In (a, j, c) l -> i = j) ->
  exists t, fold_left (put sec) l (Some empty_tables) = Some t
    /\ (forall a i c, In (a, i, c) l -> handlers t a c = code (security_get sec i) /\ callbacks t a c = cb (security_get sec i))
    /\ (forall a c, (forall i, ~ In (a, i, c) l) -> handlers t a c = 0%N /\ callbacks t a c = None).
Proof.
  intro sec. induction l as [|[[a0 i0] c0] l IH] using rev_ind; intros Hb Hu.
  - exists empty_tables. split; [reflexivity|]. split; [intros a i c []|]. intros; split; reflexivity.
  - destruct IH as (t & E & H1 & H2).
    { intros a i c Hin. apply (Hb a i c). apply in_app_iff. left. exact Hin. }
    { intros a i j c A1 A2. apply (Hu a i j c); apply in_app_iff; left; assumption. }
    assert (B0 : (c0 < MAX_SYSCALL)%N) by (apply (Hb a0 i0 c0); apply in_app_iff; right; left; reflexivity).
    rewrite fold_left_app, E. cbn [fold_left]. unfold put. cbn [fst snd]. unfold install.
    assert (LE : (MAX_SYSCALL <=? c0)%N = false) by (apply N.leb_gt; exact B0).
    assert (Key : forall a c, ((a =? a0) && (c =? c0)%N) = true -> a = a0 /\ c = c0).
    { intros a c X. apply andb_true_iff in X. destruct X as [X Y]. apply Nat.eqb_eq in X. apply N.eqb_eq in Y. split; assumption. }
    assert (Before : forall i, In (a0, i, c0) l -> i = i0).
    { intros i Hin. apply (Hu a0 i i0 c0); apply in_app_iff; [left; exact Hin|right; left; reflexivity]. }
    assert (Old : callbacks t a0 c0 = None \/ callbacks t a0 c0 = cb (security_get sec i0)).
    { destruct (classic_in l a0 c0) as [(i & Hin)|N0].
      - right. rewrite <- (Before i Hin). exact (proj2 (H1 _ _ _ Hin)).
      - left. apply H2. exact N0. }
    assert (OldN : forall n, security_get sec i0 = Num n -> callbacks t a0 c0 = None).
    { intros n X. destruct Old as [O'|O']; [exact O'|]. rewrite O', X. reflexivity. }
    destruct (security_get sec i0) as [n|f] eqn:G; unfold set_handler; rewrite LE; (eexists; split; [reflexivity|]);
      cbn [handlers callbacks]; unfold update; (split; [intros a i c Hin|intros a c Hn]).
    + destruct ((a =? a0) && (c =? c0)%N) eqn:K.
      * destruct (Key _ _ K) as [-> ->]. apply in_app_iff in Hin.
        assert (i = i0) by (destruct Hin as [Hin|[X|[]]]; [exact (Before _ Hin)|injection X as <-; reflexivity]).
        subst i. rewrite G. cbn [code cb]. split; [reflexivity|]. exact (OldN _ eq_refl).
      * apply in_app_iff in Hin. destruct Hin as [Hin|[X|[]]]; [exact (H1 _ _ _ Hin)|].
        injection X as -> -> ->. rewrite Nat.eqb_refl, N.eqb_refl in K. discriminate.
    + destruct ((a =? a0) && (c =? c0)%N) eqn:K.
      * destruct (Key _ _ K) as [-> ->]. exfalso. apply (Hn i0). apply in_app_iff. right. left. reflexivity.
      * apply H2. intros i Hin. apply (Hn i). apply in_app_iff. left. exact Hin.
    + destruct ((a =? a0) && (c =? c0)%N) eqn:K.
      * destruct (Key _ _ K) as [-> ->]. apply in_app_iff in Hin.
        assert (i = i0) by (destruct Hin as [Hin|[X|[]]]; [exact (Before _ Hin)|injection X as <-; reflexivity]).
        subst i. rewrite G. split; reflexivity.
      * apply in_app_iff in Hin. destruct Hin as [Hin|[X|[]]]; [exact (H1 _ _ _ Hin)|].
        injection X as -> -> ->. rewrite Nat.eqb_refl, N.eqb_refl in K. discriminate.
    + destruct ((a =? a0) && (c =? c0)%N) eqn:K.
      * destruct (Key _ _ K) as [-> ->]. exfalso. apply (Hn i0). apply in_app_iff. right. left. reflexivity.
      * apply H2. intros i Hin. apply (Hn i). apply in_app_iff. left. exact Hin.
Qed.

(** ** The seccomp whitelist *)
Definition exits (st : ids) (i : nat) : bool :=
  existsb (fun name => match lookup name (by_name st) with Some k => k =? i | None => false end)
          ["exit"; "exit_group"]%string.
Definition wflat (st : ids) (native : nat) : list (nat * N) :=
  flat_map (fun i => if exits st i then [] else map (fun c => (i, c)) (translator st i (syscall_index native)))
           (seq 0 (syscall_count st)).
Definition wput sec (w : option (N -> bool)) (e : nat * N) : option (N -> bool) :=
  whitelist_call (security_get sec (fst e)) w (snd e).
Lemma whitelist_flat : forall st sec native,
  whitelist st sec native = fold_left (wput sec) (wflat st native) (Some (fun _ => false)).
Proof.
  intros. unfold whitelist, wflat. rewrite fold_flat_map. apply fold_ext. intros w i.
  unfold whitelist_id, exits. destruct (existsb _ _); [reflexivity|]. rewrite fold_map. reflexivity.
Qed.
Lemma wput_all : forall sec l,
  (forall i c, In (i, c) l -> (c < MAX_SYSCALL)%N) ->
  (forall i j c, In (i, c) l -> In (j, c) l -> i = j) ->
  exists w, fold_left (wput sec) l (Some (fun _ => false)) = Some w
    /\ forall c, w c = true <-> exists i, In (i, c) l /\ security_get sec i = Num 1.
Proof.
  intro sec. induction l as [|[i0 c0] l IH] using rev_ind; intros Hb Hu.
  - eexists. split; [reflexivity|]. intro c. split; [discriminate|]. intros (i & [] & _).
  - destruct IH as (w & E & H).
    { intros i c Hin. apply (Hb i c). apply in_app_iff. left. exact Hin. }
    { intros i j c A1 A2. apply (Hu i j c); apply in_app_iff; left; assumption. }
    assert (B0 : (c0 < MAX_SYSCALL)%N) by (apply (Hb i0 c0); apply in_app_iff; right; left; reflexivity).
    rewrite fold_left_app, E. cbn [fold_left]. unfold wput, whitelist_call. cbn [fst snd].
    replace (MAX_SYSCALL <=? c0)%N with false by (symmetry; apply N.leb_gt; exact B0).
    destruct (security_get sec i0) as [n|f] eqn:G; (eexists; split; [reflexivity|]); intro c; cbn beta.
    + destruct (c =? c0)%N eqn:K.
      * apply N.eqb_eq in K. subst c. rewrite N.eqb_eq. split.
        -- intros ->. exists i0. split; [apply in_app_iff; right; left; reflexivity|exact G].
        -- intros (i & Hin & Gi).
           assert (i = i0) by (apply (Hu i i0 c0); [exact Hin|apply in_app_iff; right; left; reflexivity]).
           subst i. congruence.
      * rewrite H. split; intros (i & Hin & Gi); exists i; (split; [|exact Gi]).
        -- apply in_app_iff. left. exact Hin.
        -- apply in_app_iff in Hin. destruct Hin as [Hin|[X|[]]]; [exact Hin|].
           injection X as -> ->. rewrite N.eqb_refl in K. discriminate.
    + rewrite H. split; intros (i & Hin & Gi); exists i; (split; [|exact Gi]).
      * apply in_app_iff. left. exact Hin.
      * apply in_app_iff in Hin. destruct Hin as [Hin|[X|[]]]; [exact Hin|].
        injection X as -> ->. congruence.
Qed.
End Policy.

Lemma flat_gen : forall st supported abi i c,
  In (abi, i, c) (flat st supported) <->
  In abi supported /\ In i (seq 0 (syscall_count st)) /\ In c (translator st i (syscall_index abi)).
Proof.
  intros. unfold flat. rewrite in_flat_map. split.
  - intros (a & Ha & H). rewrite in_flat_map in H. destruct H as (k & Hk & H).
    rewrite in_map_iff in H. destruct H as (c' & E & H). injection E as -> -> ->. repeat split; assumption.
  - intros (Ha & Hi & Hc). exists abi. split; [exact Ha|]. rewrite in_flat_map. exists i. split; [exact Hi|].
    rewrite in_map_iff. exists c. split; [reflexivity|exact Hc].
Qed.
Lemma wflat_gen : forall st native i c,
  In (i, c) (wflat st native) <->
  exits st i = false /\ In i (seq 0 (syscall_count st)) /\ In c (translator st i (syscall_index native)).
Proof.
  intros. unfold wflat. rewrite in_flat_map. split.
  - intros (k & Hk & H). destruct (exits st k) eqn:X; [destruct H|].
    rewrite in_map_iff in H. destruct H as (c' & E & H). injection E as -> ->. repeat split; assumption.
  - intros (X & Hi & Hc). exists i. split; [exact Hi|]. rewrite X.
    rewrite in_map_iff. exists c. split; [reflexivity|exact Hc].
Qed.

(** ** The repository's tables *)
Fixpoint nodup_numbers (l : list (N * string)) : bool :=
  match l with [] => true | r :: t => negb (existsb (fun r' => (fst r' =? fst r)%N) t) && nodup_numbers t end.
Lemma nodup_numbers_spec : forall l, nodup_numbers l = true ->
  forall n a b, In (n, a) l -> In (n, b) l -> a = b.
Proof.
  induction l as [|[m x] r IH]; intros H n a b Ha Hb; [destruct Ha|].
  cbn [nodup_numbers fst] in H. apply andb_true_iff in H. destruct H as [H1 H2].
  apply negb_true_iff in H1.
  assert (N0 : forall y, ~ In (m, y) r).
  { intros y Hy. assert (existsb (fun r' => (fst r' =? m)%N) r = true); [|congruence].
    apply existsb_exists. exists (m, y). split; [exact Hy|]. cbn [fst]. apply N.eqb_refl. }
  destruct Ha as [E|Ha], Hb as [E'|Hb].
  - congruence.
  - injection E as <- <-. exfalso. exact (N0 _ Hb).
  - injection E' as <- <-. exfalso. exact (N0 _ Ha).
  - exact (IH H2 _ _ _ Ha Hb).
Qed.
Lemma tables_checked :
  forallb (fun t => nodup_numbers t && forallb (fun r => (fst r <? MAX_SYSCALL)%N) t) order = true.
Proof. vm_compute. reflexivity. Qed.
Lemma aliases_nodup : NoDup (concat aliases_list).
Proof.
  vm_compute. repeat (constructor; [intro H; repeat (destruct H as [H|H]; [discriminate|]); exact H|]). constructor.
Qed.
Lemma table_index : forall abi, Linux_or_bsd abi -> nth (syscall_index abi) order [] = table_of abi /\ In (table_of abi) order.
Proof.
  intros abi H. unfold Linux_or_bsd in H. cbn in H.
  destruct H as [<-|[<-|[<-|[<-|[<-|[<-|[]]]]]]]; (split; [reflexivity|]); unfold order; cbn [table_of nth In]; tauto.
Qed.
Lemma table_facts : forall abi, Linux_or_bsd abi ->
  (forall n a b, In (n, a) (table_of abi) -> In (n, b) (table_of abi) -> a = b)
  /\ (forall n a, In (n, a) (table_of abi) -> (n < MAX_SYSCALL)%N).
Proof.
  intros abi H. destruct (table_index abi H) as [_ Hin].
  pose proof (proj1 (forallb_forall _ _) tables_checked _ Hin) as T. cbn beta in T.
  apply andb_true_iff in T. destruct T as [T1 T2]. split.
  - exact (nodup_numbers_spec _ T1).
  - intros n a X. pose proof (proj1 (forallb_forall _ _) T2 _ X) as L. cbn [fst] in L. apply N.ltb_lt. exact L.
Qed.

Lemma in_table : forall n name t, existsb (fun r => (fst r =? n)%N && String.eqb (snd r) name) t = true -> In (n, name) t.
Proof.
  intros n name t H. apply existsb_exists in H. destruct H as ([a b] & Hin & E). cbn [fst snd] in E.
  apply andb_true_iff in E. destruct E as [E1 E2]. apply N.eqb_eq in E1. apply String.eqb_eq in E2. subst. exact Hin.
Qed.
Lemma abis_ok : Linux_or_bsd X86 /\ Linux_or_bsd X64 /\ Linux_or_bsd X32 /\ Linux_or_bsd ARM /\ Linux_or_bsd ARM64 /\ Linux_or_bsd FREEBSD_X64.
Proof. unfold Linux_or_bsd. cbn. tauto. Qed.
Lemma inv_syscalls : Inv aliases_list (all_rows 0 order) syscalls.
Proof. exact (inv_create aliases_list order). Qed.
Lemma translator_syscalls : forall i ix n,
  In n (translator syscalls i ix) <-> exists name, In (n, name) (nth ix order []) /\ lookup name (by_name syscalls) = Some i.
Proof. exact (translator_spec aliases_list order). Qed.
Lemma same_id : forall a b i j, lookup a (by_name syscalls) = Some i -> lookup b (by_name syscalls) = Some j ->
  (i = j <-> same_call aliases_list a b).
Proof. intros a b i j. exact (ids_same aliases_list order a b i j aliases_nodup). Qed.
Opaque syscalls.
Notation idof name := (lookup name (by_name syscalls)).
Lemma owner : forall abi i n, Linux_or_bsd abi ->
  (In n (translator syscalls i (syscall_index abi)) <-> exists name, In (n, name) (table_of abi) /\ idof name = Some i).
Proof.
  intros abi i n H. rewrite translator_syscalls.
  rewrite (proj1 (table_index abi H)). reflexivity.
Qed.
Lemma id_count : forall name i, idof name = Some i -> In i (seq 0 (syscall_count syscalls)).
Proof.
  intros name i H. apply in_seq. unfold syscall_count.
  pose proof (inv_max _ _ _ inv_syscalls name i H) as L. lia.
Qed.
Lemma table_known : forall abi n name, Linux_or_bsd abi -> In (n, name) (table_of abi) -> exists i, idof name = Some i.
Proof.
  intros abi n name H Hin.
  assert (K : idof name <> None).
  { apply (inv_known _ _ _ inv_syscalls). right. exists (syscall_index abi), n.
    apply all_rows_in. split; [lia|]. rewrite Nat.sub_0_r. rewrite (proj1 (table_index abi H)). exact Hin. }
  destruct (idof name) as [i|]; [exists i; reflexivity|contradiction].
Qed.
Lemma known_id : forall name, known_call name <-> idof name <> None.
Proof.
  intro name. split.
  - intros [(abi & n & H & Hin)|[(n & Hin)|H]].
    + destruct (table_known abi n name H Hin) as (i & ->). discriminate.
    + apply (inv_known _ _ _ inv_syscalls). right. exists 6, n.
      apply all_rows_in. split; [lia|]. exact Hin.
    + apply (inv_known _ _ _ inv_syscalls). left. exact H.
  - intro H. destruct (inv_only _ _ _ inv_syscalls name H) as [X|(ix & n & X)]; [right; right; exact X|].
    apply all_rows_in in X. rewrite Nat.sub_0_r in X. destruct X as [_ X].
    assert (L : ix < 7).
    { destruct (Nat.lt_ge_cases ix 7) as [L|L]; [exact L|]. rewrite nth_overflow in X by exact L. destruct X. }
    assert (T : forall abi, Linux_or_bsd abi -> In (n, name) (table_of abi) ->
                exists abi n, Linux_or_bsd abi /\ In (n, name) (table_of abi)) by (intros abi A B; exists abi, n; split; assumption).
    destruct abis_ok as (A0 & A1 & A2 & A3 & A4 & A5).
    destruct ix as [|ix]; [left; apply (T X86); [exact A0|exact X]|].
    destruct ix as [|ix]; [left; apply (T X64); [exact A1|exact X]|].
    destruct ix as [|ix]; [left; apply (T X32); [exact A2|exact X]|].
    destruct ix as [|ix]; [left; apply (T ARM); [exact A3|exact X]|].
    destruct ix as [|ix]; [left; apply (T FREEBSD_X64); [exact A5|exact X]|].
    destruct ix as [|ix]; [left; apply (T ARM64); [exact A4|exact X]|].
    destruct ix as [|ix]; [right; left; exists n; exact X|]. lia.
Qed.

Section Final.
Context {F : Type}.
Lemma flat_in : forall abi i c supported, (forall a, In a supported -> Linux_or_bsd a) ->
  (In (abi, i, c) (flat syscalls supported) <-> In abi supported /\ exists name, In (c, name) (table_of abi) /\ idof name = Some i).
Proof.
  intros abi i c supported HS. rewrite flat_gen. split.
  - intros (Ha & _ & H). split; [exact Ha|]. rewrite (owner abi i c (HS _ Ha)) in H. exact H.
  - intros (Ha & name & Hin & Hi). split; [exact Ha|]. split; [exact (id_count _ _ Hi)|].
    rewrite (owner abi i c (HS _ Ha)). exists name. split; assumption.
Qed.
Lemma build_spec : forall (sec : list (nat * hval F)) supported, (forall a, In a supported -> Linux_or_bsd a) ->
  exists t, build syscalls sec supported = Some t
    /\ (forall a c name i, In a supported -> In (c, name) (table_of a) -> idof name = Some i ->
          handlers t a c = code (security_get sec i) /\ callbacks t a c = cb (security_get sec i))
    /\ (forall a c, (~ In a supported \/ forall name, ~ In (c, name) (table_of a)) -> handlers t a c = 0%N /\ callbacks t a c = None).
Proof.
  intros sec supported HS. rewrite build_flat.
  destruct (put_all sec (flat syscalls supported)) as (t & E & H1 & H2).
  - intros a i c H. rewrite flat_in in H by exact HS. destruct H as (Ha & name & Hin & _).
    exact (proj2 (table_facts a (HS _ Ha)) _ _ Hin).
  - intros a i j c Hi Hj. rewrite flat_in in Hi by exact HS. rewrite flat_in in Hj by exact HS.
    destruct Hi as (Ha & n1 & I1 & L1). destruct Hj as (_ & n2 & I2 & L2).
    rewrite (proj1 (table_facts a (HS _ Ha)) _ _ _ I1 I2) in L1. congruence.
  - exists t. split; [exact E|]. split.
    + intros a c name i Ha Hin Hi. apply H1. rewrite flat_in by exact HS. split; [exact Ha|].
      exists name. split; assumption.
    + intros a c H. apply H2. intros i Hin. rewrite flat_in in Hin by exact HS.
      destruct Hin as (Ha & name & Hin & _). destruct H as [H|H]; [exact (H Ha)|exact (H _ Hin)].
Qed.

Lemma governs_get : forall (policy : list (string * hval F)) sec name h i,
  security_of syscalls policy = Some sec -> governs policy name h -> idof name = Some i -> security_get sec i = h.
Proof.
  intros policy sec name h i E (p & n & q & -> & Hs & Hq) Hi. unfold security_of in E.
  destruct (security_dict_known _ _ _ _ E n h) as (k & Hk); [apply in_app_iff; right; left; reflexivity|].
  assert (k = i) by (apply (same_id n name k i Hk Hi); exact Hs). subst k.
  apply (security_dict_last _ _ _ _ _ _ _ _ E Hk).
  intros n' h' Hin L. apply (Hq n' h' Hin). apply (same_id n' name i i L Hi). reflexivity.
Qed.
Lemma unmentioned_get : forall (policy : list (string * hval F)) sec name i,
  security_of syscalls policy = Some sec -> unmentioned policy name -> idof name = Some i -> security_get sec i = DISALLOW.
Proof.
  intros policy sec name i E H Hi. rewrite (security_dict_get _ _ _ _ i E); [reflexivity|].
  intros n h Hin L. apply (H n h Hin). apply (same_id n name i i L Hi). reflexivity.
Qed.
Lemma security_total : forall (policy : list (string * hval F)),
  (forall n h, In (n, h) policy -> known_call n) <-> exists sec, security_of syscalls policy = Some sec.
Proof.
  intro policy. split.
  - intro H. apply security_dict_total. intros n h Hin. apply known_id. exact (H _ _ Hin).
  - intros (sec & E) n h Hin. destruct (security_dict_known _ _ _ _ E n h Hin) as (i & Hi).
    apply known_id. congruence.
Qed.
Lemma mentioned_or_not : forall (policy : list (string * hval F)) name sec,
  security_of syscalls policy = Some sec -> known_call name ->
  unmentioned policy name \/ exists h, governs policy name h.
Proof.
  intros policy name sec E K. apply known_id in K. destruct (idof name) as [i|] eqn:Hi; [|contradiction]. clear K.
  pose proof (security_dict_known _ _ _ _ E) as Known. clear E.
  induction policy as [|[n h] r IH]; [left; intros n h []|].
  destruct IH as [U|(h' & p & n' & q & -> & A & B)].
  { intros a b Hin. apply (Known a b). right. exact Hin. }
  - destruct (Known n h (or_introl eq_refl)) as (k & Hk). destruct (Nat.eq_dec k i) as [->|Nk].
    + right. exists h, [], n, r. split; [reflexivity|]. split; [|exact U]. apply (same_id n name i i Hk Hi). reflexivity.
    + left. intros n' h' [X|Hin]; [|exact (U _ _ Hin)]. injection X as <- <-. intro S'.
      apply Nk. apply (same_id n name k i Hk Hi). exact S'.
  - right. exists h', ((n, h) :: p), n', q. split; [reflexivity|]. split; assumption.
Qed.

(** *** The decision *)
Lemma in_range : forall c, (c < MAX_SYSCALL)%N -> ((0 <=? Z.of_N c) && (Z.of_N c <? 568))%Z = true.
Proof. intros c H. unfold MAX_SYSCALL in H. apply andb_true_iff. split; [apply Z.leb_le|apply Z.ltb_lt]; lia. Qed.
Lemma decide_meaning : forall run (t : tables F) a c h arg0, (c < MAX_SYSCALL)%N ->
  handlers t a c = code h -> callbacks t a c = cb h ->
  decide run t a (Z.of_N c) arg0 = meaning run h arg0.
Proof.
  intros run t a c h arg0 L Hh Hc. unfold decide. rewrite (in_range c L), N2Z.id, Hh.
  unfold callback. rewrite (in_range c L), N2Z.id, Hc.
  destruct h as [n|f]; cbn [code cb meaning]; [|reflexivity].
  destruct (n =? 1)%N; [reflexivity|]. destruct (n =? 3)%N.
  - destruct (arg0 =? 1)%Z, (arg0 =? 2)%Z; reflexivity.
  - destruct (n =? 2)%N; reflexivity.
Qed.

Theorem named_call : forall run (policy : list (string * hval F)) sec supported t abi n name h arg0,
  (forall a, In a supported -> Linux_or_bsd a) ->
  security_of syscalls policy = Some sec -> build syscalls sec supported = Some t ->
  In abi supported -> In (n, name) (table_of abi) -> governs policy name h ->
  decide run t abi (Z.of_N n) arg0 = meaning run h arg0.
Proof.
  intros run policy sec supported t abi n name h arg0 HS Es Eb Ha Hin Hg.
  destruct (table_known abi n name (HS _ Ha) Hin) as (i & Hi).
  destruct (build_spec sec supported HS) as (t' & Eb' & H1 & _). assert (t' = t) by congruence. subst t'.
  destruct (H1 abi n name i Ha Hin Hi) as [A B]. rewrite (governs_get _ _ _ _ _ Es Hg Hi) in A, B.
  apply decide_meaning; [exact (proj2 (table_facts abi (HS _ Ha)) _ _ Hin)|exact A|exact B].
Qed.
Theorem unmentioned_call : forall run (policy : list (string * hval F)) sec supported t abi n name arg0,
  (forall a, In a supported -> Linux_or_bsd a) ->
  security_of syscalls policy = Some sec -> build syscalls sec supported = Some t ->
  In abi supported -> In (n, name) (table_of abi) -> unmentioned policy name ->
  decide run t abi (Z.of_N n) arg0 = Verdict Kill.
Proof.
  intros run policy sec supported t abi n name arg0 HS Es Eb Ha Hin Hg.
  destruct (table_known abi n name (HS _ Ha) Hin) as (i & Hi).
  destruct (build_spec sec supported HS) as (t' & Eb' & H1 & _). assert (t' = t) by congruence. subst t'.
  destruct (H1 abi n name i Ha Hin Hi) as [A B]. rewrite (unmentioned_get _ _ _ _ Es Hg Hi) in A, B.
  rewrite (decide_meaning run t abi n DISALLOW arg0); [reflexivity| |exact A|exact B].
  exact (proj2 (table_facts abi (HS _ Ha)) _ _ Hin).
Qed.
Lemma empty_decide : forall run (t : tables F) a s arg0,
  (forall c, handlers t a c = 0%N /\ callbacks t a c = None) -> a <> ARM ->
  decide run t a s arg0 = Verdict Kill.
Proof.
  intros run t a s arg0 H Na. unfold decide, callback.
  assert (Q : forall c, match callbacks t a c with Some f => run f | None => Kill end = Kill)
    by (intro c; rewrite (proj2 (H c)); reflexivity).
  rewrite !Q. rewrite (proj1 (H _)). apply Nat.eqb_neq in Na. rewrite Na.
  destruct ((0 <=? s)%Z && (s <? 568)%Z); [reflexivity|]. destruct ((-568 <=? s)%Z && (s <? 0)%Z); reflexivity.
Qed.
Theorem other_abi : forall run (policy : list (string * hval F)) sec supported t abi s arg0,
  (forall a, In a supported -> Linux_or_bsd a) ->
  security_of syscalls policy = Some sec -> build syscalls sec supported = Some t ->
  ~ In abi supported -> abi <> ARM -> decide run t abi s arg0 = Verdict Kill.
Proof.
  intros run policy sec supported t abi s arg0 HS Es Eb Ha Na.
  destruct (build_spec sec supported HS) as (t' & Eb' & _ & H2). assert (t' = t) by congruence. subst t'.
  apply empty_decide; [|exact Na]. intro c. apply H2. left. exact Ha.
Qed.
Theorem unknown_number : forall run (policy : list (string * hval F)) sec supported t abi s arg0,
  (forall a, In a supported -> Linux_or_bsd a) ->
  security_of syscalls policy = Some sec -> build syscalls sec supported = Some t ->
  In abi supported -> (forall n name, In (n, name) (table_of abi) -> Z.of_N n <> s) ->
  (0 <= s \/ s < -568)%Z -> ~ (abi = ARM /\ 0xF0000 < s < 0xF0006)%Z ->
  decide run t abi s arg0 = Verdict Kill.
Proof.
  intros run policy sec supported t abi s arg0 HS Es Eb Ha Hn Hr HA.
  destruct (build_spec sec supported HS) as (t' & Eb' & _ & H2). assert (t' = t) by congruence. subst t'.
  unfold decide, callback.
  destruct ((0 <=? s)%Z && (s <? 568)%Z) eqn:R.
  - destruct (H2 abi (Z.to_N s)) as [A B].
    { right. intros name Hin. apply (Hn _ _ Hin). apply andb_true_iff in R. destruct R as [R _]. apply Z.leb_le in R. lia. }
    rewrite A, B. reflexivity.
  - replace ((-568 <=? s)%Z && (s <? 0)%Z) with false; [|symmetry; apply andb_false_iff; destruct Hr; [right; apply Z.ltb_ge; lia|left; apply Z.leb_gt; lia]].
    destruct (abi =? ARM) eqn:X; [|reflexivity]. apply Nat.eqb_eq in X.
    destruct ((0xF0000 <? s)%Z && (s <? 0xF0006)%Z) eqn:Y; [|reflexivity].
    exfalso. apply HA. split; [exact X|]. apply andb_true_iff in Y. destruct Y as [Y1 Y2].
    apply Z.ltb_lt in Y1, Y2. split; assumption.
Qed.
Theorem arm_private : forall run (policy : list (string * hval F)) sec supported t s arg0,
  security_of syscalls policy = Some sec -> build syscalls sec supported = Some t ->
  (0xF0000 < s < 0xF0006)%Z -> decide run t ARM s arg0 = Verdict Run.
Proof.
  intros run policy sec supported t s arg0 _ _ H. unfold decide, callback.
  replace ((0 <=? s)%Z && (s <? 568)%Z) with false by (symmetry; apply andb_false_iff; right; apply Z.ltb_ge; lia).
  replace ((-568 <=? s)%Z && (s <? 0)%Z) with false by (symmetry; apply andb_false_iff; right; apply Z.ltb_ge; lia).
  cbn [Nat.eqb ARM]. replace ((0xF0000 <? s)%Z && (s <? 0xF0006)%Z) with true; [reflexivity|].
  symmetry. apply andb_true_iff. split; apply Z.ltb_lt; lia.
Qed.

(** Every call that is let through or answered is named by the policy. *)
Theorem default_deny : forall run (policy : list (string * hval F)) sec supported t abi s arg0,
  (forall a, In a supported -> Linux_or_bsd a) ->
  security_of syscalls policy = Some sec -> build syscalls sec supported = Some t ->
  (0 <= s \/ s < -568)%Z -> ~ (abi = ARM /\ 0xF0000 < s < 0xF0006)%Z ->
  decide run t abi s arg0 <> Verdict Kill ->
  exists n name h, s = Z.of_N n /\ In abi supported /\ In (n, name) (table_of abi) /\ governs policy name h
    /\ decide run t abi s arg0 = meaning run h arg0.
Proof.
  intros run policy sec supported t abi s arg0 HS Es Eb Hr HA HD.
  destruct (in_dec Nat.eq_dec abi supported) as [Ha|Ha].
  - destruct (existsb (fun r => (Z.of_N (fst r) =? s)%Z) (table_of abi)) eqn:X.
    + apply existsb_exists in X. destruct X as ([n name] & Hin & E). cbn [fst] in E. apply Z.eqb_eq in E.
      assert (K : known_call name) by (left; exists abi, n; split; [exact (HS _ Ha)|exact Hin]).
      destruct (mentioned_or_not policy name sec Es K) as [U|(h & G)].
      * exfalso. apply HD. subst s. exact (unmentioned_call run policy sec supported t abi n name arg0 HS Es Eb Ha Hin U).
      * exists n, name, h. repeat (split; [solve [auto]|]). subst s.
        exact (named_call run policy sec supported t abi n name h arg0 HS Es Eb Ha Hin G).
    + exfalso. apply HD. apply (unknown_number run policy sec supported t abi s arg0 HS Es Eb Ha); [|exact Hr|exact HA].
      intros n name Hin E. assert (existsb (fun r => (Z.of_N (fst r) =? s)%Z) (table_of abi) = true); [|congruence].
      apply existsb_exists. exists (n, name). split; [exact Hin|]. cbn [fst]. apply Z.eqb_eq. exact E.
  - exfalso. apply HD. destruct (Nat.eq_dec abi ARM) as [->|Na].
    + destruct (build_spec sec supported HS) as (t' & Eb' & _ & H2). assert (t' = t) by congruence. subst t'.
      assert (Q : forall c, handlers t ARM c = 0%N /\ callbacks t ARM c = None) by (intro c; apply H2; left; exact Ha).
      unfold decide, callback. rewrite (proj1 (Q _)), (proj2 (Q _)), (proj2 (Q _)).
      destruct ((0 <=? s)%Z && (s <? 568)%Z); [reflexivity|]. destruct ((-568 <=? s)%Z && (s <? 0)%Z); [reflexivity|].
      cbn [Nat.eqb ARM]. destruct ((0xF0000 <? s)%Z && (s <? 0xF0006)%Z) eqn:Y; [|reflexivity].
      exfalso. apply HA. split; [reflexivity|]. apply andb_true_iff in Y. destruct Y as [Y1 Y2].
      apply Z.ltb_lt in Y1, Y2. split; assumption.
    + exact (other_abi run policy sec supported t abi s arg0 HS Es Eb Ha Na).
Qed.

(** *** The whitelist *)
Lemma exits_spec : forall i name, idof name = Some i ->
  (exits syscalls i = true <-> name = "exit"%string \/ name = "exit_group"%string).
Proof.
  intros i name Hi.
  assert (KE : exists a, idof "exit"%string = Some a) by (apply (table_known X64 60%N); [exact (proj1 (proj2 abis_ok))|apply in_table; vm_compute; reflexivity]).
  assert (KG : exists a, idof "exit_group"%string = Some a) by (apply (table_known X64 231%N); [exact (proj1 (proj2 abis_ok))|apply in_table; vm_compute; reflexivity]).
  destruct KE as (a & Ka). destruct KG as (b & Kb).
  assert (NA : forall nm x line, In line aliases_list -> In nm line -> In x line -> x <> "exit"%string /\ x <> "exit_group"%string).
  { intros nm x line Hl _ Hx. cbn in Hl. split; intros ->;
    repeat (destruct Hl as [Hl|Hl]; [subst line; cbn in Hx; repeat (destruct Hx as [Hx|Hx]; [discriminate|]); exact Hx|]); exact Hl. }
  unfold exits. cbn [existsb]. rewrite Ka, Kb. rewrite orb_false_r, orb_true_iff, !Nat.eqb_eq. split.
  - intros [E|E].
    + left. destruct (proj1 (same_id "exit"%string name a i Ka Hi) E) as [X|(line & Hl & I1 & I2)]; [symmetry; exact X|].
      exfalso. exact (proj1 (NA _ _ _ Hl I2 I1) eq_refl).
    + right. destruct (proj1 (same_id "exit_group"%string name b i Kb Hi) E) as [X|(line & Hl & I1 & I2)]; [symmetry; exact X|].
      exfalso. exact (proj2 (NA _ _ _ Hl I2 I1) eq_refl).
  - intros [->| ->]; [left|right]; congruence.
Qed.
Lemma wflat_in : forall native i c, Linux_or_bsd native ->
  (In (i, c) (wflat syscalls native) <->
   exists name, In (c, name) (table_of native) /\ idof name = Some i /\ name <> "exit"%string /\ name <> "exit_group"%string).
Proof.
  intros native i c H. rewrite wflat_gen. split.
  - intros (X & _ & Hin). rewrite (owner native i c H) in Hin. destruct Hin as (name & I1 & I2).
    exists name. split; [exact I1|]. split; [exact I2|].
    split; intros ->; assert (exits syscalls i = true) by (rewrite (exits_spec i _ I2); tauto); congruence.
  - intros (name & I1 & I2 & N1 & N2). split; [|split; [exact (id_count _ _ I2)|rewrite (owner native i c H); exists name; split; assumption]].
    destruct (exits syscalls i) eqn:X; [|reflexivity]. rewrite (exits_spec i _ I2) in X. destruct X; contradiction.
Qed.
Theorem whitelist_spec : forall (policy : list (string * hval F)) sec native,
  Linux_or_bsd native -> security_of syscalls policy = Some sec ->
  exists w, whitelist syscalls sec native = Some w
    /\ forall n, w n = true <->
         exists name, In (n, name) (table_of native) /\ governs policy name ALLOW
                      /\ name <> "exit"%string /\ name <> "exit_group"%string.
Proof.
  intros policy sec native H Es. rewrite whitelist_flat.
  destruct (wput_all sec (wflat syscalls native)) as (w & E & W).
  - intros i c Hin. rewrite wflat_in in Hin by exact H. destruct Hin as (name & I1 & _).
    exact (proj2 (table_facts native H) _ _ I1).
  - intros i j c Hi Hj. rewrite wflat_in in Hi by exact H. rewrite wflat_in in Hj by exact H.
    destruct Hi as (n1 & I1 & L1 & _). destruct Hj as (n2 & I2 & L2 & _).
    rewrite (proj1 (table_facts native H) _ _ _ I1 I2) in L1. congruence.
  - exists w. split; [exact E|]. intro n. rewrite W. split.
    + intros (i & Hin & G). rewrite wflat_in in Hin by exact H. destruct Hin as (name & I1 & I2 & N1 & N2).
      exists name. split; [exact I1|]. split; [|split; assumption].
      assert (K : known_call name) by (left; exists native, n; split; assumption).
      destruct (mentioned_or_not policy name sec Es K) as [U|(h & Gv)].
      * rewrite (unmentioned_get _ _ _ _ Es U I2) in G. discriminate.
      * rewrite (governs_get _ _ _ _ _ Es Gv I2) in G. subst h. exact Gv.
    + intros (name & I1 & Gv & N1 & N2). destruct (table_known native n name H I1) as (i & Hi).
      exists i. split; [rewrite wflat_in by exact H; exists name; exact (conj I1 (conj Hi (conj N1 N2)))|].
      exact (governs_get _ _ _ _ _ Es Gv Hi).
Qed.
Theorem whitelist_agrees : forall run (policy : list (string * hval F)) sec supported t native w n arg0,
  (forall a, In a supported -> Linux_or_bsd a) -> In native supported ->
  security_of syscalls policy = Some sec -> build syscalls sec supported = Some t ->
  whitelist syscalls sec native = Some w -> w n = true -> decide run t native (Z.of_N n) arg0 = Verdict Run.
Proof.
  intros run policy sec supported t native w n arg0 HS Ha Es Eb Ew Hw.
  destruct (whitelist_spec policy sec native (HS _ Ha) Es) as (w' & Ew' & W). assert (w' = w) by congruence. subst w'.
  apply W in Hw. destruct Hw as (name & Hin & G & _).
  exact (named_call run policy sec supported t native n name ALLOW arg0 HS Es Eb Ha Hin G).
Qed.
Theorem tables_total : forall (policy : list (string * hval F)) supported native,
  (forall a, In a supported -> Linux_or_bsd a) -> Linux_or_bsd native ->
  (forall n h, In (n, h) policy -> known_call n) ->
  exists sec t w, security_of syscalls policy = Some sec /\ build syscalls sec supported = Some t
    /\ whitelist syscalls sec native = Some w.
Proof.
  intros policy supported native HS HN HK. destruct (proj1 (security_total policy) HK) as (sec & Es).
  destruct (build_spec sec supported HS) as (t & Eb & _).
  destruct (whitelist_spec policy sec native HN Es) as (w & Ew & _). exists sec, t, w. exact (conj Es (conj Eb Ew)).
Qed.
End Final.

(** ** What the monitor believes *)
Lemma x32_testbit : forall rax, (Z.land rax x32_bit =? 0)%Z = negb (Z.testbit rax 30).
Proof.
  intro rax. destruct (Z.testbit rax 30) eqn:T; cbn [negb].
  - apply Z.eqb_neq. intro E. assert (X : Z.testbit (Z.land rax x32_bit) 30 = true).
    { rewrite Z.land_spec, T. reflexivity. }
    rewrite E in X. discriminate.
  - apply Z.eqb_eq. apply Z.bits_inj'. intros n Hn. rewrite Z.land_spec, Z.bits_0.
    change x32_bit with (2 ^ 30)%Z. destruct (Z.eq_dec n 30) as [->|Nn]; [rewrite T; reflexivity|].
    rewrite Z.pow2_bits_false by lia. apply andb_false_r.
Qed.
Theorem sees_what_executes : forall e, (forall rax, e <> Int80_from64 rax) -> monitor_sees e = executes e.
Proof.
  intros e H. destruct e as [rax|rax|eax]; [|exfalso; exact (H _ eq_refl)|reflexivity].
  cbn [monitor_sees executes]. unfold seen_syscall, abi_from_reg_size. rewrite x32_testbit.
  destruct (Z.testbit rax 30); reflexivity.
Qed.

Lemma mentions_dec : forall {F} (policy : list (string * hval F)) name,
  existsb (fun line => existsb (fun k => String.eqb k name) line) aliases_list = false ->
  existsb (fun e => String.eqb (fst e) name) policy = false -> unmentioned policy name.
Proof.
  intros F policy name HA HP n h Hin [E|(line & Hl & I1 & I2)].
  - subst n. assert (existsb (fun e => String.eqb (fst e) name) policy = true); [|congruence].
    apply existsb_exists. exists (name, h). split; [exact Hin|]. apply String.eqb_refl.
  - assert (existsb (fun line => existsb (fun k => String.eqb k name) line) aliases_list = true); [|congruence].
    apply existsb_exists. exists line. split; [exact Hl|]. apply existsb_name. exact I2.
Qed.
Lemma governs_dec : forall {F} (policy : list (string * hval F)) name h p q,
  policy = p ++ (name, h) :: q ->
  existsb (fun line => existsb (fun k => String.eqb k name) line) aliases_list = false ->
  existsb (fun e => String.eqb (fst e) name) q = false -> governs policy name h.
Proof.
  intros F policy name h p q -> HA HQ. exists p, name, q. split; [reflexivity|]. split; [left; reflexivity|].
  intros n' h' Hin. exact (mentions_dec q name HA HQ n' h' Hin).
Qed.
Lemma base_known : forall n h, In (n, h) base_policy -> known_call n.
Proof.
  assert (C : forallb (fun e => existsb (fun t => existsb (fun r => String.eqb (snd r) (fst e)) t)
                [linux_x86; linux_x64; linux_x32; linux_arm; linux_generic; freebsd]
              || existsb (fun r => String.eqb (snd r) (fst e)) linux_generic32
              || existsb (fun line => existsb (fun k => String.eqb k (fst e)) line) aliases_list) base_policy = true)
    by (vm_compute; reflexivity).
  intros n h Hin. pose proof (proj1 (forallb_forall _ _) C _ Hin) as X. cbn beta in X. cbn [fst] in X. clear C.
  apply orb_true_iff in X. destruct X as [X|X]; [apply orb_true_iff in X; destruct X as [X|X]|].
  - left. apply existsb_exists in X. destruct X as (t & Ht & X). apply existsb_exists in X.
    destruct X as ([c name] & Hr & E). cbn [snd] in E. apply String.eqb_eq in E. subst name.
    apply In_nth with (d := []) in Ht. destruct Ht as (a & La & Ea). exists a, c. split.
    + unfold Linux_or_bsd. cbn [length] in La. cbn [In]. unfold X86, X64, X32, ARM, ARM64, FREEBSD_X64. lia.
    + unfold table_of. rewrite Ea. exact Hr.
  - right. left. apply existsb_exists in X. destruct X as ([c name] & Hr & E). cbn [snd] in E.
    apply String.eqb_eq in E. subst name. exists c. exact Hr.
  - right. right. apply existsb_exists in X. destruct X as (line & Hl & X). exists line. split; [exact Hl|].
    apply existsb_name. exact X.
Qed.
Definition x64_abis : list nat := [X86; X64; X32].
Lemma x64_abis_ok : forall a, In a x64_abis -> Linux_or_bsd a.
Proof. intros a H. unfold Linux_or_bsd, x64_abis in *. cbn in *. tauto. Qed.

Theorem int80_refuted :
  exists sec t e n, security_of syscalls base_policy = Some sec /\ build syscalls sec x64_abis = Some t
    /\ executes e = (X86, Z.of_N n) /\ In (n, "execve"%string) linux_x86 /\ unmentioned base_policy "execve"%string
    /\ forall run arg0, decide run t (fst (monitor_sees e)) (snd (monitor_sees e)) arg0 = Verdict Run.
Proof.
  destruct (tables_total base_policy x64_abis X64 x64_abis_ok (proj1 (proj2 abis_ok)) base_known) as (sec & t & w & Es & Eb & _).
  exists sec, t, (Int80_from64 11), 11%N. split; [exact Es|]. split; [exact Eb|]. split; [reflexivity|].
  split; [apply in_table; vm_compute; reflexivity|]. split; [apply mentions_dec; vm_compute; reflexivity|].
  intros run arg0. cbn [monitor_sees fst snd].
  change (abi_from_reg_size false 11) with X64. change (seen_syscall false 11) with (Z.of_N 11).
  apply (named_call run base_policy sec x64_abis t X64 11%N "munmap"%string ALLOW arg0 x64_abis_ok Es Eb).
  - right. left. reflexivity.
  - apply in_table. vm_compute. reflexivity.
  - eapply (governs_dec base_policy "munmap"%string ALLOW (firstn 56 base_policy) (skipn 57 base_policy)); vm_compute; reflexivity.
Qed.
Theorem negative_refuted :
  exists (policy : list (string * hval unit)) sec t run,
    security_of syscalls policy = Some sec /\ build syscalls sec x64_abis = Some t
    /\ decide run t X86 (-273) 0 = Verdict Run
    /\ forall n name, In (n, name) linux_x86 -> Z.of_N n <> (-273)%Z.
Proof.
  destruct (tables_total [("openat"%string, Fn tt)] x64_abis X64 x64_abis_ok (proj1 (proj2 abis_ok))) as (sec & t & w & Es & Eb & _).
  { intros n h [E|[]]. injection E as <- <-. left. exists X64, 257%N. split; [exact (proj1 (proj2 abis_ok))|].
    apply in_table. vm_compute. reflexivity. }
  exists [("openat"%string, Fn tt)], sec, t, (fun _ => Run). split; [exact Es|]. split; [exact Eb|].
  split; [|intros n name _ E; lia].
  pose proof (named_call (fun _ => Run) _ sec x64_abis t X86 295%N "openat"%string (Fn tt) 0 x64_abis_ok Es Eb) as N1.
  assert (D : decide (fun _ => Run) t X86 (Z.of_N 295) 0 = Verdict Run).
  { rewrite N1; [reflexivity|left; reflexivity|apply in_table; vm_compute; reflexivity|].
    apply (governs_dec _ _ _ [] []); reflexivity. }
  destruct (build_spec sec x64_abis x64_abis_ok) as (t' & Eb' & H1 & _). assert (t' = t) by congruence. subst t'.
  destruct (table_known X86 295%N "openat"%string (proj1 abis_ok)) as (i & Hi); [apply in_table; vm_compute; reflexivity|].
  destruct (H1 X86 295%N "openat"%string i) as [_ B]; [left; reflexivity|apply in_table; vm_compute; reflexivity|exact Hi|].
  unfold decide, callback. cbn [Z.leb Z.ltb Z.compare andb]. change (Z.to_N (568 + -273)) with 295%N. rewrite B.
  rewrite (governs_get [("openat"%string, Fn tt)] sec "openat"%string (Fn tt) i Es); [reflexivity| |exact Hi].
  apply (governs_dec _ _ _ [] []); reflexivity.
Qed.
