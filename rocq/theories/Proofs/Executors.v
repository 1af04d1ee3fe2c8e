From Coq Require Import String ZifyN ZifyBool ZifyNat Permutation Sorted.
From Verif Require Import Model.Bytes Model.Paths Model.Executors.
From Verif Require Import Spec.Text Spec.Executors Spec.Paths Proofs.BytesLemmas Proofs.Paths.
Local Open Scope nat_scope.
Local Open Scope list_scope.

Lemma mem_iff x l : mem x l = true <-> In x l.
Proof.
  unfold mem. rewrite existsb_exists. split.
  - intros (y & H & E). apply beqb_eq in E. subst y. exact H.
  - intros H. exists x. split; [exact H|apply beqb_refl].
Qed.
Lemma mem_false x l : mem x l = false <-> ~ In x l.
Proof. rewrite <- mem_iff. destruct (mem x l); split; congruence. Qed.
Lemma dedup_in x l : In x (dedup l) <-> In x l.
Proof.
  induction l as [|y l IH]; [reflexivity|]. cbn [dedup]. destruct (mem y l) eqn:E.
  - apply mem_iff in E. rewrite IH. cbn. split; [auto|intros [<-|H]; auto].
  - cbn. rewrite IH. reflexivity.
Qed.
Lemma dedup_nodup l : NoDup (dedup l).
Proof.
  induction l as [|y l IH]; cbn [dedup]; [constructor|]. destruct (mem y l) eqn:E; [exact IH|].
  constructor; [|exact IH]. rewrite dedup_in. apply mem_false. exact E.
Qed.
Lemma filter_map_in {A C} (f : A -> option C) l y : In y (filter_map f l) <-> exists x, In x l /\ f x = Some y.
Proof.
  induction l as [|x l IH]; cbn [filter_map]; [split; [intros []|intros (x & [] & _)]|].
  destruct (f x) as [z|] eqn:E; cbn; rewrite IH; split.
  - intros [<-|(x' & H & E')]; eauto.
  - intros (x' & [<-|H] & E'); [left; congruence|right; eauto].
  - intros (x' & H & E'). eauto.
  - intros (x' & [<-|H] & E'); [congruence|eauto].
Qed.

Lemma span_spec p s : let (a, b) := span p s in
  s = a ++ b /\ Forall (fun c => p c = true) a /\ match b with [] => True | c :: _ => p c = false end.
Proof.
  induction s as [|c s IH]; cbn [span]; [repeat split; constructor|].
  destruct (p c) eqn:E; [|repeat split; [constructor|exact E]].
  destruct (span p s) as [a b]. destruct IH as (-> & H1 & H2). repeat split; [constructor; assumption|exact H2].
Qed.
Lemma span_app p a b : Forall (fun c => p c = true) a -> match b with [] => True | c :: _ => p c = false end ->
  span p (a ++ b) = (a, b).
Proof.
  induction 1 as [|c a H _ IH]; intros Hb.
  - destruct b as [|c b]; [reflexivity|]. cbn. rewrite Hb. reflexivity.
  - cbn. rewrite H, (IH Hb). reflexivity.
Qed.

Lemma upper_digit_iff c : upper_digit c = true <-> upper_or_digit c.
Proof. unfold upper_digit, upper_or_digit. lia. Qed.
Lemma forall_upper n : Forall (fun c => upper_digit c = true) n <-> Forall upper_or_digit n.
Proof. split; apply Forall_impl; intros c; apply upper_digit_iff. Qed.

Lemma re_executor_iff f n : re_executor f = Some n <->
  executor_file f n \/ exists g, f = g ++ [10%N] /\ executor_file g n.
Proof.
  unfold executor_file. split.
  - unfold re_executor. pose proof (span_spec upper_digit f) as Sp. destruct (span upper_digit f) as [a r].
    destruct Sp as (-> & Ha & _). destruct a as [|c a]; [discriminate|].
    destruct (beqb r (B ".py")) eqn:E1; cbn [orb].
    + apply beqb_eq in E1. subst r. intros [= <-]. left. split; [discriminate|]. split; [apply forall_upper, Ha|reflexivity].
    + destruct (beqb r (B ".py" ++ [LF])) eqn:E2; [|discriminate]. apply beqb_eq in E2. subst r. intros [= <-].
      right. exists ((c :: a) ++ B ".py"). split; [rewrite <- app_assoc; reflexivity|].
      split; [discriminate|]. split; [apply forall_upper, Ha|reflexivity].
  - intros H. assert (K : exists r, f = n ++ r /\ n <> [] /\ Forall upper_or_digit n /\ (r = B ".py" \/ r = B ".py" ++ [LF])).
    { destruct H as [(H1 & H2 & ->)|(g & -> & H1 & H2 & ->)].
      - eexists. repeat split; try eassumption. left. reflexivity.
      - eexists. rewrite <- app_assoc. repeat split; try eassumption. right. reflexivity. }
    destruct K as (r & -> & Nn & Hn & Hr). unfold re_executor. rewrite span_app.
    + destruct n as [|c n]; [congruence|]. destruct Hr as [-> | ->]; reflexivity.
    + apply forall_upper, Hn.
    + destruct Hr as [-> | ->]; reflexivity.
Qed.

Lemma lower_iff c : lower_letter c = true <-> lower c.
Proof. unfold lower_letter, lower. lia. Qed.
Lemma re_contrib_iff f n : re_contrib f = Some n <-> contrib_file f n.
Proof.
  unfold contrib_file. split.
  - unfold re_contrib. pose proof (span_spec lower_letter f) as Sp. destruct (span lower_letter f) as [a r].
    destruct Sp as (-> & Ha & _). destruct a as [|c a]; [discriminate|].
    destruct (starts_with (B ".py") r) eqn:E; [|discriminate]. intros [= <-]. split; [discriminate|].
    split; [revert Ha; apply Forall_impl; intros x; apply lower_iff|].
    change (starts_with [46; 112; 121]%N r = true) in E.
    destruct r as [|x [|y [|z r]]]; cbn [starts_with] in E; rewrite ?andb_false_r in E; try discriminate E.
    change (((46 =? x) && ((112 =? y) && ((121 =? z) && true)))%N%bool = true) in E.
    rewrite !andb_true_iff, !N.eqb_eq in E. destruct E as (<- & <- & <- & _). exists r. reflexivity.
  - intros (Nn & Hn & r & ->). unfold re_contrib. rewrite span_app.
    + destruct n as [|c n]; [congruence|]. reflexivity.
    + revert Hn. apply Forall_impl. intros x. apply lower_iff.
    + reflexivity.
Qed.

(** ** Selection *)
Lemma sort_in x l : In x (sort bytes_leb l) <-> In x l.
Proof. split; apply Permutation_in; [apply Permutation_sym|]; apply sort_perm. Qed.

Lemma available_iff pattern listing only exclude n :
  In n (get_available_modules pattern listing only exclude) <->
  (exists f, In f listing /\ pattern f = Some n) /\ (only = [] \/ In n only) /\ ~ In n exclude.
Proof.
  unfold get_available_modules. rewrite sort_in. rewrite <- filter_map_in, <- (dedup_in n (filter_map pattern listing)).
  set (l := dedup (filter_map pattern listing)).
  assert (A : In n (match only with [] => l | _ => filter (fun n => mem n only) l end) <->
    In n l /\ (only = [] \/ In n only)).
  { destruct only as [|o only]; [intuition|]. rewrite filter_In, mem_iff. intuition discriminate. }
  set (l' := match only with [] => _ | _ => _ end) in *.
  destruct exclude as [|e exclude].
  - rewrite A. cbn. intuition.
  - rewrite filter_In, A, negb_true_iff, mem_false. intuition.
Qed.

Lemma bytes_leb_before x y : bytes_leb x y = true -> x <> y -> before x y.
Proof.
  unfold bytes_leb. revert y; induction x as [|a x IH]; intros [|b y] H N; cbn in H; try congruence; [constructor|].
  destruct (N.eqb a b) eqn:E.
  - apply N.eqb_eq in E. subst b. apply before_later. apply IH; [exact H|congruence].
  - apply before_here. lia.
Qed.
Lemma sorted_ascending l : NoDup l -> StronglySorted (fun a b => bytes_leb a b = true) l -> ascending l.
Proof.
  induction 2 as [|x l S IH F]; [constructor|]. inversion H as [|? ? H1 H2]; subst. constructor; [|apply IH; exact H2].
  rewrite Forall_forall in F |- *. intros y Hy. apply bytes_leb_before; [apply F, Hy|].
  intros ->. contradiction.
Qed.
Lemma nodup_filter {A} (f : A -> bool) l : NoDup l -> NoDup (filter f l).
Proof.
  induction 1 as [|x l H _ IH]; cbn; [constructor|]. destruct (f x); [|exact IH].
  constructor; [|exact IH]. rewrite filter_In. tauto.
Qed.
Lemma available_ascending pattern listing only exclude : ascending (get_available_modules pattern listing only exclude).
Proof.
  apply sorted_ascending.
  - unfold get_available_modules. eapply Permutation_NoDup; [apply sort_perm|].
    pose proof (dedup_nodup (filter_map pattern listing)) as D.
    destruct only, exclude; repeat apply nodup_filter; exact D.
  - apply sort_sorted; [apply bytes_leb_total|apply bytes_leb_trans].
Qed.

Lemma before_irrefl x : ~ before x x.
Proof. induction x as [|a x IH]; intros H; inversion H; subst; [lia|contradiction]. Qed.
Lemma before_trans x y z : before x y -> before y z -> before x z.
Proof.
  intros H. revert z. induction H as [y s|x y r s H|x r s H IH]; intros z Hz; inversion Hz; subst;
    solve [apply before_end | apply before_here; lia | apply before_later, IH; assumption].
Qed.
Lemma ascending_unique a : forall b, ascending a -> ascending b -> (forall x, In x a <-> In x b) -> a = b.
Proof.
  induction a as [|x a IH]; intros b Ha Hb H.
  - destruct b as [|y b]; [reflexivity|]. destruct (proj2 (H y) (or_introl eq_refl)).
  - destruct b as [|y b]; [destruct (proj1 (H x) (or_introl eq_refl))|].
    inversion Ha as [|? ? Fa Aa]; subst. inversion Hb as [|? ? Fb Ab]; subst.
    rewrite Forall_forall in Fa, Fb.
    assert (x = y).
    { destruct (proj1 (H x) (or_introl eq_refl)) as [->|Hx]; [reflexivity|].
      destruct (proj2 (H y) (or_introl eq_refl)) as [->|Hy]; [reflexivity|].
      exfalso. exact (before_irrefl x (before_trans _ _ _ (Fa _ Hy) (Fb _ Hx))). }
    subst y. f_equal. apply IH; try assumption. intros z. split; intros Hz.
    + destruct (proj1 (H z) (or_intror Hz)) as [->|K]; [|exact K]. destruct (before_irrefl z (Fa z Hz)).
    + destruct (proj2 (H z) (or_intror Hz)) as [->|K]; [|exact K]. destruct (before_irrefl z (Fb z Hz)).
Qed.
Lemma available_listing_order pattern l l' only exclude : (forall f, In f l <-> In f l') ->
  get_available_modules pattern l only exclude = get_available_modules pattern l' only exclude.
Proof.
  intros H. apply ascending_unique; try apply available_ascending. intros x. rewrite !available_iff.
  assert (K : (exists f, In f l /\ pattern f = Some x) <-> (exists f, In f l' /\ pattern f = Some x)).
  { split; intros (f & Hf & E); exists f; split; try exact E; apply H; exact Hf. }
  tauto.
Qed.

(** ** Loading *)
Section Load.
  Variable module : Type.
  Variable import_module : bytes -> import module.
  Variable has_attr : module -> bool.
  Variable init : module -> Executors.init.
  Variable aliases : module -> option (list bytes).

  Lemma get_put k k' m d : get module k (put module k' m d) = if beqb k k' then Some m else get module k d.
  Proof.
    induction d as [|[k0 m0] d IH]; cbn [put get]; [reflexivity|].
    destruct (beqb_spec k' k0) as [->|N].
    - cbn [get]. destruct (beqb k k0); reflexivity.
    - cbn [get]. destruct (beqb_spec k k0) as [->|N0]; [|exact IH].
      destruct (beqb_spec k0 k') as [E|_]; [congruence|reflexivity].
  Qed.
  Lemma get_fold k m excluded al : forall d,
    get module k (fold_left (fun d a => if mem a excluded then d else put module a m d) al d) =
    if mem k al && negb (mem k excluded) then Some m else get module k d.
  Proof.
    induction al as [|a al IH]; intros d; [reflexivity|]. cbn [fold_left]. rewrite IH. clear IH.
    change (mem k (a :: al)) with (beqb k a || mem k al).
    destruct (mem k excluded) eqn:Ek; rewrite ?andb_false_r, ?andb_true_r; cbn [negb].
    - destruct (mem a excluded) eqn:Ea; [reflexivity|]. rewrite get_put.
      destruct (beqb_spec k a) as [->|]; [congruence|reflexivity].
    - rewrite ?andb_true_r. destruct (mem k al); [rewrite orb_true_r; reflexivity|]. rewrite orb_false_r.
      destruct (beqb_spec k a) as [->|N].
      + rewrite Ek, get_put, beqb_refl. reflexivity.
      + destruct (mem a excluded); [reflexivity|]. rewrite get_put. destruct (beqb_spec k a); congruence.
  Qed.

  (** Module [n] offers [m] under the key [k]. *)
  Definition offers (excluded : list bytes) (n k : bytes) (m : module) : Prop :=
    import_module n = Imported m /\ has_attr m = true /\ (init m = NoInit \/ init m = InitReturns true) /\
    match aliases m with Some al => In k al /\ ~ In k excluded | None => k = n end.

  Lemma offers_fun excluded n k m k' m' : offers excluded n k m -> offers excluded n k' m' -> m = m'.
  Proof. intros (E & _) (E' & _). congruence. Qed.

  Lemma load_modules_spec ignored excluded names : forall d d',
    load_modules module import_module has_attr init aliases ignored names excluded d = Some d' ->
    forall k m, get module k d' = Some m <->
      (exists pre n post, names = pre ++ n :: post /\ offers excluded n k m /\
         forall n' m', In n' post -> ~ offers excluded n' k m') \/
      (get module k d = Some m /\ forall n' m', In n' names -> ~ offers excluded n' k m').
  Proof.
    induction names as [|n names IH]; intros d d' E k m.
    - cbn in E. injection E as <-. split; [intros H; right; split; [exact H|intros ? ? []]|].
      intros [(pre & n & post & H & _)|[H _]]; [destruct pre; discriminate|exact H].
    - cbn [load_modules] in E.
      assert (Skip : load_modules module import_module has_attr init aliases ignored names excluded d = Some d' ->
        (forall k m, ~ offers excluded n k m) ->
        (get module k d' = Some m <->
         (exists pre n0 post, n :: names = pre ++ n0 :: post /\ offers excluded n0 k m /\
            forall n' m', In n' post -> ~ offers excluded n' k m') \/
         (get module k d = Some m /\ forall n' m', In n' (n :: names) -> ~ offers excluded n' k m'))).
      { intros E' No. rewrite (IH d d' E' k m). split.
        - intros [(pre & n0 & post & -> & H)|[H1 H2]].
          + left. exists (n :: pre), n0, post. split; [reflexivity|exact H].
          + right. split; [exact H1|]. intros n' m' [<-|Hn]; [apply No|apply H2, Hn].
        - intros [(pre & n0 & post & Eq & H)|[H1 H2]].
          + destruct pre as [|p pre]; injection Eq as -> ->; [destruct H as [H _]; destruct (No _ _ H)|].
            left. exists pre, n0, post. split; [reflexivity|exact H].
          + right. split; [exact H1|]. intros n' m' Hn. apply H2. right. exact Hn. }
      unfold load_module in E. destruct (import_module n) as [mo|e|] eqn:Im; [| |discriminate].
      2:{ apply Skip; [exact E|]. intros k' m' (H & _). congruence. }
      destruct (has_attr mo) eqn:Ha; cbn [negb] in E.
      2:{ apply Skip; [exact E|]. intros k' m' (H & H' & _). congruence. }
      assert (Add : forall d1, (forall k, get module k d1 =
          if match aliases mo with Some al => mem k al && negb (mem k excluded) | None => beqb k n end then Some mo else get module k d) ->
        init mo = NoInit \/ init mo = InitReturns true ->
        load_modules module import_module has_attr init aliases ignored names excluded d1 = Some d' ->
        (get module k d' = Some m <->
         (exists pre n0 post, n :: names = pre ++ n0 :: post /\ offers excluded n0 k m /\
            forall n' m', In n' post -> ~ offers excluded n' k m') \/
         (get module k d = Some m /\ forall n' m', In n' (n :: names) -> ~ offers excluded n' k m'))).
      { intros d1 G Hi E'. rewrite (IH d1 d' E' k m). rewrite G. clear IH Skip.
        assert (O : match aliases mo with Some al => mem k al && negb (mem k excluded) | None => beqb k n end = true <->
          offers excluded n k mo).
        { unfold offers. rewrite Im. destruct (aliases mo) as [al|].
          - rewrite andb_true_iff, negb_true_iff, mem_iff, mem_false. tauto.
          - rewrite beqb_eq. tauto. }
        revert O. generalize (match aliases mo with Some al => mem k al && negb (mem k excluded) | None => beqb k n end).
        intros b O. split.
        - intros [(pre & n0 & post & -> & H)|[H1 H2]].
          + left. exists (n :: pre), n0, post. split; [reflexivity|exact H].
          + destruct b.
            * injection H1 as <-. left. exists [], n, names. split; [reflexivity|]. split; [apply O; reflexivity|exact H2].
            * right. split; [exact H1|]. intros n' m' [<-|Hn]; [|apply H2, Hn]. intros K.
              assert (m' = mo) by (destruct K as (K & _); congruence). subst m'. apply O in K. discriminate.
        - intros [(pre & n0 & post & Eq & H)|[H1 H2]].
          + destruct pre as [|p pre]; injection Eq as -> ->.
            * right. destruct H as [H H']. assert (m = mo) by (destruct H as (K & _); congruence). subst m.
              apply O in H. rewrite H. split; [reflexivity|exact H'].
            * left. exists pre, n0, post. split; [reflexivity|exact H].
          + right. split; [|intros n' m' Hn; apply H2; right; exact Hn].
            destruct b; [|exact H1].
            exfalso. apply (H2 n mo); [left; reflexivity|]. apply O. reflexivity. }
      assert (G : forall k, get module k (match aliases mo with
          | Some al => fold_left (fun d a => if mem a excluded then d else put module a mo d) al d
          | None => put module n mo d end) =
        if match aliases mo with Some al => mem k al && negb (mem k excluded) | None => beqb k n end then Some mo else get module k d).
      { intros k0. destruct (aliases mo) as [al|]; [apply get_fold|apply get_put]. }
      destruct (init mo) as [|[|]|] eqn:Hi; [| | |discriminate].
      + exact (Add _ G (or_introl eq_refl) E).
      + exact (Add _ G (or_intror eq_refl) E).
      + apply Skip; [exact E|]. intros k' m' (H & _ & H' & _). assert (m' = mo) by congruence. subst m'.
        destruct H'; congruence.
  Qed.

  (** Loading fails only if an import or a start-up routine raises something unexpected. *)
  Lemma load_modules_runs ignored excluded names : forall d,
    (forall n, In n names -> import_module n <> ImportRaises /\ forall m, import_module n = Imported m -> init m <> InitRaises) ->
    exists d', load_modules module import_module has_attr init aliases ignored names excluded d = Some d'.
  Proof.
    induction names as [|n names IH]; intros d H; [eexists; reflexivity|]. cbn [load_modules].
    destruct (H n (or_introl eq_refl)) as [H1 H2].
    assert (H' : forall n, In n names -> import_module n <> ImportRaises /\ forall m, import_module n = Imported m -> init m <> InitRaises).
    { intros n' Hn. apply H. right. exact Hn. }
    unfold load_module. destruct (import_module n) as [mo|e|]; [|apply IH, H'|congruence].
    destruct (negb (has_attr mo)); [apply IH, H'|]. specialize (H2 mo eq_refl).
    destruct (init mo) as [|[|]|]; try (apply IH, H'). congruence.
  Qed.
End Load.

(** ** The start-up test *)
Lemma initialize_iff command isfile skip program run versions :
  initialize command isfile skip program run versions = true <->
  exists c, command = Some c /\ isfile c = true /\
    (skip = true \/ program = [] \/
     exists r, run = Some r /\ t_tle r = false /\ t_mle r = false /\ t_stderr r = [] /\ versions = true /\
       same_upto_surrounding (t_stdout r) (B "echo: Hello, World!")).
Proof.
  unfold initialize. destruct command as [c|]; [|split; [discriminate|intros (c & H & _); discriminate]].
  destruct (isfile c) eqn:F; cbn [negb]; [|split; [discriminate|intros (c' & [= <-] & H & _); congruence]].
  assert (S : forall s, beqb (py_strip s) test_message = true <-> same_upto_surrounding s (B "echo: Hello, World!")).
  { intros s. rewrite beqb_eq, <- strip_eq_iff. reflexivity. }
  unfold run_self_test. split.
  - intros H. exists c. split; [reflexivity|]. split; [exact F|]. destruct skip; [left; reflexivity|]. right. cbn [orb] in H.
    destruct program as [|p program]; [left; reflexivity|]. right. destruct run as [r|]; [|discriminate]. exists r.
    destruct (t_tle r); [discriminate|]. destruct (t_mle r); [discriminate|]. destruct versions; [|discriminate].
    cbn [andb negb] in H. apply andb_prop in H as [H1 H2]. apply S in H1. destruct (t_stderr r); [|discriminate]. auto 7.
  - intros (c' & _ & _ & [->|[->|(r & -> & E1 & E2 & E3 & -> & H)]]); [reflexivity|apply orb_true_r|].
    apply S in H. rewrite E1, E2, E3, H. cbn. destruct program; apply orb_true_r.
Qed.

(** ** Versions *)
Lemma dec_iff c : dec_digit c = true <-> dec c.
Proof. unfold dec_digit, dec. lia. Qed.
Lemma forall_dec a : Forall (fun c => dec_digit c = true) a <-> Forall dec a.
Proof. split; apply Forall_impl; intros c; apply dec_iff. Qed.
Lemma value_number ds : number ds = value 0 ds.
Proof.
  unfold number. generalize 0%Z. induction ds as [|c ds IH]; intros a; [reflexivity|]. cbn. apply IH.
Qed.

Definition ends (r : bytes) : Prop := match r with [] => True | c :: _ => dec_digit c = false end.

Lemma run_unique a r a' t : Forall dec a -> ends r -> Forall dec a' -> a ++ r = a' ++ 46%N :: t -> a = a' /\ r = 46%N :: t.
Proof.
  intros Ha Hr. revert a'. induction Ha as [|x a Hx _ IH]; intros a' Ha' E.
  - destruct Ha' as [|y a' Hy Ha']; [split; [reflexivity|exact E]|]. cbn in E. subst r. cbn in Hr. apply dec_iff in Hy. congruence.
  - destruct Ha' as [|y a' Hy Ha']; cbn in E.
    + injection E as -> _. unfold dec in Hx. lia.
    + injection E as -> E. destruct (IH a' Ha' E) as [-> ->]. split; reflexivity.
Qed.
Lemma run_longest a r b t : ends r -> Forall dec b -> a ++ r = b ++ t -> length b <= length a.
Proof.
  intros Hr. revert b. induction a as [|x a IH]; intros b Hb E.
  - destruct Hb as [|y b Hy Hb]; [cbn; lia|]. cbn in E. subst r. cbn in Hr. apply dec_iff in Hy. congruence.
  - destruct Hb as [|y b Hy Hb]; [cbn; lia|]. cbn in E. injection E as -> E. specialize (IH b Hb E). cbn. lia.
Qed.

Lemma dotted_inv num v : dotted num v -> exists a s, num = a ++ 46%N :: s /\ a <> [] /\ Forall dec a.
Proof. intros H; destruct H; eauto 6. Qed.

Lemma version_run f : forall a r, length r <= f -> a <> [] -> Forall dec a -> ends r ->
  match groups f r with
  | [] => forall num post v, a ++ r = num ++ post -> ~ dotted num v
  | gs => exists num post, a ++ r = num ++ post /\ dotted num (map number (a :: gs)) /\
      forall num' post' v', a ++ r = num' ++ post' -> dotted num' v' -> length num' <= length num
  end.
Proof.
  induction f as [|f IH]; intros a r L Na Ha Hr.
  { destruct r as [|c r]; [|cbn in L; lia]. cbn [groups]. intros num post v E D.
    destruct (dotted_inv _ _ D) as (a' & s & -> & Na' & Ha'). rewrite <- app_assoc in E. cbn in E.
    destruct (run_unique a [] a' _ Ha Hr Ha' E) as [_ K]. discriminate. }
  destruct r as [|c r].
  { cbn [groups]. intros num post v E D.
    destruct (dotted_inv _ _ D) as (a' & s & -> & Na' & Ha'). rewrite <- app_assoc in E. cbn in E.
    destruct (run_unique a [] a' _ Ha Hr Ha' E) as [_ K]. discriminate. }
  cbn [groups]. destruct (c =? 46)%N eqn:Ec.
  2:{ intros num post v E D. destruct (dotted_inv _ _ D) as (a' & s & -> & Na' & Ha'). rewrite <- app_assoc in E. cbn in E.
      destruct (run_unique a (c :: r) a' _ Ha Hr Ha' E) as [_ K]. injection K as -> _. discriminate. }
  apply N.eqb_eq in Ec. subst c.
  pose proof (span_spec dec_digit r) as Sp. destruct (span dec_digit r) as [ds r']. destruct Sp as (-> & Hds & Hr').
  apply forall_dec in Hds.
  (* what a dotted prefix looks like *)
  assert (Form : forall num post v, a ++ 46%N :: ds ++ r' = num ++ post -> dotted num v ->
    exists s, num = a ++ 46%N :: s /\ ds ++ r' = s ++ post /\ (Forall dec s /\ s <> [] \/ exists v', dotted s v')).
  { intros num post v E D. inversion D as [a' b Na' Ha' Nb Hb|a' s v' Na' Ha' Ds]; subst.
    - rewrite <- app_assoc in E. cbn in E. destruct (run_unique a _ a' _ Ha Hr Ha' E) as [<- K]. injection K as K.
      exists b. repeat split; [exact K|left; split; assumption].
    - rewrite <- app_assoc in E. cbn in E. destruct (run_unique a _ a' _ Ha Hr Ha' E) as [<- K]. injection K as K.
      exists s. repeat split; [exact K|right; eauto]. }
  destruct ds as [|d0 ds0].
  { intros num post v E D. destruct (Form num post v E D) as (s & -> & K & [[Hs Ns]|[v' Dv]]).
    - cbn in K. destruct Hs as [|x s Hx Hs]; [congruence|]. subst r'. cbn in Hr'. apply dec_iff in Hx. congruence.
    - destruct (dotted_inv _ _ Dv) as (a' & s' & -> & Na' & Ha'). cbn in K.
      destruct Ha' as [|x a' Hx Ha']; [congruence|]. subst r'. cbn in Hr'. apply dec_iff in Hx. congruence. }
  set (ds := d0 :: ds0) in *. assert (Nd : ds <> []) by discriminate. clearbody ds. clear d0 ds0.
  specialize (IH ds r' ltac:(cbn [length] in L; rewrite app_length in L; lia) Nd Hds Hr').
  assert (Nf : forall T (x y : T), match ds with [] => x | _ => y end = y) by (intros; destruct ds; [congruence|reflexivity]).
  assert (E0 : match ds with [] => [] | _ :: _ => ds :: groups f r' end = ds :: groups f r') by (destruct ds; [congruence|reflexivity]).
  clear E0 Nf.
  destruct (groups f r') as [|g gs].
  - exists (a ++ 46%N :: ds), r'. split; [rewrite <- app_assoc; reflexivity|]. split.
    + cbn [map]. rewrite !value_number. constructor; assumption.
    + intros num' post' v' E D. destruct (Form num' post' v' E D) as (s & -> & K & [[Hs Ns]|[v'' Dv]]).
      * pose proof (run_longest ds r' s post' Hr' Hs K). rewrite !app_length. cbn. lia.
      * destruct (IH _ _ _ K Dv).
  - destruct IH as (num & post & E1 & D1 & M). exists (a ++ 46%N :: num), post.
    split; [rewrite <- app_assoc; cbn; rewrite E1; reflexivity|]. split.
    + change (map number (a :: ds :: g :: gs)) with (number a :: map number (ds :: g :: gs)). rewrite value_number.
      constructor; assumption.
    + intros num' post' v' E D. destruct (Form num' post' v' E D) as (s & -> & K & [[Hs Ns]|[v'' Dv]]).
      * pose proof (run_longest ds r' s post' Hr' Hs K).
        destruct (dotted_inv _ _ D1) as (a1 & s1 & -> & Na1 & Ha1). rewrite <- app_assoc in E1. cbn in E1.
        destruct (run_unique ds r' a1 _ Hds Hr' Ha1 E1) as [-> _]. rewrite !app_length. cbn. rewrite app_length. cbn. lia.
      * specialize (M _ _ _ K Dv). rewrite !app_length. cbn. lia.
Qed.

Lemma version_at_spec s : match version_at s with
  | Some v => exists num post, s = num ++ post /\ dotted num v /\
      forall num' post' v', s = num' ++ post' -> dotted num' v' -> length num' <= length num
  | None => forall num post v, s = num ++ post -> ~ dotted num v
  end.
Proof.
  unfold version_at. pose proof (span_spec dec_digit s) as Sp. destruct (span dec_digit s) as [ds r].
  destruct Sp as (-> & Hds & Hr). apply forall_dec in Hds. destruct ds as [|d0 ds0].
  - intros num post v E D. destruct (dotted_inv _ _ D) as (a & t & -> & Na & Ha). cbn in E.
    destruct Ha as [|x a Hx Ha]; [congruence|]. cbn in E. subst r. apply dec_iff in Hx. congruence.
  - pose proof (version_run (length r) (d0 :: ds0) r (le_n _) ltac:(discriminate) Hds Hr) as V.
    destruct (groups (length r) r); exact V.
Qed.

Lemma parse_version_spec s : match parse_version s with
  | Some v => first_version s v
  | None => forall pre num post v, s = pre ++ num ++ post -> ~ dotted num v
  end.
Proof.
  induction s as [|c s IH].
  - cbn. intros pre num post v E D. symmetry in E. apply app_eq_nil in E as [-> E]. apply app_eq_nil in E as [-> _].
    destruct (dotted_inv _ _ D) as (a & t & E & _). destruct a; discriminate.
  - cbn [parse_version]. pose proof (version_at_spec (c :: s)) as V. destruct (version_at (c :: s)) as [v|].
    + destruct V as (num & post & E & D & M). exists [], num, post. split; [exact E|]. split; [exact D|].
      intros pre' num' post' v' E' D'. split; [cbn; lia|]. intros L. destruct pre'; [|cbn in L; lia]. exact (M num' post' v' E' D').
    + destruct (parse_version s) as [v|].
      * destruct IH as (pre & num & post & -> & D & M). exists (c :: pre), num, post. split; [reflexivity|]. split; [exact D|].
        intros pre' num' post' v' E' D'. destruct pre' as [|x pre']; [destruct (V num' post' v' E' D')|].
        injection E' as <- E'. specialize (M pre' num' post' v' E' D'). cbn [length]. lia.
      * intros pre num post v E D. destruct pre as [|x pre]; [exact (V num post v E D)|]. injection E as <- E. exact (IH _ _ _ _ E D).
Qed.

Lemma dotted_fun num v : dotted num v -> forall v', dotted num v' -> v = v'.
Proof.
  induction 1 as [a b Na Ha Nb Hb|a s v Na Ha D IH]; intros v' D'.
  - inversion D' as [a' b' Na' Ha' Nb' Hb' E|a' s' v1 Na' Ha' D1 E]; subst.
    + destruct (run_unique a (46%N :: _) a' _ Ha eq_refl Ha' (eq_sym E)) as [<- K]. injection K as <-. reflexivity.
    + destruct (run_unique a (46%N :: _) a' _ Ha eq_refl Ha' (eq_sym E)) as [<- K]. injection K as <-.
      destruct (dotted_inv _ _ D1) as (x & y & -> & Nx & Hx). apply Forall_app in Hb as [_ Hb]. inversion Hb as [|? ? Hd]; subst.
      unfold dec in Hd. lia.
  - inversion D' as [a' b' Na' Ha' Nb' Hb' E|a' s' v1 Na' Ha' D1 E]; subst.
    + destruct (run_unique a (46%N :: _) a' _ Ha eq_refl Ha' (eq_sym E)) as [<- K]. injection K as ->.
      destruct (dotted_inv _ _ D) as (x & y & -> & Nx & Hx). apply Forall_app in Hb' as [_ Hb]. inversion Hb as [|? ? Hd]; subst.
      unfold dec in Hd. lia.
    + destruct (run_unique a (46%N :: _) a' _ Ha eq_refl Ha' (eq_sym E)) as [<- K]. injection K as ->. f_equal. apply IH, D1.
Qed.
Lemma first_version_fun s v v' : first_version s v -> first_version s v' -> v = v'.
Proof.
  intros (p & n & q & E & D & M) (p' & n' & q' & E' & D' & M').
  destruct (M _ _ _ _ E' D') as [L1 K1]. destruct (M' _ _ _ _ E D) as [L2 K2].
  assert (Lp : length p = length p') by lia. specialize (K1 Lp). specialize (K2 (eq_sym Lp)).
  rewrite E in E'. assert (Sp : forall (a b c d : bytes), a ++ b = c ++ d -> length a = length c -> a = c /\ b = d).
  { clear. induction a as [|x a IH]; intros b [|y c] d E L; cbn in *; try discriminate; [auto|].
    injection E as -> E. destruct (IH b c d E ltac:(lia)) as [-> ->]. auto. }
  destruct (Sp _ _ _ _ E' Lp) as [<- E2]. destruct (Sp _ _ _ _ E2 ltac:(lia)) as [<- _]. exact (dotted_fun _ _ D _ D').
Qed.

Lemma parse_version_iff s v : parse_version s = Some v <-> first_version s v.
Proof.
  pose proof (parse_version_spec s) as P. split.
  - intros E. rewrite E in P. exact P.
  - intros H. destruct (parse_version s) as [w|].
    + f_equal. exact (first_version_fun _ _ _ P H).
    + destruct H as (p & n & q & E & D & _). destruct (P _ _ _ _ E D).
Qed.

Lemma runtime_version_spec outputs :
  (exists pre o post, outputs = pre ++ Some o :: post /\ first_version o (runtime_version outputs) /\
     forall x v, In (Some x) pre -> ~ first_version x v) \/
  (runtime_version outputs = [] /\ forall x v, In (Some x) outputs -> ~ first_version x v).
Proof.
  induction outputs as [|[o|] r IH]; cbn [runtime_version].
  - right. split; [reflexivity|intros ? ? []].
  - destruct (parse_version o) as [v|] eqn:E.
    + left. exists [], o, r. split; [reflexivity|]. split; [apply parse_version_iff, E|intros ? ? []].
    + assert (N : forall v, ~ first_version o v) by (intros v H; apply parse_version_iff in H; congruence).
      destruct IH as [(pre & o' & post & -> & H1 & H2)|(H1 & H2)].
      * left. exists (Some o :: pre), o', post. split; [reflexivity|]. split; [exact H1|].
        intros x v [[= <-]|Hx]; [apply N|apply H2, Hx].
      * right. split; [exact H1|]. intros x v [[= <-]|Hx]; [apply N|apply H2, Hx].
  - destruct IH as [(pre & o' & post & -> & H1 & H2)|(H1 & H2)].
    + left. exists (None :: pre), o', post. split; [reflexivity|]. split; [exact H1|].
      intros x v [K|Hx]; [discriminate|apply H2, Hx].
    + right. split; [exact H1|]. intros x v [K|Hx]; [discriminate|apply H2, Hx].
Qed.

(** ** Symbolic links *)
Lemma starts_with_app d s : starts_with d s = true <-> exists r, s = d ++ r.
Proof.
  revert s; induction d as [|x d IH]; intros s; cbn [starts_with].
  - split; [intros _; exists s; reflexivity|reflexivity].
  - destruct s as [|y s]; [split; [discriminate|intros [r E]; discriminate]|].
    rewrite andb_true_iff, N.eqb_eq, IH. split.
    + intros [-> [r ->]]. exists r. reflexivity.
    + intros [r E]. injection E as -> ->. split; [reflexivity|exists r; reflexivity].
Qed.

Lemma normpath_absolute r : exists q, Forall name_ok q /\
  (normpath (slash :: r) = spelled q \/ normpath (slash :: r) = slash :: spelled q).
Proof.
  assert (Hok : Forall name_ok (norm_loop true [] (re_split is_slash r))).
  { apply norm_loop_ok; [|constructor]. apply (components_no_slash r). apply split_components. }
  exists (norm_loop true [] (re_split is_slash r)). split; [exact Hok|].
  unfold normpath. change (starts_slash (slash :: r)) with true. cbv iota zeta.
  change (re_split is_slash (slash :: r)) with ([] :: re_split is_slash r).
  rewrite norm_loop_stay by (left; reflexivity). rewrite (slash_join_spelled _ Hok).
  destruct (match r with [] => false | _ => _ end); [right|left]; reflexivity.
Qed.

Lemma segment_prefix n t m u : ~ In 47%N n -> ~ In 47%N m -> n <> [] -> m <> [] ->
  (t = [] \/ exists t', t = 47%N :: t') -> (u = [] \/ exists u', u = 47%N :: u') ->
  (exists r, m ++ u = n ++ t ++ r) ->
  (t = [] -> exists x, m = n ++ x) /\ (t <> [] -> m = n /\ exists r, u = t ++ r).
Proof.
  intros Hn Hm _ _ Ht Hu [r E]. revert m Hm E. induction n as [|a n IH]; intros m Hm E.
  - cbn in E. split; [intros _; exists m; reflexivity|]. intros Nt. destruct Ht as [->|(t' & ->)]; [congruence|].
    destruct m as [|b m]; [split; [reflexivity|]; exists r; exact E|]. cbn in E. injection E as -> _. destruct Hm. left; reflexivity.
  - destruct m as [|b m].
    + cbn in E. destruct Hu as [->|(u' & ->)]; [discriminate|]. injection E as <- _. destruct Hn. left; reflexivity.
    + cbn in E. injection E as -> E. destruct (IH (fun H => Hn (or_intror H)) m (fun H => Hm (or_intror H)) E) as [I1 I2]. split.
      * intros Et. destruct (I1 Et) as [x ->]. exists x. reflexivity.
      * intros Nt. destruct (I2 Nt) as [-> H]. split; [reflexivity|exact H].
Qed.

Definition glued (l : place) : list N := concat (map (fun n => 47%N :: n) l).
Lemma spelled_prefix d : forall q, d <> [] -> Forall name_ok d -> Forall name_ok q ->
  (exists r, glued q = glued d ++ r) -> exists x q', q = removelast d ++ (last d [] ++ x) :: q'.
Proof.
  induction d as [|n d IH]; intros q Nd Hd Hq [r E]; [congruence|]. clear Nd.
  inversion Hd as [|? ? Hn Hd']; subst. destruct q as [|m q]; [discriminate|].
  inversion Hq as [|? ? Hm Hq']; subst. unfold glued in E. cbn [map concat app] in E. injection E as E.
  destruct Hn as (Nn & Sn & _). destruct Hm as (Nm & Sm & _).
  assert (Gl : forall l, glued l = [] \/ exists t, glued l = 47%N :: t) by (intros [|y l]; [left|right; eexists]; reflexivity).
  destruct (segment_prefix n (glued d) m (glued q) Sn Sm Nn Nm (Gl d) (Gl q)) as [P1 P2].
  { exists r. unfold glued. rewrite E, <- app_assoc. reflexivity. }
  destruct d as [|n2 d].
  - destruct (P1 eq_refl) as [x ->]. exists x, q. reflexivity.
  - destruct (P2 ltac:(discriminate)) as [-> P]. destruct (IH q ltac:(discriminate) Hd' Hq' P) as (x & q' & ->).
    exists x, q'. reflexivity.
Qed.

Lemma spelled_glued l : l <> [] -> spelled l = glued l.
Proof. destruct l; [congruence|reflexivity]. Qed.

Lemma symlink_near d src p : d <> [] -> Forall name_ok d -> symlink (spelled d) src = Link p ->
  exists x q, p = spelled (removelast d ++ (last d [] ++ x) :: q) /\ Forall name_ok (removelast d ++ (last d [] ++ x) :: q).
Proof.
  intros Nd Hd. unfold symlink. destruct (starts_with (spelled d) _) eqn:S; [|discriminate]. intros [= <-].
  assert (A : exists r, join (spelled d) src = slash :: r).
  { unfold join. destruct (starts_slash src) eqn:Es.
    - destruct src as [|c src]; [discriminate|]. cbn in Es. apply N.eqb_eq in Es. subst c. eexists; reflexivity.
    - rewrite (spelled_glued d Nd). destruct d as [|n d]; [congruence|]. cbn [glued map concat app].
      destruct (ends_slash _); eexists; reflexivity. }
  destruct A as [r A]. rewrite A in S |- *. clear A. destruct (normpath_absolute r) as (q & Hq & [E|E]); rewrite E in S |- *.
  - apply starts_with_app in S. destruct S as [t S].
    assert (Nq : q <> []).
    { intros ->. rewrite (spelled_glued d Nd) in S. destruct d as [|n d]; [congruence|]. inversion Hd as [|? ? Hn _]; subst.
      destruct Hn as (Nn & _). destruct n; [congruence|]. discriminate. }
    rewrite (spelled_glued d Nd), (spelled_glued q Nq) in S.
    destruct (spelled_prefix d q Nd Hd Hq (ex_intro _ t S)) as (x & q' & ->). exists x, q'. split; [reflexivity|exact Hq].
  - exfalso. apply starts_with_app in S. destruct S as [t S]. rewrite (spelled_glued d Nd) in S.
    destruct d as [|n d]; [congruence|]. inversion Hd as [|? ? Hn _]; subst. destruct Hn as (Nn & Sn & _).
    destruct n as [|c n]; [congruence|]. cbn [glued map concat app] in S. injection S as S.
    assert (K : exists z, spelled q = 47%N :: z) by (destruct q; eexists; reflexivity). destruct K as [z K]. rewrite K in S.
    injection S as S _. apply Sn. left. symmetry. exact S.
Qed.

Lemma symlink_inside d src x is_dir : d <> [] -> Forall name_ok d -> starts_slash src = false ->
  Denotes is_dir (fun _ => None) d src (d ++ x) -> symlink (spelled d) src = Link (spelled (d ++ x)).
Proof.
  intros Nd Hd Es D. unfold symlink.
  assert (E : normpath (join (spelled d) src) = spelled (d ++ x)).
  { inversion D as [r cs q C W|r cs q Hh C W]; subst; [discriminate|].
    destruct (split_spelled d src Hd) as (s & E1 & E2). rewrite Es in E1. rewrite E1.
    destruct (walk_norm _ _ _ _ W Hd) as [E Hq].
    assert (Hok : Forall name_ok (norm_loop true [] (re_split is_slash s))).
    { apply norm_loop_ok; [|constructor]. apply (components_no_slash s). apply split_components. }
    assert (Q : norm_loop true [] (re_split is_slash s) = d ++ x).
    { rewrite (E2 Es), (components_split _ _ C). rewrite norm_loop_names by exact Hd. rewrite app_nil_r. exact E. }
    rewrite <- Q.
    unfold normpath. change (starts_slash (slash :: s)) with true. cbv iota zeta.
    change (re_split is_slash (slash :: s)) with ([] :: re_split is_slash s).
    rewrite norm_loop_stay by (left; reflexivity). rewrite (slash_join_spelled _ Hok).
    assert (Two : match s with b :: r => is_slash slash && is_slash b && negb (starts_slash r) | [] => false end = false).
    { destruct d as [|n d]; [congruence|]. inversion Hd as [|? ? Hn Hd']; subst. destruct Hn as (Nn & Sn & _).
      destruct n as [|c n]; [congruence|]. specialize (E2 Es). clear -E2 Sn. destruct s as [|b s]; [reflexivity|].
      destruct (is_slash b) eqn:Eb; [|rewrite andb_false_r; reflexivity]. unfold re_split in E2. cbn [re_split_acc] in E2. rewrite Eb in E2. discriminate. }
    change (match slash :: s with a :: b :: r => is_slash a && is_slash b && negb (starts_slash r) | _ => false end)
      with (match s with b :: r => is_slash slash && is_slash b && negb (starts_slash r) | [] => false end).
    rewrite Two. reflexivity. }
  rewrite E. replace (starts_with (spelled d) (spelled (d ++ x))) with true; [reflexivity|].
  symmetry. apply starts_with_app. rewrite (spelled_glued d Nd), (spelled_glued (d ++ x)) by (destruct d; [congruence|discriminate]).
  unfold glued. rewrite map_app, concat_app. eexists; reflexivity.
Qed.
