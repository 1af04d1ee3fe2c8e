(** Characterisations of the Python checkers. *)
From Coq Require Import String QArith ZifyBool ZifyNat ZifyN Permutation.
From Verif Require Import Model.Bytes Model.Checkers Spec.Text Proofs.BytesLemmas Proofs.Standard.
Local Open Scope nat_scope.
Local Open Scope list_scope.

Lemma standard_check_spec process judge :
  exists b, standard_check process judge = RBool b /\ (b = true <-> layout process = layout judge).
Proof.
  unfold standard_check. destruct (checker_standard_ok judge process) as (b & -> & H).
  exists b. split; [reflexivity|]. rewrite H. split; congruence.
Qed.

Lemma identical_check_spec process judge pe :
  (process = judge -> identical_check process judge pe = RBool true) /\
  (process <> judge ->
     exists fb, identical_check process judge pe = RResult false 0 fb /\
       (fb = Some (B "Presentation Error, check your whitespace") <-> pe = true /\ layout process = layout judge) /\
       (fb = None <-> ~ (pe = true /\ layout process = layout judge))).
Proof.
  unfold identical_check. destruct (beqb_spec judge process) as [->|Hne].
  - split; [reflexivity|congruence].
  - split; [congruence|]. intros _.
    destruct (checker_standard_ok judge process) as (b & -> & Hb).
    assert (b = true <-> layout process = layout judge) as Hb' by (rewrite Hb; split; congruence).
    clear Hb. eexists; split; [reflexivity|]. unfold pe_message.
    rewrite <- Hb'. destruct pe, b; split; split; intros; try discriminate; try tauto; intuition congruence.
Qed.

(** ** easy *)
Lemma counter_incr_get c m k :
  counter_get k (counter_incr c m) =
  if (k =? c)%N then Some (match counter_get c m with Some n => S n | None => 1 end) else counter_get k m.
Proof.
  induction m as [|[x n] r IH]; cbn.
  - rewrite (N.eqb_sym c k). destruct (N.eqb_spec k c); reflexivity.
  - destruct (N.eqb_spec x c) as [->|Hxc]; cbn.
    + rewrite (N.eqb_sym c k). destruct (N.eqb_spec k c); reflexivity.
    + destruct (N.eqb_spec x k) as [->|Hxk].
      * destruct (N.eqb_spec k c); [congruence|reflexivity].
      * exact IH.
Qed.
Lemma counter_incr_keys c m :
  map fst (counter_incr c m) = if existsb (N.eqb c) (map fst m) then map fst m else map fst m ++ [c].
Proof.
  induction m as [|[x n] r IH]; cbn; [reflexivity|].
  rewrite (N.eqb_sym c x). destruct (N.eqb_spec x c); cbn; [reflexivity|].
  rewrite IH. destruct (existsb (N.eqb c) (map fst r)); reflexivity.
Qed.
Lemma counter_incr_nodup c m : NoDup (map fst m) -> NoDup (map fst (counter_incr c m)).
Proof.
  intros H. rewrite counter_incr_keys. destruct (existsb (N.eqb c) (map fst m)) eqn:E; [exact H|].
  apply NoDup_Add with (a := c) (l := map fst m).
  - rewrite <- (app_nil_r (map fst m)) at 1. apply Add_app.
  - split; [exact H|]. intros Hin. assert (existsb (N.eqb c) (map fst m) = true); [|congruence].
    apply existsb_exists. exists c. split; [exact Hin|apply N.eqb_refl].
Qed.
Definition counter_inv (s : bytes) (m : list (N * nat)) : Prop :=
  NoDup (map fst m) /\
  forall k, counter_get k m = match count_occ N.eq_dec s k with 0 => None | S n => Some (S n) end.
Lemma counter_fold s : forall pre m, counter_inv pre m ->
  counter_inv (pre ++ s) (fold_left (fun m c => counter_incr c m) s m).
Proof.
  induction s as [|c s IH]; intros pre m H; cbn.
  - rewrite app_nil_r. exact H.
  - rewrite app_cons_assoc. apply IH. destruct H as [Hn Hk]. split.
    + apply counter_incr_nodup, Hn.
    + intros k. rewrite counter_incr_get, count_occ_app. cbn. rewrite !Hk.
      destruct (N.eqb_spec k c) as [->|Hne].
      * destruct (N.eq_dec c c); [|congruence]. destruct (count_occ N.eq_dec pre c) as [|n]; cbn; [reflexivity|].
        rewrite Nat.add_1_r. reflexivity.
      * destruct (N.eq_dec c k); [congruence|]. rewrite Nat.add_0_r. reflexivity.
Qed.
Lemma counter_ok s : counter_inv s (counter s).
Proof. apply (counter_fold s [] []). split; [constructor|reflexivity]. Qed.

Lemma counter_get_in k m : NoDup (map fst m) -> forall n, counter_get k m = Some n <-> In (k, n) m.
Proof.
  induction m as [|[x v] r IH]; cbn; intros Hn n; [split; [discriminate|tauto]|].
  inversion Hn as [|? ? Hx Hr]; subst. destruct (N.eqb_spec x k) as [->|Hne].
  - split.
    + intros H; injection H as ->. left; reflexivity.
    + intros [H|H]; [congruence|]. exfalso. apply Hx. change k with (fst (k, n)). apply in_map, H.
  - rewrite (IH Hr). split; [auto|]. intros [H|H]; [congruence|exact H].
Qed.

Lemma counter_eqb_spec a b :
  counter_eqb (counter a) (counter b) = true <-> Permutation a b.
Proof.
  rewrite (Permutation_count_occ N.eq_dec).
  destruct (counter_ok a) as [Na Ga], (counter_ok b) as [Nb Gb].
  unfold counter_eqb. rewrite andb_true_iff, forallb_forall, Nat.eqb_eq.
  assert (forall k s, (exists n, count_occ N.eq_dec s k = S n) <-> In k (map fst (counter s))) as Hin.
  { intros k s. destruct (counter_ok s) as [Ns Gs]. rewrite in_map_iff. split.
    - intros (n & Hn). exists (k, S n). split; [reflexivity|]. apply counter_get_in; [exact Ns|].
      rewrite Gs, Hn. reflexivity.
    - intros ((k', n) & <- & H). cbn. apply (counter_get_in _ _ Ns) in H. rewrite Gs in H.
      destruct (count_occ N.eq_dec s k') as [|m]; [discriminate|]. exists m; reflexivity. }
  split.
  - intros [Hlen Hall] k.
    assert (forall k, In k (map fst (counter a)) -> count_occ N.eq_dec a k = count_occ N.eq_dec b k) as Hsub.
    { intros x Hx. apply in_map_iff in Hx. destruct Hx as ((x' & n) & <- & Hx). cbn.
      specialize (Hall _ Hx). cbn in Hall. apply (counter_get_in _ _ Na) in Hx. rewrite Ga in Hx. rewrite Gb in Hall.
      destruct (count_occ N.eq_dec a x'); [discriminate|]. injection Hx as <-.
      destruct (count_occ N.eq_dec b x'); [discriminate|]. apply Nat.eqb_eq in Hall. exact Hall. }
    assert (incl (map fst (counter b)) (map fst (counter a))) as Hincl.
    { apply NoDup_length_incl; [exact Na|rewrite !map_length; lia|].
      intros x Hx. apply Hin. rewrite <- (Hsub x Hx). apply Hin, Hx. }
    destruct (in_dec N.eq_dec k (map fst (counter a))) as [H|H]; [apply Hsub, H|].
    assert (~ In k (map fst (counter b))) as H' by auto.
    rewrite <- Hin in H, H'.
    destruct (count_occ N.eq_dec a k) as [|n]; [|destruct H; exists n; reflexivity].
    destruct (count_occ N.eq_dec b k) as [|n]; [reflexivity|destruct H'; exists n; reflexivity].
  - intros H. split.
    + rewrite <- !(map_length fst). apply Permutation_length, NoDup_Permutation; [exact Na|exact Nb|].
      intros x. rewrite <- !Hin, H. tauto.
    + intros (k, n) Hk. apply (counter_get_in _ _ Na) in Hk. rewrite Ga, H in Hk. rewrite Gb.
      destruct (count_occ N.eq_dec b k); [discriminate|]. injection Hk as <-. apply Nat.eqb_refl.
Qed.

Lemma easy_check_spec process judge :
  exists b, easy_check process judge = RBool b /\
    (b = true <-> Permutation (visible_folded process) (visible_folded judge)).
Proof.
  unfold easy_check. eexists; split; [reflexivity|]. rewrite counter_eqb_spec.
  assert (forall s, py_lower (strip_all_space s) = visible_folded s) as H.
  { intros s. unfold py_lower, strip_all_space, visible_folded. f_equal. apply filter_ext.
    intros c. rewrite py_isspace_spec. reflexivity. }
  rewrite !H. tauto.
Qed.

(** ** rstripped *)
Lemma forallb_zip_Forall2 {A C} (f : A * C -> bool) (R : A -> C -> Prop) a : forall b,
  (forall x y, f (x, y) = true <-> R x y) -> length a = length b ->
  (forallb f (zip a b) = true <-> Forall2 R a b).
Proof.
  induction a as [|x a IH]; intros [|y b] H Hl; cbn in *; try lia.
  - split; constructor.
  - rewrite andb_true_iff, H, (IH b H) by lia. split.
    + intros [? ?]; constructor; assumption.
    + inversion 1; auto.
Qed.

Lemma Forall2_length' {A C} (R : A -> C -> Prop) a b : Forall2 R a b -> length a = length b.
Proof. induction 1; cbn; congruence. Qed.

Lemma rstripped_check_spec process judge (fnl : bool) :
  exists b, rstripped_check process judge fnl = RBool b /\
    (b = true <-> Forall2 same_upto_trailing
                    (if fnl then nonempty_lines process else lines process)
                    (if fnl then nonempty_lines judge else lines judge)).
Proof.
  unfold rstripped_check. rewrite !re_split_lines, !filter_none_nonnil.
  change (filter nonnil (lines process)) with (nonempty_lines process).
  change (filter nonnil (lines judge)) with (nonempty_lines judge).
  set (lp := if fnl then nonempty_lines process else lines process).
  set (lj := if fnl then nonempty_lines judge else lines judge).
  destruct (Nat.eqb_spec (length lp) (length lj)) as [Hl|Hl]; cbn [negb].
  - eexists; split; [reflexivity|]. apply forallb_zip_Forall2; [|exact Hl].
    intros x y. rewrite beqb_eq. apply rstrip_eq_iff.
  - eexists; split; [reflexivity|]. split; [discriminate|]. intros H. apply Forall2_length' in H. congruence.
Qed.

(** ** sorted *)
Lemma Forall2_eq {A} (a b : list A) : Forall2 eq a b <-> a = b.
Proof.
  split.
  - induction 1; congruence.
  - intros <-. induction a; constructor; auto.
Qed.

Lemma sorted_lines_spec process judge :
  exists b, sorted_check process judge (B "lines") = RBool b /\
    (b = true <-> Permutation (map words (nonempty_lines process)) (map words (nonempty_lines judge))).
Proof.
  unfold sorted_check. change (beqb (B "lines") split_lines_mode) with true. cbn iota.
  rewrite !re_split_lines, !filter_none_nonnil.
  change (filter nonnil (lines process)) with (nonempty_lines process).
  change (filter nonnil (lines judge)) with (nonempty_lines judge).
  rewrite !(map_ext _ _ py_split_words).
  destruct (Nat.eqb_spec (length (nonempty_lines process)) (length (nonempty_lines judge))) as [Hl|Hl]; cbn [negb].
  - eexists; split; [reflexivity|].
    rewrite (forallb_zip_Forall2 _ eq).
    + rewrite Forall2_eq. apply sort_tokens_iff.
    + intros x y. apply list_eqb_eq, beqb_eq.
    + rewrite <- !(Permutation_length (sort_perm tokens_leb _)), !map_length. exact Hl.
  - eexists; split; [reflexivity|]. split; [discriminate|]. intros H. apply Permutation_length in H.
    rewrite !map_length in H. congruence.
Qed.

Lemma sorted_ws_spec process judge :
  exists b, sorted_check process judge (B "whitespace") = RBool b /\
    (b = true <-> Permutation (words process) (words judge)).
Proof.
  unfold sorted_check. change (beqb (B "whitespace") split_lines_mode) with false.
  change (beqb (B "whitespace") split_ws_mode) with true. cbn iota.
  rewrite !re_split_words.
  destruct (Nat.eqb_spec (length (words process)) (length (words judge))) as [Hl|Hl]; cbn [negb].
  - eexists; split; [reflexivity|]. rewrite (forallb_zip_Forall2 _ eq).
    + rewrite Forall2_eq. apply sort_bytes_iff.
    + intros x y. apply beqb_eq.
    + rewrite <- !(Permutation_length (sort_perm bytes_leb _)). exact Hl.
  - eexists; split; [reflexivity|]. split; [discriminate|]. intros H. apply Permutation_length in H. congruence.
Qed.

Lemma sorted_other_spec process judge mode :
  mode <> B "lines" -> mode <> B "whitespace" -> sorted_check process judge mode = RInternalError.
Proof.
  intros H1 H2. unfold sorted_check, split_lines_mode, split_ws_mode.
  rewrite (proj2 (beqb_neq _ _) H1), (proj2 (beqb_neq _ _) H2). reflexivity.
Qed.

(** ** linecount *)
Lemma linecount_loop_spec ps : forall js,
  agree_count ps js (snd (linecount_loop ps js)) /\
  length (fst (linecount_loop ps js)) = length js /\
  snd (linecount_loop ps js) <= length js /\ snd (linecount_loop ps js) <= length ps /\
  forall i, nth_error (fst (linecount_loop ps js)) i = Some 10003%N <->
    exists p j, nth_error ps i = Some p /\ nth_error js i = Some j /\ same_upto_surrounding p j.
Proof.
  assert (forall n i, nth_error (repeat mark_wrong n) i = Some 10003%N <-> False) as Hrep.
  { intros n i. split; [|tauto]. intros H. apply nth_error_In, repeat_spec in H. discriminate. }
  induction ps as [|p ps IH]; intros js; cbn.
  - split; [apply ac_left|]. split; [apply repeat_length|]. split; [lia|]. split; [lia|]. intros i; split; [intros H; apply Hrep in H; contradiction|].
    intros (p & j & H & _). destruct i; discriminate.
  - destruct js as [|j js]; cbn.
    + split; [apply ac_right|]. split; [reflexivity|]. split; [lia|]. split; [lia|]. intros i; split.
      * intros H. destruct i; discriminate.
      * intros (? & ? & _ & H & _). destruct i; discriminate.
    + specialize (IH js). destruct (linecount_loop ps js) as [cases count]. cbn in IH.
      destruct IH as (H1 & H2 & H3 & H4 & H5).
      destruct (beqb_spec (py_strip p) (py_strip j)) as [He|He]; cbn.
      * apply strip_eq_iff in He. split; [apply ac_yes; assumption|]. split; [lia|]. split; [lia|]. split; [lia|]. intros i; split.
        -- destruct i as [|i]; cbn; [intros _; exists p, j; auto|apply H5].
        -- destruct i as [|i]; cbn; [reflexivity|apply H5].
      * rewrite strip_eq_iff in He. split; [apply ac_no; assumption|]. split; [lia|]. split; [lia|]. split; [lia|]. intros i; split.
        -- destruct i as [|i]; cbn; [discriminate|apply H5].
        -- destruct i as [|i]; cbn; [|apply H5].
           intros (p' & j' & Hp & Hj & Hs). injection Hp as <-. injection Hj as <-. contradiction.
Qed.

Lemma agree_count_full ps js k : agree_count ps js k ->
  (k = length js <-> exists ps1 ps2, ps = ps1 ++ ps2 /\ Forall2 same_upto_surrounding ps1 js).
Proof.
  assert (forall ps js k, agree_count ps js k -> k <= length js) as Hle.
  { clear. induction 1; cbn; lia. }
  induction 1 as [js|ps|p j ps js k Hs Ha IH|p j ps js k Hs Ha IH].
  - split.
    + intros H. destruct js; [|discriminate]. exists [], []. split; [reflexivity|constructor].
    + intros (ps1 & ps2 & H & HF). symmetry in H. apply app_eq_nil in H as [-> ->]. inversion HF. reflexivity.
  - split; [|reflexivity]. intros _. exists [], ps. split; [reflexivity|constructor].
  - cbn. split.
    + intros H. injection H as H. apply IH in H. destruct H as (a & b & -> & HF).
      exists (p :: a), b. split; [reflexivity|constructor; assumption].
    + intros (a & b & H & HF). inversion HF as [|p' ? a' ? Hp Hr]; subst. injection H as <- ->.
      f_equal. apply IH. exists a', b. auto.
  - cbn. split.
    + intros H. pose proof (Hle _ _ _ Ha). lia.
    + intros (a & b & H & HF). inversion HF as [|p' ? a' ? Hp Hr]; subst. injection H as <- ->. contradiction.
Qed.

Lemma agree_count_fun ps js k : agree_count ps js k -> forall k', agree_count ps js k' -> k = k'.
Proof.
  induction 1 as [js|ps|p j ps js k Hs Ha IH|p j ps js k Hs Ha IH]; intros k' H'; inversion H'; subst;
    try reflexivity; try contradiction; [f_equal|]; apply IH; assumption.
Qed.

Lemma frac_bounds (pv : Q) (k n : nat) : (0 <= pv)%Q -> k <= n -> 0 < n ->
  (0 <= pv * (inject_Z (Z.of_nat k) / inject_Z (Z.of_nat n)) <= pv)%Q.
Proof.
  intros Hpv Hk Hn.
  assert (0 < inject_Z (Z.of_nat n))%Q as Hn' by (unfold Qlt; cbn; lia).
  assert (0 <= inject_Z (Z.of_nat k) / inject_Z (Z.of_nat n) <= 1)%Q as [H0 H1].
  { split.
    - apply Qle_shift_div_l; [exact Hn'|]. rewrite Qmult_0_l. unfold Qle; cbn; lia.
    - apply Qle_shift_div_r; [exact Hn'|]. rewrite Qmult_1_l. unfold Qle; cbn; lia. }
  split.
  - apply Qmult_le_0_compat; assumption.
  - rewrite <- (Qmult_1_r pv) at 2. rewrite !(Qmult_comm pv). apply Qmult_le_compat_r; assumption.
Qed.

Lemma linecount_check_spec process judge pv fb :
  let pl := nonempty_lines process in
  let jl := nonempty_lines judge in
  (length jl < length pl -> linecount_check process judge pv fb = RBool false) /\
  (pl = [] -> jl = [] -> linecount_check process judge pv fb = RBool true) /\
  (length pl <= length jl -> jl <> [] ->
     exists k passed points cases,
       agree_count pl jl k /\
       linecount_check process judge pv fb = RResult passed points (Some (if fb then cases else [])) /\
       (passed = true <-> Forall2 same_upto_surrounding pl jl) /\
       (points == pv * (inject_Z (Z.of_nat k) / inject_Z (Z.of_nat (length jl))))%Q /\
       ((0 <= pv)%Q -> (0 <= points <= pv)%Q) /\
       ((0 <= pv)%Q -> passed = true -> (points == pv)%Q) /\
       length cases = length jl /\
       (forall i, nth_error cases i = Some 10003%N <->
          exists p j, nth_error pl i = Some p /\ nth_error jl i = Some j /\ same_upto_surrounding p j)).
Proof.
  intros pl jl. unfold linecount_check. rewrite !re_split_lines, !filter_none_nonnil.
  change (filter nonnil (lines process)) with pl. change (filter nonnil (lines judge)) with jl.
  repeat split.
  - intros H. rewrite (proj2 (Nat.ltb_lt _ _) H). reflexivity.
  - intros Hp Hj. rewrite Hp, Hj. reflexivity.
  - intros Hl Hj. rewrite (proj2 (Nat.ltb_ge _ _) Hl).
    destruct (linecount_loop_spec pl jl) as (H1 & H2 & H3 & H4 & H5).
    assert (0 < length jl) as Hn by (destruct jl; [congruence|cbn; lia]).
    assert (match jl with
      | [] => RBool true
      | _ :: _ => let (cases, count) := linecount_loop pl jl in
         RResult (count =? length jl) (pv * (inject_Z (Z.of_nat count) / inject_Z (Z.of_nat (length jl))))%Q
           (Some (if fb then cases else []))
      end = let (cases, count) := linecount_loop pl jl in
         RResult (count =? length jl) (pv * (inject_Z (Z.of_nat count) / inject_Z (Z.of_nat (length jl))))%Q
           (Some (if fb then cases else []))) as -> by (destruct jl; [congruence|reflexivity]).
    destruct (linecount_loop pl jl) as [cases count]. cbn [fst snd] in *.
    exists count, (count =? length jl), (pv * (inject_Z (Z.of_nat count) / inject_Z (Z.of_nat (length jl))))%Q, cases.
    assert ((count =? length jl) = true <-> Forall2 same_upto_surrounding pl jl) as Hpass.
    { rewrite Nat.eqb_eq, (agree_count_full _ _ _ H1). split.
      - intros (a & b & Hab & HF). pose proof (Forall2_length' _ _ _ HF).
        assert (b = []) as ->.
        { apply length_zero_iff_nil. rewrite Hab, app_length in Hl. lia. }
        rewrite app_nil_r in Hab. congruence.
      - intros HF. exists pl, []. rewrite app_nil_r. auto. }
    split; [exact H1|]. split; [reflexivity|]. split; [exact Hpass|]. split; [reflexivity|].
    split; [intros Hpv; apply frac_bounds; lia || assumption|].
    split; [|split; assumption].
    intros _ Hp. apply Nat.eqb_eq in Hp as ->.
    unfold Qdiv. rewrite Qmult_inv_r; [apply Qmult_1_r|]. unfold Qeq; cbn. lia.
Qed.

(** ** Corollaries for the standard checker *)
From Verif Require Import Proofs.TextFacts.

Lemma standard_true a b : standard_check a b = RBool true <-> layout a = layout b.
Proof. destruct (standard_check_spec a b) as (r & -> & H). rewrite <- H. split; congruence. Qed.

Lemma standard_equivalence :
  (forall a, standard_check a a = RBool true) /\
  (forall a b, standard_check a b = RBool true -> standard_check b a = RBool true) /\
  (forall a b c, standard_check a b = RBool true -> standard_check b c = RBool true -> standard_check a c = RBool true).
Proof. repeat split; intros *; rewrite !standard_true; congruence. Qed.

Lemma standard_ignores_whitespace judge w :
  all_white w ->
  standard_check (judge ++ w) judge = RBool true /\ standard_check (w ++ judge) judge = RBool true /\
  standard_check (flat_map (fun c => if (c =? 10)%N then [13; 10]%N else [c]) judge) judge = RBool true.
Proof.
  intros H. rewrite !standard_true. repeat split;
    [apply layout_trailing, H|apply layout_leading, H|apply layout_crlf].
Qed.

Lemma standard_safe judge process :
  check_standard judge (length judge) process (length process) <> OOB /\
  check_standard judge (length judge) process (length process) <> NoFuel.
Proof.
  fold (checker_standard judge process). destruct (checker_standard_ok judge process) as (b & -> & _).
  split; discriminate.
Qed.
