(** Proofs about problem data. *)
From Coq Require Import String Sorted Permutation.
From Verif Require Import Model.Bytes Model.Problem Spec.Problem Proofs.BytesLemmas.
Local Open Scope list_scope.

(** ** normalize *)
Lemma replace_crlf_plain c r : c <> 13%N -> replace_crlf (c :: r) = c :: replace_crlf r.
Proof. intros H. cbn. apply N.eqb_neq in H. rewrite H. reflexivity. Qed.
Lemma replace_crlf_line l rest : ~ In CR l -> replace_crlf (l ++ rest) = l ++ replace_crlf rest.
Proof.
  induction l as [|c l IH]; intros H; [reflexivity|]. cbn [app]. rewrite replace_crlf_plain; [|intros ->; apply H; left; reflexivity].
  rewrite IH; [reflexivity|]. intros X. apply H. right. exact X.
Qed.
Lemma replace_cr_line l : ~ In CR l -> replace_cr l = l.
Proof.
  induction l as [|c l IH]; intros H; [reflexivity|]. change (replace_cr (c :: l)) with ((if (c =? 13)%N then 10%N else c) :: replace_cr l). rewrite IH; [|intros X; apply H; right; exact X].
  destruct (N.eqb_spec c 13) as [->|_]; [|reflexivity]. exfalso. apply H. left. reflexivity.
Qed.
Lemma replace_cr_app a b : replace_cr (a ++ b) = replace_cr a ++ replace_cr b.
Proof. apply map_app. Qed.
Lemma replace_crlf_cr rest : hd_error rest <> Some LF -> replace_crlf (CR :: rest) = CR :: replace_crlf rest.
Proof. intros H. cbn. destruct rest as [|c r]; [reflexivity|]. destruct (N.eqb_spec c 10) as [->|_]; [|reflexivity]. exfalso. apply H. reflexivity. Qed.

Definition close (d : list N) : list N := if endswith_lf d then d else d ++ [10%N].
Definition conv (d : list N) : list N := replace_cr (replace_crlf d).
Lemma conv_line l rest : ~ In CR l -> conv (l ++ rest) = l ++ conv rest.
Proof. intros H. unfold conv. rewrite replace_crlf_line by exact H. rewrite replace_cr_app, replace_cr_line by exact H. reflexivity. Qed.
Lemma conv_lf rest : conv (LF :: rest) = LF :: conv rest.
Proof. reflexivity. Qed.
Lemma conv_crlf rest : conv (CR :: LF :: rest) = LF :: conv rest.
Proof. reflexivity. Qed.
Lemma conv_cr rest : hd_error rest <> Some LF -> conv (CR :: rest) = LF :: conv rest.
Proof. intros H. unfold conv. rewrite replace_crlf_cr by exact H. reflexivity. Qed.
Lemma endswith_lf_app a b : b <> [] -> endswith_lf (a ++ b) = endswith_lf b.
Proof.
  intros H. unfold endswith_lf. rewrite rev_app_distr. destruct (rev b) eqn:E; [|reflexivity].
  exfalso. apply H. rewrite <- (rev_involutive b), E. reflexivity.
Qed.
Lemma close_line l x : x <> [] -> close (l ++ LF :: x) = l ++ LF :: close x.
Proof.
  intros X. unfold close. rewrite endswith_lf_app by discriminate. replace (LF :: x) with ([LF] ++ x) by reflexivity.
  rewrite endswith_lf_app by exact X. destruct (endswith_lf x); cbn; [reflexivity|]. rewrite <- app_assoc. reflexivity.
Qed.
Lemma close_end l : close (l ++ [LF]) = l ++ [LF].
Proof. unfold close. rewrite endswith_lf_app by discriminate. reflexivity. Qed.
Lemma conv_nil d : conv d = [] -> d = [].
Proof.
  destruct d as [|c r]; [reflexivity|]. unfold conv. cbn. destruct (c =? 13)%N; [|discriminate].
  destruct r as [|c2 r2]; [discriminate|]. destruct (c2 =? 10)%N; discriminate.
Qed.
Lemma close_conv_lines d ls : Lines d ls -> d <> [] -> close (conv d) = unix ls.
Proof.
  induction 1 as [|l N0 A C|l rest ls A C L IH|l rest ls A C L IH|l rest ls A C H L IH]; intros NE; try contradiction.
  - rewrite <- (app_nil_r l) at 1. rewrite conv_line by exact C. rewrite app_nil_r. unfold close, unix. cbn. rewrite app_nil_r.
    destruct (endswith_lf l) eqn:E; [|reflexivity]. exfalso. unfold endswith_lf in E. destruct (rev l) as [|c r] eqn:R; [discriminate|].
    apply N.eqb_eq in E. subst c. apply A. apply in_rev. rewrite R. left. reflexivity.
  - rewrite conv_line, conv_lf by exact C. unfold unix in *. cbn [map concat]. rewrite <- app_assoc. cbn [app]. destruct rest as [|c r].
    + inversion L; subst; try (destruct l0; discriminate); [|contradiction]. cbn. apply close_end.
    + rewrite close_line, IH; try discriminate; [reflexivity|]. intros E. apply conv_nil in E. discriminate.
  - rewrite conv_line, conv_crlf by exact C. unfold unix in *. cbn [map concat]. rewrite <- app_assoc. cbn [app]. destruct rest as [|c r].
    + inversion L; subst; try (destruct l0; discriminate); [|contradiction]. cbn. apply close_end.
    + rewrite close_line, IH; try discriminate; [reflexivity|]. intros E. apply conv_nil in E. discriminate.
  - rewrite conv_line, conv_cr by (exact C || exact H). unfold unix in *. cbn [map concat]. rewrite <- app_assoc. cbn [app]. destruct rest as [|c r].
    + inversion L; subst; try (destruct l0; discriminate); [|contradiction]. cbn. apply close_end.
    + rewrite close_line, IH; try discriminate; [reflexivity|]. intros E. apply conv_nil in E. discriminate.
Qed.
Theorem normalize_lines d ls : Lines d ls -> normalize false d = unix ls.
Proof.
  intros L. destruct d as [|c d]; [|apply close_conv_lines; [exact L|discriminate]].
  inversion L; subst; try (destruct l; discriminate); [reflexivity|contradiction].
Qed.

(** Every text has lines. *)
Lemma break (d : list N) : (~ In LF d /\ ~ In CR d) \/ exists l c r, d = l ++ c :: r /\ ~ In LF l /\ ~ In CR l /\ (c = LF \/ c = CR).
Proof.
  induction d as [|c d IH]; [left; split; intros []|].
  destruct (N.eq_dec c LF) as [->|X]; [right; exists [], LF, d; cbn; intuition|].
  destruct (N.eq_dec c CR) as [->|Y]; [right; exists [], CR, d; cbn; intuition|].
  destruct IH as [[A C]|[l [c2 [r [-> [A [C D]]]]]]].
  - left. cbn. intuition congruence.
  - right. exists (c :: l), c2, r. cbn. intuition congruence.
Qed.
Theorem lines_exist d : exists ls, Lines d ls.
Proof.
  remember (length d) as n eqn:E. revert d E. induction n as [n IH] using (well_founded_induction lt_wf). intros d ->.
  destruct (break d) as [[A C]|[l [c [r [-> [A [C [->| ->]]]]]]]].
  - destruct d as [|c d]; [exists []; constructor|]. exists [c :: d]. constructor; auto. discriminate.
  - destruct (IH (length r)) with (d := r) as [ls L]; [rewrite app_length; cbn; lia|reflexivity|]. exists (l :: ls). constructor; auto.
  - destruct r as [|c r].
    + exists [l]. apply (L_cr l []); auto; [discriminate|constructor].
    + destruct (N.eq_dec c LF) as [->|X].
      * destruct (IH (length r)) with (d := r) as [ls L]; [rewrite app_length; cbn; lia|reflexivity|]. exists (l :: ls). constructor; auto.
      * destruct (IH (length (c :: r))) with (d := c :: r) as [ls L]; [rewrite app_length; cbn; lia|reflexivity|]. exists (l :: ls).
        apply L_cr; auto. cbn. congruence.
Qed.
Lemma Lines_clean d ls : Lines d ls -> Forall (fun l => ~ In LF l /\ ~ In CR l) ls.
Proof. induction 1; constructor; auto. Qed.
Lemma unix_lines ls : Forall (fun l => ~ In LF l /\ ~ In CR l) ls -> Lines (unix ls) ls.
Proof.
  induction 1 as [|l ls [A C] F IH]; [constructor|]. unfold unix. cbn. rewrite <- app_assoc. cbn. apply (L_lf l); assumption.
Qed.
Lemma unix_no_cr ls : Forall (fun l => ~ In LF l /\ ~ In CR l) ls -> ~ In CR (unix ls).
Proof.
  induction 1 as [|l ls [A C] F IH]; [intros []|]. unfold unix. cbn. rewrite <- app_assoc, in_app_iff. cbn. intros [X|[X|X]]; [contradiction|discriminate|contradiction].
Qed.
Lemma unix_ends ls : ls <> [] -> exists p, unix ls = p ++ [LF].
Proof.
  induction ls as [|l ls IH]; intros H; [contradiction|]. unfold unix in *. cbn. destruct ls as [|l2 ls].
  - exists l. cbn. rewrite app_nil_r. reflexivity.
  - destruct IH as [p E]; [discriminate|]. exists ((l ++ [LF]) ++ p). rewrite E, !app_assoc. reflexivity.
Qed.
Theorem normalize_no_cr d : ~ In CR (normalize false d).
Proof. destruct (lines_exist d) as [ls L]. rewrite (normalize_lines d ls L). apply unix_no_cr, (Lines_clean d), L. Qed.
Theorem normalize_ends d : d <> [] -> exists p, normalize false d = p ++ [LF].
Proof.
  intros H. destruct (lines_exist d) as [ls L]. rewrite (normalize_lines d ls L). apply unix_ends. intros ->. inversion L. subst. contradiction.
Qed.
Theorem normalize_idem b d : normalize b (normalize b d) = normalize b d.
Proof.
  destruct b.
  - destruct d; reflexivity.
  - destruct (lines_exist d) as [ls L]. rewrite (normalize_lines d ls L). apply normalize_lines, unix_lines, (Lines_clean d), L.
Qed.
Lemma normalize_binary d : normalize true d = d.
Proof. destruct d; reflexivity. Qed.
(** A text already in the normal form is returned as it is. *)
Theorem normalize_fixed p : ~ In CR p -> normalize false (p ++ [LF]) = p ++ [LF].
Proof.
  intros H. assert (~ In CR (p ++ [LF])) as H2 by (rewrite in_app_iff; cbn; intuition discriminate).
  assert (conv (p ++ [LF]) = p ++ [LF]) as E.
  { rewrite <- (app_nil_r (p ++ [LF])) at 1. rewrite conv_line by exact H2. apply app_nil_r. }
  change (normalize false (p ++ [LF])) with (match p ++ [LF] with [] => [] | _ => close (conv (p ++ [LF])) end).
  rewrite E, close_end. destruct p; reflexivity.
Qed.

(** ** Matching of test cases *)
Lemma id_eqb_spec a b : reflect (a = b) (id_eqb a b).
Proof.
  destruct a as [x|x], b as [y|y]; cbn; try (constructor; discriminate).
  - destruct (Z.eqb_spec x y); constructor; congruence.
  - destruct (beqb_spec x y); constructor; congruence.
Qed.
Lemma id_eqb_refl a : id_eqb a a = true.
Proof. destruct (id_eqb_spec a a); congruence. Qed.

Section Maps.
  Context {A : Type}.
  Fixpoint findi (k : id) (m : list (id * A)) : option A :=
    match m with [] => None | (k', v) :: r => if id_eqb k k' then Some v else findi k r end.
  Lemma findi_In k v m : findi k m = Some v -> In (k, v) m.
  Proof.
    induction m as [|[k' v'] m IH]; cbn; [discriminate|]. destruct (id_eqb_spec k k') as [->|]; [injection 1 as ->; left; reflexivity|]. intros; right; auto.
  Qed.
  Lemma In_findi k v m : NoDup (map fst m) -> In (k, v) m -> findi k m = Some v.
  Proof.
    induction m as [|[k' v'] m IH]; cbn; [intros _ []|]. intros N [E|H]; inversion N as [|? ? N1 N2]; subst.
    - injection E as -> ->. rewrite id_eqb_refl. reflexivity.
    - destruct (id_eqb_spec k k') as [->|]; [|auto]. exfalso. apply N1. apply (in_map fst) in H. exact H.
  Qed.
  Lemma findi_upd (d : A) k f m k2 : findi k2 (upd d k f m) = if id_eqb k2 k then Some (f (match findi k m with Some v => v | None => d end)) else findi k2 m.
  Proof.
    induction m as [|[k' v'] m IH]; cbn [upd findi].
    - destruct (id_eqb_spec k2 k); reflexivity.
    - destruct (id_eqb_spec k k') as [->|NE]; cbn [findi].
      + destruct (id_eqb_spec k2 k'); reflexivity.
      + rewrite IH. destruct (id_eqb_spec k2 k') as [->|]; [|reflexivity]. destruct (id_eqb_spec k' k); congruence.
  Qed.
  Lemma keys_upd (d : A) k f m x : In x (map fst (upd d k f m)) -> x = k \/ In x (map fst m).
  Proof.
    induction m as [|[k' v'] m IH]; cbn; [intuition|]. destruct (id_eqb_spec k k') as [->|]; cbn; intuition.
  Qed.
  Lemma nodup_upd (d : A) k f m : NoDup (map fst m) -> NoDup (map fst (upd d k f m)).
  Proof.
    induction m as [|[k' v'] m IH]; cbn; intros N; [repeat constructor; auto|]. destruct (id_eqb_spec k k') as [->|NE]; [exact N|].
    inversion N; subst. constructor; [|auto]. intros X. apply keys_upd in X as [X|X]; [cbn in X; congruence|contradiction].
  Qed.

  (** sorting *)
  Lemma insert_perm k (v : A) l s : insert k v l = Some s -> Permutation ((k, v) :: l) s.
  Proof.
    revert s. induction l as [|[k' v'] l IH]; cbn; intros s H.
    - injection H as <-. reflexivity.
    - destruct (id_ltb k k') as [[|]|]; [injection H as <-; reflexivity| |discriminate]. destruct (insert k v l) as [r|]; [|discriminate]. injection H as <-.
      rewrite perm_swap. constructor. apply IH. reflexivity.
  Qed.
  Lemma isort_perm (l s : list (id * A)) : isort l = Some s -> Permutation l s.
  Proof.
    revert s. induction l as [|[k v] l IH]; cbn; intros s H; [injection H as <-; constructor|].
    destruct (isort l) as [r|]; [|discriminate]. rewrite (IH r) by reflexivity. apply insert_perm, H.
  Qed.
End Maps.
Lemma str_ltb_trans a b c : str_ltb a b = true -> str_ltb b c = true -> str_ltb a c = true.
Proof.
  revert b c. induction a as [|x a IH]; intros [|y b] [|z c]; cbn; auto; try discriminate.
  rewrite !orb_true_iff, !andb_true_iff, !N.ltb_lt, !N.eqb_eq. intros [H|[-> H]] [H2|[-> H2]]; [left; lia|left; lia|left; lia|]. right. eauto.
Qed.
Lemma str_total a b : str_ltb a b = false -> a = b \/ str_ltb b a = true.
Proof.
  revert b. induction a as [|x a IH]; intros [|y b]; cbn; auto; try discriminate.
  rewrite !orb_false_iff, !orb_true_iff, !andb_true_iff, N.ltb_ge, !N.ltb_lt, !N.eqb_eq. intros [H H2].
  destruct (N.eqb_spec x y) as [->|NE]; [|right; left; lia]. cbn in H2. destruct (IH b H2) as [->|H3]; auto.
Qed.
Lemma str_ltb_app p a b : str_ltb (p ++ a) (p ++ b) = str_ltb a b.
Proof. induction p as [|x p IH]; [reflexivity|]. cbn. rewrite N.ltb_irrefl, N.eqb_refl, IH. reflexivity. Qed.
Lemma str_ltb_lt a b : str_ltb a b = true -> id_lt (IStr a) (IStr b).
Proof.
  assert (forall p, str_ltb a b = true -> id_lt (IStr (p ++ a)) (IStr (p ++ b))) as K; [|exact (K [])].
  revert b. induction a as [|x a IH]; intros [|y b] p H; cbn in H; try discriminate.
  - rewrite app_nil_r. constructor.
  - apply orb_true_iff in H as [H|H]; [apply N.ltb_lt in H; constructor; exact H|]. apply andb_true_iff in H as [H1 H2]. apply N.eqb_eq in H1. subst.
    specialize (IH b (p ++ [y]) H2). rewrite <- !app_assoc in IH. exact IH.
Qed.
Lemma id_lt_ltb a b : id_lt a b <-> id_ltb a b = Some true.
Proof.
  split.
  - intros [x y H|p c r|p x y r q H]; cbn.
    + f_equal. apply Z.ltb_lt, H.
    + rewrite <- (app_nil_r p) at 1. rewrite str_ltb_app. reflexivity.
    + rewrite str_ltb_app. cbn. apply N.ltb_lt in H. rewrite H. reflexivity.
  - destruct a, b; cbn; try discriminate; intros H; injection H as H; [constructor; apply Z.ltb_lt, H|apply str_ltb_lt, H].
Qed.
Lemma id_lt_trans a b c : id_lt a b -> id_lt b c -> id_lt a c.
Proof.
  rewrite !id_lt_ltb. destruct a, b, c; cbn; try discriminate; intros H1 H2; injection H1 as H1; injection H2 as H2; f_equal; [lia|]. eapply str_ltb_trans; eassumption.
Qed.
Lemma id_total a b : id_ltb a b = Some false -> a = b \/ id_lt b a.
Proof.
  rewrite id_lt_ltb. destruct a as [x|x], b as [y|y]; cbn; try discriminate; intros H; injection H as H.
  - apply Z.ltb_ge in H. destruct (Z.eq_dec x y) as [->|]; [auto|]. right. f_equal. lia.
  - destruct (str_total x y H) as [->|H2]; [auto|]. right. rewrite H2. reflexivity.
Qed.
Lemma str_ltb_irrefl a : str_ltb a a = false.
Proof. induction a as [|x a IH]; cbn; [reflexivity|]. rewrite N.ltb_irrefl, N.eqb_refl, IH. reflexivity. Qed.
Lemma id_lt_irrefl a : ~ id_lt a a.
Proof. rewrite id_lt_ltb. destruct a; cbn; [rewrite Z.ltb_irrefl|rewrite str_ltb_irrefl]; discriminate. Qed.
Lemma id_lt_comparable a b : id_lt a b -> comparable a b.
Proof. rewrite id_lt_ltb. destruct a, b; cbn; auto; discriminate. Qed.
Lemma comparable_ltb a b : comparable a b -> id_ltb a b <> None.
Proof. destruct a, b; cbn; auto; discriminate. Qed.
Lemma comparable_sym a b : comparable a b -> comparable b a.
Proof. destruct a, b; auto. Qed.

Lemma insert_sorted {A} k (v : A) l s : insert k v l = Some s -> StronglySorted id_lt (map fst l) -> ~ In k (map fst l) -> StronglySorted id_lt (map fst s).
Proof.
  revert s. induction l as [|[k' v'] l IH]; cbn; intros s H S N.
  - injection H as <-. cbn. repeat constructor.
  - inversion S as [|? ? S1 S2]; subst. destruct (id_ltb k k') as [[|]|] eqn:E; [| |discriminate].
    + injection H as <-. cbn. constructor; [exact S|]. apply id_lt_ltb in E. constructor; [exact E|]. eapply Forall_impl; [|exact S2]. intros x. apply id_lt_trans, E.
    + destruct (insert k v l) as [r|] eqn:I; [|discriminate]. injection H as <-. cbn. constructor; [apply IH; auto|].
      destruct (id_total _ _ E) as [->|L]; [exfalso; apply N; auto|].
      apply Forall_forall. intros x X. apply in_map_iff in X as [[x' vx] [<- X]]. apply (Permutation_in _ (Permutation_sym (insert_perm k v l r I))) in X.
      destruct X as [X|X]; [injection X as -> ->; exact L|]. rewrite Forall_forall in S2. apply S2. apply (in_map fst) in X. exact X.
Qed.
Lemma isort_sorted {A} (l s : list (id * A)) : isort l = Some s -> NoDup (map fst l) -> StronglySorted id_lt (map fst s).
Proof.
  revert s. induction l as [|[k v] l IH]; cbn; intros s H N; [injection H as <-; constructor|].
  inversion N; subst. destruct (isort l) as [r|] eqn:I; [|discriminate]. eapply insert_sorted; [exact H|apply IH; auto|].
  intros X. apply in_map_iff in X as [[x' vx] [E X]]. cbn in E. subst. apply (Permutation_in _ (Permutation_sym (isort_perm l r I))) in X. apply (in_map fst) in X. contradiction.
Qed.
Lemma insert_total {A} k (v : A) l : (forall x, In x (map fst l) -> comparable k x) -> insert k v l <> None.
Proof.
  induction l as [|[k' v'] l IH]; cbn; intros H; [discriminate|].
  pose proof (comparable_ltb _ _ (H k' (or_introl eq_refl))). destruct (id_ltb k k') as [[|]|]; [discriminate| |congruence].
  destruct (insert k v l); [discriminate|]. exfalso. apply IH; auto.
Qed.
Lemma isort_total {A} (l : list (id * A)) : (forall x y, In x (map fst l) -> In y (map fst l) -> comparable x y) -> isort l <> None.
Proof.
  induction l as [|[k v] l IH]; cbn; intros H; [discriminate|]. destruct (isort l) as [r|] eqn:I; [|exfalso; apply IH; auto].
  apply insert_total. intros x X. apply H; [auto|]. right. apply in_map_iff in X as [[x' vx] [E X]]. cbn in E. subst.
  apply (Permutation_in _ (Permutation_sym (isort_perm l r I))) in X. apply (in_map fst) in X. exact X.
Qed.
Lemma comparable_refl x : comparable x x.
Proof. destruct x; exact I. Qed.
Lemma sorted_comparable l x y : StronglySorted id_lt l -> In x l -> In y l -> comparable x y.
Proof.
  induction 1 as [|k l S IH F]; [intros []|]. rewrite Forall_forall in F. intros [->|X] [->|Y].
  - apply comparable_refl.
  - apply id_lt_comparable, F, Y.
  - apply comparable_sym, id_lt_comparable, F, X.
  - auto.
Qed.

Section Scan.
  Variable parse : role -> list N -> option (option id * option id).
  (** members processed so far *)
  Definition pairs := list (role * list N).
  Definition touch (g c : id) (o : option entry) (p : role * list N) : option entry :=
    if filed parse (fst p) g c (snd p) then Some (set_file (fst p) (snd p) (match o with Some e => e | None => no_entry end)) else o.
  Definition look (gs : groups) (g c : id) : option entry := match findi g gs with Some cs => findi c cs | None => None end.
  Definition bids (ps : pairs) : list id :=
    flat_map (fun p => match parse (fst p) (snd p) with Some (Some b, _) => [b] | _ => [] end) ps.
  Record inv (ps : pairs) (st : groups * list id) : Prop := {
    i_nodup : NoDup (map fst (fst st));
    i_groups : Forall (fun gc => NoDup (map fst (snd gc)) /\ snd gc <> []) (fst st);
    i_look : forall g c, look (fst st) g c = fold_left (touch g c) ps None;
    i_bids : forall b, In b (snd st) <-> In b (bids ps);
    i_cases : forall r n, In (r, n) ps -> parse r n = None \/ exists b c, parse r n = Some (b, Some c) }.
  Lemma upd_nonempty {A} (d : A) k f m : upd d k f m <> [].
  Proof. destruct m as [|[k' v'] m]; cbn; [discriminate|]. destruct (id_eqb k k'); discriminate. Qed.
  Lemma group_filed b c : group b c = match b with Some x => if id_truthy x then x else c | None => c end.
  Proof. destruct b as [[z|[|x t]]|]; try reflexivity. destruct z; reflexivity. Qed.
  Lemma step_inv ps st r n st' : inv ps st -> step parse r n st = Ok st' -> inv (ps ++ [(r, n)]) st'.
  Proof.
    intros [ND GR LK BI CA] H. unfold step in H. destruct (parse r n) as [[b [c|]]|] eqn:P; [|discriminate|].
    - injection H as <-. rewrite <- (group_filed b c). split; cbn [fst snd].
      + apply nodup_upd, ND.
      + clear LK. revert ND GR. induction (fst st) as [|[g' cs'] gs IH]; cbn [upd map]; intros ND GR.
        * constructor; [|constructor]. split; cbn [snd upd]; [repeat constructor; intros []|discriminate].
        * inversion GR as [|? ? [Ga Gb] Gc]; subst. inversion ND; subst. destruct (id_eqb (group b c) g'); constructor; cbn [snd] in *; auto.
          split; [apply nodup_upd, Ga|apply upd_nonempty].
      + intros g c'. rewrite fold_left_app. cbn [fold_left]. rewrite <- LK. unfold look, touch. cbn [fst snd]. unfold filed. rewrite P. rewrite findi_upd.
        destruct (id_eqb_spec g (group b c)) as [->|NE].
        * rewrite findi_upd. destruct (id_eqb_spec c' c) as [->|NE2]; cbn [andb].
          -- destruct (findi (group b c) (fst st)); reflexivity.
          -- destruct (findi (group b c) (fst st)); reflexivity.
        * rewrite andb_false_r. reflexivity.
      + intros x. unfold bids. rewrite flat_map_app, in_app_iff. fold (bids ps). cbn. rewrite P. destruct b as [b|]; cbn; rewrite BI; cbn; tauto.
      + intros r2 n2 X. apply in_app_iff in X as [X|[X|[]]]; [auto|]. injection X as -> ->. right. eauto.
    - injection H as <-. split; auto.
      + intros g c. rewrite fold_left_app. cbn. unfold touch at 1. cbn [fst snd]. unfold filed. rewrite P. apply LK.
      + intros x. unfold bids. rewrite flat_map_app, in_app_iff. fold (bids ps). cbn. rewrite P. rewrite BI. cbn. tauto.
      + intros r2 n2 X. apply in_app_iff in X as [X|[X|[]]]; [auto|]. injection X as -> ->. auto.
  Qed.
  Lemma scan_inv r names : forall ps st st', inv ps st -> scan parse r names st = Ok st' -> inv (ps ++ map (pair r) names) st'.
  Proof.
    induction names as [|n names IH]; cbn [scan map]; intros ps st st' I H.
    - injection H as <-. rewrite app_nil_r. exact I.
    - destruct (step parse r n st) as [st1|] eqn:S; [|discriminate]. replace (ps ++ (r, n) :: map (pair r) names) with ((ps ++ [(r, n)]) ++ map (pair r) names) by (rewrite <- app_assoc; reflexivity).
      eapply IH; [|exact H]. eapply step_inv; eassumption.
  Qed.
  Lemma inv_start : inv [] ([], []).
  Proof. split; cbn; try constructor; auto; intros; contradiction. Qed.
  Lemma scan_ok r names : (forall n, In n names -> parse r n = None \/ exists b c, parse r n = Some (b, Some c)) -> forall st, exists st', scan parse r names st = Ok st'.
  Proof.
    induction names as [|n names IH]; cbn; intros H st; [eauto|]. unfold step at 1. destruct (H n (or_introl eq_refl)) as [->|[b [c ->]]]; apply IH; auto.
  Qed.

  (** the fold says which files were last *)
  Definition same_role (a b : role) : bool := match a, b with InputFile, InputFile | OutputFile, OutputFile => true | _, _ => false end.
  Definition lasts (ps : pairs) (r : role) (g c : id) : option (list N) :=
    hd_error (rev (map snd (filter (fun p => same_role r (fst p) && filed parse (fst p) g c (snd p)) ps))).
  Lemma fold_touch g c ps :
    fold_left (touch g c) ps None =
    if existsb (fun p => filed parse (fst p) g c (snd p)) ps then Some {| input_file := lasts ps InputFile g c; output_file := lasts ps OutputFile g c |} else None.
  Proof.
    induction ps as [|[r n] ps IH] using rev_ind; [reflexivity|]. rewrite fold_left_app. cbn [fold_left]. rewrite IH, existsb_app. cbn [existsb fst snd].
    unfold touch, lasts. cbn [fst snd]. rewrite !filter_app, !map_app, !rev_app_distr. cbn [filter fst snd]. destruct (filed parse r g c n) eqn:F.
    - rewrite orb_true_r. f_equal. destruct (existsb _ ps) eqn:E.
      + destruct r; reflexivity.
      + assert (forall r', filter (fun p : role * list N => same_role r' (fst p) && filed parse (fst p) g c (snd p)) ps = []) as Z.
        { intros r'. clear -E. induction ps as [|p ps IH]; [reflexivity|]. cbn in *. apply orb_false_iff in E as [E1 E2]. rewrite E1, andb_false_r. auto. }
        rewrite !Z. destruct r; reflexivity.
    - rewrite !orb_false_r, !andb_false_r. cbn [map rev app]. destruct (existsb _ ps); reflexivity.
  Qed.
  Lemma filter_pair r names (f : role * list N -> bool) : filter f (map (pair r) names) = map (pair r) (filter (fun n => f (r, n)) names).
  Proof. induction names as [|n names IH]; cbn; [reflexivity|]. destruct (f (r, n)); cbn; rewrite IH; reflexivity. Qed.
  Definition all_pairs (names : list (list N)) : pairs := map (pair InputFile) names ++ map (pair OutputFile) names.
  Lemma lasts_all names r g c : lasts (all_pairs names) r g c = last_filed parse names r g c.
  Proof.
    unfold lasts, last_filed, all_pairs. rewrite filter_app, !filter_pair. cbn [fst snd]. f_equal. f_equal.
    rewrite map_app, !map_map. cbn. rewrite !map_id.
    assert (filter (fun _ : list N => false) names = []) as Z by (clear; induction names; auto). destruct r; cbn; rewrite Z, ?app_nil_r; reflexivity.
  Qed.
  Lemma filed_member names g c : existsb (fun p => filed parse (fst p) g c (snd p)) (all_pairs names) = true <-> occurs parse names g c.
  Proof.
    rewrite existsb_exists. unfold occurs, member, all_pairs. split.
    - intros [[r n] [X F]]. cbn [fst snd] in F. unfold filed in F. destruct (parse r n) as [[b [c'|]]|] eqn:P; try discriminate.
      apply andb_true_iff in F as [F1 F2]. destruct (id_eqb_spec c c') as [<-|]; [|discriminate]. destruct (id_eqb_spec g (group b c)) as [->|]; [|discriminate].
      exists r, b, n. repeat split; auto. apply in_app_iff in X as [X|X]; apply in_map_iff in X as [n' [E X]]; injection E as <- <-; exact X.
    - intros [r [b [n [[X P] G]]]]. exists (r, n). cbn. unfold filed. rewrite P, id_eqb_refl, <- G, id_eqb_refl. split; [|reflexivity].
      apply in_app_iff. destruct r; [left|right]; apply in_map; exact X.
  Qed.
  Lemma look_all names st g c e : inv (all_pairs names) st -> (look (fst st) g c = Some e <-> occurs parse names g c /\ e = files_of parse names g c).
  Proof.
    intros I. rewrite (i_look _ _ I), fold_touch. rewrite !lasts_all. fold (files_of parse names g c). rewrite <- filed_member.
    destruct (existsb _ _); split; intros H; [injection H as <-; auto|destruct H as [_ ->]; reflexivity|discriminate|destruct H as [H _]; discriminate].
  Qed.
  Lemma bids_all names st g : inv (all_pairs names) st -> (existsb (id_eqb g) (snd st) = true <-> is_batch_id parse names g).
  Proof.
    intros I. rewrite existsb_exists. unfold is_batch_id, member. split.
    - intros [x [X E]]. destruct (id_eqb_spec g x) as [<-|]; [|discriminate]. apply (i_bids _ _ I) in X. unfold bids in X. apply in_flat_map in X as [[r n] [X Y]]. cbn in Y.
      destruct (parse r n) as [[[b|] c]|] eqn:P; try contradiction. destruct Y as [->|[]]. destruct (i_cases _ _ I r n X) as [Z|[b2 [c2 Z]]]; rewrite Z in P; [discriminate|].
      injection P as -> <-. exists r, c2, n. split; [|exact Z]. unfold all_pairs in X. apply in_app_iff in X as [X|X]; apply in_map_iff in X as [n' [E2 X]]; injection E2 as <- <-; exact X.
    - intros [r [c [n [X P]]]]. exists g. rewrite id_eqb_refl. split; [|reflexivity]. apply (i_bids _ _ I). unfold bids. apply in_flat_map. exists (r, n). cbn. rewrite P. cbn.
      split; [|auto]. unfold all_pairs. apply in_app_iff. destruct r; [left|right]; apply in_map; exact X.
  Qed.
  Lemma group_occurs names st g cs : inv (all_pairs names) st -> In (g, cs) (fst st) ->
    NoDup (map fst cs) /\ cs <> [] /\ forall c e, In (c, e) cs <-> occurs parse names g c /\ e = files_of parse names g c.
  Proof.
    intros I H. pose proof (i_groups _ _ I) as G. rewrite Forall_forall in G. destruct (G _ H) as [ND NE]. cbn [snd] in *. split; [exact ND|]. split; [exact NE|].
    intros c e. rewrite <- (look_all names st g c e I). unfold look. rewrite (In_findi g cs _ (i_nodup _ _ I) H). split; [apply In_findi, ND|apply findi_In].
  Qed.
  Lemma groups_occur names st g : inv (all_pairs names) st -> (In g (map fst (fst st)) <-> exists c, occurs parse names g c).
  Proof.
    intros I. split.
    - intros H. apply in_map_iff in H as [[g' cs] [E H]]. cbn in E. subst. destruct (group_occurs names st g cs I H) as [_ [NE O]]. destruct cs as [|[c e] cs]; [contradiction|].
      exists c. apply (O c e). left. reflexivity.
    - intros [c O]. assert (look (fst st) g c = Some (files_of parse names g c)) as L by (apply (look_all names st); auto). unfold look in L.
      destruct (findi g (fst st)) as [cs|] eqn:F; [|discriminate]. apply findi_In in F. apply (in_map fst) in F. exact F.
  Qed.

  Context {P : Type}.
  Variable points : nat -> option P.
  Lemma map_files names g s : (forall c e, In (c, e) s -> e = files_of parse names g c) -> map snd s = map (files_of parse names g) (map fst s).
  Proof. induction s as [|[c e] s IH]; cbn; intros H; [reflexivity|]. rewrite <- (H c e) by auto. f_equal. apply IH. auto. Qed.
  Lemma build_ok names st : inv (all_pairs names) st -> forall gs i l, (forall x, In x gs -> In x (fst st)) -> build gs (snd st) i points = Ok l ->
    length l = length gs /\ forall j g, nth_error (map fst gs) j = Some g -> exists p m, points (i + j) = Some p /\ nth_error l j = Some m /\ entry_for parse names g p m.
  Proof.
    intros I. induction gs as [|[g cs] gs IH]; cbn [build map]; intros i l SUB H.
    - injection H as <-. split; [reflexivity|]. intros [|j] g; discriminate.
    - destruct (group_occurs names st g cs I (SUB _ (or_introl eq_refl))) as [ND [NE O]].
      assert (forall m p rest, points i = Some p -> entry_for parse names g p m -> build gs (snd st) (S i) points = Ok rest ->
        length (m :: rest) = length ((g, cs) :: gs) /\ forall j g0, nth_error (g :: map fst gs) j = Some g0 ->
        exists p m0, points (i + j) = Some p /\ nth_error (m :: rest) j = Some m0 /\ entry_for parse names g0 p m0) as K.
      { intros m p rest Hp Hm Hb. destruct (IH (S i) rest) as [L E]; [intros x X; apply SUB; right; exact X|exact Hb|]. split; [cbn; lia|]. intros [|j] g0 X; cbn in X.
        - injection X as <-. exists p, m. rewrite Nat.add_0_r. auto.
        - destruct (E j g0 X) as [p2 [m2 [A [C D]]]]. exists p2, m2. replace (i + S j) with (S i + j) by lia. auto. }
      cbn [fst] in *. destruct (existsb (id_eqb g) (snd st)) eqn:EB.
      + apply (bids_all names st g I) in EB. destruct (isort cs) as [s|] eqn:Srt; [|discriminate]. destruct (points i) as [p|] eqn:Pi; [|discriminate].
        destruct (build gs (snd st) (S i) points) as [rest|] eqn:BB; [|discriminate]. injection H as <-. apply (K _ p); auto.
        assert (forall c e, In (c, e) s -> occurs parse names g c /\ e = files_of parse names g c) as Os
          by (intros c e X; apply O; apply (Permutation_in _ (Permutation_sym (isort_perm _ _ Srt))); exact X).
        rewrite (map_files names g s) by (intros c e X; apply (Os c e X)). constructor; [exact EB|apply (isort_sorted _ _ Srt ND)|].
        intros c. split.
        * intros X. apply in_map_iff in X as [[c' e] [E X]]. cbn in E. subst. apply (Os c e X).
        * intros X. apply (in_map fst s (c, files_of parse names g c)). apply (Permutation_in _ (isort_perm _ _ Srt)). apply O. auto.
      + destruct cs as [|[c e] [|? ?]]; [contradiction| |discriminate]. destruct (points i) as [p|] eqn:Pi; [|discriminate].
        destruct (build gs (snd st) (S i) points) as [rest|] eqn:BB; [|discriminate]. injection H as <-. apply (K _ p); auto.
        destruct (proj1 (O c e) (or_introl eq_refl)) as [Oc ->]. constructor.
        * intros X. apply (bids_all names st g I) in X. congruence.
        * intros c'. split; [|intros ->; exact Oc]. intros X. destruct (proj2 (O c' _) (conj X eq_refl)) as [Y|[]]. congruence.
  Qed.
  Theorem match_result names l : match_test_cases parse names points = Ok l ->
    exists gs, StronglySorted id_lt gs /\ (forall g, In g gs <-> exists c, occurs parse names g c) /\ length l = length gs /\
    forall i g, nth_error gs i = Some g -> exists p m, points i = Some p /\ nth_error l i = Some m /\ entry_for parse names g p m.
  Proof.
    unfold match_test_cases. intros H. destruct (scan parse InputFile names ([], [])) as [st1|] eqn:S1; [|discriminate].
    destruct (scan parse OutputFile names st1) as [st|] eqn:S2; [|discriminate].
    assert (inv (all_pairs names) st) as I by (eapply scan_inv; [exact (scan_inv InputFile names [] _ _ inv_start S1)|exact S2]).
    destruct st as [gs bs]. destruct (isort gs) as [s|] eqn:Srt; [|discriminate]. exists (map fst s).
    split; [exact (isort_sorted _ _ Srt (i_nodup _ _ I))|]. split; [|].
    - intros g. rewrite <- (groups_occur names (gs, bs) g I). cbn [fst]. split; intros X; [eapply Permutation_in; [apply Permutation_sym, Permutation_map, (isort_perm _ _ Srt)|exact X]|eapply Permutation_in; [apply Permutation_map, (isort_perm _ _ Srt)|exact X]].
    - destruct (build_ok names (gs, bs) I s 0 l) as [L E]; [intros x X; eapply Permutation_in; [apply Permutation_sym, (isort_perm _ _ Srt)|exact X]|exact H|].
      split; [rewrite map_length; exact L|exact E].
  Qed.
  Lemma build_total names st : inv (all_pairs names) st -> (forall i, points i <> None) ->
    (forall g, is_batch_id parse names g -> forall c c', occurs parse names g c -> occurs parse names g c' -> comparable c c') ->
    (forall g, ~ is_batch_id parse names g -> forall c c', occurs parse names g c -> occurs parse names g c' -> c = c') ->
    forall gs i, (forall x, In x gs -> In x (fst st)) -> exists l, build gs (snd st) i points = Ok l.
  Proof.
    intros I HP HB HN. induction gs as [|[g cs] gs IH]; cbn [build]; intros i SUB; [eauto|].
    destruct (group_occurs names st g cs I (SUB _ (or_introl eq_refl))) as [ND [NE O]]. destruct (IH (S i)) as [rest R]; [intros x X; apply SUB; right; exact X|].
    pose proof (HP i) as HPi. destruct (points i) as [p|]; [|congruence]. rewrite R. destruct (existsb (id_eqb g) (snd st)) eqn:EB.
    - apply (bids_all names st g I) in EB. destruct (isort cs) as [s|] eqn:Srt; [eauto|]. exfalso. revert Srt. apply isort_total.
      intros x y X Y. apply in_map_iff in X as [[x' ex] [E1 X]]. apply in_map_iff in Y as [[y' ey] [E2 Y]]. cbn in E1, E2. subst. apply (HB g EB); [apply (O _ ex), X|apply (O _ ey), Y].
    - assert (~ is_batch_id parse names g) as NB by (intros X; apply (bids_all names st g I) in X; congruence).
      destruct cs as [|[c e] [|[c2 e2] cs]]; [contradiction|eauto|]. exfalso. inversion ND as [|? ? ND1 _]; subst. apply ND1. left. cbn.
      apply (HN g NB); [apply (O _ e2)|apply (O _ e)]; cbn; auto.
  Qed.
  Theorem match_accepts names : (forall i, points i <> None) ->
    (forall r n, In n names -> parse r n = None \/ exists b c, parse r n = Some (b, Some c)) ->
    (forall g g' c c', occurs parse names g c -> occurs parse names g' c' -> comparable g g') ->
    (forall g, is_batch_id parse names g -> forall c c', occurs parse names g c -> occurs parse names g c' -> comparable c c') ->
    (forall g, ~ is_batch_id parse names g -> forall c c', occurs parse names g c -> occurs parse names g c' -> c = c') ->
    exists l, match_test_cases parse names points = Ok l.
  Proof.
    intros HP HC HG HB HN. unfold match_test_cases. destruct (scan_ok InputFile names (HC InputFile) ([], [])) as [st1 S1]. rewrite S1.
    destruct (scan_ok OutputFile names (HC OutputFile) st1) as [st S2]. rewrite S2.
    assert (inv (all_pairs names) st) as I by (eapply scan_inv; [exact (scan_inv InputFile names [] _ _ inv_start S1)|exact S2]).
    destruct st as [gs bs]. destruct (isort gs) as [s|] eqn:Srt.
    - apply (build_total names (gs, bs) I HP HB HN). intros x X. eapply Permutation_in; [apply Permutation_sym, (isort_perm _ _ Srt)|exact X].
    - exfalso. revert Srt. apply isort_total. intros x y X Y. apply (groups_occur names (gs, bs) x I) in X as [c X]. apply (groups_occur names (gs, bs) y I) in Y as [c' Y]. eauto.
  Qed.
  Theorem match_rejects names l : match_test_cases parse names points = Ok l ->
    (forall r n b, In n names -> parse r n <> Some (b, None)) /\
    (forall g g' c c', occurs parse names g c -> occurs parse names g' c' -> comparable g g') /\
    (forall g, is_batch_id parse names g -> forall c c', occurs parse names g c -> occurs parse names g c' -> comparable c c') /\
    (forall g, ~ is_batch_id parse names g -> forall c c', occurs parse names g c -> occurs parse names g c' -> c = c').
  Proof.
    intros H. destruct (match_result names l H) as [gs [SS [G [L E]]]]. split; [|split; [|split]].
    - intros r n b X P0. unfold match_test_cases in H. destruct (scan parse InputFile names ([], [])) as [st1|] eqn:S1; [|discriminate].
      destruct (scan parse OutputFile names st1) as [st|] eqn:S2; [|discriminate].
      assert (inv (all_pairs names) st) as I by (eapply scan_inv; [exact (scan_inv InputFile names [] _ _ inv_start S1)|exact S2]).
      assert (In (r, n) (all_pairs names)) as Y by (unfold all_pairs; apply in_app_iff; destruct r; [left|right]; apply in_map; exact X).
      destruct (i_cases _ _ I r n Y) as [Z|[b' [c' Z]]]; congruence.
    - intros g g' c c' O O'. apply (sorted_comparable gs); [exact SS| |]; apply G; eauto.
    - intros g BG c c' O O'. assert (In g gs) as X by (apply G; eauto). apply In_nth_error in X as [i X]. destruct (E i g X) as [p [m [_ [_ EF]]]].
      inversion EF as [cs A S1 O1|]; subst; [|contradiction]. apply (sorted_comparable cs); [exact S1| |]; apply O1; assumption.
    - intros g BG c c' O O'. assert (In g gs) as X by (apply G; eauto). apply In_nth_error in X as [i X]. destruct (E i g X) as [p [m [_ [_ EF]]]].
      inversion EF as [|c0 A O1]; subst; [contradiction|]. apply O1 in O, O'. congruence.
  Qed.
End Scan.

(** ** Sources of test data *)
Section Data.
  Variable file : list N -> option (list N).
  Variable launch : nat -> option (list N) -> option (list N * list N * finished).
  Variable s : source.
  Notation step := (data_step file launch s).
  Notation run := (data_run file launch s).

  Lemma ensure_runs st : runs (snd (ensure file launch s st)) <= match generated st with Some _ => runs st | None => S (runs st) end /\ (generated (snd (ensure file launch s st)) = None -> runs (snd (ensure file launch s st)) = runs st) /\ runs st <= runs (snd (ensure file launch s st)).
  Proof.
    unfold ensure. destruct (generated st) eqn:G; [cbn; rewrite G; repeat split; auto; discriminate|]. unfold run_generator.
    destruct (launch (runs st) _) as [[[o e] p]|]; cbn; repeat split; auto; try discriminate; lia.
  Qed.
  Lemma ensure_kept st x : generated st = Some x -> ensure file launch s st = (true, st).
  Proof. intros G. unfold ensure. rewrite G. reflexivity. Qed.
  Lemma step_ensure st op : op <> Free -> snd (step st op) = st \/ snd (step st op) = snd (ensure file launch s st).
  Proof.
    intros NF. destruct op; [| |contradiction]; cbn.
    - unfold input_data. destruct (has_gen s && _); [|auto]. destruct (ensure file launch s st) as [[|] st']; cbn; [|auto].
      destruct (generated st') as [[[|c d] o]|]; cbn; auto.
    - unfold output_data. destruct (given (out_name s)); [auto|]. destruct (has_gen s); [|auto]. destruct (ensure file launch s st) as [[|] st']; cbn; auto.
  Qed.
  (** the number of runs grows by at most one while nothing is freed *)
  Theorem runs_at_most_once ops : ~ In Free ops -> forall st, runs (run st ops) <= match generated st with Some _ => runs st | None => S (runs st) end.
  Proof.
    induction ops as [|op ops IH]; cbn [data_run fold_left]; intros NF st; [destruct (generated st); lia|].
    assert (op <> Free) as NO by (intros ->; apply NF; left; reflexivity).
    assert (~ In Free ops) as NI by (intros X; apply NF; right; exact X). specialize (IH NI (snd (step st op))). fold (run (snd (step st op)) ops).
    unfold data_run in IH |- *. destruct (step_ensure st op NO) as [E|E]; rewrite E in *; [exact IH|].
    destruct (ensure_runs st) as [A [C D]]. destruct (generated (snd (ensure file launch s st))) as [x|] eqn:G; [lia|].
    rewrite (C eq_refl) in *. unfold ensure in G. destruct (generated st) eqn:G2; [cbn in G; congruence|exact IH].
  Qed.
  Theorem both_files_no_run ops st : given (in_name s) = true -> given (out_name s) = true -> runs (run st ops) = runs st.
  Proof.
    intros HI HO. revert st. induction ops as [|op ops IH]; intros st; [reflexivity|]. cbn. fold (run (snd (step st op)) ops). rewrite IH.
    destruct op; cbn; [unfold input_data; rewrite HI, HO; cbn; rewrite andb_false_r; reflexivity|unfold output_data; rewrite HO; reflexivity|reflexivity].
  Qed.
End Data.
