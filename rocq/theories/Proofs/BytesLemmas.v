(** Lemmas on the byte-string primitives. *)
From Coq Require Import ZifyBool ZifyNat ZifyN Permutation Sorted Relations.
From Verif Require Import Model.Bytes Spec.Text.

Lemma beqb_eq a b : beqb a b = true <-> a = b.
Proof.
  revert b; induction a as [|x a IH]; intros [|y b]; cbn; try (split; congruence).
  rewrite andb_true_iff, N.eqb_eq, IH. split; [intros [-> ->]; reflexivity|].
  intros H; injection H; auto.
Qed.
Lemma beqb_refl a : beqb a a = true.
Proof. apply beqb_eq; reflexivity. Qed.
Lemma beqb_neq a b : beqb a b = false <-> a <> b.
Proof. rewrite <- beqb_eq. destruct (beqb a b); split; congruence. Qed.
Lemma beqb_spec a b : reflect (a = b) (beqb a b).
Proof. destruct (beqb a b) eqn:E; constructor; [apply beqb_eq|apply beqb_neq]; exact E. Qed.

Lemma list_eqb_eq {A} (eqb : A -> A -> bool) (Heq : forall x y, eqb x y = true <-> x = y) a b :
  list_eqb eqb a b = true <-> a = b.
Proof.
  revert b; induction a as [|x a IH]; intros [|y b]; cbn; try (split; congruence).
  rewrite andb_true_iff, Heq, IH. split; [intros [-> ->]; reflexivity|].
  intros H; injection H; auto.
Qed.

Lemma py_isspace_spec c : py_isspace c = whitespace_dec c.
Proof. unfold py_isspace, whitespace_dec; cbn [existsb]. lia. Qed.
Lemma is_crlf_spec c : is_crlf c = newline_dec c.
Proof. unfold is_crlf, newline_dec; cbn [existsb]. lia. Qed.
Lemma whitespace_dec_iff c : whitespace_dec c = true <-> whitespace c.
Proof. unfold whitespace_dec, whitespace; cbn [existsb]. lia. Qed.

Arguments whitespace_dec : simpl never.
Arguments newline_dec : simpl never.

Lemma cut_nonnil sep s : cut sep s <> [].
Proof. destruct s as [|c r]; cbn; [discriminate|]. destruct (sep c); [discriminate|]. destruct (cut sep r); discriminate. Qed.

Lemma cut_ext f g s : (forall c, f c = g c) -> cut f s = cut g s.
Proof. intros H; induction s as [|c r IH]; cbn; [reflexivity|]. rewrite H, IH. reflexivity. Qed.

Lemma re_split_acc_cut sep s : forall cur w ws,
  cut sep s = w :: ws -> re_split_acc sep cur s = (rev cur ++ w) :: ws.
Proof.
  induction s as [|c r IH]; intros cur w ws; cbn.
  - intros H; injection H as <- <-. rewrite app_nil_r. reflexivity.
  - destruct (cut sep r) as [|w' ws'] eqn:E; [destruct (cut_nonnil sep r E)|].
    destruct (sep c).
    + intros H; injection H as <- <-. rewrite app_nil_r. f_equal.
      rewrite (IH [] _ _ eq_refl). reflexivity.
    + intros H; injection H as <- <-. rewrite (IH (c :: cur) _ _ eq_refl). cbn.
      rewrite <- app_assoc. reflexivity.
Qed.
Lemma re_split_cut sep s : re_split sep s = cut sep s.
Proof.
  unfold re_split. destruct (cut sep s) as [|w ws] eqn:E; [destruct (cut_nonnil sep s E)|].
  rewrite (re_split_acc_cut _ _ _ _ _ E). reflexivity.
Qed.
Lemma re_split_lines s : re_split is_crlf s = lines s.
Proof. rewrite re_split_cut. apply cut_ext, is_crlf_spec. Qed.
Lemma filter_none_nonnil {A} (l : list (list A)) : filter_none l = filter nonnil l.
Proof. apply filter_ext. intros []; reflexivity. Qed.
Lemma re_split_words s : filter_none (re_split py_isspace s) = words s.
Proof. rewrite re_split_cut, (cut_ext _ whitespace_dec _ py_isspace_spec). apply filter_none_nonnil. Qed.

Lemma py_split_acc_words s : forall cur w ws,
  cut whitespace_dec s = w :: ws ->
  py_split_acc cur s = filter nonnil ((rev cur ++ w) :: ws).
Proof.
  assert (forall (x : N) (c : bytes), nonnil (rev (x :: c)) = true) as Hrev.
  { intros x c. cbn. destruct (rev c); reflexivity. }
  assert (forall (x : N) (c w : bytes), nonnil (rev (x :: c) ++ w) = true) as Hrev'.
  { intros x c w. cbn. destruct (rev c); reflexivity. }
  induction s as [|c r IH]; intros cur w ws; cbn.
  - intros H; injection H as <- <-. rewrite app_nil_r. destruct cur as [|x cur]; [reflexivity|].
    cbn [filter]. rewrite Hrev. reflexivity.
  - destruct (cut whitespace_dec r) as [|w' ws'] eqn:E; [destruct (cut_nonnil _ r E)|].
    rewrite py_isspace_spec. destruct (whitespace_dec c).
    + intros H; injection H as <- <-. rewrite app_nil_r.
      specialize (IH [] _ _ eq_refl). cbn [rev app] in IH.
      destruct cur as [|x cur]; [exact IH|].
      cbn [filter]. rewrite Hrev, IH. reflexivity.
    + intros H; injection H as <- <-. rewrite (IH (c :: cur) _ _ eq_refl). cbn.
      rewrite <- app_assoc. reflexivity.
Qed.
Lemma py_split_words s : py_split s = words s.
Proof.
  unfold py_split, words. destruct (cut whitespace_dec s) as [|w ws] eqn:E; [destruct (cut_nonnil _ s E)|].
  rewrite (py_split_acc_words _ _ _ _ E). reflexivity.
Qed.

(** ** strip / rstrip *)
Lemma lstrip_split s : exists w, s = w ++ py_lstrip s /\ all_white w.
Proof.
  induction s as [|c r (w & H1 & H2)]; cbn.
  - exists []. split; [reflexivity|constructor].
  - destruct (py_isspace c) eqn:E.
    + exists (c :: w). cbn. split; [congruence|]. constructor; [|exact H2].
      apply whitespace_dec_iff. rewrite <- py_isspace_spec. exact E.
    + exists []. split; [reflexivity|constructor].
Qed.
Lemma lstrip_head s : match py_lstrip s with [] => True | c :: _ => py_isspace c = false end.
Proof. induction s as [|c r IH]; cbn; [exact I|]. destruct (py_isspace c) eqn:E; [exact IH|exact E]. Qed.
Lemma lstrip_white w s : all_white w -> py_lstrip (w ++ s) = py_lstrip s.
Proof.
  induction 1 as [|c w Hc Hw IH]; cbn; [reflexivity|].
  apply whitespace_dec_iff in Hc. rewrite py_isspace_spec, Hc. exact IH.
Qed.
Lemma all_white_rev w : all_white w -> all_white (rev w).
Proof. unfold all_white. intros H. apply Forall_rev, H. Qed.
Lemma rstrip_split s : exists w, s = py_rstrip s ++ w /\ all_white w.
Proof.
  destruct (lstrip_split (rev s)) as (w & H1 & H2). exists (rev w). split.
  - unfold py_rstrip. rewrite <- rev_app_distr, <- H1, rev_involutive. reflexivity.
  - apply all_white_rev, H2.
Qed.
Lemma rstrip_white s w : all_white w -> py_rstrip (s ++ w) = py_rstrip s.
Proof. intros H. unfold py_rstrip. rewrite rev_app_distr, lstrip_white; [reflexivity|]. apply all_white_rev, H. Qed.

Lemma rstrip_eq_iff a b : py_rstrip a = py_rstrip b <-> same_upto_trailing a b.
Proof.
  split.
  - intros H. destruct (rstrip_split a) as (wa & Ha & Hwa), (rstrip_split b) as (wb & Hb & Hwb).
    exists (py_rstrip a), wa, wb. repeat split; try assumption. congruence.
  - intros (t & wa & wb & -> & -> & Ha & Hb). rewrite !rstrip_white by assumption. reflexivity.
Qed.

Lemma strip_white l t r : all_white l -> all_white r -> py_strip (l ++ t ++ r) = py_strip t.
Proof.
  intros Hl Hr. unfold py_strip. rewrite lstrip_white by exact Hl.
  clear l Hl. induction t as [|c t IH]; cbn.
  - rewrite <- (app_nil_r r), lstrip_white by exact Hr. reflexivity.
  - destruct (py_isspace c); [exact IH|]. change (c :: t ++ r) with ((c :: t) ++ r).
    apply rstrip_white, Hr.
Qed.
Lemma strip_split s : exists l r, s = l ++ py_strip s ++ r /\ all_white l /\ all_white r.
Proof.
  destruct (lstrip_split s) as (l & H1 & Hl). destruct (rstrip_split (py_lstrip s)) as (r & H2 & Hr).
  exists l, r. repeat split; try assumption. unfold py_strip. rewrite <- H2. exact H1.
Qed.
Lemma strip_eq_iff a b : py_strip a = py_strip b <-> same_upto_surrounding a b.
Proof.
  split.
  - intros H. destruct (strip_split a) as (la & ra & Ha & ? & ?), (strip_split b) as (lb & rb & Hb & ? & ?).
    exists (py_strip a), la, ra, lb, rb. repeat split; try assumption. congruence.
  - intros (t & la & ra & lb & rb & -> & -> & ? & ? & ? & ?). rewrite !strip_white by assumption. reflexivity.
Qed.

(** ** Sorting *)
Section SortProofs.
  Context {A : Type} (leb : A -> A -> bool).
  Hypothesis leb_total : forall x y, leb x y = true \/ leb y x = true.
  Hypothesis leb_trans : forall x y z, leb x y = true -> leb y z = true -> leb x z = true.
  Hypothesis leb_antisym : forall x y, leb x y = true -> leb y x = true -> x = y.

  Lemma insert_perm x l : Permutation (x :: l) (insert leb x l).
  Proof.
    induction l as [|y r IH]; cbn; [reflexivity|]. destruct (leb x y); [reflexivity|].
    rewrite perm_swap. constructor. exact IH.
  Qed.
  Lemma sort_perm l : Permutation l (sort leb l).
  Proof.
    induction l as [|x r IH]; cbn; [reflexivity|]. fold (sort leb r).
    rewrite <- insert_perm. constructor. exact IH.
  Qed.
  Lemma insert_sorted x l : StronglySorted (fun a b => leb a b = true) l ->
    StronglySorted (fun a b => leb a b = true) (insert leb x l).
  Proof.
    induction 1 as [|y r Hs IH Hall]; cbn.
    - repeat constructor.
    - destruct (leb x y) eqn:E.
      + constructor; [constructor; assumption|]. constructor; [exact E|].
        eapply Forall_impl; [|exact Hall]. cbn. intros z Hz. eapply leb_trans; eassumption.
      + constructor; [exact IH|]. apply Forall_forall. intros z Hz.
        apply (Permutation_in z (Permutation_sym (insert_perm x r))) in Hz.
        destruct Hz as [->|Hz].
        * destruct (leb_total y z) as [|H]; [assumption|congruence].
        * rewrite Forall_forall in Hall. apply Hall, Hz.
  Qed.
  Lemma sort_sorted l : StronglySorted (fun a b => leb a b = true) (sort leb l).
  Proof. induction l as [|x r IH]; cbn; [constructor|]. apply insert_sorted, IH. Qed.

  Lemma sorted_unique a : forall b,
    StronglySorted (fun a b => leb a b = true) a -> StronglySorted (fun a b => leb a b = true) b ->
    Permutation a b -> a = b.
  Proof.
    induction a as [|x a IH]; intros b Ha Hb Hp.
    - apply Permutation_nil in Hp. congruence.
    - destruct b as [|y b]; [apply Permutation_sym, Permutation_nil in Hp; discriminate|].
      inversion Ha as [|? ? Hsa Hla]; inversion Hb as [|? ? Hsb Hlb]; subst.
      assert (x = y) as ->.
      { rewrite Forall_forall in Hla, Hlb. apply leb_antisym.
        - destruct (Permutation_in y (Permutation_sym Hp) (or_introl eq_refl)) as [->|H].
          + destruct (leb_total y y); assumption.
          + apply Hla, H.
        - destruct (Permutation_in x Hp (or_introl eq_refl)) as [->|H].
          + destruct (leb_total x x); assumption.
          + apply Hlb, H. }
      f_equal. apply IH; try assumption. eapply Permutation_cons_inv, Hp.
  Qed.
  Lemma sort_eq_iff a b : sort leb a = sort leb b <-> Permutation a b.
  Proof.
    split; intros H.
    - rewrite (sort_perm a), H. symmetry. apply sort_perm.
    - apply sorted_unique; [apply sort_sorted|apply sort_sorted|].
      rewrite <- !sort_perm. exact H.
  Qed.
End SortProofs.

Section LexProofs.
  Context {A : Type} (eqb leb : A -> A -> bool).
  Hypothesis eqb_eq : forall x y, eqb x y = true <-> x = y.
  Hypothesis leb_total : forall x y, leb x y = true \/ leb y x = true.
  Hypothesis leb_trans : forall x y z, leb x y = true -> leb y z = true -> leb x z = true.
  Hypothesis leb_antisym : forall x y, leb x y = true -> leb y x = true -> x = y.
  Lemma eqb_refl' x : eqb x x = true.
  Proof. apply eqb_eq; reflexivity. Qed.
  Lemma lex_total a : forall b, lex_leb eqb leb a b = true \/ lex_leb eqb leb b a = true.
  Proof.
    induction a as [|x a IH]; intros [|y b]; cbn; auto.
    destruct (eqb x y) eqn:E.
    - apply eqb_eq in E as ->. rewrite eqb_refl'. apply IH.
    - destruct (eqb y x) eqn:E'; [apply eqb_eq in E' as ->; rewrite eqb_refl' in E; discriminate|].
      apply leb_total.
  Qed.
  Lemma lex_trans a : forall b c, lex_leb eqb leb a b = true -> lex_leb eqb leb b c = true -> lex_leb eqb leb a c = true.
  Proof.
    induction a as [|x a IH]; intros [|y b] [|z c]; cbn; auto; try discriminate.
    destruct (eqb x y) eqn:Exy.
    - apply eqb_eq in Exy as ->. destruct (eqb y z); [apply IH|auto].
    - intros Hxy. destruct (eqb y z) eqn:Eyz.
      + apply eqb_eq in Eyz as ->. intros _. rewrite Exy. exact Hxy.
      + intros Hyz. destruct (eqb x z) eqn:Exz.
        * apply eqb_eq in Exz as ->. exfalso.
          assert (z = y) by (apply leb_antisym; assumption). subst. rewrite eqb_refl' in Exy. discriminate.
        * eapply leb_trans; eassumption.
  Qed.
  Lemma lex_antisym a : forall b, lex_leb eqb leb a b = true -> lex_leb eqb leb b a = true -> a = b.
  Proof.
    induction a as [|x a IH]; intros [|y b]; cbn; auto; try discriminate.
    destruct (eqb x y) eqn:E.
    - apply eqb_eq in E as ->. rewrite eqb_refl'. intros H1 H2. f_equal. apply IH; assumption.
    - destruct (eqb y x) eqn:E'; [apply eqb_eq in E' as ->; rewrite eqb_refl' in E; discriminate|].
      intros H1 H2. exfalso. assert (x = y) by (apply leb_antisym; assumption). subst. rewrite eqb_refl' in E. discriminate.
  Qed.
End LexProofs.

Lemma bytes_leb_total x y : bytes_leb x y = true \/ bytes_leb y x = true.
Proof. apply lex_total; [apply N.eqb_eq|intros; lia]. Qed.
Lemma bytes_leb_trans x y z : bytes_leb x y = true -> bytes_leb y z = true -> bytes_leb x z = true.
Proof. apply lex_trans; [apply N.eqb_eq|intros; lia|intros; lia]. Qed.
Lemma bytes_leb_antisym x y : bytes_leb x y = true -> bytes_leb y x = true -> x = y.
Proof. apply lex_antisym; [apply N.eqb_eq|intros; lia]. Qed.
Lemma tokens_leb_total x y : tokens_leb x y = true \/ tokens_leb y x = true.
Proof. apply lex_total; [apply beqb_eq|apply bytes_leb_total]. Qed.
Lemma tokens_leb_trans x y z : tokens_leb x y = true -> tokens_leb y z = true -> tokens_leb x z = true.
Proof. apply lex_trans; [apply beqb_eq|apply bytes_leb_trans|apply bytes_leb_antisym]. Qed.
Lemma tokens_leb_antisym x y : tokens_leb x y = true -> tokens_leb y x = true -> x = y.
Proof. apply lex_antisym; [apply beqb_eq|apply bytes_leb_antisym]. Qed.

Lemma sort_bytes_iff a b : sort bytes_leb a = sort bytes_leb b <-> Permutation a b.
Proof. apply sort_eq_iff; [apply bytes_leb_total|apply bytes_leb_trans|apply bytes_leb_antisym]. Qed.
Lemma sort_tokens_iff a b : sort tokens_leb a = sort tokens_leb b <-> Permutation a b.
Proof. apply sort_eq_iff; [apply tokens_leb_total|apply tokens_leb_trans|apply tokens_leb_antisym]. Qed.
