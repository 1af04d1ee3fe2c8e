From Coq Require Import String.
From Verif Require Import Model.Bytes Model.Utf8 Model.Executors Model.Feedback Model.Sources Spec.Text Spec.Feedback Spec.Sources
  Proofs.BytesLemmas Proofs.Executors Proofs.Feedback.
Local Open Scope nat_scope.
Local Open Scope list_scope.

(** ** taking out matches *)
Section Sub.
  Variable m : text -> option text.
  Hypothesis shrinks : forall s r, m s = Some r -> length r < length s.
  Lemma sub_all_fuel n : forall f s, length s <= n -> length s <= f -> sub_all m f s = sub_all m (length s) s.
  Proof.
    induction n as [|n IH]; intros f s Ln Lf.
    - destruct s; [destruct f; reflexivity|cbn in Ln; lia].
    - destruct s as [|c r]; [destruct f; reflexivity|]. destruct f as [|f]; [cbn in Lf; lia|]. cbn [sub_all length].
      cbn in Ln, Lf. destruct (m (c :: r)) as [t|] eqn:E.
      + apply shrinks in E. cbn in E. rewrite (IH f t), (IH (length r) t) by lia. reflexivity.
      + rewrite (IH f r) by lia. reflexivity.
  Qed.
  Lemma sub_cons c r : sub m (c :: r) = match m (c :: r) with Some t => sub m t | None => c :: sub m r end.
  Proof.
    unfold sub. cbn [length sub_all]. destruct (m (c :: r)) as [t|] eqn:E; [|reflexivity].
    apply shrinks in E. cbn in E. apply (sub_all_fuel (length t)); lia.
  Qed.
  Definition passes (s rest : text) : Prop := forall a c b, s = a ++ c :: b -> m (c :: b ++ rest) = None.
  Lemma sub_pass s rest : passes s rest -> sub m (s ++ rest) = s ++ sub m rest.
  Proof.
    induction s as [|c s IH]; intros H; [reflexivity|]. cbn [app]. rewrite sub_cons, (H [] c s eq_refl). f_equal.
    apply IH. intros a d b ->. exact (H (c :: a) d b eq_refl).
  Qed.
  Lemma sub_eat s rest : m (s ++ rest) = Some rest -> s <> [] -> sub m (s ++ rest) = sub m rest.
  Proof. intros H Hs. destruct s as [|c s]; [congruence|]. cbn [app] in *. rewrite sub_cons, H. reflexivity. Qed.
End Sub.

Lemma to_close_shrinks s : forall r, to_close s = Some r -> length r < length s.
Proof.
  induction s as [|c s IH]; intros r; [discriminate|]. cbn [to_close]. destruct (after (B "*/") (c :: s)) as [t|] eqn:E.
  - intros [= <-]. apply after_iff in E. rewrite E. cbn. lia.
  - intros H. apply IH in H. cbn. lia.
Qed.
Lemma recomment_shrinks s r : recomment s = Some r -> length r < length s.
Proof. unfold recomment. destruct (after (B "/*") s) as [t|] eqn:E; [|discriminate]. intros H. apply to_close_shrinks in H. apply after_iff in E. rewrite E. cbn. lia. Qed.
Lemma to_line_end_len s : forall r, to_line_end s = Some r -> length r <= length s.
Proof. induction s as [|c s IH]; intros r; [discriminate|]. cbn. destruct (_ || _); [intros [= <-]; cbn; lia|]. intros H. apply IH in H. lia. Qed.
Lemma reinline_shrinks s r : reinline_comment s = Some r -> length r < length s.
Proof. unfold reinline_comment. destruct (after (B "//") s) as [t|] eqn:E; [|discriminate]. intros H. apply to_line_end_len in H. apply after_iff in E. rewrite E. cbn. lia. Qed.
Lemma string_body_shrinks n : forall s r, length s <= n -> string_body s = Some r -> length r < length s.
Proof.
  induction n as [|n IH]; intros s r L; [destruct s; [discriminate|cbn in L; lia]|].
  destruct s as [|c s]; [discriminate|]. cbn in *. destruct (c =? 34)%N; [intros [= <-]; lia|].
  destruct (c =? 92)%N.
  - destruct s as [|d s]; [discriminate|]. intros H. apply IH in H; cbn in *; lia.
  - intros H. apply IH in H; lia.
Qed.
Lemma char_body_shrinks s r : char_body s = Some r -> length r < length s.
Proof.
  unfold char_body. destruct s as [|c s]; [discriminate|]. destruct (c =? 39)%N; [discriminate|]. destruct (c =? 92)%N.
  - destruct s as [|d [|q s]]; try discriminate. destruct (q =? 39)%N; [|discriminate]. intros [= <-]. cbn. lia.
  - destruct s as [|q s]; [discriminate|]. destruct (q =? 39)%N; [|discriminate]. intros [= <-]. cbn. lia.
Qed.
Lemma restring_shrinks s r : restring s = Some r -> length r < length s.
Proof.
  destruct s as [|c s]; [discriminate|]. cbn [restring]. destruct (c =? 39)%N; [intros H; apply char_body_shrinks in H; cbn; lia|].
  destruct (c =? 34)%N; [|discriminate]. intros H. apply (string_body_shrinks (length s)) in H; cbn; lia.
Qed.

(** a text with no comment opener, that does not end with a slash *)
Definition closed_end (s : text) : Prop := s = [] \/ exists q c, s = q ++ [c] /\ c <> 47%N.
Lemma comment_passes s rest : ~ occurs (B "/*") s -> closed_end s -> passes recomment s rest.
Proof.
  intros Ho Hc a c b E. unfold recomment. destruct (after (B "/*") (c :: b ++ rest)) as [t|] eqn:A; [|reflexivity].
  exfalso. apply after_iff in A. cbn [B app] in A. injection A as -> A.
  destruct b as [|d b].
  - destruct Hc as [->|(q & x & -> & Hx)]; [destruct a; discriminate|]. apply app_inj_tail in E as [_ E]. subst x. apply Hx. reflexivity.
  - cbn [app] in A. injection A as -> A. apply Ho. exists a, b. rewrite E. reflexivity.
Qed.
Lemma to_close_first t : forall rest, ~ occurs (B "*/") (t ++ [42%N]) -> to_close (t ++ B "*/" ++ rest) = Some rest.
Proof.
  induction t as [|c t IH]; intros rest H; [reflexivity|].
  cbn [app to_close]. destruct (after (B "*/") (c :: t ++ B "*/" ++ rest)) as [u|] eqn:A.
  - exfalso. apply after_iff in A. cbn [B app] in A. injection A as -> A. destruct t as [|d t]; cbn [app] in A; injection A as A1 A2; [discriminate|].
    apply H. exists [], (t ++ [42%N]). rewrite A1. reflexivity.
  - apply IH. intros (a & b & E). apply H. exists (c :: a), b. cbn [app]. rewrite E. reflexivity.
Qed.
Lemma comment_eaten t rest : ~ occurs (B "*/") (t ++ [42%N]) -> recomment ((B "/*" ++ t ++ B "*/") ++ rest) = Some rest.
Proof. intros H. unfold recomment. rewrite <- !app_assoc. rewrite (proj2 (after_iff _ _ _) eq_refl). apply to_close_first. exact H. Qed.
Lemma no_slash_no_comment s : ~ In 47%N s -> ~ occurs (B "/*") s.
Proof. intros H (a & b & ->). apply H. apply in_or_app. right. left. reflexivity. Qed.
Lemma no_slash_closed s : ~ In 47%N s -> closed_end s.
Proof. intros H. destruct s as [|c q _] using rev_ind; [left; reflexivity|]. right. exists q, c. split; [reflexivity|]. intros ->. apply H, in_or_app. right. left. reflexivity. Qed.

Lemma string_eaten t rest : literal 34 t -> string_body (t ++ 34%N :: rest) = Some rest.
Proof.
  induction 1 as [|c r H1 H2 _ IH|c r _ IH]; [reflexivity| |].
  - cbn. apply N.eqb_neq in H1, H2. rewrite H1, H2. exact IH.
  - cbn. exact IH.
Qed.
Lemma literal_passes s rest : ~ In 34%N s -> ~ In 39%N s -> passes restring s rest.
Proof.
  intros H1 H2 a c b ->. cbn [restring]. destruct (N.eqb_spec c 39) as [->|_]; [exfalso; apply H2, in_elt|].
  destruct (N.eqb_spec c 34) as [->|_]; [exfalso; apply H1, in_elt|reflexivity].
Qed.
Lemma char_eaten t rest : ((exists c, t = [c] /\ c <> 39%N /\ c <> 92%N) \/ (exists c, t = [92%N; c])) -> char_body (t ++ 39%N :: rest) = Some rest.
Proof.
  intros [(c & -> & H1 & H2)|(c & ->)]; cbn; [|reflexivity].
  apply N.eqb_neq in H1, H2. rewrite H1, H2. reflexivity.
Qed.
Lemma line_eaten t n rest : ~ In 13%N t -> ~ In 10%N t -> (n = 13 \/ n = 10)%N -> to_line_end (t ++ n :: rest) = Some (n :: rest).
Proof.
  intros H1 H2 Hn. induction t as [|c t IH]; cbn.
  - destruct Hn as [->| ->]; reflexivity.
  - destruct (N.eqb_spec c CR) as [->|_]; [exfalso; apply H1; left; reflexivity|]. destruct (N.eqb_spec c LF) as [->|_]; [exfalso; apply H2; left; reflexivity|].
    cbn. apply IH; [intros I; apply H1; right; exact I|intros I; apply H2; right; exact I].
Qed.

Lemma opener_inside s n : n <> 42%N -> occurs (B "/*") (s ++ [n]) -> occurs (B "/*") s.
Proof.
  intros Hn (a & b & E). cbn [B app] in E. destruct b as [|y b' _] using rev_ind.
  - exfalso. replace (a ++ _) with ((a ++ [47%N]) ++ [42%N]) in E by (rewrite <- app_assoc; reflexivity). apply app_inj_tail in E as [_ E]. congruence.
  - replace (a ++ _) with ((a ++ B "/*" ++ b') ++ [y]) in E by (rewrite <- !app_assoc; reflexivity). apply app_inj_tail in E as [E _]. exists a, b'. exact E.
Qed.
Lemma opener_later c s : c <> 47%N -> occurs (B "/*") (c :: s) -> occurs (B "/*") s.
Proof. intros Hc (a & b & E). destruct a as [|x a]; cbn in E; injection E as E1 E2; [congruence|]. exists a, b. exact E2. Qed.
(** ** the three passes *)
Definition render1 (p : piece) : text := match p with Block _ => [] | _ => render p end.
Definition render2 (p : piece) : text := match p with Block _ | Str _ | Chr _ => [] | _ => render p end.
Lemma pass1_tail l tail : Forall tame l -> sub recomment (text_of l ++ tail) = concat (map render1 l) ++ sub recomment tail.
Proof.
  unfold text_of. induction 1 as [|p l H _ IH]; [reflexivity|]. cbn [map concat]. rewrite <- !app_assoc, <- IH. generalize (concat (map render l) ++ tail) as rest. intros rest.
  assert (P : ~ occurs (B "/*") (render p) -> closed_end (render p) -> sub recomment (render p ++ rest) = render p ++ sub recomment rest)
    by (intros A C; apply sub_pass; [exact recomment_shrinks|apply comment_passes; assumption]).
  destruct p as [t|c|t|t n|t|t]; cbn [render render1 app tame] in *.
  - apply P; [apply no_slash_no_comment|apply no_slash_closed]; tauto.
  - apply P; [intros (a & b & E)|right; exists [47%N], c; split; [reflexivity|tauto]]. destruct H as (H1 & H2 & _).
    destruct a as [|x [|y [|z a]]]; cbn in E; congruence.
  - apply (sub_eat _ recomment_shrinks); [apply comment_eaten; exact H|discriminate].
  - destruct H as (H1 & H2 & H3 & H4 & H5 & H6).
    apply P; [|right; exists (47%N :: 47%N :: t), n; split; [reflexivity|destruct H6; subst; discriminate]].
    intros O. apply (opener_inside (47%N :: 47%N :: t) n) in O; [|destruct H6; subst; discriminate]. apply H5.
    destruct O as (a & b & E). destruct a as [|x a]; cbn in E; injection E as E1 E2; [discriminate|]. exists a, b. exact E2.
  - destruct H as [H1 H2]. apply P; [|right; exists (34%N :: t), 34%N; split; [reflexivity|discriminate]].
    intros O. apply opener_later in O; [|discriminate]. apply opener_inside in O; [tauto|discriminate].
  - destruct H as [H1 H2]. apply P; [|right; exists (39%N :: t), 39%N; split; [reflexivity|discriminate]].
    intros O. apply opener_later in O; [|discriminate]. apply opener_inside in O; [tauto|discriminate].
Qed.
Lemma pass1 l : Forall tame l -> sub recomment (text_of l) = concat (map render1 l).
Proof. intros H. rewrite <- (app_nil_r (text_of l)), (pass1_tail l [] H). apply app_nil_r. Qed.
Lemma pass2 l : Forall tame l -> sub restring (concat (map render1 l)) = concat (map render2 l).
Proof.
  induction 1 as [|p l H _ IH]; [reflexivity|]. cbn [map concat]. rewrite <- IH. generalize (concat (map render1 l)) as rest. intros rest.
  assert (P : ~ In 34%N (render p) -> ~ In 39%N (render p) -> sub restring (render p ++ rest) = render p ++ sub restring rest)
    by (intros A C; apply sub_pass; [exact restring_shrinks|apply literal_passes; assumption]).
  destruct p as [t|c|t|t n|t|t]; cbn [render render1 render2 app tame] in *.
  - apply P; tauto.
  - apply P; intros [E|[E|[]]]; (discriminate || tauto).
  - reflexivity.
  - destruct H as (H1 & H2 & H3 & H4 & H5 & H6).
    apply P; rewrite !in_app_iff; cbn [In B]; intuition (subst; discriminate).
  - destruct H as [H1 H2]. change (34%N :: (t ++ [34%N]) ++ rest) with ((34%N :: (t ++ [34%N])) ++ rest). apply (sub_eat _ restring_shrinks); [|discriminate].
    cbn [app restring N.eqb]. change (34 =? 39)%N with false. change (34 =? 34)%N with true. cbn iota. rewrite <- app_assoc. apply string_eaten. exact H1.
  - destruct H as [H1 H2]. change (39%N :: (t ++ [39%N]) ++ rest) with ((39%N :: (t ++ [39%N])) ++ rest). apply (sub_eat _ restring_shrinks); [|discriminate].
    cbn [app restring]. change (39 =? 39)%N with true. cbn iota. rewrite <- app_assoc. apply char_eaten. exact H1.
Qed.
Lemma inline_passes s rest : ~ In 47%N s -> passes reinline_comment s rest.
Proof.
  intros H a c b ->. unfold reinline_comment. destruct (after (B "//") (c :: b ++ rest)) as [t|] eqn:A; [|reflexivity].
  exfalso. apply after_iff in A. cbn [B app] in A. injection A as -> _. apply H, in_elt.
Qed.
Lemma pass3_tail l tail : Forall tame l -> sub reinline_comment (concat (map render2 l) ++ tail) = code_of l ++ sub reinline_comment tail.
Proof.
  unfold code_of. induction 1 as [|p l H _ IH]; [reflexivity|]. cbn [map concat]. rewrite <- !app_assoc, <- IH. generalize (concat (map render2 l) ++ tail) as rest. intros rest.
  destruct p as [t|c|t|t n|t|t]; cbn [render render2 visible app tame] in *; try reflexivity.
  - apply sub_pass; [exact reinline_shrinks|]. apply inline_passes. tauto.
  - change (47%N :: c :: rest) with ([47%N; c] ++ rest). apply sub_pass; [exact reinline_shrinks|].
    intros a x b E. unfold reinline_comment. destruct (after (B "//") (x :: b ++ rest)) as [t|] eqn:A; [|reflexivity]. exfalso.
    apply after_iff in A. cbn [B app] in A. injection A as -> A. destruct H as (H1 & _). destruct a as [|y [|z a]]; cbn in E; injection E; intros; subst; try congruence.
    + cbn in A. congruence.
    + destruct a; discriminate.
  - destruct H as (H1 & H2 & H3 & H4 & H5 & H6). 
    replace ((B "//" ++ t ++ [n]) ++ rest) with ((B "//" ++ t) ++ ([n] ++ rest)) by (rewrite <- !app_assoc; reflexivity).
    rewrite (sub_eat _ reinline_shrinks); [|unfold reinline_comment; rewrite <- app_assoc, (proj2 (after_iff _ _ _) eq_refl); apply line_eaten; assumption|discriminate].
    apply (sub_pass _ reinline_shrinks [n] rest). apply inline_passes. intros [E|[]]. destruct H6; congruence.
Qed.
Lemma pass3 l : Forall tame l -> sub reinline_comment (concat (map render2 l)) = code_of l.
Proof. intros H. rewrite <- (app_nil_r (concat (map render2 l))), (pass3_tail l [] H). apply app_nil_r. Qed.
Lemma java_code_tame l : Forall tame l -> java_code (text_of l) = code_of l.
Proof. intros H. unfold java_code. rewrite pass1, pass2, pass3 by exact H. reflexivity. Qed.
Lemma concat_render12 l : Forall (fun p => match p with Str _ | Chr _ => False | _ => True end) l -> concat (map render1 l) = concat (map render2 l).
Proof. induction 1 as [|p l H _ IH]; [reflexivity|]. cbn. rewrite IH. destruct p; (tauto || reflexivity). Qed.
Lemma decomment_tame l tail : Forall tame l -> Forall (fun p => match p with Str _ | Chr _ => False | _ => True end) l ->
  decomment (text_of l ++ tail) = code_of l ++ decomment tail.
Proof. intros H1 H2. unfold decomment. rewrite pass1_tail, concat_render12, pass3_tail by assumption. reflexivity. Qed.
Lemma decomment_plain x rest : ~ In 47%N x -> decomment (x ++ rest) = x ++ decomment rest.
Proof.
  intros H. unfold decomment. rewrite (sub_pass _ recomment_shrinks), (sub_pass _ reinline_shrinks); [reflexivity|apply inline_passes; exact H|].
  apply comment_passes; [apply no_slash_no_comment; exact H|apply no_slash_closed; exact H].
Qed.

(** ** Go *)
Lemma ascii_word_iff c : ascii_word c = true <-> (letter c \/ digit c \/ c = 95)%N.
Proof. unfold ascii_word. rewrite !orb_true_iff, letter_iff, digit_iff, N.eqb_eq. tauto. Qed.
Lemma white_iff c : py_isspace c = true <-> whitespace c.
Proof. rewrite py_isspace_spec. apply whitespace_dec_iff. Qed.
Lemma white_forall w : all_white w <-> Forall (fun c => py_isspace c = true) w.
Proof. unfold all_white. rewrite !Forall_forall. split; intros H c I; apply white_iff, H, I. Qed.
Definition ends_black (s : bytes) : Prop := s = [] \/ exists q c, s = q ++ [c] /\ py_isspace c = false.
Lemma rstrip_id s : ends_black s -> py_rstrip s = s.
Proof.
  intros [->|(q & c & -> & H)]; [reflexivity|]. unfold py_rstrip. rewrite rev_app_distr. cbn. rewrite H. cbn. rewrite rev_involutive. reflexivity.
Qed.
Lemma rstrip_ends s : ends_black (py_rstrip s).
Proof.
  unfold ends_black, py_rstrip. pose proof (lstrip_head (rev s)) as H. destruct (py_lstrip (rev s)) as [|c r]; [left; reflexivity|].
  right. exists (rev r), c. split; [reflexivity|exact H].
Qed.
Lemma nonword_start (b : bool) rest : match rest with [] => true | c :: _ => negb (ascii_word c) end = true <-> (rest = [] \/ exists c r, rest = c :: r /\ ~ go_word c).
Proof.
  destruct rest as [|c r]; [split; [left; reflexivity|reflexivity]|]. rewrite negb_true_iff. split.
  - intros H. right. exists c, r. split; [reflexivity|]. unfold go_word. rewrite <- ascii_word_iff. congruence.
  - intros [[=]|(c' & r' & [= -> ->] & H)]. unfold go_word in H. rewrite <- ascii_word_iff in H. destruct (ascii_word c'); congruence.
Qed.
Lemma repackage_iff s : repackage s = true <-> exists a w rest, s = a ++ B "package" ++ w ++ B "main" ++ rest /\ all_white a /\ w <> [] /\ all_white w /\
  (rest = [] \/ exists c r, rest = c :: r /\ ~ go_word c).
Proof.
  unfold repackage. split.
  - pose proof (span_spec py_isspace s) as H1. destruct (span py_isspace s) as [a r1]. destruct H1 as (-> & F1 & _). cbn [snd].
    destruct (after (B "package") r1) as [t|] eqn:A; [|discriminate]. apply after_iff in A as ->.
    pose proof (span_spec py_isspace t) as H2. destruct (span py_isspace t) as [w r2]. destruct H2 as (-> & F2 & _). destruct w as [|c w]; [discriminate|].
    destruct (after (B "main") r2) as [q|] eqn:A2; [|discriminate]. apply after_iff in A2 as ->. intros H. apply (nonword_start true) in H.
    exists a, (c :: w), q. split; [reflexivity|]. split; [apply white_forall; exact F1|]. split; [discriminate|]. split; [apply white_forall; exact F2|exact H].
  - intros (a & w & rest & -> & Ha & Hn & Hw & H). rewrite (span_app py_isspace a); [|apply white_forall; exact Ha|reflexivity]. cbn [snd].
    rewrite (proj2 (after_iff _ _ _) eq_refl), (span_app py_isspace w); [|apply white_forall; exact Hw|reflexivity]. destruct w as [|c w]; [congruence|].
    rewrite (proj2 (after_iff _ _ _) eq_refl). apply (nonword_start true). exact H.
Qed.
Lemma go_accepts_iff source : go_accepts source = true <-> package_main (decomment source).
Proof.
  unfold go_accepts, package_main. generalize (decomment source) as d. intros d. rewrite repackage_iff. split.
  - intros (a & w & rest & E & Ha & Hn & Hw & H). destruct (strip_split d) as (l & r & Ed & Hl & Hr).
    pose proof (span_spec (fun c => negb (c =? LF)%N) (py_strip d)) as Sp. destruct (span _ (py_strip d)) as [line more]. cbn [fst] in E. destruct Sp as (Es & F & Lm).
    exists (l ++ a), w, (rest ++ more ++ r). split; [rewrite Ed, Es, E, <- !app_assoc; reflexivity|].
    split; [apply Forall_app; split; assumption|]. split; [exact Hn|]. split; [exact Hw|]. split.
    + rewrite E in F. intros I. rewrite Forall_forall in F. specialize (F 10%N). assert (false = true); [|discriminate]. apply F. rewrite !in_app_iff. tauto.
    + destruct H as [->|(c & q & -> & H)]; [|right; exists c, (q ++ more ++ r); split; [reflexivity|exact H]]. cbn [app].
      destruct more as [|m more].
      * destruct r as [|x r]; [left; reflexivity|]. right. exists x, r. split; [reflexivity|]. inversion Hr as [|? ? Hx _]; subst. clear -Hx. unfold whitespace, go_word, letter, digit in *. lia.
      * apply negb_false_iff, N.eqb_eq in Lm. subst m. right. exists LF, (more ++ r). split; [reflexivity|]. unfold go_word, letter, digit, LF. lia.
  - intros (a & w & rest & -> & Ha & Hn & Hw & Hl & H). destruct (rstrip_split rest) as (w1 & Er & Hw1). pose proof (rstrip_ends rest) as Eb.
    set (rest1 := py_rstrip rest) in *. clearbody rest1.
    assert (Es : py_strip (a ++ B "package" ++ w ++ B "main" ++ rest) = B "package" ++ w ++ B "main" ++ rest1).
    { rewrite Er. replace (a ++ B "package" ++ w ++ B "main" ++ rest1 ++ w1) with (a ++ (B "package" ++ w ++ B "main" ++ rest1) ++ w1) by (rewrite <- !app_assoc; reflexivity).
      rewrite strip_white by assumption. unfold py_strip. change (py_lstrip (B "package" ++ w ++ B "main" ++ rest1)) with (B "package" ++ w ++ B "main" ++ rest1).
      apply rstrip_id. right. destruct Eb as [->|(q & c & -> & Hc)].
      - exists (B "package" ++ w ++ B "mai"), 110%N. split; [rewrite <- !app_assoc; reflexivity|reflexivity].
      - exists (B "package" ++ w ++ B "main" ++ q), c. split; [rewrite <- !app_assoc; reflexivity|exact Hc]. }
    rewrite Es.
    pose proof (span_spec (fun c => negb (c =? LF)%N) rest1) as Sp. destruct (span _ rest1) as [q more] eqn:Esp. destruct Sp as (Eq & F & Lm).
    replace (B "package" ++ w ++ B "main" ++ rest1) with ((B "package" ++ w ++ B "main" ++ q) ++ more) by (rewrite Eq, <- !app_assoc; reflexivity).
    rewrite span_app; [|apply Forall_forall|exact Lm].
    + cbn [fst]. exists [], w, q. split; [reflexivity|]. split; [constructor|]. split; [exact Hn|]. split; [exact Hw|].
      destruct q as [|c q]; [left; reflexivity|]. right. exists c, q. split; [reflexivity|]. destruct H as [->|(c' & r' & -> & H)].
      * destruct rest1; discriminate.
      * rewrite Eq in Er. cbn in Er. injection Er as -> _. exact H.
    + intros c I. apply negb_true_iff, N.eqb_neq. intros ->. rewrite !in_app_iff in I. destruct I as [I|[I|[I|I]]].
      * cbn in I. unfold LF in I. intuition discriminate.
      * exact (Hl I).
      * cbn in I. unfold LF in I. intuition discriminate.
      * rewrite Forall_forall in F. specialize (F _ I). discriminate.
Qed.

Definition no_literal (p : piece) : Prop := match p with Str _ | Chr _ => False | _ => True end.
Lemma split_first (P : N -> Prop) (x : text) : forall y r r', Forall P x -> Forall P y -> x ++ r = y ++ r' ->
  (r = [] \/ exists c q, r = c :: q /\ ~ P c) -> (r' = [] \/ exists c q, r' = c :: q /\ ~ P c) -> x = y.
Proof.
  induction x as [|c x IH]; intros [|d y] r r' F1 F2 E R1 R2; cbn in E; [reflexivity| | |].
  - subst r. destruct R1 as [[=]|(c & q & [= -> _] & H)]. inversion F2; subst. contradiction.
  - subst r'. destruct R2 as [[=]|(d & q & [= -> _] & H)]. inversion F1; subst. contradiction.
  - inversion F1; inversion F2; subst. injection E as -> E. f_equal. eapply IH; eassumption.
Qed.
Lemma white_no_slash w : all_white w -> ~ In 47%N w.
Proof. unfold all_white. rewrite Forall_forall. intros H I. specialize (H _ I). unfold whitespace in H. lia. Qed.
Lemma go_leading l w x rest : Forall tame l -> Forall no_literal l -> all_white (code_of l) -> w <> [] -> all_white w -> ~ In 10%N w ->
  x <> [] -> Forall go_word x -> (rest = [] \/ exists c r, rest = c :: r /\ ~ go_word c /\ c <> 47%N) ->
  (go_accepts (text_of l ++ B "package" ++ w ++ x ++ rest) = true <-> x = B "main").
Proof.
  intros T NL Wl Wn Ww Wlf Xn Xw R. rewrite go_accepts_iff, decomment_tame by assumption.
  assert (Sx : ~ In 47%N x). { rewrite Forall_forall in Xw. intros I. specialize (Xw _ I). unfold go_word, letter, digit in Xw. lia. }
  rewrite !decomment_plain; [|exact Sx|apply white_no_slash; exact Ww|cbn; intuition discriminate].
  assert (R' : decomment rest = [] \/ exists c r, decomment rest = c :: r /\ ~ go_word c).
  { destruct R as [->|(c & r & -> & Hc & H47)]; [left; reflexivity|]. right. exists c, (decomment r). split; [|exact Hc].
    change (c :: r) with ([c] ++ r). rewrite decomment_plain; [reflexivity|]. cbn. intuition congruence. }
  generalize dependent (decomment rest). intros d R'. split.
  - intros (a & w' & r & E & Ha & Hn & Hw & Hlf & Hr).
    assert (Ea : code_of l = a).
    { eapply (split_first whitespace); [exact Wl|exact Ha|exact E| |]; right; exists 112%N; eexists; (split; [reflexivity|]); unfold whitespace; lia. }
    rewrite Ea in E. apply app_inv_head in E. cbn in E. injection E as E.
    assert (Ew : w = w').
    { destruct x as [|c0 x0]; [congruence|]. inversion Xw as [|? ? Hc0 _]; subst.
      eapply (split_first whitespace); [exact Ww|exact Hw|exact E| |]; right; eexists; eexists; (split; [reflexivity|]).
      - unfold whitespace, go_word, letter, digit in *. lia.
      - unfold whitespace. lia. }
    rewrite Ew in E. apply app_inv_head in E. change (109%N :: 97%N :: 105%N :: 110%N :: r) with (B "main" ++ r) in E.
    eapply (split_first go_word); [exact Xw| |exact E|exact R'|exact Hr].
    cbn [B]. repeat (apply Forall_cons; [unfold go_word, letter, digit; cbn; lia|]). apply Forall_nil.
  - intros ->. exists (code_of l), w, d. split; [reflexivity|]. split; [exact Wl|]. split; [exact Wn|]. split; [exact Ww|]. split; [exact Wlf|exact R'].
Qed.

(** ** search *)
Lemma search_some m s : forall prev g, search m prev s = Some g <->
  exists pre post, s = pre ++ post /\ m (match last_opt pre with Some c => Some c | None => prev end) post = Some g /\
    forall pre' post', s = pre' ++ post' -> length pre' < length pre -> m (match last_opt pre' with Some c => Some c | None => prev end) post' = None.
Proof.
  assert (L : forall (c : N) pre prev, match last_opt (c :: pre) with Some x => Some x | None => prev end = match last_opt pre with Some x => Some x | None => Some c end).
  { intros c pre prev. destruct pre as [|d pre]; [reflexivity|]. change (last_opt (c :: d :: pre)) with (last_opt (d :: pre)).
    destruct (last_opt (d :: pre)) eqn:E; [reflexivity|]. exfalso. revert d E. induction pre as [|e pre IH]; intros d E; [discriminate|]. exact (IH e E). }
  induction s as [|c s IH]; intros prev g; cbn [search].
  - split.
    + destruct (m prev []) as [g'|] eqn:E; [|discriminate]. intros [= ->]. exists [], []. split; [reflexivity|]. split; [exact E|]. cbn. intros; lia.
    + intros (pre & post & E & M & _). symmetry in E. apply app_eq_nil in E as [-> ->]. cbn in M. rewrite M. reflexivity.
  - destruct (m prev (c :: s)) as [g'|] eqn:E.
    + split.
      * intros [= ->]. exists [], (c :: s). split; [reflexivity|]. split; [exact E|]. cbn. intros; lia.
      * intros (pre & post & Q & M & H). destruct pre as [|x pre]; [cbn in Q, M; subst post; congruence|].
        specialize (H [] (c :: s) eq_refl). cbn in H. rewrite H in E by lia. discriminate.
    + rewrite IH. split; intros (pre & post & Q & M & H).
      * exists (c :: pre), post. split; [rewrite Q; reflexivity|]. split; [rewrite L; exact M|].
        intros pre' post' Q' Ln. destruct pre' as [|x pre']; [cbn in *; subst post'; exact E|]. cbn in Q'. injection Q' as <- Q'. rewrite L. apply (H pre' post' Q'). cbn in Ln. lia.
      * destruct pre as [|x pre]; [cbn in *; subst post; congruence|]. cbn in Q. injection Q as <- Q. exists pre, post. split; [exact Q|].
        split; [rewrite <- (L c pre prev); exact M|]. intros pre' post' Q' Ln. rewrite <- (L c pre' prev). apply (H (c :: pre') post'); [rewrite Q'; reflexivity|cbn; lia].
Qed.
Lemma search_none m s : forall prev, search m prev s = None <->
  forall pre post, s = pre ++ post -> m (match last_opt pre with Some c => Some c | None => prev end) post = None.
Proof.
  intros prev. split.
  - intros H pre post E. destruct (m _ post) as [g|] eqn:M; [|reflexivity]. exfalso.
    assert (exists k, length pre = k) as [k K] by (eexists; reflexivity). revert pre post g E M K.
    induction k as [k IH] using lt_wf_ind; intros pre post g E M K.
    assert (search m prev s = Some g); [|congruence]. apply search_some. exists pre, post. split; [exact E|]. split; [exact M|].
    intros pre' post' E' Ln. destruct (m _ post') as [g'|] eqn:M'; [|reflexivity]. exfalso. exact (IH (length pre') ltac:(lia) pre' post' g' E' M' eq_refl).
  - intros H. destruct (search m prev s) as [g|] eqn:E; [|reflexivity]. apply search_some in E as (pre & post & Q & M & _). rewrite (H pre post Q) in M. discriminate.
Qed.

Section Java.
  Variables word_beyond space_beyond : N -> bool.
  Hypothesis apart : forall c, (128 <= c)%N -> word_beyond c = true -> space_beyond c = true -> False.
  Notation jw := (jword word_beyond).
  Notation js := (jspace space_beyond).
  Notation Wd := (fun c => jw c = true).
  Notation Sp := (fun c => js c = true).
  Lemma disjoint c : jw c = true -> js c = true -> False.
  Proof.
    unfold jword, jspace, word, ascii_letter, ascii_digit. destruct (c <? 128)%N eqn:L.
    - clear. intros H1 H2. rewrite !orb_true_iff, !andb_true_iff, !N.leb_le, N.eqb_eq in *. lia.
    - apply N.ltb_ge in L. apply apart. exact L.
  Qed.
  Lemma letter_not_space c : letter c -> js c = false.
  Proof.
    clear apart. unfold letter, jspace. intros H. replace (c <? 128)%N with true by (symmetry; apply N.ltb_lt; lia).
    destruct ((9 <=? c) && (c <=? 13) || (28 <=? c) && (c <=? 32))%N eqn:E; [|reflexivity]. rewrite !orb_true_iff, !andb_true_iff, !N.leb_le in E. lia.
  Qed.
  Lemma word_starts_iff pre : word_starts Wd pre <-> match last_opt pre with Some p => jw p | None => false end = false.
  Proof.
    clear apart. unfold word_starts. destruct pre as [|c q _] using rev_ind; [cbn; split; [reflexivity|left; reflexivity]|]. rewrite last_opt_snoc. split.
    - intros [E|(q' & c' & E & H)]; [apply app_eq_nil in E as [_ E]; discriminate|]. apply app_inj_tail in E as [_ ->]. destruct (jw c'); congruence.
    - intros H. right. exists q, c. split; [reflexivity|congruence].
  Qed.
  Definition starts_nonspace (t : text) : Prop := match t with [] => True | c :: _ => js c = false end.
  Lemma blanks_run b t : blank_run Sp b -> starts_nonspace t -> blanks space_beyond (b ++ t) = Some t.
  Proof.
    clear apart. intros [Hn Hb] Ht. unfold blanks. rewrite (span_app js b t Hb Ht). destruct b; [congruence|reflexivity].
  Qed.
  Lemma blanks_some s t : blanks space_beyond s = Some t -> exists b, blank_run Sp b /\ s = b ++ t /\ starts_nonspace t.
  Proof.
    clear apart. unfold blanks. pose proof (span_spec js s) as H. destruct (span js s) as [[|c b] r]; [discriminate|]. destruct H as (E & F & N0).
    intros [= <-]. exists (c :: b). split; [split; [discriminate|exact F]|]. split; [exact E|]. destruct r; [exact I|exact N0].
  Qed.
  Lemma opt_word_spec ws s : exists m, modifier Sp ws m /\ s = m ++ opt_word space_beyond ws s.
  Proof.
    clear apart. induction ws as [|w ws IH]; [exists []; split; [left; reflexivity|reflexivity]|]. cbn [opt_word].
    assert (Up : forall t, (exists m, modifier Sp ws m /\ s = m ++ t) -> exists m, modifier Sp (w :: ws) m /\ s = m ++ t).
    { intros t (m & [->|(w' & b & I & Hb & E)] & Es); [exists []; split; [left; reflexivity|exact Es]|]. exists m. split; [right; exists w', b; split; [right; exact I|tauto]|exact Es]. }
    destruct (after w s) as [t|] eqn:A; [|apply Up, IH]. destruct (blanks space_beyond t) as [r|] eqn:Bl; [|apply Up, IH].
    apply after_iff in A. apply blanks_some in Bl as (b & Hb & -> & _). exists (w ++ b). split; [right; exists w, b; split; [left; reflexivity|split; [exact Hb|reflexivity]]|].
    rewrite <- app_assoc. exact A.
  Qed.
  Lemma opt_word_take ws w b t : In w ws -> blank_run Sp b -> starts_nonspace t ->
    (forall w', In w' ws -> w' <> w -> after w' (w ++ b ++ t) = None) -> opt_word space_beyond ws ((w ++ b) ++ t) = t.
  Proof.
    clear apart. intros I Hb Ht Ho. rewrite <- app_assoc. induction ws as [|x ws IH]; [destruct I|]. cbn [opt_word].
    destruct (list_eq_dec N.eq_dec x w) as [->|Hx].
    - rewrite (proj2 (after_iff _ _ _) eq_refl), (blanks_run b t Hb Ht). reflexivity.
    - rewrite (Ho x (or_introl eq_refl) Hx). apply IH; [destruct I; [congruence|assumption]|]. intros w' I' H'. apply Ho; [right; exact I'|exact H'].
  Qed.
  Lemma opt_word_none ws t : (forall w, In w ws -> after w t = None) -> opt_word space_beyond ws t = t.
  Proof. clear apart. induction ws as [|w ws IH]; intros H; [reflexivity|]. cbn. rewrite (H w (or_introl eq_refl)). apply IH. intros x I. apply H. right. exact I. Qed.
  Lemma name_starts n post : name_read Wd n post -> starts_nonspace (n ++ post).
  Proof.
    intros [Hn [[Hw _]|[Hd _]]]; destruct n as [|c n]; try congruence; cbn.
    - inversion Hw; subst. destruct (js c) eqn:E; [exfalso; exact (disjoint c ltac:(assumption) E)|reflexivity].
    - inversion Hd; subst. reflexivity.
  Qed.
  Lemma class_name_read n post : name_read Wd n post -> class_name word_beyond (n ++ post) = Some n.
  Proof.
    clear apart. intros [Hn [[Hw Hp]|[Hd (x & r & -> & Hx)]]].
    - assert (Q : match post with [] => True | c :: _ => jw c = false end) by (destruct Hp as [->|(c & r & -> & H)]; [exact I|destruct (jw c); congruence]).
      pose proof (span_app jw n post Hw Q) as Es. destruct n as [|c n]; [congruence|]. cbn [app] in *. unfold class_name. inversion Hw; subst.
      match goal with H : jw c = true |- _ => rewrite H end. rewrite Es. reflexivity.
    - assert (Q : (36 =? x)%N = false) by (destruct (N.eqb_spec 36 x) as [<-|]; [discriminate|reflexivity]).
      assert (F : Forall (fun c => (36 =? c)%N = true) n) by (eapply Forall_impl; [|exact Hd]; intros c <-; reflexivity).
      pose proof (span_app (N.eqb 36) n (x :: r) F Q) as Es. destruct n as [|c n]; [congruence|]. cbn [app] in *. unfold class_name. inversion Hd; subst.
      change (jw 36%N) with false. change (36 =? 36)%N with true. cbn iota. rewrite Es, Hx. reflexivity.
  Qed.
  Lemma class_name_some s n : class_name word_beyond s = Some n -> exists post, s = n ++ post /\ name_read Wd n post.
  Proof.
    clear apart. unfold class_name. destruct s as [|c s]; [discriminate|]. destruct (jw c) eqn:E.
    - pose proof (span_spec jw (c :: s)) as H. intros G. destruct (span jw (c :: s)) as [a b] eqn:Es. assert (a = n) by (cbn [fst] in G; congruence). subst n. clear G. destruct H as (Q & F & L). exists b. split; [exact Q|].
      split; [destruct a; [|discriminate]; cbn in Q; rewrite <- Q, E in L; discriminate|]. left. split; [exact F|]. destruct b as [|d b]; [left; reflexivity|right; exists d, b; split; [reflexivity|congruence]].
    - destruct (N.eqb_spec c 36) as [->|]; [|discriminate]. pose proof (span_spec (N.eqb 36) (36%N :: s)) as H. destruct (span (N.eqb 36) (36%N :: s)) as [a b] eqn:Es. destruct H as (Q & F & L).
      destruct b as [|x b]; [discriminate|]. destruct (jw x) eqn:X; [|discriminate]. intros [= <-]. exists (x :: b). split; [exact Q|].
      split; [intros ->; cbn in Q; injection Q as <- _; discriminate|]. right. split; [|exists x, b; split; [reflexivity|exact X]].
      eapply Forall_impl; [|exact F]. intros y Hy. apply N.eqb_eq in Hy. exact Hy.
  Qed.
  Lemma class_at_iff prev s n : class_at word_beyond space_beyond prev s = Some n <->
    match prev with Some p => jw p | None => false end = false /\ exists k post, s = k ++ n ++ post /\ public_class Sp k /\ name_read Wd n post.
  Proof.
    unfold class_at. split.
    - destruct (match prev with Some p => jw p | None => false end); [discriminate|].
      destruct (after (B "public") s) as [t1|] eqn:A1; [|discriminate]. apply after_iff in A1.
      destruct (blanks space_beyond t1) as [t2|] eqn:B1; [|discriminate]. apply blanks_some in B1 as (b1 & Hb1 & E1 & _). cbn zeta.
      destruct (opt_word_spec [B "strictfp"] t2) as (m1 & M1 & E2).
      set (u1 := opt_word space_beyond [B "strictfp"] t2) in *.
      destruct (opt_word_spec [B "abstract"; B "final"] u1) as (m2 & M2 & E3).
      set (u2 := opt_word space_beyond [B "abstract"; B "final"] u1) in *.
      destruct (opt_word_spec [B "strictfp"] u2) as (m3 & M3 & E4).
      set (u3 := opt_word space_beyond [B "strictfp"] u2) in *.
      destruct (after (B "class") u3) as [t4|] eqn:A4; [|discriminate]. apply after_iff in A4.
      destruct (blanks space_beyond t4) as [t5|] eqn:B4; [|discriminate]. apply blanks_some in B4 as (b2 & Hb2 & E5 & _).
      intros C. apply class_name_some in C as (post & E6 & Nm). split; [reflexivity|].
      exists (B "public" ++ b1 ++ m1 ++ m2 ++ m3 ++ B "class" ++ b2), post. split; [|split; [|exact Nm]].
      + rewrite A1, E1, E2, E3, E4, A4, E5, E6, <- !app_assoc. reflexivity.
      + exists b1, m1, m2, m3, b2. repeat (split; [reflexivity || assumption|]). assumption.
    - intros (Hp & k & post & -> & (b1 & m1 & m2 & m3 & b2 & -> & Hb1 & M1 & M2 & M3 & Hb2) & Nm). rewrite Hp.
      rewrite <- !app_assoc. rewrite (proj2 (after_iff _ _ _) eq_refl).
      set (tail := b2 ++ n ++ post).
      assert (Hc : starts_nonspace (B "class" ++ tail)) by reflexivity.
      assert (St : forall m t, modifier Sp [B "strictfp"] m -> starts_nonspace t -> starts_nonspace (m ++ t)).
      { intros m t [->|(w & b & [<-|[]] & _ & ->)] Ht; [exact Ht|reflexivity]. }
      assert (St2 : forall m t, modifier Sp [B "abstract"; B "final"] m -> starts_nonspace t -> starts_nonspace (m ++ t)).
      { intros m t [->|(w & b & [<-|[<-|[]]] & _ & ->)] Ht; [exact Ht|reflexivity|reflexivity]. }
      rewrite (blanks_run b1) by (try assumption; apply St, St2, St; assumption). cbn zeta.
      assert (N1 : forall t, opt_word space_beyond [B "strictfp"] (B "class" ++ t) = B "class" ++ t) by reflexivity.
      assert (N2 : forall t, opt_word space_beyond [B "abstract"; B "final"] (B "class" ++ t) = B "class" ++ t) by reflexivity.
      assert (T1 : forall b t, blank_run Sp b -> starts_nonspace t -> opt_word space_beyond [B "strictfp"] ((B "strictfp" ++ b) ++ t) = t).
      { intros b t Hb Ht. apply opt_word_take; [left; reflexivity|exact Hb|exact Ht|]. intros w' [<-|[]]; congruence. }
      assert (T2 : forall w b t, In w [B "abstract"; B "final"] -> blank_run Sp b -> starts_nonspace t -> opt_word space_beyond [B "abstract"; B "final"] ((w ++ b) ++ t) = t).
      { intros w b t I Hb Ht. apply opt_word_take; [exact I|exact Hb|exact Ht|]. intros w' I' Hw. destruct I as [<-|[<-|[]]]; destruct I' as [<-|[<-|[]]]; (congruence || reflexivity). }
      assert (R3 : opt_word space_beyond [B "strictfp"] (m3 ++ B "class" ++ tail) = B "class" ++ tail).
      { destruct M3 as [->|(w & b & [<-|[]] & Hb & ->)]; [apply N1|apply T1; assumption]. }
      assert (R2 : forall t, (t = B "class" ++ tail \/ t = m3 ++ B "class" ++ tail) ->
        opt_word space_beyond [B "strictfp"] (opt_word space_beyond [B "abstract"; B "final"] (m2 ++ t)) = B "class" ++ tail).
      { intros t Ht. assert (X : opt_word space_beyond [B "abstract"; B "final"] (m2 ++ t) = t).
        { destruct M2 as [->|(w & b & I & Hb & ->)].
          - cbn [app]. destruct Ht as [->| ->]; [apply N2|]. destruct M3 as [->|(w & b & [<-|[]] & Hb & ->)]; [apply N2|rewrite <- app_assoc; reflexivity].
          - apply T2; [exact I|exact Hb|]. destruct Ht as [->| ->]; [exact Hc|apply St; assumption]. }
        rewrite X. destruct Ht as [->| ->]; [apply N1|exact R3]. }
      assert (R : opt_word space_beyond [B "strictfp"] (opt_word space_beyond [B "abstract"; B "final"] (opt_word space_beyond [B "strictfp"] (m1 ++ m2 ++ m3 ++ B "class" ++ tail))) = B "class" ++ tail).
      { destruct M1 as [->|(w & b & [<-|[]] & Hb & ->)].
        - cbn [app]. destruct M2 as [->|(w & b & I & Hb & ->)].
          + cbn [app]. rewrite R3, N2, N1. reflexivity.
          + replace (opt_word space_beyond [B "strictfp"] ((w ++ b) ++ m3 ++ B "class" ++ tail)) with ((w ++ b) ++ m3 ++ B "class" ++ tail)
              by (destruct I as [<-|[<-|[]]]; rewrite <- app_assoc; reflexivity).
            rewrite T2 by (try assumption; apply St; assumption). exact R3.
        - rewrite T1 by (try assumption; apply St2, St; assumption). apply R2. right. reflexivity. }
      rewrite R. rewrite (proj2 (after_iff _ _ _) eq_refl). unfold tail. rewrite (blanks_run b2) by (try assumption; apply name_starts; assumption).
      apply class_name_read. exact Nm.
  Qed.
  Lemma last_none pre : match last_opt pre with Some c => Some c | None => None end = last_opt pre.
  Proof. clear apart. destruct (last_opt pre); reflexivity. Qed.
  Lemma class_search s n : search (class_at word_beyond space_beyond) None s = Some n <-> first_class Wd Sp s n.
  Proof.
    rewrite search_some. unfold first_class, declares. split.
    - intros (pre & post & E & M & H). rewrite last_none in M. apply class_at_iff in M as (Hp & k & r & -> & Hk & Nm). exists pre. split.
      + exists k, r. split; [exact E|]. split; [apply word_starts_iff; exact Hp|split; assumption].
      + intros pre' n' (k' & r' & E' & Hs & Hk' & Nm'). apply Nat.nlt_ge. intros Ln. specialize (H pre' _ E' Ln). rewrite last_none in H.
        assert (class_at word_beyond space_beyond (last_opt pre') (k' ++ n' ++ r') = Some n'); [|congruence].
        apply class_at_iff. split; [apply word_starts_iff; exact Hs|]. exists k', r'. repeat split; try assumption; apply Nm'.
    - intros (pre & (k & r & E & Hs & Hk & Nm) & H). exists pre, (k ++ n ++ r). split; [exact E|]. split.
      + rewrite last_none. apply class_at_iff. split; [apply word_starts_iff; exact Hs|]. exists k, r. split; [reflexivity|split; assumption].
      + intros pre' post' E' Ln. rewrite last_none. destruct (class_at _ _ (last_opt pre') post') as [n'|] eqn:M; [|reflexivity]. exfalso.
        apply class_at_iff in M as (Hp & k' & r' & -> & Hk' & Nm'). assert (length pre <= length pre'); [|lia]. apply (H pre' n').
        exists k', r'. split; [exact E'|]. split; [apply word_starts_iff; exact Hp|split; assumption].
  Qed.
  Lemma class_search_none s : search (class_at word_beyond space_beyond) None s = None <-> forall pre n, ~ declares Wd Sp s pre n.
  Proof.
    rewrite search_none. split.
    - intros H pre n (k & r & E & Hs & Hk & Nm). specialize (H pre _ E). rewrite last_none in H.
      assert (class_at word_beyond space_beyond (last_opt pre) (k ++ n ++ r) = Some n); [|congruence].
      apply class_at_iff. split; [apply word_starts_iff; exact Hs|]. exists k, r. split; [reflexivity|split; assumption].
    - intros H pre post E. rewrite last_none. destruct (class_at _ _ (last_opt pre) post) as [n|] eqn:M; [|reflexivity]. exfalso.
      apply class_at_iff in M as (Hp & k & r & -> & Hk & Nm). apply (H pre n). exists k, r. split; [exact E|]. split; [apply word_starts_iff; exact Hp|split; assumption].
  Qed.

  (** packages *)
  Lemma cut_parts p parts : Forall (fun q => ~ In 46%N q) (p :: parts) -> cut (N.eqb 46) (p ++ concat (map (cons 46%N) parts)) = p :: parts.
  Proof.
    clear apart. revert p. induction parts as [|q parts IH]; intros p H.
    - cbn [map concat]. rewrite app_nil_r. inversion H as [|? ? H1 _]; subst. clear H. induction p as [|c p IHp]; [reflexivity|]. cbn [cut].
      destruct (46 =? c)%N eqn:E; [exfalso; apply H1; left; apply N.eqb_eq in E; symmetry; exact E|]. rewrite IHp; [reflexivity|]. intros I. apply H1. right. exact I.
    - inversion H as [|? ? H1 H2]; subst. cbn [map concat app]. induction p as [|c p IHp].
      + cbn [app cut]. change (46 =? 46)%N with true. cbn iota. rewrite (IH q H2). reflexivity.
      + cbn [app cut]. destruct (46 =? c)%N eqn:E; [exfalso; apply H1; left; apply N.eqb_eq in E; symmetry; exact E|].
        cbn [app] in IHp. rewrite IHp; [reflexivity| |]; [constructor; [|exact H2]|]; intros I; apply H1; right; exact I.
  Qed.
  Lemma cut_join s : forall p parts, cut (N.eqb 46) s = p :: parts -> s = p ++ concat (map (cons 46%N) parts) /\ Forall (fun q => ~ In 46%N q) (p :: parts).
  Proof.
    clear apart. induction s as [|c s IH]; intros p parts; cbn [cut].
    - intros [= <- <-]. split; [reflexivity|]. constructor; [intros []|constructor].
    - destruct (46 =? c)%N eqn:E.
      + apply N.eqb_eq in E as <-. intros [= <- <-]. destruct (cut (N.eqb 46) s) as [|q qs] eqn:Q; [destruct (cut_nonnil _ _ Q)|].
        destruct (IH q qs eq_refl) as [-> F]. split; [reflexivity|]. constructor; [intros []|exact F].
      + destruct (cut (N.eqb 46) s) as [|q qs] eqn:Q; [destruct (cut_nonnil _ _ Q)|]. intros [= <- <-].
        destruct (IH q qs eq_refl) as [-> F]. split; [reflexivity|]. inversion F; subst. constructor; [|assumption]. intros [Ec|I]; [rewrite Ec in E; discriminate|tauto].
  Qed.
  Definition package_text (s : text) : Prop := exists b p parts post,
    s = B "package" ++ b ++ p ++ concat (map (cons 46%N) parts) ++ 59%N :: post /\
    blank_run Sp b /\ Forall (fun q => q <> [] /\ ~ In 46%N q /\ ~ In 59%N q) (p :: parts).
  Lemma package_at_iff prev s : package_at word_beyond space_beyond prev s <> None <->
    match prev with Some p => jw p | None => false end = false /\ package_text s.
  Proof.
    clear apart. unfold package_at, package_text. split.
    - destruct (match prev with Some p => jw p | None => false end); [congruence|]. intros H. split; [reflexivity|].
      destruct (after (B "package") s) as [t|] eqn:A; [|congruence]. apply after_iff in A.
      pose proof (span_spec (fun c => negb (c =? 59)%N) t) as Sn. destruct (span _ t) as [u r]. destruct Sn as (E & F & L).
      destruct r as [|d r]; [congruence|]. apply negb_false_iff, N.eqb_eq in L. subst d.
      rewrite re_split_cut in H. destruct (cut (N.eqb 46) u) as [|p0 parts] eqn:C; [destruct (cut_nonnil _ _ C)|].
      destruct p0 as [|c [|x p]]; try congruence. destruct (js c) eqn:Sc; [|cbn in H; congruence]. destruct (forallb nonempty parts) eqn:Fb; [|cbn in H; congruence].
      apply cut_join in C as [Eu Fu].
      exists [c], (x :: p), parts, r. split; [rewrite A, E, Eu, <- !app_assoc; reflexivity|]. split; [split; [discriminate|constructor; [exact Sc|constructor]]|].
      assert (Nu : forall q, (forall y, In y q -> In y u) -> ~ In 59%N q).
      { intros q Hq I. rewrite Forall_forall in F. specialize (F _ (Hq _ I)). cbn in F. discriminate. }
      inversion Fu as [|? ? F1 F2]; subst. constructor.
      + split; [discriminate|]. split; [intros I; apply F1; right; exact I|]. apply Nu. intros y I. apply in_or_app. left. right. exact I.
      + apply Forall_forall. intros q I. rewrite forallb_forall in Fb. rewrite Forall_forall in F2. split; [specialize (Fb q I); destruct q; [discriminate|discriminate]|].
        split; [exact (F2 q I)|]. apply Nu. intros y Iy. apply in_or_app. right. apply in_concat. exists (46%N :: q). split; [apply in_map; exact I|right; exact Iy].
    - intros (Hp & b & p & parts & post & -> & [Hb Sb] & F). rewrite Hp, (proj2 (after_iff _ _ _) eq_refl).
      assert (Nb : forall c, In c b -> c <> 46%N /\ c <> 59%N) by (intros c I; rewrite Forall_forall in Sb; specialize (Sb c I); split; intros ->; discriminate).
      inversion F as [|? ? (P1 & P2 & P3) F']; subst.
      replace (b ++ p ++ concat (map (cons 46%N) parts) ++ 59%N :: post) with (((b ++ p) ++ concat (map (cons 46%N) parts)) ++ 59%N :: post) by (rewrite <- !app_assoc; reflexivity).
      rewrite span_app; [|apply Forall_forall|reflexivity].
      + rewrite re_split_cut, cut_parts.
        * destruct b as [|c b]; [congruence|]. destruct (b ++ p) as [|x q] eqn:Q; [apply app_eq_nil in Q as [_ Q]; congruence|]. cbn [app]. rewrite Q.
          inversion Sb; subst. match goal with H : js c = true |- _ => rewrite H end.
          replace (forallb nonempty parts) with true; [cbn [andb]; destruct (span js (x :: q)); discriminate|].
          symmetry. apply forallb_forall. intros y I. rewrite Forall_forall in F'. destruct (F' y I) as [Hy _]. destruct y; [congruence|reflexivity].
        * constructor; [intros I; apply in_app_or in I as [I|I]; [exact (proj1 (Nb _ I) eq_refl)|tauto]|]. eapply Forall_impl; [|exact F']. cbn. intros q Hq. tauto.
      + intros c I. apply negb_true_iff, N.eqb_neq. intros ->. apply in_app_or in I as [I|I]; [apply in_app_or in I as [I|I]; [exact (proj2 (Nb _ I) eq_refl)|tauto]|].
        apply in_concat in I as (q & Iq & I). apply in_map_iff in Iq as (q' & <- & Iq). destruct I as [I|I]; [discriminate|]. rewrite Forall_forall in F'. destruct (F' _ Iq) as (_ & _ & H). tauto.
  Qed.
  Lemma package_search s : search (package_at word_beyond space_beyond) None s <> None <-> has_package Wd Sp s.
  Proof.
    clear apart. unfold has_package. split.
    - intros H. destruct (search _ None s) as [g|] eqn:E; [|congruence]. apply search_some in E as (pre & post & E & M & _). rewrite last_none in M.
      assert (M' : package_at word_beyond space_beyond (last_opt pre) post <> None) by congruence. apply package_at_iff in M' as (Hp & b & p & parts & r & -> & Hb & F).
      exists pre, b, p, parts, r. split; [exact E|]. split; [apply word_starts_iff; exact Hp|split; assumption].
    - intros (pre & b & p & parts & r & E & Hs & Hb & F) S0. rewrite search_none in S0. specialize (S0 pre _ E). rewrite last_none in S0.
      revert S0. apply package_at_iff. split; [apply word_starts_iff; exact Hs|]. exists b, p, parts, r. split; [reflexivity|split; assumption].
  Qed.

  Lemma find_class_iff source n : find_class word_beyond space_beyond source = Class n <->
    first_class Wd Sp (java_code source) n /\ ~ has_package Wd Sp (java_code source).
  Proof.
    unfold find_class. cbn zeta. rewrite <- class_search, <- package_search.
    destruct (search (class_at word_beyond space_beyond) None (java_code source)) as [n'|]; [|split; [discriminate|intros [[=] _]]].
    destruct (search (package_at word_beyond space_beyond) None (java_code source)) as [g|].
    - split; [discriminate|]. intros [_ H]. exfalso. apply H. discriminate.
    - split; [intros [= ->]; split; [reflexivity|congruence]|intros [[= ->] _]; reflexivity].
  Qed.
  Lemma find_class_none source : find_class word_beyond space_beyond source = NoClass <-> forall pre n, ~ declares Wd Sp (java_code source) pre n.
  Proof.
    unfold find_class. cbn zeta. rewrite <- class_search_none.
    destruct (search (class_at word_beyond space_beyond) None (java_code source)) as [n'|]; [|split; reflexivity].
    split; [destruct (search (package_at word_beyond space_beyond) None (java_code source)); discriminate|discriminate].
  Qed.
  (** names are safe in every case *)
  Lemma class_name_safe source n : find_class word_beyond space_beyond source = Class n ->
    n <> [] /\ Forall (fun c => jw c = true \/ c = 36%N) n.
  Proof.
    clear apart. unfold find_class. cbn zeta. intros H.
    destruct (search (class_at word_beyond space_beyond) None (java_code source)) as [n'|] eqn:E; [|discriminate].
    destruct (search (package_at word_beyond space_beyond) None (java_code source)); [discriminate|]. injection H as ->.
    apply search_some in E as (pre & post & _ & M & _). unfold class_at in M.
    destruct (match _ with Some p => jw p | None => false end); [discriminate|]. destruct (after (B "public") post) as [t1|]; [|discriminate]. destruct (blanks space_beyond t1) as [t2|]; [|discriminate]. cbn zeta in M.
    destruct (after (B "class") _) as [t4|]; [|discriminate]. destruct (blanks space_beyond t4) as [t5|]; [|discriminate].
    apply class_name_some in M as (q & _ & Hn & [[F _]|[F _]]); (split; [exact Hn|]); (eapply Forall_impl; [|exact F]); cbn; intros c Hc; [left; exact Hc|right; symmetry; exact Hc].
  Qed.
End Java.

Lemma characters : forall wb sb c,
  (jword wb c = true <-> letter c \/ digit c \/ c = 95%N \/ (128 <= c /\ wb c = true)%N)
  /\ (jspace sb c = true <-> In c [9; 10; 11; 12; 13; 28; 29; 30; 31; 32]%N \/ (128 <= c /\ sb c = true)%N).
Proof.
  intros wb sb c. split.
  - unfold jword, word, letter, digit, ascii_letter, ascii_digit. destruct (N.ltb_spec c 128) as [H|H].
    + rewrite !orb_true_iff, !andb_true_iff, !N.leb_le, N.eqb_eq. lia.
    + split; [right; right; right; auto|]. intros [X|[X|[X|[_ X]]]]; [lia..|exact X].
  - unfold jspace. destruct (N.ltb_spec c 128) as [H|H].
    + rewrite !orb_true_iff, !andb_true_iff, !N.leb_le. cbn [In]. lia.
    + split; [auto|]. cbn [In]. intros [X|[_ X]]; [lia|exact X].
Qed.
