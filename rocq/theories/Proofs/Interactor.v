From Coq Require Import String QArith ZifyN ZifyBool ZifyNat.
From Flocq Require Import IEEE754.BinarySingleNaN.
From Verif Require Import Model.Bytes Model.Utf8 Model.Floats Model.Grading Model.Interactor.
From Verif Require Import Spec.Text Spec.Interactor Spec.Floats Proofs.BytesLemmas Proofs.TextFacts.
Local Open Scope nat_scope.
Local Open Scope list_scope.

(** ** Words *)
Lemma words_white c s : whitespace_dec c = true -> words (c :: s) = words s.
Proof. intros H. unfold words. cbn [cut]. rewrite H. reflexivity. Qed.
Lemma words_all_white w s : all_white w -> words (w ++ s) = words s.
Proof.
  induction 1 as [|c w H _ IH]; [reflexivity|]. cbn [app]. rewrite words_white; [exact IH|].
  apply whitespace_dec_iff. exact H.
Qed.
Lemma words_word w s : w <> [] -> Forall (fun c => whitespace_dec c = false) w ->
  match s with [] => True | c :: _ => whitespace_dec c = true end -> words (w ++ s) = w :: words s.
Proof.
  intros N W H. unfold words. destruct s as [|c s].
  - rewrite app_nil_r. pose proof (cut_app_clean whitespace_dec w [] W) as C. rewrite app_nil_r in C. cbn in C.
    rewrite app_nil_r in C. rewrite C. cbn. destruct w; [congruence|reflexivity].
  - pose proof (cut_app_clean whitespace_dec w (c :: s) W) as C. cbn [cut] in C. rewrite H in C.
    rewrite app_nil_r in C. rewrite C. cbn [cut]. rewrite H. cbn [filter nonnil]. destruct w; [congruence|reflexivity].
Qed.

(** ** Strings without trailing white space *)
Definition stripped (t : bytes) : Prop := py_rstrip t = t.
Lemma rstrip_length s : length (py_rstrip s) <= length s.
Proof. destruct (rstrip_split s) as (w & E & _). rewrite E at 2. rewrite app_length. lia. Qed.
Lemma stripped_rstrip s : stripped (py_rstrip s).
Proof.
  unfold stripped. destruct (rstrip_split s) as (w & E & W).
  rewrite E at 2. rewrite rstrip_white by exact W. reflexivity.
Qed.
Lemma stripped_white a b : stripped (a ++ b) -> all_white b -> b = [].
Proof.
  intros H W. unfold stripped in H. rewrite rstrip_white in H by exact W.
  pose proof (rstrip_length a) as L. rewrite H, app_length in L. destruct b; [reflexivity|cbn in L; lia].
Qed.
Lemma stripped_suffix a b : stripped (a ++ b) -> stripped b.
Proof.
  intros H. destruct (rstrip_split b) as (w & E & W). rewrite E, app_assoc in H.
  pose proof (stripped_white _ _ H W) as ->. rewrite app_nil_r in E. symmetry. exact E.
Qed.

(** ** Splitting off a word *)
Lemma span_word_spec s : let (w, t) := span_word s in
  s = w ++ t /\ Forall (fun c => whitespace_dec c = false) w /\
  match t with [] => True | c :: _ => whitespace_dec c = true end.
Proof.
  induction s as [|c s IH]; cbn [span_word]; [repeat split; constructor|].
  destruct (py_isspace c) eqn:E.
  - repeat split; [constructor|]. rewrite <- py_isspace_spec. exact E.
  - destruct (span_word s) as [w t]. destruct IH as (-> & W & T). repeat split; [|exact T].
    constructor; [rewrite <- py_isspace_spec; exact E|exact W].
Qed.

Lemma split1_white_spec t : stripped t ->
  match split1_white t with
  | None => (t = [] /\ words t = []) \/ (exists b w, t = b ++ w /\ all_white b /\ words t = [w])
  | Some (w, rest) => words t = w :: words rest /\ stripped rest /\ (length rest < length t) /\
      exists c r, rest = c :: r /\ whitespace_dec c = false
  end.
Proof.
  intros St. unfold split1_white. destruct (lstrip_split t) as (b & Et & Wb).
  pose proof (span_word_spec (py_lstrip t)) as Sp. pose proof (lstrip_head t) as Lh.
  destruct (span_word (py_lstrip t)) as [w v]. destruct Sp as (Eu & Ww & Hv).
  assert (Hwords : words t = words (py_lstrip t)) by (rewrite Et at 1; apply words_all_white; exact Wb).
  destruct w as [|c0 w0].
  { assert (U : py_lstrip t = []).
    { cbn in Eu. subst v. destruct (py_lstrip t) as [|c u]; [reflexivity|].
      rewrite py_isspace_spec in Lh. congruence. }
    cbn in Eu. rewrite U in Eu. subst v. cbn. left. rewrite U in Et. rewrite app_nil_r in Et.
    rewrite Hwords, U. split; [|reflexivity]. rewrite Et. apply (stripped_white []); [rewrite <- Et; exact St|exact Wb]. }
  assert (Hw : words t = (c0 :: w0) :: words v).
  { rewrite Hwords, Eu. apply words_word; [discriminate|exact Ww|exact Hv]. }
  destruct (lstrip_split v) as (b' & Ev & Wb').
  assert (Swv : words v = words (py_lstrip v)) by (rewrite Ev at 1; apply words_all_white; exact Wb').
  destruct (py_lstrip v) as [|c r] eqn:Lv.
  - right. rewrite app_nil_r in Ev.
    assert (Vn : v = []).
    { rewrite Ev. apply (stripped_white (b ++ c0 :: w0)); [|exact Wb'].
      rewrite <- Ev, <- app_assoc, <- Eu, <- Et. exact St. }
    clear Ev. subst v. rewrite app_nil_r in Eu. exists b, (c0 :: w0).
    split; [rewrite <- Eu; exact Et|]. split; [exact Wb|]. rewrite Hw. reflexivity.
  - split; [rewrite Hw, Swv; reflexivity|]. split.
    + apply (stripped_suffix (b ++ (c0 :: w0) ++ b')).
      rewrite <- !app_assoc, <- Ev, <- Eu, <- Et. exact St.
    + split.
      * rewrite Et, Eu, Ev. rewrite !app_length. cbn. lia.
      * exists c, r. split; [reflexivity|]. pose proof (lstrip_head v) as Lh'. rewrite Lv in Lh'.
        rewrite <- py_isspace_spec. exact Lh'.
Qed.

(** ** Sequences of reads *)
Inductive reads : state -> list bytes -> state -> Prop :=
| reads_nil st : reads st [] st
| reads_cons st t st1 ts st2 : readtoken None st = (Got t, st1) -> reads st1 ts st2 -> reads st (t :: ts) st2.

Lemma reads_app st ts st1 us st2 : reads st ts st1 -> reads st1 us st2 -> reads st (ts ++ us) st2.
Proof. induction 1; intros R; [exact R|]. cbn. econstructor; eauto. Qed.

Lemma readtoken_pending s t x c r : t = c :: r ->
  readtoken None (State s (Some t) x) =
    match split1_white t with
    | Some (ret, rest) => (Got ret, State s (Some rest) x)
    | None => (Got t, State s None x)
    end.
Proof. intros ->. cbn -[split1_white]. reflexivity. Qed.

(** A pending text that begins with a word gives its words. *)
Lemma pending_words n : forall s t x c r, length t <= n -> stripped t -> t = c :: r -> whitespace_dec c = false ->
  reads (State s (Some t) x) (words t) (State s None x).
Proof.
  induction n as [|n IH]; intros s t x c r L St Et Hc; [subst t; cbn in L; lia|].
  pose proof (split1_white_spec t St) as Sp. pose proof (readtoken_pending s t x c r Et) as Rt.
  destruct (split1_white t) as [[w rest]|].
  - destruct Sp as (Hw & Sr & Lr & c' & r' & Er & Hc'). rewrite Hw.
    econstructor; [exact Rt|]. apply (IH s rest x c' r'); try assumption. lia.
  - destruct Sp as [[E _]|(b & w & E & Wb & Hw)]; [congruence|]. rewrite Hw.
    assert (b = []).
    { destruct b as [|c1 b]; [reflexivity|]. rewrite Et in E. injection E as E1 _. subst c1.
      inversion Wb as [|? ? A]; subst. apply whitespace_dec_iff in A. congruence. }
    subst b. cbn in E. subst w. econstructor; [exact Rt|]. constructor.
Qed.

Lemma readline_spec s : s <> [] -> exists l rest raw,
  readline s = (raw, rest) /\ raw <> [] /\ file_lines s = l :: file_lines rest /\
  (raw = l ++ [LF] \/ (raw = l /\ rest = [])) /\ (length rest < length s) /\ raw ++ rest = s.
Proof.
  unfold file_lines. induction s as [|c r IH]; intros N; [congruence|]. cbn [readline cut].
  change (is_lf c) with (c =? LF)%N. destruct (c =? LF)%N eqn:E.
  - apply N.eqb_eq in E. subst c. exists [], r, [LF]. split; [reflexivity|]. split; [discriminate|].
    split; [destruct (cut is_lf r) eqn:C; [destruct (cut_nonnil _ _ C)|reflexivity]|].
    split; [left; reflexivity|]. split; [cbn; lia|]. reflexivity.
  - destruct r as [|c2 r2].
    + cbn. exists [c], [], [c]. repeat split; try discriminate; try (right; split; reflexivity); try (cbn; lia).
    + destruct (IH ltac:(discriminate)) as (l & rest & raw & E1 & E2 & E3 & E4 & E5 & E6).
      rewrite E1. exists (c :: l), rest, (c :: raw). split; [reflexivity|]. split; [discriminate|].
      split.
      * destruct (cut is_lf (c2 :: r2)) as [|w ws] eqn:C; [destruct (cut_nonnil _ _ C)|].
        assert (D : drop_last_empty (w :: ws) = w :: drop_last_empty ws).
        { destruct w as [|? ?]; [|reflexivity]. destruct ws; [|reflexivity].
          exfalso. clear -C. cbn [cut] in C. destruct (is_lf c2).
          - injection C as C. exact (cut_nonnil _ _ C).
          - destruct (cut is_lf r2); discriminate. }
        rewrite D in E3. injection E3 as <- E3. cbn [drop_last_empty]. rewrite <- E3. reflexivity.
      * split; [destruct E4 as [-> | [-> ->]]; [left; reflexivity|right; split; reflexivity]|].
        split; [cbn in *; lia|]. cbn. rewrite E6. reflexivity.
Qed.

Lemma lf_white : all_white [LF].
Proof. constructor; [|constructor]. unfold whitespace, LF. lia. Qed.

Lemma rstrip_raw l raw (rest : bytes) : raw = l ++ [LF] \/ (raw = l /\ rest = []) -> py_rstrip raw = py_rstrip l.
Proof. intros [-> | [-> _]]; [apply rstrip_white, lf_white|reflexivity]. Qed.

Lemma words_trailing s w : all_white w -> words (s ++ w) = words s.
Proof.
  intros W. remember (length s) as n eqn:En. assert (L : length s <= n) by lia. clear En.
  revert s L; induction n as [|n IH]; intros s L.
  - destruct s; [|cbn in L; lia]. cbn. rewrite <- (app_nil_r w). apply words_all_white. exact W.
  - destruct s as [|c s]; [cbn; rewrite <- (app_nil_r w); apply words_all_white, W|].
    cbn [app]. destruct (whitespace_dec c) eqn:E.
    + rewrite !words_white by exact E. apply IH. cbn in L; lia.
    + pose proof (span_word_spec (c :: s)) as Sp. destruct (span_word (c :: s)) as [u v] eqn:Eu.
      destruct Sp as (Es & Wu & Hv).
      assert (Nu : u <> []). { intros ->. cbn in Es. subst v. cbn in Hv. congruence. }
      change (c :: s ++ w) with ((c :: s) ++ w). rewrite Es, <- app_assoc.
      rewrite (words_word u v Nu Wu Hv). rewrite (words_word u (v ++ w) Nu Wu).
      * f_equal. apply IH. assert (length (c :: s) = length u + length v) by (rewrite Es, app_length; reflexivity).
        destruct u; [congruence|]. cbn in *. lia.
      * destruct v as [|c1 v1]; [|exact Hv]. cbn. destruct w as [|c1 w1]; [exact I|].
        inversion W; subst. apply whitespace_dec_iff. assumption.
Qed.

Lemma words_rstrip l : words (py_rstrip l) = words l.
Proof.
  destruct (rstrip_split l) as (w & E & W). rewrite E at 2. rewrite words_trailing by exact W. reflexivity.
Qed.

Definition idle (st : state) : Prop := tokens st = None \/ tokens st = Some [].

Lemma readtoken_idle s tok x : idle (State s tok x) -> forall d,
  readtoken d (State s tok x) =
    let (raw, rest) := readline s in
    match raw with
    | [] => (IOErr, State rest tok x)
    | _ => match (match d with None => split1_white (py_rstrip raw) | Some d => split1_on d (py_rstrip raw) end) with
           | Some (ret, more) => (Got ret, State rest (Some more) x)
           | None => (Got (py_rstrip raw), State rest None x)
           end
    end.
Proof.
  intros [H|H] d; cbn in H; subst tok; unfold readtoken; cbn -[split1_white split1_on readline];
    unfold readln; cbn -[split1_white split1_on readline];
    destruct (readline s) as [raw rest]; destruct raw; try reflexivity; cbn -[split1_white split1_on py_rstrip];
    destruct d; cbn -[split1_white split1_on py_rstrip];
    match goal with |- context [match ?z with Some _ => _ | None => _ end] => destruct z as [[? ?]|] end; reflexivity.
Qed.

(** One line. *)
Lemma line_reads s tok x : idle (State s tok x) -> s <> [] -> exists l rest ts,
  file_lines s = l :: file_lines rest /\ line_tokens l ts /\ length rest < length s /\
  reads (State s tok x) ts (State rest None x).
Proof.
  intros I N. destruct (readline_spec s N) as (l & rest & raw & E1 & E2 & E3 & E4 & E5 & _).
  exists l, rest. pose proof (readtoken_idle s tok x I None) as Rt. rewrite E1 in Rt.
  pose proof (rstrip_raw l raw rest E4) as Er. rewrite Er in Rt. destruct raw as [|c0 raw]; [congruence|].
  pose proof (split1_white_spec (py_rstrip l) (stripped_rstrip l)) as Sp. rewrite words_rstrip in Sp.
  unfold line_tokens.
  destruct (split1_white (py_rstrip l)) as [[w more]|].
  - destruct Sp as (Hw & Sm & _ & c & r & Em & Hc).
    assert (Nm : exists v vs, words more = v :: vs).
    { rewrite Em. pose proof (span_word_spec (c :: r)) as Sp. destruct (span_word (c :: r)) as [u v].
      destruct Sp as (Es & Wu & Hv). assert (Nu : u <> []) by (intros ->; cbn in Es; subst v; congruence).
      rewrite Es, (words_word u v Nu Wu Hv). eauto. }
    destruct Nm as (v & vs & Hm). rewrite Hm in Hw. rewrite Hw.
    exists (w :: v :: vs). repeat split; try assumption. econstructor; [exact Rt|]. rewrite <- Hm.
    apply (pending_words (length more) _ _ _ c r); try assumption. lia.
  - destruct Sp as [[E Hw]|(b & w & E & Wb & Hw)]; rewrite Hw.
    + exists [[]]. repeat split; try assumption. econstructor; [rewrite Rt, E; reflexivity|constructor].
    + exists [b ++ w]. split; [exact E3|]. split.
      * exists b. split; [exact Wb|]. split; [reflexivity|]. destruct (rstrip_split l) as (w' & El & Ww').
        exists w'. split; [exact Ww'|]. rewrite app_assoc, <- E. exact El.
      * split; [exact E5|]. econstructor; [rewrite Rt, E; reflexivity|constructor].
Qed.

Lemma all_reads n : forall s tok x, length s <= n -> idle (State s tok x) -> exists ts tok',
  Forall2 line_tokens (file_lines s) ts /\ reads (State s tok x) (concat ts) (State [] tok' x) /\ idle (State [] tok' x).
Proof.
  induction n as [|n IH]; intros s tok x L I.
  - destruct s; [|cbn in L; lia]. exists [], tok. split; [constructor|]. split; [constructor|exact I].
  - destruct s as [|c s]; [exists [], tok; split; [constructor|]; split; [constructor|exact I]|].
    destruct (line_reads (c :: s) tok x I ltac:(discriminate)) as (l & rest & ts & E & Lt & Ll & R).
    destruct (IH rest None x ltac:(lia) (or_introl eq_refl)) as (tss & tok' & F & R' & I').
    exists (ts :: tss), tok'. rewrite E. split; [constructor; assumption|]. split; [|exact I'].
    cbn. eapply reads_app; eassumption.
Qed.

Lemma calls_done st : stream st = [] -> idle st -> forall k,
  calls (readtoken None) k st = repeat IOErr k.
Proof.
  intros Hs I k; induction k as [|k IH]; [reflexivity|]. cbn [calls repeat].
  destruct st as [s tok x]. cbn in Hs. subst s. rewrite (readtoken_idle [] tok x I None). cbn. f_equal. exact IH.
Qed.
Lemma calls_reads st ts st' : reads st ts st' -> forall k,
  calls (readtoken None) k st =
    map Got (firstn k ts) ++ calls (readtoken None) (k - length ts) st'.
Proof.
  induction 1 as [st|st t st1 ts st2 E R IH]; intros k.
  - rewrite firstn_nil. cbn. rewrite Nat.sub_0_r. reflexivity.
  - destruct k as [|k]; [reflexivity|]. cbn [calls firstn map app length Nat.sub]. rewrite E, IH. reflexivity.
Qed.

Lemma token_stream out : exists ts, Forall2 line_tokens (file_lines out) ts /\
  forall k, calls (readtoken None) k (start out) =
    map Got (firstn k (concat ts)) ++ repeat IOErr (k - length (concat ts)).
Proof.
  destruct (all_reads (length out) out None [] (le_n _) (or_introl eq_refl)) as (ts & tok & F & R & I).
  exists ts. split; [exact F|]. intros k. change (start out) with (State out None []).
  rewrite (calls_reads _ _ _ R), (calls_done (State [] tok []) eq_refl I). reflexivity.
Qed.

(** ** Tokens and words *)
Lemma words_app_white a c b : whitespace_dec c = true -> words (a ++ c :: b) = words a ++ words b.
Proof.
  intros Hc. remember (length a) as n eqn:En. assert (L : length a <= n) by lia. clear En.
  revert a L; induction n as [|n IH]; intros a L.
  - destruct a; [|cbn in L; lia]. cbn [app]. rewrite words_white by exact Hc. reflexivity.
  - destruct a as [|x a]; [cbn [app]; rewrite words_white by exact Hc; reflexivity|].
    destruct (whitespace_dec x) eqn:E.
    + cbn [app]. rewrite !words_white by exact E. apply IH. cbn in L; lia.
    + pose proof (span_word_spec (x :: a)) as Sp. destruct (span_word (x :: a)) as [u v].
      destruct Sp as (Es & Wu & Hv). assert (Nu : u <> []) by (intros ->; cbn in Es; subst v; congruence).
      rewrite Es, <- app_assoc. rewrite (words_word u v Nu Wu Hv). rewrite (words_word u _ Nu Wu).
      * cbn [app]. f_equal. apply IH. assert (length (x :: a) = length u + length v) by (rewrite Es, app_length; reflexivity).
        destruct u; [congruence|]. cbn in *. lia.
      * destruct v as [|c1 v1]; [exact Hc|exact Hv].
Qed.

Lemma words_file_lines n : forall s, length s <= n -> words s = concat (map words (file_lines s)).
Proof.
  induction n as [|n IH]; intros s L; [destruct s; [reflexivity|cbn in L; lia]|].
  destruct s as [|c s]; [reflexivity|].
  destruct (readline_spec (c :: s) ltac:(discriminate)) as (l & rest & raw & _ & _ & E3 & E4 & E5 & E6).
  rewrite E3. cbn [map concat]. rewrite <- IH by lia. rewrite <- E6. destruct E4 as [-> | [-> ->]].
  - rewrite <- app_assoc. cbn [app]. apply words_app_white. reflexivity.
  - rewrite !app_nil_r. reflexivity.
Qed.

Lemma concat_words_tokens ls ts : Forall2 line_tokens ls ts -> Forall tidy ls -> concat ts = concat (map words ls).
Proof.
  induction 1 as [|l t ls ts H _ IH]; intros T; [reflexivity|]. inversion T as [|? ? Tl Tls]; subst.
  cbn [concat map]. rewrite IH by exact Tls. f_equal. clear IH Tls T.
  destruct Tl as (c & r & -> & Hc). unfold line_tokens in H.
  destruct (words (c :: r)) as [|w ws] eqn:W.
  - pose proof (span_word_spec (c :: r)) as Sp. destruct (span_word (c :: r)) as [u v].
    destruct Sp as (Es & Wu & Hv).
    assert (Nu : u <> []). { intros ->. cbn in Es. subst v. apply whitespace_dec_iff in Hv. contradiction. }
    rewrite Es, (words_word u v Nu Wu Hv) in W. discriminate.
  - destruct ws as [|w2 ws]; [|exact H]. destruct H as (b & Wb & -> & a & Wa & E).
    destruct b as [|b0 b]; [reflexivity|]. injection E as -> _. inversion Wb; subst. contradiction.
Qed.

Lemma tokens_tidy out : Forall tidy (file_lines out) -> forall k,
  calls (readtoken None) k (start out) = map Got (firstn k (words out)) ++ repeat IOErr (k - length (words out)).
Proof.
  intros T k. destruct (token_stream out) as (ts & F & C). rewrite C.
  rewrite (concat_words_tokens _ _ F T), <- (words_file_lines (length out)) by lia. reflexivity.
Qed.

(** ** Integers *)
Lemma digit_dec c : is_digit c = true <-> digit c.
Proof. unfold is_digit, digit. lia. Qed.

Definition stops (r : bytes) : Prop :=
  match r with [] => True | c :: _ => is_digit c = false /\ c <> 95%N end.

Lemma scan_sound s : forall acc n us v m r p, scan_digits acc n us s = Some (v, m, r) -> digits p acc n ->
  exists d, s = d ++ r /\ digits (p ++ (if us then [95%N] else []) ++ d) v m /\ stops r.
Proof.
  induction s as [|c s IH]; intros acc n us v m r p E D; cbn [scan_digits] in E.
  - destruct us; [discriminate|]. injection E as <- <- <-. exists []. rewrite app_nil_r. cbn.
    repeat split; [rewrite app_nil_r; exact D].
  - destruct (c =? 95)%N eqn:C.
    + destruct us; [discriminate|]. apply N.eqb_eq in C. subst c.
      destruct (IH _ _ _ _ _ _ p E D) as (d & -> & Dd & St). exists (95%N :: d). repeat split; [exact Dd|exact St].
    + destruct (is_digit c) eqn:Dc.
      * apply digit_dec in Dc. destruct us.
        -- destruct (IH _ _ _ _ _ _ (p ++ [95%N; c]) E (digits_grouped _ _ _ _ D Dc)) as (d & -> & Dd & St).
           exists (c :: d). repeat split; [|exact St]. rewrite <- app_assoc in Dd. exact Dd.
        -- destruct (IH _ _ _ _ _ _ (p ++ [c]) E (digits_more _ _ _ _ D Dc)) as (d & -> & Dd & St).
           exists (c :: d). repeat split; [|exact St]. rewrite <- app_assoc in Dd. exact Dd.
      * destruct us; [discriminate|]. injection E as <- <- <-. exists []. cbn. rewrite app_nil_r.
        repeat split; [exact D|exact Dc|]. apply N.eqb_neq in C. exact C.
Qed.

Lemma digits_head d v n : digits d v n -> exists c r, d = c :: r /\ digit c.
Proof.
  induction 1 as [c H|s v n c D (c0 & r & -> & H0) Hc|s v n c D (c0 & r & -> & H0) Hc]; cbn; eauto.
Qed.

Lemma scan_complete d v n : digits d v n -> forall r, scan_digits 0 0 false (d ++ r) = scan_digits v n false r.
Proof.
  induction 1 as [c H|s v n c D IH Hc|s v n c D IH Hc]; intros r.
  - cbn [app scan_digits]. apply digit_dec in H. rewrite H. 
    replace (c =? 95)%N with false by (unfold is_digit in H; lia). f_equal.
  - rewrite <- app_assoc, IH. cbn [app scan_digits]. apply digit_dec in Hc. rewrite Hc.
    replace (c =? 95)%N with false by (unfold is_digit in Hc; lia). reflexivity.
  - rewrite <- app_assoc, IH. cbn [app scan_digits]. change (95 =? 95)%N with true. cbv iota.
    apply digit_dec in Hc. rewrite Hc.
    replace (c =? 95)%N with false by (unfold is_digit in Hc; lia). reflexivity.
Qed.

Lemma scan_stop v n r : stops r -> scan_digits v n false r = Some (v, n, r).
Proof.
  destruct r as [|c r]; intros H; [reflexivity|]. destruct H as [H1 H2]. cbn [scan_digits]. rewrite H1.
  apply N.eqb_neq in H2. rewrite H2. reflexivity.
Qed.

Lemma white_stops r : all_white r -> stops r.
Proof.
  destruct 1 as [|c r H _]; cbn; [exact I|]. unfold whitespace, is_digit in *. lia.
Qed.
Lemma lstrip_all_white r : py_lstrip r = [] <-> all_white r.
Proof.
  split.
  - intros H. destruct (lstrip_split r) as (w & E & W). rewrite H, app_nil_r in E. rewrite E. exact W.
  - intros W. rewrite <- (app_nil_r r). rewrite lstrip_white by exact W. reflexivity.
Qed.

Lemma scan_int_iff lim s v : scan_int lim s = Some v <->
  exists d r n, s = d ++ r /\ digits d v n /\ all_white r /\ (lim = 0 \/ n <= lim).
Proof.
  split.
  - destruct s as [|c s]; [discriminate|]. cbn [scan_int]. destruct (is_digit c) eqn:Dc; [|discriminate].
    destruct (scan_digits 0 0 false (c :: s)) as [[[v' n] r]|] eqn:E; [|discriminate].
    destruct (_ && _) eqn:G; [|discriminate]. intros [= ->]. apply andb_prop in G as [G1 G2].
    cbn [scan_digits] in E. rewrite Dc in E.
    replace (c =? 95)%N with false in E by (unfold is_digit in Dc; lia).
    apply digit_dec in Dc.
    destruct (scan_sound _ _ _ _ _ _ _ [c] E (digits_one c Dc)) as (d & -> & Dd & _).
    exists (c :: d), r, n. repeat split; [exact Dd| |lia].
    apply lstrip_all_white. destruct (py_lstrip r); [reflexivity|discriminate].
  - intros (d & r & n & -> & D & W & Lim). destruct (digits_head _ _ _ D) as (c & t & Ed & Hc).
    assert (Q : scan_digits 0 0 false (d ++ r) = Some (v, n, r)).
    { rewrite (scan_complete _ _ _ D). apply scan_stop, white_stops, W. }
    unfold scan_int. rewrite Q. subst d. cbn [app]. apply digit_dec in Hc. rewrite Hc.
    apply lstrip_all_white in W. rewrite W. cbn [andb].
    replace ((lim =? 0) || (n <=? lim)) with true by lia. reflexivity.
Qed.

Lemma py_int_iff lim s v : py_int lim s = Some v <-> integer lim s v.
Proof.
  unfold integer. split.
  - unfold py_int. destruct (lstrip_split s) as (b & E & Wb). destruct (py_lstrip s) as [|c r]; [discriminate|].
    destruct (c =? 45)%N eqn:C1.
    + apply N.eqb_eq in C1. subst c. destruct (scan_int lim r) as [u|] eqn:Sc; [|discriminate]. intros [= <-].
      apply scan_int_iff in Sc. destruct Sc as (d & a & n & -> & D & W & L).
      exists b, (45%N :: d), a, n. repeat split; try assumption. apply signed_minus. exact D.
    + destruct (c =? 43)%N eqn:C2.
      * apply N.eqb_eq in C2. subst c. intros Sc. apply scan_int_iff in Sc. destruct Sc as (d & a & n & -> & D & W & L).
        exists b, (43%N :: d), a, n. repeat split; try assumption. apply signed_plus. exact D.
      * intros Sc. apply scan_int_iff in Sc. destruct Sc as (d & a & n & Er & D & W & L).
        exists b, d, a, n. rewrite <- Er. repeat split; try assumption. apply signed_none. exact D.
  - intros (b & t & a & n & -> & Wb & Wa & Sg & L). unfold py_int. rewrite lstrip_white by exact Wb.
    assert (Hd : forall d v, digits d v n -> scan_int lim (d ++ a) = Some v).
    { intros d v' D. apply scan_int_iff. exists d, a, n. repeat split; assumption. }
    destruct Sg as [t v n D|t v n D|t v n D].
    + destruct (digits_head _ _ _ D) as (c & r & -> & Hc). cbn [app py_lstrip].
      replace (py_isspace c) with false by (unfold digit, py_isspace in *; lia).
      replace (c =? 45)%N with false by (unfold digit in *; lia).
      replace (c =? 43)%N with false by (unfold digit in *; lia).
      exact (Hd (c :: r) v D).
    + cbn. exact (Hd t v D).
    + cbn. rewrite (Hd t v D). reflexivity.
Qed.

Lemma abbreviated t x : utf8text t = Some x -> exists a, abbreviate t = Some a /\ shortened x a.
Proof.
  intros U. unfold abbreviate. rewrite U. destruct (Nat.ltb_spec 5 (length x)) as [L|L]; eexists; (split; [reflexivity|]); [right|left; auto].
  exists (firstn 5 x), (skipn 5 x). rewrite firstn_skipn. split; [reflexivity|]. split; [apply firstn_length_le; lia|]. split; [|reflexivity].
  intros E. apply (f_equal (@length N)) in E. rewrite skipn_length in E. cbn in E. lia.
Qed.
Section Ints.
  Variable lim : nat.

  Lemma between_dec lo hi v : ge_lo lo v && le_hi hi v = true <-> between lo hi v.
  Proof.
    unfold between, ge_lo, le_hi. split.
    - intros H. apply andb_prop in H as [H1 H2]. split; intros ? ->; lia.
    - intros [H1 H2]. destruct lo as [l|], hi as [h|]; try (specialize (H1 _ eq_refl)); try (specialize (H2 _ eq_refl)); lia.
  Qed.

  Lemma readint_iff lo hi d st v st' :
    readint lim lo hi d st = (Got v, st') <->
    exists t, readtoken d st = (Got t, st') /\ (N.of_nat (length t) <= 10000)%N /\ integer lim t v /\ between lo hi v.
  Proof.
    unfold readint, too_long, MAX_NUMBER_DIGITS. destruct (readtoken d st) as [r st1] eqn:E. split.
    - destruct r as [t| | |]; try discriminate. destruct (_ <? _)%N eqn:L; [discriminate|].
      destruct (py_int lim t) as [u|] eqn:P; [|destruct (abbreviate t); discriminate].
      destruct (_ && _) eqn:B; [|discriminate]. intros [= -> ->]. exists t. repeat split; [lia|apply py_int_iff, P|apply between_dec in B; apply B..].
    - intros (t & [= -> ->] & L & Iv & Bv). replace (_ <? _)%N with false by lia.
      apply py_int_iff in Iv. rewrite Iv. apply between_dec in Bv. rewrite Bv. reflexivity.
  Qed.

  Lemma readint_otherwise lo hi d st t st' : readtoken d st = (Got t, st') ->
    ~ ((N.of_nat (length t) <= 10000)%N /\ exists v, integer lim t v /\ between lo hi v) ->
    (exists m, readint lim lo hi d st = (WrongAns m, st')) \/
    (readint lim lo hi d st = (Crash, st') /\ (N.of_nat (length t) <= 10000)%N /\ utf8text t = None).
  Proof.
    intros E N. unfold readint. rewrite E. unfold too_long, MAX_NUMBER_DIGITS.
    destruct (_ <? _)%N eqn:L; [left; eauto|].
    destruct (py_int lim t) as [u|] eqn:P.
    - destruct (_ && _) eqn:B; [|left; eauto]. exfalso. apply N. split; [lia|]. exists u.
      split; [apply py_int_iff, P|apply between_dec, B].
    - unfold abbreviate. destruct (utf8text t) as [x|] eqn:U; [left; eauto|]. right. repeat split; lia.
  Qed.

  Lemma readint_told lo hi d st t st' x : readtoken d st = (Got t, st') -> utf8text t = Some x ->
    ((10000 < N.of_nat (length t))%N -> readint lim lo hi d st = (WrongAns IntTooLong, st')) /\
    ((N.of_nat (length t) <= 10000)%N -> (forall v, ~ integer lim t v) -> exists a, shortened x a /\ readint lim lo hi d st = (WrongAns (ExpectedInt a), st')) /\
    (forall v, (N.of_nat (length t) <= 10000)%N -> integer lim t v -> ~ between lo hi v -> readint lim lo hi d st = (WrongAns (IntRange lo hi v), st')).
  Proof.
    intros E U. unfold readint. rewrite E. unfold too_long, MAX_NUMBER_DIGITS. split; [|split].
    - intros L. replace (_ <? _)%N with true by lia. reflexivity.
    - intros L H. replace (_ <? _)%N with false by lia. destruct (py_int lim t) as [v|] eqn:P; [apply py_int_iff in P; destruct (H v P)|].
      destruct (abbreviated t x U) as (a & -> & Sa). exists a. auto.
    - intros v L Iv Bv. replace (_ <? _)%N with false by lia. apply py_int_iff in Iv. rewrite Iv.
      destruct (ge_lo lo v && le_hi hi v) eqn:Bd; [apply between_dec in Bd; contradiction|reflexivity].
  Qed.

  Lemma readint_closed lo hi d st st' : readtoken d st = (IOErr, st') -> readint lim lo hi d st = (IOErr, st').
  Proof. intros E. unfold readint. rewrite E. reflexivity. Qed.

  (** Integers printed in any layout without blank lines are read back in order. *)
  Lemma integer_before w v b : integer lim w v -> all_white b -> integer lim (b ++ w) v.
  Proof.
    intros (x & t & a & n & -> & W1 & W2 & Sg & L) Wb. exists (b ++ x), t, a, n.
    rewrite <- app_assoc. repeat split; try assumption. apply Forall_app. split; assumption.
  Qed.

  Definition short (l : bytes) : Prop := (N.of_nat (length l) <= 10000)%N.

  Lemma word_length l w : In w (words l) -> length w <= length l.
  Proof.
    remember (length l) as n eqn:En. assert (L : length l <= n) by lia. clear En. revert l L.
    enough (X : forall m l, length l <= m -> In w (words l) -> length w <= length l).
    { intros l L H. specialize (X n l L H). lia. }
    induction m as [|m IH]; intros l L; [destruct l; [intros []|cbn in L; lia]|].
    destruct l as [|c l]; [intros []|]. destruct (whitespace_dec c) eqn:E.
    - rewrite words_white by exact E. intros H. specialize (IH l ltac:(cbn in L; lia) H). cbn. lia.
    - pose proof (span_word_spec (c :: l)) as Sp. destruct (span_word (c :: l)) as [u v].
      destruct Sp as (Es & Wu & Hv). assert (Nu : u <> []) by (intros ->; cbn in Es; subst v; congruence).
      rewrite Es, (words_word u v Nu Wu Hv). rewrite app_length. intros [<-|H]; [lia|].
      assert (length (c :: l) = length u + length v) by (rewrite Es, app_length; reflexivity).
      assert (length u <> 0) by (destruct u; [congruence|cbn; lia]).
      specialize (IH v ltac:(cbn in *; lia) H). lia.
  Qed.

  Lemma line_ints l ts ws : line_tokens l ts -> words l = ws -> ws <> [] -> short l -> forall vs,
    Forall2 (integer lim) ws vs -> Forall2 (fun t v => integer lim t v /\ (N.of_nat (length t) <= 10000)%N) ts vs.
  Proof.
    unfold line_tokens. intros H <- N Sh vs F. pose proof (word_length l) as Wl. unfold short in Sh.
    destruct (words l) as [|w ws]; [congruence|]. destruct ws as [|w2 ws].
    - destruct H as (b & Wb & -> & a & Wa & E). inversion F as [|? v ? vs' F1 F2]; subst. inversion F2; subst.
      constructor; [|constructor]. split; [apply integer_before; assumption|].
      rewrite !app_length in Sh. rewrite app_length. lia.
    - subst ts. clear N. assert (X : forall us us', (forall w, In w us -> length w <= length l) -> Forall2 (integer lim) us us' ->
        Forall2 (fun t v => integer lim t v /\ (N.of_nat (length t) <= 10000)%N) us us').
      { intros us us' Hl F'. induction F' as [|x y us us' Hxy _ IH]; constructor.
        - split; [exact Hxy|]. specialize (Hl x (or_introl eq_refl)). lia.
        - apply IH. intros z Hz. apply Hl. right. exact Hz. }
      apply X; assumption.
  Qed.

  Lemma file_ints ls ts : Forall2 line_tokens ls ts -> (forall l, In l ls -> words l <> []) -> (forall l, In l ls -> short l) ->
    forall vs, Forall2 (integer lim) (concat (map words ls)) vs ->
    Forall2 (fun t v => integer lim t v /\ (N.of_nat (length t) <= 10000)%N) (concat ts) vs.
  Proof.
    induction 1 as [|l t ls ts H _ IH]; intros N Sh vs F; cbn [concat map] in *; [inversion F; constructor|].
    apply Forall2_app_inv_l in F. destruct F as (v1 & v2 & F1 & F2 & ->). apply Forall2_app.
    - apply (line_ints l t (words l)); try assumption; [reflexivity|apply N; left; reflexivity|apply Sh; left; reflexivity].
    - apply IH; [intros x Hx; apply N; right; exact Hx|intros x Hx; apply Sh; right; exact Hx|exact F2].
  Qed.

  Lemma reads_ints lo hi st ts st' : reads st ts st' -> forall vs,
    Forall2 (fun t v => integer lim t v /\ (N.of_nat (length t) <= 10000)%N) ts vs -> Forall (between lo hi) vs ->
    calls (readint lim lo hi None) (length vs) st = map Got vs.
  Proof.
    induction 1 as [st|st t st1 ts st2 E R IH]; intros vs F Bt; inversion F as [|? v ? vs' [Iv Lv] F']; subst; [reflexivity|].
    inversion Bt as [|? ? B1 B2]; subst. cbn [length calls map].
    rewrite (proj2 (readint_iff lo hi None st v st1)); [|exists t; repeat split; try assumption; apply B1].
    f_equal. apply IH; assumption.
  Qed.

  Lemma ints_in_order lo hi out vs :
    (forall l, In l (file_lines out) -> words l <> [] /\ (N.of_nat (length l) <= 10000)%N) ->
    Forall2 (integer lim) (words out) vs -> Forall (between lo hi) vs ->
    calls (readint lim lo hi None) (length vs) (start out) = map Got vs.
  Proof.
    intros H F Bt. destruct (all_reads (length out) out None [] (le_n _) (or_introl eq_refl)) as (ts & tok & FL & R & _).
    rewrite (words_file_lines (length out)) in F by lia.
    apply (reads_ints lo hi _ (concat ts) _ R); [|exact Bt].
    apply (file_ints _ _ FL); [intros l Hl; apply (H l Hl)|intros l Hl; apply (H l Hl)|exact F].
  Qed.
End Ints.

(** ** Floats *)
Lemma readfloat_got parse lo hi d st v st' : readfloat parse lo hi d st = (Got v, st') ->
  exists t, readtoken d st = (Got t, st') /\ parse t = Some v /\ le64 lo v /\ le64 v hi /\ is_nan v = false.
Proof.
  unfold readfloat. destruct (readtoken d st) as [r st1] eqn:E.
  destruct r as [t| | |]; try discriminate. destruct (too_long t); [discriminate|].
  destruct (parse t) as [u|] eqn:P; [|destruct (abbreviate t); discriminate].
  destruct (_ && _) eqn:B; [|discriminate]. intros [= -> ->]. apply andb_prop in B as [B1 B2].
  exists t. repeat split; try assumption. unfold f_le in *. destruct v; try reflexivity. destruct hi; discriminate.
Qed.
Lemma readfloat_iff parse lo hi d st v st' : readfloat parse lo hi d st = (Got v, st') <->
  exists t, readtoken d st = (Got t, st') /\ (N.of_nat (length t) <= 10000)%N /\ parse t = Some v /\ le64 lo v /\ le64 v hi.
Proof.
  unfold readfloat, too_long, MAX_NUMBER_DIGITS. destruct (readtoken d st) as [r st1] eqn:E. split.
  - destruct r as [t| | |]; try discriminate. destruct (_ <? _)%N eqn:L; [discriminate|].
    destruct (parse t) as [u|] eqn:P; [|destruct (abbreviate t); discriminate].
    destruct (_ && _) eqn:B; [|discriminate]. intros [= -> ->]. apply andb_prop in B as [B1 B2].
    exists t. repeat split; try assumption. lia.
  - intros (t & [= -> ->] & L & -> & B1 & B2). replace (_ <? _)%N with false by lia.
    unfold f_le. rewrite B1, B2. reflexivity.
Qed.


(** ** Delimiters *)
Lemma starts_with_iff d s : starts_with d s = true <-> exists r, s = d ++ r.
Proof.
  revert s; induction d as [|x d IH]; intros s; cbn [starts_with].
  - split; [intros _; exists s; reflexivity|reflexivity].
  - destruct s as [|y s]; [split; [discriminate|intros [r E]; discriminate]|].
    rewrite andb_true_iff, N.eqb_eq, IH. split.
    + intros [-> [r ->]]. exists r. reflexivity.
    + intros [r E]. injection E as -> ->. split; [reflexivity|exists r; reflexivity].
Qed.

Lemma find_cut_spec d s : match find_cut d s with
  | Some (a, b) => first_cut d s a b
  | None => forall a b, s <> a ++ d ++ b
  end.
Proof.
  induction s as [|c s IH]; cbn [find_cut].
  - destruct (starts_with d []) eqn:E.
    + apply starts_with_iff in E. destruct E as [r E]. symmetry in E. apply app_eq_nil in E as [-> ->].
      split; [reflexivity|]. intros; cbn; lia.
    + intros a b H. symmetry in H. apply app_eq_nil in H as [-> H]. apply app_eq_nil in H as [-> ->]. discriminate.
  - destruct (starts_with d (c :: s)) eqn:E.
    + apply starts_with_iff in E. destruct E as [r E]. rewrite E. rewrite skipn_app, Nat.sub_diag, skipn_all2 by lia.
      cbn. split; [reflexivity|]. intros; cbn; lia.
    + assert (Hn : forall b, c :: s <> d ++ b).
      { intros b H. assert (starts_with d (c :: s) = true) by (apply starts_with_iff; exists b; exact H). congruence. }
      destruct (find_cut d s) as [[a b]|].
      * destruct IH as [-> M]. split; [reflexivity|]. intros a' b' H. destruct a' as [|x a']; [destruct (Hn b' H)|].
        injection H as <- H. specialize (M a' b' H). cbn. lia.
      * intros a b H. destruct a as [|x a]; [exact (Hn b H)|]. injection H as <- H. exact (IH a b H).
Qed.

Lemma next_readline s l rest : next_line s l rest -> exists raw, readline s = (raw, rest) /\ raw <> [] /\
  (raw = l ++ [LF] \/ (raw = l /\ rest = [])).
Proof.
  intros [Hl H].
  assert (A : forall l rest, ~ In LF l -> readline (l ++ LF :: rest) = (l ++ [LF], rest)).
  { clear. induction l as [|c l IH]; intros rest H; [reflexivity|]. cbn [app readline].
    replace (c =? LF)%N with false by (symmetry; apply N.eqb_neq; intros ->; apply H; left; reflexivity).
    rewrite IH; [reflexivity|]. intros K; apply H; right; exact K. }
  assert (A' : forall l, ~ In LF l -> readline l = (l, [])).
  { clear. induction l as [|c l IH]; intros H; [reflexivity|]. cbn [app readline].
    replace (c =? LF)%N with false by (symmetry; apply N.eqb_neq; intros ->; apply H; left; reflexivity).
    rewrite IH; [reflexivity|]. intros K; apply H; right; exact K. }
  destruct H as [-> | (-> & N & ->)].
  - exists (l ++ [LF]). split; [apply A, Hl|]. split; [destruct l; discriminate|left; reflexivity].
  - exists l. split; [apply A', Hl|]. split; [exact N|right; split; reflexivity].
Qed.

Lemma without_trailing_rstrip l t : without_trailing l t -> py_rstrip l = t.
Proof.
  intros [(w & -> & W) H]. rewrite rstrip_white by exact W.
  destruct (rstrip_split t) as (w' & E & W'). destruct w' as [|c w'].
  - rewrite app_nil_r in E. symmetry. exact E.
  - exfalso. assert (N : c :: w' <> []) by discriminate. destruct (exists_last N) as (u & x & Eu).
    rewrite Eu in E, W'. apply (H (py_rstrip t ++ u) x); [rewrite <- app_assoc; exact E|].
    apply Forall_app in W' as [_ W']. inversion W'; assumption.
Qed.

(** The text a call works on, and the state without it. *)
Definition current (st : state) (t : bytes) (st1 : state) : Prop :=
  (t <> [] /\ tokens st = Some t /\ st1 = State (stream st) None (sent st)) \/
  ((tokens st = None \/ tokens st = Some []) /\ exists l rest, next_line (stream st) l rest /\
     without_trailing l t /\ st1 = State rest None (sent st)).

Lemma token_delim st t st1 d : current st t st1 -> d <> [] ->
  (forall a b, first_cut d t a b -> readtoken (Some d) st = (Got a, State (stream st1) (Some b) (sent st1))) /\
  ((forall a b, t <> a ++ d ++ b) -> readtoken (Some d) st = (Got t, st1)).
Proof.
  intros C Nd.
  assert (E : readtoken (Some d) st = match find_cut d t with
    | Some (a, b) => (Got a, State (stream st1) (Some b) (sent st1)) | None => (Got t, st1) end).
  { destruct C as [(Nt & T & ->)|(Id & l & rest & NL & WT & ->)].
    - unfold readtoken. rewrite T. destruct t as [|c r]; [congruence|]. destruct d; [congruence|]. cbn [split1_on stream sent].
      destruct (find_cut _ _) as [[? ?]|]; reflexivity.
    - destruct st as [s tok x]. cbn [stream sent tokens] in *. rewrite (readtoken_idle s tok x Id (Some d)).
      destruct (next_readline _ _ _ NL) as (raw & -> & Nr & Er). rewrite (rstrip_raw l raw rest Er).
      rewrite (without_trailing_rstrip l t WT). destruct raw; [congruence|]. destruct d; [congruence|]. cbn [split1_on].
      destruct (find_cut _ _) as [[? ?]|]; reflexivity. }
  rewrite E. pose proof (find_cut_spec d t) as F. destruct (find_cut d t) as [[a' b']|].
  - split; [|intros H; destruct F as [F _]; destruct (H _ _ F)].
    intros a b [H1 H2]. destruct F as [F1 F2]. specialize (H2 _ _ F1). specialize (F2 _ _ H1).
    assert (Ll : length a = length a') by lia. rewrite H1 in F1. 
    assert (a = a' /\ d ++ b = d ++ b') as [-> Hb].
    { clear -F1 Ll. revert a' Ll F1; induction a as [|x a IH]; intros a' Ll F1; destruct a' as [|y a']; try discriminate; [split; [reflexivity|exact F1]|].
      cbn in F1. injection F1 as -> F1. destruct (IH a' ltac:(cbn in Ll; lia) F1) as [-> ?]. split; [reflexivity|assumption]. }
    apply app_inv_head in Hb. subst b'. reflexivity.
  - split; [intros a b [H _]; destruct (F _ _ H)|reflexivity].
Qed.

(** ** Plain reads and writes *)
  Lemma readline_app s : let (a, b) := readline s in s = a ++ b.
  Proof.
    induction s as [|x s IH]; cbn [readline]; [reflexivity|]. destruct (x =? LF)%N; [reflexivity|].
    destruct (readline s). cbn. f_equal. exact IH.
  Qed.
Lemma readln_line b st l rest : next_line (stream st) l rest -> exists t,
  readln b st = (Got t, State rest (tokens st) (sent st)) /\
  (b = true -> forall t', without_trailing l t' -> t = t') /\
  (b = false -> t ++ rest = stream st).
Proof.
  intros NL. destruct (next_readline _ _ _ NL) as (raw & E & Nr & Er). unfold readln. rewrite E.
  destruct raw as [|c raw]; [congruence|]. eexists. split; [reflexivity|]. split.
  - intros -> t' WT. rewrite (rstrip_raw l _ rest Er). apply without_trailing_rstrip, WT.
  - intros ->. pose proof (readline_app (stream st)) as A. rewrite E in A. symmetry. exact A.
Qed.
Lemma reads_closed st : stream st = [] ->
  read st = (IOErr, st) /\ (forall b, readln b st = (IOErr, st)) /\
  ((tokens st = None \/ tokens st = Some []) -> forall d, readtoken d st = (IOErr, st)).
Proof.
  destruct st as [s tok x]. cbn. intros ->. repeat split.
  intros H d. rewrite (readtoken_idle [] tok x H d). reflexivity.
Qed.
Lemma read_all st : stream st <> [] -> read st = (Got (stream st), State [] (tokens st) (sent st)).
Proof. unfold read. destruct (stream st); [congruence|reflexivity]. Qed.

Section Scripts.
  Variable lim : nat.
  Variable parse : bytes -> option f64.
  Variable accepts : bytes -> bool.
  Variable message_text : wa_message -> bytes.

  Lemma write_spec v st r st' : write accepts v st = (r, st') ->
    stream st' = stream st /\ tokens st' = tokens st /\
    ((r = Got tt /\ exists b, utf8bytes v = Some b /\ sent st' = sent st ++ b) \/
     (r <> Got tt /\ sent st' = sent st)).
  Proof.
    unfold write. destruct (utf8bytes v) as [b|]; [destruct (accepts (sent st))|]; intros [= <- <-]; cbn;
      repeat split; try (right; split; [discriminate|reflexivity]).
    left. split; [reflexivity|]. exists b. split; reflexivity.
  Qed.

  Lemma readln_suffix b st r st' : readln b st = (r, st') -> sent st' = sent st /\ exists a, stream st = a ++ stream st'.
  Proof.
    unfold readln. pose proof (readline_app (stream st)) as A. destruct (readline (stream st)) as [l rest].
    destruct l; intros [= _ <-]; cbn; split; try reflexivity; eexists; exact A.
  Qed.
  Lemma readtoken_suffix d st r st' : readtoken d st = (r, st') -> sent st' = sent st /\ exists a, stream st = a ++ stream st'.
  Proof.
    unfold readtoken.
    assert (X : forall r1 st1, (r1, st1) = (match tokens st with Some (c :: t) => (Got (c :: t), st) | _ => readln true st end) ->
      sent st1 = sent st /\ exists a, stream st = a ++ stream st1).
    { intros r1 st1 H. destruct (tokens st) as [[|c t]|];
        try (apply (readln_suffix true _ r1); symmetry; exact H).
      injection H as _ ->. split; [reflexivity|]. exists []. reflexivity. }
    destruct (match tokens st with Some (c :: t) => (Got (c :: t), st) | _ => readln true st end) as [r1 st1].
    specialize (X r1 st1 eq_refl). destruct r1 as [t| | |]; try (intros [= _ <-]; exact X).
    destruct (match d with None => split1_white t | Some d0 => split1_on d0 t end) as [[? ?]|]; intros [= _ <-]; exact X.
  Qed.

  (** A whole interaction takes the output from the front and only appends to the input. *)
  Lemma interact_monotone s : forall st, let st' := snd (interact lim parse accepts s st) in
    (exists a, stream st = a ++ stream st') /\ (exists b, sent st' = sent st ++ b).
  Proof.
    assert (T : forall st st1 st2 : state, sent st1 = sent st /\ (exists a, stream st = a ++ stream st1) ->
      (exists a, stream st1 = a ++ stream st2) /\ (exists b, sent st2 = sent st1 ++ b) ->
      (exists a, stream st = a ++ stream st2) /\ (exists b, sent st2 = sent st ++ b)).
    { intros st st1 st2 (E1 & a & E2) ((a' & E3) & b & E4). split.
      - exists (a ++ a'). rewrite <- app_assoc, <- E3. exact E2.
      - exists b. rewrite <- E1. exact E4. }
    assert (W : forall v st r st1 st2, write accepts v st = (r, st1) ->
      (exists a, stream st1 = a ++ stream st2) /\ (exists b, sent st2 = sent st1 ++ b) ->
      (exists a, stream st = a ++ stream st2) /\ (exists b, sent st2 = sent st ++ b)).
    { intros v st r st1 st2 E [[a Ha] [b Hb]]. destruct (write_spec v st r st1 E) as (E1 & _ & E2). split.
      - exists a. rewrite <- E1. exact Ha.
      - destruct E2 as [(_ & b' & _ & E2)|(_ & E2)].
        + exists (b' ++ b). rewrite app_assoc, <- E2. exact Hb.
        + exists b. rewrite <- E2. exact Hb. }
    induction s as [c|m| | |k IH|b k IH|d k IH|lo hi d k IH|lo hi d k IH|v k IH|v k IH]; intros st; cbn [interact];
      try (cbn; split; [exists []|exists []]; [reflexivity|rewrite app_nil_r; reflexivity]).
    - destruct (read st) as [r st1] eqn:E. refine (T _ st1 _ _ (IH r st1)).
      unfold read in E. destruct (stream st) as [|x y]; injection E as _ <-; cbn; split; try reflexivity.
      + exists []; reflexivity.
      + exists (x :: y). rewrite app_nil_r. reflexivity.
    - destruct (readln b st) as [r st1] eqn:E. exact (T _ st1 _ (readln_suffix b _ _ _ E) (IH r st1)).
    - destruct (readtoken d st) as [r st1] eqn:E. exact (T _ st1 _ (readtoken_suffix d _ _ _ E) (IH r st1)).
    - destruct (readint lim lo hi d st) as [r st1] eqn:E. refine (T _ st1 _ _ (IH r st1)).
      unfold readint in E. destruct (readtoken d st) as [q st2] eqn:Q.
      assert (st1 = st2) as -> by (destruct q; injection E as _ <-; reflexivity). exact (readtoken_suffix d _ _ _ Q).
    - destruct (readfloat parse lo hi d st) as [r st1] eqn:E. refine (T _ st1 _ _ (IH r st1)).
      unfold readfloat in E. destruct (readtoken d st) as [q st2] eqn:Q.
      assert (st1 = st2) as -> by (destruct q; injection E as _ <-; reflexivity). exact (readtoken_suffix d _ _ _ Q).
    - destruct (write accepts v st) as [r st1] eqn:E. exact (W v st r st1 _ E (IH r st1)).
    - destruct (writeln accepts v st) as [r st1] eqn:E. exact (W (v ++ [LF]) st r st1 _ E (IH r st1)).
  Qed.

  (** ** Verdicts *)
  Lemma verdict_table s out flag pts :
    match fst (interact lim parse accepts s (start out)) with
    | Other => verdict lim parse accepts message_text s out flag pts = None
    | Returned c =>
        verdict lim parse accepts message_text s out flag pts =
        Some (if (flag =? 0)%N then match c with CkBool b => CkResult b (if b then pts else 0)%Q None None | c => c end
              else CkBool false)
    | WA m => verdict lim parse accepts message_text s out flag pts =
        Some (if (flag =? 0)%N then CkResult false 0 (Some (message_text m)) None else CkBool false)
    | IO => verdict lim parse accepts message_text s out flag pts =
        Some (if (flag =? 0)%N then CkResult false 0 None None else CkBool false)
    end.
  Proof.
    unfold verdict. destruct (fst (interact lim parse accepts s (start out))); try reflexivity;
      unfold interactive_check_result, Result.truthy; destruct (flag =? 0)%N; reflexivity.
  Qed.

End Scripts.
