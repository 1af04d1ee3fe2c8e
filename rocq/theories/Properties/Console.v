(** C90: what is printed on the judge's console and reported as text, and that printing never keeps a
    result from the server. *)
From Coq Require Import String QArith.
From Verif Require Import Model.Bytes Model.Result Model.Console Spec.Text Spec.Access Spec.Console Proofs.Console.
Local Open Scope nat_scope.
Local Open Scope list_scope.

(** Marked text is painted, or left as it is when colours are off; the rest is unchanged. *)
Theorem C90_style : forall s, exists l, pieces s l /\ (forall l', pieces s l' -> l' = l) /\
  ansi_style true s = shown (fun t _ => Some t) l /\ ansi_style false s = shown format_inline l.
Proof.
  intros s. destruct (pieces_exist s) as (l & P). exists l. split; [exact P|]. split; [intros l' P'; exact (pieces_unique _ _ P' _ P)|].
  split; [exact (style_pieces true s l P)|exact (style_pieces false s l P)].
Qed.
(** Colours only add colours: taken away again they leave what is printed without. *)
Theorem C90_colours_only : forall s r, ~ In 27%N s -> ansi_style false s = Some r -> ansi_style true s = Some (strip_ansi r).
Proof. intros s r H. exact (strip_style s H r). Qed.
Theorem C90_unmarked : forall plain s, ~ found_in (B "#ansi[") s -> ansi_style plain s = Some s.
Proof. exact unmarked. Qed.
Theorem C90_plain_never_fails : forall s, exists r, ansi_style true s = Some r.
Proof. intros s. destruct (ansi_style true s) as [r|] eqn:E; [eauto|destruct (no_ansi_total s E)]. Qed.

(** The line of a case. *)
Theorem C90_case_line : forall plain batch k r, ~ In 10%N (feedback r) -> ~ found_in (B "](") (feedback r) ->
  exists main others, readable_codes (flag r) = main :: others /\
    handle plain (MResult batch k r) = ([Line (case_line plain batch k r main others); Sent (TestCase k r)], true).
Proof.
  intros plain batch k r H1 H2. destruct (codes_hd (flag r)) as (main & others & E). exists main, others. split; [exact E|].
  cbn [handle]. unfold say. rewrite (case_line_ok plain batch k r main others E H1 H2). reflexivity.
Qed.
(** Its numbers: the value, and for times the nearest thousandth. *)
Theorem C90_numbers : forall n q, numeral_value (decimal n) = n /\ Forall (fun c => 48 <= c <= 57)%N (decimal n) /\
  ((0 <= q)%Q -> exists whole part, fixed3 q = whole ++ B "." ++ part /\ List.length part = 3 /\
     let shown := inject_Z (Z.of_N (numeral_value whole * 1000 + numeral_value part)) in
     (shown - (1#2) <= q * 1000 <= shown + (1#2))%Q).
Proof.
  intros n q. split; [apply decimal_value|]. split; [apply decimal_range|]. intros H.
  destruct (fixed3_spec q) as (w & p & E & L & V). exists w, p. split; [exact E|]. split; [exact L|]. cbv zeta. rewrite V. apply thousandths_near, H.
Qed.
(** Every message of the worker is told to the server, once and in order, and nothing else is; with
    colours, as long as no feedback looks like the end of a markup. *)
Theorem C90_told : forall plain problem id trace l,
  (plain = true \/ (~ found_in (B "](") problem /\ ~ found_in (B "](") id /\ Forall harmless l)) ->
  sent (grading plain problem id trace l) = flat_map packets_of l /\
  exists lines done, grading plain problem id trace l = lines ++ [Line done].
Proof.
  intros plain problem id trace l H. destruct (grading_ok plain problem id trace l H) as (A & e & d & E & _). split; [exact A|]. eauto.
Qed.
(** What is shown of a failed compilation is what the server gets, without white space at the end. *)
Theorem C90_compile_error : forall plain log, handle plain (MCompileError log) =
  ([Line (ink plain [bold; B "31"] (B "Failed compiling submission!")); Line (py_rstrip log); Sent (CompileError log)], true).
Proof. intros plain log. cbn [handle]. unfold say. rewrite failed_style. reflexivity. Qed.
(** A submission can be started. *)
Theorem C90_started : forall plain problem id language,
  ~ found_in (B "](") problem -> ~ found_in (B "](") id -> ~ found_in (B "](") language ->
  begin_report plain problem id language <> None.
Proof. intros plain problem id language H1 H2 H3. apply safe_style, safe_start; assumption. Qed.

(** ** Internal errors *)
(** An internal error is sent once, with the sequences that set a terminal's rendition taken out; only an
    interrupt is passed on instead. *)
Theorem C90_internal_error : forall message trace interrupt,
  log_internal_error message trace interrupt =
  match message with
  | [] => if interrupt then None else Some (InternalError (strip_ansi trace))
  | _ => Some (InternalError (strip_ansi message))
  end.
Proof. reflexivity. Qed.
Theorem C90_strip : forall s,
  (~ In 27%N s -> strip_ansi s = s) /\ part_of (strip_ansi s) s /\
  (forall a d b, ~ In 27%N a -> rendition d -> strip_ansi (a ++ sgr d ++ b) = a ++ strip_ansi b) /\
  (forall a c b, ~ In 27%N a -> c <> 27%N -> (c < 48 \/ 57 < c < 65 \/ 90 < c)%N -> ~ In c (B ",;m|") ->
     strip_ansi (a ++ [27%N] ++ B "[K" ++ c :: b) = a ++ c :: strip_ansi b).
Proof.
  intros s. split; [intros H; rewrite <- (app_nil_r s) at 1; rewrite strip_plain by exact H; rewrite strip_nil, app_nil_r; reflexivity|].
  split; [apply strip_part|]. split.
  - intros a d b H R. rewrite strip_plain by exact H. f_equal. apply strip_sgr, R.
  - intros a c b H D R C. rewrite strip_plain by exact H. f_equal. cbn [app B]. 
    change (strip_ansi (ESC :: 91%N :: 75%N :: c :: b) = c :: strip_ansi b). rewrite strip_csi. rewrite <- strip_char by exact D. f_equal.
    assert (C1 : code_char c = false).
    { unfold code_char, digit. destruct (N.leb_spec 48 c), (N.leb_spec c 57), (N.eqb_spec c 44), (N.leb_spec 65 c), (N.leb_spec c 90); cbn; try reflexivity; exfalso; try lia;
        apply C; left; vm_compute; congruence. }
    assert (C2 : final c = false).
    { assert (F : forall x, final x = true -> x = 109%N \/ x = 124%N \/ x = 75%N).
      { intros x X. apply existsb_exists in X as (y & I & X). apply N.eqb_eq in X. rewrite X. vm_compute in I.
        destruct I as [<-|[<-|[<-|[]]]]; auto. }
      destruct (final c) eqn:X; [|reflexivity]. apply F in X as [X|[X|X]]; rewrite X in C, R; [destruct C; vm_compute; auto|destruct C; vm_compute; auto|lia]. }
    assert (C3 : c <> 59%N) by (intros ->; apply C; vm_compute; auto).
    unfold after_csi. change (code_char 75) with true. cbv iota.
    assert (X : drop_upto 2 code_char (75%N :: c :: b) = c :: b).
    { rewrite !drop_upto_S. change (code_char 75) with true. cbv iota. rewrite C1. reflexivity. }
    rewrite X.
    assert (Y : drop_two (c :: b) = c :: b) by (unfold drop_two; destruct b; [reflexivity|]; rewrite (proj2 (N.eqb_neq c 59)) by exact C3; reflexivity).
    rewrite Y. assert (Z : drop_three (c :: b) = c :: b).
    { unfold drop_three. destruct b as [|? [|? [|? ?]]]; try reflexivity. rewrite (proj2 (N.eqb_neq c 59)) by exact C3. reflexivity. }
    rewrite Z, drop_upto_S, C2. reflexivity.
Qed.

(** ** Findings *)
(** With colours, a checker's feedback with "](" in it, for instance a participant's output quoted in it, keeps
    the case from the server and ends the grading with an internal error. *)
Definition quoted : result := CaseResult 1 (1#10) (1#10) 1024 (B "expected 5, found ](x)").
Theorem C90_feedback_refuted : forall trace, ~ In 27%N trace ->
  grading false (B "aplusb") (B "7") trace [MResult None 1 quoted; MResult None 2 quoted] = [Sent (InternalError trace)].
Proof.
  intros trace H. assert (E : handle false (MResult None 1 quoted) = ([], false)) by (vm_compute; reflexivity).
  cbn [grading]. rewrite E. cbn [app log_internal_error]. rewrite (proj1 (C90_strip trace) H). reflexivity.
Qed.
(** ... while without colours it is told. *)
Example C90_feedback_plain : exists line, handle true (MResult None 1 quoted) = ([Line line; Sent (TestCase 1 quoted)], true).
Proof. eexists. vm_compute. reflexivity. Qed.
(** A problem with such a name cannot be started: the exception leaves the judge with its lock taken. *)
Theorem C90_start_refuted : begin_report false (B "a](b)") (B "7") (B "PY3") = None.
Proof. vm_compute. reflexivity. Qed.
(** Feedback of several lines is printed with its markup. *)
Theorem C90_lines_refuted : exists pre post, ansi_style true (result_markup None 1 (CaseResult 0 0 0 0 (B "a" ++ [10%N] ++ B "b"))) =
  Some (pre ++ B "(#ansi[a" ++ [10%N] ++ B "b](|underline)) " ++ post).
Proof. exists (B "Test case  1 AC [0.000s (0.000s) | 0kb] "), []. vm_compute. reflexivity. Qed.
(** The letter after gcc's "erase to the end of the line" is lost: main.cpp becomes ain.cpp, A.cpp becomes .cpp. *)
Theorem C90_letter_refuted :
  strip_ansi (sgr (B "01") ++ [27%N] ++ B "[Kmain.cpp:1:1:" ++ sgr [] ++ [27%N] ++ B "[K") = B "ain.cpp:1:1:" /\
  strip_ansi (sgr (B "01") ++ [27%N] ++ B "[KA.cpp:1:1:" ++ sgr [] ++ [27%N] ++ B "[K") = B ".cpp:1:1:".
Proof. split; vm_compute; reflexivity. Qed.
(** What is left can be a sequence again, and longer sequences are not taken out whole. *)
Theorem C90_left_refuted : strip_ansi ([27%N] ++ sgr [] ++ B "[m") = sgr [] /\ strip_ansi (sgr (B "1;31;40")) = B ";40m".
Proof. split; vm_compute; reflexivity. Qed.

(** ** Cases *)
Example C90_line : case_line true (Some 1%N) 3 (CaseResult 6 (1234567 # 1000000) (3 # 2) 2048 (B "segmentation fault")) TLE [RTE] =
  B "  Test case  3 TLE [1.235s (1.500s) | 2048kb] (segmentation fault) {RTE}".
Proof. vm_compute. reflexivity. Qed.
Example C90_line_codes : readable_codes 6 = [TLE; RTE]. Proof. reflexivity. Qed.
Example C90_line_coloured : case_line false None 12 (CaseResult 0 0 0 0 []) AC [] =
  B "Test case 12 " ++ [27%N] ++ B "[1m" ++ [27%N] ++ B "[32mAC" ++ [27%N] ++ B "[0m [0.000s (0.000s) | 0kb] ".
Proof. vm_compute. reflexivity. Qed.
Example C90_harmless : Forall harmless [MBatchBegin 1; MResult (Some 1%N) 1 (CaseResult 0 0 0 0 (B "well [done] (ok)")); MBatchEnd]
  /\ ~ In 10%N (B "well [done] (ok)").
Proof.
  split; [|intros X; vm_compute in X; repeat (destruct X as [X|X]; [discriminate|]); exact X].
  repeat constructor. cbn [harmless feedback]. destruct (found_dec (B "](") (B "well [done] (ok)")) as [F|F]; [|exact F].
  exfalso. destruct F as (a & b & E). assert (X : forall a : bytes, forall b, B "well [done] (ok)" = a ++ B "](" ++ b -> False).
  { clear. intros a b. vm_compute. do 16 (destruct a as [|? a]; [discriminate|intros X; injection X as _ X; revert X]). destruct a; discriminate. }
  exact (X a b E).
Qed.
Example C90_rendition : rendition (B "38;5;123") /\ rendition (B "01;31") /\ rendition [].
Proof.
  split; [|split; [|constructor]].
  - apply (rend_color (B "38") (B "5") (B "123")); (split; [vm_compute; auto|repeat constructor; vm_compute; discriminate]).
  - apply (rend_two (B "01") (B "31")); (split; [vm_compute; auto|repeat constructor; vm_compute; discriminate]).
Qed.

Print Assumptions C90_style.
Print Assumptions C90_colours_only.
Print Assumptions C90_unmarked.
Print Assumptions C90_plain_never_fails.
Print Assumptions C90_case_line.
Print Assumptions C90_numbers.
Print Assumptions C90_told.
Print Assumptions C90_compile_error.
Print Assumptions C90_started.
Print Assumptions C90_internal_error.
Print Assumptions C90_strip.
Print Assumptions C90_feedback_refuted.
Print Assumptions C90_start_refuted.
Print Assumptions C90_lines_refuted.
Print Assumptions C90_letter_refuted.
Print Assumptions C90_left_refuted.

(** Every colour, background and style can be asked for and is what is switched on. *)
Theorem C90_palette : forall text c c' b b' s s', In (c, c') colours -> In (b, b') backgrounds -> In (s, s') styles ->
  format_inline text (B c) = Some (ink false [B c'] text) /\
  format_inline text (B c ++ B "|" ++ B s) = Some (ink false [B s'; B c'] text) /\
  format_inline text (B c ++ B "," ++ B b ++ B "|" ++ B s) = Some (ink false [B s'; B b'; B c'] text) /\
  format_inline text (B "|" ++ B s) = Some (ink false [B s'] text).
Proof.
  intros text c c' b b' s s' Hc Hb Hs. cbv [In colours backgrounds styles] in Hc, Hb, Hs.
  repeat (destruct Hs as [[= <- <-]|Hs]); try destruct Hs; repeat (destruct Hc as [[= <- <-]|Hc]); try destruct Hc;
    (split; [reflexivity|]; split; [reflexivity|]; split; [|reflexivity]; repeat (destruct Hb as [[= <- <-]|Hb]); try destruct Hb; reflexivity).
Qed.
Print Assumptions C90_palette.
