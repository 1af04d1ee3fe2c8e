(** Sanity facts about the text specification. *)
From Coq Require Import ZifyBool ZifyNat ZifyN.
From Verif Require Import Model.Bytes Model.Checkers Spec.Text Proofs.BytesLemmas Proofs.Standard.

(** The layout of a rendered text is the text's structure. *)
Definition word_ok (w : bytes) : Prop := w <> [] /\ Forall (fun c => ~ whitespace c) w.
Definition line_ok (l : list bytes) : Prop := l <> [] /\ Forall word_ok l.
Fixpoint join (sep : N) (ws : list bytes) : bytes :=
  match ws with [] => [] | [w] => w | w :: r => w ++ sep :: join sep r end.
Definition render (ls : list (list bytes)) : bytes := join 10 (map (join 32) ls).

Lemma nonwhite_dec c : ~ whitespace c -> whitespace_dec c = false.
Proof. intros H. destruct (whitespace_dec c) eqn:E; [|reflexivity]. apply whitespace_dec_iff in E. contradiction. Qed.
Lemma nonwhite_nonline c : ~ whitespace c -> newline_dec c = false.
Proof. intros H. destruct (newline_dec c) eqn:E; [|reflexivity]. apply line_is_white, whitespace_dec_iff in E. contradiction. Qed.

Lemma cut_app_clean sep w s : Forall (fun c => sep c = false) w ->
  cut sep (w ++ s) = match cut sep s with x :: xs => (w ++ x) :: xs | [] => [w] end.
Proof.
  induction 1 as [|c w Hc Hw IH]; cbn.
  - destruct (cut sep s) eqn:E; [destruct (cut_nonnil sep s E)|reflexivity].
  - rewrite Hc, IH. destruct (cut sep s); reflexivity.
Qed.

Lemma words_join ws : Forall word_ok ws -> words (join 32 ws) = ws.
Proof.
  induction 1 as [|w ws [Hw1 Hw2] Hws IH]; [reflexivity|].
  assert (Forall (fun c => whitespace_dec c = false) w) as Hw.
  { eapply Forall_impl; [|exact Hw2]. apply nonwhite_dec. }
  unfold words in *. destruct ws as [|w' ws].
  - cbn [join]. rewrite <- (app_nil_r w) at 1. rewrite (cut_app_clean _ _ _ Hw). cbn. rewrite app_nil_r.
    destruct w; [congruence|reflexivity].
  - change (join 32 (w :: w' :: ws)) with (w ++ 32%N :: join 32 (w' :: ws)).
    rewrite (cut_app_clean _ _ _ Hw). cbn [cut]. change (whitespace_dec 32) with true. cbn iota.
    rewrite app_nil_r. cbn [filter]. rewrite IH. destruct w; [congruence|reflexivity].
Qed.

Lemma join_no_newline ws : Forall word_ok ws -> Forall (fun c => newline_dec c = false) (join 32 ws).
Proof.
  induction 1 as [|w ws [Hw1 Hw2] Hws IH]; [constructor|].
  assert (Forall (fun c => newline_dec c = false) w) as Hw.
  { eapply Forall_impl; [|exact Hw2]. apply nonwhite_nonline. }
  destruct ws as [|w' ws]; [exact Hw|].
  change (join 32 (w :: w' :: ws)) with (w ++ 32%N :: join 32 (w' :: ws)).
  apply Forall_app. split; [exact Hw|]. constructor; [reflexivity|exact IH].
Qed.

Lemma layout_render ls : Forall line_ok ls -> layout (render ls) = ls.
Proof.
  unfold render, layout, lines.
  induction 1 as [|l ls [Hl1 Hl2] Hls IH]; [reflexivity|].
  pose proof (join_no_newline l Hl2) as Hn.
  destruct ls as [|l' ls].
  - cbn [map join]. rewrite <- (app_nil_r (join 32 l)). rewrite (cut_app_clean _ _ _ Hn). cbn [cut map].
    rewrite app_nil_r, (words_join l Hl2). destruct l; [congruence|reflexivity].
  - change (join 10 (map (join 32) (l :: l' :: ls))) with (join 32 l ++ 10%N :: join 10 (map (join 32) (l' :: ls))).
    rewrite (cut_app_clean _ _ _ Hn). cbn [cut]. change (newline_dec 10) with true. cbn iota.
    rewrite app_nil_r. cbn [map]. rewrite (words_join l Hl2).
    destruct l; [congruence|]. cbn [filter nonnil]. f_equal. exact IH.
Qed.

(** Trailing whitespace and CRLF line ends do not change the layout. *)
Lemma ts_app_white s w : all_white w -> forall k, ts k (s ++ w) = ts k s.
Proof.
  intros Hw. assert (forall k, ts k w = []) as Hw0.
  { induction Hw as [|c w Hc Hw IH]; intros k; [reflexivity|].
    cbn [ts]. apply whitespace_dec_iff in Hc. rewrite Hc. apply IH. }
  induction s as [|c s IH]; intros k; cbn [app ts]; [apply Hw0|].
  rewrite !IH. reflexivity.
Qed.
Lemma layout_trailing s w : all_white w -> layout (s ++ w) = layout s.
Proof. intros H. apply layout_ts, ts_app_white, H. Qed.

Lemma layout_leading s w : all_white w -> layout (w ++ s) = layout s.
Proof.
  intros H. apply layout_ts. induction H as [|c w Hc Hw IH]; [reflexivity|].
  cbn [app ts]. apply whitespace_dec_iff in Hc. rewrite Hc. destruct (newline_dec c); exact IH.
Qed.

Definition to_crlf (s : bytes) : bytes := flat_map (fun c => if (c =? 10)%N then [13; 10]%N else [c]) s.
Lemma layout_crlf s : layout (to_crlf s) = layout s.
Proof.
  apply layout_ts. assert (forall k, ts k (to_crlf s) = ts k s) as H; [|apply H].
  induction s as [|c s IH]; intros k; [reflexivity|]. cbn [to_crlf flat_map].
  destruct (N.eqb_spec c 10) as [->|Hne]; cbn [app ts].
  - change (whitespace_dec 13) with true. change (whitespace_dec 10) with true.
    change (newline_dec 13) with true. change (newline_dec 10) with true. cbn iota. apply IH.
  - fold (to_crlf s). rewrite !IH. reflexivity.
Qed.
