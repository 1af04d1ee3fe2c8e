(** Proofs about helper programs. *)
From Coq Require Import String Lia QArith.
From Verif Require Import Model.Bytes Model.Child Model.Helpers Spec.Child Spec.Helpers Proofs.BytesLemmas.
From Verif Require Proofs.Child.
Local Open Scope list_scope.
Local Open Scope N_scope.

(** ** lexing *)
Lemma white_in c : white c = true <-> In c [32; 9; 13; 10].
Proof.
  unfold white. rewrite existsb_exists. split.
  - intros (x & I & E). apply N.eqb_eq in E. subst x. exact I.
  - intros I. exists c. split; [exact I|apply N.eqb_refl].
Qed.
Definition ordinary (c : N) : Prop := white c = false /\ is_quote c = false /\ (c =? 92) = false.
Lemma ordinary_plain c : plain c -> ordinary c.
Proof.
  intros P. unfold plain in P. cbn in P. split; [|split].
  - apply Bool.not_true_iff_false. rewrite white_in. cbn. tauto.
  - unfold is_quote. apply Bool.orb_false_iff. split; apply N.eqb_neq; intros ->; tauto.
  - apply N.eqb_neq. intros ->. tauto.
Qed.
Lemma ordinary_safe c : shell_safe c = true -> ordinary c.
Proof.
  intros P. destruct (white c || is_quote c || (c =? 92)) eqn:E.
  - exfalso. assert (c = 32 \/ c = 9 \/ c = 13 \/ c = 10 \/ c = 39 \/ c = 34 \/ c = 92) as D.
    { unfold white, is_quote in E. cbn [existsb] in E. rewrite !Bool.orb_true_iff in E. rewrite !N.eqb_eq in E. intuition congruence. }
    repeat (destruct D as [->|D]; [discriminate P|]). subst c. discriminate P.
  - apply Bool.orb_false_iff in E as [E C]. apply Bool.orb_false_iff in E as [A B0]. repeat split; assumption.
Qed.
Lemma lex_word s : forall tok q r, Forall ordinary s -> lex InWord tok q (s ++ r) = lex InWord (tok ++ s) q r.
Proof.
  induction s as [|c s IH]; intros tok q r F; [rewrite app_nil_r; reflexivity|]. inversion F as [|? ? (A & C & D) Fs]; subst.
  cbn [app lex]. rewrite A, C, D, IH by exact Fs. rewrite <- app_assoc. reflexivity.
Qed.
Lemma lex_start s : forall r, s <> [] -> Forall ordinary s -> lex Blank [] false (s ++ r) = lex InWord s false r.
Proof.
  intros r Ne F. destruct s as [|c s]; [congruence|]. inversion F as [|? ? (A & C & D) Fs]; subst.
  cbn [app lex]. rewrite A, C, D. rewrite lex_word by exact Fs. reflexivity.
Qed.
Definition escape (c : N) : bytes := if c =? 39 then [39; 34; 39; 34; 39] else [c].
Lemma lex_quoted s : forall tok r q, lex (Quoted 39) tok q (flat_map escape s ++ 39 :: r) = lex InWord (tok ++ s) true r.
Proof.
  induction s as [|c s IH]; intros tok r q.
  - cbn. rewrite app_nil_r. reflexivity.
  - cbn [flat_map]. unfold escape at 1. destruct (N.eqb_spec c 39) as [->|D].
    + change (lex (Quoted 39) tok q (([39; 34; 39; 34; 39] ++ flat_map escape s) ++ 39 :: r)) with (lex (Quoted 39) (tok ++ [39]) true (flat_map escape s ++ 39 :: r)).
      rewrite IH, <- app_assoc. reflexivity.
    + cbn [app lex]. apply N.eqb_neq in D. rewrite D. change (39 =? 34) with false. rewrite Bool.andb_false_r. rewrite IH, <- app_assoc. reflexivity.
Qed.
Lemma quote_form x : (x <> [] /\ Forall ordinary x /\ quote x = x) \/ quote x = 39 :: flat_map escape x ++ [39].
Proof.
  destruct x as [|c x]; [right; reflexivity|]. unfold quote. destruct (forallb shell_safe (c :: x)) eqn:E; [left|right; reflexivity].
  split; [discriminate|]. split; [|reflexivity]. apply Forall_forall. intros y I. apply ordinary_safe. rewrite forallb_forall in E. apply E, I.
Qed.
Lemma nonempty_app tok x q : x <> [] -> nonempty (tok ++ x) q = true.
Proof. intros H. destruct tok; [destruct x; [congruence|reflexivity]|reflexivity]. Qed.
Lemma nonempty_quoted tok : nonempty tok true = true.
Proof. destruct tok; reflexivity. Qed.
Lemma lex_quote_word x tok q r : exists q', lex InWord tok q (quote x ++ r) = lex InWord (tok ++ x) q' r /\ nonempty (tok ++ x) q' = true.
Proof.
  destruct (quote_form x) as [(Ne & F & ->)| ->].
  - exists q. split; [apply lex_word; exact F|apply nonempty_app; exact Ne].
  - exists true. split; [|apply nonempty_quoted]. cbn [app]. rewrite <- app_assoc.
    change (lex InWord tok q (39 :: ?z)) with (lex (Quoted 39) tok q z). apply lex_quoted.
Qed.
Lemma lex_quote_start x r : exists q', lex Blank [] false (quote x ++ r) = lex InWord x q' r /\ nonempty x q' = true.
Proof.
  destruct (quote_form x) as [(Ne & F & ->)| ->].
  - exists false. split; [apply lex_start; assumption|apply (nonempty_app []); exact Ne].
  - exists true. split; [|apply nonempty_quoted]. cbn [app]. rewrite <- app_assoc.
    change (lex Blank [] false (39 :: ?z)) with (lex (Quoted 39) [] false z). apply (lex_quoted x []).
Qed.
(** what the word is after formatting *)
Definition put_in (f : files) (p : piece) : bytes := match p with Text s => s | File w => quote (file_of f w) end.
Lemma lex_rest f w : forall tok q r, Forall plain_piece w -> nonempty tok q = true ->
  exists q', lex InWord tok q (flat_map (put_in f) w ++ r) = lex InWord (tok ++ flat_map (meaning f) w) q' r /\ nonempty (tok ++ flat_map (meaning f) w) q' = true.
Proof.
  induction w as [|p w IH]; intros tok q r F K; [exists q; cbn; rewrite app_nil_r; auto|]. inversion F as [|? ? P Fw]; subst.
  cbn [flat_map]. rewrite <- app_assoc. destruct p as [s|v].
  - destruct P as [Ne P]. cbn [put_in meaning]. rewrite lex_word by (eapply Forall_impl; [exact ordinary_plain|exact P]).
    destruct (IH (tok ++ s) q r Fw (nonempty_app tok s q Ne)) as (q' & E & K'). exists q'. rewrite app_assoc. split; [exact E|exact K'].
  - cbn [put_in meaning]. destruct (lex_quote_word (file_of f v) tok q (flat_map (put_in f) w ++ r)) as (q1 & -> & K1).
    destruct (IH _ q1 r Fw K1) as (q' & E & K'). exists q'. rewrite app_assoc. split; [exact E|exact K'].
Qed.
Lemma lex_whole f w r : plain_word w ->
  exists q', lex Blank [] false (flat_map (put_in f) w ++ r) = lex InWord (flat_map (meaning f) w) q' r /\ nonempty (flat_map (meaning f) w) q' = true.
Proof.
  intros [Ne F]. destruct w as [|p w]; [congruence|]. inversion F as [|? ? P Fw]; subst. cbn [flat_map]. rewrite <- app_assoc. destruct p as [s|v].
  - destruct P as [Ns P]. cbn [put_in meaning]. rewrite lex_start by first [exact Ns|(eapply Forall_impl; [exact ordinary_plain|exact P])].
    apply lex_rest; [exact Fw|]. apply (nonempty_app [] s false Ns).
  - cbn [put_in meaning]. destruct (lex_quote_start (file_of f v) (flat_map (put_in f) w ++ r)) as (q1 & -> & K1). apply lex_rest; assumption.
Qed.
Lemma lex_blank s r : blank s -> lex Blank [] false (s ++ r) = lex Blank [] false r.
Proof.
  induction s as [|c s IH]; intros F; [reflexivity|]. inversion F as [|? ? W Fs]; subst. cbn [app lex]. apply white_in in W. rewrite W. cbn [nonempty].
  apply IH, Fs.
Qed.

(** ** formatting *)
Lemma before_app a b x : before a (before b x) = before (a ++ b) x.
Proof. destruct x; cbn; rewrite ?app_assoc; reflexivity. Qed.
Lemma format_text v s : forall r, Forall (fun c => c <> 123 /\ c <> 125) s -> format_from v Literal (s ++ r) = before s (format_from v Literal r).
Proof.
  induction s as [|c s IH]; intros r F; [cbn [app]; destruct (format_from v Literal r); reflexivity|]. inversion F as [|? ? [A C] Fs]; subst.
  cbn [app format_from]. apply N.eqb_neq in A, C. rewrite A, C, IH by exact Fs. rewrite before_app. reflexivity.
Qed.
Lemma format_field f w r : format_from (field f) Literal ((123 :: name_of w ++ [125]) ++ r) = before (quote (file_of f w)) (format_from (field f) Literal r).
Proof. destruct w; reflexivity. Qed.
Lemma format_word f w : forall r, Forall plain_piece w ->
  format_from (field f) Literal (flat_map written w ++ r) = before (flat_map (put_in f) w) (format_from (field f) Literal r).
Proof.
  induction w as [|p w IH]; intros r F; [cbn [app flat_map]; destruct (format_from (field f) Literal r); reflexivity|]. inversion F as [|? ? P Fw]; subst.
  cbn [flat_map]. rewrite <- app_assoc. destruct p as [s|v].
  - cbn [written put_in]. rewrite format_text, IH by first [exact Fw|(destruct P as [_ P]; eapply Forall_impl; [|exact P]; intros c Hc; unfold plain in Hc; cbn in Hc; split; intros ->; tauto)].
    apply before_app.
  - cbn [written put_in]. rewrite format_field, IH by exact Fw. apply before_app.
Qed.
Lemma format_blank f s r : blank s -> format_from (field f) Literal (s ++ r) = before s (format_from (field f) Literal r).
Proof.
  intros Hb. apply format_text. eapply Forall_impl; [|exact Hb]. intros c I. cbn in I. split; intros ->; intuition discriminate.
Qed.

Theorem spelled_args f ws s : spelled ws s -> helper_args f s = Arguments (map (flat_map (meaning f)) ws).
Proof.
  intros H. assert (exists s', format (field f) s = Done s' /\ split s' = Some (map (flat_map (meaning f)) ws)) as (s' & E & K).
  { unfold format, split. induction H as [s Bl|lead w Bl P|lead w c ws s Bl P W H (s' & E & K)].
    - exists s. split.
      + rewrite <- (app_nil_r s). rewrite (format_blank f s [] Bl). cbn. rewrite !app_nil_r. reflexivity.
      + rewrite <- (app_nil_r s). rewrite (lex_blank s [] Bl). reflexivity.
    - exists (lead ++ flat_map (put_in f) w). split.
      + rewrite (format_blank f lead _ Bl). rewrite <- (app_nil_r (flat_map written w)). rewrite (format_word f w []) by apply P.
        cbn. rewrite app_nil_r. reflexivity.
      + rewrite (lex_blank lead _ Bl). rewrite <- (app_nil_r (flat_map (put_in f) w)). destruct (lex_whole f w [] P) as (q' & -> & Kq).
        cbn [lex]. rewrite Kq. reflexivity.
    - exists (lead ++ flat_map (put_in f) w ++ c :: s'). split.
      + rewrite (format_blank f lead _ Bl). rewrite (format_word f w) by apply P. change (c :: s) with ([c] ++ s). rewrite (format_blank f [c]) by (constructor; [exact W|constructor]).
        rewrite E. reflexivity.
      + rewrite (lex_blank lead _ Bl). destruct (lex_whole f w (c :: s') P) as (q' & -> & Kq).
        cbn [lex]. apply white_in in W. rewrite W, Kq, K. reflexivity. }
  unfold helper_args. rewrite E, K. reflexivity.
Qed.

(** ** the standard templates *)
Definition file_words (l : list which) : list (list piece) := map (fun w => [File w]) l.
Lemma spelled_three a b c : spelled (file_words [a; b; c]) (written (File a) ++ 32 :: written (File b) ++ 32 :: written (File c)).
Proof.
  assert (forall w, plain_word [File w]) as P by (intros w; split; [discriminate|constructor; [exact I|constructor]]).
  assert (blank []) as Nb by constructor.
  pose proof (last_word [] [File c] Nb (P c)) as L. cbn [flat_map app] in L. rewrite app_nil_r in L.
  pose proof (next_word [] [File b] 32 _ _ Nb (P b) (or_introl eq_refl) L) as M. cbn [flat_map app] in M. rewrite app_nil_r in M.
  pose proof (next_word [] [File a] 32 _ _ Nb (P a) (or_introl eq_refl) M) as R. cbn [flat_map app] in R. rewrite app_nil_r in R.
  exact R.
Qed.
Lemma spelled_two a b : spelled (file_words [a; b]) (written (File a) ++ 32 :: written (File b)).
Proof.
  assert (forall w, plain_word [File w]) as P by (intros w; split; [discriminate|constructor; [exact I|constructor]]).
  assert (blank []) as Nb by constructor.
  pose proof (last_word [] [File b] Nb (P b)) as L. cbn [flat_map app] in L. rewrite app_nil_r in L.
  pose proof (next_word [] [File a] 32 _ _ Nb (P a) (or_introl eq_refl) L) as R. cbn [flat_map app] in R. rewrite app_nil_r in R.
  exact R.
Qed.
Definition checker_files (t : contrib) : list which := match t with Peg => [Answer; Output; Input] | _ => [Input; Output; Answer] end.
Definition interactor_files (t : contrib) : list which := match t with Testlib => [Input; Output; Answer] | _ => [Input; Answer] end.
Lemma file_args f l : map (flat_map (meaning f)) (file_words l) = map (file_of f) l.
Proof. unfold file_words. rewrite map_map. apply map_ext. intros w. cbn. apply app_nil_r. Qed.
Lemma checker_default f t : helper_args f (checker_template t) = Arguments (map (file_of f) (checker_files t)).
Proof.
  rewrite <- file_args. apply spelled_args. destruct t.
  - exact (spelled_three Input Output Answer).
  - exact (spelled_three Answer Output Input).
  - exact (spelled_three Input Output Answer).
  - exact (spelled_three Input Output Answer).
Qed.
Lemma interactor_default f t : helper_args f (interactor_template t) = Arguments (map (file_of f) (interactor_files t)).
Proof.
  rewrite <- file_args. apply spelled_args. destruct t.
  - exact (spelled_two Input Answer).
  - exact (spelled_two Input Answer).
  - exact (spelled_three Input Output Answer).
  - exact (spelled_two Input Answer).
Qed.

(** ** pipes *)
Local Open Scope nat_scope.
Import Proofs.Child.
Lemma os_pipe_spec t b id r w t' : bounded t b -> standard_open t -> os_pipe t b id = (r, w, t') ->
  3 <= r /\ 3 <= w /\ r <> w /\ t r = None /\ t w = None /\ t' r = Some (PipeRead id) /\ t' w = Some (PipeWrite id)
  /\ (forall n, n <> r -> n <> w -> t' n = t n) /\ bounded t' (b + 2) /\ standard_open t'.
Proof.
  intros Bd O E. unfold os_pipe in E. destruct (free_spec t b Bd) as (L & F & _). set (r0 := lowest_free t b) in *.
  assert (bounded (set_fd t r0 (Some (PipeRead id))) (S b)) as Bd1.
  { intros n H. rewrite set_other by lia. apply Bd. lia. }
  destruct (free_spec _ (S b) Bd1) as (L1 & F1 & _). set (w0 := lowest_free _ (S b)) in *.
  injection E as <- <- <-.
  assert (r0 <> w0) as D by (intros X; rewrite <- X in F1; rewrite set_same in F1; discriminate).
  rewrite set_other in F1 by congruence. destruct O as (O0 & O1 & O2).
  assert (3 <= r0) by (destruct r0 as [|[|[|?]]]; [congruence|congruence|congruence|lia]).
  assert (3 <= w0) by (destruct w0 as [|[|[|?]]]; [congruence|congruence|congruence|lia]).
  repeat (split; [assumption|]). split; [rewrite set_other by congruence; apply set_same|]. split; [apply set_same|].
  split; [intros n A C; rewrite !set_other by congruence; reflexivity|]. split.
  - intros n Hn. rewrite !set_other by lia. apply Bd. lia.
  - unfold standard_open. rewrite !set_other by lia. auto.
Qed.
Lemma launch_left t b i o tj ei eo ee : bounded t b -> standard_open t ->
  init_streams t b (Number i) (Number o) Pipe = (tj, ei, eo, ee) ->
  let left := judge_table tj ei eo ee in
  (exists j, t j = None /\ left j = Some (PipeRead 2) /\ forall n, n <> j -> left n = t n) /\ bounded left (b + 6) /\ standard_open left.
Proof.
  intros Bd O E left. unfold init_streams, init_stream in E.
  destruct (os_pipe t (b + 4) 2) as [[r w] t'] eqn:P. injection E as <- <- <- <-.
  assert (bounded t (b + 4)) as Bd4 by (intros n Hn; apply Bd; lia).
  destruct (os_pipe_spec t (b + 4) 2 r w t' Bd4 O P) as (R3 & W3 & D & Tr & Tw & T'r & T'w & Oth & Bd' & O').
  unfold left, judge_table, close_end. cbn [needs_close child_fd]. rewrite Nat2Z.id.
  split; [|split].
  - exists r. split; [exact Tr|]. split; [unfold close_fd; rewrite set_other by exact D; exact T'r|].
    intros n Hn. unfold close_fd. destruct (Nat.eq_dec n w) as [->|Dw]; [rewrite set_same; congruence|]. rewrite set_other by exact Dw. apply Oth; assumption.
  - intros n Hn. unfold close_fd. destruct (Nat.eq_dec n w) as [->|Dw]; [apply set_same|]. rewrite set_other by exact Dw. apply Bd'. lia.
  - destruct O' as (A & C & F). unfold standard_open, close_fd. rewrite !set_other by lia. auto.
Qed.

Theorem connected_right : forall t b max_fd fit, bounded t b -> standard_open t -> without 3 t -> without 4 t ->
  (forall j, exists k, fit j = Some (S k)) ->
  let c := connect t b in
  (exists ts, child_table true max_fd fit (b + 10) (submission_start c) (s_in c) (s_out c) (s_err c) = Some ts
     /\ ts 0 = Some (PipeRead 4) /\ ts 1 = Some (PipeWrite 3) /\ ts 2 = Some (PipeWrite 2) /\ forall n, 3 <= n -> ts n = None)
  /\ (exists ti, child_table true max_fd fit (b + 16) (interactor_start c) (i_in c) (i_out c) (i_err c) = Some ti
     /\ ti 0 = Some (PipeRead 3) /\ ti 1 = Some (PipeWrite 4) /\ ti 2 = Some (PipeWrite 2) /\ forall n, 3 <= n -> ti n = None)
  /\ without 3 (judge_after c) /\ without 4 (judge_after c) /\ (forall n, t n <> None -> judge_after c n = t n).
Proof.
  intros t b max_fd fit Bd O N3 N4 F. unfold connect.
  destruct (os_pipe t b 3) as [[isi sso] t1] eqn:P1. destruct (os_pipe_spec t b 3 _ _ _ Bd O P1) as (I3 & S3 & D1 & Ti & Ts & T1i & T1s & Oth1 & Bd1 & O1).
  destruct (os_pipe t1 (b + 2) 4) as [[ssi iso] t2] eqn:P2. destruct (os_pipe_spec t1 (b + 2) 4 _ _ _ Bd1 O1 P2) as (I3' & S3' & D2 & T1x & T1y & T2i & T2s & Oth2 & Bd2 & O2).
  replace (b + 2 + 2) with (b + 4) in Bd2 by lia.
  assert (isi <> ssi /\ isi <> iso /\ sso <> ssi /\ sso <> iso) as (E1 & E2 & E3 & E4) by (repeat split; intros X; congruence).
  assert (t2 isi = Some (PipeRead 3)) as T2isi by (rewrite Oth2 by assumption; exact T1i).
  assert (t2 sso = Some (PipeWrite 3)) as T2sso by (rewrite Oth2 by assumption; exact T1s).
  destruct (init_streams t2 (b + 4) (Number (Z.of_nat ssi)) (Number (Z.of_nat sso)) Pipe) as [[[t3 ei] eo] ee] eqn:L1.
  destruct (launch_left _ _ _ _ _ _ _ _ Bd2 O2 L1) as ((j1 & J1n & J1 & J1o) & BdL & OL).
  set (left1 := judge_table t3 ei eo ee) in *.
  assert (j1 <> isi /\ j1 <> sso /\ j1 <> ssi /\ j1 <> iso) as (F1 & F2 & F3 & F4) by (repeat split; intros X; congruence).
  set (t4 := close_fd (close_fd left1 ssi) sso).
  assert (bounded t4 (b + 10)) as Bd4.
  { intros n Hn. unfold t4, close_fd, set_fd. destruct (n =? sso); [reflexivity|]. destruct (n =? ssi); [reflexivity|]. apply BdL. lia. }
  assert (standard_open t4) as O4.
  { destruct OL as (A & C & G). unfold standard_open, t4, close_fd. rewrite !set_other by lia. auto. }
  assert (forall n, n <> ssi -> n <> sso -> t4 n = left1 n) as T4 by (intros n A C; unfold t4, close_fd; rewrite !set_other by assumption; reflexivity).
  assert (t4 ssi = None /\ t4 sso = None) as [T4a T4b].
  { unfold t4, close_fd. split; [rewrite set_other by congruence; apply set_same|apply set_same]. }
  assert (t4 isi = Some (PipeRead 3)) as T4i by (rewrite T4, J1o by congruence; exact T2isi).
  assert (t4 iso = Some (PipeWrite 4)) as T4o by (rewrite T4, J1o by congruence; exact T2s).
  destruct (init_streams t4 (b + 10) (Number (Z.of_nat isi)) (Number (Z.of_nat iso)) Pipe) as [[[t5 fi] fo] fe] eqn:L2.
  destruct (launch_left _ _ _ _ _ _ _ _ Bd4 O4 L2) as ((j2 & J2n & J2 & J2o) & BdR & OR).
  set (left2 := judge_table t5 fi fo fe) in *.
  assert (j2 <> isi /\ j2 <> iso) as (G1 & G2) by (split; intros X; congruence).
  cbv zeta. cbn [submission_start s_in s_out s_err interactor_start i_in i_out i_err judge_after].
  split; [|split].
  - assert (sensible t2 0 (Number (Z.of_nat ssi))) as K0 by (exists ssi; split; [reflexivity|]; split; [rewrite T2i; discriminate|right; exact I3']).
    assert (sensible t2 1 (Number (Z.of_nat sso))) as K1 by (exists sso; split; [reflexivity|]; split; [rewrite T2sso; discriminate|right; exact S3]).
    destruct (streams_child t2 (b + 4) _ _ _ _ _ _ _ max_fd fit Bd2 O2 K0 K1 (I : sensible t2 2 Pipe) L1 F) as (tc & E & A0 & A1 & A2 & A3).
    exists tc. replace (b + 10) with (b + 4 + 6) by lia. split; [exact E|]. cbn [wanted] in A0, A1, A2. rewrite Nat2Z.id in A0, A1.
    split; [congruence|]. split; [congruence|]. split; [exact A2|exact A3].
  - assert (sensible t4 0 (Number (Z.of_nat isi))) as K0 by (exists isi; split; [reflexivity|]; split; [rewrite T4i; discriminate|right; exact I3]).
    assert (sensible t4 1 (Number (Z.of_nat iso))) as K1 by (exists iso; split; [reflexivity|]; split; [rewrite T4o; discriminate|right; exact S3']).
    destruct (streams_child t4 (b + 10) _ _ _ _ _ _ _ max_fd fit Bd4 O4 K0 K1 (I : sensible t4 2 Pipe) L2 F) as (tc & E & A0 & A1 & A2 & A3).
    exists tc. replace (b + 16) with (b + 10 + 6) by lia. split; [exact E|]. cbn [wanted] in A0, A1, A2. rewrite Nat2Z.id in A0, A1.
    split; [congruence|]. split; [congruence|]. split; [exact A2|exact A3].
  - assert (forall n, close_fd (close_fd left2 isi) iso n =
        if n =? iso then None else if n =? isi then None else if n =? j2 then Some (PipeRead 2)
        else if n =? sso then None else if n =? ssi then None else if n =? j1 then Some (PipeRead 2) else t n) as K.
    { intros n. unfold close_fd. destruct (Nat.eqb_spec n iso) as [->|Di]; [apply set_same|]. rewrite set_other by exact Di.
      destruct (Nat.eqb_spec n isi) as [->|Di2]; [apply set_same|]. rewrite set_other by exact Di2.
      destruct (Nat.eqb_spec n j2) as [->|Dj]; [exact J2|]. rewrite J2o by exact Dj.
      destruct (Nat.eqb_spec n sso) as [->|Ds]; [exact T4b|]. destruct (Nat.eqb_spec n ssi) as [->|Ds2]; [exact T4a|]. rewrite T4 by assumption.
      destruct (Nat.eqb_spec n j1) as [->|Dj1]; [exact J1|]. rewrite J1o by exact Dj1. rewrite Oth2 by assumption. apply Oth1; assumption. }
    split; [|split].
    + intros n. rewrite K. repeat match goal with |- context [?a =? ?c] => destruct (a =? c); [split; discriminate|] end. apply N3.
    + intros n. rewrite K. repeat match goal with |- context [?a =? ?c] => destruct (a =? c); [split; discriminate|] end. apply N4.
    + intros n Hn. rewrite K.
      destruct (Nat.eqb_spec n iso) as [->|Di]; [exfalso; apply Hn; rewrite <- Oth1; [exact T1y|congruence|congruence]|].
      destruct (Nat.eqb_spec n isi) as [->|Di2]; [congruence|].
      destruct (Nat.eqb_spec n j2) as [->|Dj].
      { exfalso. destruct (Nat.eq_dec j2 sso) as [->|X1]; [congruence|]. destruct (Nat.eq_dec j2 ssi) as [->|X2].
        - apply Hn. rewrite <- Oth1 by congruence. exact T1x.
        - rewrite T4 in J2n by assumption. destruct (Nat.eq_dec j2 j1) as [->|X3]; [congruence|]. rewrite J1o in J2n by exact X3. rewrite Oth2 in J2n by assumption.
          rewrite Oth1 in J2n by assumption. congruence. }
      destruct (Nat.eqb_spec n sso) as [->|Ds]; [congruence|]. destruct (Nat.eqb_spec n ssi) as [->|Ds2].
      { exfalso. apply Hn. rewrite <- Oth1 by congruence. exact T1x. }
      destruct (Nat.eqb_spec n j1) as [->|Dj1]; [|reflexivity].
      exfalso. rewrite Oth2, Oth1 in J1n by congruence. congruence.
Qed.
