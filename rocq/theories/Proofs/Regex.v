From Coq Require Import String.
From Verif Require Import Model.Bytes Model.Regex Spec.Regex Proofs.BytesLemmas.
Local Open Scope list_scope.

Lemma run_many_spec : forall k s t, In t (run_many k s) <-> exists w, s = w ++ t /\ Forall (fun c => in_cls k c = true) w.
Proof.
  intros k. induction s as [|x s IH]; intros t; cbn [run_many].
  - split.
    + intros [<-|[]]. exists []. split; [reflexivity|constructor].
    + intros (w & E & _). destruct w; [left; exact E|discriminate].
  - split.
    + intros [<-|H]; [exists []; split; [reflexivity|constructor]|].
      destruct (in_cls k x) eqn:E; [|destruct H]. apply IH in H. destruct H as (w & -> & F).
      exists (x :: w). split; [reflexivity|]. constructor; assumption.
    + intros ([|y w] & E & F); [left; exact E|]. injection E as <- E. inversion F as [|? ? F1 F2]; subst.
      right. rewrite F1. apply IH. exists w. split; [reflexivity|exact F2].
Qed.
Lemma run_matches : forall r s t, In t (run r s) <-> Matches r s t.
Proof.
  induction r as [|c|a IHa b IHb|a IHa b IHb|a IHa| |a IHa|k|k]; intros s t; cbn [run Matches].
  - cbn. split; [intros [H|[]]; auto|intros ->; auto].
  - destruct s as [|x s]; [split; [intros []|discriminate]|].
    destruct (N.eqb_spec x c) as [->|Hn]; cbn.
    + split; [intros [H|[]]; congruence|]. intros H. injection H as ->. auto.
    + split; [intros []|]. intros H. congruence.
  - rewrite in_flat_map. split; intros (u & H1 & H2); exists u.
    + rewrite <- IHa, <- IHb. auto.
    + rewrite IHa, IHb. auto.
  - rewrite in_app_iff, IHa, IHb. tauto.
  - rewrite in_app_iff, IHa. cbn. split; intros [H|H]; auto.
    destruct H as [H|[]]; auto.
  - destruct s as [|x [|y s]]; cbn.
    + split; [intros [H|[]]; subst; auto|]. intros [-> _]. auto.
    + destruct (N.eqb_spec x 10) as [->|Hn]; cbn.
      * split; [intros [H|[]]; subst; auto|]. intros [-> _]. auto.
      * split; [intros []|]. intros [_ [H|H]]; congruence.
    + split; [intros []|]. intros [_ [H|H]]; congruence.
  - destruct (run a s) as [|u l] eqn:E.
    + cbn. split; [intros [H|[]]; split; [auto|]|intros [-> _]; auto].
      intros u Hu. apply IHa in Hu. rewrite E in Hu. exact Hu.
    + cbn. split; [intros []|]. intros [_ H]. apply (H u). apply IHa. rewrite E. left. reflexivity.
  - destruct s as [|x s]; [split; [intros []|intros (c & E & _); discriminate]|].
    destruct (in_cls k x) eqn:E; cbn [In].
    + split; [intros [<-|[]]; exists x; auto|]. intros (c & H & _). injection H as _ ->. auto.
    + split; [intros []|]. intros (c & H & F). injection H as <- _. congruence.
  - apply run_many_spec.
Qed.
Lemma matches_iff : forall r s, matches r s = true <-> exists t, Matches r s t.
Proof.
  intros r s. unfold matches. destruct (run r s) as [|t l] eqn:E; split.
  - discriminate.
  - intros (t & H). apply run_matches in H. rewrite E in H. destruct H.
  - intros _. exists t. apply run_matches. rewrite E. left. reflexivity.
  - reflexivity.
Qed.

(** ** Sequences and alternatives *)
Lemma cat_matches_acc : forall l acc s t,
  Matches (fold_left (fun acc x => Cat x acc) l acc) s t <->
  exists u, Matches (cat l) s u /\ Matches acc u t.
Proof.
  induction l as [|x l IH]; intros acc s t; unfold cat; cbn [fold_left].
  - cbn [Matches]. split; [intros H; exists s; auto|]. intros (u & -> & H). exact H.
  - rewrite IH. split.
    + intros (u & H1 & v & H2 & H3). exists v. split; [|exact H3]. apply IH.
      exists u. split; [exact H1|]. exists v. split; [exact H2|reflexivity].
    + intros (v & H1 & H3). apply IH in H1. destruct H1 as (u & H1 & w & H2 & E). cbn [Matches] in E. subst w.
      exists u. split; [exact H1|]. exists v. auto.
Qed.
Lemma cat_cons : forall x l s t, Matches (cat (x :: l)) s t <-> exists u, Matches (cat l) s u /\ Matches x u t.
Proof.
  intros x l s t. unfold cat. cbn [fold_left]. rewrite cat_matches_acc. cbn [Matches].
  split; intros (u & H1 & H2); exists u.
  - destruct H2 as (v & H2 & ->). auto.
  - split; [exact H1|]. exists t. auto.
Qed.
Lemma cat_nil : forall s t, Matches (cat []) s t <-> t = s.
Proof. reflexivity. Qed.
Lemma cat_app : forall l1 l2 s t, Matches (cat (l1 ++ l2)) s t <-> exists u, Matches (cat l2) s u /\ Matches (cat l1) u t.
Proof.
  induction l1 as [|x l1 IH]; intros l2 s t; cbn [app].
  - split; [intros H; exists t; split; [exact H|apply cat_nil; reflexivity]|].
    intros (u & H & E). change (t = u) in E. subst. exact H.
  - rewrite cat_cons. split.
    + intros (u & H1 & H2). apply IH in H1. destruct H1 as (v & H1 & H3). exists v. split; [exact H1|].
      apply cat_cons. exists u. auto.
    + intros (v & H1 & H2). apply cat_cons in H2. destruct H2 as (u & H2 & H3). exists u. split; [|exact H3].
      apply IH. exists v. auto.
Qed.
(** a literal, as the parser builds it *)
Lemma cat_literal : forall w s t, Matches (cat (rev (map Chr w))) s t <-> s = w ++ t.
Proof.
  induction w as [|c w IH]; intros s t; cbn [map rev app].
  - rewrite cat_nil. split; congruence.
  - rewrite cat_app. split.
    + intros (u & H1 & H2). apply cat_cons in H1. destruct H1 as (v & H1 & H3). change (v = s) in H1. subst v.
      cbn [Matches] in H3. subst s. apply IH in H2. subst u. reflexivity.
    + intros ->. exists (w ++ t). split; [|apply IH; reflexivity].
      apply cat_cons. exists (c :: w ++ t). split; [reflexivity|]. reflexivity.
Qed.
Lemma group_matches : forall l items s t,
  Matches (group l items) s t <-> (exists a, In a l /\ Matches a s t) \/ Matches (cat items) s t.
Proof.
  intros l items. unfold group. generalize (cat items) as acc.
  induction l as [|a l IH]; intros acc s t; cbn [fold_left].
  - split; [auto|]. intros [(a & [] & _)|H]; exact H.
  - rewrite IH. cbn [Matches]. split.
    + intros [(b & H1 & H2)|[H|H]]; [left; exists b; split; [right|]; auto|left; exists a; split; [left|]; auto|auto].
    + intros [(b & [->|H1] & H2)|H]; [auto|left; exists b; auto|auto].
Qed.

(** ** Parsing piecewise *)
Lemma tokens_app_aux : forall n p, length p <= n -> forall q l l', tokens p = Some l -> tokens q = Some l' ->
  tokens (p ++ q) = Some (l ++ l').
Proof.
  assert (K : forall t (o : option (list token)) l, option_map (cons t) o = Some l -> exists m, o = Some m /\ l = t :: m).
  { intros t [m|] l H; [injection H as <-; eauto|discriminate]. }
  induction n as [|n IH]; intros [|c p] Hn q l l' Hp Hq; cbn [length] in Hn; try lia.
  - injection Hp as <-. exact Hq.
  - injection Hp as <-. exact Hq.
  - cbn [app tokens] in *. destruct (c =? 40)%N.
    + destruct p as [|x [|k p]]; try discriminate. cbn [app length] in *.
      destruct ((x =? 63)%N && ((k =? 58)%N || (k =? 33)%N)); [|discriminate].
      apply K in Hp. destruct Hp as (m & Hp & ->). rewrite (IH p ltac:(lia) q m l' Hp Hq). reflexivity.
    + destruct (c =? 92)%N.
      * destruct p as [|d p]; [discriminate|]. cbn [app length] in *. destruct (d =? 100)%N; [|destruct (d =? 119)%N].
        -- apply K in Hp. destruct Hp as (m & Hp & ->). rewrite (IH p ltac:(lia) q m l' Hp Hq). reflexivity.
        -- apply K in Hp. destruct Hp as (m & Hp & ->). rewrite (IH p ltac:(lia) q m l' Hp Hq). reflexivity.
        -- destruct (is_alnum d); [discriminate|].
           apply K in Hp. destruct Hp as (m & Hp & ->). rewrite (IH p ltac:(lia) q m l' Hp Hq). reflexivity.
      * destruct (c =? 91)%N.
        { destruct p as [|x [|y [|z [|e p]]]]; try discriminate. cbn [app length] in *.
          destruct (beqb [x; y; z; e] (B "\w-]")); [|discriminate].
          apply K in Hp. destruct Hp as (m & Hp & ->). rewrite (IH p ltac:(lia) q m l' Hp Hq). reflexivity. }
        destruct (simple c) as [t|]; [|discriminate].
        apply K in Hp. destruct Hp as (m & Hp & ->). rewrite (IH p ltac:(lia) q m l' Hp Hq). reflexivity.
Qed.
Lemma tokens_app : forall p q l l', tokens p = Some l -> tokens q = Some l' -> tokens (p ++ q) = Some (l ++ l').
Proof. intros p q l l'. apply (tokens_app_aux (length p) p (le_n _)). Qed.
Lemma steps_app : forall l st l', steps st (l ++ l') =
  match steps st l with Some st' => steps st' l' | None => None end.
Proof.
  induction l as [|t l IH]; intros st l'; [reflexivity|]. cbn [app steps].
  destruct (step st t); [apply IH|reflexivity].
Qed.
Lemma steps_chars : forall w st, steps st (map TChr w) =
  Some {| stack := stack st; cur_alts := cur_alts st; cur := rev (map Chr w) ++ cur st |}.
Proof.
  induction w as [|c w IH]; intros [stk al cu]; [reflexivity|].
  cbn [map steps step]. rewrite IH. cbn [stack cur_alts cur rev map]. rewrite <- app_assoc. reflexivity.
Qed.

(** Adding alternatives below everything. *)
Fixpoint under (extra : list re) (fs : list frame) : list frame :=
  match fs with
  | [] => []
  | [f] => [{| neg := neg f; alts := alts f ++ extra; items := items f |}]
  | f :: r => f :: under extra r
  end.
Definition beneath (extra : list re) (st : pstate) : pstate :=
  match stack st with
  | [] => {| stack := []; cur_alts := cur_alts st ++ extra; cur := cur st |}
  | _ => {| stack := under extra (stack st); cur_alts := cur_alts st; cur := cur st |}
  end.
Lemma step_below : forall extra st t, step (beneath extra st) t = option_map (beneath extra) (step st t).
Proof.
  intros extra [stk al cu] t. unfold beneath. cbn [stack cur_alts cur].
  destruct stk as [|f [|g stk]]; destruct t as [c|n| | | | |k| |]; try reflexivity; cbn;
    try (destruct cu as [|[] cu]; reflexivity).
Qed.
Lemma steps_below : forall l extra st, steps (beneath extra st) l = option_map (beneath extra) (steps st l).
Proof.
  induction l as [|t l IH]; intros extra st; [reflexivity|]. cbn [steps]. rewrite step_below.
  destruct (step st t) as [st'|]; [|reflexivity]. cbn [option_map]. apply IH.
Qed.
Lemma compile_bar : forall p q rp rq, compile p = Some rp -> compile q = Some rq ->
  exists r, compile (p ++ 124%N :: q) = Some r /\
    forall s t, Matches r s t <-> Matches rp s t \/ Matches rq s t.
Proof.
  intros p q rp rq Hp Hq. unfold compile in *.
  destruct (tokens p) as [lp|] eqn:Tp; [|discriminate].
  destruct (tokens q) as [lq|] eqn:Tq; [|discriminate].
  destruct (steps start lp) as [sp|] eqn:Sp; [|discriminate].
  destruct (steps start lq) as [sq|] eqn:Sq; [|discriminate].
  destruct sp as [[|f stk] ap cp]; [|discriminate]. destruct sq as [[|f stk] aq cq]; [|discriminate].
  cbn [stack cur_alts cur] in *. injection Hp as <-. injection Hq as <-.
  rewrite (tokens_app p (124%N :: q) lp (TBar :: lq) Tp).
  2:{ cbn [tokens]. change (124 =? 40)%N with false. change (124 =? 92)%N with false. change (124 =? 91)%N with false. cbv iota.
      change (simple 124) with (Some TBar). cbv iota. rewrite Tq. reflexivity. }
  rewrite steps_app, Sp. cbn [steps step stack cur_alts cur].
  change {| stack := []; cur_alts := cat cp :: ap; cur := [] |} with (beneath (cat cp :: ap) start).
  rewrite steps_below, Sq. cbn [option_map beneath stack cur_alts cur].
  eexists. split; [reflexivity|]. intros s t. rewrite !group_matches. split.
  - intros [(a & Ha & H)|H]; [|right; right; exact H]. apply in_app_iff in Ha. destruct Ha as [Ha|[<-|Ha]].
    + right. left. eauto.
    + left. right. exact H.
    + left. left. eauto.
  - intros [[(a & Ha & H)|H]|[(a & Ha & H)|H]].
    + left. exists a. split; [|exact H]. apply in_app_iff. right. right. exact Ha.
    + left. exists (cat cp). split; [|exact H]. apply in_app_iff. right. left. reflexivity.
    + left. exists a. split; [|exact H]. apply in_app_iff. left. exact Ha.
    + right. exact H.
Qed.
Lemma compile_join : forall ps, ps <> [] -> (forall p, In p ps -> exists r, compile p = Some r) ->
  exists r, compile (bar_join ps) = Some r /\
    forall s t, Matches r s t <-> exists p rp, In p ps /\ compile p = Some rp /\ Matches rp s t.
Proof.
  induction ps as [|p ps IH]; intros Hne Hall; [congruence|].
  destruct (Hall p (or_introl eq_refl)) as (rp & Hp).
  destruct ps as [|q ps].
  - exists rp. split; [exact Hp|]. intros s t. split.
    + intros H. exists p, rp. split; [left; reflexivity|]. auto.
    + intros (p' & rp' & [<-|[]] & E & H). congruence.
  - destruct IH as (rq & Hq & IH); [discriminate|intros x Hx; apply Hall; right; exact Hx|].
    destruct (compile_bar p (bar_join (q :: ps)) rp rq Hp Hq) as (r & Hr & Hs).
    exists r. split; [exact Hr|]. intros s t. rewrite Hs, IH. split.
    + intros [H|(p' & rp' & H1 & H2 & H3)]; [exists p, rp; split; [left; reflexivity|auto]|].
      exists p', rp'. split; [right; exact H1|auto].
    + intros (p' & rp' & [<-|H1] & H2 & H3); [left; congruence|right; exists p', rp'; auto].
Qed.

(** ** Literals *)
Lemma compile_literal : forall p w, tokens p = Some (map TChr w) ->
  exists r, compile p = Some r /\ forall s t, Matches r s t <-> s = w ++ t.
Proof.
  intros p w H. unfold compile. rewrite H, steps_chars. cbn [stack cur_alts cur start].
  eexists. split; [reflexivity|]. intros s t. unfold group. cbn [fold_left].
  rewrite app_nil_r. apply cat_literal.
Qed.
Lemma special_alnum : forall c, special c = true -> is_alnum c = false.
Proof.
  intros c H. unfold special in H. apply existsb_exists in H. destruct H as (d & Hd & E).
  apply N.eqb_eq in E. subst d. revert c Hd. apply Forall_forall. vm_compute. repeat constructor.
Qed.
Lemma not_special : forall c, special c = false ->
  (c =? 40)%N = false /\ (c =? 92)%N = false /\ (c =? 91)%N = false /\ simple c = Some (TChr c).
Proof.
  intros c H. unfold special in H. rewrite existsb_app in H. apply Bool.orb_false_iff in H. destruct H as [H _].
  cbn in H. repeat rewrite Bool.orb_false_iff in H.
  repeat match goal with X : _ /\ _ |- _ => destruct X end.
  split; [assumption|]. split; [assumption|]. split; [assumption|]. unfold simple, unsupported. cbn [existsb].
  repeat match goal with X : (c =? _)%N = false |- _ => rewrite X; clear X end. reflexivity.
Qed.
Lemma tokens_escape : forall w, tokens (escape w) = Some (map TChr w).
Proof.
  induction w as [|c w IH]; [reflexivity|]. unfold escape in *. cbn [flat_map map].
  destruct (special c) eqn:E; cbn [app tokens].
  - change (92 =? 40)%N with false. change (92 =? 92)%N with true. cbv iota.
    pose proof (special_alnum c E) as A.
    destruct (N.eqb_spec c 100) as [->|_]; [discriminate A|]. destruct (N.eqb_spec c 119) as [->|_]; [discriminate A|].
    rewrite A, IH. reflexivity.
  - destruct (not_special c E) as (H1 & H2 & H4 & H3). rewrite H1, H2, H4, H3, IH. reflexivity.
Qed.
Lemma compile_escape : forall w,
  exists r, compile (escape w) = Some r /\ forall s t, Matches r s t <-> s = w ++ t.
Proof. intros w. apply compile_literal. apply tokens_escape. Qed.

(** ** Formatting *)
Lemma format_pid_plain : forall pid p, ~ In 123%N p -> ~ In 125%N p -> format_pid pid p = Some p.
Proof.
  induction p as [|c p IH]; intros H1 H2; [reflexivity|]. cbn [format_pid].
  destruct (N.eqb_spec c 123) as [->|_]; [destruct H1; left; reflexivity|].
  destruct (N.eqb_spec c 125) as [->|_]; [destruct H2; left; reflexivity|].
  rewrite IH; [reflexivity| |]; intros X; [apply H1|apply H2]; right; exact X.
Qed.
