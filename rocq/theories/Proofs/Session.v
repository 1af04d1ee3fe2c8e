(** Proofs about sessions at the command line. *)
From Coq Require Import String Lia ZifyN ZifyBool ZifyNat.
From Flocq Require Import IEEE754.BinarySingleNaN.
From Verif Require Import Model.Bytes Model.Floats Model.Interactor Model.Commands Model.Session.
From Verif Require Import Spec.Interactor Spec.Commands Spec.Console Spec.Toolchain Spec.Session Proofs.BytesLemmas.
From Verif Require Model.Helpers Model.Console Model.CaseNames.
From Verif Require Proofs.Helpers Proofs.Console Proofs.Commands Proofs.Interactor.
Local Open Scope list_scope.
Local Open Scope N_scope.
Import Model.Helpers.
Import Model.Commands Model.Session.

(** ** Words *)
Lemma gap_white c : gap c <-> white c = true.
Proof. symmetry. apply Proofs.Helpers.white_in. Qed.
Lemma plain_dec c : white c = false -> is_quote c = false -> (c =? 92) = false -> ~ gap c /\ ~ In c [39; 34; 92].
Proof.
  intros A Q E. split.
  - rewrite gap_white. congruence.
  - unfold is_quote in Q. apply orb_false_iff in Q as [Q1 Q2]. apply N.eqb_neq in Q1, Q2, E. intros [<-|[<-|[<-|[]]]]; congruence.
Qed.
Lemma plain_conv c : ~ gap c -> ~ In c [39; 34; 92] -> white c = false /\ is_quote c = false /\ (c =? 92) = false.
Proof.
  intros A H. rewrite gap_white in A. cbn [In] in H. split; [destruct (white c); congruence|]. unfold is_quote. split.
  - apply orb_false_iff. split; apply N.eqb_neq; intros ->; apply H; auto.
  - apply N.eqb_neq. intros ->. apply H; auto.
Qed.
Lemma lex_single s : forall tok q,
  (~ In 39 s /\ lex (Quoted 39) tok q s = None) \/
  (exists a b, s = a ++ 39 :: b /\ ~ In 39 a /\ lex (Quoted 39) tok q s = lex InWord (tok ++ a) true b).
Proof.
  induction s as [|c s IH]; intros tok q; [left; split; [intros []|reflexivity]|].
  cbn [lex]. destruct (c =? 39) eqn:E.
  - apply N.eqb_eq in E. subst c. right. exists [], s. rewrite app_nil_r. split; [reflexivity|]. split; [intros []|reflexivity].
  - change (39 =? 34) with false. rewrite andb_false_r. apply N.eqb_neq in E. destruct (IH (tok ++ [c]) true) as [[A H]|(a & b & -> & A & H)].
    + left. split; [intros [K|K]; [congruence|exact (A K)]|exact H].
    + right. exists (c :: a), b. split; [reflexivity|]. split; [intros [K|K]; [congruence|exact (A K)]|]. rewrite H, <- app_assoc. reflexivity.
Qed.
Lemma lex_double s : forall tok q, 
  ((forall a m b, s = a ++ 34 :: b -> ~ between a m) /\ lex (Quoted 34) tok q s = None) \/
  (exists a m b, s = a ++ 34 :: b /\ between a m /\ lex (Quoted 34) tok q s = lex InWord (tok ++ m) true b).
Proof.
  enough (H : forall n s, (List.length s < n)%nat -> forall tok q, 
    ((forall a m b, s = a ++ 34 :: b -> ~ between a m) /\ lex (Quoted 34) tok q s = None) \/
    (exists a m b, s = a ++ 34 :: b /\ between a m /\ lex (Quoted 34) tok q s = lex InWord (tok ++ m) true b)) by (intros; apply (H (S (List.length s))); lia).
  clear s. induction n as [|n IH]; intros s L tok q; [lia|]. destruct s as [|c s]; [left; split; [intros [|] m b; discriminate|reflexivity]|].
  cbn [List.length] in L. cbn [lex]. destruct (N.eqb_spec c 34) as [->|E34].
  - right. exists [], [], s. rewrite app_nil_r. split; [reflexivity|]. split; [constructor|reflexivity].
  - change (34 =? 34) with true. rewrite andb_true_r. destruct (N.eqb_spec c 92) as [->|E92].
    + destruct s as [|d s].
      * left. split; [|reflexivity]. intros [|x a] m b K; [discriminate K|]. destruct a; discriminate K.
      * cbn [List.length] in L. cbn [lex]. set (k := negb (d =? 92) && negb (d =? 34)).
        destruct (IH s ltac:(lia) (tok ++ (if k then [92; d] else [d])) true) as [[A H]|(a & m & b & -> & A & H)].
        -- left. split; [|exact H]. intros [|x [|y a]] m b K; [discriminate K|injection K as <- -> ->; intros X; inversion X; congruence|].
           injection K as <- <- K. intros X. inversion X; subst; try congruence; eapply A; eauto.
        -- right. exists (92 :: d :: a), ((if k then [92; d] else [d]) ++ m), b. split; [reflexivity|]. rewrite H, <- app_assoc. split; [|reflexivity].
           unfold k. destruct (N.eqb_spec d 92) as [->|]; cbn [negb andb app]; [constructor; auto|].
           destruct (N.eqb_spec d 34) as [->|]; cbn [negb andb app]; constructor; auto.
    + destruct (IH s ltac:(lia) (tok ++ [c]) true) as [[A H]|(a & m & b & -> & A & H)].
      * left. split; [|exact H]. intros [|x a] m b K; cbn in K; [congruence|]. injection K as -> K. intros X. inversion X; subst; try congruence; eapply A; eauto.
      * right. exists (c :: a), (c :: m), b. split; [reflexivity|]. split; [constructor; auto|]. rewrite H, <- app_assoc. reflexivity.
Qed.
Lemma between_split a m : between a m -> forall b a' m' b', between a' m' -> a ++ 34 :: b = a' ++ 34 :: b' -> a = a' /\ m = m' /\ b = b'.
Proof.
  induction 1 as [|c s t H _ IH|c s t H1 H2 _ IH|c s t H1 H2 _ IH]; intros b a' m' b' K E;
    destruct K as [|d s' t' D K|d s' t' D1 D2 K|d s' t' D1 D2 K].
  - injection E as ->. auto.
  - discriminate E.
  - discriminate E.
  - injection E as <- _. congruence.
  - discriminate E.
  - injection E as -> E. destruct (IH _ _ _ _ K E) as (-> & -> & ->). auto.
  - injection E as -> E. destruct H; congruence.
  - injection E as <- E. congruence.
  - discriminate E.
  - injection E as -> E. destruct D; congruence.
  - injection E as -> E. destruct (IH _ _ _ _ K E) as (-> & -> & ->). auto.
  - injection E as <- E. congruence.
  - injection E as -> _. congruence.
  - injection E as -> E. congruence.
  - injection E as -> E. congruence.
  - injection E as -> E. destruct (IH _ _ _ _ K E) as (-> & -> & ->). auto.
Qed.
Lemma first_mark a : forall a' b b', ~ In 39 a -> ~ In 39 a' -> a ++ 39 :: b = a' ++ 39 :: b' -> a = a' /\ b = b'.
Proof.
  induction a as [|c a IH]; intros [|d a'] b b' H H' E; cbn in E.
  - injection E as ->. auto.
  - injection E as <- _. destruct H'. left. reflexivity.
  - injection E as -> _. destruct H. left. reflexivity.
  - injection E as -> E. destruct (IH a' b b') as [-> ->]; [intros K; apply H; right; exact K|intros K; apply H'; right; exact K|exact E|auto].
Qed.

(** within a word *)
Definition in_word (tok : bytes) (s : bytes) (ws : list bytes) : Prop :=
  (exists t, spells s t /\ ws = [tok ++ t]) \/
  (exists w t c s' ws', s = w ++ c :: s' /\ spells w t /\ gap c /\ ws = (tok ++ t) :: ws' /\ split s' = Some ws').
Lemma nonempty_more tok q c : nonempty (tok ++ [c]) q = true.
Proof. destruct tok; reflexivity. Qed.
Lemma nonempty_true tok : nonempty tok true = true.
Proof. destruct tok; reflexivity. Qed.
Lemma in_word_end tok ws : in_word tok [] ws <-> ws = [tok].
Proof.
  split.
  - intros [(t & H & ->)|([|] & t & c & s' & ws' & K & _)]; [inversion H; rewrite app_nil_r; reflexivity|discriminate..].
  - intros ->. left. exists []. rewrite app_nil_r. split; [constructor|reflexivity].
Qed.
Lemma in_word_gap tok c s ws : gap c -> in_word tok (c :: s) ws <-> exists ws', ws = tok :: ws' /\ split s = Some ws'.
Proof.
  intros G. assert (Hc : ~ (~ gap c) ) by tauto.
  assert (G2 : c <> 39 /\ c <> 34 /\ c <> 92) by (repeat split; intros ->; unfold gap in G; cbn in G; intuition discriminate).
  split.
  - intros [(t & H & ->)|(w & t & d & s' & ws' & E & H & D & -> & K)].
    + inversion H; subst; tauto.
    + destruct w as [|x w].
      * cbn in E. injection E as -> ->. inversion H. subst t. rewrite app_nil_r. exists ws'. auto.
      * cbn in E. injection E as -> ->. inversion H; subst; tauto.
  - intros (ws' & -> & K). right. exists [], [], c, s, ws'. rewrite app_nil_r. repeat split; auto. constructor.
Qed.
(** a piece at the front *)
Lemma in_word_piece p m tok s ws : p <> [] -> (forall s t, spells s t -> spells (p ++ s) (m ++ t)) ->
  (forall x r z y, p ++ s = x ++ z :: r -> gap z -> spells x y -> exists w t, x = p ++ w /\ y = m ++ t /\ spells w t) ->
  (forall y, spells (p ++ s) y -> exists t, y = m ++ t /\ spells s t) ->
  in_word tok (p ++ s) ws <-> in_word (tok ++ m) s ws.
Proof.
  intros P F G H. split.
  - intros [(t & K & ->)|(w & t & c & s' & ws' & E & K & D & -> & W)].
    + destruct (H t K) as (u & -> & U). left. exists u. rewrite <- app_assoc. auto.
    + destruct (G w s' c t E D K) as (w' & u & -> & -> & U). rewrite <- app_assoc in E. apply app_inv_head in E. subst s.
      right. exists w', u, c, s', ws'. rewrite <- app_assoc. auto.
  - intros [(t & K & ->)|(w & t & c & s' & ws' & -> & K & D & -> & W)].
    + left. exists (m ++ t). rewrite <- app_assoc. auto.
    + right. exists (p ++ w), (m ++ t), c, s', ws'. rewrite <- !app_assoc. auto.
Qed.

Lemma spells_gap c s t : gap c -> ~ spells (c :: s) t.
Proof.
  intros G K. inversion K as [|? ? ? A|? ? ? A|? ? ? A|? ? ? ? A]; subst; [exact (A G)|..]; unfold gap in G; cbn in G; intuition discriminate.
Qed.
Lemma spells_plain_inv c s t : ~ In c [39; 34; 92] -> spells (c :: s) t -> exists t', t = c :: t' /\ spells s t'.
Proof. intros Q K. cbn in Q. inversion K; subst; [eauto|exfalso; tauto..]. Qed.
Lemma spells_escaped_inv s t : spells (92 :: s) t -> exists c s' t', s = c :: s' /\ t = c :: t' /\ spells s' t'.
Proof. intros K. inversion K as [|? ? ? A H| | |]; subst; [cbn in H; tauto|]. do 3 eexists. eauto. Qed.
Lemma spells_single_inv s t : spells (39 :: s) t -> exists q s' t', s = q ++ 39 :: s' /\ ~ In 39 q /\ t = q ++ t' /\ spells s' t'.
Proof. intros K. inversion K as [|? ? ? A H| | |]; subst; [cbn in H; tauto|]. do 3 eexists. eauto. Qed.
Lemma spells_double_inv s t : spells (34 :: s) t -> exists q m s' t', s = q ++ 34 :: s' /\ between q m /\ t = m ++ t' /\ spells s' t'.
Proof. intros K. inversion K as [|? ? ? A H| | |]; subst; [cbn in H; tauto|]. do 4 eexists. eauto. Qed.

Lemma word_plain c tok s ws : ~ gap c -> ~ In c [39; 34; 92] -> in_word tok (c :: s) ws <-> in_word (tok ++ [c]) s ws.
Proof.
  intros G Q. apply (in_word_piece [c] [c] tok s ws); [discriminate|intros s0 t; cbn [app]; apply spells_char; assumption|..].
  - intros [|x xs] r z y E D K; cbn [app] in E.
    + injection E as -> _. contradiction.
    + injection E as -> E. destruct (spells_plain_inv _ _ _ Q K) as (t' & -> & K'). exists xs, t'. auto.
  - intros y K. destruct (spells_plain_inv _ _ _ Q K) as (t' & -> & K'). exists t'. auto.
Qed.
Lemma word_escaped c tok s ws : in_word tok (92 :: c :: s) ws <-> in_word (tok ++ [c]) s ws.
Proof.
  apply (in_word_piece [92; c] [c] tok s ws); [discriminate|intros s0 t; cbn [app]; apply spells_escaped|..].
  - intros [|x xs] r z y E D K; cbn [app] in E.
    + injection E as <- _. unfold gap in D. cbn in D. intuition discriminate.
    + injection E as <- E. destruct (spells_escaped_inv _ _ K) as (d & s' & t' & -> & -> & K'). injection E as -> E. exists s', t'. auto.
  - intros y K. destruct (spells_escaped_inv _ _ K) as (d & s' & t' & E & -> & K'). injection E as -> ->. exists t'. auto.
Qed.
Lemma word_single q tok s ws : ~ In 39 q -> in_word tok (39 :: q ++ 39 :: s) ws <-> in_word (tok ++ q) s ws.
Proof.
  intros Q. assert (A : forall r, 39 :: q ++ 39 :: r = (39 :: q ++ [39]) ++ r) by (intros r; cbn [app]; rewrite <- app_assoc; reflexivity).
  rewrite A. apply in_word_piece; [discriminate|intros s0 t K; rewrite <- A; apply spells_single; assumption|..].
  - intros [|x xs] r z y E D K; rewrite <- A in E; cbn [app] in E.
    + injection E as <- _. unfold gap in D. cbn in D. intuition discriminate.
    + injection E as <- E. destruct (spells_single_inv _ _ K) as (q' & s' & t' & -> & Q' & -> & K').
      rewrite <- app_assoc in E. apply first_mark in E as [<- _]; [|assumption..]. exists s', t'. rewrite <- A. auto.
  - intros y K. rewrite <- A in K. destruct (spells_single_inv _ _ K) as (q' & s' & t' & E & Q' & -> & K').
    apply first_mark in E as [<- <-]; [|assumption..]. exists t'. auto.
Qed.
Lemma word_double q m tok s ws : between q m -> in_word tok (34 :: q ++ 34 :: s) ws <-> in_word (tok ++ m) s ws.
Proof.
  intros Q. assert (A : forall r, 34 :: q ++ 34 :: r = (34 :: q ++ [34]) ++ r) by (intros r; cbn [app]; rewrite <- app_assoc; reflexivity).
  rewrite A. apply in_word_piece; [discriminate|intros s0 t K; rewrite <- A; apply spells_double; assumption|..].
  - intros [|x xs] r z y E D K; rewrite <- A in E; cbn [app] in E.
    + injection E as <- _. unfold gap in D. cbn in D. intuition discriminate.
    + injection E as <- E. destruct (spells_double_inv _ _ K) as (q' & m' & s' & t' & -> & Q' & -> & K').
      rewrite <- app_assoc in E. destruct (between_split _ _ Q _ _ _ _ Q' E) as (<- & <- & _). exists s', t'. rewrite <- A. auto.
  - intros y K. rewrite <- A in K. destruct (spells_double_inv _ _ K) as (q' & m' & s' & t' & E & Q' & -> & K').
    destruct (between_split _ _ Q _ _ _ _ Q' E) as (<- & <- & <-). exists t'. auto.
Qed.
Lemma word_stuck c s tok ws : (forall t, ~ spells (c :: s) t) -> (forall w d r t, s = w ++ d :: r -> ~ spells (c :: w) t) -> ~ gap c -> ~ in_word tok (c :: s) ws.
Proof.
  intros A H G [(t & K & _)|(w & t & d & s' & ws' & E & K & D & _)]; [exact (A t K)|].
  destruct w as [|x w]; injection E as <- E; [contradiction|]. exact (H w d s' t E K).
Qed.
Lemma lex_word : forall s tok q ws, nonempty tok q = true -> lex InWord tok q s = Some ws <-> in_word tok s ws.
Proof.
  enough (H : forall n s, (List.length s < n)%nat -> forall tok q ws, nonempty tok q = true -> lex InWord tok q s = Some ws <-> in_word tok s ws)
    by (intros s; apply (H (S (List.length s))); lia).
  induction n as [|n IH]; intros s L tok q ws T; [lia|]. destruct s as [|c s].
  - cbn [lex]. rewrite T, in_word_end. split; [intros [= <-]; reflexivity|intros ->; reflexivity].
  - cbn [List.length] in L. cbn [lex]. destruct (white c) eqn:W.
    + rewrite T, in_word_gap by (apply gap_white, W). fold (split s). destruct (split s) as [l|]; cbn [option_map].
      * split; [intros [= <-]; eauto|intros (ws' & -> & [= ->]); reflexivity].
      * split; [discriminate|intros (ws' & _ & K); discriminate].
    + assert (NG : ~ gap c) by (rewrite gap_white; congruence).
      destruct (is_quote c) eqn:Q.
      * unfold is_quote in Q. apply orb_true_iff in Q. rewrite !N.eqb_eq in Q. destruct Q as [->| ->].
        -- destruct (lex_single s tok q) as [[A ->]|(a & b & -> & A & ->)].
           ++ split; [discriminate|]. intros K. exfalso. revert K. apply word_stuck; [| |exact NG].
              ** intros t K. destruct (spells_single_inv _ _ K) as (q' & s' & t' & -> & _). apply A. rewrite in_app_iff. right. left. reflexivity.
              ** intros w d r t -> K. destruct (spells_single_inv _ _ K) as (q' & s' & t' & -> & _). apply A. rewrite !in_app_iff. left. right. left. reflexivity.
           ++ rewrite (word_single a tok b ws A). apply IH; [rewrite app_length in L; cbn in L; lia|apply nonempty_true].
        -- destruct (lex_double s tok q) as [[A ->]|(a & m & b & -> & A & ->)].
           ++ split; [discriminate|]. intros K. exfalso. revert K. apply word_stuck; [| |exact NG].
              ** intros t K. destruct (spells_double_inv _ _ K) as (q' & m' & s' & t' & -> & B' & _). exact (A _ _ _ eq_refl B').
              ** intros w d r t -> K. destruct (spells_double_inv _ _ K) as (q' & m' & s' & t' & -> & B' & _). rewrite <- app_assoc in A. exact (A _ _ _ eq_refl B').
           ++ rewrite (word_double a m tok b ws A). apply IH; [rewrite app_length in L; cbn in L; lia|apply nonempty_true].
      * destruct (c =? 92) eqn:E.
        -- apply N.eqb_eq in E. subst c. destruct s as [|d s].
           ++ cbn [lex]. split; [discriminate|]. intros K. exfalso. revert K. apply word_stuck; [| |exact NG].
              ** intros t K. destruct (spells_escaped_inv _ _ K) as (? & ? & ? & ? & _). discriminate.
              ** intros [|] d r t K; discriminate K.
           ++ cbn [lex]. rewrite word_escaped. apply IH; [cbn in L; lia|apply nonempty_more].
        -- destruct (plain_dec c W Q E) as [G1 G2]. rewrite (word_plain c tok s ws G1 G2). apply IH; [lia|apply nonempty_more].
Qed.
(** the start of a word is like its inside, with nothing yet *)
Lemma lex_start c s : white c = false -> lex Blank [] false (c :: s) = lex InWord [] false (c :: s).
Proof. intros W. cbn [lex]. rewrite W. destruct (c =? 92) eqn:E; [apply N.eqb_eq in E; subst c; reflexivity|]. destruct (is_quote c); reflexivity. Qed.
Lemma lex_first c s ws : white c = false -> lex InWord [] false (c :: s) = Some ws <-> in_word [] (c :: s) ws.
Proof.
  intros W. assert (NG : ~ gap c) by (rewrite gap_white; congruence).
  cbn [lex]. rewrite W. destruct (is_quote c) eqn:Q.
  - (* as in a word that has something *)
    pose proof (lex_word (c :: s) [] true ws eq_refl) as H. cbn [lex] in H. rewrite W, Q in H. rewrite <- H.
    unfold is_quote in Q. apply orb_true_iff in Q. rewrite !N.eqb_eq in Q. destruct Q as [->| ->].
    + destruct (lex_single s [] true) as [[A ->]|(a & b & E0 & A & ->)]; destruct (lex_single s [] false) as [[A' ->]|(a' & b' & E & A' & ->)]; try reflexivity.
      * exfalso. apply A. rewrite E, in_app_iff. right. left. reflexivity.
      * exfalso. apply A'. rewrite E0, in_app_iff. right. left. reflexivity.
      * rewrite E0 in E. apply first_mark in E as [-> ->]; [reflexivity|assumption..].
    + destruct (lex_double s [] true) as [[A ->]|(a & m & b & E0 & A & ->)]; destruct (lex_double s [] false) as [[A' ->]|(a' & m' & b' & E & A' & ->)]; try reflexivity.
      * exfalso. exact (A _ _ _ E A').
      * exfalso. exact (A' _ _ _ E0 A).
      * rewrite E0 in E. destruct (between_split _ _ A _ _ _ _ A' E) as (-> & -> & ->). reflexivity.
  - destruct (c =? 92) eqn:E.
    + apply N.eqb_eq in E. subst c. destruct s as [|d s].
      * cbn [lex]. split; [discriminate|]. intros K. exfalso. revert K. apply word_stuck; [| |exact NG].
        -- intros t K. destruct (spells_escaped_inv _ _ K) as (? & ? & ? & ? & _). discriminate.
        -- intros [|] d r t K; discriminate K.
      * cbn [lex]. rewrite word_escaped. apply lex_word. reflexivity.
    + destruct (plain_dec c W Q E) as [G1 G2]. rewrite (word_plain c [] s ws G1 G2). apply lex_word. reflexivity.
Qed.
Lemma sentence_in_word s ws : s <> [] -> in_word [] s ws -> (forall s' ws', (List.length s' < List.length s)%nat -> split s' = Some ws' -> sentence s' ws') ->
  (forall c r, s = c :: r -> ~ gap c) -> sentence s ws.
Proof.
  intros Nn [(t & K & ->)|(w & t & c & s' & ws' & -> & K & G & -> & W)] IH F.
  - apply sentence_last; assumption.
  - cbn [app]. apply sentence_word; [|assumption..|].
    + intros ->. apply (F c s' eq_refl G).
    + apply IH; [rewrite app_length; cbn; lia|exact W].
Qed.
Theorem split_iff : forall s ws, split s = Some ws <-> sentence s ws.
Proof.
  assert (H1 : forall n s, (List.length s < n)%nat -> forall ws, split s = Some ws -> sentence s ws).
  { induction n as [|n IH]; intros s L ws; [lia|]. destruct s as [|c s].
    - intros [= <-]. constructor.
    - intros H. destruct (white c) eqn:W.
      + unfold split in H. cbn [lex] in H. rewrite W in H. cbn [nonempty] in H. apply sentence_gap; [apply gap_white, W|]. apply IH; [cbn in L; lia|exact H].
      + unfold split in H. rewrite lex_start in H by exact W. apply (lex_first c s ws W) in H. apply sentence_in_word; [discriminate|exact H| |].
        * intros s' ws' L' K. apply IH; [lia|exact K].
        * intros d r [= -> _]. rewrite gap_white. congruence. }
  assert (H2 : forall s ws, sentence s ws -> split s = Some ws).
  { induction 1 as [|c s ws G _ IH|w t Nn K|w t c s ws Nn K G _ IH].
    - reflexivity.
    - apply gap_white in G. unfold split. cbn [lex]. rewrite G. exact IH.
    - destruct w as [|c w]; [congruence|]. assert (W : white c = false) by (destruct (white c) eqn:W; [|reflexivity]; apply gap_white in W; destruct (spells_gap _ _ _ W K)).
      unfold split. rewrite lex_start by exact W. apply lex_first; [exact W|]. left. exists t. auto.
    - destruct w as [|d w]; [congruence|]. assert (W : white d = false) by (destruct (white d) eqn:W; [|reflexivity]; apply gap_white in W; destruct (spells_gap _ _ _ W K)).
      unfold split. cbn [app]. rewrite lex_start by exact W. apply lex_first; [exact W|]. right. exists (d :: w), t, c, s, ws. auto 6. }
  intros s ws. split; [apply (H1 (S (List.length s))); lia|apply H2].
Qed.

(** ** Trimming *)
Local Close Scope N_scope.
Local Open Scope nat_scope.
Lemma space_blank c : CaseNames.is_space c = true <-> blank_char c.
Proof. unfold CaseNames.is_space, blank_char. rewrite !orb_true_iff, !andb_true_iff, !N.leb_le, !N.eqb_eq. tauto. Qed.
Lemma lstrip_app a r : Forall blank_char a -> lstrip (a ++ r) = lstrip r.
Proof. induction 1 as [|c a H _ IH]; [reflexivity|]. cbn. apply space_blank in H. rewrite H. exact IH. Qed.
Lemma lstrip_split s : exists a, s = a ++ lstrip s /\ Forall blank_char a /\ forall c r, lstrip s = c :: r -> ~ blank_char c.
Proof.
  induction s as [|c s (a & E & F & H)].
  - exists []. split; [reflexivity|]. split; [constructor|discriminate].
  - cbn. destruct (CaseNames.is_space c) eqn:W.
    + exists (c :: a). split; [cbn; congruence|]. split; [constructor; [apply space_blank, W|exact F]|exact H].
    + exists []. split; [reflexivity|]. split; [constructor|]. intros d r [= <- _] K. apply space_blank in K. congruence.
Qed.
Lemma lstrip_id t : (forall c r, t = c :: r -> ~ blank_char c) -> lstrip t = t.
Proof. intros H. destruct t as [|c t]; [reflexivity|]. cbn. destruct (CaseNames.is_space c) eqn:W; [|reflexivity]. apply space_blank in W. destruct (H c t eq_refl W). Qed.
Lemma Forall_rev' {A} (P : A -> Prop) l : Forall P l -> Forall P (rev l).
Proof. rewrite !Forall_forall. intros H x I. apply H, in_rev, I. Qed.
Theorem strip_iff s t : strip s = t <-> trimmed s t.
Proof.
  unfold strip, trimmed. split.
  - intros <-. destruct (lstrip_split s) as (a & E & F & H). destruct (lstrip_split (rev (lstrip s))) as (b & E2 & F2 & H2).
    exists a, (rev b). assert (E3 : lstrip s = rev (lstrip (rev (lstrip s))) ++ rev b) by (rewrite <- rev_app_distr, <- E2, rev_involutive; reflexivity).
    split; [rewrite <- E3; exact E|]. split; [exact F|]. split; [apply Forall_rev', F2|]. split.
    + intros c r K. rewrite K in E3. apply (H c (r ++ rev b)). exact E3.
    + intros c r K. apply (f_equal (@rev N)) in K. rewrite rev_involutive, rev_app_distr in K. cbn in K. exact (H2 _ _ K).
  - intros (a & b & -> & F & F2 & H & H2). rewrite lstrip_app by exact F. destruct t as [|c t].
    + cbn [app]. rewrite <- (app_nil_r b), lstrip_app by exact F2. reflexivity.
    + rewrite (lstrip_id ((c :: t) ++ b)) by (intros d r K; cbn in K; injection K as <- _; exact (H c t eq_refl)). rewrite rev_app_distr, lstrip_app by (apply Forall_rev', F2).
      rewrite lstrip_id, rev_involutive; [reflexivity|]. intros d r K. apply (H2 d (rev r)). rewrite <- (rev_involutive (c :: t)), K. reflexivity.
Qed.
Theorem reads_iff s ws : split (strip s) = Some ws <-> line_reads s ws.
Proof.
  rewrite split_iff. unfold line_reads. split; [intros H; exists (strip s); split; [apply strip_iff; reflexivity|exact H]|].
  intros (t & T & H). apply strip_iff in T. rewrite T. exact H.
Qed.
Lemma unread_iff s : split (strip s) = None <-> forall ws, ~ line_reads s ws.
Proof.
  split; [intros H ws K; apply reads_iff in K; congruence|]. intros H. destruct (split (strip s)) as [ws|] eqn:E; [|reflexivity].
  apply reads_iff in E. destruct (H _ E).
Qed.

(** ** Troubles *)
Lemma integer_iff lim x id : py_int lim x = Some id <-> integer lim x id.
Proof. apply Proofs.Interactor.py_int_iff. Qed.
Lemma no_integer lim x : py_int lim x = None <-> forall id, ~ integer lim x id.
Proof.
  split; [intros H id K; apply integer_iff in K; congruence|]. intros H. destruct (py_int lim x) as [id|] eqn:E; [|reflexivity].
  apply integer_iff in E. destruct (H _ E).
Qed.
Lemma nth_true l n : nth n l false = true <-> nth_error l n = Some true.
Proof. revert n. induction l as [|b l IH]; intros [|n]; cbn; [split; discriminate..| |apply IH]. split; [intros ->; reflexivity|intros [= ->]; reflexivity]. Qed.
Lemma bytes_arg_iff lim st x : bytes_arg lim st x = true <-> from_editor lim st x.
Proof.
  unfold bytes_arg, from_editor. split.
  - destruct (py_int lim x) as [id|] eqn:E; [|discriminate]. destruct (get_submission_data (s_cli st) id) as [e|] eqn:G; [|discriminate].
    intros H. apply andb_true_iff in H as [H1 H2]. exists id, e. split; [apply integer_iff, E|]. split; [apply Proofs.Commands.get_submission_data_iff, G|].
    split; [destruct (e_src e); [discriminate|discriminate]|apply nth_true, H1].
  - intros (id & e & I & G & Nn & K). apply integer_iff in I. apply Proofs.Commands.get_submission_data_iff in G. apply nth_true in K. rewrite I, G, K.
    destruct (e_src e); [congruence|reflexivity].
Qed.
Lemma readable_iff lim w st x : (exists s, get_data lim (base w) (s_cli st) x = Some s) <-> readable lim w st x.
Proof.
  unfold get_data, readable, get_source. split.
  - intros [s H]. destruct (py_int lim x) as [id|] eqn:E.
    + destruct (get_submission_data (s_cli st) id) as [e|] eqn:G; [|discriminate]. left. exists id, e. split; [apply integer_iff, E|apply Proofs.Commands.get_submission_data_iff, G].
    + right. split; [apply no_integer, E|eauto].
  - intros [(id & e & I & G)|(I & s & F)].
    + apply integer_iff in I. apply Proofs.Commands.get_submission_data_iff in G. rewrite I, G. eexists. reflexivity.
    + apply no_integer in I. rewrite I, F. eauto.
Qed.
(** the breakdowns that have nothing to do with colour *)
Definition colourless (lim : nat) (w : around) (c : command) (o : outcome) (st : sess) : bool :=
  match c with Submissions _ => false | _ => breaks_down true lim w c o st end.
Lemma given_some s l : given s = Some l <-> s = Some l /\ l <> [].
Proof. destruct s as [[|c s]|]; cbn; split; try discriminate; [intros [[= <-] K]; congruence|intros [= <-]; split; [reflexivity|discriminate]|intros [K _]; exact K|intros [K _]; discriminate]. Qed.
Lemma given_none s : given s = None <-> s = None \/ s = Some [].
Proof. destruct s as [[|c s]|]; cbn; intuition discriminate. Qed.
Lemma reaches_iff w a : reaches_editor w a = true <-> exists lang, In (a_problem a) (supported w) /\ a_language a = Some lang /\ lang <> [] /\ In lang (executors w) /\
  f_le (a_tl a) (B754_zero false) = false /\ (0 < a_ml a)%Z /\ (a_source a = None \/ a_source a = Some []).
Proof.
  unfold reaches_editor. rewrite !andb_true_iff, negb_true_iff, Z.ltb_lt, Proofs.Commands.listed_iff. split.
  - intros ((((P & L) & T) & M) & S0). destruct (given (a_language a)) as [lang|] eqn:G; [|discriminate]. apply given_some in G as [G G2].
    exists lang. apply Proofs.Commands.listed_iff in L. destruct (given (a_source a)) eqn:Gs; [discriminate|]. apply given_none in Gs. auto 9.
  - intros (lang & P & L & Nn & I & T & M & S0). apply given_none in S0. rewrite S0. assert (G : given (a_language a) = Some lang) by (apply given_some; auto).
    rewrite G. apply Proofs.Commands.listed_iff in I. auto 9.
Qed.
Lemma submit_reached w a st lang : reaches_editor w a = true -> a_language a = Some lang ->
  submit w a st = match editor w lang [] with Some src => (Done Nothing, record_and_grade st (Entry (a_problem a) lang src (a_tl a) (a_ml a))) | None => (Invalid, st) end.
Proof.
  intros R L. apply reaches_iff in R as (lang' & P & L' & Nn & I & T & M & S0). rewrite L in L'. injection L' as <-.
  apply Proofs.Commands.listed_iff in P, I. unfold submit. rewrite P, L, I. cbn [negb]. assert (G : given (Some lang) = Some lang) by (apply given_some; auto). rewrite G.
  rewrite I. cbn [negb]. unfold tl_bad. rewrite T. apply Z.leb_gt in M. rewrite M. apply given_none in S0. rewrite S0. reflexivity.
Qed.
Lemma trouble_iff lim w st c : trouble lim w st c <-> fst (execute lim (base w) c (s_cli st)) = Raised \/ colourless lim w c (fst (execute lim (base w) c (s_cli st))) st = true.
Proof.
  split.
  - intros [x f limit Hl Hr|x s Hi Hf Hk|x y Hx Hy Hd|a lang P L Nn I T M S0 E K].
    + left. cbn. unfold problems. assert (Bd : bad_limit limit = false) by (destruct limit as [z|]; [specialize (Hl z eq_refl); cbn; lia|reflexivity]).
      rewrite Bd. cbn. rewrite Hr. reflexivity.
    + right. apply no_integer in Hi. cbn. unfold show, get_data, get_source. rewrite Hi, Hf, Hk. reflexivity.
    + right. apply readable_iff in Hx as [sx Hx], Hy as [sy Hy]. cbn. unfold diff. rewrite Hx, Hy. apply orb_true_iff. rewrite !bytes_arg_iff. exact Hd.
    + right. assert (R : reaches_editor (base w) a = true) by (apply reaches_iff; exists lang; auto 9).
      cbn [execute colourless]. rewrite (submit_reached _ _ _ _ R L), K. cbn. rewrite E, R. reflexivity.
  - intros [H|H].
    + destruct c; cbn in H; try discriminate H.
      * unfold problems in H. destruct (bad_limit limit) eqn:Bd; [discriminate|]. destruct (given f) as [g|] eqn:G.
        -- apply given_some in G as [-> Nn]. destruct g as [|x g]; [congruence|]. destruct (regex (base w) (x :: g)) as [m|] eqn:R; cbn in H.
           ++ destruct (cut limit _); discriminate.
           ++ apply bad_filter; [|exact R]. intros z ->. cbn in Bd. lia.
        -- cbn in H. destruct (cut limit _); discriminate.
      * unfold submissions in H. destruct (bad_limit limit); discriminate.
      * destruct (submit (base w) a (s_cli st)) as [o s'] eqn:E. cbn in H. subst o. unfold submit in E.
        repeat match type of E with (if ?b then _ else _) = _ => destruct b | (match ?b with _ => _ end) = _ => destruct b; cbn [given] in E end; discriminate.
      * unfold resubmit in H. destruct (get_submission_data _ _); discriminate.
      * unfold rejudge in H. destruct (get_submission_data _ _); discriminate.
      * unfold diff in H. destruct (get_data _ _ _ x); [|discriminate]. destruct (get_data _ _ _ y); discriminate.
      * unfold show in H. destruct (get_data _ _ _ x); discriminate.
    + destruct c; cbn [colourless breaks_down] in H; try discriminate H.
      * cbn [execute] in H. destruct (fst (submit (base w) a (s_cli st))) eqn:E; try discriminate H. apply andb_true_iff in H as [H1 H2].
        pose proof H2 as R. apply reaches_iff in H2 as (lang & P & L & Nn & I & T & M & S0). rewrite (submit_reached _ _ _ _ R L) in E.
        destruct (editor (base w) lang []) eqn:K; [discriminate|]. eapply no_editor; eauto.
      * cbn [execute fst] in H. unfold diff in H. destruct (get_data lim (base w) (s_cli st) x) as [sx|] eqn:X; [|discriminate].
        destruct (get_data lim (base w) (s_cli st) y) as [sy|] eqn:Y; [|discriminate]. apply orb_true_iff in H. rewrite !bytes_arg_iff in H.
        apply editor_sources; [apply readable_iff; eauto..|exact H].
      * cbn [execute fst] in H. unfold show in H. destruct (get_data lim (base w) (s_cli st) x) as [sx|] eqn:X; [|discriminate].
        unfold get_data, get_source in X. destruct (py_int lim x) eqn:P; [discriminate|]. pose proof (proj1 (no_integer lim x) P) as P2. apply negb_true_iff in H. eapply unknown_kind; eauto.
Qed.

(** ** Colours *)
Lemma fine_red : Proofs.Console.fine (B "red|bold").
Proof. apply Proofs.Console.fine_of; [reflexivity|]. intros t. vm_compute. discriminate. Qed.
Lemma fine_yellow : Proofs.Console.fine (B "yellow").
Proof. apply Proofs.Console.fine_of; [reflexivity|]. intros t. vm_compute. discriminate. Qed.
Lemma fine_green : Proofs.Console.fine (B "green").
Proof. apply Proofs.Console.fine_of; [reflexivity|]. intros t. vm_compute. discriminate. Qed.
Lemma no_bracket s : existsb (N.eqb 93) s = false -> ~ In 93%N s.
Proof. intros H I. assert (X : existsb (N.eqb 93) s = true) by (apply existsb_exists; exists 93%N; rewrite N.eqb_refl; auto). congruence. Qed.
Lemma safe_text p f a r : existsb (N.eqb 93) p = false -> ~ found_in (B "](") f -> Proofs.Console.fine a -> existsb (N.eqb 93) a = false -> Proofs.Console.safe r ->
  Proofs.Console.safe (p ++ f ++ B "](" ++ a ++ B ")" ++ r).
Proof.
  intros P F A A2 R. apply Proofs.Console.safe_plain; [apply no_bracket, P|]. apply Proofs.Console.safe_word; [exact F|intros y K; discriminate K|].
  apply Proofs.Console.safe_attrs; [exact A|apply no_bracket, A2|exact R].
Qed.
Lemma printable_safe n m : Proofs.Console.safe m -> printable n m = true.
Proof. intros H. unfold printable. pose proof (Proofs.Console.safe_style n m H). destruct (Console.ansi_style n m); [reflexivity|congruence]. Qed.
Lemma printable_plain m : printable true m = true.
Proof. unfold printable. pose proof (Proofs.Console.no_ansi_total m). destruct (Console.ansi_style true m); [reflexivity|congruence]. Qed.
Lemma red_safe m : ~ found_in (B "](") m -> Proofs.Console.safe (red m).
Proof.
  intros H. unfold red. change (B "](red|bold)" ++ [10%N]) with (B "](" ++ B "red|bold" ++ B ")" ++ [10%N]).
  apply safe_text; [reflexivity|exact H|exact fine_red|reflexivity|]. apply Proofs.Console.safe_clean. intros [K|[]]; discriminate.
Qed.
Lemma unrecognized_safe x : ~ found_in (B "](") x -> Proofs.Console.safe (unrecognized x).
Proof.
  intros H. unfold unrecognized. change (B "](red|bold)") with (B "](" ++ B "red|bold" ++ B ")" ++ []).
  apply safe_text; [reflexivity|exact H|exact fine_red|reflexivity|]. exact Proofs.Console.safe_nil.
Qed.
Lemma listing_safe k e : ~ found_in (B "](") (e_problem e) -> ~ found_in (B "](") (e_lang e) -> Proofs.Console.safe (listing (k, e)).
Proof.
  intros H1 H2. unfold listing. cbn [fst snd].
  change (B "](yellow)/#ansi[" ++ Console.decimal (N.of_nat k) ++ B "](green) in " ++ e_lang e)
    with (B "](" ++ B "yellow" ++ B ")" ++ (B "/#ansi[" ++ Console.decimal (N.of_nat k) ++ B "](" ++ B "green" ++ B ")" ++ (B " in " ++ e_lang e))).
  apply safe_text; [reflexivity|exact H1|exact fine_yellow|reflexivity|].
  apply safe_text; [reflexivity| |exact fine_green|reflexivity|].
  - intros (a & b & E). apply (Proofs.Console.decimal_not (N.of_nat k) 93%N); [right; reflexivity|]. rewrite E, in_app_iff. right. left. reflexivity.
  - apply Proofs.Console.safe_plain; [apply no_bracket; reflexivity|]. apply Proofs.Console.safe_none, H2.
Qed.
Lemma unprintable n m x : printable n m = false -> (~ found_in (B "](") x -> Proofs.Console.safe m) -> n = false /\ found_in (B "](") x.
Proof.
  intros P H. split; [destruct n; [rewrite printable_plain in P; discriminate|reflexivity]|].
  destruct (Proofs.Console.found_dec (B "](") x) as [F|F]; [exact F|]. rewrite (printable_safe n m (H F)) in P. discriminate.
Qed.
Lemma numbered_in k : forall l n e, In (n, e) (numbered_from k l) -> In e l.
Proof. intros l. revert k. induction l as [|x l IH]; intros k n e H; [destruct H|]. cbn in H. destruct H as [[= _ ->]|H]; [left; reflexivity|right; eapply IH, H]. Qed.
Lemma cut_in {A} limit (l : list A) x : In x (cut limit l) -> In x l.
Proof. destruct limit; cbn; [|auto]. rewrite <- (firstn_skipn (Z.to_nat z) l) at 2. rewrite in_app_iff. auto. Qed.

(** ** One command *)
Lemma found_skip c s : c <> 93%N -> found_in (B "](") (c :: s) -> found_in (B "](") s.
Proof. intros N1 ([|x a] & b & E); [cbn in E; injection E as -> _; destruct (N1 eq_refl)|]. injection E as _ E. exists a, b. exact E. Qed.
Lemma found_after p s : ~ In 93%N p -> found_in (B "](") (p ++ s) -> found_in (B "](") s.
Proof.
  induction p as [|c p IH]; intros N1 H; [exact H|]. apply IH; [intros K; apply N1; right; exact K|]. apply (found_skip c); [intros ->; apply N1; left; reflexivity|exact H].
Qed.
Lemma found_before s q : q <> 40%N -> found_in (B "](") (s ++ [q]) -> found_in (B "](") s.
Proof.
  intros N1 (a & b & E). destruct b as [|x b] using rev_ind.
  - exfalso. rewrite app_nil_r in E. change (B "](") with ([93%N] ++ [40%N]) in E. rewrite app_assoc in E. apply app_inj_tail in E as (_ & E). exact (N1 E).
  - rewrite !app_assoc in E. apply app_inj_tail in E as (E & _). exists a, b. rewrite E, <- app_assoc. reflexivity.
Qed.
Lemma found_told what x : ~ In 93%N what -> found_in (B "](") (told what x) -> found_in (B "](") x.
Proof.
  intros N1 H. unfold told in H. apply found_after in H; [|exact N1]. apply found_after in H; [|cbn; intuition discriminate]. apply (found_before x 39%N); [discriminate|exact H].
Qed.
Lemma no_bracket_in s : existsb (N.eqb 93) s = false -> ~ found_in (B "](") s.
Proof.
  intros H (a & b & ->). assert (K : existsb (N.eqb 93) (a ++ B "](" ++ b) = true) by (apply existsb_exists; exists 93%N; split; [apply in_app_iff; right; left; reflexivity|reflexivity]). congruence.
Qed.
Lemma invalid_quiet id : ~ found_in (B "](") (invalid_submission id).
Proof.
  intros H. unfold invalid_submission in H. apply found_told in H; [|cbn; intuition discriminate]. unfold show_int in H.
  apply found_after in H; [|destruct (id <? 0)%Z; cbn; intuition discriminate]. destruct H as (a & b & E).
  pose proof (Proofs.Console.decimal_range (Z.to_N (Z.abs id))) as R. rewrite E in R. apply Forall_app in R as (_ & R). cbn in R. inversion R; subst. lia.
Qed.
Lemma data_found lim w x : found_in (B "](") (data_message lim w x) -> found_in (B "](") (io_text w x).
Proof. unfold data_message. destruct (py_int lim x); [intros H; destruct (invalid_quiet _ H)|exact (fun H => H)]. Qed.
(** Only text of the user brings the brackets into a message. *)
Lemma message_found lim w c st : found_in (B "](") (message lim w c (s_cli st)) -> exists x, coloured lim w st c x /\ found_in (B "](") x.
Proof.
  assert (Q : forall (s : string) (P : Prop), existsb (N.eqb 93) (B s) = false -> found_in (B "](") (B s) -> P) by (intros s P E H; destruct (no_bracket_in _ E H)).
  destruct c as [f limit|limit|a|a|id|x y|x| | |]; cbn [message coloured]; intros H.
  - destruct (bad_limit limit); (revert H; apply Q; vm_compute; reflexivity).
  - revert H; apply Q; vm_compute; reflexivity.
  - unfold submit_message in H. destruct (negb (listed (a_problem a) (supported (base w)))).
    { apply found_told in H; [|cbn; intuition discriminate]. eauto. }
    assert (S0 : found_in (B "](") (match source_arg (base w) a with Some f => io_text w f | None => stdin_text w end) ->
      exists x, (x = a_problem a \/ x = stdin_text w \/ exists f, (a_source a = Some f \/ a_language a = Some f) /\ x = io_text w f) /\ found_in (B "](") x).
    { destruct (source_arg (base w) a) as [f|] eqn:E; [|eauto]. intros K. exists (io_text w f). split; [|exact K]. right. right. exists f. split; [|reflexivity].
      unfold source_arg, given in E. destruct (match a_language a with Some l => listed l (executors (base w)) | None => false end).
      - left. destruct (a_source a) as [[|x r]|]; try discriminate E. congruence.
      - right. destruct (a_language a) as [[|x r]|]; try discriminate E. congruence. }
    destruct (given _) as [l|].
    + destruct (tl_bad (a_tl a)); [revert H; apply Q; vm_compute; reflexivity|].
      destruct (a_ml a <=? 0)%Z; [revert H; apply Q; vm_compute; reflexivity|]. exact (S0 H).
    + destruct (source_arg (base w) a) as [f|]; [|revert H; apply Q; vm_compute; reflexivity].
      destruct (after_dot f); [revert H; apply Q; vm_compute; reflexivity|]. exact (S0 H).
  - unfold resubmit_message in H. destruct (get_submission_data (s_cli st) (r_id a)) as [e|] eqn:E; [|destruct (invalid_quiet _ H)].
    apply found_told in H; [|cbn; intuition discriminate]. destruct (given (r_problem a)) as [p|] eqn:G.
    + exists p. split; [|exact H]. left. unfold given in G. destruct (r_problem a) as [[|y r]|]; try discriminate G. congruence.
    + exists (e_problem e). split; [|exact H]. right. exists e. split; [|reflexivity]. unfold get_submission_data in E. destruct (0 <? r_id a)%Z; [|discriminate E].
      eapply nth_error_In. exact E.
  - destruct (invalid_quiet _ H).
  - destruct (get_data lim (base w) (s_cli st) x); apply data_found in H; eauto.
  - apply data_found in H. eauto.
  - destruct H as ([|? ?] & b & E); discriminate E.
  - destruct H as ([|? ?] & b & E); discriminate E.
  - destruct H as ([|? ?] & b & E); discriminate E.
Qed.
Lemma breaks_iff n lim w c st : let o := fst (execute lim (base w) c (s_cli st)) in
  breaks_down n lim w c o st = true -> colourless lim w c o st = true \/ (n = false /\ exists x, coloured lim w st c x /\ found_in (B "](") x).
Proof.
  intros o H. destruct c; try (left; exact H). right. unfold o in H. cbn [execute fst breaks_down] in H. unfold submissions in H.
  destruct (bad_limit limit); [discriminate|]. apply negb_true_iff in H.
  assert (X : exists ne, In ne (numbered_from 1 (cut limit (history (s_cli st)))) /\ printable n (listing ne) = false).
  { clear o. induction (numbered_from 1 (cut limit (history (s_cli st)))) as [|ne l IH]; [discriminate|]. cbn in H. apply andb_false_iff in H as [H|H].
    - exists ne. split; [left; reflexivity|exact H].
    - destruct (IH H) as (m & I & M). exists m. split; [right; exact I|exact M]. }
  destruct X as ([k e] & I & P). apply numbered_in, cut_in in I.
  destruct (Proofs.Console.found_dec (B "](") (e_problem e)) as [F|F].
  - split; [destruct n; [rewrite printable_plain in P; discriminate|reflexivity]|]. exists (e_problem e). split; [|exact F]. cbn [coloured]. eauto 6.
  - destruct (unprintable n _ (e_lang e) P (listing_safe k e F)) as [-> F2]. split; [reflexivity|]. exists (e_lang e). split; [|exact F2]. cbn [coloured]. eauto 6.
Qed.
Lemma colourless_breaks n lim w c o st : colourless lim w c o st = true -> breaks_down n lim w c o st = true.
Proof. destruct c; cbn; try discriminate; auto. Qed.
Lemma run_one_dies n lim w c st : fst (run_one n lim w c st) = Dies -> trouble lim w st c \/ (n = false /\ exists x, coloured lim w st c x /\ found_in (B "](") x).
Proof.
  unfold run_one. pose proof (trouble_iff lim w st c) as T. pose proof (breaks_iff n lim w c st) as Bk. cbv zeta in Bk.
  destruct (execute lim (base w) c (s_cli st)) as [o st']. cbn [fst] in *. destruct (breaks_down n lim w c o st).
  - intros _. destruct (Bk eq_refl) as [K|K]; [left; apply T; auto|right; exact K].
  - intros K. destruct o; cbn [fst] in K; try discriminate K; [|left; apply T; auto].
    destruct (message lim w c (s_cli st)) as [|x m] eqn:M; [discriminate K|]. destruct (printable n (red (x :: m))) eqn:P; [discriminate K|].
    right. destruct (unprintable n _ (x :: m) P (red_safe _)) as [-> F]. split; [reflexivity|]. rewrite <- M in F. exact (message_found lim w c st F).
Qed.
Lemma run_one_trouble n lim w c st : trouble lim w st c -> fst (run_one n lim w c st) = Dies.
Proof.
  intros H. apply trouble_iff in H. unfold run_one. destruct (execute lim (base w) c (s_cli st)) as [o st']. cbn [fst] in *.
  destruct H as [->|H]; [destruct (breaks_down n lim w c Raised st); reflexivity|]. rewrite (colourless_breaks n _ _ _ _ _ H). reflexivity.
Qed.
Lemma run_one_state n lim w c st : s_cli (snd (run_one n lim w c st)) = snd (execute lim (base w) c (s_cli st)).
Proof. unfold run_one. destruct (execute lim (base w) c (s_cli st)) as [o st']. destruct (breaks_down n lim w c o st), o; try reflexivity. cbn [snd]. destruct (match message lim w c (s_cli st) with [] => true | _ :: _ => _ end); reflexivity. Qed.
Lemma run_one_leaves n lim w c st : fst (run_one n lim w c st) = Leaves <-> c = Quit.
Proof.
  split; [|intros ->; reflexivity]. unfold run_one. intros K. destruct (execute lim (base w) c (s_cli st)) as [o st'] eqn:E. destruct (breaks_down n lim w c o st); [discriminate K|].
  destruct o; cbn [fst] in K; try discriminate K; [destruct (match message lim w c (s_cli st) with [] => true | _ :: _ => _ end); discriminate K|]. clear K.
  destruct c; cbn in E; try discriminate E; [..|reflexivity]; exfalso.
  - injection E as E _. unfold problems in E. destruct (bad_limit limit); [discriminate|]. destruct (match given f with Some _ => _ | None => _ end); [|discriminate]. destruct (cut limit l); discriminate.
  - injection E as E _. unfold submissions in E. destruct (bad_limit limit); discriminate.
  - unfold submit in E.
    repeat match type of E with (if ?b then _ else _) = _ => destruct b | (match ?b with _ => _ end) = _ => destruct b; cbn [given] in E end; discriminate.
  - unfold resubmit in E. destruct (get_submission_data _ _); discriminate.
  - unfold rejudge in E. destruct (get_submission_data _ _); discriminate.
  - injection E as E _. unfold diff in E. destruct (get_data _ _ _ x); [|discriminate]. destruct (get_data _ _ _ y); discriminate.
  - injection E as E _. unfold show in E. destruct (get_data _ _ _ x); discriminate.
Qed.

(** ** Lines *)
Lemma skipn_all' {A} (l m : list A) : skipn (List.length l) (l ++ m) = m.
Proof. induction l; [reflexivity|exact IHl]. Qed.
Lemma begun_same st st' : gradings (s_cli st') = gradings (s_cli st) -> begun st st' = [].
Proof. intros H. unfold begun. rewrite H, skipn_all. reflexivity. Qed.
Lemma begun_more st st' g : gradings (s_cli st') = gradings (s_cli st) ++ g -> begun st st' = map (fun ke => Began (fst ke) (snd ke)) g.
Proof. intros H. unfold begun. rewrite H, skipn_all'. reflexivity. Qed.
Lemma run_one_acts n lim w c st : let (e, st') := run_one n lim w c st in
  (begun st st' = [] /\ gradings (s_cli st') = gradings (s_cli st)) \/
  (e = Code 0 /\ exists k x, begun st st' = [Began k x] /\ gradings (s_cli st') = gradings (s_cli st) ++ [(k, x)] /\
     ((exists a, c = Submit a) \/ exists id, c = Rejudge id /\ entry_number (history (s_cli st)) id x)).
Proof.
  destruct (run_one n lim w c st) as [e st'] eqn:E. pose proof (run_one_state n lim w c st) as Hs. rewrite E in Hs. cbn [snd] in Hs.
  destruct (execute lim (base w) c (s_cli st)) as [o s'] eqn:X. cbn [snd] in Hs.
  destruct (Proofs.Commands.execute_cases _ _ _ _ _ _ X) as [->|[(-> & (a & ->) & x & ->)|(-> & id & x & -> & I & ->)]].
  - left. rewrite Hs. split; [apply begun_same; rewrite Hs|]; reflexivity.
  - right. unfold run_one in E. rewrite X in E. cbn [breaks_down] in E. injection E as <- _. split; [reflexivity|]. exists (S (counter (s_cli st))), x.
    assert (G : gradings (s_cli st') = gradings (s_cli st) ++ [(S (counter (s_cli st)), x)]) by (rewrite Hs; reflexivity).
    rewrite (begun_more _ _ _ G). split; [reflexivity|]. split; [exact G|eauto].
  - right. unfold run_one in E. rewrite X in E. cbn [breaks_down] in E. injection E as <- _. split; [reflexivity|]. exists (counter (s_cli st)), x.
    assert (G : gradings (s_cli st') = gradings (s_cli st) ++ [(counter (s_cli st), x)]) by (rewrite Hs; reflexivity).
    rewrite (begun_more _ _ _ G). split; [reflexivity|]. split; [exact G|eauto].
Qed.
(** what becomes of a line *)
Section Line.
  Variables (n : bool) (lim : nat) (parse : bytes -> list bytes -> option command).
  Notation line := (run_line n lim parse).
  Lemma line_otherwise s w st : line s w (Some Otherwise) st = (Interrupted, [], st).
  Proof. reflexivity. Qed.
  Lemma line_unread s w i st : i <> Some Otherwise -> (forall ws, ~ line_reads s ws) -> line s w i st = (Crashes, [], st).
  Proof. intros I H. apply unread_iff in H. unfold run_line. rewrite H. destruct i as [[]|]; [reflexivity|congruence|reflexivity]. Qed.
  Lemma line_blank s w i st : i <> Some Otherwise -> line_reads s [] -> line s w i st = (Goes_on, [], st).
  Proof. intros I H. apply reads_iff in H. unfold run_line. rewrite H. cbn [run_words]. rewrite begun_same by reflexivity. destruct i as [[]|]; [reflexivity|congruence|reflexivity]. Qed.
  Lemma line_unknown s w i st word args : i <> Some Otherwise -> line_reads s (word :: args) -> parse word args = None ->
    line s w i st = (if printable n (unrecognized word) then Goes_on else Crashes, [], st).
  Proof. intros I H P. apply reads_iff in H. unfold run_line. rewrite H. cbn [run_words]. rewrite P, begun_same by reflexivity. destruct i as [[]|]; [|congruence|]; destruct (printable n (unrecognized word)); reflexivity. Qed.
  Lemma line_command s w i st word args c : i <> Some Otherwise -> line_reads s (word :: args) -> parse word args = Some c ->
    line s w i st = let (e, st') := run_one n lim w c st in
      match begun st st', i with
      | _ :: _, Some _ => if is_rejudge (Some c) then (Interrupted, begun st st', st') else (Goes_on, begun st st' ++ [Aborted], st')
      | _, _ => (match e with Code _ => Goes_on | Leaves => Quits | Dies => Crashes end, begun st st', st')
      end.
  Proof. intros I H P. apply reads_iff in H. unfold run_line. rewrite H. cbn [run_words line_command]. rewrite P. destruct i as [[]|]; [reflexivity|congruence|reflexivity]. Qed.
  Lemma line_cases s : (forall ws, ~ line_reads s ws) \/ line_reads s [] \/ (exists word args, line_reads s (word :: args) /\ parse word args = None) \/
    (exists word args c, line_reads s (word :: args) /\ parse word args = Some c).
  Proof.
    destruct (split (strip s)) as [[|word args]|] eqn:E; [right; left; apply reads_iff, E| |left; apply unread_iff, E].
    apply reads_iff in E. destruct (parse word args) as [c|] eqn:P; right; right; [right|left]; eauto.
  Qed.
  Lemma reads_unique s a b : line_reads s a -> line_reads s b -> a = b.
  Proof. intros H K. apply reads_iff in H, K. congruence. Qed.
  Lemma line_crash s w i st acts st' : line s w i st = (Crashes, acts, st') -> i <> Some Otherwise /\ 
    ((forall ws, ~ line_reads s ws) \/
     (exists word args, line_reads s (word :: args) /\ parse word args = None /\ n = false /\ found_in (B "](") word) \/
     (exists word args c, line_reads s (word :: args) /\ parse word args = Some c /\
        (trouble lim w st c \/ (n = false /\ exists x, coloured lim w st c x /\ found_in (B "](") x)))).
  Proof.
    intros H. assert (I : i <> Some Otherwise) by (intros ->; discriminate H). split; [exact I|].
    destruct (line_cases s) as [U|[U|[(word & args & U & P)|(word & args & c & U & P)]]].
    - left. exact U.
    - rewrite line_blank in H by assumption. discriminate.
    - rewrite (line_unknown s w i st word args I U P) in H. destruct (printable n (unrecognized word)) eqn:K; [discriminate|].
      right; left. exists word, args. destruct (unprintable n _ word K (unrecognized_safe word)). auto.
    - rewrite (line_command s w i st word args c I U P) in H. pose proof (run_one_acts n lim w c st) as A. pose proof (run_one_dies n lim w c st) as D.
      destruct (run_one n lim w c st) as [e s']. cbn [fst] in D. right; right. exists word, args, c. split; [exact U|]. split; [exact P|]. apply D.
      destruct A as [[A _]|(-> & k & x & A & _)]; rewrite A in H.
      + destruct e; try discriminate H. reflexivity.
      + destruct i; [destruct (is_rejudge (Some c)); discriminate H|discriminate H].
  Qed.
  Lemma line_trouble s w i st word args c : i <> Some Otherwise -> line_reads s (word :: args) -> parse word args = Some c -> trouble lim w st c ->
    exists st', line s w i st = (Crashes, [], st') /\ s_cli st' = s_cli st.
  Proof.
    intros I U P T. rewrite (line_command s w i st word args c I U P). pose proof (run_one_trouble n lim w c st T) as D.
    pose proof (run_one_acts n lim w c st) as A. pose proof (run_one_state n lim w c st) as Hs. destruct (run_one n lim w c st) as [e s']. cbn [fst snd] in *. subst e.
    destruct A as [[A _]|(K & _)]; [|discriminate]. rewrite A. exists s'. split; [destruct i; reflexivity|]. rewrite Hs. apply trouble_iff in T.
    destruct (execute lim (base w) c (s_cli st)) as [o s2] eqn:X. cbn [fst snd] in *. 
    destruct (Proofs.Commands.execute_cases _ _ _ _ _ _ X) as [->|[(-> & (a & ->) & x & ->)|(-> & id & x & -> & _ & ->)]]; [reflexivity|exfalso..];
      destruct T as [T|T]; discriminate T.
  Qed.
  Lemma line_quits s w i st acts st' : line s w i st = (Quits, acts, st') <-> i <> Some Otherwise /\ acts = [] /\ st' = st /\ exists word args, line_reads s (word :: args) /\ parse word args = Some Quit.
  Proof.
    split.
    - intros H. assert (I : i <> Some Otherwise) by (intros ->; discriminate H). split; [exact I|].
      destruct (line_cases s) as [U|[U|[(word & args & U & P)|(word & args & c & U & P)]]].
      + rewrite line_unread in H by assumption. discriminate.
      + rewrite line_blank in H by assumption. discriminate.
      + rewrite (line_unknown s w i st word args I U P) in H. destruct (printable n (unrecognized word)); discriminate.
      + rewrite (line_command s w i st word args c I U P) in H. pose proof (run_one_acts n lim w c st) as A. pose proof (run_one_leaves n lim w c st) as D.
        destruct (run_one n lim w c st) as [e s'] eqn:R. cbn [fst] in D.
        destruct A as [[A _]|(-> & k & x & A & _)]; rewrite A in H.
        * destruct e; try discriminate H. assert (c = Quit) as -> by (apply D; reflexivity). cbn in R. injection R as R. injection H as H1 H2.
          split; [congruence|]. split; [rewrite <- H2, <- R; cbn; rewrite app_nil_r; destruct st; reflexivity|eauto].
        * destruct i; [destruct (is_rejudge (Some c)); discriminate H|discriminate H].
    - intros (I & -> & -> & word & args & U & P). rewrite (line_command s w i st word args Quit I U P). cbn. rewrite app_nil_r.
      rewrite begun_same by reflexivity. destruct st; destruct i; reflexivity.
  Qed.
  Lemma line_interrupted s w i st acts st' : line s w i st = (Interrupted, acts, st') <->
    (i = Some Otherwise /\ acts = [] /\ st' = st) \/
    (i = Some WhileGrading /\ exists word args id e, line_reads s (word :: args) /\ parse word args = Some (Rejudge id) /\ entry_number (history (s_cli st)) id e /\
       acts = [Began (counter (s_cli st)) e] /\ st' = Sess (Cli (counter (s_cli st)) (history (s_cli st)) (gradings (s_cli st) ++ [(counter (s_cli st), e)])) (s_bytes st)).
  Proof.
    split.
    - intros H. destruct i as [[]|]; [right|left; injection H as <- <-; auto|exfalso].
      + split; [reflexivity|]. assert (I : Some WhileGrading <> Some Otherwise) by discriminate.
        destruct (line_cases s) as [U|[U|[(word & args & U & P)|(word & args & c & U & P)]]].
        * rewrite line_unread in H by assumption. discriminate.
        * rewrite line_blank in H by assumption. discriminate.
        * rewrite (line_unknown s w _ st word args I U P) in H. destruct (printable n (unrecognized word)); discriminate.
        * rewrite (line_command s w _ st word args c I U P) in H. pose proof (run_one_acts n lim w c st) as A.
          destruct (run_one n lim w c st) as [e s'] eqn:R. destruct A as [[A _]|(-> & k & x & A & G & W)]; rewrite A in H.
          -- destruct e; discriminate H.
          -- destruct c; try discriminate H. injection H as <- <-. destruct W as [(a & W)|(id' & W & En)]; [discriminate|]. injection W as <-.
             exists word, args, id, x. split; [exact U|]. split; [exact P|]. split; [exact En|].
             unfold run_one in R. cbn [execute] in R. unfold rejudge in R. pose proof (proj2 (Proofs.Commands.get_submission_data_iff (s_cli st) id x) En) as Gd. rewrite Gd in R. cbn [breaks_down] in R. injection R as <-.
             rewrite app_nil_r in *. cbn in A. unfold begun in A. cbn [s_cli gradings] in A. rewrite skipn_all' in A. injection A as <-. auto.
      + assert (I : (None : option moment) <> Some Otherwise) by discriminate. 
        destruct (line_cases s) as [U|[U|[(word & args & U & P)|(word & args & c & U & P)]]].
        * rewrite line_unread in H by assumption. discriminate.
        * rewrite line_blank in H by assumption. discriminate.
        * rewrite (line_unknown s w _ st word args I U P) in H. destruct (printable n (unrecognized word)); discriminate.
        * rewrite (line_command s w _ st word args c I U P) in H. destruct (run_one n lim w c st) as [e s']. destruct (begun st s'), e; discriminate H.
    - intros [(-> & -> & ->)|(-> & word & args & id & e & U & P & En & -> & ->)]; [reflexivity|].
      rewrite (line_command s w (Some WhileGrading) st word args _ ltac:(discriminate) U P). unfold run_one. cbn [execute]. unfold rejudge. apply Proofs.Commands.get_submission_data_iff in En. rewrite En. cbn [breaks_down].
      rewrite app_nil_r. rewrite (begun_more _ _ [(counter (s_cli st), e)]) by reflexivity. reflexivity.
  Qed.
  (** the state after a line *)
  Lemma line_state s w i st : let '(_, acts, st') := line s w i st in
    exists cs, (i = Some Otherwise /\ cs = [] \/ i <> Some Otherwise /\ stand_for parse [Typed s w i] cs) /\ s_cli st' = session lim cs (s_cli st) /\
    exists g, gradings (s_cli st') = gradings (s_cli st) ++ g /\ (acts = map (fun ke => Began (fst ke) (snd ke)) g \/ acts = map (fun ke => Began (fst ke) (snd ke)) g ++ [Aborted]).
  Proof.
    destruct (line s w i st) as [[e acts] st'] eqn:H.
    assert (D : i = Some Otherwise \/ i <> Some Otherwise) by (destruct i as [[]|]; [right|left|right]; congruence).
    destruct D as [->|I].
    - injection H as _ <- <-. exists []. split; [left; auto|]. split; [reflexivity|]. exists []. rewrite app_nil_r. auto.
    - destruct (line_cases s) as [U|[U|[(word & args & U & P)|(word & args & c & U & P)]]].
      + rewrite line_unread in H by assumption. injection H as _ <- <-. exists []. split; [right; split; [exact I|]|split; [reflexivity|exists []; rewrite app_nil_r; auto]].
        apply stand_none; [intros ws K; destruct (U _ K)|constructor].
      + rewrite line_blank in H by assumption. injection H as _ <- <-. exists []. split; [right; split; [exact I|]|split; [reflexivity|exists []; rewrite app_nil_r; auto]].
        apply stand_none; [intros ws K; left; apply (reads_unique s); assumption|constructor].
      + rewrite (line_unknown s w i st word args I U P) in H. generalize dependent (printable n (unrecognized word)). intros bb H. injection H as _ <- <-. exists []. split; [right; split; [exact I|]|split; [reflexivity|exists []; rewrite app_nil_r; auto]].
        apply stand_none; [intros ws K; right; exists word, args; split; [apply (reads_unique s); assumption|exact P]|constructor].
      + rewrite (line_command s w i st word args c I U P) in H. pose proof (run_one_acts n lim w c st) as A. pose proof (run_one_state n lim w c st) as Hs.
        destruct (run_one n lim w c st) as [e' s']. cbn [snd] in Hs. exists [(base w, c)].
        assert (E : st' = s') by (destruct (begun st s'), i; [| | destruct (is_rejudge (Some c))|]; injection H as _ _ H; symmetry; exact H). subst s'.
        split; [right; split; [exact I|]; eapply stand_one; [exact U|exact P|constructor]|]. split; [rewrite Hs; reflexivity|].
        destruct A as [[A G]|(-> & k & x & A & G & _)]; rewrite A in H.
        * exists []. rewrite app_nil_r. split; [exact G|]. destruct i; injection H as _ <-; auto.
        * exists [(k, x)]. split; [exact G|]. destruct i; [destruct (is_rejudge (Some c))|]; injection H as _ <-; auto.
  Qed.
End Line.

(** ** The loop *)
Definition began (a : act) : bool := match a with Began _ _ => true | _ => false end.
Definition as_acts (g : list (nat * entry)) : list act := map (fun ke => Began (fst ke) (snd ke)) g.
Lemma filter_began g : filter began (as_acts g) = as_acts g.
Proof. unfold as_acts. induction g as [|ke g IH]; [reflexivity|]. cbn. rewrite IH. reflexivity. Qed.
Lemma in_as_acts a g : In a (as_acts g) -> began a = true.
Proof. unfold as_acts. rewrite in_map_iff. intros (ke & <- & _). reflexivity. Qed.
Lemma stand_cons parse ev cs r l : stand_for parse [ev] cs -> stand_for parse r l -> stand_for parse (ev :: r) (cs ++ l).
Proof.
  intros H K. inversion H as [|s w i r' l' A R|s w i word args c r' l' A P R]; subst.
  - inversion R; subst. cbn. apply stand_none; assumption.
  - inversion R; subst. cbn. eapply stand_one; eassumption.
Qed.
Section Loop.
  Variables (n : bool) (lim : nat) (parse : bytes -> list bytes -> option command).
  Lemma loop_app a b : forall st, loop n lim parse (a ++ b) st =
    match loop n lim parse a st with
    | (Running, acts, st') => let '(e, more, st2) := loop n lim parse b st' in (e, acts ++ more, st2)
    | r => r
    end.
  Proof.
    induction a as [|ev a IH]; intros st.
    - cbn. destruct (loop n lim parse b st) as [[e m] s2]. reflexivity.
    - cbn [app loop]. destruct ev as [s w i| |]; [|reflexivity..]. destruct (run_line n lim parse s w i st) as [[[] acts] st']; [|reflexivity..].
      rewrite IH. destruct (loop n lim parse a st') as [[[] m] s2]; [|reflexivity..]. destruct (loop n lim parse b s2) as [[e m'] s3]. rewrite app_assoc. reflexivity.
  Qed.
  Lemma loop_state evs : forall st, let '(e, acts, st') := loop n lim parse evs st in
    exists don rest cs, evs = don ++ rest /\ stand_for parse don cs /\ s_cli st' = session lim cs (s_cli st) /\ (e = Running -> rest = []) /\
    exists g, gradings (s_cli st') = gradings (s_cli st) ++ g /\ filter began acts = as_acts g /\ forall a, In a acts -> began a = true \/ a = Aborted.
  Proof.
    induction evs as [|ev evs IH]; intros st.
    - cbn. exists [], [], []. split; [reflexivity|]. split; [constructor|]. split; [reflexivity|]. split; [reflexivity|]. exists []. rewrite app_nil_r. split; [reflexivity|]. split; [reflexivity|intros a []].
    - cbn [loop]. destruct ev as [s w i| |].
      2,3: exists []; eexists; exists []; split; [reflexivity|]; split; [constructor|]; split; [reflexivity|]; split; [discriminate|]; exists []; rewrite app_nil_r; split; [reflexivity|]; split; [reflexivity|intros a []].
      pose proof (line_state n lim parse s w i st) as L. destruct (run_line n lim parse s w i st) as [[e acts] st'] eqn:R.
      destruct L as (cs & D & Hs & g & G & A).
      assert (FA : filter began acts = as_acts g /\ forall a, In a acts -> began a = true \/ a = Aborted).
      { destruct A as [->| ->]; fold (as_acts g).
        - split; [apply filter_began|intros a I; left; eapply in_as_acts, I].
        - split; [rewrite filter_app, filter_began; cbn; apply app_nil_r|]. intros a I. apply in_app_iff in I as [I|[<-|[]]]; [left; eapply in_as_acts, I|auto]. }
      destruct FA as [FA IA].
      assert (Stop : forall e', e' <> Running -> exists don rest cs', Typed s w i :: evs = don ++ rest /\ stand_for parse don cs' /\ s_cli st' = session lim cs' (s_cli st) /\ (e' = Running -> rest = []) /\
        exists g, gradings (s_cli st') = gradings (s_cli st) ++ g /\ filter began acts = as_acts g /\ forall a, In a acts -> began a = true \/ a = Aborted).
      { intros e' He. destruct D as [[-> ->]|[I D]].
        - exists [], (Typed s w (Some Otherwise) :: evs), []. split; [reflexivity|]. split; [constructor|]. split; [exact Hs|]. split; [congruence|]. exists g. auto.
        - exists [Typed s w i], evs, cs. split; [reflexivity|]. split; [exact D|]. split; [exact Hs|]. split; [congruence|]. exists g. auto. }
      destruct e; try (apply Stop; discriminate).
      specialize (IH st'). destruct (loop n lim parse evs st') as [[e' more] st2]. destruct IH as (don & rest & cs2 & -> & S2 & Hs2 & Hr & g2 & G2 & F2 & I2).
      destruct D as [[-> ->]|[I D]]; [rewrite line_otherwise in R; discriminate|].
      exists (Typed s w i :: don), rest, (cs ++ cs2). split; [reflexivity|]. split; [apply stand_cons; assumption|].
      split; [rewrite Proofs.Commands.session_app, <- Hs; exact Hs2|]. split; [exact Hr|]. exists (g ++ g2).
      split; [rewrite G2, G, app_assoc; reflexivity|]. split; [rewrite filter_app, FA, F2; unfold as_acts; rewrite map_app; reflexivity|].
      intros a Ia. apply in_app_iff in Ia as [Ia|Ia]; auto.
  Qed.
End Loop.

(** ** Sources *)
Lemma newlines_universal : forall s, newlines s (universal s).
Proof.
  enough (H : forall k s, List.length s < k -> newlines s (universal s)) by (intros s; apply (H (S (List.length s))); lia).
  induction k as [|k IH]; intros s L; [lia|]. destruct s as [|c s]; [constructor|]. cbn [List.length] in L. cbn [universal].
  destruct (N.eqb_spec c 13) as [->|E].
  - destruct s as [|d s]; [apply (nl_cr [] []); [constructor|discriminate]|]. destruct (N.eqb_spec d 10) as [->|E2].
    + apply nl_crlf, IH. cbn in L. lia.
    + apply nl_cr; [apply IH; lia|]. intros r [= -> _]. congruence.
  - destruct (N.eqb_spec c 10) as [->|E2]; [apply nl_lf|apply nl_char; [exact E|exact E2|]]; apply IH; lia.
Qed.
Lemma newlines_fun s t : newlines s t -> forall u, newlines s u -> t = u.
Proof.
  induction 1 as [|s t H IH|s t H IH Nx|s t H IH|c s t A A2 H IH]; intros u K; inversion K; subst; try congruence; try (f_equal; auto; fail).
Qed.
Lemma universal_iff s t : universal s = t <-> newlines s t.
Proof. split; [intros <-; apply newlines_universal|intros H; apply (newlines_fun s); [apply newlines_universal|exact H]]. Qed.
Lemma typed_split l : exists rest, l = typed_lines l ++ rest /\ (forall s, In s (typed_lines l) -> ~ trimmed s (B ":q")) /\
  (rest = [] \/ exists s r, rest = s :: r /\ trimmed s (B ":q")).
Proof.
  induction l as [|s l (rest & E & H & R)]; [exists []; split; [reflexivity|]; split; [intros s []|auto]|].
  cbn [typed_lines]. destruct (beqb_spec (strip s) (B ":q")) as [K|K].
  - exists (s :: l). split; [reflexivity|]. split; [intros x []|]. right. exists s, l. split; [reflexivity|]. apply strip_iff, K.
  - exists rest. split; [cbn; congruence|]. split; [|exact R]. intros x [<-|I]; [intros T; apply strip_iff in T; contradiction|exact (H x I)].
Qed.
Lemma join_glued l : Console.join [10%N] l = glued l.
Proof. induction l as [|x [|y l] IH]; [reflexivity|reflexivity|]. cbn [Console.join glued] in *. rewrite IH. reflexivity. Qed.

(** ** Columns *)
Lemma widest_le l x : In x l -> List.length x <= widest l.
Proof. unfold widest. induction l as [|y l IH]; [intros []|]. intros [->|I]; cbn [fold_right]; [lia|specialize (IH I); lia]. Qed.
Lemma widest_in l : l <> [] -> exists x, In x l /\ List.length x = widest l.
Proof.
  unfold widest. induction l as [|y l IH]; [congruence|]. intros _. cbn [fold_right]. destruct l as [|z l].
  - exists y. split; [left; reflexivity|cbn; lia].
  - destruct IH as (x & I & E); [discriminate|]. destruct (Nat.max_spec (List.length y) (fold_right (fun p m => Nat.max (List.length p) m) 0 (z :: l))) as [[_ ->]|[_ ->]].
    + exists x. split; [right; exact I|exact E].
    + exists y. split; [left; reflexivity|reflexivity].
Qed.
Lemma rows_ind (P : list bytes -> Prop) : P [] -> (forall a, P [a]) -> (forall a b, P [a; b]) -> (forall a b c, P [a; b; c]) ->
  (forall a b c d r, P r -> P (a :: b :: c :: d :: r)) -> forall l, P l.
Proof.
  intros H0 H1 H2 H3 H4. enough (H : forall k l, List.length l < k -> P l) by (intros l; apply (H (S (List.length l))); lia).
  induction k as [|k IH]; intros l L; [lia|]. destruct l as [|a [|b [|c [|d l]]]]; auto. apply H4, IH. cbn in L. lia.
Qed.
(** row r, column c is name 4r+c, or empty *)
Lemma rows_nth l : forall k, k < 4 * List.length (rows l) -> exists row x, nth_error (rows l) (k / 4) = Some row /\ List.length row = 4 /\ nth_error row (k mod 4) = Some x /\ x = nth k l [].
Proof.
  induction l as [|a|a b|a b c|a b c d r IH] using rows_ind; intros k L.
  - cbn in L. lia.
  - cbn in L. do 4 (destruct k as [|k]; [do 2 eexists; repeat split; reflexivity|]). lia.
  - cbn in L. do 4 (destruct k as [|k]; [do 2 eexists; repeat split; reflexivity|]). lia.
  - cbn in L. do 4 (destruct k as [|k]; [do 2 eexists; repeat split; reflexivity|]). lia.
  - cbn [rows List.length] in L. do 4 (destruct k as [|k]; [do 2 eexists; repeat split; reflexivity|]).
    replace (S (S (S (S k)))) with (k + 1 * 4) by lia. rewrite Nat.div_add, Nat.mod_add by lia. rewrite Nat.add_1_r. cbn [rows nth_error].
    destruct (IH k ltac:(lia)) as (row & x & R1 & R2 & R3 & R4). exists row, x. split; [exact R1|]. split; [exact R2|]. split; [exact R3|].
    rewrite R4. replace (k + 1 * 4) with (S (S (S (S k)))) by lia. reflexivity.
Qed.
Lemma rows_length l : List.length l <= 4 * List.length (rows l) < List.length l + 4.
Proof. induction l as [|a|a b|a b c|a b c d r IH] using rows_ind; cbn [rows List.length] in *; lia. Qed.
Lemma ljust_length w x : List.length x <= w -> List.length (ljust w x) = w.
Proof. intros H. unfold ljust. rewrite app_length, repeat_length. lia. Qed.
Lemma cell w a b c d : List.length a <= w -> List.length b <= w -> List.length c <= w -> List.length d <= w ->
  let s := Console.join (B " ") (map (ljust w) [a; b; c; d]) in
  List.length s = 4 * w + 3 /\ forall j x, nth_error [a; b; c; d] j = Some x -> firstn w (skipn (j * (w + 1)) s) = ljust w x.
Proof.
  intros A B0 C D. cbn [map Console.join]. change (B " ") with [32%N].
  pose proof (ljust_length w a A) as LA. pose proof (ljust_length w b B0) as LB. pose proof (ljust_length w c C) as LC. pose proof (ljust_length w d D) as LD.
  set (ja := ljust w a) in *. set (jb := ljust w b) in *. set (jc := ljust w c) in *. set (jd := ljust w d) in *.
  split; [rewrite !app_length; cbn [List.length]; lia|].
  assert (X : forall (p q r : bytes) k m, List.length p = k -> List.length q = m -> firstn m (skipn k (p ++ q ++ r)) = q).
  { intros p q r k m <- <-. rewrite skipn_all'. rewrite firstn_app, Nat.sub_diag, firstn_all. cbn. apply app_nil_r. }
  intros [|[|[|[|j]]]] x E; cbn in E.
  - injection E as <-. apply (X [] ja _ 0 w eq_refl LA).
  - injection E as <-. replace (ja ++ [32%N] ++ jb ++ [32%N] ++ jc ++ [32%N] ++ jd) with ((ja ++ [32%N]) ++ jb ++ [32%N] ++ jc ++ [32%N] ++ jd) by (rewrite <- !app_assoc; reflexivity).
    apply X; [rewrite app_length; cbn; lia|exact LB].
  - injection E as <-. replace (ja ++ [32%N] ++ jb ++ [32%N] ++ jc ++ [32%N] ++ jd) with ((ja ++ [32%N] ++ jb ++ [32%N]) ++ jc ++ [32%N] ++ jd) by (rewrite <- !app_assoc; reflexivity).
    apply X; [rewrite !app_length; cbn [List.length]; lia|exact LC].
  - injection E as <-. replace (ja ++ [32%N] ++ jb ++ [32%N] ++ jc ++ [32%N] ++ jd) with ((ja ++ [32%N] ++ jb ++ [32%N] ++ jc ++ [32%N]) ++ jd ++ []) by (rewrite app_nil_r, <- !app_assoc; reflexivity).
    apply X; [rewrite !app_length; cbn [List.length]; lia|exact LD].
  - destruct j; discriminate.
Qed.
Lemma nth_le l k : List.length (nth k l ([] : bytes)) <= widest l.
Proof. destruct (Nat.lt_ge_cases k (List.length l)) as [H|H]; [apply widest_le, nth_In, H|rewrite nth_overflow by exact H; cbn; lia]. Qed.
Theorem columns l : let w := widest l in exists body, problem_lines l = body ++ [[]] /\
  List.length l <= 4 * List.length body < List.length l + 4 /\
  (forall s, In s body -> List.length s = 4 * w + 3) /\
  forall k, k < 4 * List.length body -> exists s, nth_error body (k / 4) = Some s /\
    firstn w (skipn (k mod 4 * (w + 1)) s) = nth k l [] ++ repeat 32%N (w - List.length (nth k l [])).
Proof.
  intros w. eexists. split; [reflexivity|]. rewrite map_length. split; [apply rows_length|].
  assert (R : forall r row, nth_error (rows l) r = Some row -> row = [nth (4*r) l []; nth (4*r+1) l []; nth (4*r+2) l []; nth (4*r+3) l []]).
  { intros r row E. assert (L : r < List.length (rows l)) by (apply nth_error_Some; congruence).
    assert (Q : forall j, j < 4 -> nth_error row j = Some (nth (4*r+j) l [])  /\ List.length row = 4).
    { intros j Hj. destruct (rows_nth l (4*r+j) ltac:(lia)) as (row' & x & E1 & E2 & E3 & E4).
      replace (4*r+j) with (j + r*4) in E1, E3 by lia. rewrite Nat.div_add, Nat.div_small in E1 by lia. rewrite Nat.mod_add, Nat.mod_small in E3 by lia.
      cbn in E1. rewrite E in E1. injection E1 as <-. rewrite E3, E4. auto. }
    destruct (Q 0 ltac:(lia)) as [Q0 QL]. destruct (Q 1 ltac:(lia)) as [Q1 _]. destruct (Q 2 ltac:(lia)) as [Q2 _]. destruct (Q 3 ltac:(lia)) as [Q3 _].
    destruct row as [|a [|b [|c [|d [|e row]]]]]; try discriminate QL. cbn in Q0, Q1, Q2, Q3. rewrite Nat.add_0_r in Q0. injection Q0 as ->. injection Q1 as ->. injection Q2 as ->. injection Q3 as ->. reflexivity. }
  split.
  - intros s I. apply in_map_iff in I as (row & <- & I). apply In_nth_error in I as (r & E). rewrite (R r row E). apply cell; apply nth_le.
  - intros k L. assert (L2 : k / 4 < List.length (rows l)) by (apply Nat.div_lt_upper_bound; lia).
    destruct (nth_error (rows l) (k / 4)) as [row|] eqn:E; [|apply nth_error_None in E; lia].
    rewrite nth_error_map, E. cbn [option_map]. eexists. split; [reflexivity|]. pose proof (R _ _ E) as Er.
    destruct (rows_nth l k L) as (row' & x & E1 & _ & E3 & E4). rewrite E in E1. injection E1 as <-. rewrite Er in E3. rewrite Er. rewrite <- E4.
    destruct (cell w _ _ _ _ (nth_le l (4*(k/4))) (nth_le l (4*(k/4)+1)) (nth_le l (4*(k/4)+2)) (nth_le l (4*(k/4)+3))) as [_ C]. exact (C _ _ E3).
Qed.

Lemma listed plain n e : ~ In 10%N (e_problem e) -> ~ found_in (B "](") (e_problem e ++ B "]") -> ~ found_in (B "#ansi[") (e_lang e) -> ~ In 35%N (e_lang e) ->
  Console.ansi_style plain (listing (n, e)) = Some (ink plain [B "33"] (e_problem e) ++ B "/" ++ ink plain [B "32"] (Console.decimal (N.of_nat n)) ++ B " in " ++ e_lang e).
Proof.
  intros H1 H2 H3 H4. unfold listing. cbn [fst snd].
  replace (B "#ansi[" ++ e_problem e ++ B "](yellow)/#ansi[" ++ Console.decimal (N.of_nat n) ++ B "](green) in " ++ e_lang e)
    with (B "#ansi[" ++ e_problem e ++ B "](" ++ B "yellow" ++ B ")" ++ (B "/" ++ (B "#ansi[" ++ Console.decimal (N.of_nat n) ++ B "](" ++ B "green" ++ B ")" ++ ((B " in " ++ e_lang e) ++ []))))
    by (rewrite app_nil_r; reflexivity).
  assert (forall c, (c < 48 \/ 57 < c)%N -> ~ In c (Console.decimal (N.of_nat n))) as D by (intros c Hc; exact (Proofs.Console.decimal_not _ _ Hc)).
  rewrite Proofs.Console.style_markup; [|exact H1|exact H2|cbn; intuition discriminate|cbn; intuition discriminate].
  rewrite Proofs.Console.style_plain by (cbn; intuition discriminate).
  rewrite Proofs.Console.style_markup; [|apply D; left; reflexivity| |cbn; intuition discriminate|cbn; intuition discriminate].
  2:{ intros (a & b & E). assert (In 40%N (Console.decimal (N.of_nat n) ++ B "]")) as I by (rewrite E; apply in_or_app; right; right; left; reflexivity).
      apply in_app_or in I as [I|[I|[]]]; [|discriminate I]. revert I. apply D. left. reflexivity. }
  rewrite Proofs.Console.style_plain. 2:{ intros I. apply in_app_or in I as [I|I]; [cbn in I; intuition discriminate|exact (H4 I)]. }
  set (dd := Console.decimal (N.of_nat n)) in *. clearbody dd.
  destruct plain; cbn [Console.ansi_style option_map Console.bind Console.paint ink app]; rewrite ?app_nil_r; cbn; rewrite <- ?app_assoc; cbn; rewrite ?app_nil_r; reflexivity.
Qed.
