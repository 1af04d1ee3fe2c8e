(** Proofs about the text of packets. *)
From Coq Require Import String ZArith NArith List Bool Arith Lia.
From Coq Require Import ZifyN ZifyBool ZifyNat.
From Verif Require Import Model.Bytes Model.Utf8 Model.Json Spec.Json.
From Verif Require Import Proofs.BytesLemmas.
From Verif Require Model.Access Spec.Access Proofs.Access Spec.Utf8 Proofs.Utf8.
Import ListNotations.
Local Open Scope N_scope.
Local Open Scope list_scope.
Ltac Zify.zify_post_hook ::= Z.to_euclidean_division_equations.

Lemma starts_iff : forall p s, starts_with p s = true <-> exists r, s = p ++ r.
Proof.
  induction p as [|x p IH]; intros s; cbn [starts_with].
  - split; [intros _; exists s; reflexivity|reflexivity].
  - destruct s as [|y s]; [split; [discriminate|intros (r & K); discriminate]|].
    rewrite andb_true_iff, N.eqb_eq, IH. split.
    + intros (-> & r & ->). exists r. reflexivity.
    + intros (r & K). injection K as -> ->. split; [reflexivity|exists r; reflexivity].
Qed.

(** ** Gaps *)
Lemma blank_iff c : blank c = true <-> In c [32; 9; 10; 13].
Proof. unfold blank. rewrite !orb_true_iff, !N.eqb_eq. cbn [In]. intuition lia. Qed.
Lemma ws_gap w r : gap w -> ws (w ++ r) = ws r.
Proof.
  induction w as [|c w IH]; intros H; [reflexivity|]. inversion H; subst. cbn [app ws].
  replace (blank c) with true by (symmetry; apply blank_iff; assumption). apply IH. assumption.
Qed.
Lemma ws_split s : exists w, gap w /\ s = w ++ ws s.
Proof.
  induction s as [|c s (w & G & E)]; [exists []; split; [constructor|reflexivity]|]. cbn [ws].
  destruct (blank c) eqn:Eb; [|exists []; split; [constructor|reflexivity]].
  exists (c :: w). split; [constructor; [apply blank_iff, Eb|exact G]|]. cbn [app]. f_equal. exact E.
Qed.
Lemma ws_stop c r : blank c = false -> ws (c :: r) = c :: r.
Proof. intros E. cbn [ws]. rewrite E. reflexivity. Qed.
Lemma ws_le s : (length (ws s) <= length s)%nat.
Proof. destruct (ws_split s) as (w & _ & E). rewrite E at 2. rewrite app_length. lia. Qed.
Lemma gap_app a b : gap (a ++ b) <-> gap a /\ gap b.
Proof. unfold gap. apply Forall_app. Qed.
Lemma ws_idem s : ws (ws s) = ws s.
Proof. induction s as [|c s IH]; [reflexivity|]. cbn [ws]. destruct (blank c) eqn:E; [exact IH|]. cbn [ws]. rewrite E. reflexivity. Qed.

(** ** Strings *)
Lemma unhex_iff c d : unhex c = Some d <-> hex_digit c d.
Proof.
  unfold unhex, hex_digit, is_digit. split.
  - destruct ((48 <=? c) && (c <=? 57)) eqn:E1; [intros K; injection K as <-; lia|].
    destruct ((97 <=? c) && (c <=? 102)) eqn:E2; [intros K; injection K as <-; lia|].
    destruct ((65 <=? c) && (c <=? 70)) eqn:E3; [intros K; injection K as <-; lia|discriminate].
  - intros [(H & ->)|[(H & ->)|(H & ->)]].
    + replace ((48 <=? c) && (c <=? 57)) with true by lia. reflexivity.
    + replace ((48 <=? c) && (c <=? 57)) with false by lia. replace ((97 <=? c) && (c <=? 102)) with false by lia.
      replace ((65 <=? c) && (c <=? 70)) with true by lia. reflexivity.
    + replace ((48 <=? c) && (c <=? 57)) with false by lia. replace ((97 <=? c) && (c <=? 102)) with true by lia. reflexivity.
Qed.
Lemma hex4_iff a b c d u : hex4 a b c d = Some u <-> exists a' b' c' d', hex_digit a a' /\ hex_digit b b' /\ hex_digit c c' /\ hex_digit d d' /\
  u = a' * 4096 + b' * 256 + c' * 16 + d'.
Proof.
  unfold hex4. split.
  - destruct (unhex a) as [a'|] eqn:Ea; [|discriminate]. destruct (unhex b) as [b'|] eqn:Eb; [|discriminate].
    destruct (unhex c) as [c'|] eqn:Ec; [|discriminate]. destruct (unhex d) as [d'|] eqn:Ed; [|discriminate].
    intros K. injection K as <-. exists a', b', c', d'. rewrite <- !unhex_iff. repeat (split; [assumption|]). lia.
  - intros (a' & b' & c' & d' & Ha & Hb & Hc & Hd & ->). apply unhex_iff in Ha, Hb, Hc, Hd. rewrite Ha, Hb, Hc, Hd. f_equal. lia.
Qed.
Lemma short_iff e c : short e = Some c <-> In (e, c) short_escapes.
Proof.
  unfold short, short_escapes. split.
  - destruct (N.eqb_spec e 34); [intros K; injection K as <-; subst; cbn; auto|].
    destruct (N.eqb_spec e 92); [intros K; injection K as <-; subst; cbn; auto|].
    destruct (N.eqb_spec e 47); [intros K; injection K as <-; subst; cbn; auto|].
    destruct (N.eqb_spec e 98); [intros K; injection K as <-; subst; cbn; auto|].
    destruct (N.eqb_spec e 102); [intros K; injection K as <-; subst; cbn; auto 10|].
    destruct (N.eqb_spec e 110); [intros K; injection K as <-; subst; cbn; auto 10|].
    destruct (N.eqb_spec e 114); [intros K; injection K as <-; subst; cbn; auto 10|].
    destruct (N.eqb_spec e 116); [intros K; injection K as <-; subst; cbn; auto 10|discriminate].
  - cbn [In]. intros H. repeat (destruct H as [H|H]; [injection H as <- <-; reflexivity|]). destruct H.
Qed.
Lemma short_not_u e c : In (e, c) short_escapes -> e <> 117.
Proof. unfold short_escapes. cbn [In]. intros H ->. repeat (destruct H as [H|H]; [discriminate H|]). destruct H. Qed.

Definition unit_step (u : N) (r2 : text) : option (text * text) :=
  if high u then
    match r2 with
    | p :: q :: a' :: b' :: x' :: d' :: r3 =>
        if (p =? 92) && (q =? 117) then
          match hex4 a' b' x' d' with
          | None => None
          | Some u' => if low u' then after (pair u u') (scanstring r3) else after u (scanstring r2)
          end
        else after u (scanstring r2)
    | _ => after u (scanstring r2)
    end
  else after u (scanstring r2).
Lemma scan_unit a b x d u r2 : hex4 a b x d = Some u -> scanstring (92 :: 117 :: a :: b :: x :: d :: r2) = unit_step u r2.
Proof. intros E. cbn [scanstring]. change (92 =? 34) with false. change (92 =? 92) with true. change (117 =? 117) with true. cbn iota. rewrite E. reflexivity. Qed.
Lemma scan_short e c r : In (e, c) short_escapes -> scanstring (92 :: e :: r) = after c (scanstring r).
Proof.
  intros H. pose proof (short_not_u _ _ H) as K. cbn [scanstring]. change (92 =? 34) with false. change (92 =? 92) with true. cbn iota.
  replace (e =? 117) with false by (symmetry; apply N.eqb_neq, K). apply short_iff in H. rewrite H. reflexivity.
Qed.
Lemma scan_raw c r : 32 <= c -> c <> 34 -> c <> 92 -> scanstring (c :: r) = after c (scanstring r).
Proof.
  intros H1 H2 H3. cbn [scanstring]. replace (c =? 34) with false by lia. replace (c =? 92) with false by lia. replace (c <? 32) with false by lia. reflexivity.
Qed.
Lemma after_some c x t r : after c x = Some (t, r) -> exists t', t = c :: t' /\ x = Some (t', r).
Proof. destruct x as [[t' r']|]; [|discriminate]. cbn. intros K. injection K as <- <-. eauto. Qed.

(** Any spelling is read; stated for all spellings of at most a given length because pairs are read together. *)
Lemma scan_spelled : forall n s l r, (length s <= n)%nat -> spells s l -> scanstring (s ++ 34 :: r) = Some (characters l, r).
Proof.
  induction n as [|n IH]; intros s l r Hn H.
  - inversion H; subst; cbn in Hn; try lia. reflexivity.
  - inversion H as [|c s' l' H1 H2 H3 H4|e c s' l' H1 H4|a b c d a' b' c' d' s' l' Ha Hb Hc Hd H4]; subst.
    + reflexivity.
    + cbn [app length] in *. rewrite scan_raw by assumption. rewrite (IH s' l' r) by (try assumption; lia). reflexivity.
    + cbn [app length] in *. rewrite (scan_short e c) by assumption. rewrite (IH s' l' r) by (try assumption; lia). reflexivity.
    + cbn [app length] in *. set (u := a' * 4096 + b' * 256 + c' * 16 + d').
      assert (E : hex4 a b c d = Some u) by (apply hex4_iff; exists a', b', c', d'; auto).
      rewrite (scan_unit _ _ _ _ _ _ E). unfold unit_step.
      assert (Hs : scanstring (s' ++ 34 :: r) = Some (characters l', r)) by (apply IH; [lia|assumption]).
      change (lead u && trail u) with (lead u && trail u).
      assert (Hh : high u = lead u) by reflexivity.
      destruct (high u) eqn:Eh.
      * inversion H4 as [|c1 s1 l1 P1 P2 P3 P4|e1 c1 s1 l1 P1 P4|a1 b1 c1 d1 a1' b1' c1' d1' s1 l1 Qa Qb Qc Qd P4]; subst.
        -- cbn [app]. cbn [app] in Hs.
           assert (R : after u (scanstring (34 :: r)) = Some (characters [Unit u], r)) by (rewrite Hs; reflexivity).
           destruct r as [|? [|? [|? [|? [|? ?]]]]]; exact R.
        -- cbn [app] in *. assert (Z0 : (c1 =? 92) = false) by lia.
           assert (R : after u (scanstring (c1 :: s1 ++ 34 :: r)) = Some (characters (Unit u :: Raw c1 :: l1), r)) by (rewrite Hs; reflexivity).
           destruct (s1 ++ 34 :: r) as [|? [|? [|? [|? [|? ?]]]]]; try exact R. rewrite Z0. exact R.
        -- cbn [app] in *. pose proof (short_not_u _ _ P1) as K. assert (Z0 : (e1 =? 117) = false) by lia.
           assert (R : after u (scanstring (92 :: e1 :: s1 ++ 34 :: r)) = Some (characters (Unit u :: Raw c1 :: l1), r)) by (rewrite Hs; reflexivity).
           destruct (s1 ++ 34 :: r) as [|? [|? [|? [|? ?]]]]; try exact R. rewrite Z0. exact R.
        -- cbn [app] in *. set (u1 := a1' * 4096 + b1' * 256 + c1' * 16 + d1') in *.
           assert (E1 : hex4 a1 b1 c1 d1 = Some u1) by (apply hex4_iff; exists a1', b1', c1', d1'; auto).
           change (92 =? 92) with true. change (117 =? 117) with true. cbn [andb]. rewrite E1.
           change (characters (Unit u :: Unit u1 :: l1)) with
             (if lead u && trail u1 then (0x10000 + (u - 0xD800) * 0x400 + (u1 - 0xDC00)) :: characters l1 else u :: characters (Unit u1 :: l1)).
           rewrite <- Hh. cbn [andb]. change (low u1) with (trail u1). destruct (trail u1).
           ++ cbn [length] in Hn. rewrite (IH s1 l1 r) by (try assumption; lia). reflexivity.
           ++ rewrite Hs. reflexivity.
      * rewrite Hs. cbn [after characters]. destruct l' as [|[c0|v] l0]; try reflexivity. rewrite <- Hh. reflexivity.
Qed.
Lemma unit_chars u l : (forall v l0, l = Unit v :: l0 -> lead u && trail v = false) -> characters (Unit u :: l) = u :: characters l.
Proof. intros H. destruct l as [|[c|v] l0]; try reflexivity. specialize (H v l0 eq_refl). cbn [characters]. rewrite H. reflexivity. Qed.

Lemma spell_first_unit body l v l0 : spells body l -> l = Unit v :: l0 ->
  exists a b c d s, body = 92 :: 117 :: a :: b :: c :: d :: s /\ hex4 a b c d = Some v /\ spells s l0.
Proof.
  intros H E. inversion H as [|? ? ? ? ? ? ?|? ? ? ? ? ?|a b c d a' b' c' d' s' l' Ha Hb Hc Hd H4]; subst; try discriminate.
  injection H1 as <- <-. exists a, b, c, d, s'. split; [reflexivity|]. split; [apply hex4_iff; exists a', b', c', d'; auto|exact H4].
Qed.

Lemma scan_string_sound : forall n s t r, (length s <= n)%nat -> scanstring s = Some (t, r) ->
  exists body l, s = body ++ 34 :: r /\ spells body l /\ characters l = t.
Proof.
  induction n as [|n IH]; intros s t r Hn H.
  - destruct s; [discriminate H|cbn in Hn; lia].
  - destruct s as [|c s]; [discriminate H|]. cbn [length] in Hn.
    destruct (N.eqb_spec c 34) as [->|N1].
    { cbn in H. injection H as <- <-. exists [], []. split; [reflexivity|]. split; [constructor|reflexivity]. }
    destruct (N.eqb_spec c 92) as [->|N2].
    + destruct s as [|e s]; [discriminate H|]. destruct (N.eqb_spec e 117) as [->|N3].
      * destruct s as [|a [|b [|x [|d s]]]]; try discriminate H.
        destruct (hex4 a b x d) as [u|] eqn:E; [|cbn in H; rewrite E in H; discriminate H].
        rewrite (scan_unit _ _ _ _ _ _ E) in H.
        assert (E' := E). apply hex4_iff in E' as (a' & b' & x' & d' & Ha & Hb & Hx & Hd & Eu).
        assert (One : forall t', scanstring s = Some (t', r) -> (forall p q y z r0 v, s = 92 :: 117 :: p :: q :: y :: z :: r0 -> hex4 p q y z = Some v -> lead u && trail v = false) ->
                 t = u :: t' -> exists body l, 92 :: 117 :: a :: b :: x :: d :: s = body ++ 34 :: r /\ spells body l /\ characters l = t).
        { intros t' Hs Hp ->. destruct (IH s t' r) as (body & l & -> & Hsp & Hc); [cbn [length] in *; lia|exact Hs|].
          exists (92 :: 117 :: a :: b :: x :: d :: body), (Unit u :: l). split; [reflexivity|]. split; [rewrite Eu; constructor; assumption|].
          rewrite unit_chars; [rewrite Hc; reflexivity|]. intros v l0 El.
          destruct (spell_first_unit _ _ _ _ Hsp El) as (p & q & y & z & r0 & -> & Hv & _). eapply (Hp p q y z); [reflexivity|exact Hv]. }
        unfold unit_step in H. destruct (high u) eqn:Eh.
        2:{ apply after_some in H as (t' & -> & Hs). eapply One; [exact Hs| |reflexivity]. intros. change (lead u) with (high u). rewrite Eh. reflexivity. }
        destruct s as [|p [|q [|a1 [|b1 [|x1 [|d1 r3]]]]]];
          try (apply after_some in H as (t' & -> & Hs); eapply One; [exact Hs| |reflexivity]; intros ? ? ? ? ? ? K; discriminate K).
        destruct (N.eqb_spec p 92) as [->|Np].
        2:{ cbn [andb] in H. apply after_some in H as (t' & -> & Hs). eapply One; [exact Hs| |reflexivity]. intros ? ? ? ? ? ? K. injection K as K1. destruct (Np K1). }
        destruct (N.eqb_spec q 117) as [->|Nq].
        2:{ cbn [andb] in H. apply after_some in H as (t' & -> & Hs). eapply One; [exact Hs| |reflexivity]. intros ? ? ? ? ? ? K. injection K as K1. destruct (Nq K1). }
        cbn [andb] in H. destruct (hex4 a1 b1 x1 d1) as [u1|] eqn:E1; [|discriminate H].
        destruct (low u1) eqn:El.
        2:{ apply after_some in H as (t' & -> & Hs). eapply One; [exact Hs| |reflexivity]. intros ? ? ? ? ? v K Hv. injection K as <- <- <- <- <-.
            rewrite E1 in Hv. injection Hv as <-. change (trail u1) with (low u1). rewrite El. apply andb_false_r. }
        apply after_some in H as (t' & -> & Hs). destruct (IH r3 t' r) as (body & l & -> & Hsp & Hc); [cbn [length] in *; lia|exact Hs|].
        exists (92 :: 117 :: a :: b :: x :: d :: 92 :: 117 :: a1 :: b1 :: x1 :: d1 :: body), (Unit u :: Unit u1 :: l). split; [reflexivity|].
        apply hex4_iff in E1 as (a1' & b1' & x1' & d1' & Ha1 & Hb1 & Hx1 & Hd1 & Eu1).
        split; [rewrite Eu, Eu1; do 2 (constructor; [assumption..|]); assumption|].
        cbn [characters]. change (lead u) with (high u). change (trail u1) with (low u1). rewrite Eh, El. cbn [andb]. rewrite Hc. reflexivity.
      * cbn [scanstring] in H. change (92 =? 34) with false in H. change (92 =? 92) with true in H. cbn iota in H.
        replace (e =? 117) with false in H by lia. destruct (short e) as [c|] eqn:E; [|discriminate H]. apply short_iff in E.
        apply after_some in H as (t' & -> & Hs). destruct (IH s t' r) as (body & l & -> & Hsp & Hc); [cbn [length] in *; lia|exact Hs|].
        exists (92 :: e :: body), (Raw c :: l). split; [reflexivity|]. split; [constructor; assumption|]. cbn [characters]. rewrite Hc. reflexivity.
    + cbn [scanstring] in H. replace (c =? 34) with false in H by lia. replace (c =? 92) with false in H by lia.
      destruct (N.ltb_spec c 32); [discriminate H|].
      apply after_some in H as (t' & -> & Hs). destruct (IH s t' r) as (body & l & -> & Hsp & Hc); [cbn [length] in *; lia|exact Hs|].
      exists (c :: body), (Raw c :: l). split; [reflexivity|]. split; [constructor; assumption|]. cbn [characters]. rewrite Hc. reflexivity.
Qed.
Lemma scanstring_complete k s r : json_string k s -> exists k', k = 34 :: k' /\ scanstring (k' ++ r) = Some (s, r).
Proof.
  intros (body & l & -> & Hs & <-). exists (body ++ [34]). split; [reflexivity|]. rewrite <- app_assoc. cbn [app]. eapply scan_spelled; [reflexivity|exact Hs].
Qed.
Lemma scanstring_sound r0 s r : scanstring r0 = Some (s, r) -> exists k, json_string (34 :: k) s /\ r0 = k ++ r.
Proof.
  intros H. destruct (scan_string_sound (length r0) r0 s r (le_n _) H) as (body & l & -> & Hs & Hc).
  exists (body ++ [34]). split; [exists body, l; auto|]. rewrite <- app_assoc. reflexivity.
Qed.

(** ** Numbers *)
Definition starts_digit (r : text) : bool := match r with c :: _ => is_digit c | [] => false end.
Lemma digit_iff c : is_digit c = true <-> 48 <= c <= 57.
Proof. unfold is_digit. lia. Qed.
Lemma digits_sound s d r : digits s = (d, r) -> s = d ++ r /\ Forall (fun c => 48 <= c <= 57) d /\ starts_digit r = false.
Proof.
  revert d r; induction s as [|c s IH]; intros d r; cbn [digits].
  - intros K. injection K as <- <-. split; [reflexivity|]. split; [constructor|reflexivity].
  - destruct (is_digit c) eqn:E.
    + destruct (digits s) as [d' r'] eqn:Ed. intros K. injection K as <- <-. destruct (IH _ _ eq_refl) as (-> & F & G).
      split; [reflexivity|]. split; [constructor; [apply digit_iff, E|exact F]|exact G].
    + intros K. injection K as <- <-. split; [reflexivity|]. split; [constructor|cbn; exact E].
Qed.
Lemma digits_complete d r : Forall (fun c => 48 <= c <= 57) d -> starts_digit r = false -> digits (d ++ r) = (d, r).
Proof.
  intros F G. induction F as [|c d H F IH]; cbn [app].
  - destruct r as [|c r]; [reflexivity|]. cbn in G. cbn [digits]. rewrite G. reflexivity.
  - cbn [digits]. replace (is_digit c) with true by (symmetry; apply digit_iff, H). rewrite IH. reflexivity.
Qed.
Lemma whole_sound s w r : whole s = Some (w, r) -> s = w ++ r /\ natural w.
Proof.
  destruct s as [|c s]; [discriminate|]. unfold whole. destruct (N.eqb_spec c 48) as [->|N1].
  - intros K. injection K as <- <-. split; [reflexivity|left; reflexivity].
  - destruct (is_digit c) eqn:E; [|discriminate]. intros K. apply (f_equal (fun x => match x with Some y => y | None => ([], []) end)) in K.
    apply digits_sound in K as (E1 & F & G). split; [exact E1|]. right.
    destruct w as [|x w]; [cbn in E1; subst r; cbn in G; congruence|]. injection E1 as <- ->. split; [split; [discriminate|exact F]|exact N1].
Qed.
Lemma whole_complete w r : natural w -> starts_digit r = false -> whole (w ++ r) = Some (w, r).
Proof.
  intros [->|((_ & F) & H)] G; [reflexivity|]. destruct w as [|c w]; [destruct (H eq_refl)|]. cbn [hd] in H.
  cbn [app]. unfold whole. replace (c =? 48) with false by (symmetry; apply N.eqb_neq, H). inversion F; subst.
  replace (is_digit c) with true by (symmetry; apply digit_iff; assumption). f_equal. apply (digits_complete (c :: w)); assumption.
Qed.
Lemma fraction_sound s f r : fraction s = (f, r) -> s = f ++ r /\ optional_fraction f.
Proof.
  destruct s as [|c s]; cbn [fraction].
  - intros K. injection K as <- <-. split; [reflexivity|left; reflexivity].
  - destruct (N.eqb_spec c 46) as [->|N1]; [|intros K; injection K as <- <-; split; [reflexivity|left; reflexivity]].
    destruct (digits s) as [[|x d] r'] eqn:E; intros K; injection K as <- <-.
    + split; [reflexivity|left; reflexivity].
    + apply digits_sound in E as (-> & F & _). split; [reflexivity|]. right. exists (x :: d). split; [reflexivity|]. split; [discriminate|exact F].
Qed.
Lemma exponent_sound s e r : exponent s = (e, r) -> s = e ++ r /\ optional_exponent e.
Proof.
  destruct s as [|c s]; cbn [exponent].
  - intros K. injection K as <- <-. split; [reflexivity|left; reflexivity].
  - destruct ((c =? 101) || (c =? 69)) eqn:Ec; [|intros K; injection K as <- <-; split; [reflexivity|left; reflexivity]].
    assert (Ic : In c [101; 69]) by (apply orb_true_iff in Ec; rewrite !N.eqb_eq in Ec; cbn; intuition).
    destruct (match s with x :: r' => if (x =? 45) || (x =? 43) then ([x], r') else ([], s) | [] => ([], []) end) as [sg r1] eqn:Es.
    assert (Hs : s = sg ++ r1 /\ In sg [[]; [45]; [43]]).
    { destruct s as [|x s]; [injection Es as <- <-; cbn; auto|]. destruct ((x =? 45) || (x =? 43)) eqn:Ex; injection Es as <- <-; cbn; auto.
      apply orb_true_iff in Ex. rewrite !N.eqb_eq in Ex. destruct Ex as [->| ->]; cbn; auto. }
    destruct Hs as (-> & Hs).
    destruct (digits r1) as [[|x d] r'] eqn:E; intros K; injection K as <- <-.
    + split; [reflexivity|left; reflexivity].
    + apply digits_sound in E as (-> & F & _). cbn [app]. rewrite <- app_assoc. split; [reflexivity|]. right. exists c, sg, (x :: d).
      split; [reflexivity|]. split; [exact Ic|]. split; [exact Hs|]. split; [discriminate|exact F].
Qed.
(** What may follow a number: nothing that would make it longer. *)
Definition ends_number (r : text) : bool :=
  match r with c :: _ => negb (is_digit c || (c =? 46) || (c =? 101) || (c =? 69)) | [] => true end.
Lemma ends_digit r : ends_number r = true -> starts_digit r = false.
Proof. destruct r as [|c r]; [reflexivity|]. cbn. destruct (is_digit c); [discriminate|reflexivity]. Qed.
Lemma exponent_complete e r : optional_exponent e -> ends_number r = true -> exponent (e ++ r) = (e, r).
Proof.
  intros H G. pose proof (ends_digit _ G) as G'. destruct H as [->|(c & sg & ds & -> & Ic & Is & (Nd & F))].
  - cbn [app]. destruct r as [|c r]; [reflexivity|]. cbn in G. unfold exponent. destruct ((c =? 101) || (c =? 69)) eqn:E; [|reflexivity].
    exfalso. destruct (is_digit c); cbn in G; try discriminate. apply orb_true_iff in E. destruct E as [E|E]; rewrite E in G; rewrite ?orb_true_r in G; discriminate.
  - destruct ds as [|x ds]; [destruct (Nd eq_refl)|]. inversion F; subst. cbn [app]. unfold exponent.
    replace ((c =? 101) || (c =? 69)) with true by (destruct Ic as [<-|[<-|[]]]; reflexivity).
    assert (D := digits_complete (x :: ds) r F G'). cbn [app] in D.
    assert (Hx : (x =? 45) || (x =? 43) = false) by lia.
    destruct Is as [<-|[<-|[<-|[]]]]; cbn [app].
    + rewrite Hx, D. reflexivity.
    + change ((45 =? 45) || (45 =? 43)) with true. cbn iota. rewrite D. reflexivity.
    + change ((43 =? 45) || (43 =? 43)) with true. cbn iota. rewrite D. reflexivity.
Qed.
Lemma exponent_start e r : optional_exponent e -> ends_number r = true -> starts_digit (e ++ r) = false /\ match e ++ r with c :: _ => c =? 46 | [] => false end = false.
Proof.
  intros H G. destruct H as [->|(c & sg & ds & -> & Ic & _)].
  - cbn [app]. split; [apply ends_digit, G|]. destruct r as [|c r]; [reflexivity|]. cbn in G. destruct (c =? 46); [|reflexivity]. rewrite orb_true_r in G. discriminate.
  - cbn [app]. destruct Ic as [<-|[<-|[]]]; split; reflexivity.
Qed.
Lemma fraction_complete f r : optional_fraction f -> starts_digit r = false -> match r with c :: _ => c =? 46 | [] => false end = false ->
  fraction (f ++ r) = (f, r).
Proof.
  intros [->|(ds & -> & Nd & F)] G G2; cbn [app].
  - destruct r as [|c r]; [reflexivity|]. unfold fraction. rewrite G2. reflexivity.
  - unfold fraction. change (46 =? 46) with true. cbn iota. rewrite (digits_complete ds r F G). destruct ds; [destruct (Nd eq_refl)|reflexivity].
Qed.
Lemma fraction_start f r : optional_fraction f -> starts_digit r = false -> starts_digit (f ++ r) = false.
Proof. intros [->|(ds & -> & _)] G; [exact G|reflexivity]. Qed.

(** ** Dictionaries *)
Section Dict.
  Context {float : Type}.
  Notation value := (value float).
  Notation dict_set := (dict_set float). Notation dict := (dict float).

  Lemma set_keys k v d : map fst (dict_set k v d) = if existsb (beqb k) (map fst d) then map fst d else map fst d ++ [k].
  Proof.
    induction d as [|[k' v'] d IH]; [reflexivity|]. cbn [Json.dict_set map fst existsb]. destruct (beqb_spec k k') as [->|N1].
    - reflexivity.
    - cbn [map fst orb]. rewrite IH. destruct (existsb (beqb k) (map fst d)); reflexivity.
  Qed.
  Lemma set_in k v d k0 v0 : In (k0, v0) (dict_set k v d) -> (k0 = k /\ v0 = v) \/ (k0 <> k \/ ~ NoDup (map fst d)) /\ In (k0, v0) d.
  Proof.
    induction d as [|[k' v'] d IH]; cbn [Json.dict_set].
    - intros [K|[]]. injection K as <- <-. auto.
    - destruct (beqb_spec k k') as [->|N1].
      + intros [K|K]; [injection K as <- <-; auto|]. right. split; [|right; exact K].
        destruct (list_eq_dec N.eq_dec k0 k') as [->|N2]; [|left; exact N2]. right. cbn [map fst]. intros D. inversion D; subst.
        apply H1. apply in_map_iff. exists (k', v0). auto.
      + intros [K|K]; [injection K as <- <-; right; split; [left; congruence|left; reflexivity]|].
        destruct (IH K) as [E|(E & I)]; [left; exact E|right]. split; [|right; exact I].
        destruct E as [E|E]; [left; exact E|]. right. cbn [map fst]. intros D. inversion D; subst. auto.
  Qed.
  (** Dictionaries built up from the left, in the order of first occurrence. *)
  Lemma firsts_snoc ks k : firsts (ks ++ [k]) = if existsb (beqb k) (firsts ks) then firsts ks else firsts ks ++ [k].
  Proof.
    induction ks as [|x ks IH]; [reflexivity|]. cbn [app firsts existsb]. rewrite IH.
    destruct (beqb_spec k x) as [->|N1]; cbn [orb].
    - destruct (existsb (beqb x) (firsts ks)) eqn:E; [reflexivity|]. rewrite filter_app. cbn [filter]. rewrite beqb_refl. cbn [negb]. rewrite app_nil_r. reflexivity.
    - assert (Hx : beqb x k = false) by (apply beqb_neq; congruence).
      assert (Ef : existsb (beqb k) (filter (fun k' => negb (beqb x k')) (firsts ks)) = existsb (beqb k) (firsts ks)).
      { generalize (firsts ks). intros l. induction l as [|y l IHl]; [reflexivity|]. cbn [filter existsb].
        destruct (beqb_spec x y) as [->|N2]; cbn [negb].
        - rewrite IHl. replace (beqb k y) with false by (symmetry; apply beqb_neq; exact N1). reflexivity.
        - cbn [existsb]. rewrite IHl. reflexivity. }
      rewrite Ef. destruct (existsb (beqb k) (firsts ks)); [reflexivity|]. rewrite filter_app. cbn [filter]. rewrite Hx. reflexivity.
  Qed.
  Lemma firsts_in ks k : In k (firsts ks) <-> In k ks.
  Proof.
    induction ks as [|x ks IH]; [reflexivity|]. cbn [firsts In]. rewrite filter_In, IH. split.
    - intros [E|[E _]]; auto.
    - intros [E|E]; [auto|]. destruct (beqb_spec x k) as [->|N1]; auto.
  Qed.
  Lemma firsts_nodup ks : NoDup (firsts ks).
  Proof.
    induction ks as [|x ks IH]; [constructor|]. cbn [firsts]. constructor; [|apply NoDup_filter, IH].
    rewrite filter_In, beqb_refl. intros [_ K]. discriminate K.
  Qed.
  Lemma firsts_same ks : NoDup ks -> firsts ks = ks.
  Proof.
    induction 1 as [|x ks H D IH]; [reflexivity|]. cbn [firsts]. rewrite IH. f_equal.
    clear -H. induction ks as [|y ks IH]; [reflexivity|]. cbn [filter]. replace (beqb x y) with false by (symmetry; apply beqb_neq; intros ->; apply H; left; reflexivity).
    cbn [negb]. f_equal. apply IH. intros K. apply H. right. exact K.
  Qed.
  Lemma exists_in (k : list N) l : existsb (beqb k) l = true <-> In k l.
  Proof. rewrite existsb_exists. split; [intros (x & I & E); apply beqb_eq in E; subst; exact I|intros I; exists k; split; [exact I|apply beqb_refl]]. Qed.

  Lemma dict_snoc l k v : dict (l ++ [(k, v)]) = dict_set k v (dict l).
  Proof. unfold Json.dict. rewrite fold_left_app. reflexivity. Qed.
  Lemma dict_object : forall l : list (text * value), object l (dict l).
  Proof.
    intros l. induction l as [|[k v] l IH] using rev_ind; [split; [reflexivity|intros k v []]|].
    destruct IH as (Hk & Hv). rewrite dict_snoc. split.
    - rewrite set_keys, map_app. cbn [map fst]. rewrite firsts_snoc. unfold text, bytes in *. rewrite Hk. reflexivity.
    - intros k0 v0 I. apply set_in in I as [(-> & ->)|(E & I)].
      + exists l, []. split; [reflexivity|]. intros [].
      + assert (Nk : k0 <> k) by (destruct E as [E|E]; [exact E|destruct E; unfold text, bytes in *; rewrite Hk; apply firsts_nodup]).
        destruct (Hv _ _ I) as (a & b & -> & Hb). exists a, (b ++ [(k, v)]). split; [rewrite <- app_assoc; reflexivity|].
        rewrite map_app, in_app_iff. cbn [map fst In]. intros [K|[K|[]]]; [exact (Hb K)|congruence].
  Qed.
  Lemma last_unique (l : list (text * value)) k v v' : last_value l k v -> last_value l k v' -> v = v'.
  Proof.
    intros (a & b & -> & Hb) (a' & b' & E & Hb'). revert a' E. induction a as [|x a IH]; intros a' E.
    - destruct a' as [|y a']; [injection E as <- _; reflexivity|]. cbn in E. injection E as <- ->. destruct Hb. rewrite map_app. apply in_app_iff. right. left. reflexivity.
    - destruct a' as [|y a']; [cbn in E; injection E as -> <-; destruct Hb'; rewrite map_app; apply in_app_iff; right; left; reflexivity|].
      cbn in E. injection E as _ E. exact (IH _ E).
  Qed.
  Lemma object_unique (l d d' : list (text * value)) : object l d -> object l d' -> d = d'.
  Proof.
    intros (K & V) (K' & V'). rewrite <- K in K'. clear K. revert d' K' V'. induction d as [|[k v] d IH]; intros [|[k' v'] d'] K' V'; try discriminate K'; [reflexivity|].
    cbn in K'. injection K' as -> K'. f_equal.
    - f_equal. eapply last_unique; [apply V; left; reflexivity|apply V'; left; reflexivity].
    - apply IH; [intros k0 v0 I; apply V; right; exact I|exact K'|intros k0 v0 I; apply V'; right; exact I].
  Qed.
  Lemma object_same (d : list (text * value)) : NoDup (map fst d) -> object d d.
  Proof.
    intros H. split; [symmetry; apply firsts_same, H|]. intros k v I. apply in_split in I as (a & b & ->). exists a, b. split; [reflexivity|].
    rewrite map_app in H. cbn [map fst] in H. apply NoDup_remove_2 in H. intros K. apply H, in_app_iff. right. exact K.
  Qed.
End Dict.

(** ** Reading *)
Section Reading.
  Context {float : Type}.
  Variable to_float : bytes -> float.
  Notation json := (json to_float true). Notation elements := (elements to_float true). Notation members := (members to_float true).
  Notation scan := (scan float to_float). Notation scan_list := (scan_list float to_float). Notation scan_members := (scan_members float to_float).
  Scheme json_mut := Induction for Spec.Json.json Sort Prop
    with elements_mut := Induction for Spec.Json.elements Sort Prop
    with members_mut := Induction for Spec.Json.members Sort Prop.
  Combined Scheme json_all from json_mut, elements_mut, members_mut.

  Lemma scan_eq k s : scan (S k) s =
        match s with
        | [] => None
        | c :: r =>
            if c =? 34 then match scanstring r with Some (t, r') => Some (VStr float t, r') | None => None end
            else if c =? 123 then
              match ws r with
              | [] => None
              | x :: r1 => if x =? 125 then Some (VDict float [], r1)
                           else match scan_members k (x :: r1) with Some (l, r') => Some (VDict float (dict float l), r') | None => None end
              end
            else if c =? 91 then
              match ws r with
              | [] => None
              | x :: r1 => if x =? 93 then Some (VList float [], r1)
                           else match scan_list k (x :: r1) with Some (l, r') => Some (VList float l, r') | None => None end
              end
            else if c =? 110 then literal float "null" (VNull float) s
            else if c =? 116 then literal float "true" (VBool float true) s
            else if c =? 102 then literal float "false" (VBool float false) s
            else if c =? 78 then literal float "NaN" (VNaN float) s
            else if c =? 73 then literal float "Infinity" (VInf float false) s
            else if starts_with (B "-Infinity") s then literal float "-Infinity" (VInf float true) s
            else scan_number float to_float s
        end.
  Proof. destruct k; reflexivity. Qed.
  Lemma scan_list_eq k s : scan_list (S k) s =
        match scan k s with
        | None => None
        | Some (v, r) =>
            match ws r with
            | [] => None
            | x :: r1 =>
                if x =? 93 then Some ([v], r1)
                else if x =? 44 then match scan_list k (ws r1) with Some (l, r') => Some (v :: l, r') | None => None end
                else None
            end
        end.
  Proof. destruct k; reflexivity. Qed.
  Lemma scan_members_eq k s : scan_members (S k) s =
        match s with
        | [] => None
        | q :: r0 =>
            if q =? 34 then
              match scanstring r0 with
              | None => None
              | Some (key, r1) =>
                  match ws r1 with
                  | [] => None
                  | x :: r2 =>
                      if x =? 58 then
                        match scan k (ws r2) with
                        | None => None
                        | Some (v, r) =>
                            match ws r with
                            | [] => None
                            | y :: r3 =>
                                if y =? 125 then Some ([(key, v)], r3)
                                else if y =? 44 then match scan_members k (ws r3) with Some (l, r') => Some ((key, v) :: l, r') | None => None end
                                else None
                            end
                        end
                      else None
                  end
              end
            else None
        end.
  Proof. destruct k; reflexivity. Qed.
  Lemma minus_complete sg ds r : optional_minus sg -> natural ds -> minus (sg ++ ds ++ r) = (sg, ds ++ r).
  Proof.
    intros Hs Hw. destruct Hs as [->| ->]; [|reflexivity]. cbn [app]. destruct ds as [|c ds].
    - exfalso. destruct Hw as [K|((K & _) & _)]; [discriminate K|exact (K eq_refl)].
    - cbn [app]. unfold minus. replace (c =? 45) with false; [reflexivity|]. symmetry. apply N.eqb_neq. intros ->.
      destruct Hw as [K|((_ & F) & _)]; [discriminate K|]. inversion F; subst. lia.
  Qed.
  Lemma number_sound s v r : scan_number float to_float s = Some (v, r) -> exists t, s = t ++ r /\ json t v.
  Proof.
    unfold scan_number.
    destruct (minus s) as [sg r0] eqn:Es.
    assert (Hs : s = sg ++ r0 /\ optional_minus sg).
    { unfold optional_minus. unfold minus in Es. destruct s as [|c s]; [injection Es as <- <-; auto|]. destruct (N.eqb_spec c 45) as [->|N1]; injection Es as <- <-; auto. }
    destruct Hs as (-> & Hs). destruct (whole r0) as [[w r1]|] eqn:Ew; [|discriminate]. apply whole_sound in Ew as (-> & Hw).
    destruct (fraction r1) as [f r2] eqn:Ef. apply fraction_sound in Ef as (-> & Hf).
    destruct (exponent r2) as [e r3] eqn:Ee. apply exponent_sound in Ee as (-> & He).
    destruct (f ++ e) as [|x fe] eqn:Efe.
    - apply app_eq_nil in Efe as (-> & ->). intros K. injection K as <- <-. exists (sg ++ w). cbn [app]. rewrite app_assoc. split; [reflexivity|].
      destruct Hs as [->| ->]; [apply j_natural, Hw|apply j_negative, Hw].
    - rewrite <- Efe. intros K. injection K as <- <-. exists (sg ++ w ++ f ++ e). rewrite <- !app_assoc. split; [reflexivity|].
      constructor. exists sg, w, f, e. rewrite Efe. repeat (split; [first [reflexivity|assumption|discriminate]|]). discriminate.
  Qed.
  Lemma number_real t r : real_text t -> ends_number r = true -> scan_number float to_float (t ++ r) = Some (VFloat _ (to_float t), r).
  Proof.
    intros (sg & ds & f & e & -> & Hs & Hw & Hf & He & Ne) G.
    destruct (exponent_start e r He G) as (G1 & G2). pose proof (fraction_start f (e ++ r) Hf G1) as G3.
    rewrite <- !app_assoc. unfold scan_number.
    pose proof (minus_complete sg ds (f ++ e ++ r) Hs Hw) as Es.
    rewrite Es. rewrite (whole_complete ds _ Hw G3), (fraction_complete f _ Hf G1 G2), (exponent_complete e r He G).
    destruct (f ++ e); [destruct (Ne eq_refl)|reflexivity].
  Qed.
  Lemma number_whole sg ds r : optional_minus sg -> natural ds -> ends_number r = true ->
    scan_number float to_float (sg ++ ds ++ r) = Some (VInt _ (match sg with [] => Z.of_N (natural_value ds) | _ => - Z.of_N (natural_value ds) end), r).
  Proof.
    intros Hs Hw G.
    assert (He : optional_exponent []) by (left; reflexivity). assert (Hf : optional_fraction []) by (left; reflexivity).
    destruct (exponent_start [] r He G) as (G1 & G2). unfold scan_number.
    pose proof (minus_complete sg ds r Hs Hw) as Es.
    cbn [app] in G1, G2. rewrite Es. rewrite (whole_complete ds _ Hw G1).
    pose proof (fraction_complete [] r Hf G1 G2) as Ef. cbn [app] in Ef. rewrite Ef.
    pose proof (exponent_complete [] r He G) as Ee. cbn [app] in Ee. rewrite Ee. reflexivity.
  Qed.
  (** A number starts with a digit or a minus and a digit. *)
  Lemma natural_head ds : natural ds -> exists c r, ds = c :: r /\ 48 <= c <= 57.
  Proof.
    intros [->|((K & F) & _)]; [exists 48, []; split; [reflexivity|lia]|]. destruct ds as [|c r]; [destruct (K eq_refl)|]. inversion F; subst. eauto.
  Qed.
  Lemma scan_numeric k t sg c r : t = sg ++ c :: r -> optional_minus sg -> 48 <= c <= 57 -> scan (S k) t = scan_number float to_float t.
  Proof.
    intros -> Hs Hc. destruct Hs as [->| ->]; cbn [app].
    - rewrite scan_eq. replace (c =? 34) with false by lia. replace (c =? 123) with false by lia. replace (c =? 91) with false by lia.
      replace (c =? 110) with false by lia. replace (c =? 116) with false by lia. replace (c =? 102) with false by lia.
      replace (c =? 78) with false by lia. replace (c =? 73) with false by lia.
      replace (starts_with (B "-Infinity") (c :: r)) with false; [reflexivity|].
      symmetry. destruct (starts_with (B "-Infinity") (c :: r)) eqn:E; [|reflexivity]. apply starts_iff in E as (r' & E).
      exfalso. apply (f_equal (hd 0)) in E. cbn in E. lia.
    - rewrite scan_eq. change (45 =? 34) with false. change (45 =? 123) with false. change (45 =? 91) with false.
      change (45 =? 110) with false. change (45 =? 116) with false. change (45 =? 102) with false. change (45 =? 78) with false. change (45 =? 73) with false. cbn iota.
      replace (starts_with (B "-Infinity") (45 :: c :: r)) with false; [reflexivity|].
      symmetry. destruct (starts_with (B "-Infinity") (45 :: c :: r)) eqn:E; [|reflexivity]. apply starts_iff in E as (r' & E).
      exfalso. apply (f_equal (fun l => hd 0 (tl l))) in E. cbn in E. lia.
  Qed.

  Lemma literal_some t v s v' r : literal float t v s = Some (v', r) -> v' = v /\ s = B t ++ r.
  Proof.
    unfold literal. destruct (starts_with (B t) s) eqn:E; [|discriminate]. apply starts_iff in E as (r' & ->). rewrite skipn_app, skipn_all, Nat.sub_diag.
    intros K. injection K as <- <-. auto.
  Qed.
  Lemma ws_cons s x r : ws s = x :: r -> exists w, gap w /\ s = w ++ x :: r.
  Proof. intros E. destruct (ws_split s) as (w & G & Es). rewrite E in Es. eauto. Qed.

  (** Whatever is read is a text of the grammar. *)
  Lemma sound_all : forall k,
    (forall s v r, scan k s = Some (v, r) -> exists t, s = t ++ r /\ json t v) /\
    (forall s l r, scan_list k s = Some (l, r) -> exists t, s = t ++ 93 :: r /\ elements t l) /\
    (forall s l r, scan_members k s = Some (l, r) -> exists t, s = t ++ 125 :: r /\ members t l).
  Proof.
    induction k as [|k (IHs & IHl & IHm)]; [split; [|split]; intros s v r K; discriminate K|]. split; [|split].
    - intros s v r. rewrite scan_eq. destruct s as [|c s]; [discriminate|].
      destruct (N.eqb_spec c 34) as [->|N1].
      { destruct (scanstring s) as [[t r']|] eqn:E; [|discriminate]. intros K. injection K as <- <-.
        apply scanstring_sound in E as (q & Hq & ->). exists (34 :: q). split; [reflexivity|constructor; exact Hq]. }
      destruct (N.eqb_spec c 123) as [->|N2].
      { destruct (ws s) as [|x r1] eqn:Ew; [discriminate|]. apply ws_cons in Ew as (w & G & ->).
        destruct (N.eqb_spec x 125) as [->|Nx].
        - intros K. injection K as <- <-. exists ([123] ++ w ++ [125]). split; [cbn [app]; rewrite <- app_assoc; reflexivity|constructor; exact G].
        - destruct (scan_members k (x :: r1)) as [[l r']|] eqn:E; [|discriminate]. intros K. injection K as <- <-.
          destruct (IHm _ _ _ E) as (t & Et & Hm). exists ([123] ++ (w ++ t) ++ [125]). rewrite Et. split; [cbn [app]; rewrite <- !app_assoc; reflexivity|].
          apply j_object with (l := l); [|apply dict_object].
          inversion Hm; subst; rewrite app_assoc; constructor; try assumption; apply gap_app; auto. }
      destruct (N.eqb_spec c 91) as [->|N3].
      { destruct (ws s) as [|x r1] eqn:Ew; [discriminate|]. apply ws_cons in Ew as (w & G & ->).
        destruct (N.eqb_spec x 93) as [->|Nx].
        - intros K. injection K as <- <-. exists ([91] ++ w ++ [93]). split; [cbn [app]; rewrite <- app_assoc; reflexivity|constructor; exact G].
        - destruct (scan_list k (x :: r1)) as [[l r']|] eqn:E; [|discriminate]. intros K. injection K as <- <-.
          destruct (IHl _ _ _ E) as (t & Et & Hm). exists ([91] ++ (w ++ t) ++ [93]). rewrite Et. split; [cbn [app]; rewrite <- !app_assoc; reflexivity|].
          apply j_list. inversion Hm; subst; rewrite app_assoc; constructor; try assumption; apply gap_app; auto. }
      destruct (N.eqb_spec c 110) as [->|N4]; [intros K; apply literal_some in K as (-> & ->); eexists; split; [reflexivity|constructor]|].
      destruct (N.eqb_spec c 116) as [->|N5]; [intros K; apply literal_some in K as (-> & ->); eexists; split; [reflexivity|constructor]|].
      destruct (N.eqb_spec c 102) as [->|N6]; [intros K; apply literal_some in K as (-> & ->); eexists; split; [reflexivity|constructor]|].
      destruct (N.eqb_spec c 78) as [->|N7]; [intros K; apply literal_some in K as (-> & ->); eexists; split; [reflexivity|constructor; reflexivity]|].
      destruct (N.eqb_spec c 73) as [->|N8]; [intros K; apply literal_some in K as (-> & ->); eexists; split; [reflexivity|constructor; reflexivity]|].
      destruct (starts_with (B "-Infinity") (c :: s)) eqn:Ei.
      { intros K. apply literal_some in K as (-> & ->). eexists. split; [reflexivity|constructor; reflexivity]. }
      intros K. apply number_sound in K as (t & E & H). exists t. auto.
    - intros s l r. rewrite scan_list_eq. destruct (scan k s) as [[v r0]|] eqn:E; [|discriminate]. destruct (IHs _ _ _ E) as (t & -> & Ht).
      destruct (ws r0) as [|x r1] eqn:Ew; [discriminate|]. apply ws_cons in Ew as (w & G & ->).
      destruct (N.eqb_spec x 93) as [->|Nx].
      + intros K. injection K as <- <-. exists ([] ++ t ++ w). split; [cbn [app]; rewrite <- app_assoc; reflexivity|]. constructor; [constructor|exact Ht|exact G].
      + destruct (N.eqb_spec x 44) as [->|Ny]; [|discriminate]. destruct (scan_list k (ws r1)) as [[l' r']|] eqn:El; [|discriminate].
        intros K. injection K as <- <-. destruct (IHl _ _ _ El) as (t' & Et & Hl). destruct (ws_split r1) as (w1 & G1 & E1). rewrite Et in E1. subst r1.
        exists ([] ++ t ++ w ++ [44] ++ (w1 ++ t')). split; [cbn [app]; rewrite <- !app_assoc; cbn [app]; rewrite <- !app_assoc; reflexivity|].
        constructor; [constructor|exact Ht|exact G|]. inversion Hl; subst; rewrite app_assoc; constructor; try assumption; apply gap_app; auto.
    - intros s l r. rewrite scan_members_eq. destruct s as [|q r0]; [discriminate|]. destruct (N.eqb_spec q 34) as [->|Nq]; [|discriminate].
      destruct (scanstring r0) as [[key r1]|] eqn:Ek; [|discriminate]. apply scanstring_sound in Ek as (kt & Hk & ->).
      destruct (ws r1) as [|x r2] eqn:Ew; [discriminate|]. apply ws_cons in Ew as (w1 & G1 & ->).
      destruct (N.eqb_spec x 58) as [->|Nx]; [|discriminate].
      destruct (scan k (ws r2)) as [[v r3]|] eqn:E; [|discriminate]. destruct (IHs _ _ _ E) as (t & Et & Ht).
      destruct (ws_split r2) as (w2 & G2 & E2). rewrite Et in E2. subst r2. clear Et E.
      destruct (ws r3) as [|y r4] eqn:Ew3; [discriminate|]. apply ws_cons in Ew3 as (w3 & G3 & ->).
      destruct (N.eqb_spec y 125) as [->|Ny].
      + intros K. injection K as <- <-. exists ([] ++ (34 :: kt) ++ w1 ++ [58] ++ w2 ++ t ++ w3).
        split; [cbn [app]; rewrite <- !app_assoc; cbn [app]; rewrite <- !app_assoc; reflexivity|]. constructor; try assumption. constructor.
      + destruct (N.eqb_spec y 44) as [->|Nz]; [|discriminate]. destruct (scan_members k (ws r4)) as [[l' r']|] eqn:El; [|discriminate].
        intros K. injection K as <- <-. destruct (IHm _ _ _ El) as (t' & Et & Hl). destruct (ws_split r4) as (w4 & G4 & E4). rewrite Et in E4. subst r4.
        exists ([] ++ (34 :: kt) ++ w1 ++ [58] ++ w2 ++ t ++ w3 ++ [44] ++ (w4 ++ t')).
        split; [cbn [app]; rewrite <- !app_assoc; cbn [app]; rewrite <- !app_assoc; cbn [app]; rewrite <- !app_assoc; reflexivity|].
        constructor; try assumption; [constructor|]. inversion Hl; subst; rewrite app_assoc; constructor; try assumption; apply gap_app; auto.
  Qed.

  Lemma json_head t v : json t v -> exists c t', t = c :: t' /\ blank c = false /\ c <> 93 /\ c <> 125.
  Proof.
    assert (D : forall c, 48 <= c <= 57 -> blank c = false /\ c <> 93 /\ c <> 125) by (intros c H; unfold blank; lia).
    intros H. destruct H as [| | | | | |ds H|ds H|t H|t s (body & l & -> & _)|w H|t l H|w H|t l d H H'];
      try (eexists; eexists; split; [reflexivity|]; split; [reflexivity|split; discriminate]).
    - destruct (natural_head ds H) as (c & r & -> & Hc). exists c, r. split; [reflexivity|exact (D c Hc)].
    - destruct H as (sg & ds & f & e & -> & Hs & Hn & _). destruct (natural_head ds Hn) as (c & r & -> & Hc). destruct Hs as [->| ->].
      + eexists; eexists; split; [reflexivity|exact (D c Hc)].
      + eexists; eexists; split; [reflexivity|]. split; [reflexivity|split; discriminate].
  Qed.
  Lemma gap_ends w x r : gap w -> In x [44; 93; 125] -> ends_number (w ++ x :: r) = true.
  Proof.
    intros G I. destruct G as [|c w H G]; cbn [app ends_number].
    - cbn in I. intuition; subst; reflexivity.
    - cbn in H. intuition; subst; reflexivity.
  Qed.
  Lemma ws_to w x r : gap w -> blank x = false -> ws (w ++ x :: r) = x :: r.
  Proof. intros G Hx. rewrite ws_gap by exact G. apply ws_stop, Hx. Qed.

  Lemma scan_literal k s v r : In (s, v) [("null", VNull float); ("true", VBool _ true); ("false", VBool _ false); ("NaN", VNaN _); ("Infinity", VInf _ false); ("-Infinity", VInf _ true)]%string ->
    scan (S k) (B s ++ r) = Some (v, r).
  Proof.
    intros H. cbn [In] in H. repeat (destruct H as [H|H]; [injection H as <- <-; rewrite scan_eq; destruct r; reflexivity|]). destruct H.
  Qed.
  Lemma scan_string_value k t s r : json_string t s -> scan (S k) (t ++ r) = Some (VStr _ s, r).
  Proof.
    intros H. destruct (scanstring_complete t s r H) as (t' & -> & E). cbn [app]. rewrite scan_eq. change (34 =? 34) with true. cbn iota. rewrite E. reflexivity.
  Qed.

  (** Every text of the grammar is read. *)
  Lemma complete_all :
    (forall t v, json t v -> forall k r, (2 * length t <= k + 1)%nat -> ends_number r = true -> scan k (t ++ r) = Some (v, r)) /\
    (forall t l, elements t l -> forall k r, (2 * length t <= k)%nat -> exists x s, ws (t ++ 93 :: r) = x :: s /\ x <> 93 /\ scan_list k (x :: s) = Some (l, r)) /\
    (forall t l, members t l -> forall k r, (2 * length t <= k)%nat -> exists x s, ws (t ++ 125 :: r) = x :: s /\ x <> 125 /\ scan_members k (x :: s) = Some (l, r)).
  Proof.
    apply (json_all float to_float true
      (fun t v _ => forall k r, (2 * length t <= k + 1)%nat -> ends_number r = true -> scan k (t ++ r) = Some (v, r))
      (fun t l _ => forall k r, (2 * length t <= k)%nat -> exists x s, ws (t ++ 93 :: r) = x :: s /\ x <> 93 /\ scan_list k (x :: s) = Some (l, r))
      (fun t l _ => forall k r, (2 * length t <= k)%nat -> exists x s, ws (t ++ 125 :: r) = x :: s /\ x <> 125 /\ scan_members k (x :: s) = Some (l, r))).
    - intros k r Hk _. destruct k; [cbn in Hk; lia|]. apply scan_literal. cbn; auto.
    - intros k r Hk _. destruct k; [cbn in Hk; lia|]. apply scan_literal. cbn; auto.
    - intros k r Hk _. destruct k; [cbn in Hk; lia|]. apply scan_literal. cbn; auto.
    - intros _ k r Hk _. destruct k; [cbn in Hk; lia|]. apply scan_literal. cbn; auto.
    - intros _ k r Hk _. destruct k; [cbn in Hk; lia|]. apply scan_literal. cbn; auto 10.
    - intros _ k r Hk _. destruct k; [cbn in Hk; lia|]. apply scan_literal. cbn; auto 10.
    - intros ds H k r Hk G. destruct (natural_head ds H) as (c & r' & Eds & Hc). destruct k; [subst ds; cbn in Hk; lia|].
      rewrite (scan_numeric k (ds ++ r) [] c (r' ++ r)); [|subst ds; reflexivity|left; reflexivity|exact Hc].
      exact (number_whole [] ds r (or_introl eq_refl) H G).
    - intros ds H k r Hk G. destruct (natural_head ds H) as (c & r' & Eds & Hc). destruct k; [subst ds; cbn in Hk; lia|].
      rewrite (scan_numeric k (([45] ++ ds) ++ r) [45] c (r' ++ r)); [|subst ds; reflexivity|right; reflexivity|exact Hc].
      rewrite <- app_assoc. exact (number_whole [45] ds r (or_intror eq_refl) H G).
    - intros t H k r Hk G. pose proof H as (sg & ds & f & e & E & Hs & Hn & _). destruct (natural_head ds Hn) as (c & r' & Eds & Hc).
      assert (Et : t ++ r = sg ++ c :: (r' ++ f ++ e ++ r)) by (rewrite E, Eds, <- !app_assoc; reflexivity).
      destruct k; [apply (f_equal (@length N)) in E; rewrite !app_length, Eds in E; cbn [length] in E; lia|].
      rewrite (scan_numeric k (t ++ r) sg c _ Et Hs Hc). exact (number_real t r H G).
    - intros t s H k r Hk G. destruct k; [destruct H as (b & l & -> & _); cbn in Hk; lia|]. apply scan_string_value, H.
    - intros w G k r Hk _. destruct k; [cbn in Hk; lia|]. cbn [app]. rewrite scan_eq. change (91 =? 34) with false. change (91 =? 123) with false. change (91 =? 91) with true. cbn iota.
      rewrite <- app_assoc. cbn [app]. rewrite (ws_to w 93 r G eq_refl). reflexivity.
    - intros t l _ IH k r Hk _. cbn [app length] in Hk. rewrite app_length in Hk. cbn [length] in Hk. destruct k; [lia|]. cbn [app]. rewrite scan_eq. change (91 =? 34) with false. change (91 =? 123) with false. change (91 =? 91) with true. cbn iota.
      rewrite <- app_assoc. cbn [app]. destruct (IH k r ltac:(lia)) as (x & s & -> & Nx & ->). replace (x =? 93) with false by lia. reflexivity.
    - intros w G k r Hk _. destruct k; [cbn in Hk; lia|]. cbn [app]. rewrite scan_eq. change (123 =? 34) with false. change (123 =? 123) with true. cbn iota.
      rewrite <- app_assoc. cbn [app]. rewrite (ws_to w 125 r G eq_refl). reflexivity.
    - intros t l d _ IH O k r Hk _. cbn [app length] in Hk. rewrite app_length in Hk. cbn [length] in Hk. destruct k; [lia|]. cbn [app]. rewrite scan_eq. change (123 =? 34) with false. change (123 =? 123) with true. cbn iota.
      rewrite <- app_assoc. cbn [app]. destruct (IH k r ltac:(lia)) as (x & s & -> & Nx & ->). replace (x =? 125) with false by lia.
      rewrite (object_unique l d (dict float l) O (dict_object l)). reflexivity.
    - intros w t v w' G Ht IH G' k r Hk. destruct (json_head t v Ht) as (c & t' & Et & Hb & N1 & N2).
      rewrite !app_length in Hk. destruct k; [rewrite Et in Hk; cbn [length] in Hk; lia|].
      exists c, (t' ++ w' ++ 93 :: r). split; [rewrite Et, <- !app_assoc; cbn [app]; rewrite <- ?app_assoc; exact (ws_to w c _ G Hb)|]. split; [exact N1|].
      change (c :: t' ++ w' ++ 93 :: r) with ((c :: t') ++ w' ++ 93 :: r). rewrite <- Et, scan_list_eq.
      rewrite (IH k (w' ++ 93 :: r)); [|lia|apply gap_ends; cbn; auto]. rewrite (ws_to w' 93 r G' eq_refl). reflexivity.
    - intros w t v w' r0 l G Ht IH G' Hl IHl k r Hk. destruct (json_head t v Ht) as (c & t' & Et & Hb & N1 & N2).
      rewrite !app_length in Hk. cbn [length] in Hk. destruct k; [lia|].
      exists c, (t' ++ w' ++ 44 :: r0 ++ 93 :: r). split; [rewrite Et, <- !app_assoc; cbn [app]; rewrite <- ?app_assoc; exact (ws_to w c _ G Hb)|]. split; [exact N1|].
      change (c :: t' ++ w' ++ 44 :: r0 ++ 93 :: r) with ((c :: t') ++ w' ++ 44 :: r0 ++ 93 :: r). rewrite <- Et, scan_list_eq.
      rewrite (IH k (w' ++ 44 :: r0 ++ 93 :: r)); [|lia|apply gap_ends; cbn; auto]. rewrite (ws_to w' 44 _ G' eq_refl).
      change (44 =? 93) with false. change (44 =? 44) with true. cbn iota. destruct (IHl k r ltac:(lia)) as (x & s & -> & _ & ->). reflexivity.
    - intros w kt key w1 w2 t v w' G Hk1 G1 G2 Ht IH G' k r Hk.
      destruct (scanstring_complete kt key (w1 ++ 58 :: w2 ++ t ++ w' ++ 125 :: r) Hk1) as (k' & -> & Es).
      rewrite !app_length in Hk. cbn [length] in Hk. rewrite ?app_length in Hk. destruct k; [lia|].
      exists 34, (k' ++ w1 ++ 58 :: w2 ++ t ++ w' ++ 125 :: r).
      split; [rewrite <- !app_assoc; cbn [app]; rewrite <- ?app_assoc; cbn [app]; rewrite <- ?app_assoc; exact (ws_to w 34 _ G eq_refl)|]. split; [discriminate|].
      rewrite scan_members_eq. change (34 =? 34) with true. cbn iota. rewrite Es, (ws_to w1 58 _ G1 eq_refl). change (58 =? 58) with true. cbn iota.
      destruct (json_head t v Ht) as (c & t' & Et & Hb & N1 & N2).
      assert (Ew : ws (w2 ++ t ++ w' ++ 125 :: r) = t ++ w' ++ 125 :: r) by (rewrite Et; cbn [app]; exact (ws_to w2 c _ G2 Hb)). rewrite Ew.
      rewrite (IH k (w' ++ 125 :: r)); [|lia|apply gap_ends; cbn; auto]. rewrite (ws_to w' 125 r G' eq_refl). reflexivity.
    - intros w kt key w1 w2 t v w' r0 l G Hk1 G1 G2 Ht IH G' Hl IHl k r Hk.
      destruct (scanstring_complete kt key (w1 ++ 58 :: w2 ++ t ++ w' ++ 44 :: r0 ++ 125 :: r) Hk1) as (k' & -> & Es).
      rewrite !app_length in Hk. cbn [length] in Hk. destruct k; [lia|].
      exists 34, (k' ++ w1 ++ 58 :: w2 ++ t ++ w' ++ 44 :: r0 ++ 125 :: r).
      split; [rewrite <- !app_assoc; cbn [app]; rewrite <- ?app_assoc; cbn [app]; rewrite <- ?app_assoc; cbn [app]; rewrite <- ?app_assoc; exact (ws_to w 34 _ G eq_refl)|]. split; [discriminate|].
      rewrite scan_members_eq. change (34 =? 34) with true. cbn iota. rewrite Es, (ws_to w1 58 _ G1 eq_refl). change (58 =? 58) with true. cbn iota.
      destruct (json_head t v Ht) as (c & t' & Et & Hb & N1 & N2).
      assert (Ew : ws (w2 ++ t ++ w' ++ 44 :: r0 ++ 125 :: r) = t ++ w' ++ 44 :: r0 ++ 125 :: r) by (rewrite Et; cbn [app]; exact (ws_to w2 c _ G2 Hb)). rewrite Ew.
      rewrite (IH k (w' ++ 44 :: r0 ++ 125 :: r)); [|lia|apply gap_ends; cbn; auto]. rewrite (ws_to w' 44 _ G' eq_refl).
      change (44 =? 125) with false. change (44 =? 44) with true. cbn iota. destruct (IHl k r ltac:(lia)) as (x & s & -> & _ & ->). reflexivity.
  Qed.

  Lemma gap_end w : gap w -> ends_number w = true.
  Proof. intros [|c w' H G]; [reflexivity|]. cbn in *. intuition; subst; reflexivity. Qed.
  Lemma gap_nil w : ws w = [] <-> gap w.
  Proof.
    split; [intros E; destruct (ws_split w) as (g & G & E'); rewrite E, app_nil_r in E'; subst; exact G|].
    intros G. rewrite <- (app_nil_r w), ws_gap by exact G. reflexivity.
  Qed.
  Lemma loads_unfold s : hd 0 s <> 65279 -> loads float to_float s =
    match scan (2 * length s + 2) (ws s) with Some (v, r) => match ws r with [] => Some v | _ => None end | None => None end.
  Proof.
    intros H. unfold loads. destruct s as [|c s]; [reflexivity|]. cbn [hd] in H.
    destruct c as [|p]; [reflexivity|]. repeat (destruct p as [p|p|]; try reflexivity).
  Qed.
  Theorem loads_iff s v : loads float to_float s = Some v <-> json_text to_float true s v.
  Proof.
    assert (Hh : hd 0 s = 65279 -> loads float to_float s = None) by (destruct s as [|c s]; [discriminate|]; cbn [hd]; intros ->; reflexivity).
    split.
    - intros H. destruct (N.eq_dec (hd 0 s) 65279) as [E|E]; [rewrite (Hh E) in H; discriminate H|]. rewrite loads_unfold in H by exact E.
      destruct (scan _ (ws s)) as [[v0 r]|] eqn:Es; [|discriminate H]. destruct (ws r) eqn:Er; [|discriminate H]. injection H as ->.
      destruct (proj1 (sound_all _) _ _ _ Es) as (t & Et & Ht). destruct (ws_split s) as (w & G & Ew). exists w, t, r. rewrite <- Et.
      split; [exact Ew|]. split; [exact G|]. split; [apply gap_nil, Er|exact Ht].
    - intros (w & t & w' & -> & G & G' & Ht). destruct (json_head t v Ht) as (c & t' & Et & Hb & _).
      assert (E : hd 0 (w ++ t ++ w') <> 65279).
      { destruct G as [|g w G0 G]; cbn [app hd].
        - rewrite Et. cbn [app hd]. intros ->. rewrite Et in Ht. clear -Ht. remember (65279 :: t') as s eqn:Es.
          destruct Ht as [| | | | | |ds H|ds H|t H|t s' (body & l & -> & _)|w H|t l H|w H|t l d H H']; try discriminate Es.
          + destruct (natural_head ds H) as (c & r & -> & Hc). injection Es as -> _. lia.
          + destruct H as (sg & ds & f & e & -> & Hs & Hn & _). destruct (natural_head ds Hn) as (c & r & -> & Hc). destruct Hs as [->| ->]; injection Es as Es; lia.
        - cbn in G0. intuition; subst; discriminate. }
      rewrite loads_unfold by exact E. rewrite ws_gap by exact G. rewrite Et. cbn [app]. rewrite ws_stop by exact Hb.
      change (c :: t' ++ w') with ((c :: t') ++ w'). rewrite <- Et.
      rewrite (proj1 complete_all t v Ht); [|rewrite !app_length; lia|apply gap_end, G'].
      replace (ws w') with (@nil N) by (symmetry; apply gap_nil, G'). reflexivity.
  Qed.
End Reading.

(** ** Writing *)
Definition items (c : N) : list item :=
  if (c =? 34) || (c =? 92) || (c =? 10) || (c =? 13) || (c =? 9) || (c =? 12) || (c =? 8) || ((32 <=? c) && (c <=? 126)) then [Raw c]
  else if c <? 65536 then [Unit c]
  else [Unit (55296 + (c - 65536) / 1024 mod 1024); Unit (56320 + (c - 65536) mod 1024)].
Lemma hex_ok d : d < 16 -> hex_digit (hex d) d.
Proof. intros H. unfold hex, hex_digit. destruct (N.ltb_spec d 10); lia. Qed.
Lemma u4_spells c s l : c < 65536 -> spells s l -> spells (u4 c ++ s) (Unit c :: l).
Proof.
  intros H Hs. replace (Unit c) with (Unit (c / 4096 mod 16 * 4096 + c / 256 mod 16 * 256 + c / 16 mod 16 * 16 + c mod 16)) by (f_equal; lia).
  cbn [u4 app]. apply sp_unit; [apply hex_ok; lia..|exact Hs].
Qed.
Lemma esc_spells c s l : spells s l -> spells (esc c ++ s) (items c ++ l).
Proof.
  intros Hs. unfold esc, items.
  destruct (N.eqb_spec c 34) as [->|N1]; [apply sp_short; [cbn; auto|exact Hs]|].
  destruct (N.eqb_spec c 92) as [->|N2]; [apply sp_short; [cbn; auto|exact Hs]|].
  destruct (N.eqb_spec c 10) as [->|N3]; [apply sp_short; [cbn; auto 10|exact Hs]|].
  destruct (N.eqb_spec c 13) as [->|N4]; [apply sp_short; [cbn; auto 10|exact Hs]|].
  destruct (N.eqb_spec c 9) as [->|N5]; [apply sp_short; [cbn; auto 10|exact Hs]|].
  destruct (N.eqb_spec c 12) as [->|N6]; [apply sp_short; [cbn; auto 10|exact Hs]|].
  destruct (N.eqb_spec c 8) as [->|N7]; [apply sp_short; [cbn; auto 10|exact Hs]|].
  cbn [orb]. destruct ((32 <=? c) && (c <=? 126)) eqn:E; [apply sp_raw; [lia|assumption..]|].
  destruct (N.ltb_spec c 65536) as [H|H]; [apply u4_spells; assumption|].
  rewrite <- app_assoc. cbn [app]. apply u4_spells; [lia|]. apply u4_spells; [lia|exact Hs].
Qed.
Lemma quote_spells s : spells (flat_map esc s) (flat_map items s).
Proof. induction s as [|c s IH]; [constructor|]. cbn [flat_map]. apply esc_spells, IH. Qed.
Lemma items_first c : (exists l, items c = Raw c :: l) \/ items c = [Unit c] \/ exists u v, trail u = false /\ items c = [Unit u; Unit v].
Proof.
  unfold items. destruct (_ || _) eqn:E; [left; eauto|]. destruct (N.ltb_spec c 65536) as [H|H]; [right; left; reflexivity|].
  right. right. pose proof (N.mod_lt ((c - 65536) / 1024) 1024 ltac:(discriminate)) as M. revert M. generalize ((c - 65536) / 1024 mod 1024). intros h M.
  exists (55296 + h), (56320 + (c - 65536) mod 1024). split; [unfold trail; clear -M; lia|reflexivity].
Qed.
Lemma items_chars s : sound_text s -> characters (flat_map items s) = s.
Proof.
  intros (F & P). induction F as [|c s Hc F IH]; [reflexivity|]. cbn [flat_map].
  assert (IH' : characters (flat_map items s) = s) by (apply IH; intros a u v b E; apply (P (c :: a) u v b); rewrite E; reflexivity). clear IH.
  unfold items at 1. destruct (_ || _) eqn:E; [cbn [app characters]; rewrite IH'; reflexivity|].
  destruct (N.ltb_spec c 65536) as [H|H]; cbn [app].
  - rewrite unit_chars; [rewrite IH'; reflexivity|]. intros v l0 El. destruct s as [|c' s]; [discriminate El|]. cbn [flat_map] in El.
    pose proof (P [] c c' s eq_refl) as P0.
    destruct (items_first c') as [(l & E1)|[E1|(u' & v' & H1 & E1)]]; rewrite E1 in El; cbn [app] in El.
    + discriminate El.
    + injection El as <- _. exact P0.
    + injection El as <- _. rewrite H1. apply andb_false_r.
  - pose proof (N.div_mod (c - 65536) 1024 ltac:(discriminate)) as Dm. pose proof (N.mod_lt (c - 65536) 1024 ltac:(discriminate)) as M.
    assert (Da : (c - 65536) / 1024 < 1024) by (apply N.div_lt_upper_bound; [discriminate|]; clear -Hc H; lia).
    rewrite (N.mod_small _ _ Da). revert Dm M Da. generalize ((c - 65536) / 1024) ((c - 65536) mod 1024). intros a b Dm M Da. cbn [characters].
    replace (lead (55296 + a)) with true by (symmetry; unfold lead; clear -Da; lia). replace (trail (56320 + b)) with true by (symmetry; unfold trail; clear -M; lia).
    cbn [andb]. rewrite IH'. f_equal. clear -Dm H. lia.
Qed.
Lemma quote_json s : sound_text s -> json_string (quote s) s.
Proof. intros H. exists (flat_map esc s), (flat_map items s). split; [reflexivity|]. split; [apply quote_spells|apply items_chars, H]. Qed.

Lemma digits_aux_hd : forall fuel n acc, n <> 0 -> n < 10 ^ N.of_nat fuel -> hd 48 (Access.digits_aux fuel n acc) <> 48.
Proof.
  induction fuel as [|k IH]; intros n acc Hn Hb; [cbn in Hb; lia|]. cbn [Access.digits_aux]. destruct (N.eqb_spec (n / 10) 0) as [E|E].
  - cbn [hd]. lia.
  - apply IH; [exact E|]. rewrite Nat2N.inj_succ, N.pow_succ_r' in Hb. apply N.div_lt_upper_bound; lia.
Qed.
Lemma log2_bound n : n < 10 ^ N.of_nat (S (N.to_nat (N.log2 n))).
Proof.
  rewrite Nat2N.inj_succ, N2Nat.id. destruct (N.eq_dec n 0) as [->|H]; [reflexivity|].
  apply N.lt_le_trans with (2 ^ N.succ (N.log2 n)); [apply N.log2_spec; lia|]. apply N.pow_le_mono_l. lia.
Qed.
Lemma decimal_natural n : natural (Access.decimal n) /\ natural_value (Access.decimal n) = n.
Proof.
  destruct (Proofs.Access.decimal_spec n) as (V & F & Ne). split; [|exact V].
  destruct (N.eq_dec n 0) as [->|H]; [left; reflexivity|]. right. split; [split; assumption|]. apply digits_aux_hd; [exact H|apply log2_bound].
Qed.

Section Values.
  Context {float : Type}.
  Variable repr : float -> bytes.
  Variable to_float : bytes -> float.
  Notation value := (value float). Notation dumps := (dumps float repr).

  Definition value_ind' (P : value -> Prop)
    (H0 : forall v, match v with VList _ _ | VDict _ _ => False | _ => True end -> P v)
    (H1 : forall l, Forall P l -> P (VList _ l)) (H2 : forall d, Forall (fun kv => P (snd kv)) d -> P (VDict _ d)) : forall v, P v :=
    fix go (v : value) : P v :=
      match v as v0 return P v0 with
      | VList _ l => H1 l ((fix lp (l : list value) : Forall P l := match l with [] => Forall_nil _ | x :: r => Forall_cons x (go x) (lp r) end) l)
      | VDict _ d => H2 d ((fix lp (d : list (text * value)) : Forall (fun kv => P (snd kv)) d :=
                              match d with [] => Forall_nil _ | x :: r => Forall_cons x (go (snd x)) (lp r) end) d)
      | v0 => H0 v0 I
      end.

  Lemma all_some_iff {A C} (f : A -> option C) l ts : all_or_none (map f l) = Some ts <-> Forall2 (fun a t => f a = Some t) l ts.
  Proof.
    revert ts; induction l as [|a l IH]; intros ts; cbn [map all_or_none].
    - split; [intros K; injection K as <-; constructor|intros K; inversion K; reflexivity].
    - destruct (f a) as [t|] eqn:E.
      + split.
        * destruct (all_or_none (map f l)) as [ts'|]; [|discriminate]. cbn. intros K. injection K as <-. constructor; [exact E|apply IH; reflexivity].
        * intros K. inversion K as [|? t' ? ts' E' K']; subst. apply IH in K'. rewrite K'. cbn. congruence.
      + split; [discriminate|]. intros K. inversion K. congruence.
  Qed.
  Lemma all_some_total {A C} (f : A -> option C) l : (exists ts, all_or_none (map f l) = Some ts) <-> Forall (fun a => exists t, f a = Some t) l.
  Proof.
    induction l as [|a l IH]; cbn [map all_or_none]; [split; [constructor|eauto]|]. rewrite Forall_cons_iff, <- IH. destruct (f a) as [t|].
    - split; [intros (ts & E); destruct (all_or_none (map f l)); [split; eauto|discriminate E]|intros (_ & ts & ->); eexists; reflexivity].
    - split; [intros (ts & E); discriminate E|intros ((t & E) & _); discriminate E].
  Qed.

  Lemma dumps_total v : (exists t, dumps v = Some t) <-> everywhere expressible v.
  Proof.
    induction v as [v H|l IH|d IH] using value_ind'.
    - split.
      + intros (t & E). apply ev_other; [|exact H]. destruct v; try exact I; discriminate E.
      + intros E. assert (X : expressible v) by (inversion E; subst; try destruct H; assumption). destruct v; try destruct H; try destruct X; eexists; reflexivity.
    - cbn [Json.dumps]. transitivity (exists ts, all_or_none (map dumps l) = Some ts).
      { destruct (all_or_none (map dumps l)); cbn; split; intros (t & E); try discriminate E; eauto. }
      rewrite all_some_total. split.
      + intros F. apply ev_list; [exact I|]. rewrite Forall_forall in *. intros x Hx. apply IH; auto.
      + intros E. inversion E as [l0 _ F E0|d0 P0 F E0|v0 P0 X E0]; subst; [|destruct X]. rewrite Forall_forall in *. intros x Hx. apply IH; auto.
    - cbn [Json.dumps]. set (g := fun kv : text * value => option_map (fun t => quote (fst kv) ++ B ": " ++ t) (dumps (snd kv))).
      transitivity (exists ts, all_or_none (map g d) = Some ts).
      { destruct (all_or_none (map g d)); cbn; split; intros (t & E); try discriminate E; eauto. }
      rewrite all_some_total. assert (G : forall kv, (exists t, g kv = Some t) <-> exists t, dumps (snd kv) = Some t).
      { intros kv. unfold g. destruct (dumps (snd kv)); cbn; split; intros (t & E); try discriminate E; eauto. }
      split.
      + intros F. apply ev_dict; [exact I|]. rewrite Forall_forall in *. intros x Hx. apply IH; [exact Hx|]. apply G. auto.
      + intros E. inversion E as [l0 P0 F E0|d0 P0 F E0|v0 P0 X E0]; subst; [|destruct X]. rewrite Forall_forall in *. intros x Hx. apply G. apply IH; auto.
  Qed.

  Lemma separated_cons t t' ts : separated (t :: t' :: ts) = t ++ [] ++ [44] ++ ([32] ++ separated (t' :: ts)).
  Proof. reflexivity. Qed.
  Hypothesis Hf : faithful repr to_float.
  Lemma separated_elements len l ts : Forall2 (fun v t => json to_float len t v) l ts -> l <> [] -> forall w, gap w -> elements to_float len (w ++ separated ts) l.
  Proof.
    induction 1 as [|v t l ts H F IH]; intros Ne w G; [destruct (Ne eq_refl)|]. destruct F as [|v' t' l ts H' F].
    - cbn [separated]. rewrite <- (app_nil_r t). apply e_last; [exact G|exact H|constructor].
    - rewrite separated_cons.
      apply e_more; [exact G|exact H|constructor|]. apply IH; [discriminate|]. constructor; [cbn; auto|constructor].
  Qed.
  Lemma separated_members len (d : list (text * value)) ts :
    Forall2 (fun kv t => exists t', t = quote (fst kv) ++ B ": " ++ t' /\ sound_text (fst kv) /\ json to_float len t' (snd kv)) d ts -> d <> [] ->
    forall w, gap w -> members to_float len (w ++ separated ts) d.
  Proof.
    induction 1 as [|[k v] t d ts H F IH]; intros Ne w G; [destruct (Ne eq_refl)|]. destruct H as (t' & -> & Sk & Ht). cbn [fst snd] in *.
    change (quote k ++ B ": " ++ t') with (quote k ++ [] ++ [58] ++ [32] ++ t').
    assert (G1 : gap [32]) by (constructor; [cbn; auto|constructor]). assert (G0 : gap []) by constructor.
    destruct F as [|kv0 t0 d ts H0 F].
    - cbn [separated]. rewrite <- (app_nil_r t') at 1. apply m_last; try assumption. apply quote_json, Sk.
    - rewrite separated_cons. rewrite <- !app_assoc.
      apply m_more; try assumption; [apply quote_json, Sk|]. apply IH; [discriminate|exact G1].
  Qed.
  Lemma written len v : everywhere sound v -> (len = true \/ everywhere standard v) -> forall t, dumps v = Some t -> json to_float len t v.
  Proof.
    induction v as [v H|l IH|d IH] using value_ind'; intros Sv Pv t E.
    - assert (Sv' : sound v) by (inversion Sv; subst; try destruct H; assumption).
      assert (Pv' : len = true \/ standard v) by (destruct Pv as [P|P]; [left; exact P|right; inversion P; subst; try destruct H; assumption]).
      destruct v; try destruct H; try discriminate E; cbn [Json.dumps] in E; apply (f_equal (fun o => match o with Some x => x | None => [] end)) in E; cbn iota in E; subst t.
      + constructor.
      + destruct b; constructor.
      + unfold int_text. destruct (Z.ltb_spec z 0) as [Hz|Hz].
        * destruct (decimal_natural (Z.to_N (- z))) as (D & V). replace z with (- Z.of_N (natural_value (Access.decimal (Z.to_N (- z)))))%Z at 2 by (rewrite V; lia).
          apply j_negative, D.
        * destruct (decimal_natural (Z.to_N z)) as (D & V). replace z with (Z.of_N (natural_value (Access.decimal (Z.to_N z))))%Z at 2 by (rewrite V; lia).
          apply j_natural, D.
      + destruct (Hf f) as (R & E). rewrite <- E at 2. apply j_real, R.
      + destruct Pv' as [P|[]]. apply j_nan, P.
      + destruct Pv' as [P|[]]. destruct negative; [apply j_minus_inf, P|apply j_inf, P].
      + apply j_string, quote_json, Sv'.
    - cbn [Json.dumps] in E. destruct (all_or_none (map dumps l)) as [ts|] eqn:Ea; [|discriminate E]. cbn in E. injection E as <-.
      apply all_some_iff in Ea. destruct l as [|v0 l0] eqn:El.
      { inversion Ea; subst. apply (j_empty_list to_float len []). constructor. }
      rewrite <- El in *. apply j_list. apply (separated_elements len l ts) with (w := []); [|rewrite El; discriminate|constructor].
      assert (S1 : Forall (everywhere sound) l) by (inversion Sv as [l1 _ F1 E1|d1 P1 F1 E1|v1 P1 X E1]; subst; [exact F1|destruct X]).
      assert (P1 : len = true \/ Forall (everywhere standard) l) by (destruct Pv as [P|P]; [left; exact P|right; inversion P as [l1 _ F1 E1|d1 P1 F1 E1|v1 P1 X E1]; subst; [exact F1|destruct X]]).
      clear -IH Ea S1 P1. induction Ea as [|v t l ts E Ea IHl]; [constructor|]. inversion IH; subst. inversion S1; subst. constructor.
      + apply H1; [assumption| |exact E]. destruct P1 as [P1|P1]; [left; exact P1|right; inversion P1; assumption].
      + apply IHl; try assumption. destruct P1 as [P1|P1]; [left; exact P1|right; inversion P1; assumption].
    - cbn [Json.dumps] in E. set (g := fun kv : text * value => option_map (fun t => quote (fst kv) ++ B ": " ++ t) (dumps (snd kv))) in E.
      destruct (all_or_none (map g d)) as [ts|] eqn:Ea; [|discriminate E]. cbn [option_map] in E. apply (f_equal (fun o => match o with Some x => x | None => [] end)) in E; cbn iota in E; subst t.
      apply all_some_iff in Ea.
      assert (S1 : sound (VDict _ d) /\ Forall (fun kv => everywhere sound (snd kv)) d) by (inversion Sv as [l1 P1 F1 E1|d1 P1 F1 E1|v1 P1 X E1]; subst; [auto|destruct X]).
      assert (P1 : len = true \/ Forall (fun kv => everywhere standard (snd kv)) d) by (destruct Pv as [P|P]; [left; exact P|right; inversion P as [l1 P1 F1 E1|d1 P1 F1 E1|v1 P1 X E1]; subst; [exact F1|destruct X]]).
      destruct S1 as ((ND & SK) & S1). destruct d as [|v0 d0] eqn:El.
      { inversion Ea; subst. apply (j_empty_object to_float len []). constructor. }
      rewrite <- El in *. apply j_object with (l := d); [|apply object_same, ND].
      apply (separated_members len d ts) with (w := []); [|rewrite El; discriminate|constructor].
      clear -IH Ea S1 P1 SK. induction Ea as [|[k v] t l ts E Ea IHl]; [constructor|]. inversion IH; subst. inversion S1; subst. inversion SK; subst. constructor.
      + unfold g in E. cbn [fst snd] in *. destruct (dumps v) as [t'|] eqn:Ed; [|discriminate E]. cbn [option_map] in E. apply (f_equal (fun o => match o with Some x => x | None => [] end)) in E; cbn iota in E; subst t.
        exists t'. split; [reflexivity|]. split; [assumption|]. apply H1; [assumption| |reflexivity]. destruct P1 as [P1|P1]; [left; exact P1|right; inversion P1; assumption].
      + apply IHl; try assumption. destruct P1 as [P1|P1]; [left; exact P1|right; inversion P1; assumption].
  Qed.
End Values.

(** ** What is written is plain *)
Definition printing (c : N) : Prop := 32 <= c <= 126.
Lemma hex_plain d : d < 16 -> printing (hex d).
Proof. intros H. unfold hex, printing. destruct (N.ltb_spec d 10); lia. Qed.
Lemma u4_plain c : Forall printing (u4 c).
Proof.
  unfold u4. change (B "\u") with [92; 117]. cbn [app].
  repeat first [apply Forall_nil|apply Forall_cons; [first [apply hex_plain, N.mod_lt; discriminate|unfold printing; cbn; lia]|]].
Qed.
Lemma lit_plain l : forallb (fun c => (32 <=? c) && (c <=? 126)) l = true -> Forall printing l.
Proof. intros H. apply Forall_forall. intros c I. rewrite forallb_forall in H. specialize (H c I). unfold printing. apply andb_true_iff in H as [A C]. apply N.leb_le in A, C. lia. Qed.
Lemma esc_plain c : Forall printing (esc c).
Proof.
  unfold esc.
  repeat match goal with |- Forall _ (if ?b then _ else _) => destruct b eqn:?; [first [apply lit_plain; reflexivity|apply u4_plain|idtac]|] end; [|apply Forall_app; split; apply u4_plain].
  constructor; [|constructor]. unfold printing. match goal with H : _ && _ = true |- _ => apply andb_true_iff in H as [A C]; apply N.leb_le in A, C; lia end.
Qed.
Lemma quote_plain s : Forall printing (quote s).
Proof.
  unfold quote. apply Forall_app. split; [constructor; [unfold printing; lia|constructor]|]. apply Forall_app. split; [|constructor; [unfold printing; lia|constructor]].
  induction s as [|c s IH]; [constructor|]. cbn [flat_map]. apply Forall_app. split; [apply esc_plain|exact IH].
Qed.
Lemma digits_plain ds : Forall (fun c => 48 <= c <= 57) ds -> Forall printing ds.
Proof. apply Forall_impl. unfold printing. intros. lia. Qed.
Lemma natural_plain ds : natural ds -> Forall printing ds.
Proof. intros [->|((_ & H) & _)]; [repeat constructor; unfold printing; lia|apply digits_plain, H]. Qed.
Lemma real_plain t : real_text t -> Forall printing t.
Proof.
  intros (sg & ds & f & e & -> & Hs & Hn & Hf & He & _).
  repeat (apply Forall_app; split).
  - destruct Hs as [->| ->]; [constructor|apply lit_plain; reflexivity].
  - apply natural_plain, Hn.
  - destruct Hf as [->|(d & -> & _ & H)]; [constructor|]. constructor; [unfold printing; lia|apply digits_plain, H].
  - destruct He as [->|(x & y & d & -> & Hx & Hy & _ & H)]; [constructor|]. cbn [app]. constructor; [cbn in Hx; intuition; subst; unfold printing; lia|].
    apply Forall_app. split; [cbn in Hy; intuition; subst; try constructor; try constructor; unfold printing; lia|apply digits_plain, H].
Qed.
Lemma separated_plain ts : Forall (Forall printing) ts -> Forall printing (separated ts).
Proof.
  induction 1 as [|t ts H F IH]; [constructor|]. destruct ts as [|t' ts]; [exact H|]. rewrite separated_cons.
  repeat (apply Forall_app; split); [exact H|constructor|apply lit_plain; reflexivity|apply lit_plain; reflexivity|exact IH].
Qed.
Lemma forall2_right {A C} (f : A -> option C) (P : C -> Prop) l ts :
  Forall (fun a => forall t, f a = Some t -> P t) l -> Forall2 (fun a t => f a = Some t) l ts -> Forall P ts.
Proof. intros H F. revert H. induction F; intros K; [constructor|]. inversion K; subst. constructor; auto. Qed.
Lemma dumps_plain {float} (repr : float -> bytes) v : (forall f, real_text (repr f)) -> forall t, dumps float repr v = Some t -> Forall printing t.
Proof.
  intros Hr. induction v as [v H|l IH|d IH] using value_ind'; intros t E.
  - destruct v; try destruct H; try discriminate E; cbn [Json.dumps] in E; apply (f_equal (fun o => match o with Some x => x | None => [] end)) in E; cbn iota in E; subst t.
    + apply lit_plain; reflexivity.
    + destruct b; apply lit_plain; reflexivity.
    + unfold int_text. destruct (z <? 0)%Z.
      * apply Forall_app. split; [apply lit_plain; reflexivity|]. apply natural_plain, decimal_natural.
      * apply natural_plain, decimal_natural.
    + apply real_plain, Hr.
    + apply lit_plain; reflexivity.
    + destruct negative; apply lit_plain; reflexivity.
    + apply quote_plain.
  - cbn [Json.dumps] in E. destruct (all_or_none (map (dumps float repr) l)) as [ts|] eqn:Ea; [|discriminate E]. cbn in E. injection E as <-.
    apply all_some_iff in Ea. cbn [app]. constructor; [unfold printing; lia|]. apply Forall_app. split; [|apply lit_plain; reflexivity]. apply separated_plain. exact (forall2_right _ _ _ _ IH Ea).
  - cbn [Json.dumps] in E. set (g := fun kv : text * value float => option_map (fun t => quote (fst kv) ++ B ": " ++ t) (dumps float repr (snd kv))) in E.
    destruct (all_or_none (map g d)) as [ts|] eqn:Ea; [|discriminate E]. cbn [option_map] in E. apply (f_equal (fun o => match o with Some x => x | None => [] end)) in E; cbn iota in E; subst t.
    apply all_some_iff in Ea. apply Forall_app. split; [apply lit_plain; reflexivity|]. apply Forall_app. split; [|apply lit_plain; reflexivity]. apply separated_plain.
    apply (forall2_right g _ d ts); [|exact Ea]. apply (Forall_impl _ (P := fun kv => forall t, dumps float repr (snd kv) = Some t -> Forall printing t)); [|exact IH].
    intros [k v] Hv t E. unfold g in E. cbn [fst snd] in *. destruct (dumps float repr v) as [t'|] eqn:Ed; [|discriminate E]. cbn [option_map] in E. apply (f_equal (fun o => match o with Some x => x | None => [] end)) in E; cbn iota in E; subst t.
    apply Forall_app. split; [apply quote_plain|]. apply Forall_app. split; [apply lit_plain; reflexivity|apply Hv; reflexivity].
Qed.
Lemma plain_utf8 t : Forall printing t -> utf8bytes t = Some t /\ utf8text t = Some t.
Proof.
  intros H. assert (U : Spec.Utf8.utf8 t t).
  { induction H as [|c t Hc F IH]; [constructor|]. apply (Spec.Utf8.utf8_cons c [c] t t); [constructor; unfold printing in Hc; lia|exact IH]. }
  split; [apply Proofs.Utf8.utf8bytes_iff, U|apply Proofs.Utf8.utf8text_iff, U].
Qed.

(** ** Strict texts *)
Section Strict.
  Context {float : Type}.
  Variable to_float : bytes -> float.
  Lemma strict_all :
    (forall t v, json to_float false t v -> json to_float true t v /\ everywhere standard v) /\
    (forall t l, elements to_float false t l -> elements to_float true t l /\ Forall (everywhere standard) l) /\
    (forall t l, members to_float false t l -> members to_float true t l /\ Forall (fun kv => everywhere standard (snd kv)) l).
  Proof.
    apply json_all; intros; try discriminate.
    all: try (split; [constructor; assumption|apply ev_other; exact I]).
    - split; [constructor; assumption|]. apply ev_list; [exact I|constructor].
    - destruct H. split; [apply j_list; assumption|]. apply ev_list; [exact I|assumption].
    - split; [constructor; assumption|]. apply ev_dict; [exact I|constructor].
    - destruct H as [H0 H1]. split; [apply j_object with (l := l); assumption|]. apply ev_dict; [exact I|].
      apply Forall_forall. intros [k v] Hi. destruct o as [_ O]. destruct (O k v Hi) as (a & b & E & _).
      rewrite Forall_forall in H1. apply (H1 (k, v)). rewrite E. apply in_app_iff. right. left. reflexivity.
    - destruct H. split; [apply e_last; assumption|apply Forall_cons; [assumption|apply Forall_nil]].
    - destruct H, H0. split; [apply e_more; assumption|constructor; assumption].
    - destruct H. split; [apply m_last; assumption|apply Forall_cons; [assumption|apply Forall_nil]].
    - destruct H, H0. split; [apply m_more; assumption|constructor; assumption].
  Qed.
  Lemma strict_text t v : json_text to_float false t v -> json_text to_float true t v /\ everywhere standard v.
  Proof.
    intros (w & b & w' & -> & G & G' & J). apply (proj1 strict_all) in J as (J & E). split; [|exact E]. exists w, b, w'. auto.
  Qed.
  Lemma json_whole len t v : json to_float len t v -> json_text to_float len t v.
  Proof. intros J. exists [], t, []. rewrite app_nil_r. split; [reflexivity|]. split; [constructor|]. split; [constructor|exact J]. Qed.
End Strict.

(** ** Packets *)
Section Packet.
  Context {float : Type}.
  Variable repr : float -> bytes.
  Variable to_float : bytes -> float.
  Hypothesis Hf : faithful repr to_float.
  Notation value := (value float).

  Lemma scalar_sound s : Forall Utf8.scalar s -> sound_text s.
  Proof.
    intros H. split.
    - revert H. apply Forall_impl. unfold Utf8.scalar. intros c Hc. lia.
    - intros a u v b ->. apply Forall_app in H as [_ H]. inversion H as [|x y Hu H1]; subst. unfold Utf8.scalar in Hu. unfold lead.
      destruct (N.leb_spec 0xD800 u), (N.leb_spec u 0xDBFF); try reflexivity. lia.
  Qed.
  Lemma clean_arrives (p : list (text * value)) : packet_arrives p (clean float p).
  Proof.
    induction p as [|[k v] p IH]; [constructor|]. cbn [clean map fst snd]. constructor; [|exact IH]. cbn [fst snd]. split; [reflexivity|].
    destruct v; try (apply ar_same; exact I). apply ar_bytes.
    - apply Proofs.Utf8.replace_scalar.
    - intros t. apply Proofs.Utf8.replace_valid.
  Qed.
  Lemma clean_keys (p : list (text * value)) : map fst (clean float p) = map fst p.
  Proof. unfold clean. rewrite map_map. reflexivity. Qed.
  Lemma clean_everywhere (P : value -> Prop) (p : list (text * value)) :
    P (VDict _ (clean float p)) ->
    Forall (fun kv => match snd kv with VBytes _ b => P (VStr _ (utf8text_replace b)) | v => everywhere P v end) p -> everywhere P (VDict _ (clean float p)).
  Proof.
    intros H F. apply ev_dict; [exact H|]. unfold clean. apply Forall_forall. intros kv I. apply in_map_iff in I as ([k v] & <- & I). cbn [fst snd].
    rewrite Forall_forall in F. specialize (F _ I). cbn [snd] in F. destruct v; try exact F. apply ev_other; [exact F|exact Logic.I].
  Qed.
  Lemma packet_some p : Forall (fun kv : text * value => match snd kv with VBytes _ _ => True | v => everywhere expressible v end) p <-> exists t, packet_text float repr p = Some t.
  Proof.
    unfold packet_text. split.
    - intros H. assert (E : everywhere expressible (VDict float (clean float p))).
      { apply clean_everywhere; [exact I|]. revert H. apply Forall_impl. intros [k v]. cbn [snd]. destruct v; intros H; try exact H; exact I. }
      apply (proj2 (dumps_total repr _)) in E as (t & E). rewrite E. exists t.
      apply plain_utf8. apply (dumps_plain repr _ (fun f => proj1 (Hf f)) t E).
    - intros (t & E). destruct (dumps float repr (VDict float (clean float p))) as [t'|] eqn:D; [|discriminate].
      assert (X : everywhere expressible (VDict float (clean float p))) by (apply (dumps_total repr); eauto).
      inversion X as [l1 P1 F1 E1|d1 P1 F1 E1|v1 P1 X1 E1]; subst; [|destruct X1]. apply Forall_forall. intros [k v] I. cbn [snd].
      rewrite Forall_forall in F1. specialize (F1 (k, match v with VBytes _ b => VStr _ (utf8text_replace b) | v => v end)).
      cbn [snd] in F1. destruct v; try exact Logic.I; apply F1; unfold clean; apply in_map_iff; eexists; (split; [|exact I]); reflexivity.
  Qed.
  Lemma clean_sound p : packet_like p -> everywhere sound (VDict float (clean float p)).
  Proof.
    intros (ND & F). apply clean_everywhere.
    - cbn [sound]. rewrite clean_keys. split; [exact ND|]. apply Forall_forall. intros kv I. unfold clean in I. apply in_map_iff in I as ([k v] & <- & I).
      rewrite Forall_forall in F. apply (F _ I).
    - revert F. apply Forall_impl. intros [k v] (_ & H). cbn [snd] in *. destruct v; try (exact (proj2 H)). cbn [sound]. apply scalar_sound, Proofs.Utf8.replace_scalar.
  Qed.
End Packet.
