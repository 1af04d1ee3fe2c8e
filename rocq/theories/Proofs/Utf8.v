From Coq Require Import ZifyN ZifyBool ZifyNat.
From Verif Require Import Model.Bytes Model.Utf8.
From Verif Require Import Spec.Utf8.
Local Open Scope N_scope.
Local Open Scope list_scope.

Ltac Zify.zify_post_hook ::= Z.to_euclidean_division_equations.

Lemma utf8_char_nonempty c b : utf8_char c b -> b <> [].
Proof. intros H; destruct H; discriminate. Qed.
Lemma utf8_char_scalar c b : utf8_char c b -> scalar c.
Proof. intros H; destruct H; unfold scalar in *; lia. Qed.

(** ** The decoder's step *)
Ltac tests := repeat match goal with
  | |- context [if ?x then _ else _] => let E := fresh "E" in destruct x eqn:E; try lia
  end.

Lemma decode1_char c b s : utf8_char c b -> decode1 (b ++ s) = Char c (length b).
Proof.
  intros H; destruct H; cbn [app decode1 length]; unfold second3, second4, is_cont, scalar in *;
    tests; f_equal; lia.
Qed.

Lemma decode1_char_inv s c n : decode1 s = Char c n ->
  exists b r, s = b ++ r /\ utf8_char c b /\ length b = n.
Proof.
  destruct s as [|b0 r]; [discriminate|]. cbn [decode1].
  destruct (b0 <? 128) eqn:E0.
  { intros X; assert (c = ltac:(match type of X with Char ?y _ = _ => exact y end)) by congruence; assert (n = ltac:(match type of X with Char _ ?y = _ => exact y end)) by congruence; subst c n; clear X. exists [b0], r. repeat split. constructor. lia. }
  destruct (b0 <? 194) eqn:E1; [discriminate|].
  destruct (b0 <? 224) eqn:E2.
  { destruct r as [|b1 r]; [discriminate|]. destruct (is_cont b1) eqn:E3; [|discriminate]. unfold is_cont in E3.
    intros X; assert (c = ltac:(match type of X with Char ?y _ = _ => exact y end)) by congruence; assert (n = ltac:(match type of X with Char _ ?y = _ => exact y end)) by congruence; subst c n; clear X. exists [b0; b1], r. repeat split.
    replace [b0; b1] with [0xC0 + (b0 - 192); 0x80 + (b1 - 128)] by (repeat f_equal; lia).
    constructor; lia. }
  destruct (b0 <? 240) eqn:E3.
  { destruct r as [|b1 r]; [discriminate|]. 
    destruct (second3 b0 b1) eqn:E4; [|discriminate]. unfold second3, is_cont in E4.
    destruct r as [|b2 r]; [discriminate|]. destruct (is_cont b2) eqn:E5; [|discriminate]. unfold is_cont in E5.
    intros X; assert (c = ltac:(match type of X with Char ?y _ = _ => exact y end)) by congruence; assert (n = ltac:(match type of X with Char _ ?y = _ => exact y end)) by congruence; subst c n; clear X. exists [b0; b1; b2], r. repeat split.
    replace [b0; b1; b2] with [0xE0 + (b0 - 224); 0x80 + (b1 - 128); 0x80 + (b2 - 128)] by (repeat f_equal; lia).
    constructor; unfold scalar; lia. }
  destruct (b0 <? 245) eqn:E4; [|discriminate].
  destruct r as [|b1 r]; [discriminate|]. 
  destruct (second4 b0 b1) eqn:E5; [|discriminate]. unfold second4, is_cont in E5.
  destruct r as [|b2 r]; [discriminate|]. destruct (is_cont b2) eqn:E6; [|discriminate]. unfold is_cont in E6.
  destruct r as [|b3 r]; [discriminate|]. destruct (is_cont b3) eqn:E7; [|discriminate]. unfold is_cont in E7.
  intros X; assert (c = ltac:(match type of X with Char ?y _ = _ => exact y end)) by congruence; assert (n = ltac:(match type of X with Char _ ?y = _ => exact y end)) by congruence; subst c n; clear X. exists [b0; b1; b2; b3], r. repeat split.
  replace [b0; b1; b2; b3] with [0xF0 + (b0 - 240); 0x80 + (b1 - 128); 0x80 + (b2 - 128); 0x80 + (b3 - 128)]
    by (repeat f_equal; lia).
  constructor; unfold scalar; lia.
Qed.

Lemma encode1_iff c b : encode1 c = Some b <-> utf8_char c b.
Proof.
  split.
  - unfold encode1. destruct (c <? 128) eqn:E0; [intros [= <-]; constructor; lia|].
    destruct (c <? 2048) eqn:E1; [intros [= <-]; apply (two c (c / 64) (c mod 64)); lia|].
    destruct (c <? 65536) eqn:E2.
    + destruct (_ && _) eqn:E3; [discriminate|]. intros [= <-].
      apply (three c (c / 4096) (c / 64 mod 64) (c mod 64)); unfold scalar; lia.
    + destruct (c <? 1114112) eqn:E3; [|discriminate]. intros [= <-].
      apply (four c (c / 262144) (c / 4096 mod 64) (c / 64 mod 64) (c mod 64)); unfold scalar; lia.
  - intros H; destruct H; unfold encode1, scalar in *; tests; repeat f_equal; lia.
Qed.

(** ** Decoding *)
Lemma decode_skip b r : decode_from (length b) (b ++ r) = decode_from 0 r.
Proof. induction b as [|x b IH]; cbn; [reflexivity|exact IH]. Qed.
Lemma replace_skip b r : replace_from (length b) (b ++ r) = replace_from 0 r.
Proof. induction b as [|x b IH]; cbn; [reflexivity|exact IH]. Qed.

Lemma decode_char c b s : utf8_char c b ->
  decode_from 0 (b ++ s) = match decode_from 0 s with Some t => Some (c :: t) | None => None end.
Proof.
  intros H. pose proof (decode1_char c b s H) as D. pose proof (utf8_char_nonempty c b H) as N.
  destruct b as [|x b]; [congruence|]. cbn [app] in *. cbn [decode_from]. rewrite D. cbn [length pred].
  rewrite decode_skip. reflexivity.
Qed.
Lemma replace_char c b s : utf8_char c b -> replace_from 0 (b ++ s) = c :: replace_from 0 s.
Proof.
  intros H. pose proof (decode1_char c b s H) as D. pose proof (utf8_char_nonempty c b H) as N.
  destruct b as [|x b]; [congruence|]. cbn [app] in *. cbn [replace_from]. rewrite D. cbn [length pred].
  rewrite replace_skip. reflexivity.
Qed.

Lemma decode_sound n : forall s t, (length s <= n)%nat -> decode_from 0 s = Some t -> utf8 t s.
Proof.
  induction n as [|n IH]; intros s t L D.
  - destruct s; [|cbn in L; lia]. cbn in D. injection D as <-. constructor.
  - destruct s as [|x r]; [cbn in D; injection D as <-; constructor|].
    cbn [decode_from] in D. destruct (decode1 (x :: r)) as [c m|m] eqn:E; [|discriminate].
    destruct (decode1_char_inv _ _ _ E) as (b & r' & Es & H & Hb).
    pose proof (decode_char c b r' H) as D'. rewrite <- Es in D'. cbn [decode_from] in D'. rewrite E in D'.
    rewrite D' in D. destruct (decode_from 0 r') as [t'|] eqn:D2; [|discriminate]. injection D as <-.
    rewrite Es. constructor; [exact H|]. apply IH; [|exact D2].
    pose proof (utf8_char_nonempty _ _ H). assert (length (x :: r) = length b + length r')%nat by (rewrite Es, app_length; reflexivity).
    destruct b; [congruence|]. cbn in *. lia.
Qed.

Lemma utf8text_iff s t : utf8text s = Some t <-> utf8 t s.
Proof.
  split; [apply (decode_sound (length s)); lia|].
  unfold utf8text. induction 1 as [|c b t s H U IH]; [reflexivity|].
  rewrite (decode_char c b s H). rewrite IH. reflexivity.
Qed.

Lemma utf8bytes_iff t s : utf8bytes t = Some s <-> utf8 t s.
Proof.
  split.
  - revert s; induction t as [|c t IH]; intros s E; cbn in E; [injection E as <-; constructor|].
    destruct (encode1 c) as [b|] eqn:E1; [|discriminate]. destruct (utf8bytes t) as [s'|] eqn:E2; [|discriminate].
    injection E as <-. constructor; [apply encode1_iff; exact E1|apply IH; reflexivity].
  - induction 1 as [|c b t s H U IH]; [reflexivity|]. cbn.
    apply encode1_iff in H. rewrite H, IH. reflexivity.
Qed.

Lemma scalar_encodes c : scalar c -> exists b, encode1 c = Some b.
Proof. unfold scalar, encode1. intros H. tests; eexists; reflexivity. Qed.

Lemma utf8bytes_some t : (exists s, utf8bytes t = Some s) <-> Forall scalar t.
Proof.
  split.
  - intros [s E]. apply utf8bytes_iff in E. induction E as [|c b t s H U IH]; constructor; [|exact IH].
    exact (utf8_char_scalar _ _ H).
  - induction 1 as [|c t Hc Ht [s IH]]; [exists []; reflexivity|].
    destruct (scalar_encodes c Hc) as [b Eb]. exists (b ++ s). cbn. rewrite Eb, IH. reflexivity.
Qed.

Lemma utf8_round_trip t : Forall scalar t -> exists s, utf8bytes t = Some s /\ utf8text s = Some t.
Proof.
  intros H. apply utf8bytes_some in H. destruct H as [s E]. exists s. split; [exact E|].
  apply utf8text_iff, utf8bytes_iff, E.
Qed.
Lemma utf8_round_trip_bytes s t : utf8text s = Some t -> utf8bytes t = Some s.
Proof. intros H. apply utf8bytes_iff, utf8text_iff, H. Qed.

(** ** The lenient decoder *)
Lemma replace_valid t s : utf8 t s -> utf8text_replace s = t.
Proof.
  unfold utf8text_replace. induction 1 as [|c b t s H U IH]; [reflexivity|].
  rewrite (replace_char c b _ H). rewrite IH. reflexivity.
Qed.

Lemma unknown_scalar : scalar REPLACEMENT.
Proof. right; unfold REPLACEMENT; lia. Qed.

Lemma replace_scalar s : forall k, Forall scalar (replace_from k s).
Proof.
  induction s as [|x r IH]; intros k; cbn [replace_from]; [constructor|].
  destruct k as [|k]; [|apply IH]. destruct (decode1 (x :: r)) as [c n|n] eqn:E.
  - constructor; [|apply IH]. destruct (decode1_char_inv _ _ _ E) as (b & r' & _ & H & _).
    exact (utf8_char_scalar _ _ H).
  - constructor; [exact unknown_scalar|apply IH].
Qed.

(** Bytes an error or a character swallows beyond its first are never ASCII. *)
Lemma decode1_swallows s : s <> [] ->
  match decode1 s with
  | Char c n => (1 <= n <= length s)%nat /\
      (is_ascii c = true -> exists r, s = c :: r /\ n = 1%nat) /\
      (is_ascii c = false -> Forall (fun x => is_ascii x = false) (firstn n s))
  | Bad n => (1 <= n <= length s)%nat /\ Forall (fun x => is_ascii x = false) (firstn n s)
  end.
Proof.
  intros N. destruct (decode1 s) as [c n|n] eqn:E.
  - destruct (decode1_char_inv _ _ _ E) as (b & r & -> & H & <-).
    rewrite firstn_app, Nat.sub_diag, firstn_O, app_nil_r, firstn_all, app_length.
    destruct H; (split; [cbn; lia|]); unfold is_ascii; split; intros A;
      try (exists r; split; reflexivity); try lia; repeat constructor; lia.
  - destruct s as [|b0 r]; [congruence|]. cbn [decode1] in E. unfold is_ascii.
    destruct (b0 <? 128) eqn:E0; [discriminate|].
    destruct (b0 <? 194) eqn:E1; [injection E as <-; cbn; split; [lia|repeat constructor; lia]|].
    destruct (b0 <? 224) eqn:E2.
    { destruct r as [|b1 r]; [injection E as <-; cbn; split; [lia|repeat constructor; lia]|].
      destruct (is_cont b1); [discriminate|]. injection E as <-; cbn; split; [lia|repeat constructor; lia]. }
    destruct (b0 <? 240) eqn:E3.
    { destruct r as [|b1 r]; [injection E as <-; cbn; split; [lia|repeat constructor; lia]|].
      destruct (second3 b0 b1) eqn:S3; [|injection E as <-; cbn; split; [lia|repeat constructor; lia]].
      unfold second3, is_cont in S3.
      destruct r as [|b2 r]; [injection E as <-; cbn; split; [lia|repeat constructor; lia]|].
      destruct (is_cont b2); [discriminate|]. injection E as <-; cbn; split; [lia|repeat constructor; lia]. }
    destruct (b0 <? 245) eqn:E4; [|injection E as <-; cbn; split; [lia|repeat constructor; lia]].
    destruct r as [|b1 r]; [injection E as <-; cbn; split; [lia|repeat constructor; lia]|].
    destruct (second4 b0 b1) eqn:S4; [|injection E as <-; cbn; split; [lia|repeat constructor; lia]].
    unfold second4, is_cont in S4.
    destruct r as [|b2 r]; [injection E as <-; cbn; split; [lia|repeat constructor; lia]|].
    destruct (is_cont b2) eqn:S2; [|injection E as <-; cbn; split; [lia|repeat constructor; lia]].
    unfold is_cont in S2.
    destruct r as [|b3 r]; [injection E as <-; cbn; split; [lia|repeat constructor; lia]|].
    destruct (is_cont b3); [discriminate|]. injection E as <-; cbn; split; [lia|repeat constructor; lia].
Qed.

Lemma replace_skipn k : forall s, replace_from k s = replace_from 0 (skipn k s).
Proof.
  induction k as [|k IH]; intros s; [reflexivity|]. destruct s as [|x r]; [reflexivity|].
  cbn [replace_from skipn]. apply IH.
Qed.

Lemma filter_none_ascii l : Forall (fun x => is_ascii x = false) l -> filter is_ascii l = [].
Proof. induction 1 as [|x l H _ IH]; [reflexivity|]. cbn. rewrite H. exact IH. Qed.

Lemma replace_ascii n : forall s, (length s <= n)%nat ->
  filter is_ascii (replace_from 0 s) = filter is_ascii s.
Proof.
  induction n as [|n IH]; intros s L; [destruct s; [reflexivity|cbn in L; lia]|].
  destruct s as [|x r]; [reflexivity|].
  pose proof (decode1_swallows (x :: r) ltac:(discriminate)) as W.
  cbn [replace_from]. destruct (decode1 (x :: r)) as [c m|m].
  - destruct W as (B & A1 & A2). rewrite replace_skipn. cbn [length] in *.
    cbn [filter]. destruct (is_ascii c) eqn:A.
    + destruct (A1 eq_refl) as (r' & Eq & ->). injection Eq as -> ->. cbn [pred skipn]. rewrite A.
      f_equal. apply IH. lia.
    + specialize (A2 eq_refl). rewrite IH by (rewrite skipn_length; lia).
      change (if is_ascii x then x :: filter is_ascii r else filter is_ascii r) with (filter is_ascii (x :: r)).
      rewrite <- (firstn_skipn m (x :: r)). rewrite filter_app, (filter_none_ascii _ A2).
      destruct m as [|m]; [lia|]. reflexivity.
  - destruct W as (B & A2). rewrite replace_skipn. cbn [length] in *. cbn [filter].
    change (is_ascii REPLACEMENT) with false. cbv iota.
    rewrite IH by (rewrite skipn_length; lia).
    change (if is_ascii x then x :: filter is_ascii r else filter is_ascii r) with (filter is_ascii (x :: r)).
    rewrite <- (firstn_skipn m (x :: r)). rewrite filter_app, (filter_none_ascii _ A2).
    destruct m as [|m]; [lia|]. reflexivity.
Qed.

(** A character cut short is one error covering what is left of it. *)
Lemma cut_char c b k : utf8_char c b -> (0 < k < length b)%nat -> decode1 (firstn k b) = Bad k.
Proof.
  intros H L. assert (K : k = 1%nat \/ k = 2%nat \/ k = 3%nat) by (destruct H; cbn [length] in L; lia).
  destruct H; cbn [length] in L; destruct K as [-> | [-> | ->]]; try (exfalso; lia); cbn [firstn decode1];
    unfold second3, second4, is_cont, scalar in *; tests; reflexivity.
Qed.

Lemma replace_cut c b k : utf8_char c b -> (0 < k < length b)%nat ->
  replace_from 0 (firstn k b) = [REPLACEMENT].
Proof.
  intros H L. pose proof (cut_char c b k H L) as D.
  destruct b as [|x b]; [cbn in L; lia|]. destruct k as [|k]; [lia|]. cbn [firstn] in *.
  cbn [replace_from]. rewrite D. cbn [pred]. rewrite replace_skipn, skipn_all2; [reflexivity|].
  rewrite firstn_length. cbn in L. lia.
Qed.

(** Cutting the output at any byte shows whole characters, then at most one U+FFFD. *)
Lemma prefix_of_text t s : utf8 t s -> forall n,
  exists t1 t2 s1, t = t1 ++ t2 /\ utf8 t1 s1 /\ (length s1 <= n)%nat /\
    ((firstn n s = s1 /\ output_prefix s n = t1) \/
     ((length s1 < n)%nat /\ firstn n s <> s1 /\ output_prefix s n = t1 ++ [REPLACEMENT] /\
      exists c t3 b, t2 = c :: t3 /\ utf8_char c b /\ (n < length s1 + length b)%nat)).
Proof.
  unfold output_prefix, utf8text_replace. induction 1 as [|c b t s H U IH]; intros n.
  - exists [], [], []. rewrite firstn_nil. split; [reflexivity|]. split; [constructor|]. split; [cbn; lia|].
    left; split; reflexivity.
  - destruct (Nat.le_gt_cases (length b) n) as [Ln|Ln].
    + destruct (IH (n - length b)%nat) as (t1 & t2 & s1 & Et & U1 & L1 & D).
      exists (c :: t1), t2, (b ++ s1). rewrite firstn_app, (firstn_all2 b) by lia.
      rewrite (replace_char c b _ H).
      split; [rewrite Et; reflexivity|]. split; [constructor; assumption|]. rewrite app_length. split; [lia|].
      destruct D as [[D1 D2]|(D0 & D1 & D2 & c' & t3 & b' & D3 & D4 & D5)].
      * left. rewrite D1. split; [reflexivity|]. f_equal. rewrite <- D1. exact D2.
      * right. split; [lia|]. split; [intros Eq; apply app_inv_head in Eq; exact (D1 Eq)|].
        split; [cbn; f_equal; exact D2|]. exists c', t3, b'. repeat split; try assumption. lia.
    + exists [], (c :: t), []. split; [reflexivity|]. split; [constructor|]. split; [cbn; lia|].
      rewrite firstn_app. replace (n - length b)%nat with 0%nat by lia. rewrite firstn_O, app_nil_r.
      destruct n as [|n].
      * left. split; reflexivity.
      * right. split; [cbn; lia|]. split; [destruct b; [cbn in Ln; lia|discriminate]|].
        split; [apply (replace_cut c); [exact H|lia]|]. exists c, t, b. repeat split; [exact H|]. cbn. lia.
Qed.
