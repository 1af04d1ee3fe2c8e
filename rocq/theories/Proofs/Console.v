From Coq Require Import String QArith Qround Lqa.
From Verif Require Import Model.Bytes Model.Result Model.Console Spec.Text Spec.Access Spec.Console Proofs.BytesLemmas.
Local Open Scope nat_scope.
Local Open Scope list_scope.

(** ** Lists *)
Lemma starts_iff p : forall s, starts_with p s = true <-> exists r, s = p ++ r.
Proof.
  induction p as [|a p IH]; intros [|b s]; cbn.
  - split; [exists []; reflexivity|reflexivity].
  - split; [exists (b :: s); reflexivity|reflexivity].
  - split; [discriminate|]. intros (r & X). discriminate.
  - rewrite Bool.andb_true_iff, N.eqb_eq, IH. split.
    + intros (-> & r & ->). exists r. reflexivity.
    + intros (r & X). injection X as <- ->. eauto.
Qed.
Lemma skipn_app_exact {A} (p r : list A) : skipn (List.length p) (p ++ r) = r.
Proof. induction p; [reflexivity|assumption]. Qed.

(** ** until *)
Lemma until_sound p : p <> [] -> forall s g r, until p s = Some (g, r) ->
  s = g ++ p ++ r /\ ~ In 10%N g /\ (forall a b, g <> a ++ b \/ starts_with p (b ++ p ++ r) = false \/ b = []).
Proof.
  intros Hp. induction s as [|c s IH]; intros g r E; cbn [until] in E.
  - destruct p; [contradiction|]. discriminate.
  - destruct (starts_with p (c :: s)) eqn:W.
    + injection E as <- <-. apply starts_iff in W as (q & W). rewrite W, skipn_app_exact. split; [reflexivity|].
      split; [intros []|]. intros [|x a] b; [destruct b; [right; right; reflexivity|left; discriminate]|left; discriminate].
    + destruct (N.eqb_spec c 10) as [->|D]; [discriminate|].
      destruct (until p s) as [[g' r']|] eqn:U; [|discriminate]. injection E as <- <-.
      destruct (IH _ _ eq_refl) as (-> & N1 & F). split; [reflexivity|]. split; [intros [X|X]; [exact (D X)|exact (N1 X)]|].
      intros [|x a] b.
      * destruct b as [|y b]; [right; right; reflexivity|]. destruct (list_eq_dec N.eq_dec (c :: g') (y :: b)) as [X|X]; [|left; exact X].
        right; left. rewrite <- X. exact W.
      * destruct (F a b) as [F'|F']; [left|right; exact F']. intros X. injection X as _ X. exact (F' X).
Qed.
Lemma until_none p : forall s, until p s = None -> forall g r, s = g ++ p ++ r -> In 10%N g.
Proof.
  induction s as [|c s IH]; intros E g r X; cbn [until] in E.
  - destruct p; [discriminate|]. destruct g; discriminate.
  - destruct (starts_with p (c :: s)) eqn:W; [discriminate|].
    destruct g as [|d g]; [cbn [app] in X; rewrite X in W; assert (W' : starts_with p (p ++ r) = true) by (apply starts_iff; eauto); congruence|].
    cbn [app] in X. injection X as <- ->. destruct (N.eqb_spec c 10) as [->|D]; [left; reflexivity|right].
    destruct (until p (g ++ p ++ r)) as [[? ?]|] eqn:U; [discriminate|]. exact (IH eq_refl g r eq_refl).
Qed.

(** ** Markup *)
Lemma found_dec p s : {found_in p s} + {~ found_in p s}.
Proof.
  induction s as [|c s IH].
  - destruct p; [left; exists [], []; reflexivity|right]. intros (a & b & X). destruct a; discriminate.
  - destruct (starts_with p (c :: s)) eqn:W; [left; apply starts_iff in W as (r & W); exists [], r; exact W|].
    destruct IH as [F|F]; [left; destruct F as (a & b & ->); exists (c :: a), b; reflexivity|right].
    intros ([|x a] & b & X); [|injection X as _ X; apply F; exists a, b; exact X].
    assert (W' : starts_with p (c :: s) = true) by (apply starts_iff; exists b; exact X). congruence.
Qed.
Lemma first_bracket g : forall r, (forall a b, g <> a ++ b \/ starts_with (B "](") (b ++ B "](" ++ r) = false \/ b = []) <-> ~ found_in (B "](") (g ++ B "]").
Proof.
  intros r. split.
  - intros F (a & b & X).
    assert (G : exists b1, g = a ++ 93%N :: b1 /\ b1 ++ [93%N] = 40%N :: b).
    { cbn in X. clear F. revert X. revert a. induction g as [|c g IH]; intros a X.
      - destruct a as [|x a]; cbn in X; [discriminate|]. destruct a; discriminate.
      - destruct a as [|x a]; cbn in X.
        + injection X as -> X. exists g. auto.
        + injection X as <- X. destruct (IH a X) as (b1 & -> & Y). exists b1. auto. }
    destruct G as (b1 & -> & Y). destruct (F a (93%N :: b1)) as [F'|[F'|F']]; [destruct F'; reflexivity| |discriminate].
    destruct b1 as [|x b1]; [discriminate|]. cbn in Y. injection Y as -> _. cbn in F'. discriminate.
  - intros F a b. destruct b as [|x b]; [auto|]. destruct (list_eq_dec N.eq_dec g (a ++ x :: b)) as [->|D]; [|left; exact D].
    right; left. destruct (starts_with (B "](") ((x :: b) ++ B "](" ++ r)) eqn:W; [|reflexivity]. exfalso. apply F.
    apply starts_iff in W as (q & W). cbn [app B] in W. injection W as -> W.
    destruct b as [|y b]; cbn [app] in W; [discriminate|]. injection W as -> _.
    exists a, (b ++ B "]"). rewrite <- app_assoc. reflexivity.
Qed.
Lemma until_bracket s t r : until (B "](") s = Some (t, r) <-> s = t ++ B "](" ++ r /\ ~ In 10%N t /\ ~ found_in (B "](") (t ++ B "]").
Proof.
  split.
  - intros E. apply until_sound in E as (E & A & F); [|discriminate]. rewrite (first_bracket t r) in F. auto.
  - intros (-> & A & F). destruct (until (B "](") (t ++ B "](" ++ r)) as [[g q]|] eqn:U.
    2:{ destruct A. exact (until_none _ _ U t r eq_refl). }
    apply until_sound in U as (E & G & H); [|discriminate]. rewrite (first_bracket g q) in H.
    assert (X : g = t).
    { clear A G. revert g E F H. induction t as [|c t IH]; intros g E F H.
      - destruct g as [|x g]; [reflexivity|]. destruct H. cbn in E. injection E as <- E.
        destruct g as [|y g]; cbn in E; [discriminate|]. injection E as <- E. exists [], (g ++ B "]"). reflexivity.
      - destruct g as [|x g].
        + destruct F. cbn in E. injection E as -> E. destruct t as [|y t]; cbn in E; [discriminate|]. injection E as -> E.
          exists [], (t ++ B "]"). reflexivity.
        + cbn [app] in E. injection E as <- E. f_equal. apply IH; [exact E| |].
          * intros (a & b & X). apply F. exists (c :: a), b. cbn [app]. rewrite X. reflexivity.
          * intros (a & b & X). apply H. exists (c :: a), b. cbn [app]. rewrite X. reflexivity. }
    subst g. apply app_inv_head in E. injection E as ->. reflexivity.
Qed.
Lemma until_paren s t r : until (B ")") s = Some (t, r) <-> s = t ++ B ")" ++ r /\ ~ In 10%N t /\ ~ In 41%N t.
Proof.
  split.
  - intros E. apply until_sound in E as (E & A & F); [|discriminate]. split; [exact E|]. split; [exact A|].
    intros I. apply in_split in I as (a & b & ->). destruct (F a (41%N :: b)) as [F'|[F'|F']]; [destruct F'; reflexivity| |discriminate].
    cbn in F'. discriminate.
  - intros (-> & A & F). induction t as [|c t IH]; [reflexivity|]. cbn [app until].
    assert (W : starts_with (B ")") (c :: t ++ B ")" ++ r) = false).
    { destruct (starts_with _ _) eqn:W; [|reflexivity]. apply starts_iff in W as (q & W). injection W as -> _. destruct F. left. reflexivity. }
    rewrite W. destruct (N.eqb_spec c 10) as [->|D]; [destruct A; left; reflexivity|].
    rewrite IH; [reflexivity| |]; intros X; [apply A|apply F]; right; exact X.
Qed.
Lemma until_paren_none s : until (B ")") s = None -> forall t r, s = t ++ B ")" ++ r -> ~ In 10%N t -> False.
Proof. intros E t r X A. exact (A (until_none _ _ E t r X)). Qed.
Lemma match_iff s t a r : match_ansi s = Some (t, a, r) <-> markup s t a r.
Proof.
  unfold match_ansi, markup. split.
  - destruct (starts_with mark s) eqn:W; [|discriminate]. apply starts_iff in W as (q & ->). rewrite skipn_app_exact.
    destruct (until (B "](") q) as [[t' r']|] eqn:U; [|discriminate]. destruct (until (B ")") r') as [[a' q']|] eqn:V; [|discriminate].
    intros X. injection X as -> -> ->. apply until_bracket in U as (-> & U1 & U2). apply until_paren in V as (-> & V1 & V2). auto.
  - intros (-> & T1 & A1 & A2 & T2).
    assert (W : starts_with mark (B "#ansi[" ++ t ++ B "](" ++ a ++ B ")" ++ r) = true) by (apply starts_iff; eexists; reflexivity).
    rewrite W. change (B "#ansi[") with mark. rewrite skipn_app_exact.
    rewrite (proj2 (until_bracket _ t (a ++ B ")" ++ r))) by auto. rewrite (proj2 (until_paren _ a r)) by auto. reflexivity.
Qed.

(** ** Style *)
Lemma match_shorter s t a r : match_ansi s = Some (t, a, r) -> List.length r < List.length s.
Proof. intros E. apply match_iff in E as (-> & _). rewrite !app_length. cbn. lia. Qed.
Lemma style_fuel n f : forall s, List.length s < f -> forall g, List.length s < g -> style f n s = style g n s.
Proof.
  induction f as [|f IH]; intros s Hf g Hg; [lia|]. destruct g as [|g]; [lia|]. cbn [style].
  destruct (match_ansi s) as [[[t a] r]|] eqn:M.
  - pose proof (match_shorter _ _ _ _ M). rewrite (IH r) with (g := g) by lia. reflexivity.
  - destruct s as [|c s]; [reflexivity|]. cbn [List.length] in *. rewrite (IH s) with (g := g) by lia. reflexivity.
Qed.
Definition paint (no_ansi : bool) (t a : bytes) : option bytes := if no_ansi then Some t else format_inline t a.
Lemma style_nil n : ansi_style n [] = Some []. Proof. reflexivity. Qed.
Lemma style_mark n s t a r : match_ansi s = Some (t, a, r) ->
  ansi_style n s = bind (paint n t a) (fun x => option_map (app x) (ansi_style n r)).
Proof.
  intros M. unfold ansi_style at 1. cbn [style]. rewrite M. unfold ansi_style.
  pose proof (match_shorter _ _ _ _ M). rewrite (style_fuel n (List.length s) r) with (g := S (List.length r)) by lia. reflexivity.
Qed.
Lemma style_char n c s : match_ansi (c :: s) = None -> ansi_style n (c :: s) = option_map (cons c) (ansi_style n s).
Proof. intros M. unfold ansi_style at 1. cbn [style]. rewrite M. reflexivity. Qed.
Lemma style_pieces n s l : pieces s l -> ansi_style n s = shown (paint n) l.
Proof.
  induction 1 as [|s t a r l M P IH|c s l M P IH]; [reflexivity| |].
  - apply match_iff in M. rewrite (style_mark n _ _ _ _ M), IH. cbn [shown].
    destruct (paint n t a); [|reflexivity]. cbn [bind]. destruct (shown (paint n) l); reflexivity.
  - cbn [shown]. rewrite style_char, IH; [reflexivity|]. destruct (match_ansi (c :: s)) as [[[t a] r]|] eqn:E; [|reflexivity].
    apply match_iff in E. destruct (M _ _ _ E).
Qed.
Lemma pieces_exist : forall s, exists l, pieces s l.
Proof.
  enough (H : forall k s, List.length s < k -> exists l, pieces s l) by (intros s; apply (H (S (List.length s))); lia).
  induction k as [|k IH]; intros s L; [lia|]. destruct (match_ansi s) as [[[t a] r]|] eqn:M.
  - pose proof (match_shorter _ _ _ _ M). destruct (IH r) as (l & P); [lia|]. exists (Marked t a :: l).
    apply match_iff in M. econstructor; eassumption.
  - destruct s as [|c s]; [exists []; constructor|]. cbn in L. destruct (IH s) as (l & P); [lia|]. exists (Char c :: l).
    constructor; [|exact P]. intros t a r X. apply match_iff in X. congruence.
Qed.
Lemma pieces_unique s l : pieces s l -> forall l', pieces s l' -> l = l'.
Proof.
  induction 1 as [|s t a r l M P IH|c s l M P IH]; intros l' Q.
  - inversion Q as [|? ? ? ? ? M'|]; [reflexivity|]. destruct M' as (M' & _). discriminate.
  - inversion Q as [X|? t' a' r' l'' M' P'|c s' l'' M' P']; subst.
    + destruct M as (M & _). discriminate.
    + apply match_iff in M, M'. rewrite M in M'. injection M' as <- <- <-. f_equal. apply IH. exact P'.
    + destruct (M' _ _ _ M).
  - inversion Q as [|? t' a' r' l'' M' P'|c' s' l'' M' P']; subst.
    + destruct (M _ _ _ M').
    + f_equal. apply IH. exact P'.
Qed.
Lemma no_ansi_total s : ansi_style true s <> None.
Proof.
  destruct (pieces_exist s) as (l & P). rewrite (style_pieces true s l P). clear P. induction l as [|[c|t a] l IH]; cbn [shown].
  - discriminate.
  - destruct (shown (paint true) l); [discriminate|contradiction].
  - unfold paint at 1. destruct (shown (paint true) l); [discriminate|contradiction].
Qed.
Lemma unmarked n s : ~ found_in (B "#ansi[") s -> ansi_style n s = Some s.
Proof.
  induction s as [|c s IH]; intros H; [reflexivity|]. rewrite style_char, IH; [reflexivity| |].
  - intros (a & b & ->). apply H. exists (c :: a), b. reflexivity.
  - destruct (match_ansi (c :: s)) as [[[t a] r]|] eqn:E; [|reflexivity]. apply match_iff in E as (E & _). destruct H. exists [], (t ++ B "](" ++ a ++ B ")" ++ r).
    exact E.
Qed.
Lemma style_plain n p s : ~ In 35%N p -> ansi_style n (p ++ s) = option_map (app p) (ansi_style n s).
Proof.
  induction p as [|c p IH]; intros H; [cbn [app]; destruct (ansi_style n s); reflexivity|]. cbn [app]. rewrite style_char, IH.
  - destruct (ansi_style n s); reflexivity.
  - intros X. apply H. right. exact X.
  - destruct (match_ansi (c :: p ++ s)) as [[[t a] r]|] eqn:E; [|reflexivity]. apply match_iff in E as (E & _). injection E as -> _. destruct H. left. reflexivity.
Qed.
Lemma style_markup n t a r : ~ In 10%N t -> ~ found_in (B "](") (t ++ B "]") -> ~ In 10%N a -> ~ In 41%N a ->
  ansi_style n (B "#ansi[" ++ t ++ B "](" ++ a ++ B ")" ++ r) = bind (paint n t a) (fun x => option_map (app x) (ansi_style n r)).
Proof. intros. apply style_mark, match_iff. unfold markup. auto. Qed.

(** ** Texts without failure *)
Definition fine (a : bytes) : Prop := ~ In 41%N a /\ forall t, format_inline t a <> None.
(** every "](" is followed by attributes that are known *)
Definition safe (s : bytes) : Prop := forall pre post, s = pre ++ B "](" ++ post -> exists a r, post = a ++ B ")" ++ r /\ fine a.
Lemma safe_suffix a b : safe (a ++ b) -> safe b.
Proof. intros H pre post ->. apply (H (a ++ pre) post). rewrite app_assoc. reflexivity. Qed.
Lemma paren_unique a b r q : ~ In 41%N a -> ~ In 41%N b -> a ++ B ")" ++ r = b ++ B ")" ++ q -> a = b.
Proof.
  revert b. induction a as [|c a IH]; intros [|d b] A D E; cbn in E.
  - reflexivity.
  - injection E as <- _. destruct D. left. reflexivity.
  - injection E as -> _. destruct A. left. reflexivity.
  - injection E as -> E. f_equal. apply IH; [| |exact E]; intros X; [apply A|apply D]; right; exact X.
Qed.
Lemma safe_style n : forall s, safe s -> ansi_style n s <> None.
Proof.
  enough (H : forall k s, List.length s < k -> safe s -> ansi_style n s <> None) by (intros s; apply (H (S (List.length s))); lia).
  induction k as [|k IH]; intros s L Sf; [lia|]. destruct (match_ansi s) as [[[t a] r]|] eqn:M.
  - pose proof (match_shorter _ _ _ _ M) as L2. rewrite (style_mark n _ _ _ _ M). apply match_iff in M as (E & _ & _ & A2 & _).
    assert (F : paint n t a <> None).
    { unfold paint. destruct n; [discriminate|]. destruct (Sf (B "#ansi[" ++ t) (a ++ B ")" ++ r)) as (a' & r' & E' & Fa & Fb).
      - rewrite E, <- app_assoc. reflexivity.
      - rewrite (paren_unique _ _ _ _ A2 Fa E'). apply Fb. }
    destruct (paint n t a) as [x|]; [|contradiction]. cbn [bind].
    assert (Sr : safe r).
    { apply (safe_suffix (B "#ansi[" ++ t ++ B "](" ++ a ++ B ")")). rewrite <- !app_assoc. rewrite <- E. exact Sf. }
    specialize (IH r ltac:(lia) Sr). destruct (ansi_style n r); [discriminate|contradiction].
  - destruct s as [|c s]; [discriminate|]. rewrite (style_char n _ _ M). cbn in L.
    specialize (IH s ltac:(lia) (safe_suffix [c] s Sf)). destruct (ansi_style n s); [discriminate|contradiction].
Qed.
Lemma safe_app a b : safe a -> safe b -> (forall x y, a = x ++ [93%N] -> b = 40%N :: y -> False) -> safe (a ++ b).
Proof.
  intros Ha Hb Hab pre post E.
  assert (C : (exists q, a = pre ++ B "](" ++ q /\ post = q ++ b) \/ (exists q, b = q ++ B "](" ++ post) \/ (exists x y, a = x ++ [93%N] /\ b = 40%N :: y)).
  { clear Ha Hb Hab. revert a E. induction pre as [|c pre IH]; intros a E.
    - destruct a as [|x a]; [right; left; exists []; exact E|]. cbn in E. injection E as -> E.
      destruct a as [|y a]; [right; right; exists [], post; split; [reflexivity|exact E]|]. cbn in E. injection E as -> E.
      left. exists a. split; [reflexivity|symmetry; exact E].
    - destruct a as [|x a]; [right; left; exists (c :: pre); exact E|]. cbn [app] in E. injection E as -> E.
      destruct (IH a E) as [(q & -> & ->)|[(q & ->)|(x & y & -> & ->)]].
      + left. exists q. auto.
      + right; left. exists q. reflexivity.
      + right; right. exists (c :: x), y. auto. }
  destruct C as [(q & Ea & ->)|[(q & Eb)|(x & y & Ea & Eb)]].
  - destruct (Ha pre q Ea) as (at_ & r & -> & F). exists at_, (r ++ b). split; [rewrite <- !app_assoc; reflexivity|exact F].
  - exact (Hb q post Eb).
  - destruct (Hab x y Ea Eb).
Qed.
Lemma safe_none s : ~ found_in (B "](") s -> safe s.
Proof. intros H pre post E. destruct H. exists pre, post. exact E. Qed.
Lemma safe_clean s : ~ In 93%N s -> safe s.
Proof. intros H. apply safe_none. intros (a & b & ->). apply H. rewrite in_app_iff. right. left. reflexivity. Qed.
(** "](", attributes, ")" and text without brackets *)
Lemma safe_attrs a r : fine a -> ~ In 93%N a -> safe r -> safe (B "](" ++ a ++ B ")" ++ r).
Proof.
  intros F A Sr pre post E. destruct pre as [|c pre].
  - change ([] ++ B "](" ++ post) with (B "](" ++ post) in E. apply app_inv_head in E. exists a, r. auto.
  - cbn in E. injection E as <- E. destruct pre as [|c pre]; cbn in E; [discriminate|]. injection E as <- E.
    assert (S2 : safe (a ++ B ")" ++ r)).
    { apply safe_app; [apply safe_clean, A| |].
      - apply safe_app; [apply safe_clean; intros [X|[]]; discriminate|exact Sr|]. intros x y X. destruct x as [|? [|]]; discriminate.
      - intros x y _ X. discriminate. }
    apply (S2 pre post E).
Qed.
Lemma fine_of a : existsb (N.eqb 41) a = false -> (forall t, format_inline t a <> None) -> fine a.
Proof.
  intros H F. split; [|exact F]. intros I. assert (X : existsb (N.eqb 41) a = true) by (apply existsb_exists; exists 41%N; rewrite N.eqb_refl; auto). congruence.
Qed.
(** the attributes the reports use *)
Definition used : list bytes := [B "yellow"; B "green|bold"; B "red|bold"; B "yellow|bold"; B "white|bold"; B "magenta|bold"; B "|underline"].
Lemma painted_known (t : bytes) : forall a, In a used -> format_inline t a =
  Some (concat (map sgr (if beqb a (B "yellow") then [B "33"] else if beqb a (B "|underline") then [underlined]
     else bold :: (if beqb a (B "green|bold") then [B "32"] else if beqb a (B "red|bold") then [B "31"] else if beqb a (B "yellow|bold") then [B "33"]
                   else if beqb a (B "white|bold") then [B "37"] else [B "35"]))) ++ t ++ sgr (B "0")).
Proof. intros a I. unfold used in I. cbn [In] in I. repeat (destruct I as [<-|I]; [vm_compute; reflexivity|]). destruct I. Qed.
Lemma used_fine a : In a used -> fine a /\ ~ In 93%N a /\ ~ In 10%N a /\ ~ In 41%N a.
Proof.
  intros I. split.
  - apply fine_of.
    + unfold used in I. cbn [In] in I. repeat (destruct I as [<-|I]; [reflexivity|]). destruct I.
    + intros t. rewrite (painted_known t a I). discriminate.
  - unfold used in I. cbn [In] in I.
    repeat (destruct I as [<-|I]; [split; [|split]; intros X; vm_compute in X; repeat (destruct X as [X|X]; [discriminate|]); exact X|]). destruct I.
Qed.

(** ** Numbers *)
Lemma dec_digits_value f : forall n, (n < 10 ^ N.of_nat f)%N -> (0 < f)%nat -> numeral_value (dec_digits f n) = n.
Proof.
  unfold numeral_value. induction f as [|f IH]; intros n Hn Hf; [lia|]. cbn [dec_digits].
  assert (Hm : (n mod 10 < 10)%N) by (apply N.mod_lt; discriminate).
  assert (Hd : n = (10 * (n / 10) + n mod 10)%N) by (apply N.div_mod; discriminate).
  rewrite fold_left_app. destruct (N.ltb_spec n 10).
  - cbn [fold_left]. rewrite N.mod_small by lia. lia.
  - rewrite Nat2N.inj_succ, N.pow_succ_r' in Hn. rewrite IH.
    + cbn [fold_left]. replace (48 + n mod 10 - 48)%N with (n mod 10)%N by lia. symmetry. exact Hd.
    + apply N.div_lt_upper_bound; lia.
    + destruct f; [|lia]. cbn in Hn. lia.
Qed.
Lemma decimal_value n : numeral_value (decimal n) = n.
Proof.
  unfold decimal. apply dec_digits_value; [|lia]. rewrite Nat2N.inj_succ, N2Nat.id.
  destruct (N.eq_dec n 0) as [->|Hn]; [reflexivity|].
  apply N.lt_le_trans with (2 ^ N.succ (N.log2 n))%N; [apply N.log2_spec; lia|]. apply N.pow_le_mono_l. lia.
Qed.
Lemma dec_digits_range f : forall n, Forall (fun c => 48 <= c <= 57)%N (dec_digits f n).
Proof.
  induction f as [|f IH]; intros n; cbn [dec_digits]; [constructor|]. apply Forall_app. split.
  - destruct (n <? 10)%N; [constructor|apply IH].
  - constructor; [|constructor]. pose proof (N.mod_lt n 10 ltac:(discriminate)). lia.
Qed.
Lemma decimal_range n : Forall (fun c => 48 <= c <= 57)%N (decimal n).
Proof. apply dec_digits_range. Qed.
Lemma decimal_not n c : (c < 48 \/ 57 < c)%N -> ~ In c (decimal n).
Proof. intros H I. pose proof (proj1 (Forall_forall _ _) (decimal_range n) c I). cbn in *. lia. Qed.
Lemma fixed3_not q c : (c < 46 \/ 57 < c)%N -> ~ In c (fixed3 q).
Proof.
  intros H. unfold fixed3. generalize (thousandths q). intros n. rewrite !in_app_iff. intros [I|[I|I]].
  - revert I. apply decimal_not. lia.
  - cbn in I. destruct I as [<-|[]]. lia.
  - pose proof (N.mod_lt (n / 100) 10 ltac:(discriminate)). pose proof (N.mod_lt (n / 10) 10 ltac:(discriminate)). pose proof (N.mod_lt n 10 ltac:(discriminate)).
    cbn [In] in I. destruct I as [<-|[<-|[<-|[]]]]; lia.
Qed.
Lemma decimal2_not n c : (c < 48 \/ 57 < c)%N -> c <> 32%N -> ~ In c (decimal2 n).
Proof.
  intros H D. unfold decimal2. destruct (n <? 10)%N; [|apply decimal_not, H]. intros [X|X]; [exact (D (eq_sym X))|]. revert X. apply decimal_not, H.
Qed.
(** to the nearest thousandth *)
Lemma thousandths_near q : (0 <= q)%Q -> (inject_Z (Z.of_N (thousandths q)) - (1#2) <= q * 1000 <= inject_Z (Z.of_N (thousandths q)) + (1#2))%Q.
Proof.
  intros Hq. unfold thousandths.
  pose proof (Qfloor_le (q * 1000)) as L. pose proof (Qlt_floor (q * 1000)) as U.
  assert (P : (0 <= Qfloor (q * 1000))%Z).
  { apply (Qfloor_resp_le 0 (q * 1000)). apply Qmult_le_0_compat; [exact Hq|discriminate]. }
  set (lo := Qfloor (q * 1000)) in *. set (v := (q * 1000)%Q) in *. rewrite inject_Z_plus in U. change (inject_Z 1) with 1%Q in U.
  destruct (v - inject_Z lo ?= 1 # 2)%Q eqn:C.
  - apply Qeq_alt in C. destruct (Z.even lo); rewrite Z2N.id by lia; try rewrite inject_Z_plus; change (inject_Z 1) with 1%Q; split; lra.
  - apply Qlt_alt in C. rewrite Z2N.id by lia. split; lra.
  - apply Qgt_alt in C. rewrite Z2N.id by lia. rewrite inject_Z_plus. change (inject_Z 1) with 1%Q. split; lra.
Qed.
Lemma fixed3_spec q : exists whole part, fixed3 q = whole ++ B "." ++ part /\ List.length part = 3 /\
  (numeral_value whole * 1000 + numeral_value part)%N = thousandths q.
Proof.
  unfold fixed3. generalize (thousandths q). intros n.
  exists (decimal (n / 1000)), [48 + n / 100 mod 10; 48 + n / 10 mod 10; 48 + n mod 10]%N. split; [reflexivity|]. split; [reflexivity|].
  rewrite decimal_value. unfold numeral_value. cbn [fold_left].
  pose proof (N.mod_lt (n / 100) 10 ltac:(discriminate)). pose proof (N.mod_lt (n / 10) 10 ltac:(discriminate)). pose proof (N.mod_lt n 10 ltac:(discriminate)).
  pose proof (N.div_mod n 10 ltac:(discriminate)). pose proof (N.div_mod (n / 10) 10 ltac:(discriminate)). pose proof (N.div_mod (n / 100) 10 ltac:(discriminate)).
  assert (E1 : (n / 10 / 10 = n / 100)%N) by (rewrite N.div_div by discriminate; reflexivity).
  assert (E2 : (n / 100 / 10 = n / 1000)%N) by (rewrite N.div_div by discriminate; reflexivity). rewrite E1 in *. rewrite E2 in *. lia.
Qed.

(** ** The line of a case *)
Definition attrs_of (c : code) : bytes := color_of c ++ B "|bold".
Lemma attrs_used c : In (attrs_of c) used.
Proof. destruct c; vm_compute; auto 10. Qed.
Lemma colored_code_eq c : colored_code c = B "#ansi[" ++ short c ++ B "](" ++ attrs_of c ++ B ")".
Proof. destruct c; reflexivity. Qed.
Lemma attrs_paint n c t : paint n t (attrs_of c) = Some (ink n [bold; hue c] t).
Proof. unfold paint, ink. destruct n; [reflexivity|]. rewrite (painted_known t _ (attrs_used c)). destruct c; reflexivity. Qed.
Lemma underline_paint n t : paint n t (B "|underline") = Some (ink n [underlined] t).
Proof. unfold paint, ink. destruct n; [reflexivity|]. rewrite painted_known by (vm_compute; auto 10). reflexivity. Qed.
Lemma style_code n c rest : ansi_style n (colored_code c ++ rest) = option_map (app (verdict n c)) (ansi_style n rest).
Proof.
  rewrite colored_code_eq, <- !app_assoc. destruct (used_fine _ (attrs_used c)) as (_ & _ & F1 & F2).
  rewrite style_markup; [|destruct c; vm_compute; intros X; repeat (destruct X as [X|X]; [discriminate|]); exact X| |exact F1|exact F2].
  - rewrite attrs_paint. reflexivity.
  - intros X. destruct (found_dec (B "](") (short c ++ B "]")) as [Y|Y]; [|exact (Y X)]. clear X. destruct Y as (a & b & Y).
    assert (Z : In 40%N (short c ++ B "]")) by (rewrite Y, !in_app_iff; right; left; right; left; reflexivity).
    destruct c; vm_compute in Z; repeat (destruct Z as [Z|Z]; [discriminate|]); exact Z.
Qed.
Lemma pad3_code c : pad3 (colored_code c) = colored_code c.
Proof. destruct c; vm_compute; reflexivity. Qed.
Lemma style_join n l rest : ansi_style n (join (B ", ") (map colored_code l) ++ rest) = option_map (app (commas (map (verdict n) l))) (ansi_style n rest).
Proof.
  induction l as [|c l IH]; [cbn [map join commas app]; destruct (ansi_style n rest); reflexivity|]. destruct l as [|d l].
  - cbn [map join commas]. apply style_code.
  - change (join (B ", ") (map colored_code (c :: d :: l))) with (colored_code c ++ B ", " ++ join (B ", ") (map colored_code (d :: l))).
    change (commas (map (verdict n) (c :: d :: l))) with (verdict n c ++ B ", " ++ commas (map (verdict n) (d :: l))).
    rewrite <- !app_assoc, style_code, style_plain, IH by (intros [X|[X|[]]]; discriminate).
    destruct (ansi_style n rest); [|reflexivity]. cbn [option_map]. rewrite <- !app_assoc. reflexivity.
Qed.
Lemma truthy_bit f : truthy (N.land f (flag_of SC)) = N.testbit f 5.
Proof.
  unfold truthy. change (flag_of SC) with (2 ^ 5)%N. destruct (N.testbit f 5) eqn:T.
  - destruct (N.eqb_spec (N.land f (2 ^ 5)) 0) as [E|]; [|reflexivity].
    assert (X : N.testbit (N.land f (2 ^ 5)) 5 = true) by (rewrite N.land_spec, T, N.pow2_bits_true; reflexivity). rewrite E in X. discriminate.
  - replace (N.land f (2 ^ 5)) with 0%N; [reflexivity|]. apply N.bits_inj. intros i. rewrite N.land_spec, N.bits_0, N.pow2_bits_eqb.
    destruct (N.eqb_spec 5 i) as [<-|]; [rewrite T; reflexivity|rewrite Bool.andb_false_r; reflexivity].
Qed.
Lemma found_end f : ~ found_in (B "](") f -> ~ found_in (B "](") (f ++ B "]").
Proof.
  intros H (a & b & X). destruct b as [|x b] using rev_ind.
  - rewrite app_nil_r in X. change (B "](") with ([93%N] ++ [40%N]) in X. rewrite app_assoc in X. apply app_inj_tail in X as [_ X]. discriminate.
  - rewrite !app_assoc in X. apply app_inj_tail in X as [X _]. apply H. exists a, b. rewrite X, <- !app_assoc. reflexivity.
Qed.
Ltac nosharp := first [apply fixed3_not; lia | apply decimal_not; lia | apply decimal2_not; [lia|discriminate]
  | intros X; vm_compute in X; repeat (destruct X as [X|X]; [discriminate X|]); exact X].
Lemma case_line_ok n batch k r main others : readable_codes (flag r) = main :: others ->
  ~ In 10%N (feedback r) -> ~ found_in (B "](") (feedback r) ->
  ansi_style n (result_markup batch k r) = Some (case_line n batch k r main others).
Proof.
  intros Ec N1 N2. unfold result_markup, case_line. rewrite Ec, truthy_bit. cbn [map hd tl]. rewrite pad3_code.
  assert (D : forall s, ansi_style n (decimal2 k ++ s) = option_map (app ((if (k <? 10)%N then B " " else []) ++ decimal k)) (ansi_style n s)).
  { intros s. rewrite style_plain by nosharp. unfold decimal2. destruct (k <? 10)%N; reflexivity. }
  assert (L : forall (p : bytes) s t, ~ In 35%N p -> ansi_style n s = Some t -> ansi_style n (p ++ s) = Some (p ++ t)).
  { intros p s t H E. rewrite style_plain, E by exact H. reflexivity. }
  apply L; [destruct batch; nosharp|]. apply L; [nosharp|]. rewrite D.
  assert (G : forall x y z : list N, option_map (app (x ++ y)) (Some z) = Some (x ++ y ++ z)) by (intros; cbn [option_map]; rewrite <- app_assoc; reflexivity).
  match goal with |- option_map (app (?x ++ ?y)) ?e = Some (?x ++ ?y ++ ?z) => enough (E : e = Some z) by (rewrite E; apply G) end.
  apply L; [nosharp|]. rewrite style_code.
  match goal with |- option_map (app ?x) ?e = Some (?x ++ ?z) => enough (E : e = Some z) by (rewrite E; reflexivity) end.
  apply L; [nosharp|]. destruct (N.testbit (flag r) 5); [reflexivity|].
  do 7 (apply L; [nosharp|]).
  assert (A : ansi_style n (match colored_code main :: map colored_code others with
      | _ :: _ :: _ => B "{" ++ join (B ", ") (map colored_code others) ++ B "}" | _ => [] end) =
      Some (match others with [] => [] | _ => B "{" ++ commas (map (verdict n) others) ++ B "}" end)).
  { destruct others as [|o others]; [reflexivity|]. cbn [map]. apply L; [nosharp|].
    change (colored_code o :: map colored_code others) with (map colored_code (o :: others)).
    change (verdict n o :: map (verdict n) others) with (map (verdict n) (o :: others)).
    rewrite style_join. reflexivity. }
  destruct (feedback r) as [|c f] eqn:F; [exact A|]. rewrite <- F in *. clear F.
  change (B "(#ansi[" ++ feedback r ++ B "](|underline)) ") with (B "(" ++ B "#ansi[" ++ feedback r ++ B "](" ++ B "|underline" ++ B ")" ++ B ") ").
  rewrite <- !app_assoc. apply L; [nosharp|]. rewrite style_markup; [|exact N1|apply found_end, N2|nosharp|nosharp]. rewrite underline_paint.
  cbn [bind]. match goal with |- option_map (app ?x) ?e = Some (?x ++ ?z) => enough (E : e = Some z) by (rewrite E; reflexivity) end.
  apply L; [nosharp|exact A].
Qed.

(** ** Handlers *)
Lemma safe_plain p s : ~ In 93%N p -> safe s -> safe (p ++ s).
Proof.
  intros H Sf. apply safe_app; [apply safe_clean, H|exact Sf|]. intros x y -> _. apply H. rewrite in_app_iff. right. left. reflexivity.
Qed.
Lemma safe_nil : safe []. Proof. intros [|x pre] post; discriminate. Qed.
Lemma safe_word f s : ~ found_in (B "](") f -> (forall y, s <> 40%N :: y) -> safe s -> safe (f ++ s).
Proof. intros H D Sf. apply safe_app; [apply safe_none, H|exact Sf|]. intros x y _ E. exact (D y E). Qed.
Lemma safe_code c s : safe s -> safe (colored_code c ++ s).
Proof.
  intros H. rewrite colored_code_eq, <- !app_assoc. destruct (used_fine _ (attrs_used c)) as (F1 & F2 & _).
  apply safe_plain; [nosharp|]. apply safe_plain; [destruct c; nosharp|]. apply safe_attrs; assumption.
Qed.
Lemma safe_join l s : safe s -> safe (join (B ", ") (map colored_code l) ++ s).
Proof.
  intros H. induction l as [|c l IH]; [exact H|]. destruct l as [|d l]; [apply safe_code, H|].
  change (join (B ", ") (map colored_code (c :: d :: l))) with (colored_code c ++ B ", " ++ join (B ", ") (map colored_code (d :: l))).
  rewrite <- !app_assoc. apply safe_code, safe_plain; [nosharp|exact IH].
Qed.
Lemma codes_hd f : exists c l, readable_codes f = c :: l.
Proof. unfold readable_codes. destruct (filter _ _) as [|c l]; eauto. Qed.
Lemma safe_underline s : safe s -> safe (B "](" ++ B "|underline" ++ B ")" ++ s).
Proof. intros H. destruct (used_fine (B "|underline")) as (F1 & F2 & _); [vm_compute; auto 10|]. apply safe_attrs; assumption. Qed.
Lemma safe_result batch k r : ~ found_in (B "](") (feedback r) -> safe (result_markup batch k r).
Proof.
  intros H. unfold result_markup. destruct (codes_hd (flag r)) as (c & l & E). rewrite E. cbn [map hd tl]. rewrite pad3_code.
  apply safe_plain; [destruct batch; nosharp|]. apply safe_plain; [nosharp|]. apply safe_plain; [nosharp|]. apply safe_plain; [nosharp|].
  apply safe_code. apply safe_plain; [nosharp|]. destruct (truthy _); [apply safe_nil|]. do 6 (apply safe_plain; [nosharp|]).
  apply safe_app; [apply safe_none; intros (a & b & X); assert (Y : In 40%N (B "kb] ")) by (rewrite X, !in_app_iff; right; left; right; left; reflexivity);
                   vm_compute in Y; repeat (destruct Y as [Y|Y]; [discriminate|]); exact Y| |
                   intros x y X; apply (f_equal (fun l => last l 0%N)) in X; rewrite last_last in X; discriminate].
  assert (A : safe (match colored_code c :: map colored_code l with _ :: _ :: _ => B "{" ++ join (B ", ") (map colored_code l) ++ B "}" | _ => [] end)).
  { destruct l as [|d l]; [apply safe_nil|]. apply safe_plain; [nosharp|]. apply safe_join. rewrite <- (app_nil_r (B "}")). apply safe_plain; [nosharp|apply safe_nil]. }
  destruct (feedback r) as [|x f] eqn:F; [exact A|]. rewrite <- F in *. clear F.
  change (B "(#ansi[" ++ feedback r ++ B "](|underline)) ") with (B "(#ansi[" ++ feedback r ++ B "](" ++ B "|underline" ++ B ")" ++ B ") ").
  rewrite <- !app_assoc. apply safe_plain; [nosharp|]. apply safe_word; [exact H|intros y X; discriminate|].
  apply safe_underline. apply safe_plain; [nosharp|exact A].
Qed.
Lemma say_ok n m next : safe m -> exists l, say n m next = (Line l :: fst next, snd next) /\ ansi_style n m = Some l.
Proof. intros H. unfold say. destruct (ansi_style n m) as [l|] eqn:E; [eauto|]. destruct (safe_style n m H E). Qed.
Lemma safe_batch k : safe (batch_markup k).
Proof.
  unfold batch_markup. apply safe_plain; [nosharp|]. apply safe_plain; [nosharp|].
  change (B "](yellow|bold)") with (B "](" ++ B "yellow|bold" ++ B ")" ++ []). destruct (used_fine (B "yellow|bold")) as (F1 & F2 & _); [vm_compute; auto 10|].
  apply safe_attrs; [exact F1|exact F2|apply safe_nil].
Qed.
Lemma failed_style n : ansi_style n failed_markup = Some (ink n [bold; B "31"] (B "Failed compiling submission!")).
Proof. destruct n; vm_compute; reflexivity. Qed.
Lemma aborted_style n : ansi_style n aborted_markup = Some (ink n [bold; B "31"] (B "Forcefully terminating grading. Temporary files may not be deleted.")).
Proof. destruct n; vm_compute; reflexivity. Qed.
Lemma handle_ok n m : harmless m \/ n = true -> exists e, handle n m = (e, true) /\ sent e = packets_of m.
Proof.
  intros H. destruct m as [log|batch k r|k| |]; cbn [handle packets_of].
  - unfold say. rewrite failed_style. eexists. split; reflexivity.
  - destruct H as [H| ->].
    + destruct (say_ok n (result_markup batch k r) (send (TestCase k r) ([], true)) (safe_result batch k r H)) as (l & -> & _). eexists. split; reflexivity.
    + unfold say. destruct (ansi_style true (result_markup batch k r)) as [l|] eqn:E; [|destruct (no_ansi_total _ E)]. eexists. split; reflexivity.
  - destruct (say_ok n (batch_markup k) ([], true) (safe_batch k)) as (l & E & _). unfold send. rewrite E. eexists. split; reflexivity.
  - eexists. split; reflexivity.
  - unfold send, say. rewrite aborted_style. eexists. split; reflexivity.
Qed.
Lemma safe_attr a s : In a used -> safe s -> safe (B "](" ++ a ++ B ")" ++ s).
Proof. intros I H. destruct (used_fine a I) as (F1 & F2 & _). apply safe_attrs; assumption. Qed.
Lemma safe_done problem id : ~ found_in (B "](") problem -> ~ found_in (B "](") id -> safe (done_markup problem id).
Proof.
  intros H1 H2. unfold done_markup.
  change (B "](yellow)/#ansi[") with (B "](" ++ B "yellow" ++ B ")" ++ B "/#ansi["). change (B "](green|bold).") with (B "](" ++ B "green|bold" ++ B ")" ++ B ".").
  rewrite <- !app_assoc. apply safe_plain; [nosharp|]. apply safe_word; [exact H1|intros y X; discriminate|]. apply safe_attr; [vm_compute; auto 10|].
  apply safe_plain; [nosharp|]. apply safe_word; [exact H2|intros y X; discriminate|]. apply safe_attr; [vm_compute; auto 10|].
  apply safe_plain; [nosharp|]. rewrite <- (app_nil_r [10%N]). apply safe_plain; [nosharp|apply safe_nil].
Qed.
Lemma safe_start problem id language : ~ found_in (B "](") problem -> ~ found_in (B "](") id -> ~ found_in (B "](") language -> safe (start_markup problem id language).
Proof.
  intros H1 H2 H3. unfold start_markup.
  change (B "](yellow)/#ansi[") with (B "](" ++ B "yellow" ++ B ")" ++ B "/#ansi["). change (B "](green|bold) in ") with (B "](" ++ B "green|bold" ++ B ")" ++ B " in ").
  rewrite <- !app_assoc. apply safe_plain; [nosharp|]. apply safe_word; [exact H1|intros y X; discriminate|]. apply safe_attr; [vm_compute; auto 10|].
  apply safe_plain; [nosharp|]. apply safe_word; [exact H2|intros y X; discriminate|]. apply safe_attr; [vm_compute; auto 10|].
  apply safe_plain; [nosharp|]. apply safe_word; [exact H3|intros y X; discriminate|]. rewrite <- (app_nil_r (B "...")). apply safe_plain; [nosharp|apply safe_nil].
Qed.
Lemma sent_app a b : sent (a ++ b) = sent a ++ sent b.
Proof. unfold sent. apply flat_map_app. Qed.
Lemma grading_ok n problem id trace l :
  (n = true \/ (~ found_in (B "](") problem /\ ~ found_in (B "](") id /\ Forall harmless l)) ->
  sent (grading n problem id trace l) = flat_map packets_of l /\
  exists e done, grading n problem id trace l = e ++ [Line done] /\ ansi_style n (done_markup problem id) = Some done.
Proof.
  intros H. induction l as [|m l IH]; cbn [grading flat_map].
  - assert (D : exists d, ansi_style n (done_markup problem id) = Some d).
    { destruct (ansi_style n (done_markup problem id)) as [d|] eqn:E; [eauto|]. destruct H as [-> |(H1 & H2 & _)]; [destruct (no_ansi_total _ E)|].
      destruct (safe_style n _ (safe_done _ _ H1 H2) E). }
    destruct D as (d & E). rewrite E. split; [reflexivity|]. exists [], d. auto.
  - assert (Hm : harmless m \/ n = true) by (destruct H as [->|(_ & _ & F)]; [auto|inversion F; auto]).
    destruct (handle_ok n m Hm) as (e & -> & Se).
    assert (H' : n = true \/ (~ found_in (B "](") problem /\ ~ found_in (B "](") id /\ Forall harmless l)) by (destruct H as [->|(? & ? & F)]; [auto|inversion F; auto]).
    destruct (IH H') as (S2 & e' & d & E & D). rewrite sent_app, Se, S2. split; [reflexivity|]. exists (e ++ e'), d. rewrite E, app_assoc. auto.
Qed.

(** ** strip_ansi *)
Lemma drop_upto_le n p : forall s, List.length (drop_upto n p s) <= List.length s.
Proof. induction n as [|n IH]; intros [|c s]; cbn [drop_upto]; try lia. destruct (p c); [|lia]. specialize (IH s). cbn. lia. Qed.
Definition suffix (a b : bytes) : Prop := exists p, b = p ++ a.
Lemma suffix_refl s : suffix s s. Proof. exists []. reflexivity. Qed.
Lemma suffix_cons c a b : suffix a b -> suffix a (c :: b). Proof. intros (p & ->). exists (c :: p). reflexivity. Qed.
Lemma suffix_trans a b c : suffix a b -> suffix b c -> suffix a c.
Proof. intros (p & ->) (q & ->). exists (q ++ p). rewrite app_assoc. reflexivity. Qed.
Lemma drop_upto_suffix n p : forall s, suffix (drop_upto n p s) s.
Proof. induction n as [|n IH]; intros [|c s]; cbn [drop_upto]; try apply suffix_refl. destruct (p c); [apply suffix_cons, IH|apply suffix_refl]. Qed.
Lemma drop_two_suffix s : suffix (drop_two s) s.
Proof. destruct s as [|a [|b s]]; try apply suffix_refl. unfold drop_two. destruct (_ && _); [|apply suffix_refl]. do 2 apply suffix_cons. apply drop_upto_suffix. Qed.
Lemma drop_three_suffix s : suffix (drop_three s) s.
Proof. destruct s as [|a [|b [|c [|d s]]]]; try apply suffix_refl. unfold drop_three. destruct (_ && _); [|apply suffix_refl]. do 4 apply suffix_cons. apply suffix_refl. Qed.
Lemma after_suffix s : suffix (after_csi s) s.
Proof.
  unfold after_csi. eapply suffix_trans; [apply drop_upto_suffix|]. destruct s as [|c s]; [apply suffix_refl|].
  destruct (code_char c); [|apply suffix_refl]. eapply suffix_trans; [apply drop_three_suffix|]. eapply suffix_trans; [apply drop_two_suffix|]. apply drop_upto_suffix.
Qed.
Lemma suffix_length a b : suffix a b -> List.length a <= List.length b.
Proof. intros (p & ->). rewrite app_length. lia. Qed.
Lemma strip_fuel f : forall s, List.length s <= f -> forall g, List.length s <= g -> strip f s = strip g s.
Proof.
  induction f as [|f IH]; intros s Hf g Hg.
  - destruct s; [|cbn in Hf; lia]. destruct g; reflexivity.
  - destruct g as [|g]; [destruct s; [reflexivity|cbn in Hg; lia]|]. destruct s as [|a [|b s]]; try reflexivity. cbn [strip].
    destruct (_ && _); [|f_equal; apply IH; cbn in *; lia].
    pose proof (suffix_length _ _ (after_suffix s)). cbn in Hf, Hg. apply IH; lia.
Qed.
Lemma strip_nil : strip_ansi [] = []. Proof. reflexivity. Qed.
Lemma strip_csi s : strip_ansi (ESC :: 91 :: s)%N = strip_ansi (after_csi s).
Proof.
  unfold strip_ansi. cbn [List.length]. set (k := S (List.length s)). cbn [strip]. change ((ESC =? ESC)%N && (91 =? 91)%N) with true. cbv iota.
  pose proof (suffix_length _ _ (after_suffix s)). apply strip_fuel; unfold k; lia.
Qed.
Lemma strip_char c s : c <> ESC -> strip_ansi (c :: s) = c :: strip_ansi s.
Proof.
  intros D. unfold strip_ansi. cbn [List.length]. set (k := List.length s). cbn [strip]. destruct s as [|b s]; [reflexivity|].
  rewrite (proj2 (N.eqb_neq c ESC) D). reflexivity.
Qed.
Lemma strip_esc b s : b <> 91%N -> strip_ansi (ESC :: b :: s) = ESC :: strip_ansi (b :: s).
Proof. intros D. unfold strip_ansi. cbn [List.length]. set (k := S (List.length s)). cbn [strip]. rewrite (proj2 (N.eqb_neq b 91) D), Bool.andb_false_r. reflexivity. Qed.
Lemma strip_plain p s : ~ In ESC p -> strip_ansi (p ++ s) = p ++ strip_ansi s.
Proof.
  induction p as [|c p IH]; intros H; [reflexivity|]. cbn [app]. rewrite strip_char, IH; [reflexivity| |]; intros X; apply H; [right|left]; auto.
Qed.
Lemma part_refl s : part_of s s. Proof. induction s; constructor; assumption. Qed.
Lemma part_suffix a b : suffix a b -> forall s, part_of s a -> part_of s b.
Proof. intros (p & ->) s H. induction p; [exact H|constructor; assumption]. Qed.
Lemma strip_part : forall s, part_of (strip_ansi s) s.
Proof.
  enough (H : forall k s, List.length s < k -> part_of (strip_ansi s) s) by (intros s; apply (H (S (List.length s))); lia).
  induction k as [|k IH]; intros s L; [lia|]. destruct s as [|a s]; [constructor|]. cbn in L.
  destruct (N.eq_dec a ESC) as [->|D]; [|rewrite strip_char by exact D; constructor; apply IH; lia].
  destruct s as [|b s]; [repeat constructor|]. cbn in L.
  destruct (N.eq_dec b 91) as [->|D]; [|rewrite strip_esc by exact D; constructor; apply IH; cbn; lia].
  rewrite strip_csi. do 2 apply part_drop. pose proof (suffix_length _ _ (after_suffix s)).
  apply (part_suffix _ _ (after_suffix s)). apply IH. lia.
Qed.
Lemma digit_code c : (48 <= c <= 57)%N -> digit c = true /\ code_char c = true.
Proof. intros H. unfold code_char, digit. assert (E : ((48 <=? c) && (c <=? 57))%N = true) by (apply andb_true_intro; split; apply N.leb_le; lia). rewrite E. auto. Qed.
Lemma number12_cases d : number12 d -> (exists a, d = [a] /\ (48 <= a <= 57)%N) \/ (exists a b, d = [a; b] /\ (48 <= a <= 57)%N /\ (48 <= b <= 57)%N).
Proof.
  intros ([L|L] & F); destruct d as [|a [|b [|c d]]]; try discriminate.
  - left. exists a. inversion F. auto.
  - right. exists a, b. inversion F as [|? ? ? F']. inversion F'. auto.
Qed.
Lemma drop_upto_S n p c r : drop_upto (S n) p (c :: r) = if p c then drop_upto n p r else c :: r. Proof. reflexivity. Qed.
Lemma after_rendition d s : rendition d -> after_csi (d ++ 109%N :: s) = s.
Proof.
  assert (K : forall a q, number12 a -> (forall c r, q = c :: r -> code_char c = false) ->
     after_csi (a ++ q) = drop_upto 1 final (drop_three (drop_two q))).
  { intros a q Ha Hq. apply number12_cases in Ha. unfold after_csi.
    assert (Q : forall n, drop_upto n code_char q = q) by (intros [|n]; destruct q as [|c q]; cbn [drop_upto]; try reflexivity; rewrite (Hq c q eq_refl); reflexivity).
    destruct Ha as [(x & -> & X)|(x & y & -> & X & Y)]; cbn [app]; rewrite !drop_upto_S.
    - destruct (digit_code x X) as [_ ->]. cbv iota. rewrite Q. reflexivity.
    - destruct (digit_code x X) as [_ ->]. destruct (digit_code y Y) as [_ ->]. cbv iota. rewrite Q. reflexivity. }
  assert (K2 : forall b q, number12 b -> (forall c r, q = c :: r -> digit c = false) -> drop_two (59%N :: b ++ q) = q).
  { intros b q Hb Hq. apply number12_cases in Hb.
    assert (Q : drop_upto 1 digit q = q) by (destruct q as [|c q]; cbn [drop_upto]; [reflexivity|]; rewrite (Hq c q eq_refl); reflexivity).
    destruct Hb as [(x & -> & X)|(x & y & -> & X & Y)]; cbn [app drop_two].
    - destruct (digit_code x X) as [-> _]. change (59 =? 59)%N with true. cbn [andb]. exact Q.
    - destruct (digit_code x X) as [-> _]. change (59 =? 59)%N with true. cbn [andb]. rewrite drop_upto_S. destruct (digit_code y Y) as [-> _]. destruct q; reflexivity. }
  assert (M : drop_upto 1 final (109%N :: s) = s) by reflexivity.
  assert (T2 : forall c q, c <> 59%N -> drop_two (c :: q) = c :: q).
  { intros c q D. unfold drop_two. destruct q; [reflexivity|]. rewrite (proj2 (N.eqb_neq c 59) D). reflexivity. }
  assert (T3 : forall c q, c <> 59%N -> drop_three (c :: q) = c :: q).
  { intros c q D. unfold drop_three. destruct q as [|? [|? [|? ?]]]; try reflexivity. rewrite (proj2 (N.eqb_neq c 59) D). reflexivity. }
  intros [|a Ha|a b Ha Hb|a b c Ha Hb Hc].
  - cbn [app]. unfold after_csi. change (code_char 109) with false. exact M.
  - rewrite K; [|exact Ha|intros c r X; injection X as <- _; reflexivity]. rewrite T2, T3 by discriminate. exact M.
  - rewrite <- !app_assoc. rewrite K; [|exact Ha|intros c r X; injection X as <- _; reflexivity].
    change (B ";" ++ b ++ 109%N :: s) with (59%N :: b ++ 109%N :: s). rewrite K2; [|exact Hb|intros c r X; injection X as <- _; reflexivity].
    rewrite T3 by discriminate. exact M.
  - rewrite <- !app_assoc. rewrite K; [|exact Ha|intros x r X; injection X as <- _; reflexivity].
    change (B ";" ++ b ++ B ";" ++ c ++ 109%N :: s) with (59%N :: b ++ (59%N :: c ++ 109%N :: s)).
    rewrite K2; [|exact Hb|intros x r X; injection X as <- _; reflexivity].
    destruct Hc as (L & F). destruct c as [|x [|y [|z [|w c]]]]; try discriminate. inversion F as [|? ? X F1]. inversion F1 as [|? ? Y F2]. inversion F2 as [|? ? Z F3].
    cbn [app drop_three]. destruct (digit_code x X) as [-> _]. destruct (digit_code y Y) as [-> _]. destruct (digit_code z Z) as [-> _]. exact M.
Qed.
Lemma strip_sgr d s : rendition d -> strip_ansi (sgr d ++ s) = strip_ansi s.
Proof.
  intros H. unfold sgr. change ((27%N :: B "[" ++ d ++ B "m") ++ s) with (ESC :: 91%N :: (d ++ B "m") ++ s). rewrite strip_csi, <- app_assoc.
  change (B "m" ++ s) with (109%N :: s). rewrite after_rendition by exact H. reflexivity.
Qed.

(** ** Colours and back *)
Lemma small_number n : (n < 100)%N -> number12 (small n).
Proof.
  intros H. unfold small. destruct (N.ltb_spec n 10).
  - split; [left; reflexivity|]. constructor; [lia|constructor].
  - split; [right; reflexivity|]. assert (n / 10 < 10)%N by (apply N.div_lt_upper_bound; lia). pose proof (N.mod_lt n 10 ltac:(discriminate)).
    constructor; [lia|]. constructor; [lia|constructor].
Qed.
Lemma lookup_in k t n : lookup k t = Some n -> In n (map snd t).
Proof.
  induction t as [|[k' v] t IH]; [discriminate|]. cbn. destruct (beqb k k'); [intros X; injection X as ->; left; reflexivity|]. intros X. right. apply IH, X.
Qed.
Lemma painted_inked t k x r : (forall n, In n (map snd t) -> (n < 100)%N) -> painted t k x = Some r -> exists d, number12 d /\ r = sgr d ++ x.
Proof.
  intros H E. unfold painted in E. destruct (lookup k t) as [n|] eqn:L; [|discriminate]. injection E as <-. exists (small n).
  split; [apply small_number, H, (lookup_in _ _ _ L)|]. unfold escape, sgr. cbn [app]. reflexivity.
Qed.
Lemma tables_small : (forall n, In n (map snd COLORS) -> (n < 100)%N) /\ (forall n, In n (map snd HIGHLIGHTS) -> (n < 100)%N) /\ (forall n, In n (map snd ATTRIBUTES) -> (n < 100)%N).
Proof. split; [|split]; intros n I; vm_compute in I; repeat (destruct I as [<-|I]; [reflexivity|]); destruct I. Qed.
Definition inked (t r : bytes) : Prop := exists ds, Forall number12 ds /\ r = concat (map sgr ds) ++ t.
Lemma inked_refl t : inked t t. Proof. exists []. split; [constructor|reflexivity]. Qed.
Lemma inked_step t r d : inked t r -> number12 d -> inked t (sgr d ++ r).
Proof. intros (ds & F & ->) H. exists (d :: ds). split; [constructor; assumption|]. cbn [map concat]. rewrite <- app_assoc. reflexivity. Qed.
Lemma paint_all_inked t attrs : forall o r, (forall x, o = Some x -> inked t x) ->
  fold_left (fun o k => bind o (painted ATTRIBUTES k)) attrs o = Some r -> inked t r.
Proof.
  induction attrs as [|k attrs IH]; intros o r H E; [apply H, E|]. cbn [fold_left] in E. apply (IH _ _ ) in E; [exact E|].
  intros x X. destruct o as [y|]; [|discriminate]. cbn [bind] in X. apply painted_inked in X as (d & D & ->); [|apply tables_small].
  apply inked_step; [apply H; reflexivity|exact D].
Qed.
Lemma colored_inked t c h attrs r : colored t c h attrs = Some r -> exists ds, Forall number12 ds /\ r = concat (map sgr ds) ++ t ++ sgr (B "0").
Proof.
  unfold colored. destruct (match c with Some k => painted COLORS k t | None => Some t end) as [t1|] eqn:E1; [|discriminate]. cbn [bind].
  assert (I1 : inked t t1).
  { destruct c as [k|]; [|injection E1 as <-; apply inked_refl]. apply painted_inked in E1 as (d & D & ->); [|apply tables_small]. apply inked_step; [apply inked_refl|exact D]. }
  destruct (match h with Some k => painted HIGHLIGHTS k t1 | None => Some t1 end) as [t2|] eqn:E2; [|discriminate]. cbn [bind].
  assert (I2 : inked t t2).
  { destruct h as [k|]; [|injection E2 as <-; exact I1]. apply painted_inked in E2 as (d & D & ->); [|apply tables_small]. apply inked_step; [exact I1|exact D]. }
  unfold paint_all. destruct (fold_left _ attrs (Some t2)) as [t3|] eqn:E3; [|discriminate]. cbn [bind]. intros X. injection X as <-.
  apply (paint_all_inked t) in E3; [|intros x X; injection X as <-; exact I2]. destruct E3 as (ds & F & ->). exists ds. split; [exact F|].
  rewrite <- app_assoc. reflexivity.
Qed.
Lemma format_inked t a r : format_inline t a = Some r -> exists ds, Forall number12 ds /\ r = concat (map sgr ds) ++ t ++ sgr (B "0").
Proof.
  unfold format_inline. destruct (split_on 124 a) as [|d l]; [discriminate|]. destruct (split_on 44 d) as [|c [|h [|? ?]]]; try discriminate; apply colored_inked.
Qed.
Lemma strip_sgrs ds s : Forall number12 ds -> strip_ansi (concat (map sgr ds) ++ s) = strip_ansi s.
Proof.
  induction 1 as [|d ds H F IH]; [reflexivity|]. cbn [map concat]. rewrite <- app_assoc, strip_sgr, IH; [reflexivity|]. apply rend_one, H.
Qed.
Lemma strip_style s : ~ In ESC s -> forall r, ansi_style false s = Some r -> ansi_style true s = Some (strip_ansi r).
Proof.
  destruct (pieces_exist s) as (l & P). intros H r. rewrite !(style_pieces _ s l P). revert r.
  assert (Z : number12 (B "0")) by (split; [left; reflexivity|]; constructor; [cbn; lia|constructor]).
  induction P as [|s t a q l M P IH|c s l M P IH]; intros r.
  - cbn. intros X. injection X as <-. reflexivity.
  - destruct M as (-> & _). assert (Ht : ~ In ESC t) by (intros X; apply H; rewrite !in_app_iff; auto).
    assert (Hq : ~ In ESC q) by (intros X; apply H; rewrite !in_app_iff; auto 10). cbn [shown].
    unfold paint at 1 3. destruct (format_inline t a) as [x|] eqn:F; [|discriminate]. destruct (shown (paint false) l) as [y|] eqn:Y; [|discriminate].
    intros X. injection X as <-. specialize (IH Hq y eq_refl). rewrite IH. apply format_inked in F as (ds & Fd & ->).
    rewrite <- !app_assoc, strip_sgrs, strip_plain, strip_sgr by (assumption || apply rend_one, Z). reflexivity.
  - assert (Hs : ~ In ESC s) by (intros X; apply H; right; exact X). assert (Hc : c <> ESC) by (intros X; apply H; left; exact X). cbn [shown].
    destruct (shown (paint false) l) as [y|] eqn:Y; [|discriminate]. cbn [option_map]. intros X. injection X as <-.
    rewrite (IH Hs y eq_refl), strip_char by exact Hc. reflexivity.
Qed.
