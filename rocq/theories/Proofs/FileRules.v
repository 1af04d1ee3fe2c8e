From Coq Require Import String.
From Verif Require Import Model.Bytes Model.Paths Model.UnicodeTables Model.Regex Model.Access Model.FileRules
  Spec.Paths Spec.Regex Spec.Access Spec.Policies Spec.FileRules Proofs.BytesLemmas Proofs.Paths Proofs.Regex Proofs.Access.
Local Open Scope list_scope.

(** ** Patterns as lists of items *)
Fixpoint sat (l : list re) (s t : list N) : Prop :=
  match l with [] => t = s | x :: r => exists u, Matches x s u /\ sat r u t end.
Definition begins (l : list re) (s : list N) : Prop := exists t, sat l s t.
Lemma sat_app : forall a b s t, sat (a ++ b) s t <-> exists u, sat a s u /\ sat b u t.
Proof.
  induction a as [|x a IH]; intros b s t; cbn [sat app].
  - split; [intro H; exists s; auto|]. intros (u & -> & H). exact H.
  - split.
    + intros (u & H1 & H2). apply IH in H2. destruct H2 as (v & H2 & H3). exists v. split; [|exact H3]. exists u. auto.
    + intros (v & (u & H1 & H2) & H3). exists u. split; [exact H1|]. apply IH. exists v. auto.
Qed.
Lemma cat_sat : forall l s t, Matches (cat (rev l)) s t <-> sat l s t.
Proof.
  induction l as [|x l IH]; intros s t; cbn [rev sat].
  - reflexivity.
  - rewrite cat_app. split.
    + intros (u & H1 & H2). apply cat_cons in H1. destruct H1 as (v & H1 & H3). change (v = s) in H1. subst v.
      exists u. split; [exact H3|]. apply IH. exact H2.
    + intros (u & H1 & H2). exists u. split; [|apply IH; exact H2]. apply cat_cons. exists s. split; [reflexivity|exact H1].
Qed.
Lemma sat_lits : forall w s t, sat (map Chr w) s t <-> s = w ++ t.
Proof.
  induction w as [|c w IH]; intros s t; cbn [map sat app Matches].
  - split; congruence.
  - split.
    + intros (u & -> & H). apply IH in H. subst u. reflexivity.
    + intros ->. exists (w ++ t). split; [reflexivity|]. apply IH. reflexivity.
Qed.
Lemma begins_nil : forall s, begins [] s <-> True.
Proof. intro s. split; [auto|]. intros _. exists s. reflexivity. Qed.
Lemma begins_lits : forall w l s, begins (map Chr w ++ l) s <-> exists u, s = w ++ u /\ begins l u.
Proof.
  intros w l s. unfold begins. split.
  - intros (t & H). apply sat_app in H. destruct H as (u & H1 & H2). apply sat_lits in H1. exists u. split; [exact H1|]. exists t. exact H2.
  - intros (u & -> & t & H). exists t. apply sat_app. exists u. split; [apply sat_lits; reflexivity|exact H].
Qed.
Lemma begins_many : forall k l s, begins (Many k :: l) s <->
  exists a u, s = a ++ u /\ Forall (fun c => in_cls k c = true) a /\ begins l u.
Proof.
  intros k l s. unfold begins. cbn [sat Matches]. split.
  - intros (t & u & (a & -> & F) & H). exists a, u. split; [reflexivity|]. split; [exact F|]. exists t. exact H.
  - intros (a & u & -> & F & t & H). exists t, u. split; [|exact H]. exists a. auto.
Qed.
Lemma begins_cls : forall k l s, begins (Cls k :: l) s <-> exists c u, s = c :: u /\ in_cls k c = true /\ begins l u.
Proof.
  intros k l s. unfold begins. cbn [sat Matches]. split.
  - intros (t & u & (c & -> & F) & H). exists c, u. split; [reflexivity|]. split; [exact F|]. exists t. exact H.
  - intros (c & u & -> & F & t & H). exists t, u. split; [|exact H]. exists c. auto.
Qed.
Lemma begins_end : forall s, begins [End] s <-> s = [] \/ s = [10%N].
Proof.
  intro s. unfold begins. cbn [sat Matches]. split.
  - intros (t & u & (_ & H) & _). exact H.
  - intro H. exists s, s. auto.
Qed.
Lemma begins_exact : forall w s, begins (map Chr w ++ [End]) s <-> exactly w s.
Proof.
  intros w s. rewrite begins_lits. unfold exactly. split.
  - intros (u & -> & H). apply begins_end in H. destruct H as [-> | ->]; [left; apply app_nil_r|right; reflexivity].
  - intros [-> | ->]; [exists []; rewrite app_nil_r|exists [10%N]]; (split; [reflexivity|]); apply begins_end; auto.
Qed.
Lemma begins_below : forall w s, begins (map Chr w) s <-> Spec.Access.below w s.
Proof.
  intros w s. rewrite <- (app_nil_r (map Chr w)), begins_lits. unfold Spec.Access.below. split.
  - intros (u & -> & _). exists u. reflexivity.
  - intros (u & ->). exists u. split; [reflexivity|]. apply begins_nil. exact I.
Qed.
(** paths with dots *)
Definition dot_item (c : N) : re := if (c =? 46)%N then Cls Any else Chr c.
Definition dot_token (c : N) : token := if (c =? 46)%N then TCls Any else TChr c.
Lemma begins_dots : forall p l s, Forall (fun c => plain c \/ c = 46%N) p ->
  (begins (map dot_item p ++ l) s <-> exists w u, like p w /\ s = w ++ u /\ begins l u).
Proof.
  induction p as [|a p IH]; intros l s D; cbn [map app].
  - split.
    + intro H. exists [], s. split; [constructor|]. auto.
    + intros (w & u & L & -> & H). inversion L; subst. exact H.
  - inversion D as [|? ? D1 D2]; subst. unfold dot_item at 1. destruct (N.eqb_spec a 46) as [->|Na].
    + rewrite begins_cls. split.
      * intros (c & u & -> & E & H). apply IH in H; [|exact D2]. destruct H as (w & v & L & -> & H).
        exists (c :: w), v. split; [|split; [reflexivity|exact H]]. constructor; [|exact L].
        right. split; [reflexivity|]. cbn [in_cls] in E. intros ->. discriminate E.
      * intros (w & u & L & -> & H). inversion L as [|? c ? w' E L']; subst. exists c, (w' ++ u).
        split; [reflexivity|]. split.
        { cbn [in_cls]. apply negb_true_iff, N.eqb_neq. destruct E as [<-|[_ E]]; [discriminate|exact E]. }
        apply IH; [exact D2|]. exists w', u. auto.
    + change (Chr a :: map dot_item p ++ l) with (map Chr [a] ++ (map dot_item p ++ l)). rewrite begins_lits. split.
      * intros (u & -> & H). apply IH in H; [|exact D2]. destruct H as (w & v & L & -> & H).
        exists (a :: w), v. split; [|split; [reflexivity|exact H]]. constructor; [left; reflexivity|exact L].
      * intros (w & u & L & -> & H). inversion L as [|? c ? w' E L']; subst. exists (w' ++ u). split.
        { destruct E as [<-|[E _]]; [reflexivity|contradiction]. }
        apply IH; [exact D2|]. exists w', u. auto.
Qed.
Lemma begins_like_iff : forall p s, dotted p -> (begins (map dot_item p) s <-> begins_like p s).
Proof.
  intros p s D. rewrite <- (app_nil_r (map dot_item p)), begins_dots by exact D. unfold begins_like. split.
  - intros (w & u & L & -> & _). eauto.
  - intros (w & u & L & ->). exists w, u. split; [exact L|]. split; [reflexivity|]. apply begins_nil. exact I.
Qed.

(** ** From rules to items *)
Lemma plain_simple : forall c, plain c -> (c =? 40)%N = false /\ (c =? 92)%N = false /\ (c =? 91)%N = false
  /\ simple c = Some (TChr c) /\ c <> 123%N /\ c <> 125%N /\ (c =? 46)%N = false.
Proof.
  intros c H. unfold plain in H. cbn in H.
  assert (E : forall k, In k (B "()[]{}?*+|^$\.") -> (c =? k)%N = false).
  { intros k Hk. apply N.eqb_neq. intros ->. apply H. exact Hk. }
  repeat split; try (apply E; vm_compute; tauto).
  - unfold simple, unsupported. cbn [existsb].
    rewrite !E by (vm_compute; tauto). reflexivity.
  - intros ->. apply H. vm_compute. tauto.
  - intros ->. apply H. vm_compute. tauto.
Qed.
Lemma tokens_dotted : forall p, dotted p -> tokens p = Some (map dot_token p).
Proof.
  induction p as [|c p IH]; intro D; [reflexivity|]. inversion D as [|? ? D1 D2]; subst.
  cbn [tokens map]. unfold dot_token at 1. destruct (N.eqb_spec c 46) as [->|Nc].
  - change (46 =? 40)%N with false. change (46 =? 92)%N with false. change (46 =? 91)%N with false. cbv iota.
    change (simple 46) with (Some (TCls Any)). cbv iota. rewrite (IH D2). reflexivity.
  - destruct D1 as [D1|D1]; [|contradiction]. destruct (plain_simple c D1) as (H1 & H2 & H3 & H4 & _).
    rewrite H1, H2, H3, H4, (IH D2). reflexivity.
Qed.
Lemma dotted_braces : forall p, dotted p -> ~ In 123%N p /\ ~ In 125%N p.
Proof.
  intros p D. unfold dotted in D. rewrite Forall_forall in D.
  split; intro H; destruct (D _ H) as [X|X]; try discriminate X; apply X; vm_compute; tauto.
Qed.
Definition item (t : token) : option re :=
  match t with TChr c => Some (Chr c) | TCls k => Some (Cls k) | TEnd => Some End | _ => None end.
Lemma steps_items : forall l its st, all_some (map item l) = Some its ->
  steps st l = Some {| stack := stack st; cur_alts := cur_alts st; cur := rev its ++ cur st |}.
Proof.
  induction l as [|t l IH]; intros its [stk al cu] H; cbn [map all_some] in H.
  - injection H as <-. reflexivity.
  - destruct (item t) as [x|] eqn:E; [|discriminate]. destruct (all_some (map item l)) as [r|]; [|discriminate].
    injection H as <-. cbn [steps].
    assert (S : step {| stack := stk; cur_alts := al; cur := cu |} t = Some {| stack := stk; cur_alts := al; cur := x :: cu |}).
    { destruct t; try discriminate E; injection E as <-; reflexivity. }
    rewrite S, (IH r _ eq_refl). cbn [stack cur_alts cur rev]. rewrite <- app_assoc. reflexivity.
Qed.
Lemma compile_items : forall p l its, tokens p = Some l -> all_some (map item l) = Some its ->
  compile p = Some (cat (rev its)).
Proof.
  intros p l its H1 H2. unfold compile. rewrite H1, (steps_items l its start H2). cbn [stack cur_alts cur start].
  rewrite app_nil_r. reflexivity.
Qed.
Lemma all_some_app : forall A (a b : list (option A)) x y, all_some a = Some x -> all_some b = Some y -> all_some (a ++ b) = Some (x ++ y).
Proof.
  induction a as [|[v|] a IH]; intros b x y H1 H2; cbn [all_some app] in *.
  - injection H1 as <-. exact H2.
  - destruct (all_some a) as [z|]; [|discriminate]. injection H1 as <-. rewrite (IH b z y eq_refl H2). reflexivity.
  - discriminate.
Qed.
Lemma items_dotted : forall p, all_some (map item (map dot_token p)) = Some (map dot_item p).
Proof.
  induction p as [|c p IH]; [reflexivity|]. cbn [map all_some]. unfold dot_token at 1, dot_item at 1.
  destruct (c =? 46)%N; cbn [item]; rewrite IH; reflexivity.
Qed.
Lemma items_chars : forall w, all_some (map item (map TChr w)) = Some (map Chr w).
Proof. induction w as [|c w IH]; [reflexivity|]. cbn [map all_some item]. rewrite IH. reflexivity. Qed.

Definition stands (p : N) (rule : list N) (l : list re) : Prop :=
  rule_ok p rule /\ forall path, covers p rule path <-> begins l path.
Lemma stands_by : forall p rule r l, ~ In 123%N rule -> ~ In 125%N rule -> compile rule = Some r ->
  (forall s t, Matches r s t <-> sat l s t) -> stands p rule l.
Proof.
  intros p rule r l B1 B2 C M.
  assert (P : rule_pattern p rule r) by (exists rule; split; [apply format_pid_plain; assumption|exact C]).
  split; [exists r; exact P|]. intros path. split.
  - intros (r' & t & (q & E1 & E2) & H). exists t. apply M. rewrite format_pid_plain in E1 by assumption. congruence.
  - intros (t & H). exists r, t. split; [exact P|]. apply M. exact H.
Qed.
(** rules known in full *)
Lemma stands_static : forall p rule its, existsb (fun c => (c =? 123) || (c =? 125))%N rule = false ->
  compile rule = Some (cat (rev its)) -> stands p rule its.
Proof.
  intros p rule its B0 C. apply (stands_by p rule (cat (rev its))); [| |exact C|intros s t; apply cat_sat].
  - intro H. assert (X : existsb (fun c => (c =? 123) || (c =? 125))%N rule = true); [|congruence].
    apply existsb_exists. exists 123%N. split; [exact H|reflexivity].
  - intro H. assert (X : existsb (fun c => (c =? 123) || (c =? 125))%N rule = true); [|congruence].
    apply existsb_exists. exists 125%N. split; [exact H|reflexivity].
Qed.
Lemma stands_dotted : forall p w suffix v, dotted w -> ~ In 123%N suffix -> ~ In 125%N suffix ->
  tokens suffix = Some (map TChr v) -> stands p (w ++ suffix) (map dot_item w ++ map Chr v).
Proof.
  intros p w suffix v D S1 S2 T. destruct (dotted_braces w D) as [B1 B2].
  eapply stands_by; [| | |intros s t; apply cat_sat].
  - intro H. apply in_app_iff in H. tauto.
  - intro H. apply in_app_iff in H. tauto.
  - apply (compile_items _ (map dot_token w ++ map TChr v)).
    + apply tokens_app; [apply tokens_dotted; exact D|exact T].
    + rewrite map_app. apply all_some_app; [apply items_dotted|apply items_chars].
Qed.
Lemma stands_path : forall p w, dotted w -> rule_ok p w /\ forall path, covers p w path <-> begins_like w path.
Proof.
  intros p w D. destruct (stands_dotted p w [] [] D) as [O C]; [intros []|intros []|reflexivity|].
  rewrite app_nil_r in *. split; [exact O|]. intro path. rewrite C. cbn [map]. rewrite app_nil_r. apply begins_like_iff. exact D.
Qed.
Lemma stands_end : forall p w, ~ In 123%N w -> ~ In 125%N w ->
  rule_ok p (escape w ++ B "$") /\ forall path, covers p (escape w ++ B "$") path <-> exactly w path.
Proof.
  intros p w B1 B2. destruct (escape_braces w B1 B2) as [E1 E2].
  assert (S : stands p (escape w ++ B "$") (map Chr w ++ [End])).
  { eapply stands_by; [| | |intros s t; apply cat_sat].
    - intro H. apply in_app_iff in H. destruct H as [H|[H|[]]]; [tauto|discriminate].
    - intro H. apply in_app_iff in H. destruct H as [H|[H|[]]]; [tauto|discriminate].
    - apply (compile_items _ (map TChr w ++ [TEnd])).
      + apply tokens_app; [apply tokens_escape|reflexivity].
      + rewrite map_app. apply all_some_app; [apply items_chars|reflexivity]. }
  destruct S as [O C]. split; [exact O|]. intro path. rewrite C. apply begins_exact.
Qed.

(** ** The fixed rules *)
Lemma any_one_line : forall a, Forall (fun c => in_cls Any c = true) a <-> one_line a.
Proof.
  intro a. unfold one_line. rewrite Forall_forall. cbn [in_cls]. split.
  - intros H X. specialize (H _ X). discriminate H.
  - intros H c Hc. apply negb_true_iff, N.eqb_neq. intros ->. exact (H Hc).
Qed.
Lemma worddash_iff : forall m, Forall (fun c => in_cls WordDash c = true) m <-> Forall word_or_dash m.
Proof.
  intro m. rewrite !Forall_forall. cbn [in_cls]. unfold word_or_dash.
  split; intros H c Hc; specialize (H c Hc); rewrite orb_true_iff, N.eqb_eq in *; exact H.
Qed.
Lemma exactly_app : forall a w s, exactly (a ++ w) s <-> exists u, s = a ++ u /\ exactly w u.
Proof.
  intros a w s. unfold exactly. split.
  - intros [->| ->]; [exists w|exists (w ++ [10%N]); rewrite app_assoc]; auto.
  - intros (u & -> & [->| ->]); [left; reflexivity|right; apply app_assoc].
Qed.
Definition means (p : N) (rules : list (list N)) (P : list N -> Prop) : Prop :=
  Forall (rule_ok p) rules /\ forall path, (exists rule, In rule rules /\ covers p rule path) <-> P path.
Lemma means_nil : forall p, means p [] (fun _ => False).
Proof. intro p. split; [constructor|]. intro path. split; [intros (r & [] & _)|intros []]. Qed.
Lemma means_cons : forall p r l (P Q : list N -> Prop), rule_ok p r -> (forall path, covers p r path <-> P path) -> means p l Q ->
  means p (r :: l) (fun path => P path \/ Q path).
Proof.
  intros p r l P Q O C [O' C']. split; [constructor; assumption|]. intro path. split.
  - intros (rule & [<-|I] & X); [left; apply C; exact X|right; apply C'; eauto].
  - intros [X|X]; [exists r; split; [left; reflexivity|apply C; exact X]|].
    apply C' in X. destruct X as (rule & I & X). exists rule. split; [right; exact I|exact X].
Qed.
Lemma means_app : forall p a b (P Q : list N -> Prop), means p a P -> means p b Q -> means p (a ++ b) (fun path => P path \/ Q path).
Proof.
  intros p a b P Q [O C] [O' C']. split; [apply Forall_app; split; assumption|]. intro path. rewrite <- C, <- C'. split.
  - intros (rule & I & X). apply in_app_iff in I. destruct I as [I|I]; [left|right]; eauto.
  - intros [(rule & I & X)|(rule & I & X)]; exists rule; (split; [apply in_app_iff; tauto|exact X]).
Qed.
Lemma means_iff : forall p l (P Q : list N -> Prop), means p l P -> (forall path, P path <-> Q path) -> means p l Q.
Proof. intros p l P Q [O C] H. split; [exact O|]. intro path. rewrite C. apply H. Qed.
Lemma means_one : forall p r (P : list N -> Prop), rule_ok p r -> (forall path, covers p r path <-> P path) -> means p [r] P.
Proof.
  intros p r P O C. eapply means_iff; [apply (means_cons p r [] P (fun _ => False) O C), means_nil|]. intro path. tauto.
Qed.
Lemma means_exact : forall p rule w, existsb (fun c => (c =? 123) || (c =? 125))%N rule = false ->
  compile rule = Some (cat (rev (map Chr w ++ [End]))) -> means p [rule] (exactly w).
Proof.
  intros p rule w H1 H2. destruct (stands_static p rule _ H1 H2) as [O C]. apply means_one; [exact O|].
  intro path. rewrite C. apply begins_exact.
Qed.
Lemma means_below : forall p rule w, existsb (fun c => (c =? 123) || (c =? 125))%N rule = false ->
  compile rule = Some (cat (rev (map Chr w))) -> means p [rule] (Spec.Access.below w).
Proof.
  intros p rule w H1 H2. destruct (stands_static p rule _ H1 H2) as [O C]. apply means_one; [exact O|].
  intro path. rewrite C. apply begins_below.
Qed.
Lemma means_dir : forall p rule w, existsb (fun c => (c =? 123) || (c =? 125))%N rule = false ->
  compile rule = Some (cat (rev (map Chr w ++ [Many Any]))) -> means p [rule] (Spec.Access.below w).
Proof.
  intros p rule w H1 H2. destruct (stands_static p rule _ H1 H2) as [O C]. apply means_one; [exact O|].
  intro path. rewrite C, begins_lits. unfold Spec.Access.below. split.
  - intros (u & -> & _). exists u. reflexivity.
  - intros (u & ->). exists u. split; [reflexivity|]. apply begins_many. exists [], u. split; [reflexivity|].
    split; [constructor|]. apply begins_nil. exact I.
Qed.
Lemma dart_rule : forall p, means p [B ".*/vm-service$"] (fun path => exists a, one_line a /\ exactly (a ++ B "/vm-service") path).
Proof.
  intro p. destruct (stands_static p (B ".*/vm-service$") (Many Any :: map Chr (B "/vm-service") ++ [End])) as [O C];
    [reflexivity|reflexivity|]. apply means_one; [exact O|]. intro path. rewrite C, begins_many. split.
  - intros (a & u & -> & F & H). exists a. split; [apply any_one_line; exact F|]. apply exactly_app. exists u.
    split; [reflexivity|]. apply begins_exact. exact H.
  - intros (a & F & H). apply exactly_app in H. destruct H as (u & -> & H). exists a, u. split; [reflexivity|].
    split; [apply any_one_line; exact F|]. apply begins_exact. exact H.
Qed.
Lemma php_rule : forall p, means p [B ".*/php[\w-]*\.ini$"]
  (fun path => exists a m, one_line a /\ Forall word_or_dash m /\ exactly (a ++ B "/php" ++ m ++ B ".ini") path).
Proof.
  intro p. destruct (stands_static p (B ".*/php[\w-]*\.ini$")
    (Many Any :: map Chr (B "/php") ++ (Many WordDash :: map Chr (B ".ini") ++ [End]))) as [O C];
    [reflexivity|reflexivity|]. apply means_one; [exact O|]. intro path. rewrite C, begins_many. split.
  - intros (a & u & -> & F & H). apply begins_lits in H. destruct H as (v & -> & H).
    apply begins_many in H. destruct H as (m & x & -> & G & H). apply begins_exact in H.
    exists a, m. split; [apply any_one_line; exact F|]. split; [apply worddash_iff; exact G|].
    apply exactly_app. eexists. split; [reflexivity|]. apply exactly_app. eexists. split; [reflexivity|].
    apply exactly_app. eexists. split; [reflexivity|]. exact H.
  - intros (a & m & F & G & H). apply exactly_app in H. destruct H as (u & -> & H). exists a, u. split; [reflexivity|].
    split; [apply any_one_line; exact F|]. apply exactly_app in H. destruct H as (v & -> & H).
    apply begins_lits. exists v. split; [reflexivity|]. apply exactly_app in H. destruct H as (x & -> & H).
    apply begins_many. exists m, x. split; [reflexivity|]. split; [apply worddash_iff; exact G|]. apply begins_exact. exact H.
Qed.
Lemma php_dir_rule : forall p, means p [B ".*/conf.d/.*\.ini$"]
  (fun path => exists a c m, one_line a /\ c <> 10%N /\ one_line m
     /\ exactly (a ++ B "/conf" ++ [c] ++ B "d/" ++ m ++ B ".ini") path).
Proof.
  intro p. destruct (stands_static p (B ".*/conf.d/.*\.ini$")
    (Many Any :: map Chr (B "/conf") ++ (Cls Any :: map Chr (B "d/") ++ (Many Any :: map Chr (B ".ini") ++ [End])))) as [O C];
    [reflexivity|reflexivity|]. apply means_one; [exact O|]. intro path. rewrite C, begins_many. split.
  - intros (a & u & -> & F & H). apply begins_lits in H. destruct H as (v & -> & H).
    apply begins_cls in H. destruct H as (c & x & -> & Ec & H). apply begins_lits in H. destruct H as (y & -> & H).
    apply begins_many in H. destruct H as (m & z & -> & G & H). apply begins_exact in H.
    exists a, c, m. split; [apply any_one_line; exact F|]. split.
    { cbn [in_cls] in Ec. intros ->. discriminate Ec. }
    split; [apply any_one_line; exact G|].
    apply exactly_app. eexists. split; [reflexivity|]. apply exactly_app. eexists. split; [reflexivity|].
    apply (exactly_app [c]). eexists. split; [reflexivity|]. apply exactly_app. eexists. split; [reflexivity|].
    apply exactly_app. eexists. split; [reflexivity|]. exact H.
  - intros (a & c & m & F & Nc & G & H). apply exactly_app in H. destruct H as (u & -> & H). exists a, u. split; [reflexivity|].
    split; [apply any_one_line; exact F|]. apply exactly_app in H. destruct H as (v & -> & H).
    apply begins_lits. exists v. split; [reflexivity|]. apply (exactly_app [c]) in H. destruct H as (x & -> & H).
    apply begins_cls. exists c, x. split; [reflexivity|]. split; [cbn [in_cls]; apply negb_true_iff, N.eqb_neq; exact Nc|].
    apply exactly_app in H. destruct H as (y & -> & H). apply begins_lits. exists y. split; [reflexivity|].
    apply exactly_app in H. destruct H as (z & -> & H).
    apply begins_many. exists m, z. split; [reflexivity|]. split; [apply any_one_line; exact G|]. apply begins_exact. exact H.
Qed.
Lemma objc_rule : forall p, means p [B "/proc/\d+/cmdline$"]
  (fun path => exists ds, ds <> [] /\ Forall (fun c => is_digit c = true) ds /\ exactly (B "/proc/" ++ ds ++ B "/cmdline") path).
Proof.
  intro p. destruct (stands_static p (B "/proc/\d+/cmdline$")
    (map Chr (B "/proc/") ++ (Cls Digit :: Many Digit :: map Chr (B "/cmdline") ++ [End]))) as [O C];
    [reflexivity|reflexivity|]. apply means_one; [exact O|]. intro path. rewrite C, begins_lits. split.
  - intros (u & -> & H). apply begins_cls in H. destruct H as (c & x & -> & Ec & H).
    apply begins_many in H. destruct H as (m & z & -> & G & H). apply begins_exact in H.
    exists (c :: m). split; [discriminate|]. split; [constructor; assumption|].
    apply exactly_app. eexists. split; [reflexivity|]. apply (exactly_app (c :: m)). eexists. split; [reflexivity|]. exact H.
  - intros (ds & Hn & F & H). apply exactly_app in H. destruct H as (u & -> & H). exists u. split; [reflexivity|].
    apply exactly_app in H. destruct H as (z & -> & H). destruct ds as [|c m]; [congruence|].
    inversion F as [|? ? F1 F2]; subst. apply begins_cls. exists c, (m ++ z). split; [reflexivity|]. split; [exact F1|].
    apply begins_many. exists m, z. split; [reflexivity|]. split; [exact F2|]. apply begins_exact. exact H.
Qed.
Lemma home_rule : forall p w suffix v, dotted w -> ~ In 123%N suffix -> ~ In 125%N suffix ->
  tokens suffix = Some (map TChr v) ->
  means p [w ++ suffix] (fun path => exists x, like w x /\ Spec.Access.below (x ++ v) path).
Proof.
  intros p w suffix v D S1 S2 T. destruct (stands_dotted p w suffix v D S1 S2 T) as [O C].
  apply means_one; [exact O|]. intro path. rewrite C, begins_dots by exact D. unfold Spec.Access.below. split.
  - intros (x & u & L & -> & H). apply begins_below in H. destruct H as (r & ->). exists x. split; [exact L|].
    exists r. rewrite <- app_assoc. reflexivity.
  - intros (x & L & r & ->). exists x, (v ++ r). split; [exact L|]. rewrite <- app_assoc. split; [reflexivity|].
    apply begins_below. exists r. reflexivity.
Qed.
Lemma path_rule : forall p w, dotted w -> means p [w] (begins_like w).
Proof. intros p w D. destruct (stands_path p w D) as [O C]. apply means_one; assumption. Qed.

(** ** Ruby's home *)
Lemma split_component : forall w, component w -> forall r, split_slash (w ++ r) =
  match split_slash r with x :: t => (w ++ x) :: t | [] => [w ++ []] end.
Proof.
  intros w [_ Hw]. induction w as [|c w IH]; intro r; cbn [app].
  - destruct (split_slash r) eqn:E; [|reflexivity]. destruct r as [|c r]; cbn in E; [discriminate|].
    destruct (c =? 47)%N; [discriminate|]. destruct (split_slash r); discriminate.
  - cbn [split_slash]. destruct (N.eqb_spec c 47) as [->|_]; [destruct Hw; left; reflexivity|].
    rewrite IH by (intro X; apply Hw; right; exact X). destruct (split_slash r); reflexivity.
Qed.
Lemma split_spelled : forall l, Forall component l -> split_slash (spelled_dir l) = [] :: l.
Proof.
  unfold spelled_dir. induction l as [|w l IH]; intro H; [reflexivity|]. inversion H as [|? ? H1 H2]; subst.
  cbn [map concat]. change ((47%N :: w) ++ ?x) with (47%N :: (w ++ x)). cbn [split_slash]. change (47 =? 47)%N with true. cbv iota.
  rewrite (split_component w H1), (IH H2). rewrite app_nil_r. reflexivity.
Qed.
Lemma join_rev_spelled : forall m, join_rev (rev m ++ [[]]) = spelled_dir m.
Proof.
  induction m as [|x m IH] using rev_ind; [reflexivity|]. rewrite rev_app_distr. cbn [rev app].
  unfold spelled_dir. rewrite map_app, concat_app. cbn [map concat]. rewrite app_nil_r.
  change (concat (map (fun w => 47%N :: w) m)) with (spelled_dir m). rewrite <- IH.
  cbn [join_rev]. destruct (rev m ++ [[]]) eqn:E; [destruct (rev m); discriminate|]. reflexivity.
Qed.
Lemma parents_spelled : forall m rule, Forall component m ->
  (In rule (parents (rev m ++ [[]])) <-> exists k, 0 < k <= length m /\ rule = escape (spelled_dir (firstn k m)) ++ B "$").
Proof.
  induction m as [|x m IH] using rev_ind; intros rule H.
  - cbn. split; [intros []|]. intros (k & Hk & _). lia.
  - apply Forall_app in H. destruct H as [Hm Hx]. inversion Hx as [|? ? Hx1 _]; subst. rewrite rev_app_distr. cbn [rev app].
    assert (E : parents (x :: rev m ++ [[]]) = (escape (join_rev (x :: rev m ++ [[]])) ++ B "$") :: parents (rev m ++ [[]])).
    { destruct x as [|c x]; [destruct Hx1 as [X _]; congruence|reflexivity]. }
    rewrite E. cbn [In]. rewrite (IH rule Hm), app_length. cbn [length].
    assert (J : join_rev (x :: rev m ++ [[]]) = spelled_dir (m ++ [x])).
    { rewrite <- join_rev_spelled, rev_app_distr. reflexivity. }
    rewrite J. split.
    + intros [<-|(k & Hk & ->)].
      * exists (length m + 1). split; [lia|]. rewrite firstn_all2; [reflexivity|]. rewrite app_length. cbn. lia.
      * exists k. split; [lia|]. rewrite firstn_app. replace (k - length m) with 0 by lia. cbn [firstn]. rewrite app_nil_r. reflexivity.
    + intros (k & Hk & ->). destruct (Nat.eq_dec k (length m + 1)) as [->|Nk].
      * left. rewrite firstn_all2; [reflexivity|]. rewrite app_length. cbn. lia.
      * right. exists k. split; [lia|]. rewrite firstn_app. replace (k - length m) with 0 by lia. cbn [firstn]. rewrite app_nil_r. reflexivity.
Qed.
Lemma spelled_in : forall c l k, In c (spelled_dir (firstn k l)) -> In c (spelled_dir l).
Proof.
  intros c l k H. unfold spelled_dir in *. apply in_concat in H. destruct H as (x & Hx & Hc).
  apply in_concat. exists x. split; [|exact Hc]. apply in_map_iff in Hx. destruct Hx as (w & <- & Hw).
  apply in_map_iff. exists w. split; [reflexivity|]. rewrite <- (firstn_skipn k l). apply in_app_iff. left. exact Hw.
Qed.
Lemma means_list : forall p (l : list (list N)) (P : list N -> list N -> Prop),
  (forall r, In r l -> rule_ok p r /\ forall path, covers p r path <-> P r path) ->
  means p l (fun path => exists r, In r l /\ P r path).
Proof.
  intros p l P H. split.
  - apply Forall_forall. intros r Hr. apply H. exact Hr.
  - intro path. split; intros (r & Hr & X); exists r; (split; [exact Hr|]); apply (proj2 (H r Hr)); exact X.
Qed.
Lemma ruby_rules : forall p pl, tame_place pl -> means p (ruby_fs pl)
  (fun path => (exists home, runtime_home pl = Some home /\ Spec.Access.below home path)
    \/ exists l k, runtime_home pl = Some (spelled_dir l) /\ 0 < k < length l /\ exactly (spelled_dir (firstn k l)) path /\ Forall component l).
Proof.
  intros p pl (_ & _ & _ & _ & _ & _ & T). unfold ruby_fs. destruct (runtime_home pl) as [home|].
  - destruct (T home eq_refl) as (B1 & B2 & l & -> & Hl). destruct (escape_rule p (spelled_dir l) B1 B2) as [O C].
    rewrite (split_spelled l Hl). eapply means_iff.
    { apply means_cons; [exact O|exact C|].
      apply (means_list p _ (fun r path => exists k, 0 < k < length l /\ r = escape (spelled_dir (firstn k l)) ++ B "$"
                                                    /\ exactly (spelled_dir (firstn k l)) path)).
      intros r Hr.
      assert (E : exists m, tl (rev ([] :: l)) = (match l with [] => [] | _ => rev m ++ [[]] end) /\ m = removelast l).
      { exists (removelast l). split; [|reflexivity]. destruct l as [|a l'] using rev_ind; [reflexivity|].
        rewrite removelast_last. cbn [rev]. rewrite rev_app_distr. destruct l'; reflexivity. }
      destruct E as (m & E & Em). rewrite E in Hr.
      destruct l as [|a l']; [destruct Hr|].
      assert (Lm : l' = [] \/ l' <> []) by (destruct l'; [left|right]; congruence).
      assert (Fm : Forall component m).
      { subst m. apply Forall_forall. intros x Hx. rewrite Forall_forall in Hl. apply Hl.
        rewrite (app_removelast_last (l := a :: l') [] ltac:(discriminate)). apply in_app_iff. left. exact Hx. }
      assert (Nm : length m = length l').
      { subst m. pose proof (f_equal (@length _) (app_removelast_last (l := a :: l') [] ltac:(discriminate))) as X.
        rewrite app_length in X. cbn [length] in X. cbn [length]. lia. }
      assert (Km : forall k, k <= length m -> firstn k m = firstn k (a :: l')).
      { intros k Hk. subst m. rewrite (app_removelast_last (l := a :: l') [] ltac:(discriminate)) at 2.
        rewrite firstn_app. replace (k - length (removelast (a :: l'))) with 0 by lia. cbn [firstn]. rewrite app_nil_r. reflexivity. }
      apply (parents_spelled m r Fm) in Hr. destruct Hr as (k & Hk & ->).
      assert (Bk : ~ In 123%N (spelled_dir (firstn k m)) /\ ~ In 125%N (spelled_dir (firstn k m))).
      { rewrite (Km k ltac:(lia)). split; intro X; apply spelled_in in X; tauto. }
      destruct (stands_end p _ (proj1 Bk) (proj2 Bk)) as [O2 C2]. split; [exact O2|]. intro path. rewrite C2. split.
      - intro X. exists k. rewrite <- (Km k ltac:(lia)). split; [cbn [length]; lia|]. auto.
      - intros (k' & Hk' & Er & X). cbn [length] in Hk'. rewrite <- (Km k' ltac:(lia)) in Er, X.
        assert (Q : spelled_dir (firstn k m) = spelled_dir (firstn k' m)); [|rewrite Q; exact X].
        apply app_inv_tail in Er. pose proof (tokens_escape (spelled_dir (firstn k m))) as T1.
        rewrite Er, tokens_escape in T1. injection T1 as T1.
        revert T1. clear. generalize (spelled_dir (firstn k m)) as u, (spelled_dir (firstn k' m)) as v.
        induction u as [|x u IH]; intros [|y v] E; cbn [map] in E; try discriminate; [reflexivity|].
        injection E as -> E. f_equal. apply IH. exact E. }
    intro path. cbv beta. split.
    + intros [H|(r & Hr & k & Hk & Er & X)]; [left; eauto|right]. exists l, k. auto.
    + intros [(home & E & H)|(l2 & k & E & Hk & X & F2)]; [left; congruence|right].
      assert (l2 = l).
      { pose proof (split_spelled l Hl) as S1. pose proof (split_spelled l2 F2) as S2.
        injection E as E. rewrite E in S1. congruence. }
      subst l2. exists (escape (spelled_dir (firstn k l)) ++ B "$"). split; [|exists k; auto].
      destruct l as [|a l' _] using rev_ind; [cbn in Hk; lia|]. rewrite app_length in Hk. cbn [length] in Hk.
      cbn [rev]. rewrite rev_app_distr. cbn [rev app tl]. 
      assert (Fm : Forall component l') by (apply Forall_app in Hl; apply Hl).
      apply (parents_spelled l' _ Fm). exists k. split; [lia|]. rewrite firstn_app.
      replace (k - length l') with 0 by lia. cbn [firstn]. rewrite app_nil_r. reflexivity.
  - eapply means_iff; [apply means_nil|]. intro path. split; [intros []|].
    intros [(h & E & _)|(l & k & E & _)]; discriminate.
Qed.

(** ** The rules of a language *)
Lemma in_dec_false : forall (c : N) l, existsb (N.eqb c) l = false -> ~ In c l.
Proof.
  intros c l H I. enough (existsb (N.eqb c) l = true) by congruence.
  apply existsb_exists. exists c. split; [exact I|apply N.eqb_refl].
Qed.
Lemma is_one_in : forall e l, is_one e l = true <-> In e l.
Proof.
  intros e l. unfold is_one. rewrite existsb_exists. split.
  - intros (x & H & E). apply String.eqb_eq in E. subst x. exact H.
  - intro H. exists e. split; [exact H|apply String.eqb_refl].
Qed.
Definition class_readable (e : string) (pl : FileRules.place) (p : list N) : Prop :=
  (e = "DART"%string /\ exists a, one_line a /\ exactly (a ++ B "/vm-service") p)
  \/ (e = "FORTH"%string /\ exactly (B "/.gforth-history") p)
  \/ (e = "PERL"%string /\ Spec.Access.below (B "/etc/perl/") p)
  \/ (e = "PHP"%string /\ exists a m, one_line a /\ Forall word_or_dash m /\ exactly (a ++ B "/php" ++ m ++ B ".ini") p)
  \/ (e = "PHP"%string /\ exists a c m, one_line a /\ c <> 10%N /\ one_line m
                                        /\ exactly (a ++ B "/conf" ++ [c] ++ B "d/" ++ m ++ B ".ini") p)
  \/ (e = "RKT"%string /\ (exists w, like (user_home pl) w /\ (Spec.Access.below (w ++ B "/.racket/") p \/ Spec.Access.below (w ++ B "/.local/share/racket/") p)))
  \/ (e = "RKT"%string /\ (Spec.Access.below (B "/etc/racket/") p \/ exactly (B "/etc/passwd") p))
  \/ (e = "RUBY2"%string /\ exactly (B "/proc/self/loginuid") p)
  \/ (e = "SWIFT"%string /\ Spec.Access.below (B "/lib") p)
  \/ (In e mono_languages /\ Spec.Access.below (B "/etc/mono/") p).
Ltac sift H := repeat (destruct H as [H|H]); destruct H as [H0 H];
  try discriminate H0; try (cbn in H0; decompose [or] H0; first [discriminate | contradiction]).
Lemma class_rules : forall p e pl, tame_place pl -> means p (class_fs e pl) (class_readable e pl).
Proof.
  intros p e pl T. unfold class_fs.
  destruct (is_one e ["DART"]%string) eqn:E1.
  { apply is_one_in in E1. destruct E1 as [<-|[]]. eapply means_iff; [apply dart_rule|]. intro path. unfold class_readable.
    split; [intro H; left; auto|]. intro H. sift H. exact H. }
  destruct (is_one e ["FORTH"]%string) eqn:E2.
  { apply is_one_in in E2. destruct E2 as [<-|[]]. eapply means_iff; [apply means_exact with (w := B "/.gforth-history"); reflexivity|]. intro path.
    unfold class_readable. split; [intro H; right; left; auto|]. intro H. sift H. exact H. }
  destruct (is_one e ["PERL"]%string) eqn:E3.
  { apply is_one_in in E3. destruct E3 as [<-|[]]. eapply means_iff; [apply means_dir with (w := B "/etc/perl/"); reflexivity|]. intro path.
    unfold class_readable. split; [intro H; do 2 right; left; auto|]. intro H. sift H. exact H. }
  destruct (is_one e ["PHP"]%string) eqn:E4.
  { apply is_one_in in E4. destruct E4 as [<-|[]]. eapply means_iff; [apply (means_app p [_] [_]); [apply php_rule|apply php_dir_rule]|]. intro path.
    unfold class_readable. cbv beta. split; [intros [H|H]; [do 3 right; left; auto|do 4 right; left; auto]|]. intro H. sift H; [left|right]; exact H. }
  destruct (is_one e ["RKT"]%string) eqn:E5.
  { apply is_one_in in E5. destruct E5 as [<-|[]]. destruct T as (_ & T & _).
    eapply means_iff.
    { apply (means_app p [_] [_; _; _]).
      { apply home_rule with (v := B "/.racket/"); [exact T|..]; [apply in_dec_false; reflexivity|apply in_dec_false; reflexivity|reflexivity]. }
      apply (means_app p [_] [_; _]).
      { apply home_rule with (v := B "/.local/share/racket/"); [exact T|..]; [apply in_dec_false; reflexivity|apply in_dec_false; reflexivity|reflexivity]. }
      apply (means_app p [_] [_]).
      { apply means_dir with (w := B "/etc/racket/"); reflexivity. }
      apply means_exact with (w := B "/etc/passwd"); reflexivity. }
    intro path. unfold class_readable. cbv beta. split.
    - intros [(x & L & H)|[(x & L & H)|[H|H]]].
      + do 5 right; left. split; [reflexivity|]. exists x. auto.
      + do 5 right; left. split; [reflexivity|]. exists x. auto.
      + do 6 right; left. auto.
      + do 6 right; left. auto.
    - intro H. sift H.
      + destruct H as (x & L & [H|H]); eauto.
      + destruct H as [H|H]; auto. }
  destruct (is_one e ["RUBY2"]%string) eqn:E6.
  { apply is_one_in in E6. destruct E6 as [<-|[]]. eapply means_iff; [apply means_exact with (w := B "/proc/self/loginuid"); reflexivity|]. intro path.
    unfold class_readable. split; [intro H; do 7 right; left; auto|]. intro H. sift H. exact H. }
  destruct (is_one e ["SWIFT"]%string) eqn:E7.
  { apply is_one_in in E7. destruct E7 as [<-|[]]. eapply means_iff; [apply means_below with (w := B "/lib"); reflexivity|]. intro path.
    unfold class_readable. split; [intro H; do 8 right; left; auto|]. intro H. sift H. exact H. }
  destruct (is_one e monos) eqn:E8.
  { apply is_one_in in E8. eapply means_iff; [apply means_below with (w := B "/etc/mono/"); reflexivity|]. intro path.
    unfold class_readable. split; [intro H; do 9 right; auto|]. intro H.
    repeat (destruct H as [H|H]); destruct H as [H0 H]; try exact H; subst e; cbn in E8; decompose [or] E8; first [discriminate|contradiction]. }
  eapply means_iff; [apply means_nil|]. intro path. split; [intros []|]. intro H.
  repeat (destruct H as [H|H]); destruct H as [H0 H]; try (subst e; discriminate).
  change (In e monos) in H0. apply is_one_in in H0. congruence.
Qed.

Definition when (b : bool) (l : list (list N)) : list (list N) := if b then l else [].
Lemma means_when : forall p (b : bool) l (C : Prop) (P : list N -> Prop), (b = true <-> C) -> (C -> means p l P) ->
  means p (if b then l else []) (fun path => C /\ P path).
Proof.
  intros p b l C P Hb H. destruct b.
  - assert (c : C) by (apply Hb; reflexivity). eapply means_iff; [apply (H c)|]. intro path. tauto.
  - eapply means_iff; [apply means_nil|]. intro path. split; [intros []|]. intros [c _]. apply Hb in c. discriminate.
Qed.
Lemma one_name : forall e n, is_one e [n] = true <-> e = n.
Proof. intros e n. rewrite is_one_in. cbn. intuition congruence. Qed.
Lemma commands_rules : forall p l, Forall (fun c => exists w, c = Some w /\ dotted w) l ->
  means p (map command_fs l) (fun path => exists w, In (Some w) l /\ begins_like w path).
Proof.
  intros p l H. induction H as [|c l (w & -> & D) _ IH].
  - eapply means_iff; [apply means_nil|]. intro path. split; [intros []|intros (w & [] & _)].
  - cbn [map command_fs]. eapply means_iff.
    { apply (means_app p [_] _ _ _ (path_rule p w D) IH). }
    intro path. cbv beta. split.
    + intros [H|(x & I & H)]; [exists w; split; [left; reflexivity|exact H]|exists x; split; [right; exact I|exact H]].
    + intros (x & [E|I] & H); [left; congruence|right; eauto].
Qed.
Lemma script_rules : forall p pl, tame_place pl -> means p (script_fs pl)
  (fun path => begins_like (code pl) path \/ exists home, runtime_home pl = Some home /\ Spec.Access.below home path).
Proof.
  intros p pl (Tc & _ & _ & _ & _ & _ & Th). unfold script_fs. apply (means_app p [_] _); [apply path_rule; exact Tc|].
  destruct (runtime_home pl) as [home|].
  - destruct (Th home eq_refl) as (B1 & B2 & _). destruct (escape_rule p home B1 B2) as [O C].
    apply means_one; [exact O|]. intro path. rewrite C. split; [eauto|]. intros (h & E & H). congruence.
  - eapply means_iff; [apply means_nil|]. intro path. split; [intros []|]. intros (h & E & _). discriminate.
Qed.
Lemma added_rules : forall p e pl, tame_place pl ->
  means p (added_fs e pl)
   (fun path => (In e script_languages /\ (begins_like (code pl) path \/ exists home, runtime_home pl = Some home /\ Spec.Access.below home path))
    \/ (e = "COFFEE"%string /\ (begins_like (tool pl) path \/ begins_like (code pl) path))
    \/ (e = "BASH"%string /\ exists w, In (Some w) (commands pl) /\ begins_like w path)
    \/ (e = "RUBY2"%string /\ ((exists home, runtime_home pl = Some home /\ Spec.Access.below home path)
         \/ exists l k, runtime_home pl = Some (spelled_dir l) /\ 0 < k < length l /\ exactly (spelled_dir (firstn k l)) path /\ Forall component l))
    \/ (e = "OBJC"%string /\ exists ds, ds <> [] /\ Forall (fun c => is_digit c = true) ds /\ exactly (B "/proc/" ++ ds ++ B "/cmdline") path)
    \/ (e = "TUR"%string /\ exists w, like (code pl) w /\ Spec.Access.below (w ++ B "bc") path)
    \/ ((In e assembly_languages /\ qemu pl = true) /\ (exactly (B "/proc/sys/vm/mmap_min_addr") path \/ Spec.Access.below (B "/etc/qemu-binfmt/") path \/ begins_like (program pl) path))
    \/ (In e jvm_languages /\ begins_like (tool pl) path)).
Proof.
  intros p e pl T. unfold added_fs. pose proof T as (Tc & Tu & Tt & Tp & _ & Tm & Th).
  apply means_app.
  { apply means_when; [apply is_one_in|]. intros _. apply script_rules; exact T. }
  apply means_app.
  { apply means_when; [apply one_name|]. intros _. apply (means_app p [_] [_]); apply path_rule; assumption. }
  apply means_app.
  { apply means_when; [apply one_name|]. intros _. apply commands_rules; assumption. }
  apply means_app.
  { apply means_when; [apply one_name|]. intros _. apply ruby_rules; assumption. }
  apply means_app.
  { apply means_when; [apply one_name|]. intros _. apply objc_rule. }
  apply means_app.
  { apply means_when; [apply one_name|]. intros _. apply home_rule; [exact Tc|apply in_dec_false; reflexivity|apply in_dec_false; reflexivity|reflexivity]. }
  apply means_app.
  { apply means_when; [change assembly_languages with assemblers; rewrite andb_true_iff, is_one_in; reflexivity|]. intros _.
    apply (means_app p [_] [_; _]); [apply means_exact with (w := B "/proc/sys/vm/mmap_min_addr"); reflexivity|].
    apply (means_app p [_] [_]); [apply means_below with (w := B "/etc/qemu-binfmt/"); reflexivity|]. apply path_rule. exact Tp. }
  apply means_when; [apply is_one_in|]. intros _. apply path_rule. exact Tt.
Qed.
Lemma language_rules : forall p e pl extra, tame_place pl -> Forall (rule_ok p) extra ->
  means p (language_fs e pl extra)
    (fun path => base_readable (decimal p) path \/ Spec.Access.below (directory pl) path \/ language_readable e pl path
       \/ exists rule, In rule extra /\ covers p rule path).
Proof.
  intros p e pl extra T He. destruct (class_rules p e pl T) as [Oc Cc]. pose proof T as (_ & _ & _ & _ & (D1 & D2) & _).
  unfold language_fs. eapply means_iff.
  { apply means_app; [|apply (added_rules p e pl T)]. split; [apply (get_fs_rules p _ _ _ D1 D2 Oc He)|].
    apply (get_fs_rules p _ _ _ D1 D2 Oc He). }
  intro path. cbv beta. 
  assert (S : (exists rule, In rule (class_fs e pl ++ extra) /\ covers p rule path)
              <-> class_readable e pl path \/ exists rule, In rule extra /\ covers p rule path).
  { rewrite <- Cc. split.
    - intros (r & I & X). apply in_app_iff in I. destruct I; [left|right]; eauto.
    - intros [(r & I & X)|(r & I & X)]; exists r; (split; [apply in_app_iff; tauto|exact X]). }
  rewrite S. clear S. unfold class_readable, language_readable.
  assert (C1 : e = "COFFEE"%string -> In e script_languages) by (intros ->; cbn; tauto).
  assert (C2 : e = "RUBY2"%string -> In e script_languages) by (intros ->; cbn; tauto).
  clear -C1 C2. tauto.
Qed.

(** ** What a program of a language may read and write *)
Lemma write_language_rules : forall p e pl, (In e jvm_languages -> dotted (directory pl)) ->
  means p (language_write_fs e pl)
    (fun path => (exists w, In w [B "/dev/stdout"; B "/dev/stderr"; B "/dev/null"] /\ exactly w path)
       \/ (In e jvm_languages /\ begins_like (directory pl ++ B "/submission_jvm_crash.log") path)).
Proof.
  intros p e pl D. unfold language_write_fs. apply means_app.
  - unfold get_write_fs. rewrite app_nil_r. destruct (write_rules p) as [O C]. split; assumption.
  - apply means_when; [apply is_one_in|]. intro J. apply path_rule. apply Forall_app. split; [apply D; exact J|].
    apply Forall_forall. intros c Hc. cbn in Hc. unfold plain.
    decompose [or] Hc; try contradiction; subst c; first [right; reflexivity|left; apply in_dec_false; reflexivity].
Qed.
Lemma language_reads : forall e pl extra d c path, tame_place pl -> (In e jvm_languages -> dotted (directory pl)) ->
  Forall (rule_ok (pid d)) extra ->
  file_call c = true -> wants_write d c = false -> path_of d c = Str path ->
  (fst (handle (language_tracer e pl extra) d c) = Run <->
   exists full, get_full_path (cwd d) (fds d) path (dir_of d c) = Some full
     /\ (base_readable (decimal (pid d)) full \/ Spec.Access.below (directory pl) full \/ language_readable e pl full
         \/ exists rule, In rule extra /\ covers (pid d) rule full)).
Proof.
  intros e pl extra d c path T D He Hc Hw Hp.
  destruct (language_rules (pid d) e pl extra T He) as [O1 C1]. destruct (write_language_rules (pid d) e pl D) as [O2 _].
  unfold language_tracer. rewrite (proj1 (file_call_spec _ _ d c Hc O1 O2)). rewrite Hw, Hp. split.
  - intros (s & full & rule & E1 & E2 & E3 & E4). injection E1 as <-. exists full. split; [exact E2|]. apply C1. eauto.
  - intros (full & E & X). apply C1 in X. destruct X as (rule & I & Y). exists path, full, rule. auto.
Qed.
Lemma language_writes : forall e pl extra d c path, tame_place pl -> (In e jvm_languages -> dotted (directory pl)) ->
  Forall (rule_ok (pid d)) extra ->
  file_call c = true -> wants_write d c = true -> path_of d c = Str path ->
  (fst (handle (language_tracer e pl extra) d c) = Run <->
   exists full, get_full_path (cwd d) (fds d) path (dir_of d c) = Some full
     /\ ((exists w, In w [B "/dev/stdout"; B "/dev/stderr"; B "/dev/null"] /\ exactly w full)
         \/ (In e jvm_languages /\ begins_like (directory pl ++ B "/submission_jvm_crash.log") full))).
Proof.
  intros e pl extra d c path T D He Hc Hw Hp.
  destruct (language_rules (pid d) e pl extra T He) as [O1 _]. destruct (write_language_rules (pid d) e pl D) as [O2 C2].
  unfold language_tracer. rewrite (proj1 (file_call_spec _ _ d c Hc O1 O2)). rewrite Hw, Hp. split.
  - intros (s & full & rule & E1 & E2 & E3 & E4). injection E1 as <-. exists full. split; [exact E2|]. apply C2. eauto.
  - intros (full & E & X). apply C2 in X. destruct X as (rule & I & Y). exists path, full, rule. auto.
Qed.
Lemma language_refused : forall e pl extra d c, tame_place pl -> (In e jvm_languages -> dotted (directory pl)) ->
  Forall (rule_ok (pid d)) extra -> file_call c = true ->
  fst (handle (language_tracer e pl extra) d c) = Run
  \/ fst (handle (language_tracer e pl extra) d c) = Fail ENOENT
  \/ (fst (handle (language_tracer e pl extra) d c) = Kill
      /\ exists path, path_of d c = Str path /\ get_full_path (cwd d) (fds d) path (dir_of d c) = None).
Proof.
  intros e pl extra d c T D He Hc.
  destruct (language_rules (pid d) e pl extra T He) as [O1 _]. destruct (write_language_rules (pid d) e pl D) as [O2 C2].
  unfold language_tracer. destruct (file_call_spec _ _ d c Hc O1 O2) as (_ & K & [H|[H|H]]); auto.
  right. right. split; [exact H|]. apply K. exact H.
Qed.
Lemma incl_In_string : forall a b, forallb (fun x => existsb (String.eqb x) b) a = true -> forall e : string, In e a -> In e b.
Proof.
  intros a b H e I. rewrite forallb_forall in H. specialize (H e I). apply existsb_exists in H.
  destruct H as (x & Hx & E). apply String.eqb_eq in E. subst x. exact Hx.
Qed.
Lemma plain_languages : forall e pl p, language_readable e pl p -> In e reading_more.
Proof.
  intros e pl p H. unfold language_readable in H.
  repeat (destruct H as [H|H]); destruct H as [H0 H]; try (subst e; cbn; tauto); revert H0; apply incl_In_string; reflexivity.
Qed.
Lemma like_self : forall w x, Forall plain w -> like w x -> x = w.
Proof.
  intros w x F L. induction L as [|a c w x H _ IH]; [reflexivity|]. inversion F as [|? ? F1 F2]; subst.
  destruct H as [->|[-> _]]; [f_equal; apply IH; exact F2|]. destruct F1. cbn. tauto.
Qed.
Lemma like_app : forall a b x, like (a ++ b) x -> exists y z, x = y ++ z /\ like a y /\ like b z.
Proof.
  intros a b x L. apply Forall2_app_inv_l in L. destruct L as (y & z & H1 & H2 & ->). eauto.
Qed.
Lemma code_inside : forall dir name p, Forall plain dir -> begins_like (dir ++ name) p -> Spec.Access.below dir p.
Proof.
  intros dir name p F (w & rest & L & ->). apply like_app in L. destruct L as (y & z & -> & L1 & _).
  apply like_self in L1; [|exact F]. subst y. exists (z ++ rest). symmetry. apply app_assoc.
Qed.
Lemma private_files : forall e pl w p, In w private -> Spec.Access.below w p -> language_readable e pl p ->
  In e ["DART"; "PHP"]%string
  \/ (e = "RKT"%string /\ (exactly (B "/etc/passwd") p \/ begins_like (user_home pl) p))
  \/ configured pl p.
Proof.
  intros e pl w p I (r & ->) H. unfold language_readable in H. unfold configured.
  destruct H as [H|[H|[H|[H|[H|[H|[H|[H|[H|[H|[H|[H|[H|[H|[H|[H|[H|[H|H]]]]]]]]]]]]]]]]]]; destruct H as [H0 H].
  - subst e. left. cbn. tauto.
  - exfalso. unfold private in I. cbn [In] in I. decompose [or] I; try contradiction; subst w; destruct H as [H|H]; discriminate H.
  - exfalso. destruct H as (q & H). unfold private in I. cbn [In] in I. decompose [or] I; try contradiction; subst w; discriminate H.
  - subst e. left. cbn. tauto.
  - subst e. left. cbn. tauto.
  - right. left. split; [exact H0|]. right. destruct H as (x & L & [(q & ->)|(q & ->)]); rewrite <- app_assoc; eexists x, _; split; [exact L|reflexivity|exact L|reflexivity].
  - right. left. split; [exact H0|]. destruct H as [(q & H)|H]; [exfalso|left; exact H].
    unfold private in I. cbn [In] in I. decompose [or] I; try contradiction; subst w; discriminate H.
  - exfalso. unfold private in I. cbn [In] in I. decompose [or] I; try contradiction; subst w; destruct H as [H|H]; discriminate H.
  - right. right. do 5 right. destruct H as (l & k & H1 & _ & H2 & _). exists l, k. auto.
  - exfalso. destruct H as (q & H). unfold private in I. cbn [In] in I. decompose [or] I; try contradiction; subst w; discriminate H.
  - exfalso. destruct H as (q & H). unfold private in I. cbn [In] in I. decompose [or] I; try contradiction; subst w; discriminate H.
  - exfalso. destruct H as (ds & _ & _ & H). unfold private in I. cbn [In] in I. decompose [or] I; try contradiction; subst w; destruct H as [H|H]; discriminate H.
  - right. right. left. exact H.
  - right. right. do 4 right. left. exact H.
  - right. right. right. left. exact H.
  - right. right. do 3 right. left. exact H.
  - right. right. left. destruct H as (x & L & q & ->). exists x, (B "bc" ++ q). split; [exact L|]. symmetry. apply app_assoc.
  - destruct H as (_ & [H|[H|H]]).
    + exfalso. unfold private in I. cbn [In] in I. decompose [or] I; try contradiction; subst w; destruct H as [H|H]; discriminate H.
    + exfalso. destruct H as (q & H). unfold private in I. cbn [In] in I. decompose [or] I; try contradiction; subst w; discriminate H.
    + right. right. right. right. left. exact H.
  - right. right. right. left. exact H.
Qed.
Lemma all_some_none : forall (A : Type) (l : list (option A)), In None l -> all_some l = None.
Proof.
  intros A l. induction l as [|[x|] l IH]; intro H; [destruct H| |reflexivity].
  destruct H as [H|H]; [discriminate|]. cbn [all_some]. rewrite (IH H). reflexivity.
Qed.
Lemma missing_command : forall pl extra d c path full, In None (commands pl) ->
  file_call c = true -> wants_write d c = false -> path_of d c = Str path ->
  get_full_path (cwd d) (fds d) path (dir_of d c) = Some full ->
  fst (handle (language_tracer "BASH" pl extra) d c) = Kill.
Proof.
  intros pl extra d c path full Hn Hc Hw Hp Hf. unfold language_tracer. rewrite handle_file_call by exact Hc. unfold file_access.
  rewrite Hp, Hf.
  change (is_write_flags (uarg d (if at_call c then 2 else 1))) with (is_write_flags (flags_of d c)).
  rewrite is_write_flags_spec. fold (wants_write d c).
  destruct (get_fs_jail_spec (fresh (language_fs "BASH" pl extra) (language_write_fs "BASH" pl)) (pid d) (wants_write d c) (fresh_ok _ _)) as (E1 & _).
  cbn [read_fs write_fs fresh] in E1. rewrite Hw in *.
  assert (J : jail_re (language_fs "BASH" pl extra) (pid d) = None).
  { unfold jail_re. destruct (language_fs "BASH" pl extra) as [|r0 l0] eqn:El; [discriminate El|]. rewrite <- El.
    rewrite all_some_none; [reflexivity|]. apply in_map_iff. exists (B "{"). split; [reflexivity|].
    unfold language_fs, added_fs. apply in_app_iff. right. apply in_app_iff. right. apply in_app_iff. right. apply in_app_iff. left.
    change (is_one "BASH" ["BASH"%string]) with true. cbv iota. apply in_map_iff. exists None. auto. }
  rewrite J in E1. destruct (get_fs_jail _ _ _) as [o t']. cbn [fst] in E1. subst o. reflexivity.
Qed.
Lemma characters : forall c, (c < 128)%N ->
  (is_digit c = true <-> 48 <= c <= 57)%N
  /\ (word_or_dash c <-> (48 <= c <= 57 \/ 65 <= c <= 90 \/ 97 <= c <= 122)%N \/ In c (B "_-")).
Proof.
  intros c H.
  assert (R : forall l, forallb (fun r => 128 <=? fst r)%N l = true -> in_ranges l c = false).
  { intros l Hl. unfold in_ranges. apply not_true_iff_false. intro X. apply existsb_exists in X. destruct X as (r & I & X).
    rewrite forallb_forall in Hl. specialize (Hl r I). rewrite andb_true_iff, !N.leb_le in *. lia. }
  split.
  - unfold is_digit. rewrite (R digit_ranges) by (vm_compute; reflexivity). rewrite orb_false_r, andb_true_iff, !N.leb_le. reflexivity.
  - unfold word_or_dash, is_word. rewrite (R word_ranges) by (vm_compute; reflexivity).
    rewrite orb_false_r, !orb_true_iff, !andb_true_iff, !N.leb_le, N.eqb_eq. cbn [In B]. cbn. lia.
Qed.
