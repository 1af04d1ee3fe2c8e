From Coq Require Import String QArith Lia.
From Verif Require Import Model.Bytes Model.Result Model.Testsuite Spec.Testsuite Proofs.BytesLemmas Proofs.Feedback.
Local Open Scope list_scope.
Local Open Scope nat_scope.

(** * Lists of pairs *)
Lemma find_last {K V} (p : K -> bool) (l : list (K * V)) v :
  option_map snd (find (fun kv => p (fst kv)) (rev l)) = Some v <-> last_for (fun k => p k = true) l v.
Proof.
  induction l as [|[k w] l IH] using rev_ind.
  - cbn. split; [discriminate|]. intros (a & k & b & E & _). destruct a; discriminate.
  - rewrite rev_app_distr. cbn. destruct (p k) eqn:Ek; cbn.
    + split.
      * intros [= ->]. exists l, k, []. repeat split; auto.
      * intros (a & k' & b & E & Hk & Hb). destruct b as [|x b _] using rev_ind.
        -- apply app_inj_tail in E. destruct E as [_ E]. congruence.
        -- change (a ++ (k', v) :: b ++ [x]) with (a ++ ((k', v) :: b) ++ [x]) in E. rewrite app_assoc in E.
           apply app_inj_tail in E. destruct E as [_ <-]. exfalso. apply (Hb k w); [apply in_or_app; right; left; reflexivity|exact Ek].
    + rewrite IH. split.
      * intros (a & k' & b & -> & Hk & Hb). exists a, k', (b ++ [(k, w)]). rewrite <- app_assoc. repeat split; auto.
        intros k2 v2 H. apply in_app_or in H. destruct H as [H|[[= <- <-]|[]]]; [apply (Hb _ _ H)|congruence].
      * intros (a & k' & b & E & Hk & Hb). destruct b as [|x b _] using rev_ind.
        -- apply app_inj_tail in E. destruct E as [_ E]. congruence.
        -- change (a ++ (k', v) :: b ++ [x]) with (a ++ ((k', v) :: b) ++ [x]) in E. rewrite app_assoc in E.
           apply app_inj_tail in E. destruct E as [-> <-]. exists a, k', b. repeat split; auto.
           intros k2 v2 H. apply (Hb k2 v2). apply in_or_app. auto.
Qed.
Lemma find_none_pairs {K V} (p : K -> bool) (l : list (K * V)) :
  option_map snd (find (fun kv => p (fst kv)) (rev l)) = None <-> forall k v, In (k, v) l -> p k = false.
Proof.
  split.
  - intros H k v Hi. destruct (find _ (rev l)) eqn:E; [discriminate|].
    apply (find_none _ _ E (k, v)). apply in_rev. rewrite rev_involutive. exact Hi.
  - intros H. destruct (find _ (rev l)) as [[k v]|] eqn:E; [|reflexivity].
    apply find_some in E. destruct E as [Hi Hp]. cbn in Hp. rewrite (H k v) in Hp; [discriminate|]. apply in_rev. exact Hi.
Qed.
Lemma last_for_ext {K V} (p q : K -> Prop) (l : list (K * V)) v : (forall k, p k <-> q k) -> last_for p l v <-> last_for q l v.
Proof.
  intros H. split; intros (a & k & b & E & Hk & Hb); exists a, k, b; (split; [exact E|]); (split; [apply H, Hk|]);
    intros k' v' Hi Hq; apply (Hb k' v' Hi), H, Hq.
Qed.
Lemma key_setting d k y : key (rev (settings d)) k = Some y <-> setting d k y.
Proof.
  unfold key, setting. rewrite (find_last (fun x => beqb x k)). apply last_for_ext. intros k'. rewrite beqb_eq. split; auto.
Qed.
Lemma key_none d k : key (rev (settings d)) k = None <-> forall v, ~ In (k, v) (settings d).
Proof.
  unfold key. rewrite (find_none_pairs (fun x => beqb x k)). split.
  - intros H v Hi. specialize (H _ _ Hi). assert (beqb k k = true) by (apply beqb_eq; reflexivity). congruence.
  - intros H k' v Hi. destruct (beqb k' k) eqn:E; [|reflexivity]. apply beqb_eq in E. subst. destruct (H v Hi).
Qed.
Lemma key_or_setting d k def y : key_or (rev (settings d)) k def = y <-> setting_or d k def y.
Proof.
  unfold key_or, setting_or. rewrite <- key_setting, <- key_none. destruct (key _ k) as [v|]; split.
  - intros ->. auto.
  - intros [E|[E _]]; [congruence|discriminate].
  - intros <-. auto.
  - intros [E|[_ ->]]; [discriminate|reflexivity].
Qed.
Lemma key_or_self d k def : setting_or d k def (key_or (rev (settings d)) k def).
Proof. apply key_or_setting. reflexivity. Qed.
Lemma setting_or_fun d k def y y' : setting_or d k def y -> setting_or d k def y' -> y = y'.
Proof. rewrite <- !key_or_setting. congruence. Qed.
Lemma need_setting d k y : need (rev (settings d)) k = Ok y <-> setting d k y.
Proof. unfold need. rewrite <- key_setting. destruct (key _ k); split; congruence. Qed.

Lemma read_config_ok fs : forall c c',
  read_config fs c = Ok c' <-> ~ In Broken fs /\ c' = rev (concat (map (fun f => match f with Loaded l => l | _ => [] end) fs)) ++ c.
Proof.
  induction fs as [|[| |l] fs IH]; intros c c'; cbn [read_config map concat].
  - cbn. split; [intros [= ->]; tauto|]. intros [_ ->]. reflexivity.
  - rewrite IH. cbn. intuition congruence.
  - split; [discriminate|]. intros [H _]. destruct H. left. reflexivity.
  - rewrite IH. unfold update. rewrite rev_app_distr, <- app_assoc. cbn. intuition congruence.
Qed.
Lemma read_config_settings d c : read_config (files d) [] = Ok c <-> ~ In Broken (files d) /\ c = rev (settings d).
Proof. rewrite read_config_ok, app_nil_r. reflexivity. Qed.

(** * Parsing expectations *)
Lemma in_set_iff x l : in_set x l = true <-> In x l.
Proof.
  unfold in_set. rewrite existsb_exists. split.
  - intros (y & Hy & E). apply beqb_eq in E. subst. exact Hy.
  - intros H. exists x. split; [exact H|]. apply beqb_eq. reflexivity.
Qed.
Lemma all_ok_map {A C} (f : A -> outcome C) l t : all_ok (map f l) = Ok t <-> Forall2 (fun x a => f x = Ok a) l t.
Proof.
  revert t. induction l as [|x l IH]; intros t; cbn.
  - split; [intros [= <-]; constructor|]. intros H. inversion H. reflexivity.
  - destruct (f x) as [a|] eqn:E; cbn.
    + destruct (all_ok (map f l)) as [t'|] eqn:E'.
      * split.
        -- intros [= <-]. constructor; [exact E|]. apply IH. reflexivity.
        -- intros H. inversion H as [|x' a' l' t2 Hx Ht]; subst. apply IH in Ht. congruence.
      * split; [discriminate|]. intros H. inversion H as [|x' a' l' t2 Hx Ht]; subst. apply IH in Ht. discriminate.
    + split; [discriminate|]. intros H. inversion H; congruence.
Qed.
Lemma Forall2_ex {A C} (R : A -> C -> Prop) l : (exists t, Forall2 R l t) <-> Forall (fun x => exists a, R x a) l.
Proof.
  induction l as [|x l IH]; split.
  - constructor.
  - intros _. exists []. constructor.
  - intros [t H]. inversion H; subst. constructor; [eauto|]. apply IH. eauto.
  - intros H. inversion H as [|? ? [a Ha] Hl]; subst. apply IH in Hl. destruct Hl as [t Ht]. exists (a :: t). constructor; auto.
Qed.
Lemma iterate_elements y l : iterate y = Ok l <-> elements y l.
Proof.
  unfold elements. destruct y; cbn; split; try discriminate.
  all: try (intros [E|(m & E & _)]; discriminate).
  - intros [= ->]. auto.
  - intros [[= ->]|(m & E & _)]; [reflexivity|discriminate].
  - intros [= <-]. eauto.
  - intros [E|(m & [= <-] & ->)]; [discriminate|reflexivity].
Qed.
Lemma elements_fun y l l' : elements y l -> elements y l' -> l = l'.
Proof. rewrite <- !iterate_elements. congruence. Qed.
Lemma str_no_elements s l : ~ elements (YStr s) l.
Proof. rewrite <- iterate_elements. discriminate. Qed.

Lemma star_spec s : (if beqb s (B "*") then s = B "*" else s <> B "*").
Proof. destruct (beqb s (B "*")) eqn:E; [apply beqb_eq, E|]. intros ->. vm_compute in E. discriminate. Qed.

Definition code_elem (x : yaml) : outcome bytes := match x with YStr s => if in_set s all_codes then Ok s else Raised | _ => Raised end.
Lemma code_elem_ok x s : code_elem x = Ok s <-> x = YStr s /\ In s the_codes.
Proof.
  unfold code_elem. destruct x; try (split; [discriminate|]; intros [E _]; discriminate).
  change the_codes with all_codes. rewrite <- in_set_iff. destruct (in_set s0 all_codes) eqn:E; split.
  - intros [= <-]. auto.
  - intros [[= ->] _]. reflexivity.
  - discriminate.
  - intros [[= ->] H]. congruence.
Qed.
Lemma codes_nonstr y : (forall s, y <> YStr s) -> parse_expected_codes y = bind (iterate y) (fun l => all_ok (map code_elem l)).
Proof. intros H. destruct y; try reflexivity. destruct (H s). reflexivity. Qed.
Lemma yaml_str_dec y : (exists s, y = YStr s) \/ forall s, y <> YStr s.
Proof. destruct y; try (right; congruence). left. eauto. Qed.
Lemma codes_ok y l n : parse_expected_codes y = Ok l -> (in_set n l = true <-> code_allowed y n).
Proof.
  intros H. rewrite in_set_iff. unfold code_allowed. destruct (yaml_str_dec y) as [[s ->]|Hy].
  - unfold parse_expected_codes in H. pose proof (star_spec s) as Hs. destruct (beqb s (B "*")).
    + injection H as <-. subst s. change the_codes with all_codes. tauto.
    + destruct (in_set s all_codes) eqn:E; [|discriminate]. injection H as <-. apply in_set_iff in E. cbn. split.
      * intros [<-|[]]. split; [exact E|]. auto.
      * intros [_ [[= ->]|[[= ->]|(l & Hl & _)]]]; [contradiction|auto|destruct (str_no_elements _ _ Hl)].
  - rewrite (codes_nonstr y Hy) in H. unfold bind in H. destruct (iterate y) as [ys|] eqn:E; [|discriminate].
    apply iterate_elements in E. apply all_ok_map in H. split.
    + intros Hn. assert (exists x, In x ys /\ code_elem x = Ok n) as (x & Hx & Ex).
      { clear - H Hn. induction H as [|x a ys l Hx Hr IH]; [destruct Hn|]. destruct Hn as [<-|Hn]; [exists x; split; [left; reflexivity|exact Hx]|].
        destruct (IH Hn) as (x' & Hi & He). exists x'. split; [right; exact Hi|exact He]. }
      apply code_elem_ok in Ex. destruct Ex as [-> Hc]. split; [exact Hc|]. right; right. exists ys. auto.
    + intros [Hc [->|[->|(ys' & He & Hi)]]]; [destruct (Hy _ eq_refl)|destruct (Hy _ eq_refl)|].
      rewrite (elements_fun _ _ _ He E) in Hi. clear - H Hi Hc.
      induction H as [|x a ys l Hx Hr IH]; [destruct Hi|]. destruct Hi as [->|Hi]; [left|right; auto].
      apply code_elem_ok in Hx. destruct Hx as [[= ->] _]. reflexivity.
Qed.
Lemma codes_valid_iff y : (exists l, parse_expected_codes y = Ok l) <-> codes_valid y.
Proof.
  unfold codes_valid. destruct (yaml_str_dec y) as [[s ->]|Hy].
  - unfold parse_expected_codes. pose proof (star_spec s) as Hs. destruct (beqb s (B "*")).
    + subst s. split; eauto.
    + destruct (in_set s all_codes) eqn:E; split.
      * intros _. right; left. exists s. split; [reflexivity|]. apply in_set_iff, E.
      * eauto.
      * intros [l H]. discriminate.
      * intros [[= ->]|[(s' & [= ->] & Hi)|(l & Hl & _)]]; [contradiction| |destruct (str_no_elements _ _ Hl)].
        apply in_set_iff in Hi. change all_codes with the_codes in E. congruence.
  - rewrite (codes_nonstr y Hy). unfold bind. destruct (iterate y) as [ys|] eqn:E.
    + apply iterate_elements in E. assert ((exists l, all_ok (map code_elem ys) = Ok l) <-> exists l, Forall2 (fun x a => code_elem x = Ok a) ys l) as ->.
      { split; intros [l H]; exists l; apply all_ok_map, H. }
      rewrite Forall2_ex. split.
      * intros H. right; right. exists ys. split; [exact E|]. eapply Forall_impl; [|exact H]. intros x [s Hs]. exists s. apply code_elem_ok, Hs.
      * intros [->|[(s & -> & _)|(l & Hl & H)]]; [destruct (Hy _ eq_refl)|destruct (Hy _ eq_refl)|].
        rewrite (elements_fun _ _ _ Hl E) in H. eapply Forall_impl; [|exact H]. intros x [s Hs]. exists s. apply code_elem_ok, Hs.
    + split; [intros [l H]; discriminate|]. intros [->|[(s & -> & _)|(l & Hl & H)]]; [destruct (Hy _ eq_refl)|destruct (Hy _ eq_refl)|].
      apply iterate_elements in Hl. congruence.
Qed.

Definition text_elem (x : yaml) : outcome bytes := match x with YStr s => Ok s | _ => Raised end.
Lemma text_elem_ok x s : text_elem x = Ok s <-> x = YStr s.
Proof. destruct x; cbn; split; congruence. Qed.
Lemma feedback_other y : (forall s, y <> YStr s) -> y <> YNull ->
  parse_feedback y = bind (iterate y) (fun l => bind (all_ok (map text_elem l)) (fun ss => Ok (Some ss))).
Proof. intros H H'. destruct y; try reflexivity; [contradiction|]. destruct (H s). reflexivity. Qed.
Lemma yaml_kind y : y = YNull \/ (exists s, y = YStr s) \/ ((forall s, y <> YStr s) /\ y <> YNull).
Proof. destruct y; try (right; right; split; congruence); auto. right; left. eauto. Qed.
Lemma anything_str s : anything (YStr s) <-> s = B "*".
Proof. unfold anything. split; [intros [E|E]; congruence|]. intros ->. auto. Qed.
Lemma not_anything y : (forall s, y <> YStr s) -> y <> YNull -> ~ anything y.
Proof. intros H H' [->| ->]; [contradiction|]. destruct (H _ eq_refl). Qed.
Lemma feedback_none y : parse_feedback y = Ok None -> anything y.
Proof.
  destruct (yaml_kind y) as [->|[[s ->]|[Hy Hn]]].
  - left. reflexivity.
  - unfold parse_feedback. pose proof (star_spec s) as Hs. destruct (beqb s (B "*")); [intros _; apply anything_str, Hs|discriminate].
  - rewrite (feedback_other y Hy Hn). unfold bind. destruct (iterate y); [|discriminate]. destruct (all_ok _); discriminate.
Qed.
Lemma feedback_some y l : parse_feedback y = Ok (Some l) ->
  ~ anything y /\ (forall f, in_set f l = true <-> feedback_allowed y f) /\ (l = [] <-> elements y []).
Proof.
  unfold feedback_allowed. destruct (yaml_kind y) as [->|[[s ->]|[Hy Hn]]]; [discriminate| |].
  - unfold parse_feedback. pose proof (star_spec s) as Hs. destruct (beqb s (B "*")); [discriminate|]. intros [= <-].
    assert (~ anything (YStr s)) by (rewrite anything_str; exact Hs). split; [exact H|]. split.
    + intros f. change ((beqb f s || false)%bool = true <-> anything (YStr s) \/ YStr s = YStr f \/ (exists l, elements (YStr s) l /\ In (YStr f) l)).
      rewrite orb_false_r, beqb_eq. split; [intros ->; auto|]. intros [C|[[= ->]|(l & C & _)]]; [contradiction|reflexivity|destruct (str_no_elements _ _ C)].
    + split; [discriminate|]. intros C. destruct (str_no_elements _ _ C).
  - rewrite (feedback_other y Hy Hn). unfold bind. destruct (iterate y) as [ys|] eqn:E; [|discriminate].
    destruct (all_ok (map text_elem ys)) as [ss|] eqn:F; [|discriminate]. intros [= <-].
    apply iterate_elements in E. apply all_ok_map in F. pose proof (not_anything y Hy Hn) as Ha.
    assert (ys = map YStr ss) as ->.
    { clear - F. induction F as [|x a ys ss Hx Hr IH]; [reflexivity|]. apply text_elem_ok in Hx. subst. reflexivity. }
    split; [exact Ha|]. split.
    + intros f. rewrite in_set_iff. split.
      * intros H. right; right. exists (map YStr ss). split; [exact E|]. apply in_map, H.
      * intros [C|[->|(ys' & He & Hi)]]; [contradiction|destruct (Hy _ eq_refl)|].
        rewrite (elements_fun _ _ _ He E) in Hi. apply in_map_iff in Hi. destruct Hi as (x & [= ->] & Hi). exact Hi.
    + split.
      * intros ->. exact E.
      * intros C. pose proof (elements_fun _ _ _ C E) as Q. destruct ss; [reflexivity|discriminate].
Qed.
Lemma feedback_valid_iff y : (exists l, parse_feedback y = Ok l) <-> feedback_valid y.
Proof.
  unfold feedback_valid. destruct (yaml_kind y) as [->|[[s ->]|[Hy Hn]]].
  - split; [intros _; left; left; reflexivity|cbn; eauto].
  - unfold parse_feedback. split; [eauto|]. intros _. destruct (beqb s (B "*")); eauto.
  - rewrite (feedback_other y Hy Hn). pose proof (not_anything y Hy Hn) as Ha. unfold bind. destruct (iterate y) as [ys|] eqn:E.
    + apply iterate_elements in E. split.
      * intros [l H]. destruct (all_ok (map text_elem ys)) as [ss|] eqn:F; [|discriminate]. right; right. exists ys. split; [exact E|].
        apply all_ok_map in F. assert (exists t, Forall2 (fun x a => text_elem x = Ok a) ys t) as G by eauto. apply Forall2_ex in G.
        eapply Forall_impl; [|exact G]. intros x [a Hx]. exists a. apply text_elem_ok, Hx.
      * intros [C|[[s ->]|(ys' & He & H)]]; [contradiction|destruct (Hy _ eq_refl)|]. rewrite (elements_fun _ _ _ He E) in H.
        assert (Forall (fun x => exists a, text_elem x = Ok a) ys) as G.
        { eapply Forall_impl; [|exact H]. intros x [s ->]. exists s. reflexivity. }
        apply Forall2_ex in G. destruct G as [t G]. apply all_ok_map in G. rewrite G. eauto.
    + split; [intros [l H]; discriminate|]. intros [C|[[s ->]|(ys' & He & H)]]; [contradiction|destruct (Hy _ eq_refl)|].
      apply iterate_elements in He. congruence.
Qed.

Section Ints.
  Variable parse_int : bytes -> option Z.
  Lemma to_int_number y z : to_int parse_int y = Ok z <-> number parse_int y z.
  Proof.
    unfold number. split.
    - destruct y as [|b|z'|s| |]; cbn; try discriminate.
      + destruct b; intros [= <-]; auto.
      + intros [= ->]. auto.
      + destruct (parse_int s) eqn:E; [|discriminate]. intros [= ->]. right; right; right. eauto.
    - intros [->|[[-> ->]|[[-> ->]|(s & -> & E)]]]; cbn; [reflexivity|reflexivity|reflexivity|]. rewrite E. reflexivity.
  Qed.
  Definition simple (y : yaml) : Prop := (exists s, y = YStr s) \/ (exists z, y = YInt z) \/ exists b, y = YBool b.
  Lemma points_simple y : simple y -> ~ anything y -> parse_points parse_int y = bind (to_int parse_int y) (fun z => Ok (Some [z])).
  Proof.
    intros [[s ->]|[[z ->]|[b ->]]] H; try reflexivity. unfold parse_points.
    pose proof (star_spec s) as Hs. destruct (beqb s (B "*")); [|reflexivity]. destruct H. apply anything_str, Hs.
  Qed.
  Lemma points_other y : ~ simple y -> y <> YNull ->
    parse_points parse_int y = bind (iterate y) (fun l => bind (all_ok (map (to_int parse_int) l)) (fun zs => Ok (Some zs))).
  Proof.
    unfold simple. intros H Hn. destruct y; try reflexivity; try contradiction; destruct H; eauto.
  Qed.
  Lemma points_anything y : anything y -> parse_points parse_int y = Ok None.
  Proof. intros [->| ->]; [reflexivity|]. vm_compute. reflexivity. Qed.
  Lemma anything_dec y : anything y \/ ~ anything y.
  Proof.
    destruct (yaml_kind y) as [->|[[s ->]|[Hy Hn]]]; [left; left; reflexivity| |right; apply not_anything; assumption].
    rewrite anything_str. pose proof (star_spec s) as Hs. destruct (beqb s (B "*")); auto.
  Qed.
  Lemma simple_dec y : simple y \/ ~ simple y.
  Proof.
    unfold simple. destruct y; eauto 6; right; intros [[? E]|[[? E]|[? E]]]; discriminate.
  Qed.
  Lemma simple_no_elements y l : simple y -> ~ elements y l.
  Proof. intros [[s ->]|[[z ->]|[b ->]]] H; apply iterate_elements in H; discriminate. Qed.
  Lemma not_simple_number y z : ~ simple y -> ~ number parse_int y z.
  Proof. unfold simple. intros H [->|[[-> _]|[[-> _]|(s & -> & _)]]]; apply H; eauto. Qed.
  Lemma points_in_iff p l : points_in p l = true <-> exists z, In z l /\ (p == inject_Z z)%Q.
  Proof.
    unfold points_in. rewrite existsb_exists. split; intros (z & Hz & E); exists z; (split; [exact Hz|]); apply Qeq_bool_iff, E.
  Qed.
  Lemma points_none y : parse_points parse_int y = Ok None -> anything y.
  Proof.
    intros H. destruct (anything_dec y) as [Ha|Ha]; [exact Ha|]. exfalso.
    destruct (simple_dec y) as [Hs|Hs].
    - rewrite (points_simple y Hs Ha) in H. unfold bind in H. destruct (to_int _ y); discriminate.
    - rewrite (points_other y Hs) in H by (intros ->; apply Ha; left; reflexivity). unfold bind in H.
      destruct (iterate y); [|discriminate]. destruct (all_ok _); discriminate.
  Qed.
  Lemma points_some y l : parse_points parse_int y = Ok (Some l) ->
    ~ anything y /\ forall p, points_in p l = true <-> points_allowed parse_int y p.
  Proof.
    intros H. destruct (anything_dec y) as [Ha|Ha]; [rewrite (points_anything y Ha) in H; discriminate|].
    split; [exact Ha|]. intros p. rewrite points_in_iff. unfold points_allowed. destruct (simple_dec y) as [Hs|Hs].
    - rewrite (points_simple y Hs Ha) in H. unfold bind in H. destruct (to_int _ y) as [z|] eqn:E; [|discriminate]. injection H as <-.
      apply to_int_number in E. split.
      + intros (z' & [<-|[]] & Hp). right; left. eauto.
      + intros [C|[(z' & Hz & Hp)|(l & _ & _ & C & _)]]; [contradiction| |destruct (simple_no_elements _ _ Hs C)].
        apply to_int_number in E, Hz. rewrite E in Hz. injection Hz as <-. exists z. split; [left; reflexivity|exact Hp].
    - rewrite (points_other y Hs) in H by (intros ->; apply Ha; left; reflexivity). unfold bind in H.
      destruct (iterate y) as [ys|] eqn:E; [|discriminate]. destruct (all_ok (map (to_int parse_int) ys)) as [zs|] eqn:F; [|discriminate].
      injection H as <-. apply iterate_elements in E. apply all_ok_map in F. split.
      + intros (z & Hz & Hp). assert (exists x, In x ys /\ to_int parse_int x = Ok z) as (x & Hx & Ex).
        { clear - F Hz. induction F as [|x a ys l Hx Hr IH]; [destruct Hz|]. destruct Hz as [<-|Hz]; [exists x; split; [left; reflexivity|exact Hx]|].
          destruct (IH Hz) as (x' & Hi & He). exists x'. split; [right; exact Hi|exact He]. }
        right; right. exists ys, x, z. repeat split; try assumption. apply to_int_number, Ex.
      + intros [C|[(z & Hz & _)|(ys' & x & z & He & Hi & Hz & Hp)]]; [contradiction|destruct (not_simple_number _ _ Hs Hz)|].
        rewrite (elements_fun _ _ _ He E) in Hi. exists z. split; [|exact Hp]. apply to_int_number in Hz. clear - F Hi Hz.
        induction F as [|x' a ys l Hx Hr IH]; [destruct Hi|]. destruct Hi as [->|Hi]; [left; congruence|right; auto].
  Qed.
  Lemma points_valid_iff y : (exists l, parse_points parse_int y = Ok l) <-> points_valid parse_int y.
  Proof.
    unfold points_valid. destruct (anything_dec y) as [Ha|Ha]; [rewrite (points_anything y Ha); split; eauto|].
    destruct (simple_dec y) as [Hs|Hs].
    - rewrite (points_simple y Hs Ha). unfold bind. split.
      + intros [l H]. destruct (to_int _ y) as [z|] eqn:E; [|discriminate]. right; left. exists z. apply to_int_number, E.
      + intros [C|[[z Hz]|(l & C & _)]]; [contradiction| |destruct (simple_no_elements _ _ Hs C)]. apply to_int_number in Hz. rewrite Hz. eauto.
    - rewrite (points_other y Hs) by (intros ->; apply Ha; left; reflexivity). unfold bind. destruct (iterate y) as [ys|] eqn:E.
      + apply iterate_elements in E. split.
        * intros [l H]. destruct (all_ok (map (to_int parse_int) ys)) as [ss|] eqn:F; [|discriminate]. right; right. exists ys. split; [exact E|].
          apply all_ok_map in F. assert (exists t, Forall2 (fun x a => to_int parse_int x = Ok a) ys t) as G by eauto. apply Forall2_ex in G.
          eapply Forall_impl; [|exact G]. intros x [a Hx]. exists a. apply to_int_number, Hx.
        * intros [C|[[z C]|(ys' & He & H)]]; [contradiction|destruct (not_simple_number _ _ Hs C)|]. rewrite (elements_fun _ _ _ He E) in H.
          assert (Forall (fun x => exists a, to_int parse_int x = Ok a) ys) as G.
          { eapply Forall_impl; [|exact H]. intros x [s Hx]. exists s. apply to_int_number, Hx. }
          apply Forall2_ex in G. destruct G as [t G]. apply all_ok_map in G. rewrite G. eauto.
      + split; [intros [l H]; discriminate|]. intros [C|[[z C]|(ys' & He & H)]]; [contradiction|destruct (not_simple_number _ _ Hs C)|].
        apply iterate_elements in He. congruence.
  Qed.
End Ints.

(** * Expectations for single cases *)
Definition raw (cases : yaml) : option (list (yaml * yaml)) :=
  match cases with YList l => Some (enumerate 1 l) | YMap l => Some l | _ => None end.
Definition at_position (pos : Z) (k : yaml) : bool := match as_position k with Some z => (z =? pos)%Z | None => false end.
Lemma at_position_iff pos k : at_position pos k = true <-> is_position pos k.
Proof.
  unfold at_position, is_position. destruct k as [|b|z| | |]; cbn; try (split; [discriminate|]; intros [E|[[E _]|[E _]]]; discriminate).
  - destruct b; rewrite Z.eqb_eq; split; [intros <-; auto|intros [E|[[E ->]|[E _]]]; congruence|intros <-; auto|intros [E|[[E _]|[E ->]]]; congruence].
  - rewrite Z.eqb_eq. split; [intros ->; auto|intros [E|[[E _]|[E _]]]; congruence].
Qed.
Lemma lookup_cons {A} pos k (v : A) l :
  lookup pos ((k, v) :: l) = match lookup pos l with Some a => Some a | None => if at_position pos k then Some v else None end.
Proof.
  unfold lookup. cbn [rev]. change (fun kv : yaml * A => match as_position (fst kv) with Some z => (z =? pos)%Z | None => false end)
    with (fun kv : yaml * A => at_position pos (fst kv)).
  induction (rev l) as [|[k' v'] r IH]; cbn.
  - destruct (at_position pos k); reflexivity.
  - destruct (at_position pos k'); [reflexivity|exact IH].
Qed.
Lemma lookup_enumerate {A} pos (l : list A) : forall s y,
  lookup pos (enumerate s l) = Some y <-> (s <= pos)%Z /\ nth_error l (Z.to_nat (pos - s)) = Some y.
Proof.
  induction l as [|x l IH]; intros s y.
  - cbn. split; [discriminate|]. intros [_ H]. destruct (Z.to_nat (pos - s)); discriminate.
  - cbn [enumerate]. rewrite lookup_cons. destruct (lookup pos (enumerate (s + 1) l)) as [a|] eqn:E.
    + apply IH in E. destruct E as [Hp Hn]. replace (Z.to_nat (pos - s)) with (S (Z.to_nat (pos - (s + 1)))) by lia. cbn. rewrite Hn.
      split; [intros H; split; [lia|exact H]|]. intros [_ H]. exact H.
    + unfold at_position, as_position. destruct (s =? pos)%Z eqn:F.
      * apply Z.eqb_eq in F. subst. rewrite Z.sub_diag. cbn. split; [intros [= ->]; split; [lia|reflexivity]|]. intros [_ H]. exact H.
      * apply Z.eqb_neq in F. split; [discriminate|]. intros [Hp Hn]. exfalso.
        replace (Z.to_nat (pos - s)) with (S (Z.to_nat (pos - (s + 1)))) in Hn by lia. cbn in Hn.
        assert (lookup pos (enumerate (s + 1) l) = Some y) by (apply IH; split; [lia|exact Hn]). congruence.
Qed.
Lemma lookup_last {A} pos (l : list (yaml * A)) y : lookup pos l = Some y <-> last_for (is_position pos) l y.
Proof.
  unfold lookup. change (fun kv : yaml * A => match as_position (fst kv) with Some z => (z =? pos)%Z | None => false end)
    with (fun kv : yaml * A => at_position pos (fst kv)).
  rewrite find_last. apply last_for_ext. apply at_position_iff.
Qed.
Lemma raw_lookup cases l pos y : raw cases = Some l -> (lookup pos l = Some y <-> for_case cases pos y).
Proof.
  unfold raw, for_case. destruct cases; try discriminate; intros [= <-].
  - rewrite lookup_enumerate. split; [intros [Hp Hn]; left; eauto|]. intros [(l' & [= <-] & H)|(l' & E & _)]; [exact H|discriminate].
  - rewrite lookup_last. split; [intros H; right; eauto|]. intros [(l' & E & _)|(l' & [= <-] & H)]; [discriminate|exact H].
Qed.
Lemma in_enumerate {A} (l : list A) : forall s y, (exists k, In (k, y) (enumerate s l)) <-> In y l.
Proof.
  induction l as [|x l IH]; intros s y; cbn; [split; [intros [k []]|intros []]|]. split.
  - intros [k [[= _ ->]|H]]; [auto|]. right. apply (IH (s + 1)%Z). eauto.
  - intros [->|H]; [eauto|]. apply (IH (s + 1)%Z) in H. destruct H as [k H]. eauto.
Qed.
Lemma raw_in cases l y : raw cases = Some l -> ((exists k, In (k, y) l) <-> of_case cases y).
Proof.
  unfold raw, of_case. destruct cases; try discriminate; intros [= <-].
  - rewrite in_enumerate. split; [intros H; left; eauto|]. intros [(l' & [= <-] & H)|(l' & k & E & _)]; [exact H|discriminate].
  - split; [intros [k H]; right; eauto|]. intros [(l' & E & _)|(l' & k & [= <-] & H)]; [discriminate|eauto].
Qed.
Lemma raw_some cases : (exists l, raw cases = Some l) <-> exists l, cases = YList l \/ exists m, cases = YMap m /\ l = map snd m.
Proof.
  split.
  - destruct cases; cbn; intros [l' H]; try discriminate; [exists l; auto|exists (map snd l); eauto].
  - intros (l & [->|(m & -> & _)]); cbn; eauto.
Qed.
Section Expect.
  Context {A : Type}.
  Variable func : yaml -> outcome A.
  Lemma parse_expect_ok whole cases e t : parse_expect whole cases func = Ok (e, t) <->
    func whole = Ok e /\ exists l, raw cases = Some l /\ Forall2 (fun kv ka => fst ka = fst kv /\ func (snd kv) = Ok (snd ka)) l t.
  Proof.
    assert (forall l (t : list (yaml * A)), Forall2 (fun kv ka => bind (func (snd kv)) (fun a => Ok (fst kv, a)) = Ok ka) l t <->
                  Forall2 (fun kv ka => fst ka = fst kv /\ func (snd kv) = Ok (snd ka)) l t) as R.
    { assert (forall (kv : yaml * yaml) (ka : yaml * A), bind (func (snd kv)) (fun a => Ok (fst kv, a)) = Ok ka <-> fst ka = fst kv /\ func (snd kv) = Ok (snd ka)) as Q.
      { intros [k v] [k' a]. cbn. unfold bind. destruct (func v) as [w|]; split.
        - intros [= -> ->]. auto.
        - intros [-> [= ->]]. reflexivity.
        - discriminate.
        - intros [_ H]. discriminate. }
      intros l t'. split; intros H; induction H; constructor; try apply Q; auto. }
    unfold parse_expect, bind at 1. destruct (func whole) as [e'|] eqn:E; [|split; [discriminate|intros [H _]; discriminate]].
    assert ((match cases with YList l => Ok (enumerate 1 l) | YMap l => Ok l | _ => Raised end)
            = match raw cases with Some l => Ok l | None => Raised end) as -> by (destruct cases; reflexivity).
    destruct (raw cases) as [l|] eqn:F; cbn [bind].
    - destruct (all_ok _) as [t'|] eqn:G; cbn [bind].
      + apply all_ok_map, R in G. split.
        * intros [= -> ->]. eauto.
        * intros [[= ->] (l' & [= <-] & H)]. apply R, all_ok_map in H. apply R, all_ok_map in G. congruence.
      + split; [discriminate|]. intros [_ (l' & [= <-] & H)]. apply R, all_ok_map in H. congruence.
    - split; [discriminate|]. intros [_ (l & H & _)]. discriminate.
  Qed.
  Lemma parse_expect_lookup whole cases e t pos : parse_expect whole cases func = Ok (e, t) ->
    match lookup pos t with
    | Some a => exists y, for_case cases pos y /\ func y = Ok a
    | None => forall y, ~ for_case cases pos y
    end.
  Proof.
    rewrite parse_expect_ok. intros [_ (l & Hr & H)].
    assert (match lookup pos t with Some a => exists y, lookup pos l = Some y /\ func y = Ok a | None => lookup pos l = None end) as Q.
    { clear Hr. induction H as [|[k v] [k' a] l t [Hk Hv] Hr IH]; [reflexivity|]. cbn in Hk, Hv. subst k'. rewrite !lookup_cons.
      destruct (lookup pos t) as [a'|].
      - destruct IH as (y & -> & Hy). eauto.
      - rewrite IH. destruct (at_position pos k); eauto. }
    destruct (lookup pos t).
    - destruct Q as (y & Hy & Hf). exists y. split; [apply (raw_lookup _ _ _ _ Hr), Hy|exact Hf].
    - intros y Hy. apply (raw_lookup _ _ _ _ Hr) in Hy. congruence.
  Qed.
  Lemma for_case_fun cases pos y y' : for_case cases pos y -> for_case cases pos y' -> y = y'.
  Proof.
    intros H H'. assert (exists l, raw cases = Some l) as [l Hr].
    { apply raw_some. destruct H as [(l & -> & _)|(l & -> & _)]; [exists l; auto|exists (map snd l); eauto]. }
    apply (raw_lookup _ _ _ _ Hr) in H, H'. congruence.
  Qed.
  Lemma parse_expect_in whole cases e t y : parse_expect whole cases func = Ok (e, t) -> of_case cases y -> exists a, func y = Ok a.
  Proof.
    rewrite parse_expect_ok. intros [_ (l & Hr & H)] Hy. apply (raw_in _ _ _ Hr) in Hy. destruct Hy as [k Hy]. clear Hr.
    induction H as [|[k' v] [k2 a] l t [Hk Hv] Hr IH]; [destruct Hy|]. destruct Hy as [[= -> ->]|Hy]; [eauto|auto].
  Qed.
  Lemma parse_expect_valid whole cases (valid : yaml -> Prop) : (forall y, (exists a, func y = Ok a) <-> valid y) ->
    ((exists r, parse_expect whole cases func = Ok r) <->
     valid whole /\ (exists l, cases = YList l \/ exists m, cases = YMap m /\ l = map snd m) /\ forall y, of_case cases y -> valid y).
  Proof.
    intros Hv. rewrite <- Hv, <- raw_some. split.
    - intros [[e t] H]. split; [|split].
      + apply parse_expect_ok in H. destruct H as [H _]. eauto.
      + apply parse_expect_ok in H. destruct H as [_ (l & H & _)]. eauto.
      + intros y Hy. apply Hv. eapply parse_expect_in; eauto.
    - intros [[e He] [[l Hr] Hi]]. assert (Forall (fun kv => exists ka : yaml * A, fst ka = fst kv /\ func (snd kv) = Ok (snd ka)) l) as F.
      { apply Forall_forall. intros [k v] Hk. assert (valid v) as Hw by (apply Hi, (raw_in _ _ _ Hr); eauto).
        apply Hv in Hw. destruct Hw as [a Ha]. exists (k, a). auto. }
      apply Forall2_ex in F. destruct F as [t F]. exists (e, t). apply parse_expect_ok. eauto.
  Qed.
End Expect.

(** * Reports *)
Section Reports.
  Variable parse_int : bytes -> option Z.
  Variable d : case_dir.
  Let c := rev (settings d).
  Lemma expectations_parts e : expectations_of parse_int c = Ok e ->
    parse_expect (key_or c (B "expect") (YStr (B "AC"))) (key_or c (B "cases") (YMap [])) parse_expected_codes = Ok (codes_all e, codes_cases e)
    /\ parse_expect (key_or c (B "points") YNull) (key_or c (B "points_cases") (YMap [])) (parse_points parse_int) = Ok (points_all e, points_cases e)
    /\ parse_expect (key_or c (B "feedback") YNull) (key_or c (B "feedback_cases") (YMap [])) parse_feedback = Ok (feedback_all e, feedback_cases e).
  Proof.
    unfold expectations_of, bind.
    destruct (parse_expect _ _ parse_expected_codes) as [[a b]|]; [|discriminate].
    destruct (parse_expect _ _ (parse_points parse_int)) as [[a' b']|]; [|discriminate].
    destruct (parse_expect _ _ parse_feedback) as [[a2 b2]|]; [|discriminate]. intros [= <-]. cbn. auto.
  Qed.
  Lemma expects_well_iff of_cases of_all def (valid : yaml -> Prop) : expects_well d of_cases of_all def valid <->
    valid (key_or c of_all def) /\ (exists l, key_or c of_cases (YMap []) = YList l \/ exists m, key_or c of_cases (YMap []) = YMap m /\ l = map snd m)
    /\ forall y, of_case (key_or c of_cases (YMap [])) y -> valid y.
  Proof.
    unfold expects_well. split.
    - intros [(y & Hy & Hv) (cs & Hc & Hl & Ha)]. apply key_or_setting in Hy, Hc. fold c in Hy, Hc. rewrite Hy, Hc. auto.
    - intros (Hv & Hl & Ha). split; [exists (key_or c of_all def); split; [apply key_or_self|exact Hv]|].
      exists (key_or c of_cases (YMap [])). split; [apply key_or_self|]. auto.
  Qed.
  Lemma expectations_valid : (exists e, expectations_of parse_int c = Ok e) <->
    expects_well d (B "cases") (B "expect") (YStr (B "AC")) codes_valid
    /\ expects_well d (B "points_cases") (B "points") YNull (points_valid parse_int)
    /\ expects_well d (B "feedback_cases") (B "feedback") YNull feedback_valid.
  Proof.
    rewrite !expects_well_iff, <- (parse_expect_valid parse_expected_codes _ _ _ codes_valid_iff),
      <- (parse_expect_valid (parse_points parse_int) _ _ _ (points_valid_iff parse_int)),
      <- (parse_expect_valid parse_feedback _ _ _ feedback_valid_iff). unfold expectations_of, bind. split.
    - intros [e H].
      destruct (parse_expect _ _ parse_expected_codes) as [[a b]|]; [|discriminate].
      destruct (parse_expect _ _ (parse_points parse_int)) as [[a' b']|]; [|discriminate].
      destruct (parse_expect _ _ parse_feedback) as [[a2 b2]|]; [|discriminate].
      split; [eexists; reflexivity|split; eexists; reflexivity].
    - intros ([r1 H1] & [r2 H2] & [r3 H3]). rewrite H1, H2, H3. eauto.
  Qed.

  Lemma governs_cases {A} (func : yaml -> outcome A) of_cases of_all def e t pos :
    parse_expect (key_or c of_all def) (key_or c of_cases (YMap [])) func = Ok (e, t) ->
    exists y, governs d of_cases of_all def pos y /\ func y = Ok (match lookup pos t with Some a => a | None => e end)
              /\ (forall y', governs d of_cases of_all def pos y' -> y' = y).
  Proof.
    intros H. pose proof (parse_expect_lookup func _ _ _ _ pos H) as L. apply parse_expect_ok in H. destruct H as [He _].
    destruct (lookup pos t) as [a|].
    - destruct L as (y & Hy & Hf). exists y. split; [|split; [exact Hf|]].
      + exists (key_or c of_cases (YMap [])). split; [apply key_or_self|]. auto.
      + intros y' (cs & Hc & Hg). apply key_or_setting in Hc. fold c in Hc. subst cs. destruct Hg as [Hg|[Hg _]].
        * eapply for_case_fun; eauto.
        * destruct (Hg _ Hy).
    - exists (key_or c of_all def). split; [|split; [exact He|]].
      + exists (key_or c of_cases (YMap [])). split; [apply key_or_self|]. right. split; [exact L|apply key_or_self].
      + intros y' (cs & Hc & Hg). apply key_or_setting in Hc. fold c in Hc. subst cs. destruct Hg as [Hg|[_ Hg]].
        * destruct (L _ Hg).
        * apply key_or_setting in Hg. fold c in Hg. congruence.
  Qed.
  Lemma feedback_check y l f : parse_feedback y = Ok l -> ((match l with Some l => negb (in_set f l) | None => false end) = false <-> feedback_allowed y f).
  Proof.
    intros H. destruct l as [l|].
    - apply feedback_some in H. destruct H as (_ & H & _). rewrite negb_false_iff. apply H.
    - apply feedback_none in H. split; [left; exact H|reflexivity].
  Qed.
  Lemma points_check y l p : parse_points parse_int y = Ok l -> ((match l with Some l => negb (points_in p l) | None => false end) = false <-> points_allowed parse_int y p).
  Proof.
    intros H. destruct l as [l|].
    - apply points_some in H. destruct H as [_ H]. rewrite negb_false_iff. apply H.
    - apply points_none in H. split; [left; exact H|reflexivity].
  Qed.
  Lemma unique_iff (G P : yaml -> Prop) y : G y -> (forall y', G y' -> y' = y) -> ((exists y, G y /\ P y) <-> P y).
  Proof. intros H U. split; [intros (y' & Hg & Hp); rewrite <- (U _ Hg); exact Hp|eauto]. Qed.
  Lemma setting_unique k def (P : yaml -> Prop) : (exists y, setting_or d k def y /\ P y) <-> P (key_or c k def).
  Proof. apply unique_iff; [apply key_or_self|]. intros y' H. apply key_or_setting in H. symmetry. exact H. Qed.

  Variable e : expectations.
  Hypothesis He : expectations_of parse_int c = Ok e.
  Lemma codes_all_allowed n : in_set n (codes_all e) = true <-> code_allowed (key_or c (B "expect") (YStr (B "AC"))) n.
  Proof.
    destruct (expectations_parts e He) as (H & _). apply parse_expect_ok in H. destruct H as [H _]. apply codes_ok, H.
  Qed.
  (** no report raises unless a case's points are unexpected or '*' *)
  Lemma case_status_fine failed pos flags p f failed' raised :
    case_status e failed pos flags p f = (failed', raised) ->
    if raised then
      (exists y, (governs d (B "points_cases") (B "points") YNull pos y /\ ~ points_allowed parse_int y p))
      \/ (exists y, of_case (key_or c (B "points_cases") (YMap [])) y /\ anything y)
    else failed' = false <-> failed = false /\ fine parse_int d (CaseStatus pos flags p f).
  Proof.
    destruct (expectations_parts e He) as (H1 & H2 & H3).
    destruct (governs_cases _ _ _ _ _ _ pos H1) as (y1 & G1 & F1 & U1).
    destruct (governs_cases _ _ _ _ _ _ pos H2) as (y2 & G2 & F2 & U2).
    destruct (governs_cases _ _ _ _ _ _ pos H3) as (y3 & G3 & F3 & U3).
    pose proof (codes_ok y1 _ (code_name (hd AC (readable_codes flags))) F1) as K1.
    pose proof (points_check y2 _ p F2) as K2. pose proof (feedback_check y3 _ f F3) as K3.
    assert (fine parse_int d (CaseStatus pos flags p f) <-> code_allowed y1 (code_name (hd AC (readable_codes flags)))
              /\ points_allowed parse_int y2 p /\ feedback_allowed y3 f) as Fi.
    { cbn [fine]. rewrite (unique_iff _ _ y1 G1 U1), (unique_iff _ _ y2 G2 U2), (unique_iff _ _ y3 G3 U3). reflexivity. }
    rewrite <- K1, <- K2, <- K3 in Fi. clear K1 K3. revert Fi K2.
    unfold case_status. set (nm := code_name (hd AC (readable_codes flags))).
    set (oc := in_set nm _). set (of := match match lookup pos (feedback_cases e) with Some f0 => f0 | None => feedback_all e end with Some l => negb (in_set f l) | None => false end).
    clearbody oc of. intros Fi K2.
    destruct (lookup pos (points_cases e)) as [[l|]|] eqn:L.
    - destruct (points_in p l) eqn:P.
      + intros [= <- <-]. rewrite Fi. cbn. rewrite !orb_false_iff, negb_false_iff. tauto.
      + destruct l as [|z l].
        * intros [= <- <-]. rewrite Fi. cbn. split; [discriminate|]. intros (_ & _ & C & _). discriminate.
        * intros [= <- <-]. left. exists y2. split; [exact G2|]. intros C. apply K2 in C. cbn [negb] in C. discriminate.
    - intros [= <- <-]. right. pose proof (parse_expect_lookup _ _ _ _ _ pos H2) as Q. rewrite L in Q. destruct Q as (y & Hy & Hf).
      exists y. split; [|apply (points_none parse_int), Hf].
      destruct Hy as [(l & -> & _ & Hn)|(l & -> & (a & k & b & -> & _))].
      * left. exists l. split; [reflexivity|]. eapply nth_error_In; eauto.
      * right. exists (a ++ (k, y) :: b), k. split; [reflexivity|]. apply in_or_app. right. left. reflexivity.
    - destruct (points_all e) as [l|]; intros [= <- <-]; rewrite Fi, !orb_false_iff, !negb_false_iff; tauto.
  Qed.
  Lemma internal_error_fine failed m : internal_error e failed m = false <-> failed = false /\ fine parse_int d (InternalError m).
  Proof.
    unfold internal_error, fine. rewrite !orb_false_iff, !negb_false_iff, codes_all_allowed, !setting_unique.
    destruct (expectations_parts e He) as (_ & _ & H). apply parse_expect_ok in H. destruct H as [H _].
    set (y := key_or c (B "feedback") YNull) in *. unfold error_allowed.
    destruct (feedback_all e) as [[|f0 l]|].
    - apply feedback_some in H. destruct H as (_ & _ & H). assert (elements y []) by (apply H; reflexivity). tauto.
    - apply feedback_some in H. destruct H as (Ha & Hi & Hl).
      assert (existsb (fun f => contains f m) (f0 :: l) = true <-> anything y \/ elements y [] \/ (exists f a b, feedback_allowed y f /\ ~ anything y /\ m = a ++ f ++ b)) as ->.
      { rewrite existsb_exists. split.
        - intros (f & Hf & Hc). right; right. apply contains_occurs in Hc. destruct Hc as (a & b & ->). exists f, a, b. split; [|auto].
          apply Hi, in_set_iff, Hf.
        - intros [C|[C|(f & a & b & Hf & _ & ->)]]; [contradiction|apply Hl in C; discriminate|]. exists f. split; [apply in_set_iff, Hi, Hf|].
          apply contains_occurs. exists a, b. reflexivity. }
      tauto.
    - apply feedback_none in H. tauto.
  Qed.
  Lemma on_report_fine failed r failed' raised : on_report e failed r = (failed', raised) ->
    if raised then
      match r with
      | CaseStatus pos _ p _ => (exists y, (governs d (B "points_cases") (B "points") YNull pos y /\ ~ points_allowed parse_int y p))
                                \/ (exists y, of_case (key_or c (B "points_cases") (YMap [])) y /\ anything y)
      | _ => False
      end
    else failed' = false <-> failed = false /\ fine parse_int d r.
  Proof.
    destruct r as [pos flags p f|log|m|]; cbn [on_report].
    - intros H. pose proof (case_status_fine _ _ _ _ _ _ _ H) as Q. exact Q.
    - intros [= <- <-]. cbn [fine]. rewrite setting_unique, orb_false_iff, negb_false_iff, codes_all_allowed. reflexivity.
    - intros [= <- <-]. apply internal_error_fine.
    - intros [= <- <-]. cbn. tauto.
  Qed.
  Lemma feed_fine tb : ordinary d -> forall rs failed,
    feed e tb failed rs = false <-> failed = false /\ forall r, In r rs -> fine parse_int d r.
  Proof.
    intros [Ho Hp]. induction rs as [|r rs IH]; intros failed; cbn [feed].
    - split; [intros ->; split; [reflexivity|intros r []]|]. intros [H _]. exact H.
    - destruct (on_report e failed r) as [f [|]] eqn:E; pose proof (on_report_fine _ _ _ _ E) as Q; cbn in Q.
      + split.
        * intros C. apply internal_error_fine in C. destruct C as [_ [(y & Hy & Hc) _]]. destruct (Ho y Hy Hc).
        * intros [_ Hf]. specialize (Hf r (or_introl eq_refl)). destruct r as [pos flags p fb| | |]; try contradiction.
          exfalso. destruct Q as [(y & Hg & Hn)|(y & Hc & Ha)].
          -- destruct Hf as (_ & (y' & Hg' & Hp') & _). apply Hn.
             destruct (expectations_parts e He) as (_ & H2 & _). destruct (governs_cases _ _ _ _ _ _ pos H2) as (y2 & _ & _ & U).
             rewrite (U _ Hg), <- (U _ Hg'). exact Hp'.
          -- apply (Hp (key_or c (B "points_cases") (YMap [])) y); [apply key_or_self|exact Hc|exact Ha].
      + rewrite IH, Q. split.
        * intros [[H1 H2] H3]. split; [exact H1|]. intros x [<-|Hx]; auto.
        * intros [H1 H2]. split; [split; [exact H1|apply H2; left; reflexivity]|]. intros x Hx. apply H2. right. exact Hx.
  Qed.
End Reports.

(** * Running *)
Section Run.
  Variable parse_int : bytes -> option Z.
  Variable executors : list bytes.
  Variable judge : submission -> list report.
  Variable traceback : bytes.
  Notation run_test_case := (run_test_case parse_int executors judge traceback).

  Lemma read_sources_ok d y texts : read_sources d y = Ok texts <-> sources d y texts.
  Proof.
    set (read := fun x => match x with YStr s => match source_file d s with Some t => Ok t | None => Raised end | _ => Raised end).
    assert (forall x t, read x = Ok t <-> exists s, x = YStr s /\ source_file d s = Some t) as R.
    { intros x t. destruct x; cbn; try (split; [discriminate|intros (s' & E & _); discriminate]).
      destruct (source_file d s) eqn:E; split; [intros [= ->]; eauto|intros (s' & [= <-] & H); congruence|discriminate|intros (s' & [= <-] & H); congruence]. }
    unfold sources. destruct (yaml_str_dec y) as [[s ->]|Hy].
    - change (read_sources d (YStr s)) with (bind (read (YStr s)) (fun t => Ok [t])). unfold bind. destruct (read (YStr s)) as [t|] eqn:E.
      + apply R in E. destruct E as (s' & [= <-] & E). split.
        * intros [= <-]. left. exists s, t. auto.
        * intros [(s' & t' & [= <-] & -> & E')|(l & C & _)]; [congruence|destruct (str_no_elements _ _ C)].
      + split; [discriminate|]. intros [(s' & t' & [= <-] & -> & E')|(l & C & _)]; [|destruct (str_no_elements _ _ C)].
        assert (read (YStr s) = Ok t') by (apply R; eauto). congruence.
    - assert (read_sources d y = bind (iterate y) (fun l => all_ok (map read l))) as -> by (destruct y; try reflexivity; destruct (Hy s); reflexivity).
      unfold bind. assert (forall l t, Forall2 (fun x a => read x = Ok a) l t <-> Forall2 (fun x t => exists s, x = YStr s /\ source_file d s = Some t) l t) as Q.
      { intros l t. split; intros H; induction H; constructor; auto; apply R; assumption. }
      destruct (iterate y) as [ys|] eqn:E.
      + apply iterate_elements in E. rewrite all_ok_map, Q. split; [eauto|].
        intros [(s' & t' & -> & _)|(l & He & H)]; [destruct (Hy _ eq_refl)|]. rewrite (elements_fun _ _ _ He E) in H. exact H.
      + split; [discriminate|]. intros [(s' & t' & -> & _)|(l & He & H)]; [destruct (Hy _ eq_refl)|]. apply iterate_elements in He. congruence.
  Qed.

  Definition job_of d p language time memory s : job :=
    {| job_dir := d; job_problem := p; job_language := language; job_source := s; job_time := time; job_memory := memory |}.
  Definition good (n : nat) (js : list job) : Prop :=
    forall i j r, nth_error js i = Some j -> In r (judge (as_submission (n + i) j)) -> fine parse_int (job_dir j) r.
  Lemma good_cons n j js : good n (j :: js) <-> (forall r, In r (judge (as_submission n j)) -> fine parse_int (job_dir j) r) /\ good (S n) js.
  Proof.
    unfold good. split.
    - intros H. split.
      + intros r Hr. apply (H 0 j r); [reflexivity|]. rewrite Nat.add_0_r. exact Hr.
      + intros i j' r Hi Hr. apply (H (S i) j' r); [exact Hi|]. rewrite Nat.add_succ_r. exact Hr.
    - intros [H0 H] [|i] j' r Hi Hr; cbn in Hi.
      + injection Hi as <-. apply H0. rewrite Nat.add_0_r in Hr. exact Hr.
      + apply (H i j' r Hi). rewrite Nat.add_succ_r in Hr. exact Hr.
  Qed.
  Lemma good_app js js' : forall n, good n (js ++ js') <-> good n js /\ good (n + length js) js'.
  Proof.
    induction js as [|j js IH]; intros n.
    - cbn. rewrite Nat.add_0_r. split; [intros H; split; [intros i x r Hi; destruct i; discriminate|exact H]|]. intros [_ H]. exact H.
    - cbn [app length]. rewrite !good_cons, IH, Nat.add_succ_r. cbn. tauto.
  Qed.
  Lemma numbered_app js js' : forall n, numbered n (js ++ js') = numbered n js ++ numbered (n + length js) js'.
  Proof.
    induction js as [|j js IH]; intros n; cbn; [rewrite Nat.add_0_r; reflexivity|]. rewrite IH, Nat.add_succ_r. reflexivity.
  Qed.
  Lemma numbered_length js : forall n, length (numbered n js) = length js.
  Proof. induction js; intros n; cbn; auto. Qed.
  Lemma run_sources_spec d e p language time memory : expectations_of parse_int (rev (settings d)) = Ok e -> forall texts n,
    fst (run_sources judge traceback e p language time memory n texts) = numbered (S n) (map (job_of d p language time memory) texts)
    /\ (ordinary d -> (snd (run_sources judge traceback e p language time memory n texts) = 0 <-> good (S n) (map (job_of d p language time memory) texts))).
  Proof.
    intros He. induction texts as [|s texts IH]; intros n; cbn [run_sources map].
    - split; [reflexivity|]. intros _. cbn. split; [intros _ i x r Hi; destruct i; discriminate|reflexivity].
    - destruct (IH (S n)) as [I1 I2]. destruct (run_sources judge traceback e p language time memory (S n) texts) as [subs fails]. cbn [fst snd] in *.
      split.
      + cbn [numbered]. f_equal. exact I1.
      + intros Ho. rewrite good_cons, <- (I2 Ho). clear I1 I2 IH.
        change (judge (as_submission (S n) (job_of d p language time memory s))) with
          (judge {| sub_id := S n; sub_problem := p; sub_language := language; sub_source := s; sub_time := time; sub_memory := memory |}).
        pose proof (feed_fine parse_int d e He traceback Ho (judge {| sub_id := S n; sub_problem := p; sub_language := language; sub_source := s; sub_time := time; sub_memory := memory |}) false) as F.
        destruct (feed _ _ _ _).
        * split; [intros C; lia|]. intros [C _]. assert (true = false) by (apply F; auto). discriminate.
        * assert (forall r, In r (judge {| sub_id := S n; sub_problem := p; sub_language := language; sub_source := s; sub_time := time; sub_memory := memory |}) -> fine parse_int d r) as Q by (apply F; reflexivity).
          cbn. split; [intros E; split; [exact Q|exact E]|]. intros [_ E]. exact E.
  Qed.

  (** every test is skipped, runs or is in error *)
  Inductive becomes (p : bytes) (d : case_dir) (n : nat) : outcome (list submission * nat) -> Prop :=
  | becomes_skipped : skipped executors d -> becomes p d n (Ok ([], 0))
  | becomes_run language time memory texts subs fails : runs parse_int executors d language time memory texts ->
      subs = numbered (S n) (map (job_of d p language time memory) texts) ->
      (ordinary d -> (fails = 0 <-> good (S n) (map (job_of d p language time memory) texts))) -> becomes p d n (Ok (subs, fails))
  | becomes_error : in_error parse_int executors d -> becomes p d n Raised.
  Lemma settings_nil d : settings d = [] <-> rev (settings d) = [].
  Proof. split; [intros ->; reflexivity|]. intros H. rewrite <- (rev_involutive (settings d)), H. reflexivity. Qed.
  Lemma skip_asked_iff d : (match key (rev (settings d)) (B "skip") with Some y => truth y | None => false end) = true <-> skip_asked d.
  Proof.
    unfold skip_asked. destruct (key _ _) as [y|] eqn:E.
    - apply key_setting in E. split; [eauto|]. intros (y' & H & T). apply key_setting in H, E. congruence.
    - split; [discriminate|]. intros (y' & H & T). apply key_setting in H. congruence.
  Qed.
  Lemma broken_dec fs : In Broken fs \/ ~ In Broken fs.
  Proof.
    induction fs as [|[| |l] fs IH]; cbn; [auto| |auto|].
    - destruct IH as [IH|IH]; [auto|]. right. intros [C|C]; [discriminate|contradiction].
    - destruct IH as [IH|IH]; [auto|]. right. intros [C|C]; [discriminate|contradiction].
  Qed.
  Lemma setting_fun d k y y' : setting d k y -> setting d k y' -> y = y'.
  Proof. rewrite <- !key_setting. congruence. Qed.
  Lemma run_test_case_becomes p d n : becomes p d n (run_test_case p d n).
  Proof.
    unfold Testsuite.run_test_case. destruct (broken_dec (files d)) as [Hb|Hb].
    { destruct (read_config (files d) []) as [c|] eqn:R; [apply read_config_settings in R; tauto|]. cbn [bind].
      apply becomes_error. split; [intros [H _]; contradiction|]. intros language time memory texts (H & _). contradiction. }
    assert (read_config (files d) [] = Ok (rev (settings d))) as -> by (apply read_config_settings; auto). cbn [bind].
    destruct (rev (settings d)) as [|kv c'] eqn:Ec.
    { apply becomes_skipped. split; [exact Hb|]. left. apply settings_nil, Ec. }
    assert (settings d <> []) as Hne by (intros C; apply settings_nil in C; congruence).
    rewrite <- Ec. clear kv c' Ec. pose proof (skip_asked_iff d) as Hs.
    destruct (match key (rev (settings d)) (B "skip") with Some y => truth y | None => false end).
    { apply becomes_skipped. split; [exact Hb|]. right; left. apply Hs. reflexivity. }
    assert (~ skip_asked d) as Hns by (intros C; apply Hs in C; discriminate). clear Hs.
    (* a field that is missing *)
    assert (forall k, (forall y, ~ setting d k y) -> need (rev (settings d)) k = Raised) as Hmiss.
    { intros k H. destruct (need _ k) as [y|] eqn:E; [apply need_setting in E; destruct (H _ E)|reflexivity]. }
    destruct (need (rev (settings d)) (B "language")) as [lang|] eqn:El; cbn [bind].
    2:{ assert (forall y, ~ setting d (B "language") y) as Hl by (intros y Hy; apply need_setting in Hy; congruence).
        apply becomes_error. split.
        - intros [_ [C|[C|(y & Hy & _)]]]; [contradiction|contradiction|destruct (Hl _ Hy)].
        - intros language time memory texts (_ & _ & _ & C & _). destruct (Hl _ C). }
    apply need_setting in El.
    assert (forall y, scalar y -> (forall s, y = YStr s -> ~ In s executors) -> setting d (B "language") y -> becomes p d n (Ok ([], 0))) as Hskip.
    { intros y H1 H2 H3. apply becomes_skipped. split; [exact Hb|]. right; right. eauto. }
    assert (~ scalar lang -> becomes p d n Raised) as Hcoll.
    { intros H. apply becomes_error. split.
      - intros [_ [C|[C|(y & Hy & Hsc & _)]]]; [contradiction|contradiction|]. rewrite (setting_fun _ _ _ _ Hy El) in Hsc. contradiction.
      - intros language time memory texts (_ & _ & _ & C & _). pose proof (setting_fun _ _ _ _ C El) as Q. apply H. subst lang. intros l m. split; discriminate. }
    destruct lang as [|b|z|language|l|l].
    - eapply Hskip; [| |exact El]; [intros l m; split; discriminate|intros s; discriminate].
    - eapply Hskip; [| |exact El]; [intros l m; split; discriminate|intros s; discriminate].
    - eapply Hskip; [| |exact El]; [intros l m; split; discriminate|intros s; discriminate].
    - destruct (in_set language executors) eqn:Ex; cbn [negb].
      2:{ eapply Hskip; [| |exact El]; [intros l m; split; discriminate|]. intros s [= <-] C. apply in_set_iff in C. congruence. }
      apply in_set_iff in Ex.
      assert ((forall time memory texts, ~ runs parse_int executors d language time memory texts) -> becomes p d n Raised) as Herr.
      { intros H. apply becomes_error. split.
        - intros [_ [C|[C|(y & Hy & _ & Hn)]]]; [contradiction|contradiction|]. rewrite (setting_fun _ _ _ _ Hy El) in Hn. apply (Hn _ eq_refl Ex).
        - intros language' time memory texts C. assert (language' = language) as ->.
          { destruct C as (_ & _ & _ & C & _). pose proof (setting_fun _ _ _ _ C El). congruence. }
          apply (H _ _ _ C). }
      destruct (need (rev (settings d)) (B "time")) as [time|] eqn:Et; cbn [bind].
      2:{ apply Herr. intros time memory texts (_ & _ & _ & _ & _ & C & _). apply need_setting in C. congruence. }
      destruct (need (rev (settings d)) (B "memory")) as [memory|] eqn:Em; cbn [bind].
      2:{ apply Herr. intros time' memory texts (_ & _ & _ & _ & _ & _ & C & _). apply need_setting in C. congruence. }
      destruct (need (rev (settings d)) (B "source")) as [src|] eqn:Es; cbn [bind].
      2:{ apply Herr. intros time' memory' texts (_ & _ & _ & _ & _ & _ & _ & (y & C & _) & _). apply need_setting in C. congruence. }
      destruct (read_sources d src) as [texts|] eqn:Er; cbn [bind].
      2:{ apply Herr. intros time' memory' texts (_ & _ & _ & _ & _ & _ & _ & (y & C & C') & _). apply need_setting in C. apply read_sources_ok in C'. congruence. }
      destruct (expectations_of parse_int (rev (settings d))) as [e|] eqn:Ee; cbn [bind].
      2:{ apply Herr. intros time' memory' texts' (_ & _ & _ & _ & _ & _ & _ & _ & C). apply expectations_valid in C. destruct C as [e C]. congruence. }
      destruct (run_sources_spec d e p language time memory Ee texts n) as [R1 R2].
      destruct (run_sources judge traceback e p language time memory n texts) as [subs fails]. cbn [fst snd] in R1, R2.
      apply (becomes_run p d n language time memory texts); [|exact R1|exact R2].
      apply need_setting in Et, Em, Es. apply read_sources_ok in Er.
      do 7 (split; [assumption|]). split; [eauto|]. apply expectations_valid. eauto.
    - apply Hcoll. intros C. destruct (C l []) as [C' _]. apply C'. reflexivity.
    - apply Hcoll. intros C. destruct (C [] l) as [_ C']. apply C'. reflexivity.
  Qed.

  (** one test after the other *)
  Fixpoint run_list (l : list (bytes * case_dir)) (n : nat) : list submission * nat :=
    match l with
    | [] => ([], 0)
    | (p, d) :: r =>
        match run_test_case p d n with
        | Ok (subs, fails) => let '(subs', fails') := run_list r (n + length subs) in (subs ++ subs', fails + fails')
        | Raised => let '(subs', fails') := run_list r n in (subs', 1 + fails')
        end
    end.
  Lemma run_list_app l l' : forall n,
    run_list (l ++ l') n = (let '(subs, fails) := run_list l n in let '(subs', fails') := run_list l' (n + length subs) in (subs ++ subs', fails + fails')).
  Proof.
    induction l as [|[p d] l IH]; intros n; cbn [app run_list].
    - cbn. rewrite Nat.add_0_r. destruct (run_list l' n). reflexivity.
    - destruct (run_test_case p d n) as [[subs fails]|].
      + rewrite IH. destruct (run_list l (n + length subs)) as [s1 f1]. rewrite app_length, Nat.add_assoc.
        destruct (run_list l' (n + length subs + length s1)) as [s2 f2]. rewrite app_assoc, Nat.add_assoc. reflexivity.
      + rewrite IH. destruct (run_list l n) as [s1 f1]. destruct (run_list l' (n + length s1)) as [s2 f2]. reflexivity.
  Qed.
  Variables case_selected problem_selected : bytes -> bool.
  Definition chosen (p : bytes) (tests : list entry) : list (bytes * case_dir) :=
    flat_map (fun x => match entry_dir x with Some d => if case_selected (entry_name x) then [(p, d)] else [] | None => [] end) tests.
  Lemma test_entries_run p tests : forall n, test_entries parse_int executors judge traceback case_selected p tests n = run_list (chosen p tests) n.
  Proof.
    induction tests as [|x tests IH]; intros n; [reflexivity|]. cbn [test_entries chosen flat_map]. fold (chosen p tests).
    destruct (entry_dir x) as [d|]; [|apply IH]. destruct (case_selected (entry_name x)); [|apply IH].
    cbn [app run_list]. destruct (run_test_case p d n) as [[subs fails]|]; rewrite IH; reflexivity.
  Qed.
  Lemma test_all_run l : forall n,
    test_all parse_int executors judge traceback case_selected problem_selected l n = run_list (selected case_selected problem_selected l) n.
  Proof.
    induction l as [|[p tests] l IH]; intros n; [reflexivity|]. cbn [test_all selected flat_map]. fold (selected case_selected problem_selected l).
    destruct tests as [tests|]; [|apply IH]. destruct (problem_selected p); [|apply IH].
    fold (chosen p tests). rewrite run_list_app, test_entries_run. destruct (run_list (chosen p tests) n) as [subs fails]. rewrite IH. reflexivity.
  Qed.
  Lemma run_list_planned l : forall n, exists js,
    planned parse_int executors l js /\ fst (run_list l n) = numbered (S n) js
    /\ ((forall p d, In (p, d) l -> ordinary d) ->
        (snd (run_list l n) = 0 <-> (forall p d, In (p, d) l -> ~ in_error parse_int executors d) /\ good (S n) js)).
  Proof.
    induction l as [|[p d] l IH]; intros n.
    - exists []. split; [constructor|]. split; [reflexivity|]. intros _. cbn. split; [|reflexivity]. intros _. split; [intros ? ? []|].
      intros i x r Hi. destruct i; discriminate.
    - cbn [run_list]. pose proof (run_test_case_becomes p d n) as Q. destruct (run_test_case p d n) as [[subs fails]|].
      + assert (skipped executors d /\ subs = [] /\ fails = 0
                \/ exists language time memory texts, runs parse_int executors d language time memory texts
                    /\ subs = numbered (S n) (map (job_of d p language time memory) texts)
                    /\ (ordinary d -> (fails = 0 <-> good (S n) (map (job_of d p language time memory) texts)))) as [(Hsk & -> & ->)|(language & time & memory & texts & Hr & -> & Hf)].
        { inversion Q; subst; [left; auto|right]. exists language, time, memory, texts. auto. }
        * cbn [length]. rewrite Nat.add_0_r. destruct (IH n) as (js & J1 & J2 & J3). destruct (run_list l n) as [subs' fails']. cbn [fst snd] in *.
          exists js. split; [apply planned_skip; assumption|]. split; [exact J2|]. intros Ho. cbn. rewrite J3 by (intros p' d' H; apply (Ho p' d'); right; exact H).
          split; intros [H1 H2]; (split; [|exact H2]); intros p' d' H.
          -- destruct H as [[= <- <-]|H]; [intros [C _]; contradiction|apply (H1 p' d' H)].
          -- apply (H1 p' d'). right. exact H.
        * rewrite numbered_length. set (js0 := map (job_of d p language time memory) texts) in *.
          destruct (IH (n + length js0)) as (js & J1 & J2 & J3). destruct (run_list l (n + length js0)) as [subs' fails']. cbn [fst snd] in *.
          exists (js0 ++ js). split; [apply (planned_run parse_int executors p d l js language time memory texts); assumption|].
          split; [rewrite numbered_app, J2; reflexivity|]. intros Ho. rewrite good_app.
          change (S n + length js0) with (S (n + length js0)).
          rewrite Nat.eq_add_0, J3 by (intros p' d' H; apply (Ho p' d'); right; exact H).
          rewrite Hf by (apply (Ho p d); left; reflexivity). split.
          -- intros (H1 & H2 & H3). split; [|auto]. intros p' d' [[= <- <-]|H]; [|apply (H2 p' d' H)]. intros [_ C]. apply (C _ _ _ _ Hr).
          -- intros (H1 & H2 & H3). split; [exact H2|]. split; [|exact H3]. intros p' d' H. apply (H1 p' d'). right. exact H.
      + inversion Q as [| |Hin]; subst. destruct (IH n) as (js & J1 & J2 & J3). destruct (run_list l n) as [subs' fails']. cbn [fst snd] in *.
        exists js. split; [apply planned_error; assumption|]. split; [exact J2|]. intros _. split; [discriminate|].
        intros [C _]. destruct (C p d (or_introl eq_refl) Hin).
  Qed.
  Theorem suite l : exists js,
    planned parse_int executors (selected case_selected problem_selected l) js
    /\ fst (test_all parse_int executors judge traceback case_selected problem_selected l 0) = numbered 1 js
    /\ ((forall p d, In (p, d) (selected case_selected problem_selected l) -> ordinary d) ->
        (main_status parse_int executors judge traceback case_selected problem_selected l = 0 <->
         (forall p d, In (p, d) (selected case_selected problem_selected l) -> ~ in_error parse_int executors d)
         /\ forall i j r, nth_error js i = Some j -> In r (judge (as_submission (S i) j)) -> fine parse_int (job_dir j) r)).
  Proof.
    destruct (run_list_planned (selected case_selected problem_selected l) 0) as (js & J1 & J2 & J3).
    exists js. rewrite <- test_all_run in J2, J3. split; [exact J1|]. split; [exact J2|]. intros Ho. rewrite <- (J3 Ho).
    unfold main_status. destruct (snd _) as [|k]; cbn; split; congruence.
  Qed.
End Run.

Lemma one_fate parse_int executors d language time memory texts :
  runs parse_int executors d language time memory texts -> ~ skipped executors d.
Proof.
  intros (_ & Hn & Hs & Hl & Hi & _) [_ [C|[C|(y & Hy & _ & H)]]]; [contradiction|contradiction|].
  rewrite (setting_fun _ _ _ _ Hy Hl) in H. apply (H _ eq_refl Hi).
Qed.
Lemma Forall2_fun {A C} (R : A -> C -> Prop) : (forall x a a', R x a -> R x a' -> a = a') -> forall l t t', Forall2 R l t -> Forall2 R l t' -> t = t'.
Proof.
  intros H l t t' F. revert t'. induction F; intros t' G; inversion G; subst; [reflexivity|]. f_equal; eauto.
Qed.
Lemma runs_fun parse_int executors d l1 t1 m1 x1 l2 t2 m2 x2 :
  runs parse_int executors d l1 t1 m1 x1 -> runs parse_int executors d l2 t2 m2 x2 -> l1 = l2 /\ t1 = t2 /\ m1 = m2 /\ x1 = x2.
Proof.
  intros (_ & _ & _ & L1 & _ & T1 & M1 & (s1 & S1 & X1) & _) (_ & _ & _ & L2 & _ & T2 & M2 & (s2 & S2 & X2) & _).
  pose proof (setting_fun _ _ _ _ L1 L2). rewrite (setting_fun _ _ _ _ S1 S2) in X1. apply read_sources_ok in X1, X2.
  repeat split; [congruence|eapply setting_fun; eauto|eapply setting_fun; eauto|congruence].
Qed.
Lemma planned_fun parse_int executors l js : planned parse_int executors l js -> forall js', planned parse_int executors l js' -> js = js'.
Proof.
  induction 1 as [|p d r js Hs H IH|p d r js He H IH|p d r js la ti me tx Hr H IH]; intros js' H'; inversion H'; subst; auto;
    try (exfalso; eapply one_fate; eassumption);
    try match goal with
        | K : in_error _ _ d, K' : skipped _ d |- _ => destruct K as [K _]; contradiction
        | K : in_error _ _ d, K' : runs _ _ d _ _ _ _ |- _ => destruct K as [_ K]; destruct (K _ _ _ _ K')
        end.
  match goal with K : runs _ _ d _ _ _ _ |- _ = map _ ?x ++ _ => 
    match type of K with runs _ _ d _ _ _ x => destruct (runs_fun _ _ _ _ _ _ _ _ _ _ _ Hr K) as (-> & -> & -> & ->) end end.
  f_equal. auto.
Qed.
(** a run in which the judge never reports anything passes *)
Lemma silent_passes parse_int executors judge traceback case_selected problem_selected l :
  (forall p d, In (p, d) (selected case_selected problem_selected l) -> ordinary d /\ ~ in_error parse_int executors d) ->
  (forall s, judge s = []) -> main_status parse_int executors judge traceback case_selected problem_selected l = 0.
Proof.
  intros H Hj. destruct (suite parse_int executors judge traceback case_selected problem_selected l) as (js & _ & _ & J).
  apply J; [intros p d Hi; apply (H p d Hi)|]. split; [intros p d Hi; apply (H p d Hi)|]. intros i j r _ Hr. rewrite Hj in Hr. destruct Hr.
Qed.
