From Coq Require Import String Lia.
From Verif Require Import Model.Bytes Proofs.BytesLemmas Model.Config Spec.Config Proofs.Config Model.Paths Model.Loading Spec.Loading Proofs.Feedback.
Local Open Scope list_scope.
Local Open Scope nat_scope.

Lemma static_dict d k v : static (VDict d) -> In (k, v) d -> static v.
Proof.
  intros (_ & _ & H). induction d as [|kv d IH]; intros Hi; [destruct Hi|]. destruct H as [H1 H2].
  destruct Hi as [->|Hi]; [exact H1|exact (IH H2 Hi)].
Qed.
Lemma static_unique raw : static raw -> unique_keys raw.
Proof. destruct raw; cbn; auto. intros [H _]. exact H. Qed.
Lemma static_plain raw k : static raw -> plain_for (Key k) raw.
Proof.
  intros H. destruct raw as [| | | | |d]; try (split; intros v C; inversion C; fail). destruct H as (_ & H & _). rewrite Forall_forall in H.
  split; intros v C; inversion C; subst.
  - apply (H (k ++ B "++")); [apply (in_map fst d (k ++ B "++", v)); assumption|]. exists (k ++ B "+"). rewrite <- app_assoc. reflexivity.
  - apply (H (k ++ B "+")); [apply (in_map fst d (k ++ B "+", v)); assumption|]. exists k. reflexivity.
Qed.
Lemma defines_truthy raw k v : defines raw (Key k) v -> truthy raw = true.
Proof. intros H. inversion H; subst. destruct d; [contradiction|reflexivity]. Qed.
Lemma defines_static raw k v : static raw -> defines raw (Key k) v -> static v.
Proof. intros S H. inversion H; subst. eapply static_dict; eauto. Qed.

Section Lookup.
  Variable run : bool -> value -> chain -> option value.
  Definition good (c : chain) : Prop := solid c /\ Forall static c.
  Lemma nearest_good c k v home : good c -> nearest c k v home -> good (v :: home) /\ static v.
  Proof.
    intros [Hs Hc] (b & raw & a & -> & -> & Hd & Hu). apply Forall_app in Hc. destruct Hc as [_ Hc]. inversion Hc; subst.
    assert (static v) as Hv by (eapply defines_static; eauto). split; [|exact Hv]. split; [|constructor; assumption].
    unfold solid in *. cbn. constructor; [eapply defines_truthy; eauto|].
    destruct b; cbn in Hs; [exact Hs|]. apply Forall_app in Hs. destruct Hs as [_ Hs]. inversion Hs; assumption.
  Qed.
  Lemma lookup_nearest c k v home : good c -> nearest c k v home -> getitem run c (Key k) = Got (wrap v home) c [].
  Proof.
    intros [Hs Hc] (b & raw & a & -> & -> & Hd & Hu). apply nearest_solid; auto.
    - apply Forall_app in Hc. destruct Hc as [_ Hc]. inversion Hc; subst. apply static_unique; assumption.
    - eapply Forall_impl; [intros r; apply static_plain|]. apply Forall_app in Hc. destruct Hc as [H1 H2]. apply Forall_app. split; [exact H1|]. inversion H2; subst. auto.
  Qed.
  Lemma lookup_nowhere c k : good c -> nowhere c k -> getitem run c (Key k) = Got (Plain Null) c [].
  Proof. intros [Hs Hc] H. apply none_solid; auto. eapply Forall_impl; [intros r; apply static_plain|exact Hc]. Qed.
  Lemma somewhere c k : nowhere c k \/ exists v home, nearest c k v home.
  Proof.
    induction c as [|raw c IH]; [left; constructor|]. destruct (raw_item raw (Key k)) as [v|] eqn:E.
    - right. exists v, (raw :: c), [], raw, c. repeat split; auto. apply defines_raw_item, E.
    - apply raw_item_undefined in E. destruct IH as [H|(v & home & b & r & a & -> & -> & Hd & Hu)]; [left; constructor; assumption|].
      right. exists v, (r :: a), (raw :: b), r, a. repeat split; auto.
  Qed.
  Lemma wrap_truthy v home : res_truthy (wrap v home) = truthy v.
  Proof. unfold wrap. destruct v as [|b|z|s|[|x l]|[|x d]]; reflexivity. Qed.
  Lemma wrap_sub v home : is_container v = true -> truthy v = true -> wrap v home = Sub (v :: home).
  Proof. intros H1 H2. unfold wrap, or_empty. rewrite H1, H2. reflexivity. Qed.
  Lemma wrap_plain v home : is_container v = false -> wrap v home = Plain v.
  Proof. intros H. unfold wrap. rewrite H. reflexivity. Qed.
  Lemma get_unset c k d : good c -> unset c k -> get run c k d = Got d c [].
  Proof.
    intros Hg [H|(v & home & H & Hv)]; unfold get.
    - rewrite (lookup_nowhere c k Hg H). reflexivity.
    - rewrite (lookup_nearest c k v home Hg H), wrap_truthy, Hv. reflexivity.
  Qed.
  Lemma get_set c k d v home : good c -> nearest c k v home -> truthy v = true -> get run c k d = Got (wrap v home) c [].
  Proof. intros Hg H Hv. unfold get. rewrite (lookup_nearest c k v home Hg H), wrap_truthy, Hv. reflexivity. Qed.
  Lemma item_unset c k : good c -> unset c k -> exists r, getitem run c (Key k) = Got r c [] /\ res_truthy r = false.
  Proof.
    intros Hg [H|(v & home & H & Hv)].
    - rewrite (lookup_nowhere c k Hg H). eauto.
    - rewrite (lookup_nearest c k v home Hg H). eexists. split; [reflexivity|]. rewrite wrap_truthy. exact Hv.
  Qed.
  Lemma unset_or_set c k : unset c k \/ exists v home, nearest c k v home /\ truthy v = true.
  Proof.
    destruct (somewhere c k) as [H|(v & home & H)]; [left; left; exact H|]. destruct (truthy v) eqn:E; [right; eauto|left; right; eauto].
  Qed.
  Lemma reachable_good c : reachable run c -> Forall static c -> good c.
  Proof. intros H S. split; [apply (reachable_solid run c H)|exact S]. Qed.

  (** ** Arguments *)
  Lemma keywords_all d ps : good (VDict d :: ps) -> forall ks, incl ks d ->
    keywords run (VDict d :: ps) (map fst ks) = Fine (map (fun kv => (fst kv, wrap (snd kv) (VDict d :: ps))) ks).
  Proof.
    intros Hg. induction ks as [|[k v] ks IH]; intros Hi; [reflexivity|]. cbn [map fst snd keywords].
    rewrite (lookup_nearest (VDict d :: ps) k v (VDict d :: ps)); [|exact Hg|].
    - rewrite IH; [reflexivity|]. intros x Hx. apply Hi. right. exact Hx.
    - exists [], (VDict d), ps. repeat split; auto. constructor. apply Hi. left. reflexivity.
  Qed.
  Lemma params_unset c k : good c -> unset c k -> forall r c' ev, getitem run c (Key k) = Got r c' ev -> params_of run r = Fine [].
  Proof.
    intros Hg H r c' ev E. destruct (item_unset c k Hg H) as (r' & E' & F). rewrite E' in E. injection E as <- <- <-. unfold params_of. rewrite F. reflexivity.
  Qed.

  (** ** The choice *)
  Lemma named_spec c : good c -> forall s ps, asks c s ps <-> exists a, named run c = Fine (Plain (VStr s), a) /\ params_of run a = Fine ps.
  Proof.
    intros Hg s ps. split.
    - intros [H|s0 home H Hs|v home s0 home' H Hc Ht Hn Ha|v home s0 home' a home'' H Hc Ht Hn Ha Hne]; unfold named.
      + rewrite (get_unset c _ _ Hg H). eexists. split; reflexivity.
      + rewrite (get_set c _ _ (VStr s0) home Hg H) by (destruct s0; [congruence|reflexivity]). eexists. split; reflexivity.
      + destruct (nearest_good c _ _ _ Hg H) as [Hg' _]. rewrite (get_set c _ _ v home Hg H Ht), (wrap_sub v home Hc Ht).
        destruct (item_unset _ _ Hg' Ha) as (r & Er & Fr). rewrite Er, (lookup_nearest _ _ _ _ Hg' Hn). cbn [wrap is_container].
        exists r. split; [reflexivity|]. unfold params_of. rewrite Fr. reflexivity.
      + destruct (nearest_good c _ _ _ Hg H) as [Hg' _]. rewrite (get_set c _ _ v home Hg H Ht), (wrap_sub v home Hc Ht).
        rewrite (lookup_nearest _ _ _ _ Hg' Ha), (lookup_nearest _ _ _ _ Hg' Hn). cbn [is_container wrap].
        assert (truthy (VDict a) = true) as Ta by (destruct a; [congruence|reflexivity]).
        eexists. split; [reflexivity|]. unfold params_of, or_empty. rewrite Ta. cbn [res_truthy]. rewrite Ta.
        destruct (nearest_good _ _ _ _ Hg' Ha) as [Hga _]. apply keywords_all; [exact Hga|apply incl_refl].
    - intros (a & E & Ep). unfold named in E. destruct (unset_or_set c (B "checker")) as [H|(v & home & H & Ht)].
      + rewrite (get_unset c _ _ Hg H) in E. injection E as Es Ea. subst s a. injection Ep as Ep. subst ps. constructor. exact H.
      + rewrite (get_set c _ _ v home Hg H Ht) in E. destruct (is_container v) eqn:Hc.
        * rewrite (wrap_sub v home Hc Ht) in E. destruct (nearest_good c _ _ _ Hg H) as [Hg' _].
          destruct (unset_or_set (v :: home) (B "args")) as [Ha|(a0 & ha & Ha & Hat)].
          -- destruct (item_unset _ _ Hg' Ha) as (r & Er & Fr). rewrite Er in E.
             destruct (somewhere (v :: home) (B "name")) as [Hn|(n & hn & Hn)]; [rewrite (lookup_nowhere _ _ Hg' Hn) in E; discriminate E|].
             rewrite (lookup_nearest _ _ _ _ Hg' Hn) in E. unfold params_of in Ep. injection E as En <-. rewrite Fr in Ep. injection Ep as <-.
             unfold wrap in En. destruct (is_container n) eqn:Ec; [discriminate En|]. injection En as ->.
             eapply asks_plain; eauto.
          -- rewrite (lookup_nearest _ _ _ _ Hg' Ha) in E.
             destruct (somewhere (v :: home) (B "name")) as [Hn|(n & hn & Hn)]; [rewrite (lookup_nowhere _ _ Hg' Hn) in E; discriminate E|].
             rewrite (lookup_nearest _ _ _ _ Hg' Hn) in E. injection E as En <-.
             unfold wrap in En. destruct (is_container n) eqn:Ec; [discriminate En|]. injection En as ->.
             unfold params_of in Ep. rewrite wrap_truthy, Hat in Ep. destruct (is_container a0) eqn:Eca; [|rewrite (wrap_plain a0 ha Eca) in Ep; discriminate Ep].
             rewrite (wrap_sub a0 ha Eca Hat) in Ep. destruct a0 as [| | | |l|d]; try discriminate.
             destruct (nearest_good _ _ _ _ Hg' Ha) as [Hga _]. rewrite (keywords_all d ha Hga d (incl_refl d)) in Ep. injection Ep as <-.
             eapply asks_args; eauto. intros C. subst d. discriminate Hat.
        * rewrite (wrap_plain v home Hc) in E. injection E as -> <-. injection Ep as <-. apply (asks_name c s home H). intros C. subst s. discriminate Ht.
  Qed.
  Lemma asks_fun c s ps s' ps' : good c -> asks c s ps -> asks c s' ps' -> s = s' /\ ps = ps'.
  Proof.
    intros Hg H H'. apply (named_spec c Hg) in H. apply (named_spec c Hg) in H'. destruct H as (a & E & P), H' as (a' & E' & P').
    rewrite E in E'. injection E' as <- <-. rewrite P in P'. injection P' as <-. auto.
  Qed.
End Lookup.

Lemma has_dot_contains s : has_dot s <-> contains (B ".") s = true.
Proof. rewrite contains_occurs. reflexivity. Qed.
Lemma in_builtin s : existsb (beqb s) builtin_checkers = true <-> In s builtin_checkers.
Proof.
  rewrite existsb_exists. split.
  - intros (x & Hx & E). apply beqb_eq in E. subst. exact Hx.
  - intros H. exists s. split; [exact H|]. apply beqb_eq. reflexivity.
Qed.

Section Choice.
  Variable run : bool -> value -> chain -> option value.
  Variable execute : nat -> list N -> module.
  Notation checker := (checker run execute). Notation load_checker := (load_checker execute).
  Lemma choice_fine c st ch ps : good c -> fst (checker c st) = Fine (ch, ps) <->
    exists s, asks c s ps /\ ((~ has_dot s /\ In s builtin_checkers /\ ch = Builtin s)
                              \/ (has_dot s /\ exists n, fst (load_checker st s) = (Module true, n) /\ ch = FromFile s n)).
  Proof.
    intros Hg. split.
    - intros H. unfold Loading.checker in H. destruct (named run c) as [[[v|n0] a]|f] eqn:En; try discriminate H. destruct v; try discriminate H.
      exists s. destruct (contains (B ".") s) eqn:Ed.
      + destruct (Loading.load_checker execute st s) as [[[[|]| | |] n] st'] eqn:El; try discriminate H. cbn in H.
        destruct (params_of run a) as [p|f] eqn:Ep; [|discriminate H]. injection H as <- <-. split; [apply (named_spec run c Hg); eauto|].
        right. split; [apply has_dot_contains; exact Ed|]. exists n. split; reflexivity.
      + destruct (existsb (beqb s) builtin_checkers) eqn:Eb; [|discriminate H]. cbn in H.
        destruct (params_of run a) as [p|f] eqn:Ep; [|discriminate H]. injection H as <- <-. split; [apply (named_spec run c Hg); eauto|].
        left. split; [rewrite has_dot_contains, Ed; discriminate|]. split; [apply in_builtin, Eb|reflexivity].
    - intros (s & Ha & Hc). apply (named_spec run c Hg) in Ha. destruct Ha as (a & En & Ep). unfold Loading.checker. rewrite En.
      destruct Hc as [(Hd & Hb & ->)|(Hd & n & El & ->)].
      + rewrite has_dot_contains in Hd. destruct (contains (B ".") s); [congruence|]. apply in_builtin in Hb. rewrite Hb, Ep. reflexivity.
      + apply has_dot_contains in Hd. rewrite Hd. destruct (Loading.load_checker execute st s) as [[m k] st']. cbn in El. injection El as -> ->. rewrite Ep. reflexivity.
  Qed.
  Lemma choice_unknown c st s ps : good c -> asks c s ps -> ~ has_dot s -> ~ In s builtin_checkers -> checker c st = (Fails InvalidInit, st).
  Proof.
    intros Hg Ha Hd Hb. apply (named_spec run c Hg) in Ha. destruct Ha as (a & En & Ep). unfold Loading.checker. rewrite En.
    rewrite has_dot_contains in Hd. destruct (contains (B ".") s); [congruence|].
    destruct (existsb (beqb s) builtin_checkers) eqn:Eb; [apply in_builtin in Eb; contradiction|reflexivity].
  Qed.
  Lemma choice_bad c st s ps : good c -> asks c s ps -> has_dot s -> (forall b, kept_checker s (kept st) <> Some b) ->
    execute (length (executed st)) s = NoModule \/ execute (length (executed st)) s = Module false -> fst (checker c st) = Fails InvalidInit.
  Proof.
    intros Hg Ha Hd Hk He. apply (named_spec run c Hg) in Ha. destruct Ha as (a & En & Ep). unfold Loading.checker. rewrite En.
    apply has_dot_contains in Hd. rewrite Hd. unfold Loading.load_checker. destruct (kept_checker s (kept st)) as [b|]; [destruct (Hk b); reflexivity|].
    destruct He as [-> | ->]; reflexivity.
  Qed.

  (** ** Modules are executed once *)
  Definition kept_inv (st : checkers) : Prop :=
    forall s n b, kept_checker s (kept st) = Some (n, b) -> nth_error (executed st) n = Some s /\ execute n s = Module b.
  Definition fresh_inv (st : checkers) : Prop :=
    forall s n b, nth_error (executed st) n = Some s -> execute n s = Module b -> kept_checker s (kept st) = Some (n, b).
  Lemma load_inv st s : kept_inv st -> fresh_inv st -> let r := load_checker st s in
    kept_inv (snd r) /\ fresh_inv (snd r) /\ (exists l, executed (snd r) = executed st ++ l)
    /\ (forall b, fst (fst r) = Module b -> kept_checker s (kept (snd r)) = Some (snd (fst r), b)).
  Proof.
    intros Hk Hf. cbv zeta. unfold Loading.load_checker. destruct (kept_checker s (kept st)) as [[n b]|] eqn:E; cbn [fst snd].
    - split; [exact Hk|]. split; [exact Hf|]. split; [exists []; symmetry; apply app_nil_r|]. intros b' Hb. injection Hb as <-. exact E.
    - assert (nth_error (executed st ++ [s]) (length (executed st)) = Some s) as Hn by (rewrite nth_error_app2, Nat.sub_diag by lia; reflexivity).
      split; [|split; [|split; [exists [s]; reflexivity|]]].
      + intros s' n b H. cbn [kept executed] in *. destruct (execute (length (executed st)) s) as [b0| | |] eqn:Ex.
        * cbn [kept_checker] in H. destruct (beqb s' s) eqn:Es.
          -- apply beqb_eq in Es. subst s'. injection H as <- <-. auto.
          -- destruct (Hk s' n b H) as [H1 H2]. split; [|exact H2]. rewrite nth_error_app1; [exact H1|]. apply nth_error_Some. congruence.
        * destruct (Hk s' n b H) as [H1 H2]. split; [|exact H2]. rewrite nth_error_app1; [exact H1|]. apply nth_error_Some. congruence.
        * destruct (Hk s' n b H) as [H1 H2]. split; [|exact H2]. rewrite nth_error_app1; [exact H1|]. apply nth_error_Some. congruence.
        * destruct (Hk s' n b H) as [H1 H2]. split; [|exact H2]. rewrite nth_error_app1; [exact H1|]. apply nth_error_Some. congruence.
      + intros s' n b H Hx. cbn [kept executed] in *. destruct (Nat.lt_trichotomy n (length (executed st))) as [L|[L|L]].
        * rewrite nth_error_app1 in H by exact L. specialize (Hf s' n b H Hx).
          destruct (execute (length (executed st)) s); auto. cbn [kept_checker]. destruct (beqb s' s) eqn:Es; [|exact Hf]. apply beqb_eq in Es. congruence.
        * subst n. rewrite Hn in H. injection H as <-. rewrite Hx. cbn [kept_checker]. replace (beqb s s) with true by (symmetry; apply beqb_eq; reflexivity). reflexivity.
        * rewrite (proj2 (nth_error_None _ _)) in H; [discriminate H|]. rewrite app_length. cbn. lia.
      + intros b Hb. cbn [kept]. rewrite Hb. cbn [kept_checker]. replace (beqb s s) with true by (symmetry; apply beqb_eq; reflexivity). reflexivity.
  Qed.
  Lemma load_kept st s : kept_inv st -> kept_inv (snd (load_checker st s)).
  Proof.
    intros Hk. unfold Loading.load_checker. destruct (kept_checker s (kept st)) as [[n b]|]; [exact Hk|]. intros s' n b H. cbn [kept executed snd] in *.
    assert (kept_checker s' (kept st) = Some (n, b) -> nth_error (executed st ++ [s]) n = Some s' /\ execute n s' = Module b) as Hold.
    { intros Ho. destruct (Hk s' n b Ho) as [H1 H2]. split; [|exact H2]. rewrite nth_error_app1; [exact H1|]. apply nth_error_Some. congruence. }
    destruct (execute (length (executed st)) s) as [b0| | |] eqn:Ex; auto. cbn [kept_checker] in H. destruct (beqb s' s) eqn:Es; auto.
    apply beqb_eq in Es. subst s'. injection H as <- <-. split; [|exact Ex]. rewrite nth_error_app2, Nat.sub_diag by lia. reflexivity.
  Qed.
  Lemma checker_state c st : snd (checker c st) = st \/ exists s, snd (checker c st) = snd (load_checker st s).
  Proof.
    unfold Loading.checker. destruct (named run c) as [[[v|n] a]|f]; auto. destruct v; auto.
    destruct (contains (B ".") s); [|destruct (existsb _ _); auto]. right. exists s.
    destruct (Loading.load_checker execute st s) as [[[[|]| | |] n] st']; reflexivity.
  Qed.
  Lemma checker_uses c st s n ps : fst (checker c st) = Fine (FromFile s n, ps) -> kept_inv st -> fresh_inv st ->
    kept_checker s (kept (snd (checker c st))) = Some (n, true).
  Proof.
    intros H Hk Hf. unfold Loading.checker in *. destruct (named run c) as [[[v|n0] a]|f]; try discriminate H. destruct v; try discriminate H.
    destruct (contains (B ".") s0); [|destruct (existsb _ _); [cbn in H; destruct (params_of run a); discriminate H|discriminate H]].
    pose proof (load_inv st s0 Hk Hf) as (_ & _ & _ & L). cbv zeta in L.
    destruct (Loading.load_checker execute st s0) as [[[[|]| | |] m] st'] eqn:El; try discriminate H. cbn in *.
    destruct (params_of run a); [|discriminate H]. injection H as <- <- _. apply L. reflexivity.
  Qed.
  Lemma kept_stays st s n b s' : kept_inv st -> fresh_inv st -> kept_checker s (kept st) = Some (n, b) -> kept_checker s (kept (snd (load_checker st s'))) = Some (n, b).
  Proof.
    intros Hk Hf H. destruct (load_inv st s' Hk Hf) as (_ & Hf' & (l & El) & _). destruct (Hk s n b H) as [H1 H2]. apply Hf'; [|exact H2].
    rewrite El, nth_error_app1; [exact H1|]. apply nth_error_Some. congruence.
  Qed.
  Lemma checker_step c st : kept_inv st -> fresh_inv st -> kept_inv (snd (checker c st)) /\ fresh_inv (snd (checker c st))
    /\ (forall s n b, kept_checker s (kept st) = Some (n, b) -> kept_checker s (kept (snd (checker c st))) = Some (n, b)).
  Proof.
    intros Hk Hf. destruct (checker_state c st) as [->|(s & ->)]; [auto|]. destruct (load_inv st s Hk Hf) as (H1 & H2 & _). split; [exact H1|]. split; [exact H2|].
    intros s' n b H. apply kept_stays; assumption.
  Qed.
  Lemma checkers_run cs : forall st, kept_inv st -> fresh_inv st -> let r := checkers_of run execute cs st in
    kept_inv (snd r) /\ fresh_inv (snd r)
    /\ (forall s n b, kept_checker s (kept st) = Some (n, b) -> kept_checker s (kept (snd r)) = Some (n, b))
    /\ (forall s n ps, In (Fine (FromFile s n, ps)) (fst r) -> kept_checker s (kept (snd r)) = Some (n, true)).
  Proof.
    induction cs as [|c cs IH]; intros st Hk Hf; cbn [Loading.checkers_of]; [cbn; split; [exact Hk|]; split; [exact Hf|]; split; [auto|contradiction]|].
    pose proof (checker_step c st Hk Hf) as (Hk1 & Hf1 & M1). pose proof (checker_uses c st) as U.
    destruct (Loading.checker run execute c st) as [o st1]. cbn [fst snd] in *. specialize (IH st1 Hk1 Hf1).
    destruct (Loading.checkers_of run execute cs st1) as [os st2]. cbn [fst snd] in *. destruct IH as (Hk2 & Hf2 & M2 & U2).
    split; [exact Hk2|]. split; [exact Hf2|]. split; [eauto|]. intros s n ps [H|H]; [|eauto]. apply M2. eapply U; eauto.
  Qed.
  Lemma inv_empty : kept_inv no_checkers /\ fresh_inv no_checkers.
  Proof. split; [intros s n b H; discriminate H|intros s n b H; destruct n; discriminate H]. Qed.
  Lemma one_module cs s n ps m qs : let r := fst (checkers_of run execute cs no_checkers) in
    In (Fine (FromFile s n, ps)) r -> In (Fine (FromFile s m, qs)) r -> n = m.
  Proof.
    cbv zeta. intros H H'. destruct inv_empty as [Hk Hf]. destruct (checkers_run cs no_checkers Hk Hf) as (_ & _ & _ & U). cbv zeta in U.
    pose proof (U _ _ _ H) as E. pose proof (U _ _ _ H') as E'. rewrite E in E'. injection E' as <-. reflexivity.
  Qed.
  Lemma executed_once cs i j s b b' : let st := snd (checkers_of run execute cs no_checkers) in
    nth_error (executed st) i = Some s -> nth_error (executed st) j = Some s -> execute i s = Module b -> execute j s = Module b' -> i = j.
  Proof.
    cbv zeta. intros H H' E E'. destruct inv_empty as [Hk Hf]. destruct (checkers_run cs no_checkers Hk Hf) as (_ & F & _).
    pose proof (F _ _ _ H E) as Q. pose proof (F _ _ _ H' E') as Q'. rewrite Q in Q'. injection Q' as <-. reflexivity.
  Qed.
  Lemma history cs : forall st, kept_inv st -> fresh_inv st -> let r := checkers_of run execute cs st in
    length (fst r) = length cs /\ forall i c ch ps, nth_error cs i = Some c -> good c -> nth_error (fst r) i = Some (Fine (ch, ps)) ->
    exists s, asks c s ps /\ ((~ has_dot s /\ In s builtin_checkers /\ ch = Builtin s)
                              \/ (has_dot s /\ exists n, ch = FromFile s n /\ nth_error (executed (snd r)) n = Some s /\ execute n s = Module true)).
  Proof.
    intros st Hk Hf. cbv zeta. pose proof (checkers_run cs st Hk Hf) as (Hk' & _ & _ & U). cbv zeta in *.
    assert (forall cs st, length (fst (checkers_of run execute cs st)) = length cs /\ forall i c o, nth_error cs i = Some c -> nth_error (fst (checkers_of run execute cs st)) i = Some o ->
      exists st1, fst (checker c st1) = o) as Hstep.
    { clear. induction cs as [|c cs IH]; intros st; cbn [Loading.checkers_of]; [split; [reflexivity|intros [|i] c o H; discriminate H]|].
      destruct (Loading.checker run execute c st) as [o1 st1] eqn:E. specialize (IH st1). destruct (Loading.checkers_of run execute cs st1) as [os st2]. cbn in *.
      destruct IH as [Hl IH]. split; [congruence|]. intros [|i] c' o Hc Ho; cbn in *; [|eauto]. injection Hc as <-. injection Ho as <-. exists st. rewrite E. reflexivity. }
    destruct (Hstep cs st) as [Hl Hs]. split; [exact Hl|]. intros i c ch ps Hc Hg Ho. destruct (Hs i c _ Hc Ho) as [st1 E].
    apply (choice_fine c st1 ch ps Hg) in E. destruct E as (s & Ha & [H|(Hd & n & _ & ->)]); exists s; split; auto.
    right. split; [exact Hd|]. exists n. split; [reflexivity|]. apply (Hk' s n true). apply (U s n ps). eapply nth_error_In, Ho.
  Qed.
  Lemma builtin_always c st s ps : good c -> asks c s ps -> ~ has_dot s -> In s builtin_checkers -> checker c st = (Fine (Builtin s, ps), st).
  Proof.
    intros Hg Ha Hd Hb. apply (named_spec run c Hg) in Ha. destruct Ha as (a & En & Ep). unfold Loading.checker. rewrite En.
    rewrite has_dot_contains in Hd. destruct (contains (B ".") s); [congruence|]. apply in_builtin in Hb. rewrite Hb, Ep. reflexivity.
  Qed.
  Lemma file_always cs : forall st s, kept_inv st -> fresh_inv st -> has_dot s -> (forall n, execute n s = Module true) ->
    forall i c ps, nth_error cs i = Some c -> good c -> asks c s ps ->
    exists n, nth_error (fst (checkers_of run execute cs st)) i = Some (Fine (FromFile s n, ps)).
  Proof.
    induction cs as [|c cs IH]; intros st s Hk Hf Hd He [|i] c' ps Hc Hg Ha; try discriminate Hc; cbn [Loading.checkers_of].
    - injection Hc as ->. destruct (Loading.checker run execute c' st) as [o st1] eqn:E. destruct (Loading.checkers_of run execute cs st1) as [os st2]. cbn.
      assert (exists n, fst (checker c' st) = Fine (FromFile s n, ps)) as [n Hn]; [|exists n; rewrite E in Hn; cbn in Hn; congruence].
      destruct (fst (load_checker st s)) as [m n] eqn:El. exists n. apply (choice_fine c' st _ ps Hg). exists s. split; [exact Ha|]. right. split; [exact Hd|]. exists n. split; [|reflexivity].
      rewrite El. unfold Loading.load_checker in El. destruct (kept_checker s (kept st)) as [[n0 b]|] eqn:Ek; cbn in El.
      + destruct (Hk s n0 b Ek) as [_ H2]. rewrite He in H2. injection H2 as <-. congruence.
      + rewrite He in El. congruence.
    - pose proof (checker_step c st Hk Hf) as (Hk1 & Hf1 & _). destruct (Loading.checker run execute c st) as [o st1]. cbn in *.
      destruct (IH st1 s Hk1 Hf1 Hd He i c' ps Hc Hg Ha) as [n H]. destruct (Loading.checkers_of run execute cs st1) as [os st2]. cbn in *. eauto.
  Qed.
End Choice.

(** ** Data *)
Lemma entry_last z k d : entry k z = Some d <-> last_entry z k d.
Proof.
  unfold last_entry. induction z as [|[k' d'] z IH]; cbn [entry].
  - split; [discriminate|]. intros (a & b & E & _). destruct a; discriminate E.
  - destruct (entry k z) as [x|] eqn:E.
    + split.
      * intros H. injection H as ->. apply proj1 in IH. destruct (IH eq_refl) as (a & b & -> & Hn). exists ((k', d') :: a), b. auto.
      * intros (a & b & H & Hn). destruct a as [|e a].
        -- cbn in H. injection H as -> -> ->. exfalso. assert (entry k b = None) as C; [|congruence].
           clear -Hn. induction b as [|[k0 d0] b IH]; [reflexivity|]. cbn in *. rewrite IH by tauto. destruct (beqb k k0) eqn:Q; [apply beqb_eq in Q; subst; tauto|reflexivity].
        -- cbn in H. injection H as He Hz. subst z. apply IH. exists a, b. auto.
    + assert (~ In k (map fst z)) as Hno.
      { clear -E. induction z as [|[k0 d0] z IH]; [auto|]. cbn in *. destruct (entry k z); [discriminate|]. intros [<-|C].
        - replace (beqb k0 k0) with true in E by (symmetry; apply beqb_eq; reflexivity). discriminate E.
        - apply IH; auto. }
      destruct (beqb k k') eqn:Q.
      * apply beqb_eq in Q. subst k'. split.
        -- intros H. injection H as ->. exists [], z. auto.
        -- intros (a & b & H & Hn). destruct a as [|e a]; [cbn in H; injection H as -> ->; reflexivity|]. cbn in H. injection H as He Hz. subst z.
           exfalso. apply Hno. rewrite map_app. apply in_or_app. right. left. reflexivity.
      * split; [discriminate|]. intros (a & b & H & Hn). destruct a as [|e a]; cbn in H.
        -- injection H as -> -> ->. replace (beqb k k) with true in Q by (symmetry; apply beqb_eq; reflexivity). discriminate Q.
        -- injection H as He Hz. subst z. exfalso. apply Hno. rewrite map_app. apply in_or_app. right. left. reflexivity.
Qed.
Lemma find_update d new k : NoDup (map fst new) -> find k (update d new) = match find k new with Some v => Some v | None => find k d end.
Proof.
  unfold update. revert d. induction new as [|[k' v'] new IH]; intros d Hn; [reflexivity|]. cbn [fold_left fst snd].
  inversion Hn as [|x l Hni Hn']; subst. rewrite IH by exact Hn'. cbn [find]. destruct (beqb k k') eqn:E.
  - apply beqb_eq in E. subst k'. rewrite find_store_same. destruct (find k new) as [v|] eqn:Ef; [|reflexivity].
    exfalso. apply Hni. apply (in_map fst new (k, v)), find_In, Ef.
  - rewrite find_store_other; [reflexivity|]. intros ->. replace (beqb k' k') with true in E by (symmetry; apply beqb_eq; reflexivity). discriminate E.
Qed.

(** ** Loading *)
Lemma static_store d k v : static (VDict d) -> static v -> ~ ends_in_plus k -> static (VDict (store k v d)).
Proof.
  intros (H1 & H2 & H3) Hv Hk. split; [apply nodup_store, H1|]. split.
  - apply Forall_forall. intros x Hx. apply keys_store in Hx. destruct Hx as [->|Hx]; [exact Hk|]. rewrite Forall_forall in H2. auto.
  - clear H1 H2. induction d as [|[k' v'] d IH]; [split; [exact Hv|exact I]|]. destruct H3 as [Q1 Q2]. cbn [store]. destruct (beqb k k'); (split; [assumption|]); [exact Q2|apply IH, Q2].
Qed.
Lemma static_update d new : static (VDict d) -> static (VDict new) -> static (VDict (update d new)).
Proof.
  unfold update. revert d. induction new as [|[k v] new IH]; intros d Hd Hn; [exact Hd|]. cbn [fold_left fst snd].
  destruct Hn as (N1 & N2 & N3). inversion N1; subst. inversion N2; subst. destruct N3 as [Q1 Q2]. apply IH; [apply static_store; assumption|]. split; [assumption|]. split; assumption.
Qed.
Lemma plus_last k : ends_in_plus k -> last k 0%N = 43%N.
Proof. intros [p ->]. change (B "+") with [43%N]. rewrite last_last. reflexivity. Qed.
Lemma static_defaults b meta : static meta -> static (VDict (defaults b meta)).
Proof.
  intros H. split; [|split].
  - unfold defaults. cbn [map fst]. repeat (constructor; [intros C; vm_compute in C; repeat (destruct C as [C|C]; [discriminate C|]); exact C|]). constructor.
  - unfold defaults. cbn [map fst]. repeat (constructor; [intros C; apply plus_last in C; discriminate C|]). constructor.
  - cbn. repeat split; auto; constructor.
Qed.
Lemma defaults_usual doc meta k v : find k (defaults (has (B "signature_grader") doc) meta) = Some v <-> usual doc meta k v.
Proof.
  assert (has (B "signature_grader") doc = true <-> exists x, In (B "signature_grader", x) doc) as Hs.
  { unfold has. destruct (find _ doc) as [x|] eqn:E.
    - split; [intros _; exists x; apply find_In, E|reflexivity].
    - split; [discriminate|]. intros [x C]. destruct (proj1 (find_None _ _) E x C). }
  assert (has (B "signature_grader") doc = false <-> ~ exists x, In (B "signature_grader", x) doc) as Hs'.
  { rewrite <- Hs. destruct (has _ doc); split; congruence. }
  unfold usual. rewrite <- Hs', <- Hs. clear Hs Hs'. split.
  - intros H. apply find_In in H. unfold defaults in H. repeat (destruct H as [H|H]; [injection H as <- <-; destruct (has _ doc); tauto|]). destruct H.
  - intros H. destruct H as [[-> ->]|[[-> H]|[[-> ->]|[[-> ->]|[[-> ->]|[[-> ->]|[[-> ->]|[-> ->]]]]]]]]; try reflexivity.
    destruct H as [[-> ->]|[-> ->]]; reflexivity.
Qed.

Section Loads.
  Variable run : bool -> value -> chain -> option value.
  Variable file : list N -> option (list N).
  Variable yaml : list N -> yaml_outcome.
  Variable zip : list N -> zip_outcome.
  Variable compiles : list N -> bool.
  Variable root : list N.

  Lemma item_value c k : good c -> exists v home, getitem run c (Key k) = Got (wrap v home) c []
    /\ (nearest c k v home \/ (nowhere c k /\ v = Null)).
  Proof.
    intros Hg. destruct (somewhere c k) as [H|(v & home & H)].
    - exists Null, []. rewrite (lookup_nowhere run c k Hg H). auto.
    - exists v, home. rewrite (lookup_nearest run c k v home Hg H). auto.
  Qed.
  Lemma wrap_null v home : wrap v home = Plain Null <-> v = Null.
  Proof. unfold wrap. destruct v; cbn; split; intros H; try discriminate H; try reflexivity. Qed.
  Lemma nearest_nowhere c k v home : nearest c k v home -> nowhere c k -> False.
  Proof. intros (b & r & a & -> & -> & Hd & _) H. apply Forall_app in H. destruct H as [_ H]. inversion H; subst. exact (H2 v Hd). Qed.
  Lemma nearest_fun c k v home v' home' : Forall unique_keys c -> nearest c k v home -> nearest c k v' home' -> v = v' /\ home = home'.
  Proof.
    intros Hu (b & r & a & -> & -> & Hd & Hb) (b' & r' & a' & E & -> & Hd' & Hb').
    assert (b = b' /\ r = r' /\ a = a') as (-> & -> & ->).
    { clear Hu. revert b' E Hb'. induction b as [|x b IH]; intros [|x' b'] E Hb'.
      - injection E as -> ->. auto.
      - injection E as -> ->. inversion Hb'; subst. destruct (H1 v Hd).
      - injection E as -> <-. inversion Hb; subst. destruct (H1 v' Hd').
      - injection E as -> E. inversion Hb; subst. inversion Hb'; subst. destruct (IH H2 b' E H4) as (-> & -> & ->). auto. }
    split; [|reflexivity]. apply Forall_app in Hu. destruct Hu as [_ Hu]. inversion Hu; subst.
    pose proof (raw_item_defines _ _ _ H1 Hd) as Q. pose proof (raw_item_defines _ _ _ H1 Hd') as Q'. congruence.
  Qed.
  Lemma good_unique c : good c -> Forall unique_keys c.
  Proof. intros [_ H]. eapply Forall_impl; [apply static_unique|exact H]. Qed.
  (** In a single node the home of a value is the node. *)
  Lemma attr_single raw k : good [raw] -> exists v, attribute [raw] k v /\ getattr run [raw] k = Got (wrap v [raw]) [raw] []
    /\ forall v', attribute [raw] k v' -> v' = v.
  Proof.
    intros Hg. pose proof (good_unique _ Hg) as Hu.
    assert (forall k v home, nearest [raw] k v home -> home = [raw]) as Hhome.
    { intros k0 v home (b & r & a & E & -> & _). destruct b as [|x b]; [injection E as <- <-; reflexivity|destruct b; discriminate E]. }
    destruct (item_value [raw] k Hg) as (v & home & E & Hv). unfold Config.getattr. rewrite E.
    destruct (item_value [raw] (hyphens k) Hg) as (w & home' & E' & Hw).
    assert (v = Null \/ v <> Null) as [->|Hn] by (destruct v; auto; right; discriminate).
    - cbn [wrap is_container]. rewrite E'. exists w. split; [|split].
      + right. split; [destruct Hv as [Hv|[Hv _]]; [right; eauto|left; exact Hv]|]. destruct Hw as [Hw|[Hw ->]]; [left; eauto|right; auto].
      + destruct Hw as [Hw|[Hw ->]]; [rewrite (Hhome _ _ _ Hw); reflexivity|reflexivity].
      + intros v' [(h & H & Hne)|(_ & H)].
        * exfalso. destruct Hv as [Hv|[Hv _]]; [destruct (nearest_fun _ _ _ _ _ _ Hu Hv H); congruence|exact (nearest_nowhere _ _ _ _ H Hv)].
        * destruct H as [[h H]|[H ->]], Hw as [Hw|[Hw ->]]; auto.
          -- destruct (nearest_fun _ _ _ _ _ _ Hu Hw H). congruence.
          -- destruct (nearest_nowhere _ _ _ _ H Hw).
          -- destruct (nearest_nowhere _ _ _ _ Hw H).
    - destruct Hv as [Hv|[_ Hv]]; [|congruence]. assert (home = [raw]) as -> by exact (Hhome _ _ _ Hv).
      assert (match wrap v [raw] with Plain Null => hyphens k | _ => k end = k) as -> by (destruct v; try reflexivity; congruence).
      rewrite E. exists v. split; [left; eauto|]. split; [reflexivity|].
      intros v' [(h & H & _)|([H|[h H]] & _)]; [destruct (nearest_fun _ _ _ _ _ _ Hu Hv H); congruence|destruct (nearest_nowhere _ _ _ _ Hv H)|destruct (nearest_fun _ _ _ _ _ _ Hu Hv H); congruence].
  Qed.
  Lemma archive_spec raw z c1 : good [raw] -> resolve_archive run zip root [raw] = Fine (z, c1) <-> c1 = [raw] /\ archived zip root [raw] z.
  Proof.
    intros Hg. destruct (attr_single raw (B "archive") Hg) as (v & Ha & E & U). unfold resolve_archive. rewrite E, wrap_truthy. split.
    - destruct (truthy v) eqn:T.
      + destruct v; try discriminate. cbn [wrap is_container]. destruct (zip (join root s)) eqn:Z; try discriminate. intros H. injection H as <- <-.
        split; [reflexivity|]. right. exists s, z0. repeat split; auto. intros C. subst s. discriminate T.
      + intros H. injection H as <- <-. split; [reflexivity|]. left. eauto.
    - intros (-> & [(v' & Hv & T & ->)|(s & z' & Hv & Hs & Z & ->)]).
      + apply U in Hv. subst v'. rewrite T. reflexivity.
      + apply U in Hv. subst v. cbn [wrap is_container]. rewrite Z. destruct s; [congruence|reflexivity].
  Qed.
  Lemma archive_invalid raw s : good [raw] -> attribute [raw] (B "archive") (VStr s) -> s <> [] -> zip (join root s) = NoArchive \/ zip (join root s) = BadArchive ->
    resolve_archive run zip root [raw] = Fails InvalidInit.
  Proof.
    intros Hg Ha Hs Hz. destruct (attr_single raw (B "archive") Hg) as (v & _ & E & U). apply U in Ha. subst v. unfold resolve_archive. rewrite E, wrap_truthy.
    destruct s; [congruence|]. cbn [truthy wrap is_container]. destruct Hz as [-> | ->]; reflexivity.
  Qed.
  (** A section, or none. *)
  Definition opt (n : chain) : option chain := match n with [] => None | _ => Some n end.
  Lemma unset_nil k : unset [] k.
  Proof. left. constructor. Qed.
  Lemma nearest_nil k v home : ~ nearest [] k v home.
  Proof. intros (b & r & a & E & _). destruct b; discriminate E. Qed.
  Lemma nearest_det n k v home v' home' : good n -> nearest n k v home -> nearest n k v' home' -> v = v' /\ home = home'.
  Proof. intros Hg. apply nearest_fun, good_unique, Hg. Qed.
  Lemma unset_not_set n k v home : good n -> unset n k -> nearest n k v home -> truthy v = true -> False.
  Proof.
    intros Hg [H|(w & h & H & T)] Hn Tv; [exact (nearest_nowhere _ _ _ _ Hn H)|]. destruct (nearest_det _ _ _ _ _ _ Hg Hn H). congruence.
  Qed.
  Lemma pattern_spec n k d s : good n -> (exists r, get_with_default run (opt n) k (Plain (VStr d)) = Fine r /\ pattern compiles r = Fine s) <-> wanted n k d s /\ compiles s = true.
  Proof.
    intros Hg. assert (forall x, pattern compiles (Plain (VStr x)) = Fine s <-> x = s /\ compiles s = true) as Hp.
    { intros x. cbn. destruct (compiles x) eqn:C; split; try discriminate; [intros H; injection H as <-; auto|intros [<- _]; reflexivity|intros [<- H]; congruence]. }
    destruct n as [|x n].
    - cbn [opt get_with_default]. split.
      + intros (r & H & P). injection H as <-. apply Hp in P. destruct P as [<- P]. split; [left; split; [apply unset_nil|reflexivity]|exact P].
      + intros [[[_ ->]|(_ & home & C)] P]; [|destruct (nearest_nil _ _ _ C)]. eexists. split; [reflexivity|]. apply Hp. auto.
    - cbn [opt get_with_default]. destruct (unset_or_set (x :: n) k) as [Hu|(v & home & Hn & T)].
      + rewrite (get_unset run _ _ _ Hg Hu). split.
        * intros (r & H & P). injection H as <-. apply Hp in P. destruct P as [<- P]. split; [left; auto|exact P].
        * intros [[[_ ->]|(Hs & home & C)] P]; [eexists; split; [reflexivity|]; apply Hp; auto|].
          exfalso. apply (unset_not_set _ _ _ _ Hg Hu C). destruct s; [congruence|reflexivity].
      + rewrite (get_set run _ _ _ _ _ Hg Hn T). split.
        * intros (r & H & P). injection H as <-. destruct v; try discriminate T; try discriminate P.
          apply Hp in P. destruct P as [-> P]. split; [right; split; [intros C; subst s; discriminate T|eauto]|exact P].
        * intros [[[Hu ->]|(Hs & home' & C)] P]; [destruct (unset_not_set _ _ _ _ Hg Hu Hn T)|].
          destruct (nearest_det _ _ _ _ _ _ Hg Hn C) as [-> _]. eexists. split; [reflexivity|]. apply Hp. auto.
  Qed.
  Lemma points_spec n fb p : good n -> points_of run (opt n) fb = Fine p <-> points_wanted n fb p.
  Proof.
    intros Hg. destruct n as [|x n].
    - cbn. split; [intros H; injection H as <-; left; split; [apply unset_nil|reflexivity]|].
      intros [[_ ->]|(v & home & C & _)]; [reflexivity|destruct (nearest_nil _ _ _ C)].
    - cbn [opt points_of]. destruct (unset_or_set (x :: n) (B "case_points")) as [Hu|(v & home & Hn & T)].
      + destruct (item_unset run _ _ Hg Hu) as (r & E & F). rewrite E, F. split; [intros H; injection H as <-; left; auto|].
        intros [[_ ->]|(v & home & C & T & _)]; [reflexivity|destruct (unset_not_set _ _ _ _ Hg Hu C T)].
      + rewrite (lookup_nearest run _ _ _ _ Hg Hn), wrap_truthy, T. split.
        * intros H. right. exists v, home. split; [exact Hn|]. split; [exact T|]. destruct (is_container v) eqn:Ec.
          -- rewrite (wrap_sub v home Ec T) in H. injection H as <-. auto.
          -- rewrite (wrap_plain v home Ec) in H. destruct v; try discriminate H. injection H as <-. right. eauto.
        * intros [[Hu ->]|(w & home' & C & _ & Hp)]; [destruct (unset_not_set _ _ _ _ Hg Hu Hn T)|].
          destruct (nearest_det _ _ _ _ _ _ Hg Hn C) as [-> ->]. destruct Hp as [[Ec ->]|(s & -> & ->)]; [|reflexivity].
          rewrite (wrap_sub w home' Ec T). reflexivity.
  Qed.
  Lemma guess_spec raw n z l : good [raw] -> good n -> guess run compiles z [raw] (opt n) = Fine l <->
    exists e i o pv p, z = Some e /\ wanted n (B "input_format") default_input i /\ compiles i = true
      /\ wanted n (B "output_format") default_output o /\ compiles o = true
      /\ attribute [raw] (B "points") pv /\ points_wanted n (wrap pv [raw]) p /\ l = Guessed (map fst e) i o p.
  Proof.
    intros Hr Hg. destruct (attr_single raw (B "points") Hr) as (pv & Ha & E & U). unfold guess. rewrite E. split.
    - destruct z as [e|]; [|discriminate]. 
      destruct (get_with_default run (opt n) (B "input_format") _) as [ri|] eqn:Ei; [|discriminate]. destruct (pattern compiles ri) as [i|] eqn:Pi; [|discriminate].
      destruct (get_with_default run (opt n) (B "output_format") _) as [ro|] eqn:Eo; [|discriminate]. destruct (pattern compiles ro) as [o|] eqn:Po; [|discriminate].
      destruct (points_of run (opt n) (wrap pv [raw])) as [p|] eqn:Ep; [|discriminate]. intros H. injection H as <-.
      destruct (proj1 (pattern_spec n (B "input_format") default_input i Hg) ltac:(eauto)) as [Wi Ci].
      destruct (proj1 (pattern_spec n (B "output_format") default_output o Hg) ltac:(eauto)) as [Wo Co].
      apply (points_spec n _ p Hg) in Ep. exists e, i, o, pv, p. repeat split; auto.
    - intros (e & i & o & pv' & p & -> & Wi & Ci & Wo & Co & Hp & Wp & ->). apply U in Hp. subst pv'.
      destruct (proj2 (pattern_spec n (B "input_format") default_input i Hg) (conj Wi Ci)) as (ri & Ei & Pi).
      destruct (proj2 (pattern_spec n (B "output_format") default_output o Hg) (conj Wo Co)) as (ro & Eo & Po).
      rewrite Ei, Pi, Eo, Po. apply (points_spec n _ p Hg) in Wp. rewrite Wp. reflexivity.
  Qed.
  Lemma attribute_good raw k v : good [raw] -> attribute [raw] k v -> truthy v = true -> good [v; raw].
  Proof.
    intros Hg Ha T. assert (exists k', nearest [raw] k' v [raw]) as [k' H].
    { assert (forall k v home, nearest [raw] k v home -> home = [raw]) as Hhome.
      { intros k0 v0 home (b & r & a & E & -> & _). destruct b as [|x b]; [injection E as <- <-; reflexivity|destruct b; discriminate E]. }
      destruct Ha as [(h & H & _)|(_ & [[h H]|[_ ->]])]; [| |discriminate T]; pose proof (Hhome _ _ _ H); subst; eauto. }
    exact (proj1 (nearest_good _ _ _ _ Hg H)).
  Qed.
  Lemma cases_spec raw z l : good [raw] -> resolve_cases run compiles z [raw] = Fine l <-> arranged compiles [raw] z l.
  Proof.
    intros Hg. destruct (attr_single raw (B "test_cases") Hg) as (v & Ha & E & U). unfold resolve_cases. rewrite E.
    assert (good []) as Gn by (split; constructor). split.
    - destruct v as [|b|x|s|[|x q]|[|x d]]; cbn [wrap is_container or_empty truthy]; try discriminate.
      + intros H. apply (guess_spec raw [] z l Hg Gn) in H. destruct H as (e & i & o & pv & p & -> & Wi & Ci & Wo & Co & Hp & Wp & ->).
        apply (arr_guessed _ _ _ Null [] e i o pv p); auto.
      + intros H. apply (guess_spec raw [] z l Hg Gn) in H. destruct H as (e & i & o & pv & p & -> & Wi & Ci & Wo & Co & Hp & Wp & ->).
        apply (arr_guessed _ _ _ (VList []) [] e i o pv p); auto.
      + intros H. injection H as <-. apply (arr_listed _ _ _ x q). exact Ha.
      + intros H. apply (guess_spec raw [] z l Hg Gn) in H. destruct H as (e & i & o & pv & p & -> & Wi & Ci & Wo & Co & Hp & Wp & ->).
        apply (arr_guessed _ _ _ (VDict []) [] e i o pv p); eauto.
      + intros H. assert (good [VDict (x :: d); raw]) as G2 by (eapply attribute_good; eauto; reflexivity).
        apply (guess_spec raw [VDict (x :: d); raw] z l Hg G2) in H. destruct H as (e & i & o & pv & p & -> & Wi & Ci & Wo & Co & Hp & Wp & ->).
        apply (arr_guessed _ _ _ (VDict (x :: d)) [VDict (x :: d); raw] e i o pv p); eauto.
    - intros H. destruct H as [x q H|v' n e i o pv p H Hv -> -> Wi Ci Wo Co Hp Wp]; apply U in H.
      + subst v. reflexivity.
      + subst v'. destruct Hv as [->|[->|[d ->]]]; cbn [wrap is_container or_empty truthy].
        * apply (guess_spec raw [] (Some e) _ Hg Gn). exists e, i, o, pv, p. repeat split; auto.
        * apply (guess_spec raw [] (Some e) _ Hg Gn). exists e, i, o, pv, p. repeat split; auto.
        * destruct d as [|x d]; cbn [truthy] in *.
          -- apply (guess_spec raw [] (Some e) _ Hg Gn). exists e, i, o, pv, p. repeat split; auto.
          -- assert (good [VDict (x :: d); raw]) as G2 by (eapply attribute_good; eauto; reflexivity).
             apply (guess_spec raw [VDict (x :: d); raw] (Some e) _ Hg G2). exists e, i, o, pv, p. repeat split; auto.
  Qed.
  Lemma cases_invalid raw v : good [raw] -> attribute [raw] (B "test_cases") v -> v = Null \/ v = VList [] \/ (exists d, v = VDict d) ->
    resolve_cases run compiles None [raw] = Fails InvalidInit.
  Proof.
    intros Hg Ha Hv. destruct (attr_single raw (B "test_cases") Hg) as (w & _ & E & U). apply U in Ha. subst w. unfold resolve_cases. rewrite E.
    destruct Hv as [->|[->|[[|x d] ->]]]; reflexivity.
  Qed.

  Definition the_config (doc : dict) (meta : value) : value := VDict (update (defaults (has (B "signature_grader") doc) meta) doc).
  Lemma config_good doc meta : static (VDict doc) -> static meta -> good [the_config doc meta].
  Proof. intros H1 H2. split; [constructor|]. constructor; [|constructor]. apply static_update; [apply static_defaults, H2|exact H1]. Qed.
  Lemma config_stands doc meta k v : static (VDict doc) -> static meta -> defines (the_config doc meta) (Key k) v <-> stands doc meta k v.
  Proof.
    intros Hd Hm. assert (defines (the_config doc meta) (Key k) v <-> find k (update (defaults (has (B "signature_grader") doc) meta) doc) = Some v) as ->.
    { split.
      - intros H. inversion H; subst. apply In_find; [|assumption]. apply (static_update _ _ (static_defaults _ _ Hm) Hd).
      - intros H. constructor. apply find_In, H. }
    pose proof (proj1 Hd) as Hn. rewrite find_update by exact Hn. unfold stands. rewrite <- defaults_usual. destruct (find k doc) as [w|] eqn:E.
    - split.
      + intros H. injection H as ->. left. apply find_In, E.
      + intros [H|[H _]]; [rewrite (In_find _ _ _ Hn H) in E; congruence|]. destruct (H w). apply find_In, E.
    - pose proof (proj1 (find_None k doc) E) as Hno. split.
      + intros H. right. auto.
      + intros [H|[_ H]]; [destruct (Hno v H)|exact H].
  Qed.
  Lemma load_spec text doc meta p : file (join root (B "init.yml")) = Some text -> yaml text = Document (VDict doc) -> static (VDict doc) -> static meta ->
    load run file yaml zip compiles root meta = Fine p <->
    doc <> [] /\ config p = [the_config doc meta] /\ archived zip root (config p) (archive p) /\ arranged compiles (config p) (archive p) (test_cases p).
  Proof.
    intros Hf Hy Hd Hm. unfold load, problem_data. rewrite Hf, Hy. pose proof (config_good doc meta Hd Hm) as Hg. fold (the_config doc meta).
    destruct doc as [|x doc]; [cbn [truthy]; split; [discriminate|tauto]|]. cbn [truthy]. split.
    - destruct (resolve_archive run zip root _) as [[z c1]|f] eqn:Ea; [|discriminate]. apply (archive_spec _ z c1 Hg) in Ea. destruct Ea as [-> Ha].
      destruct (resolve_cases run compiles z _) as [l|f] eqn:Ec; [|discriminate]. apply (cases_spec _ z l Hg) in Ec. intros H. injection H as <-. cbn. repeat split; auto. discriminate.
    - intros (_ & Hc & Ha & Hr). rewrite Hc in *. destruct p as [c z l]. cbn in *. subst c.
      rewrite (proj2 (archive_spec _ z [the_config (x :: doc) meta] Hg) (conj eq_refl Ha)). rewrite (proj2 (cases_spec _ z l Hg) Hr). reflexivity.
  Qed.
End Loads.

(** ** The theorems as stated *)
Lemma defines_In d k v : defines (VDict d) (Key k) v <-> In (k, v) d.
Proof. split; [intros H; inversion H; subst; assumption|intros H; constructor; exact H]. Qed.
Lemma loads run file yaml zip compiles root text doc meta :
  file (join root (B "init.yml")) = Some text -> yaml text = Document (VDict doc) -> doc <> [] -> static (VDict doc) -> static meta ->
  exists d, NoDup (map fst d) /\ (forall k v, In (k, v) d <-> stands doc meta k v) /\
  forall p, load run file yaml zip compiles root meta = Fine p <->
    config p = [VDict d] /\ archived zip root [VDict d] (archive p) /\ arranged compiles [VDict d] (archive p) (test_cases p).
Proof.
  intros Hf Hy Hn Hd Hm. exists (update (defaults (has (B "signature_grader") doc) meta) doc). split.
  - apply (static_update _ _ (static_defaults _ _ Hm) Hd).
  - split.
    + intros k v. rewrite <- defines_In. apply config_stands; assumption.
    + intros p. rewrite (load_spec run file yaml zip compiles root text doc meta p Hf Hy Hd Hm). fold (the_config doc meta). split.
      * intros (_ & E & H). rewrite E in H. auto.
      * intros (E & H). rewrite E. auto.
Qed.
Lemma needs run file yaml zip compiles root meta p : load run file yaml zip compiles root meta = Fine p ->
  exists text doc, file (join root (B "init.yml")) = Some text /\ yaml text = Document (VDict doc) /\ doc <> [].
Proof.
  unfold load, problem_data. destruct (file _) as [text|]; [|discriminate]. destruct (yaml text) as [v| |] eqn:E; try discriminate.
  destruct v as [|b|x|s|l|[|x d]]; cbn [truthy]; try discriminate.
  - destruct b; discriminate.
  - destruct x; discriminate.
  - destruct s; discriminate.
  - destruct l; discriminate.
  - intros _. exists text, (x :: d). repeat split; auto. discriminate.
Qed.
Lemma invalid run file yaml zip compiles root meta :
  (file (join root (B "init.yml")) = None
   \/ (exists text, file (join root (B "init.yml")) = Some text /\ yaml text = BadSyntax)
   \/ (exists text v, file (join root (B "init.yml")) = Some text /\ yaml text = Document v /\ truthy v = false)
   \/ (exists text doc s, file (join root (B "init.yml")) = Some text /\ yaml text = Document (VDict doc) /\ doc <> []
        /\ static (VDict doc) /\ static meta /\ In (B "archive", VStr s) doc /\ s <> []
        /\ (zip (join root s) = NoArchive \/ zip (join root s) = BadArchive))
   \/ (exists text doc, file (join root (B "init.yml")) = Some text /\ yaml text = Document (VDict doc) /\ doc <> []
        /\ static (VDict doc) /\ static meta /\ (forall v, ~ In (B "archive", v) doc)
        /\ (forall v, ~ In (B "test_cases", v) doc) /\ (forall v, ~ In (B "test-cases", v) doc))) ->
  load run file yaml zip compiles root meta = Fails InvalidInit.
Proof.
  unfold load, problem_data. intros [->|[(t & -> & ->)|[(t & v & -> & -> & ->)|[(t & doc & s & -> & -> & Hn & Hd & Hm & Ha & Hs & Hz)|(t & doc & -> & -> & Hn & Hd & Hm & Ha & Hc & Hc')]]]]; try reflexivity.
  - pose proof (config_good doc meta Hd Hm) as Hg. fold (the_config doc meta). destruct doc as [|x doc]; [congruence|]. cbn [truthy].
    rewrite (archive_invalid run zip root (the_config (x :: doc) meta) s Hg); auto. left. exists [the_config (x :: doc) meta]. split; [|discriminate].
    exists [], (the_config (x :: doc) meta), []. split; [reflexivity|]. split; [reflexivity|]. split; [|constructor]. apply config_stands; [assumption|assumption|]. left. exact Ha.
  - pose proof (config_good doc meta Hd Hm) as Hg. fold (the_config doc meta). destruct doc as [|x doc]; [congruence|]. cbn [truthy].
    assert (forall k, (forall v, ~ In (k, v) (x :: doc)) -> (forall v, ~ usual (x :: doc) meta k v) -> nowhere [the_config (x :: doc) meta] k) as Hw.
    { intros k H1 H2. constructor; [|constructor]. intros v Hv. apply config_stands in Hv; [|assumption|assumption]. destruct Hv as [Hv|[_ Hv]]; [exact (H1 _ Hv)|exact (H2 _ Hv)]. }
    assert (forall k v, k = B "archive" \/ k = B "test_cases" \/ k = B "test-cases" -> ~ usual (x :: doc) meta k v) as Hu.
    { intros k v Hk U. unfold usual in U. destruct Hk as [->|[->| ->]]; repeat (destruct U as [[U _]|U]; [discriminate U|]); destruct U as [U _]; discriminate U. }
    assert (nowhere [the_config (x :: doc) meta] (B "archive")) as H1 by (apply Hw; [assumption|intros; apply Hu; auto]).
    assert (nowhere [the_config (x :: doc) meta] (B "test_cases")) as H2 by (apply Hw; [assumption|intros; apply Hu; auto]).
    assert (nowhere [the_config (x :: doc) meta] (B "test-cases")) as H3 by (apply Hw; [assumption|intros; apply Hu; auto]).
    rewrite (proj2 (archive_spec run zip root (the_config (x :: doc) meta) None [the_config (x :: doc) meta] Hg)).
    + rewrite (cases_invalid run compiles (the_config (x :: doc) meta) Null Hg); auto. right. split; [left; exact H2|right]. split; [exact H3|reflexivity].
    + split; [reflexivity|]. left. exists Null. split; [|auto]. right. split; [left; exact H1|right]. split; [exact H1|reflexivity].
Qed.
Lemma entry_none z k : entry k z = None <-> ~ In k (map fst z).
Proof.
  induction z as [|[k' d] z IH]; cbn; [tauto|]. destruct (entry k z) as [x|].
  - split; [discriminate|]. intros H. exfalso. assert (Some x = None) by (apply IH; auto). discriminate.
  - destruct (beqb k k') eqn:E.
    + apply beqb_eq in E. split; [discriminate|]. intros H. exfalso. apply H. auto.
    + split; [|auto]. intros _ [H|H]; [subst; rewrite (proj2 (beqb_eq k k) eq_refl) in E; discriminate E|tauto].
Qed.
Lemma data_spec file root z k r : problem_data file root z k = r <->
  match r with
  | Found d => file (join root k) = Some d
               \/ (file (join root k) = None /\ exists e, z = Some e /\ last_entry e k (Some d))
  | Unreadable => file (join root k) = None /\ exists e, z = Some e /\ last_entry e k None
  | Missing => file (join root k) = None /\ (z = None \/ exists e, z = Some e /\ ~ In k (map fst e))
  end.
Proof.
  unfold problem_data. destruct (file (join root k)) as [d|].
  - destruct r as [d'| |]; split; try discriminate; try (intros [H _]; discriminate H); [intros H; injection H as <-; auto|].
    intros [H|[H _]]; [injection H as <-; reflexivity|discriminate H].
  - destruct z as [e|].
    + destruct (entry k e) as [[d|]|] eqn:E; destruct r as [d'| |]; split; try discriminate; intros H.
      * injection H as <-. right. split; [reflexivity|]. exists e. split; [reflexivity|]. apply entry_last, E.
      * destruct H as [H|(_ & e' & He & H)]; [discriminate H|]. injection He as <-. apply entry_last in H. congruence.
      * destruct H as (_ & [H|(e' & He & H)]); [discriminate H|]. injection He as <-. apply entry_none in H. congruence.
      * destruct H as (_ & e' & He & H). injection He as <-. apply entry_last in H. congruence.
      * destruct H as [H|(_ & e' & He & H)]; [discriminate H|]. injection He as <-. apply entry_last in H. congruence.
      * destruct H as (_ & [H|(e' & He & H)]); [discriminate H|]. injection He as <-. apply entry_none in H. congruence.
      * split; [reflexivity|]. exists e. split; [reflexivity|]. apply entry_last, E.
      * reflexivity.
      * destruct H as [H|(_ & e' & He & H)]; [discriminate H|]. injection He as <-. apply entry_last in H. congruence.
      * split; [reflexivity|]. right. exists e. split; [reflexivity|]. apply entry_none, E.
      * reflexivity.
      * destruct H as (_ & e' & He & H). injection He as <-. apply entry_last in H. congruence.
    + destruct r as [d'| |]; split; try discriminate; auto.
      * intros [H|(_ & e & H & _)]; discriminate H.
      * intros (_ & e & H & _). discriminate H.
Qed.
Lemma choice run execute cs i c ch ps : let r := checkers_of run execute cs no_checkers in
  nth_error cs i = Some c -> reachable run c -> Forall static c -> nth_error (fst r) i = Some (Fine (ch, ps)) ->
  exists s, asks c s ps /\ ((~ has_dot s /\ In s builtin_checkers /\ ch = Builtin s)
    \/ (has_dot s /\ exists n, ch = FromFile s n /\ nth_error (executed (snd r)) n = Some s /\ execute n s = Module true)).
Proof.
  cbv zeta. intros Hc R S Ho. destruct (inv_empty execute) as [Hk Hf]. destruct (history run execute cs no_checkers Hk Hf) as [_ H].
  exact (H i c ch ps Hc (reachable_good run c R S) Ho).
Qed.
Lemma file_checker run execute cs i c s ps : nth_error cs i = Some c -> reachable run c -> Forall static c ->
  asks c s ps -> has_dot s -> (forall n, execute n s = Module true) ->
  exists n, nth_error (fst (checkers_of run execute cs no_checkers)) i = Some (Fine (FromFile s n, ps)).
Proof.
  intros Hc R S Ha Hd He. destruct (inv_empty execute) as [Hk Hf]. exact (file_always run execute cs no_checkers s Hk Hf Hd He i c ps Hc (reachable_good run c R S) Ha).
Qed.
Lemma bad_file run execute cs i c s ps : nth_error cs i = Some c -> reachable run c -> Forall static c ->
  asks c s ps -> has_dot s -> (forall n, execute n s = NoModule) \/ (forall n, execute n s = Module false) ->
  nth_error (fst (checkers_of run execute cs no_checkers)) i = Some (Fails InvalidInit).
Proof.
  intros Hc R S Ha Hd He. pose proof (reachable_good run c R S) as Hg. destruct (inv_empty execute) as [Hk _]. revert i Hc Hk.
  generalize no_checkers as st. induction cs as [|c0 cs IH]; intros st [|i] Hc Hk; try discriminate Hc; cbn [checkers_of].
  - injection Hc as ->. destruct (checker run execute c st) as [o st1] eqn:E. destruct (checkers_of run execute cs st1) as [os st2]. cbn. f_equal.
    change o with (fst (o, st1)). rewrite <- E. clear E IH. apply (named_spec run c Hg) in Ha. destruct Ha as (a & En & Ep). unfold checker. rewrite En.
    apply has_dot_contains in Hd. rewrite Hd. unfold load_checker. destruct (kept_checker s (kept st)) as [[n b]|] eqn:Ek.
    + destruct (Hk s n b Ek) as [_ H]. destruct He as [He|He]; rewrite He in H; [discriminate H|]. injection H as <-. reflexivity.
    + destruct He as [He|He]; rewrite He; reflexivity.
  - destruct (checker run execute c0 st) as [o st1] eqn:E. assert (kept_inv execute st1) as Hk1.
    { destruct (checker_state run execute c0 st) as [H|(s0 & H)]; rewrite E in H; cbn in H; subst; [exact Hk|]. apply (load_kept run execute st s0 Hk). }
    specialize (IH st1 i Hc Hk1). destruct (checkers_of run execute cs st1). exact IH.
Qed.
