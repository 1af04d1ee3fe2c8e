From Coq Require Import String ZifyBool ZifyNat ZifyN.
From Verif Require Import Model.Bytes Proofs.BytesLemmas Model.Paths Spec.Paths Proofs.Paths Model.Roots Spec.Roots Model.Executors Model.Access.
From Verif Require Import Model.Config Model.Startup Spec.Startup.
From Verif Require Proofs.Config Proofs.Roots Proofs.Access.
Local Open Scope list_scope.
Local Open Scope Z_scope.

(** ** Settings *)
Lemma find_update d : NoDup (map fst d) -> forall e k, find k (dict_update e d) = match find k d with Some v => Some v | None => find k e end.
Proof.
  unfold dict_update. induction d as [|[k' v'] r IH]; intros N e k; [reflexivity|]. cbn [map fst] in N. inversion N as [|? ? N1 N2]; subst.
  cbn [fold_left fst snd]. rewrite (IH N2). cbn [find]. destruct (beqb_spec k k') as [->|H].
  - destruct (find k' r) as [v|] eqn:E; [|apply Proofs.Config.find_store_same].
    exfalso. apply N1. apply Proofs.Config.find_In in E. apply (in_map fst) in E. exact E.
  - destruct (find k r); [reflexivity|]. apply Proofs.Config.find_store_other. exact H.
Qed.
Definition layered (k : bytes) (l : list dict) : option value :=
  fold_right (fun d r => match find k d with Some v => Some v | None => r end) None l.
Lemma settled_layered k l o : Forall (fun d => NoDup (map fst d)) l -> settled k l o -> o = layered k l.
Proof.
  intros F H. induction H as [|d v r H|d r o H _ IH]; inversion F; subst; cbn [layered fold_right]; [reflexivity| |].
  - rewrite (Proofs.Config.In_find k v d); auto.
  - destruct (find k d) as [v|] eqn:E; [exfalso; apply H; apply Proofs.Config.find_In in E; apply (in_map fst) in E; exact E|]. apply IH. assumption.
Qed.
Lemma standard_nodup : NoDup (map fst standard).
Proof.
  assert (forall l : list bytes, (forallb (fun x => Nat.eqb (length (filter (beqb x) l)) 1) l) = true -> NoDup l) as K.
  { intros l. rewrite forallb_forall. intros H. apply NoDup_nth_error. intros i j Hi E.
    destruct (nth_error l i) as [x|] eqn:Ei; [|apply nth_error_None in Ei; lia].
    specialize (H x (nth_error_In _ _ Ei)). apply Nat.eqb_eq in H. symmetry in E.
    assert (forall l i j, i <> j -> nth_error l i = Some x -> nth_error l j = Some x -> (2 <= length (filter (beqb x) l))%nat) as K.
    { clear. induction l as [|y l IH]; intros i j D Hi Hj; [destruct i; discriminate|].
      assert (forall l i, nth_error l i = Some x -> (1 <= length (filter (beqb x) l))%nat) as K1.
      { clear. induction l as [|y l IH]; intros i Hi; [destruct i; discriminate|]. cbn [filter]. destruct i as [|i].
        - injection Hi as ->. rewrite beqb_refl. cbn. lia.
        - specialize (IH i Hi). destruct (beqb x y); cbn; lia. }
      destruct i as [|i], j as [|j]; [congruence| | |].
      - injection Hi as ->. cbn [filter]. rewrite beqb_refl. specialize (K1 l j Hj). cbn. lia.
      - injection Hj as ->. cbn [filter]. rewrite beqb_refl. specialize (K1 l i Hi). cbn. lia.
      - cbn [filter]. specialize (IH i j ltac:(congruence) Hi Hj). destruct (beqb x y); cbn; lia. }
    destruct (Nat.eq_dec i j) as [|D]; [assumption|]. specialize (K l i j D Ei E). lia. }
  apply K. vm_compute. reflexivity.
Qed.
Lemma documents_nodup w a l : documents w a l -> Forall (fun d => NoDup (map fst d)) l.
Proof.
  intros (c & i & C & I & ->). rewrite !Forall_app. split; [|split].
  - destruct C as [(d & _ & N & ->)|[_ ->]]; repeat constructor; exact N.
  - destruct I as [(_ & d & _ & N & ->)|[_ ->]]; repeat constructor; exact N.
  - constructor; [exact standard_nodup|constructor].
Qed.
Lemma settled_fun w a l k o o' : documents w a l -> settled k l o -> settled k l o' -> o = o'.
Proof. intros D H H'. apply documents_nodup in D. rewrite (settled_layered k l o D H), (settled_layered k l o' D H'). reflexivity. Qed.
Lemma settled_exists l k : exists o, settled k l o.
Proof.
  induction l as [|d l [o IH]]; [exists None; constructor|]. destruct (find k d) as [v|] eqn:E.
  - exists (Some v). apply settled_here. apply Proofs.Config.find_In. exact E.
  - exists o. apply settled_below; [|exact IH]. intros H. apply in_map_iff in H. destruct H as ([k' v'] & Ek & Hv). cbn in Ek. subst.
    exact (proj1 (Proofs.Config.find_None k d) E v' Hv).
Qed.

Definition overrides (p : program) (a : args) (e : dict) : dict :=
  if is_cli p then e else override (B "key") (judge_key a) (override (B "id") (judge_name a) e).
Lemma find_override_other k n o e : k <> n -> find k (override n o e) = find k e.
Proof. intros H. destruct o as [[|c r]|]; [reflexivity| |reflexivity]. apply Proofs.Config.find_store_other. exact H. Qed.
Lemma find_override_same n o e : find n (override n o e) = match o with Some (c :: r) => Some (VStr (c :: r)) | _ => find n e end.
Proof. destruct o as [[|c r]|]; [reflexivity| |reflexivity]. apply Proofs.Config.find_store_same. Qed.

(** The environment before the command line is looked at. *)
Lemma configured_env p w a e d l : configure p w a = Fine e d -> documents w a l ->
  exists e0, (forall k, find k e0 = layered k l) /\
    ((opened w (expand w (config a)) = NoFile /\ docker w = true /\ e = e0 /\ d = inl (B "/problems"))
     \/ ((exists c, opened w (expand w (config a)) = Doc (VDict c)) /\ e = overrides p a e0
         /\ d = inr (env_attr e (B "problem_storage_root")) /\ (is_testsuite p = true \/ env_attr e (B "problem_storage_root") <> Null))).
Proof.
  intros H (c & i & C & I & ->). unfold configure in H.
  assert (exists e1, read_config p w a e1 = Fine e d /\ forall k, find k e1 = layered k (i ++ [standard])) as (e1 & R & E1).
  { destruct I as [(Dk & im & Ei & Ni & ->)|[Dk ->]]; rewrite Dk in H.
    - rewrite Ei in H. cbn [env_update] in H. exists (dict_update defaults im). split; [exact H|].
      intros k. rewrite (find_update im Ni). cbn [layered app fold_right]. change defaults with standard. destruct (find k im); [reflexivity|]. destruct (find k standard); reflexivity.
    - exists defaults. split; [exact H|]. intros k. cbn [layered app fold_right]. change defaults with standard. destruct (find k standard); reflexivity. }
  unfold read_config in R. destruct C as [(cd & Ec & Nc & ->)|[Ec ->]]; rewrite Ec in R.
  - cbn [env_update] in R. exists (dict_update e1 cd). split.
    { intros k. rewrite (find_update cd Nc). cbn [layered app fold_right]. destruct (find k cd); [reflexivity|]. apply E1. }
    right. split; [exists cd; exact Ec|]. fold (overrides p a (dict_update e1 cd)) in R.
    destruct (env_attr (overrides p a (dict_update e1 cd)) (B "problem_storage_root")) eqn:V;
      try (injection R as <- <-; split; [reflexivity|]; rewrite V; split; [reflexivity|right; discriminate]).
    destruct (is_testsuite p); [|discriminate]. injection R as <- <-. split; [reflexivity|]. rewrite V. split; [reflexivity|left; reflexivity].
  - destruct (docker w) eqn:Dk; [|discriminate]. injection R as <- <-. exists e1. split; [exact E1|]. left. repeat split; auto.
Qed.

Section Load.
  Variable root : path.

  Lemma loaded_env p w a s : load_env root p w a = Loaded s -> exists d ds found ws,
    configure p w a = Fine (s_env s) d /\ problem_dirs_of w d = Some ds /\ scan root (tree w) ds true = Some (found, ws)
    /\ s_watches s = watches root ds /\ s_warned s = ws
    /\ (p <> Testsuite -> s_roots s = Some found)
    /\ s_api s = api_listen p w a.
  Proof.
    unfold load_env. destruct (configure p w a) as [e d|r|]; [|discriminate|discriminate].
    destruct (problem_dirs_of w d) as [ds|] eqn:Ed; [|discriminate]. destruct (scan root (tree w) ds true) as [[found ws]|] eqn:Es; [|discriminate].
    intros H. exists d, ds, found, ws.
    destruct p; [injection H as <-|injection H as <-|]; try (cbn; repeat split; auto; fail).
    destruct (negb (isdir (tree w) (tests_dir a))); [discriminate|].
    destruct (given (problem_regex a) && _)%bool; [discriminate|]. destruct (given (case_regex a) && _)%bool; [discriminate|].
    injection H as <-. cbn. repeat split; auto. congruence.
  Qed.

  Theorem options p w a s : load_env root p w a = Loaded s ->
    s_no_ansi s = no_ansi a /\ s_skip_self_test s = skip_self_test a /\
    (p = TheJudge -> s_host s = Some (server_host a) /\ s_port s = Some (server_port a) /\ s_secure s = secure a /\
       s_no_cert_check s = no_certificate_check a /\ s_cert_store s = trusted_certificates a /\
       s_log_file s = log_file a /\ s_no_watchdog s = no_watchdog a) /\
    (p <> TheJudge -> s_host s = None /\ s_port s = None /\ s_secure s = false /\ s_no_cert_check s = false /\
       s_cert_store s = None /\ s_log_file s = None /\ s_no_watchdog s = true) /\
    (p = Shell -> s_command s = command a /\
       (history a <> [] -> s_history s = Some (expand w (history a))) /\ (history a = [] -> s_history s = Some [])) /\
    (p <> Shell -> s_command s = [] /\ s_history s = None).
  Proof.
    unfold load_env. destruct (configure p w a) as [e d|r|]; [|discriminate|discriminate].
    destruct (problem_dirs_of w d) as [ds|]; [|discriminate]. destruct (scan root (tree w) ds true) as [[found ws]|]; [|discriminate].
    intros H. destruct p; [injection H as <-|injection H as <-|].
    - cbn. repeat split; congruence.
    - cbn. repeat split; try congruence. destruct (history a); [congruence|reflexivity]. destruct (history a); [reflexivity|discriminate].
    - destruct (negb (isdir (tree w) (tests_dir a))); [discriminate|].
      destruct (given (problem_regex a) && _)%bool; [discriminate|]. destruct (given (case_regex a) && _)%bool; [discriminate|].
      injection H as <-. cbn. repeat split; congruence.
  Qed.

  Theorem setting p w a s l k o : load_env root p w a = Loaded s -> documents w a l -> settled k l o ->
    (k <> B "id" /\ k <> B "key") \/ p <> TheJudge -> find k (s_env s) = o.
  Proof.
    intros H D S K. apply loaded_env in H. destruct H as (d & ds & found & ws & C & _).
    destruct (configured_env p w a _ _ l C D) as (e0 & E0 & Cases).
    rewrite (settled_layered k l o (documents_nodup w a l D) S), <- E0.
    destruct Cases as [(_ & _ & -> & _)|(_ & -> & _)]; [reflexivity|]. unfold overrides.
    destruct K as [[K1 K2]|K].
    - destruct (is_cli p); [reflexivity|]. rewrite !find_override_other by assumption. reflexivity.
    - destruct p; [congruence|reflexivity|reflexivity].
  Qed.
  Lemma id_not_key : B "id" <> B "key". Proof. vm_compute. discriminate. Qed.
  Theorem identity w a s l c n : load_env root TheJudge w a = Loaded s -> documents w a l -> opened w (expand w (config a)) = Doc c ->
    n = B "id" \/ n = B "key" -> let arg := if beqb n (B "id") then judge_name a else judge_key a in
    (forall t, arg = Some t -> t <> [] -> find n (s_env s) = Some (VStr t))
    /\ (arg = None \/ arg = Some [] -> forall o, settled n l o -> find n (s_env s) = o).
  Proof.
    intros H D Ec Hn arg. apply loaded_env in H. destruct H as (d & ds & found & ws & C & _).
    destruct (configured_env TheJudge w a _ _ l C D) as (e0 & E0 & [(X & _)|(_ & -> & _)]); [congruence|]. unfold overrides. cbn [is_cli].
    pose proof id_not_key as IK.
    assert (find n (override (B "key") (judge_key a) (override (B "id") (judge_name a) e0))
            = match arg with Some (c :: r) => Some (VStr (c :: r)) | _ => find n e0 end) as ->.
    { subst arg. destruct Hn as [-> | ->].
      - rewrite find_override_other by exact IK. rewrite find_override_same, beqb_refl. reflexivity.
      - rewrite find_override_same. rewrite find_override_other by congruence. replace (beqb (B "key") (B "id")) with false by reflexivity. reflexivity. }
    split.
    - intros t -> Ht. destruct t; [congruence|reflexivity].
    - intros Ha o S. rewrite (settled_layered n l o (documents_nodup w a l D) S), <- E0. destruct Ha as [-> | ->]; reflexivity.
  Qed.
  Theorem no_configuration p w a s : load_env root p w a = Loaded s -> opened w (expand w (config a)) = NoFile ->
    docker w = true /\ (p <> Testsuite -> s_roots s = Some [B "/problems"]).
  Proof.
    intros H N. apply loaded_env in H. destruct H as (d & ds & found & ws & C & P & Sc & _ & _ & R & _).
    unfold configure in C. unfold read_config in C. rewrite N in C. destruct (docker w); [|discriminate]. split; [reflexivity|].
    destruct (opened w (B "/judge-runtime-paths.yml")) as [| |v]; [discriminate|discriminate|]. destruct (env_update defaults v); [|discriminate].
    injection C as _ <-. injection P as <-. injection Sc as <- <-. exact R.
  Qed.
  Theorem needs_configuration p w a : docker w = false -> opened w (expand w (config a)) = NoFile -> load_env root p w a = Raises.
  Proof. intros D N. unfold load_env, configure, read_config. rewrite D, N. reflexivity. Qed.

  (** ** Problems *)
  Lemma storage_env p w a l e0 v : documents w a l -> (forall k, find k e0 = layered k l) -> storage l v ->
    env_attr (overrides p a e0) (B "problem_storage_root") = v.
  Proof.
    intros D E0 [Nn S]. pose proof (documents_nodup w a l D) as F.
    assert (forall k, k <> B "id" -> k <> B "key" -> find k (overrides p a e0) = layered k l) as Fo.
    { intros k K1 K2. unfold overrides. destruct (is_cli p); [apply E0|]. rewrite !find_override_other by assumption. apply E0. }
    unfold env_attr, env_item. change (hyphens (B "problem_storage_root")) with (B "problem-storage-root").
    rewrite (Fo (B "problem_storage_root")) by (vm_compute; discriminate). rewrite (Fo (B "problem-storage-root")) by (vm_compute; discriminate).
    destruct S as [S|[S1 S2]].
    - rewrite <- (settled_layered _ _ _ F S). destruct v; congruence.
    - rewrite <- (settled_layered _ _ _ F S2). destruct S1 as [S1|S1]; rewrite <- (settled_layered _ _ _ F S1); reflexivity.
  Qed.
  Lemma no_storage_env p w a l e0 : documents w a l -> (forall k, find k e0 = layered k l) -> no_storage l ->
    env_attr (overrides p a e0) (B "problem_storage_root") = Null.
  Proof.
    intros D E0 [S1 S2]. pose proof (documents_nodup w a l D) as F.
    assert (forall k, k <> B "id" -> k <> B "key" -> find k (overrides p a e0) = layered k l) as Fo.
    { intros k K1 K2. unfold overrides. destruct (is_cli p); [apply E0|]. rewrite !find_override_other by assumption. apply E0. }
    unfold env_attr, env_item. change (hyphens (B "problem_storage_root")) with (B "problem-storage-root").
    rewrite (Fo (B "problem_storage_root")) by (vm_compute; discriminate). rewrite (Fo (B "problem-storage-root")) by (vm_compute; discriminate).
    destruct S1 as [S1|S1]; rewrite <- (settled_layered _ _ _ F S1); destruct S2 as [S2|S2]; rewrite <- (settled_layered _ _ _ F S2); reflexivity.
  Qed.

  Lemma depths_in io d m : depths io d = Some m -> forall o p, In (o, p) m <-> exists k, In (k, VStr p) d /\ io k = o.
  Proof.
    revert m. induction d as [|[k v] d IH]; intros m H o p; cbn [depths fold_right fst snd] in H.
    - injection H as <-. split; [intros []|intros (k & [] & _)].
    - fold (depths io d) in H. destruct v; try discriminate. destruct (depths io d) as [m0|]; [|discriminate]. injection H as <-.
      cbn [In]. rewrite (IH m0 eq_refl). split.
      + intros [E|(k' & K & E)]; [injection E as <- <-; exists k; auto|exists k'; auto].
      + intros (k' & [E|K] & Eo); [injection E as <- <-; left; subst; reflexivity|right; exists k'; auto].
  Qed.
  Definition entries io l := fold_right (fun v r => match entry_of io v, r with Some e, Some l => Some (e :: l) | _, _ => None end) (Some []) l.
  Lemma entries_in io l es : entries io l = Some es -> forall e, In e es <-> exists v, In v l /\ entry_of io v = Some e.
  Proof.
    revert es. induction l as [|v l IH]; intros es H e; cbn [entries fold_right] in H.
    - injection H as <-. split; [intros []|intros (v & [] & _)].
    - fold (entries io l) in H. destruct (entry_of io v) as [e0|] eqn:E0; [|discriminate]. destruct (entries io l) as [es0|]; [|discriminate]. injection H as <-.
      cbn [In]. rewrite (IH es0 eq_refl). split.
      + intros [<-|(v' & V & E)]; [exists v; auto|exists v'; auto].
      + intros (v' & [<-|V] & E); [left; congruence|right; exists v'; auto].
  Qed.
  Lemma entry_none_empty io v e : entry_of io v = Some e -> (exists p, v = VStr p /\ e = Roots.One p)
    \/ (exists d m, v = VDict d /\ depths io d = Some m /\ e = Roots.Depths m) \/ (v = VList [] /\ e = Roots.Depths []).
  Proof.
    destruct v as [| | |s|[|]|d]; cbn; try discriminate; intros H.
    - injection H as <-. left. eauto.
    - injection H as <-. right. right. auto.
    - destruct (depths io d) as [m|] eqn:E; [|discriminate]. injection H as <-. right. left. eauto.
  Qed.
  Lemma node_found f l found ws : scan root f (Roots.Node l) true = Some (found, ws) ->
    forall q, In q found <-> exists e, In e l /\ names_dir root f e q.
  Proof.
    cbn [scan]. destruct (node_dirs root f l) as [[ds w]|] eqn:E; [|discriminate]. intros H. injection H as <- _.
    intros q. rewrite filter_In. split.
    - intros [A C]. apply (Proofs.Roots.node_dirs_in root _ _ _ _ E q C). exact A.
    - intros (e & A & C). assert (isdir f q = true) as Dq by (inversion C; subst; [assumption|eapply Proofs.Roots.down_dir; eassumption]).
      split; [|exact Dq]. apply (Proofs.Roots.node_dirs_in root _ _ _ _ E q Dq). exists e. split; assumption.
  Qed.
  Lemma dirs_found w v ds found ws : dirs_of (int_of w) v = Some ds -> scan root (tree w) ds true = Some (found, ws) ->
    forall q, In q found <-> storage_dir root w v q.
  Proof.
    intros Hd Hs q. destruct v as [| | |p|l|d]; cbn [dirs_of] in Hd; try discriminate.
    - injection Hd as <-. cbn [scan] in Hs. destruct (listdir (tree w) (join root p)) as [names|] eqn:L; [|discriminate]. injection Hs as <- _.
      unfold get_path. rewrite !filter_In, in_map_iff. split.
      + intros [[(n & <- & Hn) I] _]. exact (storage_in root w p names n L Hn I).
      + intros H. inversion H as [p0 names0 n L0 Hn I| | |]; subst. rewrite L in L0. injection L0 as <-. split; [split; [exists n; auto|exact I]|exact I].
    - fold (entries (int_of w) l) in Hd. destruct (entries (int_of w) l) as [es|] eqn:Ee; [|discriminate]. injection Hd as <-.
      rewrite (node_found _ _ _ _ Hs q). split.
      + intros (e & He & N). apply (entries_in _ _ _ Ee) in He. destruct He as (v & V & Ev).
        destruct (entry_none_empty _ _ _ Ev) as [(p & -> & ->)|[(d & m & -> & Em & ->)|[-> ->]]].
        * inversion N; subst. apply storage_one; assumption.
        * inversion N as [|m0 z p q0 Hin Hz Hdn]; subst. apply (depths_in _ _ _ Em) in Hin. destruct Hin as (k & Hk & Ek).
          exact (storage_deep root w l d k z p q V Hk Ek Hz Hdn).
        * inversion N as [|m0 z p q0 Hin Hz Hdn]; subst. destruct Hin.
      + intros H. inversion H as [|l0 p V I|l0 d k z p q0 V K Ek Hz Hdn|]; subst.
        * exists (Roots.One p). split; [apply (entries_in _ _ _ Ee); exists (VStr p); auto|constructor; exact I].
        * assert (exists m, depths (int_of w) d = Some m) as (m & Em).
          { clear - Ee V. revert es Ee. induction l as [|v l IH]; intros es Ee; [destruct V|]. cbn [entries fold_right] in Ee. fold (entries (int_of w) l) in Ee.
            destruct (entry_of (int_of w) v) eqn:Ev; [|discriminate]. destruct (entries (int_of w) l) as [es0|] eqn:E0; [|discriminate].
            destruct V as [->|V]; [|exact (IH V es0 eq_refl)]. cbn in Ev. destruct (depths (int_of w) d) as [m|]; [exists m; reflexivity|discriminate]. }
          exists (Roots.Depths m). split; [apply (entries_in _ _ _ Ee); exists (VDict d); cbn; rewrite Em; auto|].
          apply (names_depth root (tree w) m z p q); [|exact Hz|exact Hdn]. apply (depths_in _ _ _ Em). exists k. auto.
    - injection Hd as <-. rewrite (node_found _ _ _ _ Hs q). split.
      + intros (e & He & N). apply in_map_iff in He. destruct He as ([k v] & <- & Hk). cbn [fst] in N. inversion N; subst. exact (storage_key root w d k v Hk H0).
      + intros H. inversion H as [| | |d0 k v Hk I]; subst. exists (Roots.One k). split; [apply in_map_iff; exists (k, v); auto|constructor; exact I].
  Qed.
  Theorem roots p w a s l c v : load_env root p w a = Loaded s -> p <> Testsuite -> documents w a l -> opened w (expand w (config a)) = Doc c -> storage l v ->
    exists found, s_roots s = Some found /\ forall q, In q found <-> storage_dir root w v q.
  Proof.
    intros H Np D Ec S. apply loaded_env in H. destruct H as (d & ds & found & ws & C & P & Sc & _ & _ & R & _).
    destruct (configured_env p w a _ _ l C D) as (e0 & E0 & [(X & _)|(_ & E & Ed & _)]); [congruence|].
    exists found. split; [exact (R Np)|]. rewrite E in Ed. rewrite (storage_env p w a l e0 v D E0 S) in Ed. subst d. cbn [problem_dirs_of] in P.
    exact (dirs_found w v ds found ws P Sc).
  Qed.
  Lemma configure_doc p w a l c : documents w a l -> opened w (expand w (config a)) = Doc c ->
    exists e0, (forall k, find k e0 = layered k l) /\
      configure p w a = match env_attr (overrides p a e0) (B "problem_storage_root") with
                        | Null => if is_testsuite p then Fine (overrides p a e0) (inr Null) else Stops NoStorageRoot
                        | d => Fine (overrides p a e0) (inr d) end.
  Proof.
    intros (cs & i & C & I & ->) Ec. unfold configure, read_config. rewrite Ec.
    destruct C as [(cd & Ec' & Nc & ->)|[Ec' _]]; [|congruence]. rewrite Ec in Ec'. injection Ec' as ->.
    destruct I as [(Dk & im & Ei & Ni & ->)|[Dk ->]]; rewrite Dk.
    - rewrite Ei. cbn [env_update]. exists (dict_update (dict_update defaults im) cd). split; [|reflexivity].
      intros k. rewrite (find_update cd Nc), (find_update im Ni). cbn [layered app fold_right]. change defaults with standard.
      destruct (find k cd); [reflexivity|]. destruct (find k im); [reflexivity|]. destruct (find k standard); reflexivity.
    - cbn [env_update]. exists (dict_update defaults cd). split; [|reflexivity].
      intros k. rewrite (find_update cd Nc). cbn [layered app fold_right]. change defaults with standard.
      destruct (find k cd); [reflexivity|]. destruct (find k standard); reflexivity.
  Qed.
  Theorem no_problems p w a l c : p <> Testsuite -> documents w a l -> opened w (expand w (config a)) = Doc c -> no_storage l ->
    load_env root p w a = Exits NoStorageRoot.
  Proof.
    intros Np D Ec S. destruct (configure_doc p w a l c D Ec) as (e0 & E0 & C). unfold load_env. rewrite C.
    rewrite (no_storage_env p w a l e0 D E0 S). destruct p; [reflexivity|reflexivity|congruence].
  Qed.
  Theorem testsuite_no_problems w a l c : documents w a l -> opened w (expand w (config a)) = Doc c -> no_storage l ->
    load_env root Testsuite w a = Raises.
  Proof.
    intros D Ec S. destruct (configure_doc Testsuite w a l c D Ec) as (e0 & E0 & C). unfold load_env. rewrite C.
    rewrite (no_storage_env Testsuite w a l e0 D E0 S). reflexivity.
  Qed.
  Lemma entries_strs io ps : entries io (map VStr ps) = Some (map Roots.One ps).
  Proof. induction ps as [|p ps IH]; [reflexivity|]. cbn [map entries fold_right entry_of]. fold (entries io (map VStr ps)). rewrite IH. reflexivity. Qed.
  Lemma node_ones f ps : node_dirs root f (map Roots.One ps) = Some (map (get_path root) ps, []).
  Proof. induction ps as [|p ps IH]; [reflexivity|]. cbn [map node_dirs]. rewrite IH. reflexivity. Qed.
  Theorem starts p w a l c ps : p <> Testsuite -> documents w a l -> opened w (expand w (config a)) = Doc c -> storage l (VList (map VStr ps)) ->
    exists s, load_env root p w a = Loaded s /\ s_roots s = Some (filter (isdir (tree w)) (map (fun x => normpath (join root x)) ps))
      /\ s_warned s = map CannotAccess (filter (fun x => negb (isdir (tree w) x)) (map (fun x => normpath (join root x)) ps)).
  Proof.
    intros Np D Ec S. destruct (configure_doc p w a l c D Ec) as (e0 & E0 & C). unfold load_env. rewrite C.
    rewrite (storage_env p w a l e0 _ D E0 S). cbn [problem_dirs_of dirs_of]. fold (entries (int_of w) (map VStr ps)).
    rewrite entries_strs. cbn [option_map]. cbn [scan]. rewrite node_ones.
    destruct p; [| |congruence]; (eexists; split; [reflexivity|split; reflexivity]).
  Qed.

  (** ** Watching *)
  Hypothesis absolute : starts_slash root = true.
  Lemma name_start n : name_ok n -> starts_slash n = false.
  Proof.
    intros (H1 & H2 & _). destruct n as [|c n]; [reflexivity|]. cbn. apply N.eqb_neq. intros E. apply H2. left. exact E.
  Qed.
  Lemma join_start x y : starts_slash x = true -> starts_slash (join x y) = true.
  Proof.
    intros H. unfold join. destruct (starts_slash y) eqn:E; [exact E|]. destruct x as [|c x]; [discriminate|].
    destruct (ends_slash (c :: x)); exact H.
  Qed.
  Lemma split_snoc x n : ~ In 47%N n -> forall cur, re_split_acc is_slash cur (x ++ slash :: n) = re_split_acc is_slash cur x ++ [n].
  Proof.
    intros Hn. induction x as [|c x IH]; intros cur.
    - cbn [app re_split_acc]. change (is_slash slash) with true. cbv iota. rewrite re_split_acc_last by exact Hn. reflexivity.
    - cbn [app re_split_acc]. destruct (is_slash c); [rewrite IH; reflexivity|apply IH].
  Qed.
  Lemma norm_snoc n : name_ok n -> forall cs acc, Forall (fun c => ~ In 47%N c) cs -> Forall name_ok acc ->
    norm_loop true acc (cs ++ [n]) = norm_loop true acc cs ++ [n].
  Proof.
    intros Hn. induction cs as [|c cs IH]; intros acc Hc Ha.
    - cbn [app]. rewrite norm_loop_name by exact Hn. reflexivity.
    - inversion Hc as [|x y H1 H2]; subst. cbn [app norm_loop].
      destruct (beqb c [] || beqb c dot) eqn:E1; [apply IH; assumption|]. apply Bool.orb_false_iff in E1. destruct E1 as [E1 E1'].
      destruct (beqb c dotdot) eqn:E2; cbn [negb orb andb].
      + destruct acc as [|t acc]; [apply IH; [exact H2|constructor]|]. inversion Ha as [|x y H3 H4]; subst. rewrite (name_ok_not_dotdot t H3). cbn [tl]. apply IH; assumption.
      + apply IH; [exact H2|]. constructor; [|exact Ha]. split; [|split; [exact H1|split]]; apply beqb_neq; assumption.
  Qed.
  Lemma slash_join_cons x l : l <> [] -> slash_join (x :: l) = x ++ slash :: slash_join l.
  Proof. destruct l; [congruence|reflexivity]. Qed.
  Lemma slash_join_snoc l n : l <> [] -> slash_join (l ++ [n]) = slash_join l ++ slash :: n.
  Proof.
    induction l as [|x l IH]; intros H; [congruence|]. destruct l as [|y l]; [reflexivity|].
    change ((x :: y :: l) ++ [n]) with (x :: ((y :: l) ++ [n])). rewrite !slash_join_cons by (destruct l; discriminate).
    rewrite IH by discriminate. rewrite <- app_assoc. reflexivity.
  Qed.
  Lemma ends_snoc x c : ends_slash (x ++ [c]) = is_slash c.
  Proof. unfold ends_slash. rewrite rev_app_distr. reflexivity. Qed.
  Lemma name_end n x : name_ok n -> ends_slash (x ++ n) = false.
  Proof.
    intros (H1 & H2 & _). destruct n as [|c n _] using rev_ind; [congruence|]. rewrite app_assoc, ends_snoc. apply N.eqb_neq. intros E. apply H2. apply in_or_app. right. left. exact E.
  Qed.
  Lemma slash_join_end l x : Forall name_ok l -> l <> [] -> ends_slash (x ++ slash_join l) = false.
  Proof.
    intros F H. destruct l as [|n l _] using rev_ind; [congruence|]. apply Forall_app in F. destruct F as [_ F]. inversion F; subst.
    destruct l as [|y l]; [apply name_end; assumption|]. rewrite slash_join_snoc by discriminate.
    replace (x ++ slash_join (y :: l) ++ slash :: n) with ((x ++ slash_join (y :: l) ++ [slash]) ++ n) by (rewrite <- !app_assoc; reflexivity).
    apply name_end. assumption.
  Qed.
  Lemma normpath_name x n : starts_slash x = true -> name_ok n -> normpath (join x n) = join (normpath x) n.
  Proof.
    intros Hx Hn. pose proof (name_start n Hn) as Sn.
    assert (forall y, starts_slash y = true -> normpath y =
      (match y with a :: b :: r => if is_slash a && is_slash b && negb (starts_slash r) then [slash; slash] else [slash] | _ => [slash] end)
      ++ slash_join (norm_loop true [] (re_split is_slash y))) as Norm.
    { intros y Hy. unfold normpath. destruct y as [|c y]; [discriminate|]. rewrite Hy. cbv iota zeta. destruct y as [|b r]; [reflexivity|].
      destruct (is_slash c && is_slash b && negb (starts_slash r)); reflexivity. }
    assert (starts_slash (join x n) = true) as Hj by (apply join_start; exact Hx).
    rewrite (Norm _ Hj), (Norm _ Hx).
    assert (norm_loop true [] (re_split is_slash (join x n)) = norm_loop true [] (re_split is_slash x) ++ [n]) as EL.
    { assert (forall y, Forall (fun c => ~ In 47%N c) (re_split is_slash y)) as Fs by (intros y; apply (components_no_slash y); apply split_components).
      destruct Hn as (N1 & N2 & N3 & N4). assert (name_ok n) as Hn by (repeat split; assumption).
      unfold join. rewrite Sn. destruct x as [|c x]; [discriminate|]. destruct (ends_slash (c :: x)) eqn:Ee.
      - assert (exists y, c :: x = y ++ [slash]) as (y & Ey).
        { destruct (exists_last (l := c :: x)) as (y & z & Ey); [discriminate|]. rewrite Ey in Ee |- *. rewrite ends_snoc in Ee. apply N.eqb_eq in Ee. subst z. exists y. reflexivity. }
        rewrite Ey. rewrite <- app_assoc. cbn [app]. unfold re_split.
        rewrite (split_snoc y n N2), (split_snoc y [] (fun X => X)).
        rewrite norm_snoc; [|exact Hn|exact (Fs y)|constructor]. f_equal.
        assert (forall cs acc, norm_loop true acc (cs ++ [[]]) = norm_loop true acc cs) as K.
        { clear. induction cs as [|c cs IH]; intros acc; [reflexivity|]. cbn [app norm_loop]. rewrite !IH. reflexivity. }
        rewrite K. reflexivity.
      - unfold re_split. rewrite (split_snoc (c :: x) n N2). apply norm_snoc; [exact Hn|exact (Fs (c :: x))|constructor]. }
    rewrite EL.
    assert (Forall name_ok (norm_loop true [] (re_split is_slash x))) as Fl.
    { apply norm_loop_ok; [|constructor]. apply (components_no_slash x). apply split_components. }
    set (L := norm_loop true [] (re_split is_slash x)) in *. clearbody L.
    assert (forall (y : path), (match y with a :: b :: r => if is_slash a && is_slash b && negb (starts_slash r) then [slash; slash] else [slash] | _ => [slash] end) = [slash]
       \/ (match y with a :: b :: r => if is_slash a && is_slash b && negb (starts_slash r) then [slash; slash] else [slash] | _ => [slash] end) = [slash; slash]) as Two.
    { intros [|a0 [|b0 r]]; auto. destruct (is_slash a0 && is_slash b0 && negb (starts_slash r)); auto. }
    assert ((match join x n with a :: b :: r => if is_slash a && is_slash b && negb (starts_slash r) then [slash; slash] else [slash] | _ => [slash] end)
      = (match x with a :: b :: r => if is_slash a && is_slash b && negb (starts_slash r) then [slash; slash] else [slash] | _ => [slash] end)) as ->.
    { unfold join. rewrite Sn. destruct x as [|a0 x]; [discriminate|]. cbn in Hx. destruct x as [|b0 r].
      - assert (ends_slash [a0] = true) as -> by exact Hx. cbn [app]. destruct n as [|b0 n]; [reflexivity|]. cbn in Sn. rewrite Sn, Bool.andb_false_r. reflexivity.
      - assert (forall t, starts_slash ((r ++ slash :: t)) = starts_slash r \/ r = []) as K by (intros t; destruct r; auto).
        destruct (ends_slash (a0 :: b0 :: r)) eqn:Ee.
        + cbn [app]. destruct r as [|d r]; [|reflexivity]. cbn [app]. rewrite Sn. reflexivity.
        + cbn [app]. destruct r as [|d r]; [|reflexivity]. cbn [app]. unfold ends_slash in Ee. cbn in Ee. rewrite Ee, !Bool.andb_false_r. reflexivity. }
    specialize (Two x). set (P := match x with a :: b :: r => if is_slash a && is_slash b && negb (starts_slash r) then [slash; slash] else [slash] | _ => [slash] end) in *. clearbody P.
    assert (P ++ slash_join L <> []) as Np by (destruct Two as [-> | ->]; discriminate).
    unfold join. rewrite Sn. destruct (P ++ slash_join L) as [|c r] eqn:Ec; [congruence|]. rewrite <- Ec.
    destruct L as [|y L].
    - cbn [app slash_join]. rewrite app_nil_r. assert (ends_slash P = true) as -> by (destruct Two as [-> | ->]; reflexivity). reflexivity.
    - rewrite slash_join_end by (assumption || discriminate). rewrite slash_join_snoc by discriminate. rewrite <- app_assoc. reflexivity.
  Qed.
  Lemma down_below f d n p : sound_listing f -> down f d n p -> below d p.
  Proof.
    intros S H. induction H as [d Hd|d names c n p L Hc Hi Hd IH].
    - exists []. split; [constructor|reflexivity].
    - destruct IH as (ns & F & ->). exists (c :: ns). split; [constructor; [exact (S d names c L Hc)|exact F]|reflexivity].
  Qed.
  Lemma configure_inl p w a e x : configure p w a = Fine e (inl x) -> x = B "/problems".
  Proof.
    assert (forall e0, read_config p w a e0 = Fine e (inl x) -> x = B "/problems") as K.
    { intros e0 H. unfold read_config in H. destruct (opened w (expand w (config a))) as [| |v]; [destruct (docker w); [injection H; auto|discriminate]|discriminate|].
      destruct (env_update e0 v); [|discriminate]. match type of H with match ?z with _ => _ end = _ => destruct z; try discriminate end. destruct (is_testsuite p); discriminate. }
    unfold configure. destruct (docker w); [|apply K]. destruct (opened w (B "/judge-runtime-paths.yml")) as [| |v]; [discriminate|discriminate|].
    destruct (env_update defaults v); [apply K|discriminate].
  Qed.
  Theorem watched_roots p w a s found q : load_env root p w a = Loaded s -> p <> Testsuite -> sound_listing (tree w) -> s_roots s = Some found ->
    In q found -> exists d, In d (s_watches s) /\ below d q.
  Proof.
    intros H Np Sl R Hq. apply loaded_env in H. destruct H as (d & ds & found' & ws & C & P & Sc & W & _ & R' & _).
    rewrite (R' Np) in R. injection R as ->. rewrite W. clear R' W.
    assert (forall x, below x x) as Self by (intros x; exists []; split; [constructor|reflexivity]).
    destruct ds as [l|l|x].
    - destruct d as [x|v]; [|destruct v as [| | |?|?|?]; cbn in P; try discriminate; match type of P with option_map _ ?x = _ => destruct x; discriminate end].
      injection P as <-. injection Sc as <- _. cbn [watches map].
      destruct Hq as [<-|[]]. rewrite (configure_inl _ _ _ _ _ C). exists (B "/problems"). split; [left; reflexivity|apply Self].
    - rewrite (node_found _ _ _ _ Sc q) in Hq. destruct Hq as (e & He & N). cbn [watches]. inversion N as [p0 I|m z p0 q0 Hin Hz Hdn]; subst.
      + exists (get_path root p0). split; [apply in_flat_map; exists (Roots.One p0); split; [exact He|left; reflexivity]|apply Self].
      + exists (get_path root p0). split; [apply in_flat_map; exists (Roots.Depths m); split; [exact He|apply in_map_iff; exists (Some z, p0); auto]|].
        exact (down_below _ _ _ _ Sl Hdn).
    - cbn [scan] in Sc. destruct (listdir (tree w) (join root x)) as [names|] eqn:L; [|discriminate]. injection Sc as <- _.
      rewrite !filter_In, in_map_iff in Hq. destruct Hq as [[(n & <- & Hn) _] _]. cbn [watches]. exists (get_path root x). split; [left; reflexivity|].
      unfold get_path. pose proof (Sl _ _ _ L Hn) as On. rewrite (normpath_name (join root x) n); [|apply join_start; exact absolute|exact On].
      exists [n]. split; [constructor; [exact On|constructor]|reflexivity].
  Qed.
End Load.

(** ** The rest *)
Lemma split_parts s : forall cur, ~ In 44%N cur -> forall x, In x (re_split_acc (fun c => (c =? 44)%N) cur s) <->
  ~ In 44%N x /\ exists a b, rev cur ++ s = a ++ x ++ b /\ (a = [] \/ exists a', a = a' ++ B ",") /\ (b = [] \/ exists b', b = B "," ++ b').
Proof.
  assert (forall (u v x y : bytes), ~ In 44%N u -> ~ In 44%N x -> (v = [] \/ exists v', v = B "," ++ v') -> (y = [] \/ exists y', y = B "," ++ y') -> u ++ v = x ++ y -> u = x /\ v = y) as Split.
  { induction u as [|c u IH]; intros v x y Hu Hx Hv Hy E.
    - destruct x as [|d x]; [auto|]. exfalso. cbn in E. destruct Hv as [->|[v' ->]]; [discriminate|]. injection E as E _. apply Hx. left. symmetry. exact E.
    - destruct x as [|d x].
      + exfalso. cbn in E. destruct Hy as [->|[y' ->]]; [discriminate|]. injection E as E _. apply Hu. left. exact E.
      + injection E as -> E. destruct (IH v x y) as [-> ->]; auto; intros X; [apply Hu|apply Hx]; right; exact X. }
  induction s as [|c s IH]; intros cur Hc x; cbn [re_split_acc].
  - rewrite app_nil_r. split.
    + intros [<-|[]]. split; [rewrite <- in_rev; exact Hc|]. exists [], []. rewrite app_nil_r. auto.
    + intros (Hx & a & b & E & Ha & Hb). left. assert (~ In 44%N (rev cur)) as Hr by (rewrite <- in_rev; exact Hc).
      destruct Ha as [->|[a' ->]]; [|exfalso; apply Hr; rewrite E; rewrite !in_app_iff; left; right; left; reflexivity].
      destruct Hb as [->|[b' ->]]; [|exfalso; apply Hr; rewrite E; rewrite !in_app_iff; right; right; left; left; reflexivity].
      rewrite app_nil_r in E. exact E.
  - destruct (c =? 44)%N eqn:Ec.
    + apply N.eqb_eq in Ec. subst c. cbn [In]. rewrite (IH [] (fun X => X) x). cbn [rev app]. assert (~ In 44%N (rev cur)) as Hr by (rewrite <- in_rev; exact Hc). split.
      * intros [<-|(Hx & a & b & E & Ha & Hb)].
        { split; [exact Hr|]. exists [], (44%N :: s). split; [reflexivity|]. split; [auto|right; exists s; reflexivity]. }
        { split; [exact Hx|]. exists (rev cur ++ 44%N :: a), b. split; [rewrite E, <- app_assoc; reflexivity|]. split; [right|exact Hb].
          destruct Ha as [->|[a' ->]]; [exists (rev cur); reflexivity|exists (rev cur ++ 44%N :: a'); rewrite <- app_assoc; reflexivity]. }
      * intros (Hx & a & b & E & Ha & Hb). destruct a as [|a0 a].
        { left. cbn [app] in E. destruct (Split (rev cur) (44%N :: s) x b) as [-> _]; auto. right. exists s. reflexivity. }
        { right. split; [exact Hx|]. assert (exists t, a0 :: a = rev cur ++ 44%N :: t) as (t & Et).
          { destruct Ha as [X|[a' Ea]]; [discriminate|]. rewrite Ea in E |- *. revert E. clear - Hr. revert a'. induction (rev cur) as [|u us IHu]; intros a' E.
            - destruct a' as [|v a']; [exists []; reflexivity|]. cbn in E. injection E as <- _. exists (a' ++ B ","). reflexivity.
            - destruct a' as [|v a']; [exfalso; cbn in E; injection E as E _; apply Hr; left; exact E|]. cbn in E. injection E as <- E.
              destruct (IHu ltac:(intros X; apply Hr; right; exact X) a' E) as (t & Et). exists t. cbn [app]. f_equal. exact Et. }
          exists t, b. rewrite Et in E. rewrite <- app_assoc in E. cbn in E. apply app_inv_head in E. injection E as E. split; [exact E|]. split; [|exact Hb].
          destruct Ha as [X|[a' Ea]]; [discriminate|]. rewrite Ea in Et. destruct t as [|t0 t _] using rev_ind; [auto|]. right.
          assert (a' ++ [44%N] = (rev cur ++ 44%N :: t) ++ [t0]) as Et' by (rewrite <- app_assoc; exact Et).
          apply app_inj_tail in Et'. destruct Et' as [_ <-]. exists t. reflexivity. }
    + apply N.eqb_neq in Ec. rewrite (IH (c :: cur)) by (intros [X|X]; congruence). cbn [rev]. rewrite <- app_assoc. reflexivity.
Qed.
Theorem listed o x : In x (option_set o) <-> set_of o x.
Proof.
  unfold set_of, part. destruct o as [[|c s]|]; cbn [option_set].
  - split; [intros []|]. intros (s & E & N & _). congruence.
  - unfold re_split. rewrite (split_parts (c :: s) [] (fun X => X) x). cbn [rev app]. split.
    + intros (Hx & a & b & E & H). exists (c :: s). split; [reflexivity|]. split; [discriminate|]. split; [exact Hx|]. exists a, b. auto.
    + intros (s' & E & _ & Hx & a & b & E' & H). injection E as <-. split; [exact Hx|]. exists a, b. auto.
  - split; [intros []|]. intros (s & E & _). discriminate.
Qed.

Lemma digits_chars n : Forall (fun c => (48 <= c <= 57)%N) (decimal n).
Proof. exact (proj1 (proj2 (Proofs.Access.decimal_spec n))). Qed.
Lemma signed_chars z : Forall (fun c => c <> 58%N /\ c <> 115%N) (signed_decimal z).
Proof.
  assert (forall n, Forall (fun c => c <> 58%N /\ c <> 115%N) (decimal n)) as K by (intros n; eapply Forall_impl; [|apply digits_chars]; cbn; intros; lia).
  unfold signed_decimal. destruct (z <? 0); [|apply K]. constructor; [split; discriminate|apply K].
Qed.
Lemma signed_inj y z : signed_decimal y = signed_decimal z -> y = z.
Proof.
  assert (forall n m, B "-" ++ decimal n <> decimal m) as K.
  { intros n m E. pose proof (digits_chars m) as F. rewrite <- E in F. inversion F; subst. vm_compute in H1. destruct H1. congruence. }
  unfold signed_decimal. destruct (y <? 0) eqn:Y, (z <? 0) eqn:Z; intros E.
  - apply app_inv_head in E. apply Proofs.Access.decimal_inj in E. lia.
  - exfalso. exact (K _ _ E).
  - exfalso. symmetry in E. exact (K _ _ E).
  - apply Proofs.Access.decimal_inj in E. lia.
Qed.
Theorem host_port_inj h p t h' p' t' : make_host_port h p t = make_host_port h' p' t' -> h = h' /\ p = p' /\ t = t'.
Proof.
  unfold make_host_port. intros E.
  assert (forall (a b x y : bytes), ~ In 58%N x -> ~ In 58%N y -> a ++ B ":" ++ x = b ++ B ":" ++ y -> a = b /\ x = y) as Split.
  { clear. intros a b x y Hx Hy. revert b. induction a as [|c a IH]; intros b E; destruct b as [|d b]; cbn in E.
    - injection E as E. auto.
    - exfalso. injection E as _ E. apply Hx. rewrite E. apply in_or_app. right. left. reflexivity.
    - exfalso. injection E as _ E. apply Hy. rewrite <- E. apply in_or_app. right. left. reflexivity.
    - injection E as -> E. destruct (IH b E) as [-> ->]. auto. }
  assert (forall z u, ~ In 58%N (signed_decimal z ++ (if u : bool then B "s" else []))) as Nc.
  { intros z u X. apply in_app_or in X. destruct X as [X|X].
    - pose proof (signed_chars z) as F. rewrite Forall_forall in F. destruct (F _ X). congruence.
    - destruct u; [|destruct X]. destruct X as [X|[]]. discriminate. }
  destruct (Split _ _ _ _ (Nc p t) (Nc p' t') E) as [Eh Ep]. clear E Split Nc.
  assert (t = t') as <-.
  { destruct t, t'; try reflexivity; exfalso; rewrite app_nil_r in Ep.
    - pose proof (signed_chars p') as F. rewrite <- Ep in F. apply Forall_app in F. destruct F as [_ F]. inversion F; subst. vm_compute in H1. destruct H1. congruence.
    - pose proof (signed_chars p) as F. rewrite Ep in F. apply Forall_app in F. destruct F as [_ F]. inversion F; subst. vm_compute in H1. destruct H1. congruence. }
  apply app_inv_tail in Ep. apply signed_inj in Ep. split; [|auto].
  assert (forall (x : bytes), existsb (N.eqb 58) x = true <-> In 58%N x) as Ex.
  { intros x. rewrite existsb_exists. split; [intros (y & Y & E); apply N.eqb_eq in E; subst; exact Y|]. intros X. exists 58%N. split; [exact X|reflexivity]. }
  destruct (existsb (N.eqb 58) h) eqn:C, (existsb (N.eqb 58) h') eqn:C'.
  - apply app_inv_head in Eh. apply app_inv_tail in Eh. exact Eh.
  - exfalso. assert (In 58%N h') as X; [|apply Ex in X; congruence]. rewrite <- Eh. apply in_or_app. right. apply in_or_app. left. apply Ex. exact C.
  - exfalso. assert (In 58%N h) as X; [|apply Ex in X; congruence]. rewrite Eh. apply in_or_app. right. apply in_or_app. left. apply Ex. exact C'.
  - exact Eh.
Qed.
