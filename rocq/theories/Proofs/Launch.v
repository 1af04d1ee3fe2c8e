(** Proofs about launching. *)
From Coq Require Import String Lia.
From Verif Require Import Model.Bytes Model.Child Model.Launch Spec.Launch Proofs.BytesLemmas.
From Verif Require Proofs.Access Spec.Access.
Local Open Scope list_scope.
Local Open Scope nat_scope.

(** ** environment *)
Lemma says_put k v d x : says (put k v d) x = if beqb x k then Some v else says d x.
Proof.
  induction d as [|[k' v'] r IH]; cbn; [destruct (beqb x k); reflexivity|].
  destruct (beqb_spec k k') as [<-|D]; cbn.
  - destruct (beqb x k); reflexivity.
  - rewrite IH. destruct (beqb_spec x k') as [->|D2]; [|reflexivity].
    destruct (beqb_spec k' k) as [->|_]; [congruence|reflexivity].
Qed.
Lemma keys_put k v d : map fst (put k v d) = map fst d \/ (map fst (put k v d) = map fst d ++ [k] /\ ~ In k (map fst d)).
Proof.
  induction d as [|[k' v'] r IH]; cbn; [right; split; [reflexivity|intros []]|].
  destruct (beqb_spec k k') as [<-|D]; cbn; [left; reflexivity|].
  destruct IH as [->|[-> N0]]; [left; reflexivity|right]. split; [reflexivity|]. intros [E|I]; [congruence|contradiction].
Qed.
Lemma nodup_put k v d : NoDup (map fst d) -> NoDup (map fst (put k v d)).
Proof.
  intros H. destruct (keys_put k v d) as [->|[-> N0]]; [exact H|]. apply NoDup_rev in H. rewrite <- (rev_involutive (map fst d ++ [k])). apply NoDup_rev.
  rewrite rev_app_distr. cbn. constructor; [|exact H]. intros I. apply N0. apply in_rev. exact I.
Qed.
Lemma in_put k v d k' v' : In (k', v') (put k v d) -> (k' = k /\ v' = v) \/ In (k', v') d.
Proof.
  induction d as [|[k2 v2] r IH]; cbn; [intros [[= <- <-]|[]]; auto|].
  destruct (beqb_spec k k2) as [<-|D]; cbn; intros [E|I]; auto.
  - injection E as <- <-. auto.
  - destruct (IH I); auto.
Qed.
Lemma says_update new : forall d x, NoDup (map fst new) -> says (update d new) x = first (says new x) (says d x).
Proof.
  induction new as [|[k v] r IH]; intros d x H; [reflexivity|]. inversion H as [|? ? N0 H']; subst.
  change (update d ((k, v) :: r)) with (update (put k v d) r). rewrite IH by exact H'. rewrite says_put. cbn [says].
  destruct (beqb_spec x k) as [->|]; [|reflexivity].
  assert (says r k = None) as ->; [|reflexivity].
  clear -N0. induction r as [|[k' v'] r IH]; [reflexivity|]. cbn in *. destruct (beqb_spec k k') as [->|]; [exfalso; apply N0; auto|]. apply IH. tauto.
Qed.
Definition good (k : bytes) (v : value) : Prop := ~ In 61%N k /\ ~ In 0%N k /\ (forall s, v = Text s -> ~ In 0%N s).
Lemma proper_put k v d : proper d -> good k v -> proper (put k v d).
Proof.
  intros [A C] G. split; [apply nodup_put, A|]. intros k' v' I. apply in_put in I as [[-> ->]|I]; [exact G|exact (C k' v' I)].
Qed.
Lemma proper_update new : forall d, proper d -> (forall k v, In (k, v) new -> good k v) -> proper (update d new).
Proof.
  induction new as [|[k v] r IH]; intros d P G; [exact P|]. change (update d ((k, v) :: r)) with (update (put k v d) r).
  apply IH; [apply proper_put; [exact P|apply G; left; reflexivity]|]. intros k' v' I. apply G. right. exact I.
Qed.

Lemma c_string_id s : ~ In 0%N s -> c_string s = s.
Proof.
  induction s as [|c s IH]; intros H; [reflexivity|]. cbn. destruct (N.eqb_spec c 0) as [->|]; [exfalso; apply H; left; reflexivity|].
  rewrite IH; [reflexivity|]. intros I. apply H. right. exact I.
Qed.
Lemma show_clean v s : (forall t, v = Text t -> ~ In 0%N t) -> show v = Some s -> ~ In 0%N s.
Proof.
  intros H. destruct v as [|n|t]; [discriminate| |].
  - intros [= <-] I. destruct (Proofs.Access.decimal_spec n) as (_ & F & _). rewrite Forall_forall in F. specialize (F _ I). lia.
  - intros [= <-]. apply H. reflexivity.
Qed.
Lemma env_clean d : proper d -> map c_string (env_list d) = env_list d.
Proof.
  intros [_ G]. rewrite <- map_id. apply map_ext_in. intros e I. unfold env_list in I. apply in_flat_map in I as ([k v] & I & E). cbn in E.
  destruct (show v) as [s|] eqn:Sh; [|destruct E]. destruct E as [<-|[]]. destruct (G k v I) as (_ & A & C).
  apply c_string_id. intros Z. apply in_app_or in Z as [Z|[Z|Z]]; [contradiction|discriminate|]. exact (show_clean v s C Sh Z).
Qed.
Lemma key_match x k s : ~ In 61%N x -> ~ In 61%N k -> beqb (firstn (S (length x)) (k ++ 61%N :: s)) (x ++ [61%N]) = beqb x k.
Proof.
  revert k. induction x as [|a x IH]; intros k X K.
  - destruct k as [|c k]; [reflexivity|]. cbn [length]. cbn [app firstn]. cbn. destruct (N.eqb_spec c 61) as [->|]; [exfalso; apply K; left; reflexivity|reflexivity].
  - destruct k as [|c k].
    + cbn [length app]. change (firstn (S (S (length x))) (61%N :: s)) with (61%N :: firstn (S (length x)) s).
      change (beqb (61%N :: ?u) (a :: ?w)) with ((61 =? a)%N && beqb u w).
      assert ((61 =? a)%N = false) as -> by (apply N.eqb_neq; intros <-; apply X; left; reflexivity). reflexivity.
    + cbn [length app]. change (firstn (S (S (length x))) (c :: k ++ 61%N :: s)) with (c :: firstn (S (length x)) (k ++ 61%N :: s)).
      change (beqb (c :: ?a) (?b :: ?d)) with ((c =? b)%N && beqb a d).
      rewrite IH; [|intros I; apply X; right; exact I|intros I; apply K; right; exact I].
      change (beqb (a :: x) (c :: k)) with ((a =? c)%N && beqb x k). rewrite N.eqb_sym. reflexivity.
Qed.
Lemma getenv_env d x : ~ In 61%N x -> proper d -> getenv x (env_list d) = text (says d x).
Proof.
  intros X [Nd G]. induction d as [|[k v] r IH]; [reflexivity|]. inversion Nd as [|? ? N0 Nd']; subst.
  assert (proper r) as P by (split; [exact Nd'|intros k' v' I; apply G; right; exact I]).
  specialize (IH Nd' (proj2 P)). cbn [says]. destruct (G k v (or_introl eq_refl)) as (K & _ & _).
  unfold env_list. cbn [flat_map snd fst]. fold (env_list r).
  destruct (show v) as [s|] eqn:Sh.
  - cbn [app getenv]. rewrite key_match by assumption. destruct (beqb_spec x k) as [->|D]; [|exact IH].
    rewrite skipn_app. replace (S (length k) - length k) with 1 by lia. rewrite (skipn_all2 k) by lia. cbn [app skipn].
    destruct v; cbn [show] in Sh; cbn [text]; first [discriminate Sh|exact (eq_sym Sh)].
  - cbn [app]. rewrite IH. destruct (beqb_spec x k) as [->|D]; [|reflexivity].
    assert (says r k = None) as ->.
    { clear -N0. induction r as [|[k' v'] r IH]; [reflexivity|]. cbn in *. destruct (beqb_spec k k') as [->|]; [exfalso; apply N0; auto|]. apply IH. tauto. }
    destruct v; cbn [show] in Sh; cbn [text]; congruence.
Qed.

Lemma common_is locale unb : base_env locale unb = common locale unb.
Proof. destruct unb; reflexivity. Qed.
Lemma good_lit k s : existsb (N.eqb 61) k = false -> existsb (N.eqb 0) k = false -> ~ In 0%N s -> good k (Text s).
Proof.
  intros A C Hz. split; [|split].
  - intros I. apply Bool.not_true_iff_false in A. apply A. apply existsb_exists. exists 61%N. auto.
  - intros I. apply Bool.not_true_iff_false in C. apply C. apply existsb_exists. exists 0%N. auto.
  - intros t [= <-]. exact Hz.
Qed.
Lemma good_num k n : existsb (N.eqb 61) k = false -> existsb (N.eqb 0) k = false -> good k (Num n).
Proof.
  intros A C. split; [|split; [|discriminate]].
  - intros I. apply Bool.not_true_iff_false in A. apply A. apply existsb_exists. exists 61%N. auto.
  - intros I. apply Bool.not_true_iff_false in C. apply C. apply existsb_exists. exists 0%N. auto.
Qed.
Definition clean_value (v : value) : Prop := forall s, v = Text s -> ~ In 0%N s.
Lemma good_value k v : existsb (N.eqb 61) k = false -> existsb (N.eqb 0) k = false -> clean_value v -> good k v.
Proof. intros A C V. destruct (good_num k 0 A C) as (X & Y & _). split; [exact X|]. split; [exact Y|exact V]. Qed.

Lemma common_proper locale unb : ~ In 0%N locale -> proper (common locale unb).
Proof.
  intros L. split.
  - destruct unb; cbn; repeat constructor; cbn; intuition discriminate.
  - assert (forall k v, In (k, v) (common locale unb) -> good k v); [|exact H].
    intros k v. destruct unb; cbn [common].
    + intros [[= <- <-]|[[= <- <-]|[]]]; [apply good_lit; [reflexivity|reflexivity|exact L]|apply good_num; reflexivity].
    + intros [[= <- <-]|[]]. apply good_lit; [reflexivity|reflexivity|exact L].
Qed.
Lemma launch_proper ld agent o : (forall s, ld = Some s -> ~ In 0%N s) -> ~ In 0%N agent -> clean_value (stdout_buffer_size o) -> clean_value (stderr_buffer_size o) ->
  proper (of_launch ld agent o).
Proof.
  intros L A C D. split; [cbn; repeat constructor; cbn; intuition discriminate|].
  assert (forall k v, In (k, v) (of_launch ld agent o) -> good k v); [|exact H].
  intros k v. cbn [of_launch]. intros [[= <- <-]|[[= <- <-]|[[= <- <-]|[[= <- <-]|[]]]]].
  - apply good_lit; [reflexivity|reflexivity|]. destruct ld as [s|]; [apply L; reflexivity|intros []].
  - apply good_lit; [reflexivity|reflexivity|exact A].
  - apply good_value; [reflexivity|reflexivity|exact C].
  - apply good_value; [reflexivity|reflexivity|exact D].
Qed.
Lemma get_env_update k locale unb : get_env k locale unb = update (common locale unb) (added k).
Proof. unfold get_env. rewrite common_is. destruct k; reflexivity. Qed.
Lemma added_proper_cases k : proper (added k) -> NoDup (map fst (added k)) /\ forall k' v, In (k', v) (added k) -> good k' v.
Proof. intros [A C]. split; [exact A|exact C]. Qed.

Theorem environment : forall k locale unb ld agent o x,
  proper (added k) -> ~ In 0%N locale -> (forall s, ld = Some s -> ~ In 0%N s) -> ~ In 0%N agent ->
  clean_value (stdout_buffer_size o) -> clean_value (stderr_buffer_size o) -> ~ In 61%N x ->
  getenv x (map c_string (env_list (launch_env ld agent o (get_env k locale unb)))) = text (variable k locale unb ld agent o x).
Proof.
  intros k locale unb ld agent o x PA L LD A C D X. pose proof (added_proper_cases k PA) as [NA GA].
  pose proof (common_proper locale unb L) as PC. pose proof (proper_update (added k) _ PC GA) as PE.
  pose proof (launch_proper ld agent o LD A C D) as PL.
  unfold launch_env. fold (of_launch ld agent o). rewrite get_env_update.
  assert (proper (update (of_launch ld agent o) (update (common locale unb) (added k)))) as P by (apply proper_update; [exact PL|apply PE]).
  rewrite env_clean by exact P. rewrite getenv_env by assumption. rewrite says_update by apply PE. rewrite says_update by exact NA.
  unfold variable. destruct (says (added k) x); reflexivity.
Qed.

(** ** buffers *)
Lemma digits_value_all s acc : Forall (fun c => (48 <= c <= 57)%N) s -> digits_value s acc = (fold_left (fun a c => 10 * a + (c - 48))%N s acc, []).
Proof.
  revert acc. induction s as [|c s IH]; intros acc F; [reflexivity|]. inversion F; subst. cbn [digits_value fold_left].
  assert (((48 <=? c) && (c <=? 57))%N = true) as -> by (apply Bool.andb_true_iff; split; apply N.leb_le; lia). apply IH. assumption.
Qed.
Lemma strtoul_decimal n : (n <= INFINITY)%N -> strtoul (Model.Access.decimal n) = (n, []).
Proof.
  intros L. destruct (Proofs.Access.decimal_spec n) as (V & F & Ne). unfold strtoul.
  destruct (Model.Access.decimal n) as [|c s] eqn:E; [congruence|].
  inversion F as [|? ? Hc Fs]; subst c s; rename x into c; rename l into s.
  assert (py_isspace c = false) as Sp.
  { unfold py_isspace. destruct (N.leb_spec 9 c), (N.leb_spec c 13), (N.eqb_spec c 32); cbn; lia || reflexivity. }
  cbn [skip_space]. rewrite Sp.
  assert ((c =? 45)%N = false) as -> by (apply N.eqb_neq; lia). assert ((c =? 43)%N = false) as -> by (apply N.eqb_neq; lia).
  assert (((48 <=? c) && (c <=? 57))%N = true) as -> by (apply Bool.andb_true_iff; split; apply N.leb_le; lia).
  rewrite digits_value_all by exact F. unfold Spec.Access.numeral_value in V. rewrite V.
  assert ((INFINITY <? n)%N = false) as -> by (apply N.ltb_ge; lia). reflexivity.
Qed.
Lemma setbuffer_number x env n : getenv x env = Some (Model.Access.decimal n) -> (n <= INFINITY)%N -> setbuffer x env = if (n =? 0)%N then Unbuffered else Full n.
Proof. intros E L. unfold setbuffer. rewrite E, (strtoul_decimal n L). reflexivity. Qed.

Lemma clean_number v : match v with Text _ => False | _ => True end -> clean_value v.
Proof. intros H s ->. destruct H. Qed.
Theorem buffers : forall k locale unb ld agent o,
  proper (added k) -> ~ In 0%N locale -> (forall s, ld = Some s -> ~ In 0%N s) -> ~ In 0%N agent ->
  size (stdout_buffer_size o) -> size (stderr_buffer_size o) ->
  says (added k) (B "CPTBOX_STDOUT_BUFFER_SIZE") = None -> says (added k) (B "CPTBOX_STDERR_BUFFER_SIZE") = None ->
  let env := map c_string (env_list (launch_env ld agent o (get_env k locale unb))) in
  setbuffer (B "CPTBOX_STDOUT_BUFFER_SIZE") env = (if unb then Unbuffered else as_asked (stdout_buffer_size o)) /\
  setbuffer (B "CPTBOX_STDERR_BUFFER_SIZE") env = as_asked (stderr_buffer_size o).
Proof.
  intros k locale unb ld agent o P L LD A So Se No Ne env.
  assert (clean_value (stdout_buffer_size o)) as C1 by (apply clean_number; unfold size in So; destruct (stdout_buffer_size o); tauto).
  assert (clean_value (stderr_buffer_size o)) as C2 by (apply clean_number; unfold size in Se; destruct (stderr_buffer_size o); tauto).
  assert (forall x, ~ In 61%N x -> getenv x env = text (variable k locale unb ld agent o x)) as G by (intros x X; apply environment; assumption).
  clearbody env.
  assert (forall x v, getenv x env = text (Some v) -> size v -> setbuffer x env = as_asked v) as K.
  { intros x v E S. destruct v as [|n|t]; [|exact (setbuffer_number x env n E S)|destruct S]. unfold setbuffer. rewrite E. reflexivity. }
  split.
  - specialize (G (B "CPTBOX_STDOUT_BUFFER_SIZE")). unfold variable in G. rewrite No in G. cbn [first] in G.
    destruct unb.
    + apply (K _ (Num 0)); [|unfold size; vm_compute; discriminate]. apply G. vm_compute. intuition discriminate.
    + apply K; [|exact So]. rewrite G; [reflexivity|]. vm_compute. intuition discriminate.
  - specialize (G (B "CPTBOX_STDERR_BUFFER_SIZE")). unfold variable in G. rewrite Ne in G. cbn [first] in G.
    apply K; [|exact Se]. rewrite G; [destruct unb; reflexivity|]. vm_compute. intuition discriminate.
Qed.

(** ** the executable *)
Lemma join_sits d p : sits d p (join d p).
Proof.
  unfold sits, join. destruct (rev d) as [|c r] eqn:E; apply (f_equal (@rev _)) in E; rewrite rev_involutive in E; cbn in E.
  - left. auto.
  - right. destruct (N.eqb_spec c 47) as [->|D].
    + left. exists (rev r). split; [exact E|reflexivity].
    + right. split; [subst d; intros X; destruct (rev r); discriminate|]. split; [|reflexivity].
      intros d' X. rewrite X in E. apply app_inj_tail in E as [_ E]. apply D. symmetry. exact E.
Qed.
Lemma sits_one d p q : sits d p q -> q = join d p.
Proof.
  intros H. unfold join. destruct (rev d) as [|c r] eqn:E; apply (f_equal (@rev _)) in E; rewrite rev_involutive in E; cbn in E.
  - destruct H as [[_ H]|[(d' & X & _)|(X & _)]]; [exact H| |destruct (X E)]. rewrite X in E. destruct d'; discriminate.
  - destruct H as [[X _]|[(d' & X & ->)|(_ & X & ->)]].
    + rewrite X in E. destruct (rev r); discriminate.
    + rewrite X in E. apply app_inj_tail in E as [_ E]. subst c. reflexivity.
    + destruct (N.eqb_spec c 47) as [->|D]; [exfalso; exact (X _ E)|reflexivity].
Qed.
Theorem path_search : forall abspath access dirs p, ~ In 47%N p ->
  match find_exe_in_path abspath access dirs p with
  | Some q => exists before d after, dirs = before ++ d :: after /\ sits d p q /\ access q = true /\ forall d' q', In d' before -> sits d' p q' -> access q' = false
  | None => forall d q, In d dirs -> sits d p q -> access q = false
  end.
Proof.
  intros abspath access dirs p Nn.
  assert (starts_slash p = false) as S by (destruct p as [|c r]; [reflexivity|]; apply N.eqb_neq; intros ->; apply Nn; left; reflexivity).
  assert (match find_exe_in_path abspath access dirs p with
  | Some q => exists before d after, dirs = before ++ d :: after /\ q = join d p /\ access q = true /\ forall d', In d' before -> access (join d' p) = false
  | None => forall d, In d dirs -> access (join d p) = false
  end) as G; [|destruct (find_exe_in_path abspath access dirs p) as [q|];
    [destruct G as (b0 & d & a & E & -> & A & H); exists b0, d, a; split; [exact E|]; split; [apply join_sits|]; split; [exact A|]; intros d' q' I K; rewrite (sits_one _ _ _ K); exact (H d' I)
    |intros d q I K; rewrite (sits_one _ _ _ K); exact (G d I)]].
 unfold find_exe_in_path. rewrite S.
  assert (existsb (N.eqb 47) p = false) as ->.
  { apply Bool.not_true_iff_false. intros E. apply existsb_exists in E as (c & I & E). apply N.eqb_eq in E. subst c. contradiction. }
  induction dirs as [|d dirs IH]; [intros d []|]. cbn [map find]. destruct (access (join d p)) eqn:E.
  - exists [], d, dirs. split; [reflexivity|]. split; [reflexivity|]. split; [exact E|]. intros ? [].
  - destruct (find access (map (fun d => join d p) dirs)) as [q|].
    + destruct IH as (b & d' & a & -> & -> & Q & H). exists (d :: b), d', a. split; [reflexivity|]. split; [reflexivity|]. split; [exact Q|].
      intros x [<-|I]; [exact E|exact (H x I)].
    + intros x [<-|I]; [exact E|exact (IH x I)].
Qed.

Lemma cut args : Forall2 (fun given had => ~ In 0%N had /\ (had = given \/ exists rest, given = had ++ 0%N :: rest)) args (map c_string args).
Proof.
  induction args as [|s args IH]; [constructor|]. cbn [map]. constructor; [|exact IH]. clear IH.
  induction s as [|c s [Nn E]]; [split; [intros []|left; reflexivity]|]. cbn [c_string]. destruct (N.eqb_spec c 0) as [->|D].
  - split; [intros []|right]. exists s. reflexivity.
  - split; [intros [H|H]; [congruence|contradiction]|]. destruct E as [->|[rest E]]; [left; reflexivity|right]. exists rest. cbn. congruence.
Qed.

(** ** the child *)
Lemma add_rules_spec s c n call : add_rules s c n call = true <-> (call < N.of_nat n)%N /\ whitelisted c call = true /\ rule_ok s call = true.
Proof.
  induction n as [|n IH]; [cbn; split; [discriminate|lia]|]. cbn [add_rules]. destruct (N.eqb_spec call (N.of_nat n)) as [->|D].
  - destruct (whitelisted c (N.of_nat n)); split; try tauto; try (intros H; repeat split; auto; lia); intros (_ & H & _); discriminate.
  - rewrite IH. split; intros (A & C); (split; [lia|exact C]).
Qed.
Ltac flat := cbn [own_group persona_set no_new_privs fds traced stops filter rlimits cwd].
Ltac unfold_spawn := unfold spawn, child_run; flat; unfold load_filter; flat; unfold finish; flat.
Theorem runs_confined sys c judge f a e p : spawn sys c judge = Runs f a e p ->
  f = file c /\ a = argv c /\ e = envp c /\ confined sys c judge p.
Proof.
  unfold_spawn.
  assert (sees_all_but (whitelisted c) (add_rules sys c max_syscall)) as Hs.
  { intros call H. apply add_rules_spec in H as (A & C & _). split; [exact C|]. change 568%N with (N.of_nat max_syscall). exact A. }
  generalize dependent (add_rules sys c max_syscall). intros fl Hs.
  destruct (fork_ok sys); [|discriminate]. destruct (nnp_ok sys); [|discriminate]. destruct (traceme_ok sys); [|discriminate].
  destruct (use_seccomp c) eqn:U.
  - destruct (init_ok sys); [|discriminate]. destruct (load_ok sys); [|discriminate]. destruct (execve_ok sys); [|discriminate].
    intros [= <- <- <- <-]. split; [reflexivity|]. split; [reflexivity|]. split; [reflexivity|]. constructor; cbn [own_group traced stops no_new_privs filter rlimits fds cwd persona_set]; auto; try (destruct (persona c); [reflexivity|destruct (personality_ok sys); reflexivity]).
    + intros _. exists fl. split; [reflexivity|exact Hs].
    + intros D K. destruct (dir c); [congruence|]. rewrite K. reflexivity.
  - destruct (execve_ok sys); [|discriminate].
    intros [= <- <- <- <-]. split; [reflexivity|]. split; [reflexivity|]. split; [reflexivity|]. constructor; cbn [own_group traced stops no_new_privs filter rlimits fds cwd persona_set]; auto; try (destruct (persona c); [reflexivity|destruct (personality_ok sys); reflexivity]).
    + congruence.
    + intros D K. destruct (dir c); [congruence|]. rewrite K. reflexivity.
Qed.
Theorem runs_iff sys c judge : (exists f a e p, spawn sys c judge = Runs f a e p) <-> forall g, ~ fails sys c g.
Proof.
  unfold_spawn. generalize (add_rules sys c max_syscall). intros fl. split.
  - intros (f & a & e & p & H) g F. destruct g; cbn in F.
    + rewrite F in H. discriminate.
    + rewrite F in H. destruct (fork_ok sys); discriminate.
    + rewrite F in H. destruct (fork_ok sys); [|discriminate]. destruct (nnp_ok sys); discriminate.
    + destruct F as [F0 F]. rewrite F0 in H. destruct (fork_ok sys); [|discriminate]. destruct (nnp_ok sys); [|discriminate]. destruct (traceme_ok sys); [|discriminate].
      destruct F as [F|F]; rewrite F in H; [discriminate|]. destruct (init_ok sys); discriminate.
    + rewrite F in H. destruct (fork_ok sys); [|discriminate]. destruct (nnp_ok sys); [|discriminate]. destruct (traceme_ok sys); [|discriminate].
      destruct (use_seccomp c); [|discriminate]. destruct (init_ok sys); [|discriminate]. destruct (load_ok sys); discriminate.
  - intros H. pose proof (H Fork) as A. pose proof (H NewPrivs) as A1. pose proof (H Tracing) as A2. pose proof (H Filtering) as A3. pose proof (H Executing) as A4.
    cbn in *. destruct (fork_ok sys); [|congruence]. destruct (nnp_ok sys); [|congruence]. destruct (traceme_ok sys); [|congruence]. destruct (execve_ok sys); [|congruence].
    destruct (use_seccomp c).
    + destruct (init_ok sys); [|exfalso; apply A3; auto]. destruct (load_ok sys); [|exfalso; apply A3; auto]. eauto.
    + eauto.
Qed.
Theorem failure_code sys c judge f : first_failure sys c f ->
  match exit_code f with
  | None => spawn sys c judge = NotForked
  | Some code => exists p, spawn sys c judge = Exits code p
  end.
Proof.
  intros (before & after & O & F & Bf). unfold_spawn. generalize (add_rules sys c max_syscall). intros fl.
  assert (forall g, In g before -> ~ fails sys c g) as K by exact Bf.
  destruct f; cbn [exit_code]; cbn in F.
  - rewrite F. reflexivity.
  - assert (In Fork before) as I by (destruct before as [|? [|? [|? [|? ?]]]]; cbn in O; try discriminate O; injection O; intros; subst; cbn; auto 10).
    apply K in I. cbn in I. destruct (fork_ok sys); [|congruence]. rewrite F. eauto.
  - assert (In Fork before /\ In NewPrivs before) as [I1 I2] by (destruct before as [|? [|? [|? [|? ?]]]]; cbn in O; try discriminate O; injection O; intros; subst; cbn; auto 10).
    apply K in I1, I2. cbn in I1, I2. destruct (fork_ok sys); [|congruence]. destruct (nnp_ok sys); [|congruence]. rewrite F. eauto.
  - assert (In Fork before /\ In NewPrivs before /\ In Tracing before) as (I1 & I2 & I3) by (destruct before as [|? [|? [|? [|? ?]]]]; cbn in O; try discriminate O; injection O; intros; subst; cbn; auto 10).
    apply K in I1, I2, I3. cbn in I1, I2, I3. destruct (fork_ok sys); [|congruence]. destruct (nnp_ok sys); [|congruence]. destruct (traceme_ok sys); [|congruence].
    destruct F as [-> F]. destruct F as [F|F]; rewrite F; [eauto|]. destruct (init_ok sys); eauto.
  - assert (In Fork before /\ In NewPrivs before /\ In Tracing before /\ In Filtering before) as (I1 & I2 & I3 & I4).
    { destruct before as [|? [|? [|? [|? [|? ?]]]]]; cbn in O; try discriminate O; injection O; intros; subst; cbn; auto 10. }
    apply K in I1, I2, I3, I4. cbn in I1, I2, I3, I4. destruct (fork_ok sys); [|congruence]. destruct (nnp_ok sys); [|congruence]. destruct (traceme_ok sys); [|congruence].
    rewrite F. destruct (use_seccomp c); [|eauto]. destruct (init_ok sys); [|exfalso; apply I4; auto]. destruct (load_ok sys); [eauto|exfalso; apply I4; auto].
Qed.
Theorem some_failure sys c : (forall g, ~ fails sys c g) \/ exists f, first_failure sys c f.
Proof.
  destruct (fork_ok sys) eqn:E1; [|right; exists Fork, [], [NewPrivs; Tracing; Filtering; Executing]; repeat split; auto].
  destruct (nnp_ok sys) eqn:E2; [|right; exists NewPrivs, [Fork], [Tracing; Filtering; Executing]; repeat split; auto; intros g [<-|[]]; cbn; congruence].
  destruct (traceme_ok sys) eqn:E3; [|right; exists Tracing, [Fork; NewPrivs], [Filtering; Executing]; repeat split; auto; intros g [<-|[<-|[]]]; cbn; congruence].
  destruct (use_seccomp c && (negb (init_ok sys) || negb (load_ok sys))) eqn:E4.
  - right. exists Filtering, [Fork; NewPrivs; Tracing], [Executing]. split; [reflexivity|]. split.
    + apply Bool.andb_true_iff in E4 as [A C]. split; [exact A|]. destruct (init_ok sys), (load_ok sys); auto; discriminate.
    + intros g [<-|[<-|[<-|[]]]]; cbn; congruence.
  - assert (~ fails sys c Filtering) as NF.
    { intros [A C]. rewrite A in E4. cbn in E4. destruct C as [C|C]; rewrite C in E4; cbn in E4; [discriminate|]. rewrite Bool.orb_true_r in E4. discriminate. }
    destruct (execve_ok sys) eqn:E5.
    + left. intros g. destruct g; cbn; try congruence. exact NF.
    + right. exists Executing, [Fork; NewPrivs; Tracing; Filtering], []. split; [reflexivity|]. split; [exact E5|]. intros g [<-|[<-|[<-|[<-|[]]]]]; cbn; try congruence. exact NF.
Qed.
