(** Lemmas for C91. *)
From Coq Require Import String Lia.
From Verif Require Import Model.Bytes Model.Paths Model.Access Model.Sources Model.Autoconf Model.Interpreters Spec.Access Spec.Interpreters
  Proofs.BytesLemmas Proofs.Access Proofs.Toolchain.
Import Model.Interpreters Spec.Interpreters Model.Access.
Local Open Scope nat_scope.
Local Open Scope list_scope.

Lemma join_dir d name : (exists r, d = B "/" ++ r) -> (forall r, d <> r ++ B "/") -> (forall r, name <> 47%N :: r) -> join d name = d ++ B "/" ++ name.
Proof.
  intros Hq Hd Hn. apply (Proofs.Toolchain.join_within d name); [split; assumption|].
  destruct name as [|c r]; [reflexivity|]. cbn. unfold is_slash. destruct (N.eqb_spec c slash) as [->|]; [|reflexivity]. destruct (Hn r). reflexivity.
Qed.

(** ** Scripts *)
Lemma script_run s r isfile u : initialized s r isfile = true ->
  exists c argv0 helper, script_executable s r = Some c /\ isfile c = true /\
    script_args s r u = Some (argv0 :: usage s helper (code s u)) /\ (argv0 = c \/ argv0 = command_name s) /\
    (s = COFFEE -> r (B "coffee") = Some helper /\ isfile helper = true).
Proof.
  unfold initialized, script_executable. rewrite andb_true_iff. intros [H1 H2].
  destruct (get_command s r) as [c|] eqn:G; [|discriminate H2].
  assert (S0 : forall h, script_args s r u = Some ((match s with BASH => B "bash" | PERL => B "perl" | PHP => B "php" | _ => c end)
    :: usage s h (code s u)) -> (s = COFFEE -> r (B "coffee") = Some h /\ isfile h = true) ->
    exists c0 argv0 helper, Some c = Some c0 /\ isfile c0 = true /\ script_args s r u = Some (argv0 :: usage s helper (code s u))
      /\ (argv0 = c0 \/ argv0 = command_name s) /\ (s = COFFEE -> r (B "coffee") = Some helper /\ isfile helper = true)).
  { intros h E Hc. exists c, (match s with BASH => B "bash" | PERL => B "perl" | PHP => B "php" | _ => c end), h.
    split; [reflexivity|]. split; [exact H2|]. split; [exact E|]. split; [|exact Hc].
    destruct s; (left; reflexivity) || (right; reflexivity). }
  destruct s; try (apply (S0 []); [unfold script_args; rewrite ?G; reflexivity|intros X; discriminate X]).
  destruct (r (B "coffee")) as [h|] eqn:Eh; [|discriminate H1].
  apply (S0 h); [unfold script_args; rewrite G, Eh; reflexivity|]. intros _. split; [reflexivity|exact H1].
Qed.
Lemma script_code s u : (exists q, dir u = B "/" ++ q) -> (forall q, dir u <> q ++ B "/") -> problem u <> [] -> ~ In 47%N (problem u) ->
  code s u = dir u ++ B "/" ++ problem u ++ B "." ++ ext s.
Proof.
  intros Hd Hd' Hn Hs. unfold code. apply join_dir; [exact Hd|exact Hd'|]. intros r E.
  destruct (problem u) as [|c p']; [destruct Hn; reflexivity|]. injection E as -> _. apply Hs. left. reflexivity.
Qed.

(** ** Virtual machines *)
Lemma started_snoc l o m a x : started_as l o m a -> started_as (l ++ [x]) o m (a ++ [x]).
Proof.
  induction 1; cbn [app].
  - apply started_class. assumption.
  - apply started_jar.
  - apply started_path; assumption.
  - apply started_option; assumption.
Qed.
Lemma started_options os l o m a : (forall x, In x os -> option_like x /\ ~ In x [B "-jar"; B "-cp"; B "-classpath"]) ->
  started_as l o m a -> started_as (os ++ l) (os ++ o) m a.
Proof.
  intros H S0. induction os as [|x os IH]; [exact S0|]. cbn [app]. destruct (H x (or_introl eq_refl)) as [H1 H2].
  apply started_option; [exact H1|exact H2|]. apply IH. intros y I. apply H. right. exact I.
Qed.
Lemma option_dash r : option_like (45%N :: r). Proof. exists r. reflexivity. Qed.

Lemma cut_app s t : no_comma s -> cut (s ++ t) = match cut t with w :: l => (s ++ w) :: l | [] => [] end.
Proof.
  intros H. induction s as [|c s IH]; cbn [app].
  - destruct (cut t) eqn:E; [|reflexivity]. destruct t as [|x t']; [discriminate E|]. cbn [cut] in E. destruct (x =? 44)%N; [discriminate E|].
    destruct (cut t'); discriminate E.
  - cbn [cut]. destruct (N.eqb_spec c 44) as [->|]; [destruct H; left; reflexivity|].
    rewrite IH by (intros I; apply H; right; exact I). destruct (cut t) eqn:E; [|reflexivity].
    exfalso. destruct t as [|x t']; [discriminate E|]. cbn [cut] in E. destruct (x =? 44)%N; [discriminate E|]. destruct (cut t'); discriminate E.
Qed.
Lemma cut_whole s : no_comma s -> cut s = [s].
Proof. intros H. rewrite <- (app_nil_r s) at 1. rewrite (cut_app s [] H). cbn [cut]. rewrite app_nil_r. reflexivity. Qed.
Lemma cut_hints hs : forall s tail, no_comma s -> (forall h, In h hs -> no_comma h) -> no_comma tail ->
  cut (fold_left (fun f h => f ++ B "," ++ h) hs s) = s :: hs /\
  cut (fold_left (fun f h => f ++ B "," ++ h) hs s ++ B "," ++ tail) = s :: hs ++ [tail].
Proof.
  assert (F : forall hs s, fold_left (fun f h => f ++ B "," ++ h) hs s = s ++ concat (map (fun h => B "," ++ h) hs)).
  { induction hs0 as [|h r IH]; intros s; cbn [fold_left map concat]; [rewrite app_nil_r; reflexivity|]. rewrite IH, <- !app_assoc. reflexivity. }
  assert (C : forall hs tl, (forall h, In h hs -> no_comma h) -> (tl = [] \/ exists t, tl = B "," ++ t) ->
     cut (concat (map (fun h => B "," ++ h) hs) ++ tl) = [] :: hs ++ tail (cut tl)).
  { induction hs0 as [|h r IH]; intros tl Hh Ht; cbn [map concat app].
    - destruct Ht as [->|[t ->]]; reflexivity.
    - assert (K : forall w, cut (((B "," ++ h) ++ w)) = [] :: cut (h ++ w)) by reflexivity.
      rewrite <- app_assoc, K. f_equal. rewrite cut_app by (apply Hh; left; reflexivity).
      rewrite (IH tl) by (try exact Ht; intros x I; apply Hh; right; exact I). rewrite app_nil_r. reflexivity. }
  intros s tl Hs Hh Ht. rewrite F. split.
  - rewrite cut_app by exact Hs. pose proof (C hs [] Hh (or_introl eq_refl)) as E. rewrite !app_nil_r in E. cbn [cut tail] in E.
    rewrite ?app_nil_r in E. rewrite E, app_nil_r. reflexivity.
  - rewrite <- app_assoc, cut_app by exact Hs. rewrite (C hs (B "," ++ tl) Hh) by (right; exists tl; reflexivity).
    rewrite app_nil_r. change (cut (B "," ++ tl)) with ([] :: cut tl). cbn [tail]. rewrite (cut_whole tl Ht). reflexivity.
Qed.

Definition head_options (p : program) (memory : N) : list bytes :=
  [mode_flag p; agent_flag p; B "-Xss128m"; B "-Xmx" ++ decimal memory ++ B "K"; B "-XX:+UseSerialGC"].
Lemma fold_prefix hs : forall a b, fold_left (fun f h => f ++ B "," ++ h) hs (a ++ b) = a ++ fold_left (fun f h => f ++ B "," ++ h) hs b.
Proof. induction hs as [|h r IH]; intros a b; cbn [fold_left]; [reflexivity|]. rewrite <- !app_assoc. apply IH. Qed.
Lemma agent_flag_is p : agent_flag p = B "-javaagent:" ++ jar_agent p ++ B "=" ++
  (let o := fold_left (fun f h => f ++ B "," ++ h) (hints p) (B "policy:" ++ policy_file p) in if unbuffered p then o ++ B "," ++ B "nobuf" else o).
Proof.
  unfold agent_flag. change (B "=policy:") with (B "=" ++ B "policy:").
  replace (B "-javaagent:" ++ jar_agent p ++ (B "=" ++ B "policy:") ++ policy_file p)
    with ((B "-javaagent:" ++ jar_agent p ++ B "=") ++ (B "policy:" ++ policy_file p)) by (rewrite <- !app_assoc; reflexivity).
  rewrite fold_prefix. destruct (unbuffered p); cbv zeta; rewrite <- !app_assoc; reflexivity.
Qed.
Lemma head_are_options p memory : usable_program p ->
  forall x, In x (head_options p memory) -> option_like x /\ ~ In x [B "-jar"; B "-cp"; B "-classpath"].
Proof.
  intros (Hm & _) x I. unfold head_options in I. destruct I as [<-|[<-|[<-|[<-|[<-|[]]]]]].
  - unfold mode_flag. split; [exists (match vm_mode p with Some m => m | None => B "client" end); reflexivity|].
    destruct (vm_mode p) as [m|] eqn:E.
    + intros H. apply (Hm m eq_refl). destruct H as [H|[H|[H|[]]]]; injection H as <-;
        [left|right; left|right; right; left]; reflexivity.
    + intros [H|[H|[H|[]]]]; vm_compute in H; discriminate H.
  - rewrite agent_flag_is. split; [apply option_dash|]. intros [H|[H|[H|[]]]]; discriminate H.
  - split; [apply option_dash|]. intros [H|[H|[H|[]]]]; discriminate H.
  - split; [apply option_dash|]. intros [H|[H|[H|[]]]]; discriminate H.
  - split; [apply option_dash|]. intros [H|[H|[H|[]]]]; discriminate H.
Qed.
Lemma jvm_args_shape j p memory : exists rest,
  jvm_args j p memory = B "java" :: head_options p memory ++ rest /\
  rest = match j with
         | KOTLIN => [B "-jar"; jar_name p]
         | GROOVY => (B "-Dsubmission.file=" ++ class p) :: extra p ++ [class p]
         | SCALA => extra p ++ [class p]
         | _ => [B "-XX:ErrorFile=submission_jvm_crash.log"; class p]
         end.
Proof.
  destruct j; (eexists; split; [|reflexivity]);
    unfold jvm_args, kotlin_cmdline, groovy_cmdline, scala_cmdline, splice_end, splice_before_last, java_args, head_options;
    cbn [List.length Nat.sub firstn skipn app]; rewrite <- ?app_assoc; reflexivity.
Qed.
(** the options the language adds to those of every JVM *)
Definition own_options (j : jvm) (p : program) : list bytes :=
  match j with
  | KOTLIN | SCALA => []
  | GROOVY => [B "-Dsubmission.file=" ++ class p]
  | _ => [B "-XX:ErrorFile=submission_jvm_crash.log"]
  end.
Lemma jvm_started j p memory eo m args : usable_program p -> runs j p eo m args ->
  started_as (tail (jvm_args j p memory)) (head_options p memory ++ own_options j p ++ eo) m args.
Proof.
  intros U R. destruct (jvm_args_shape j p memory) as (rest & E & Er). rewrite E. cbn [tail].
  apply started_options; [apply head_are_options, U|]. rewrite Er. clear E Er rest.
  assert (J : eo = [] /\ m = MainClass (class p) /\ ~ option_like (class p) /\ args = [] ->
     started_as [B "-XX:ErrorFile=submission_jvm_crash.log"; class p] ([B "-XX:ErrorFile=submission_jvm_crash.log"] ++ eo) m args).
  { intros (-> & -> & H & ->). apply started_option; [apply option_dash| |apply started_class; exact H].
    intros [X|[X|[X|[]]]]; discriminate X. }
  destruct j; cbn [runs own_options] in *; try (apply J; exact R).
  - destruct R as (-> & -> & ->). unfold jar_name. apply started_jar.
  - destruct R as (own & H & ->). apply started_option; [apply option_dash| |apply started_snoc, H].
    intros [X|[X|[X|[]]]]; discriminate X.
  - destruct R as (own & H & ->). cbn [app]. apply started_snoc, H.
Qed.
Lemma jvm_agent p memory l : usable_program p ->
  agent_told (head_options p memory ++ l) (jar_agent p) ((B "policy:" ++ place p ++ B "/security.policy") :: hints p ++ (if unbuffered p then [B "nobuf"] else [])).
Proof.
  intros (_ & Hd & Hd' & Hc & Hh).
  assert (Ep : policy_file p = place p ++ B "/" ++ B "security.policy").
  { unfold policy_file. apply join_dir; [exact Hd|exact Hd'|]. intros r E. vm_compute in E. discriminate E. }
  exists (let o := fold_left (fun f h => f ++ B "," ++ h) (hints p) (B "policy:" ++ policy_file p) in if unbuffered p then o ++ B "," ++ B "nobuf" else o).
  rewrite <- agent_flag_is. split; [apply in_or_app; left; right; left; reflexivity|].
  assert (Hs : no_comma (B "policy:" ++ policy_file p)).
  { rewrite Ep. intros I. apply in_app_or in I. destruct I as [I|I].
    - vm_compute in I. repeat (destruct I as [I|I]; [discriminate I|]). destruct I.
    - apply in_app_or in I. destruct I as [I|I]; [exact (Hc I)|].
      vm_compute in I. repeat (destruct I as [I|I]; [discriminate I|]). destruct I. }
  assert (Hn : no_comma (B "nobuf")).
  { intros I. vm_compute in I. repeat (destruct I as [I|I]; [discriminate I|]). destruct I. }
  destruct (cut_hints (hints p) (B "policy:" ++ policy_file p) (B "nobuf") Hs Hh Hn) as [C1 C2].
  replace (B "policy:" ++ place p ++ B "/security.policy") with (B "policy:" ++ policy_file p) by (rewrite Ep; reflexivity).
  cbv zeta. destruct (unbuffered p); [exact C2|]. rewrite app_nil_r. exact C1.
Qed.
Lemma own_no_heap j p o : In o (own_options j p) -> ~ heap_flag o.
Proof.
  intros I [r E]. destruct j; cbn [own_options In] in I; repeat destruct I as [I|I]; try contradiction; subst o; vm_compute in E; discriminate E.
Qed.
Lemma jvm_heap j p memory eo : (forall o, In o eo -> ~ heap_flag o) -> heap_limit (head_options p memory ++ own_options j p ++ eo) memory.
Proof.
  intros H. destruct (decimal_spec memory) as (V & F & Ne).
  exists [mode_flag p; agent_flag p; B "-Xss128m"], (B "-XX:+UseSerialGC" :: own_options j p ++ eo), (decimal memory).
  split; [reflexivity|]. split; [|split; [exact Ne|split; [|exact V]]].
  - intros o [<-|I]; [intros [r E]; vm_compute in E; discriminate E|]. apply in_app_or in I. destruct I as [I|I]; [apply (own_no_heap j p), I|apply H, I].
  - rewrite Forall_forall in F. intros c I. apply F, I.
Qed.

(** ** Policies *)
Lemma granted_app l l' r : granted (l ++ l') r <-> granted l r \/ granted l' r.
Proof.
  unfold granted. split.
  - intros (p & I & C). apply in_app_or in I as [I|I]; [left|right]; exists p; auto.
  - intros [(p & I & C)|(p & I & C)]; exists p; (split; [apply in_or_app; auto|exact C]).
Qed.
Lemma granted_one p r : granted [p] r <-> covers p r.
Proof. unfold granted. split; [intros (q & [<-|[]] & C); exact C|intros C; exists p; split; [left; reflexivity|exact C]]. Qed.
Definition plain (n : string) : bool := match rev (B n) with c :: _ => negb (c =? 42)%N | [] => true end.
Lemma plain_covers n t : plain n = true -> covers_name (B n) t <-> t = B n.
Proof.
  unfold plain, covers_name. intros H. split; [|intros ->; left; reflexivity].
  intros [E|[E|(q & r & E & _)]]; [symmetry; exact E| |]; rewrite E in H; rewrite ?rev_app_distr in H; discriminate H.
Qed.
Lemma granted_map k acts names r : k <> "java.io.FilePermission"%string -> forallb plain names = true ->
  granted (map (fun n => Permission k (B n) acts) names) r <->
  r_kind r = k /\ match r_action r with Some a => In a acts | None => acts = [] end /\ In (r_target r) (map B names).
Proof.
  intros Hk Hp. rewrite forallb_forall in Hp. unfold granted. split.
  - intros (p & I & C1 & C2 & C3). apply in_map_iff in I as (n & <- & In_). cbn [kind actions target] in *.
    split; [symmetry; exact C1|]. split; [exact C2|]. destruct C3 as [C3|C3]; [congruence|]. apply plain_covers in C3; [|exact (Hp n In_)].
    rewrite C3. apply in_map, In_.
  - intros (K & A & I). apply in_map_iff in I as (n & E & In_). exists (Permission k (B n) acts). split; [apply in_map_iff; exists n; auto|].
    split; [symmetry; exact K|]. split; [exact A|]. right. left. exact E.
Qed.
Lemma no_action r : match r_action r with Some a => In a (@nil string) | None => @nil string = [] end <-> r_action r = None.
Proof. destruct (r_action r) as [a|]; split; intros H; try reflexivity; [destruct H|discriminate H]. Qed.
Lemma one_action r a : match r_action r with Some b => In b [a] | None => [a] = [] end <-> r_action r = Some a.
Proof. destruct (r_action r) as [b|]; split; intros H; try discriminate; [destruct H as [<-|[]]; reflexivity|injection H as ->; left; reflexivity]. Qed.
Lemma two_actions r a b : match r_action r with Some c => In c [a; b] | None => [a; b] = [] end <-> r_action r = Some a \/ r_action r = Some b.
Proof.
  destruct (r_action r) as [c|]; split; intros H; try discriminate.
  - destruct H as [<-|[<-|[]]]; auto.
  - destruct H as [[= ->]|[= ->]]; cbn; auto.
  - destruct H as [H|H]; discriminate H.
Qed.
Lemma java_granted r : granted java_policy r <->
  asks r "java.lang.RuntimePermission" None own_threads_and_streams \/
  asks r "java.util.PropertyPermission" (Some "write"%string) changeable \/
  asks r "java.util.PropertyPermission" (Some "read"%string) about_the_machine.
Proof.
  change java_policy with (map (fun n => Permission "java.lang.RuntimePermission" (B n) []) own_threads_and_streams
    ++ map (fun n => Permission "java.util.PropertyPermission" (B n) ["write"%string]) changeable
    ++ map (fun n => Permission "java.util.PropertyPermission" (B n) ["read"%string]) about_the_machine).
  rewrite !granted_app, !granted_map by (try discriminate; reflexivity). rewrite no_action, !one_action. reflexivity.
Qed.
Lemma exit_granted r : granted [runtime_perm "exitVM.*"] r <->
  r_kind r = "java.lang.RuntimePermission"%string /\ r_action r = None /\ exists status, r_target r = B "exitVM." ++ status.
Proof.
  rewrite granted_one. unfold covers, runtime_perm. cbn [kind actions target]. rewrite no_action. split.
  - intros (K & A & C). split; [symmetry; exact K|]. split; [exact A|]. destruct C as [C|[C|[C|(p & q & E & ->)]]].
    + rewrite C in K. discriminate K.
    + exists (B "*"). rewrite <- C. reflexivity.
    + discriminate C.
    + change (B "exitVM.*") with (B "exitVM" ++ B ".*") in E. apply app_inv_tail in E. subst p. exists q. reflexivity.
  - intros (K & A & q & E). split; [symmetry; exact K|]. split; [exact A|]. right. right. right. exists (B "exitVM"), q. split; [reflexivity|exact E].
Qed.
Theorem policy_exact j r : granted (policy_of j) r <-> may j r.
Proof.
  unfold may. destruct j; cbn [policy_of]; try (rewrite java_granted; intuition discriminate).
  - change groovy_policy with ([Permission "java.lang.reflect.ReflectPermission" (B "suppressAccessChecks") []]
      ++ map (fun n => Permission "java.lang.RuntimePermission" (B n) []) groovy_internals ++ [runtime_perm "exitVM.*"]
      ++ map file_read groovy_files ++ [Permission "java.util.logging.LoggingPermission" (B "control") []] ++ [prop "*" ["read"; "write"]%string] ++ java_policy).
    rewrite !granted_app, java_granted, exit_granted.
    assert (G1 : forall k n, k <> "java.io.FilePermission"%string -> plain n = true -> granted [Permission k (B n) []] r <-> asks r k None [n]).
    { intros k n Hk Hp. rewrite (granted_map k [] [n] r Hk); [rewrite no_action; reflexivity|cbn; rewrite Hp; reflexivity]. }
    rewrite !G1, granted_map by (try discriminate; reflexivity). rewrite no_action.
    assert (granted (map file_read groovy_files) r <-> r_kind r = "java.io.FilePermission"%string /\ r_action r = Some "read"%string) as ->.
    { split.
      - intros (p & I & C1 & C2 & _). apply in_map_iff in I as (n & <- & _). cbn [kind actions file_read] in *. apply one_action in C2. auto.
      - intros (K & A). exists (file_read "."). split; [left; reflexivity|]. split; [symmetry; exact K|]. split; [apply one_action, A|left; exact K]. }
    assert (granted [prop "*" ["read"; "write"]%string] r <-> r_kind r = "java.util.PropertyPermission"%string /\ (r_action r = Some "read"%string \/ r_action r = Some "write"%string)) as ->.
    { rewrite granted_one. unfold covers, prop. cbn [kind actions target]. rewrite two_actions. split.
      - intros (K & A & _). auto.
      - intros (K & A). split; [auto|]. split; [exact A|]. right. right. left. reflexivity. }
    unfold asks. intuition discriminate.
  - change scala_policy with (map (fun n => Permission "java.util.PropertyPermission" (B n) ["read"%string]) ["scala.time"%string] ++ java_policy).
    rewrite granted_app, java_granted, granted_map by (try discriminate; reflexivity). rewrite one_action. unfold asks. intuition discriminate.
Qed.
Lemma groovy_file t a : In (Permission "java.io.FilePermission" t a) (policy_of GROOVY) <-> a = ["read"%string] /\ In t (map B groovy_files).
Proof.
  split.
  - intros I. change (policy_of GROOVY) with (groovy_policy) in I. unfold groovy_policy in I. apply in_app_or in I as [I|I].
    + cbn [In] in I. repeat (destruct I as [I|I]; [first [discriminate I|injection I as <- <-; split; [reflexivity|cbn [map groovy_files In]; auto 12]]|]). destruct I.
    + unfold java_policy in I. apply in_app_or in I as [I|I]; [repeat (destruct I as [I|I]; [discriminate I|]); destruct I|].
      apply in_map_iff in I as (n & E & _). discriminate E.
  - intros (-> & I). apply in_map_iff in I as (n & <- & I). change (Permission _ _ _) with (file_read n).
    assert (incl (map file_read groovy_files) (policy_of GROOVY)) as S0; [|apply S0, in_map, I].
    intros x Ix. cbn [map groovy_files In] in Ix. unfold policy_of, groovy_policy. apply in_or_app. left. cbn [In]. tauto.
Qed.
Lemma tables s : command_name s = interpreter s /\ B "." ++ ext s = ending s /\ low_name s ++ B "_home" = home_setting s.
Proof. destruct s; repeat split. Qed.
