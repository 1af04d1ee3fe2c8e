(** C91: scripts and programs for a Java virtual machine are run as submitted, under their limits. *)
From Coq Require Import String Lia QArith.
From Verif Require Import Model.Bytes Model.Paths Model.Access Model.Launch Model.Child Model.Accounting Model.Autoconf Spec.Access Spec.Toolchain
  Proofs.BytesLemmas Proofs.Launch Proofs.Toolchain Model.Interpreters Spec.Interpreters Proofs.Interpreters.
Import Model.Paths Model.Interpreters Spec.Interpreters Model.Access.
Local Open Scope nat_scope.
Local Open Scope list_scope.

(** ** Scripts *)
(** Once the executor has been found usable, every submission is run by the interpreter that was
    found, and is told its file as the interpreter's manual says. *)
Theorem C91_script : forall s r isfile u, initialized s r isfile = true ->
  exists c argv0 helper, script_executable s r = Some c /\ isfile c = true /\
    script_args s r u = Some (argv0 :: usage s helper (code s u)) /\ (argv0 = c \/ argv0 = interpreter s) /\
    (s = COFFEE -> r (B "coffee") = Some helper /\ isfile helper = true).
Proof. intros s. rewrite <- (proj1 (Proofs.Interpreters.tables s)). exact (script_run s). Qed.
(** That file holds the submission, lies in its directory and cannot be taken for an option. *)
Theorem C91_script_source : forall s u, usable_dir (dir u) -> usable_name (problem u) ->
  holds (script_files s u) (code s u) (source u) /\
  code s u = within (dir u) (problem u ++ ending s) /\ ~ option_like (code s u).
Proof.
  intros s u [Hd Hd'] [Hn Hs]. rewrite <- (proj1 (proj2 (Proofs.Interpreters.tables s))). split; [apply (holds_last [] (code s u) (source u))|].
  rewrite (script_code s u Hd Hd' Hn Hs). split; [reflexivity|]. intros [r E]. destruct Hd as [q Hq]. rewrite Hq in E. discriminate E.
Qed.
(** The interpreter is the configured one, or else the one in the configured installation; without
    either the language is not offered. *)
Theorem C91_interpreter : forall s r isfile,
  (forall c, r (interpreter s) = Some c -> script_executable s r = Some c) /\
  (forall h, r (interpreter s) = None -> r (home_setting s) = Some h -> usable_dir h ->
     script_executable s r = Some (h ++ B "/bin/" ++ match s with RUBY2 => B "ruby" | _ => interpreter s end)) /\
  (r (interpreter s) = None -> r (home_setting s) = None -> initialized s r isfile = false).
Proof.
  intros s r isfile. destruct (Proofs.Interpreters.tables s) as (T1 & _ & T3). rewrite <- T1, <- T3. unfold script_executable, initialized, get_command. split; [intros c ->; reflexivity|]. split.
  - intros h -> -> [Hd Hd']. rewrite (Proofs.Interpreters.join_dir h (B "bin") Hd Hd') by (intros x E; vm_compute in E; discriminate E).
    assert (Hb : forall n, (forall x, n <> 47%N :: x) -> join (h ++ B "/" ++ B "bin") n = h ++ B "/bin/" ++ n).
    { intros n Hn. rewrite (Proofs.Interpreters.join_dir (h ++ B "/" ++ B "bin") n); [rewrite <- !app_assoc; reflexivity| | |exact Hn].
      - destruct Hd as [q ->]. exists (q ++ B "/" ++ B "bin"). reflexivity.
      - intros x E. apply (f_equal (@rev N)) in E. rewrite !rev_app_distr in E. discriminate E. }
    destruct s; (rewrite Hb; [reflexivity|intros x E; vm_compute in E; discriminate E]).
  - intros -> ->. apply andb_false_r.
Qed.
Example C91_script_case :
  let r := fun k => if beqb k (B "awk") then Some (B "/usr/bin/mawk") else None in
  initialized AWK r (fun _ => true) = true /\
  script_args AWK r (Submission (B "/tmp/tmpx") (B "aplusb") (B "{ print $1 + $2 }")) = Some [B "/usr/bin/mawk"; B "-f"; B "/tmp/tmpx/aplusb.awk"].
Proof. split; reflexivity. Qed.

(** ** Virtual machines *)
(** The machine is told its heap is at most the memory limit, to load the sandbox with the submission's
    policy, hints and buffering, and then to start the submission.  The heap is the limit as long as the
    configuration does not add an option for it. *)
Theorem C91_jvm : forall j p memory eo m args, usable_program p -> runs j p eo m args ->
  exists argv0 l opts, fst (jvm_launch j p memory) = argv0 :: l /\ started_as l opts m args /\
    agent_told opts (jar_agent p) ((B "policy:" ++ place p ++ B "/security.policy") :: hints p ++ (if unbuffered p then [B "nobuf"] else [])) /\
    (forall o, In o eo -> In o opts) /\ (j = GROOVY -> In (B "-Dsubmission.file=" ++ class p) opts) /\
    ((forall o, In o eo -> ~ heap_flag o) -> heap_limit opts memory).
Proof.
  intros j p memory eo m args U R. destruct (jvm_args_shape j p memory) as (rest & E & _).
  exists (B "java"), (head_options p memory ++ rest), (head_options p memory ++ own_options j p ++ eo).
  split; [exact E|]. split; [pose proof (jvm_started j p memory eo m args U R) as H; rewrite E in H; exact H|].
  split; [apply jvm_agent, U|]. split; [intros o I; apply in_or_app; right; apply in_or_app; right; exact I|].
  split; [intros ->; apply in_or_app; right; left; reflexivity|apply jvm_heap].
Qed.
Example C91_jvm_case :
  let p := Program (B "/tmp/x") (B "aplusb") (B "Main") (B "/j.jar") [B "nosandbox"] true [] None in
  usable_program p /\ runs JAVA8 p [] (MainClass (B "Main")) [] /\
  jvm_args JAVA8 p 65536 = [B "java"; B "-client"; B "-javaagent:/j.jar=policy:/tmp/x/security.policy,nosandbox,nobuf"; B "-Xss128m"; B "-Xmx65536K";
    B "-XX:+UseSerialGC"; B "-XX:ErrorFile=submission_jvm_crash.log"; B "Main"].
Proof.
  split; [|split; [|vm_compute; reflexivity]].
  - split; [intros m E; discriminate E|]. split; [exists (B "tmp/x"); reflexivity|].
    split; [intros r E; apply (f_equal (@rev N)) in E; rewrite rev_app_distr in E; discriminate E|].
    split; [intros I; vm_compute in I; repeat (destruct I as [I|I]; [discriminate I|]); destruct I|].
    intros h [<-|[]] I. vm_compute in I. repeat (destruct I as [I|I]; [discriminate I|]). destruct I.
  - split; [reflexivity|]. split; [reflexivity|]. split; [|reflexivity]. intros [r E]. vm_compute in E. discriminate E.
Qed.
Example C91_jvm_scala_case :
  let p := Program (B "/tmp/x") (B "aplusb") (B "aplusb") (B "/j.jar") [] false
             [B "-classpath"; B "/usr/share/scala"; B "-Dscala.usejavacp=true"; B "scala.tools.nsc.MainGenericRunner"] None in
  runs SCALA p [B "-Dscala.usejavacp=true"] (MainClass (B "scala.tools.nsc.MainGenericRunner")) [B "aplusb"].
Proof.
  exists []. split; [|reflexivity]. apply started_path; [right; left; reflexivity|]. apply started_option; [apply option_dash| |].
  - intros [X|[X|[X|[]]]]; discriminate X.
  - apply started_class. intros [r E]. vm_compute in E. discriminate E.
Qed.
(** Of several -Xmx the last counts and the configured ones come last: what automatic configuration
    takes over from Groovy's launcher (C88) can lift the limit. *)
Theorem C91_heap_refuted : exists p eo m args memory opts, usable_program p /\ runs GROOVY p eo m args /\
  started_as (tl (fst (jvm_launch GROOVY p memory))) opts m args /\ heap_limit opts 4194304 /\ ~ heap_limit opts memory /\ (memory = 65536)%N.
Proof.
  set (p := Program (B "/tmp/x") (B "a") (B "a") (B "/j.jar") [] false [B "-Xmx4194304K"; B "org.codehaus.groovy.tools.GroovyStarter"] None).
  assert (U : usable_program p).
  { split; [intros m E; discriminate E|]. split; [exists (B "tmp/x"); reflexivity|].
    split; [intros r E; apply (f_equal (@rev N)) in E; rewrite rev_app_distr in E; discriminate E|].
    split; [intros I; vm_compute in I; repeat (destruct I as [I|I]; [discriminate I|]); destruct I|intros h []]. }
  assert (R : runs GROOVY p [B "-Xmx4194304K"] (MainClass (B "org.codehaus.groovy.tools.GroovyStarter")) [B "a"]).
  { exists []. split; [|reflexivity]. apply started_option; [apply option_dash|intros [X|[X|[X|[]]]]; discriminate X|].
    apply started_class. intros [r E]. vm_compute in E. discriminate E. }
  exists p, [B "-Xmx4194304K"], (MainClass (B "org.codehaus.groovy.tools.GroovyStarter")), [B "a"], 65536%N,
    (head_options p 65536 ++ own_options GROOVY p ++ [B "-Xmx4194304K"]).
  split; [exact U|]. split; [exact R|]. split; [exact (jvm_started GROOVY p 65536 _ _ _ U R)|]. split; [|split; [|reflexivity]].
  - exists (head_options p 65536 ++ own_options GROOVY p), [], (B "4194304"). split; [rewrite <- app_assoc; reflexivity|].
    split; [intros o []|]. split; [discriminate|]. split; [|reflexivity].
    intros c I. vm_compute in I. repeat (destruct I as [<-|I]; [split; intros X; discriminate X|]). destruct I.
  - intros (b & a & ds & E & Ha & _ & _ & V).
    destruct a as [|x a'] using rev_ind.
    + rewrite app_assoc in E. apply app_inj_tail in E. destruct E as [_ E]. change (B "-Xmx4194304K") with (B "-Xmx" ++ B "4194304" ++ B "K") in E.
      apply app_inv_head, app_inv_tail in E. subst ds. vm_compute in V. discriminate V.
    + rewrite app_assoc, app_comm_cons, app_assoc in E. apply app_inj_tail in E. destruct E as [_ <-].
      apply (Ha (B "-Xmx4194304K")); [apply in_or_app; right; left; reflexivity|]. exists (B "4194304K"). reflexivity.
Qed.
(** The sandbox itself puts no limit on the memory of a program on a virtual machine, and never reports
    that it used too much: the limit is on the heap alone. *)
Theorem C91_memory_refuted : forall j p memory time grace nproc fsize privileged l rss x a,
  let c := child_config time (snd (jvm_launch j p memory)) grace 0 nproc fsize in
  apply_limits privileged c l AS = l AS /\ apply_limits privileged c l DATA = l DATA /\
  is_mle (snd (jvm_launch j p memory)) rss x a = false.
Proof.
  intros j p memory time grace nproc fsize privileged l rss x a c.
  assert (S1 : forall (on : bool) (l : rlimits) r s h r', r' <> r -> (if on then setrlimit privileged l r s h else l) r' = l r').
  { intros on l0 r s h r' Hr. destruct on; [|reflexivity]. unfold setrlimit. destruct (_ || _); [reflexivity|].
    destruct r', r; try reflexivity; destruct Hr; reflexivity. }
  assert (A : c_address c = 0%N) by reflexivity. assert (D : c_memory c = 0%N) by reflexivity.
  split; [|split; [|reflexivity]]; unfold apply_limits; cbv zeta beta; rewrite !(fun l r s h r0 => S1 true l r s h r0), !S1 by discriminate; rewrite ?A, ?D; reflexivity.
Qed.
(** Kotlin, Groovy and Scala sources are compiled from a file that holds the submission; the policy is
    beside it; a Java program is compiled from the file named after its class (C73). *)
Theorem C91_jvm_source : forall j compiler policy p source, usable_program p -> usable_name (problem_id p) ->
  (j = KOTLIN \/ j = GROOVY \/ j = SCALA ->
     holds (plain_files j policy p source) (last (jvm_compile_args j compiler p) []) source /\
     holds (plain_files j policy p source) (place p ++ B "/security.policy") policy) /\
  (j <> KOTLIN -> j <> GROOVY -> j <> SCALA -> usable_name (class p) ->
     last (jvm_compile_args j compiler p) [] = within (place p) (class p ++ B ".java") /\
     exists l l', jvm_compile_args j compiler p = l ++ [B "-encoding"; B "UTF-8"] ++ l') /\
  hd [] (jvm_compile_args j compiler p) = compiler.
Proof.
  intros j compiler policy p source (_ & Hd & Hd' & _) [Hn Hs].
  assert (Ep : policy_file p = place p ++ B "/security.policy").
  { unfold policy_file. rewrite (Proofs.Interpreters.join_dir (place p) (B "security.policy") Hd Hd'); [reflexivity|]. intros r E; vm_compute in E; discriminate E. }
  assert (Jn : forall n e, n <> [] -> ~ In 47%N n -> join (place p) (n ++ e) = within (place p) (n ++ e)).
  { intros n e H1 H2. apply (Proofs.Interpreters.join_dir (place p) (n ++ e) Hd Hd'). intros r E. destruct n as [|c n']; [destruct H1; reflexivity|].
    injection E as -> _. apply H2. left. reflexivity. }
  split; [|split].
  - intros Hj. assert (El : last (jvm_compile_args j compiler p) [] = plain_code j p).
    { destruct Hj as [Hj|[Hj|Hj]]; subst j; reflexivity. }
    rewrite El. unfold plain_files. split.
    + apply (holds_other [(plain_code j p, source)]); [|apply (holds_last [])].
      unfold plain_code. rewrite (Jn _ _ Hn Hs), Ep. unfold within. intros E. apply app_inv_head in E.
      change (B "/security.policy") with (B "/" ++ B "security.policy") in E. apply app_inv_head in E.
      apply (f_equal (@rev N)) in E. rewrite !rev_app_distr in E. destruct Hj as [Hj|[Hj|Hj]]; subst j; vm_compute in E; discriminate E.
    + rewrite <- Ep. apply (holds_last [(plain_code j p, source)]).
  - intros H1 H2 H3 [Hc Hc']. assert (jvm_code j p = within (place p) (class p ++ B ".java")) as El.
    { destruct j; try (exact (Jn _ _ Hc Hc')); [destruct H1|destruct H2|destruct H3]; reflexivity. }
    split; [destruct j; exact El|].
    exists [compiler]. destruct j; try (eexists; reflexivity); [destruct H1|destruct H2|destruct H3]; reflexivity.
  - destruct j; reflexivity.
Qed.
(** The whole command that compiles it. *)
Theorem C91_jvm_compiler : forall j compiler p, usable_program p -> usable_name (problem_id p) -> usable_name (class p) ->
  jvm_compile_args j compiler p = compiler :: compiler_options j (problem_id p ++ B ".jar") ++
    [within (place p) (match j with KOTLIN => problem_id p ++ B ".kt" | GROOVY => problem_id p ++ B ".groovy" | SCALA => problem_id p ++ B ".scala"
                       | _ => class p ++ B ".java" end)].
Proof.
  intros j compiler p (_ & Hd & Hd' & _) [Hn Hs] [Hc Hc'].
  assert (Jn : forall n e, n <> [] -> ~ In 47%N n -> join (place p) (n ++ e) = within (place p) (n ++ e)).
  { intros n e H1 H2. apply (Proofs.Interpreters.join_dir (place p) (n ++ e) Hd Hd'). intros r E. destruct n as [|c n']; [destruct H1; reflexivity|].
    injection E as -> _. apply H2. left. reflexivity. }
  destruct j; rewrite <- Jn by assumption; reflexivity.
Qed.
(** Kotlin's archive is run under the name it was made with; both happen in the submission's directory. *)
Theorem C91_kotlin : forall compiler p m args, runs KOTLIN p [] m args ->
  exists jar, told_after (B "-d") (tl (jvm_compile_args KOTLIN compiler p)) = Some jar /\ m = MainJar jar.
Proof. intros compiler p m args (_ & -> & _). exists (jar_name p). split; reflexivity. Qed.

(** ** What the policies let a program ask of its virtual machine *)
(** No network, no other process, no writing of files, and no reading of any but for Groovy; of the
    machine's properties only the language and the time zone may be changed, but for Groovy. *)
Theorem C91_policy : forall j r, granted (policy_of j) r ->
  In (r_kind r) ["java.lang.RuntimePermission"; "java.util.PropertyPermission"; "java.io.FilePermission";
                 "java.lang.reflect.ReflectPermission"; "java.util.logging.LoggingPermission"]%string /\
  (r_kind r = "java.io.FilePermission"%string -> j = GROOVY /\ r_action r = Some "read"%string) /\
  (r_kind r = "java.util.PropertyPermission"%string -> r_action r = Some "write"%string ->
     j = GROOVY \/ r_target r = B "user.language" \/ r_target r = B "user.timezone") /\
  (r_kind r = "java.lang.RuntimePermission"%string -> j <> GROOVY ->
     In (r_target r) [B "readFileDescriptor"; B "writeFileDescriptor"; B "stopThread"; B "modifyThread"]) /\
  (j <> GROOVY -> In (r_kind r) ["java.lang.RuntimePermission"; "java.util.PropertyPermission"]%string).
Proof.
  intros j [k t a] (p & I & E1 & E2 & E3). cbn [r_kind r_target r_action] in *.
  assert (J : In p java_policy -> In k ["java.lang.RuntimePermission"; "java.util.PropertyPermission"]%string /\
     (k = "java.util.PropertyPermission"%string -> a = Some "write"%string -> t = B "user.language" \/ t = B "user.timezone") /\
     (k = "java.lang.RuntimePermission"%string -> In t [B "readFileDescriptor"; B "writeFileDescriptor"; B "stopThread"; B "modifyThread"])).
  { assert (Cn : forall n, (forall q, n <> q ++ B ".*") -> n <> B "*" -> covers_name n t -> t = n).
    { intros n H1 H2 [E|[E|(q & r & E & _)]]; [symmetry; exact E|destruct (H2 E)|destruct (H1 q E)]. }
    assert (Sf : forall (n : bytes), (match rev n with c :: _ => (c =? 42)%N | [] => false end) = false -> covers_name n t -> t = n).
    { intros n H. apply Cn.
      - intros q E. rewrite E, rev_app_distr in H. discriminate H.
      - intros E. rewrite E in H. discriminate H. }
    intros I'. unfold java_policy in I'. apply in_app_or in I'. destruct I' as [I'|I'].
    - destruct I' as [I'|[I'|[I'|[I'|[I'|[I'|[]]]]]]]; subst p; cbn [kind target actions prop runtime_perm] in *; subst k;
        (split; [cbn [In]; auto|]); (destruct E3 as [E3|E3]; [discriminate E3|]); apply Sf in E3; try reflexivity; subst t; cbn [In];
        (split; [intros X; try discriminate X; intros _; auto|intros X; try discriminate X; auto 6]).
    - apply in_map_iff in I'. destruct I' as (n & <- & _). cbn [kind target actions prop] in *. subst k.
      split; [cbn [In]; auto|]. split; [|intros X; discriminate X]. intros _ ->. destruct E2 as [E2|[]]. discriminate E2. }
  assert (JJ : In p java_policy -> In k ["java.lang.RuntimePermission"; "java.util.PropertyPermission"; "java.io.FilePermission";
      "java.lang.reflect.ReflectPermission"; "java.util.logging.LoggingPermission"]%string /\
    (k = "java.io.FilePermission"%string -> j = GROOVY /\ a = Some "read"%string) /\
    (k = "java.util.PropertyPermission"%string -> a = Some "write"%string -> j = GROOVY \/ t = B "user.language" \/ t = B "user.timezone") /\
    (k = "java.lang.RuntimePermission"%string -> j <> GROOVY -> In t [B "readFileDescriptor"; B "writeFileDescriptor"; B "stopThread"; B "modifyThread"]) /\
    (j <> GROOVY -> In k ["java.lang.RuntimePermission"; "java.util.PropertyPermission"]%string)).
  { intros I'. destruct (J I') as (K1 & K2 & K3). split; [destruct K1 as [K1|[K1|[]]]; subst k; cbn [In]; auto|].
    split; [intros ->; destruct K1 as [K1|[K1|[]]]; discriminate K1|]. split; [intros X Y; right; apply K2; assumption|].
    split; [intros X _; apply K3, X|intros _; exact K1]. }
  destruct j; cbn [policy_of] in I; try (apply JJ; exact I).
  - unfold groovy_policy in I. apply in_app_or in I. destruct I as [I|I]; [|apply JJ; exact I].
    repeat destruct I as [I|I]; try contradiction; subst p; cbn [kind target actions prop runtime_perm file_read] in *; subst k;
      (split; [cbn [In]; auto 6|]); (split; [intros X; try discriminate X|]);
      try (split; [reflexivity|]; destruct a as [a|]; [destruct E2 as [<-|[]]; reflexivity|discriminate E2]);
      (split; [intros _ _; left; reflexivity|]); (split; [intros _ X; destruct X; reflexivity|intros X; destruct X; reflexivity]).
  - destruct I as [I|I]; [|apply JJ; exact I]. subst p. cbn [kind target actions prop] in *. subst k.
    split; [cbn [In]; auto|]. split; [intros X; discriminate X|]. split; [intros _ ->; destruct E2 as [E2|[]]; discriminate E2|].
    split; [intros X; discriminate X|intros _; cbn [In]; auto].
Qed.
(** Exactly what a program may ask for. *)
Theorem C91_policy_exact : forall j r, granted (policy_of j) r <-> may j r.
Proof. exact Proofs.Interpreters.policy_exact. Qed.
(** The files that Groovy's programs may read. *)
Theorem C91_policy_files : forall t a, In (Permission "java.io.FilePermission" t a) (policy_of GROOVY) <-> a = ["read"%string] /\ In t (map B groovy_files).
Proof. exact Proofs.Interpreters.groovy_file. Qed.
(** Every program may use its standard streams and read the machine's version. *)
Theorem C91_policy_grants : forall j r,
  In r [Request "java.lang.RuntimePermission" (B "readFileDescriptor") None; Request "java.lang.RuntimePermission" (B "writeFileDescriptor") None;
        Request "java.util.PropertyPermission" (B "java.version") (Some "read"%string);
        Request "java.util.PropertyPermission" (B "line.separator") (Some "read"%string);
        Request "java.util.PropertyPermission" (B "user.language") (Some "write"%string)] -> granted (policy_of j) r.
Proof.
  intros j r I. assert (J : granted java_policy r).
  { repeat destruct I as [I|I]; try contradiction; subst r;
      [exists (runtime_perm "readFileDescriptor")|exists (runtime_perm "writeFileDescriptor")|exists (prop "java.version" ["read"%string])
      |exists (prop "line.separator" ["read"%string])|exists (prop "user.language" ["write"%string])];
      (split; [unfold java_policy; cbn [app map In]; auto 30|]); (split; [reflexivity|]); (split; [cbn; auto|right; left; reflexivity]). }
  destruct J as (p & Ip & C). exists p. split; [|exact C]. destruct j; cbn [policy_of]; try exact Ip; [apply in_or_app; right; exact Ip|right; exact Ip].
Qed.
(** Groovy programs may change any property, end the machine and make class loaders. *)
Theorem C91_policy_refuted : granted (policy_of GROOVY) (Request "java.util.PropertyPermission" (B "java.security.policy") (Some "write"%string)) /\
  granted (policy_of GROOVY) (Request "java.lang.RuntimePermission" (B "exitVM.0") None) /\
  granted (policy_of GROOVY) (Request "java.lang.RuntimePermission" (B "createClassLoader") None).
Proof.
  split; [|split].
  - exists (prop "*" ["read"; "write"]%string). split; [unfold policy_of, groovy_policy; cbn [app In]; auto 30|].
    split; [reflexivity|]. split; [right; left; reflexivity|right; right; left; reflexivity].
  - exists (runtime_perm "exitVM.*"). split; [unfold policy_of, groovy_policy; cbn [app In]; auto 30|].
    split; [reflexivity|]. split; [reflexivity|right; right; right]. exists (B "exitVM"), (B "0"). split; reflexivity.
  - exists (runtime_perm "createClassLoader"). split; [unfold policy_of, groovy_policy; cbn [app In]; auto 30|].
    split; [reflexivity|]. split; [reflexivity|right; left; reflexivity].
Qed.

(** ** Brainf*** *)
(** The program is told the size of its tape, which is all of its memory limit and fits the sandbox's;
    the sandbox's limit is 8 MB more, and only more than that is reported. *)
Theorem C91_bf : forall problem memory time grace data nproc fsize rss x a, (memory * 1024 <= INFINITY)%N ->
  exists tape, nth_error (fst (bf_launch problem memory)) 1 = Some tape /\ List.length (fst (bf_launch problem memory)) = 2%nat /\
    Model.Launch.strtoul tape = ((memory * 1024)%N, []) /\
    (memory * 1024 < c_memory (child_config time (snd (bf_launch problem memory)) grace data nproc fsize))%N /\
    (memory * 1024 < c_address (child_config time (snd (bf_launch problem memory)) grace data nproc fsize))%N /\
    (is_mle (snd (bf_launch problem memory)) rss x a = true <-> (memory + 8192 < max_memory rss x a)%N).
Proof.
  intros problem memory time grace data nproc fsize rss x a L. exists (decimal (memory * 1024)).
  split; [reflexivity|]. split; [reflexivity|]. split; [apply strtoul_decimal, L|].
  cbn [snd bf_launch child_config c_memory c_address]. destruct (N.eqb_spec (memory + 8192) 0) as [E|E]; [lia|].
  split; [lia|]. split; [lia|]. unfold is_mle. destruct (N.eqb_spec (memory + 8192) 0) as [E'|_]; [lia|]. cbn [negb andb]. apply N.ltb_lt.
Qed.

Print Assumptions C91_script.
Print Assumptions C91_script_source.
Print Assumptions C91_interpreter.
Print Assumptions C91_jvm.
Print Assumptions C91_heap_refuted.
Print Assumptions C91_memory_refuted.
Print Assumptions C91_jvm_source.
Print Assumptions C91_kotlin.
Print Assumptions C91_policy.
Print Assumptions C91_policy_grants.
Print Assumptions C91_policy_refuted.
Print Assumptions C91_bf.
Print Assumptions C91_jvm_compiler.
Print Assumptions C91_policy_exact.
Print Assumptions C91_policy_files.

(** The machine started, and its mode, are the ones configured for the language. *)
Theorem C91_machine : forall runtime j, jvm_executable runtime j = runtime (B (machine_setting j)) /\
  jvm_mode runtime j = runtime (B (machine_setting j) ++ B "_mode") /\
  forall k, machine_setting j = machine_setting k -> j = k.
Proof. intros runtime j. split; [destruct j; reflexivity|]. split; [destruct j; reflexivity|]. intros k E. destruct j, k; try discriminate E; reflexivity. Qed.
Print Assumptions C91_machine.
