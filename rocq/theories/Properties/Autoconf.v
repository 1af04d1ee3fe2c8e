(** C88: auto-configuration writes down what it has tested. *)
From Coq Require Import String.
From Verif Require Import Model.Bytes Model.Paths Model.Sources Model.Autoconf Spec.Autoconf.
From Verif Require Proofs.Autoconf.
Local Open Scope list_scope.
Local Open Scope nat_scope.

(** The program taken for a setting is the first candidate that is there. *)
Theorem C88_first_found : forall m dirs names p, directories m dirs ->
  find_command_from_list m names = Some p <-> resolves m dirs names p.
Proof. intros m dirs names p Hd. exact (Proofs.Autoconf.find_resolves m dirs Hd names p). Qed.

(** An executor is configured exactly when each of its programs is there and its test passes with
    them, and then with these. *)
Theorem C88_base : forall m dirs mp pass cfg, directories m dirs -> NoDup (map fst mp) ->
  works m {| how := First (Some mp); passes_with := pass |} cfg <-> assembled m dirs mp cfg /\ pass cfg = true.
Proof. intros m dirs mp pass cfg Hd. exact (Proofs.Autoconf.base_works m dirs Hd mp pass cfg). Qed.
(** A compiler of the GNU collection is tried for this machine first and else for any. *)
Theorem C88_gcc : forall m dirs arch mp pass cfg, directories m dirs -> NoDup (arch :: map fst mp) ->
  works m {| how := Gcc arch (Some mp); passes_with := pass |} cfg <->
  exists found, assembled m dirs mp found /\
    ((pass (found ++ [(arch, Str (B "native"))]) = true /\ cfg = found) \/
     (pass (found ++ [(arch, Str (B "native"))]) = false /\ pass (found ++ [(arch, Null)]) = true /\ cfg = found ++ [(arch, Null)])).
Proof. intros m dirs arch mp pass cfg Hd. exact (Proofs.Autoconf.gcc_works m dirs Hd arch mp pass cfg). Qed.
(** Java: a kit of the right name with both programs, in the first mode whose test passes; one is
    configured whenever some kit works in some mode. *)
Theorem C88_java : forall m regex vm compiler pass, NoDup [vm; vm ++ B "_mode"; compiler] ->
  (forall items item, listdir m (jvm_dir m) = Some items -> In item items -> ~ absolute item) ->
  let c := {| how := Javac regex vm compiler; passes_with := pass |} in
  (forall cfg, works m c cfg -> exists item vp cp before mode after, jdk m regex item vp cp /\
     modes = before ++ mode :: after /\ pass (with_mode vm compiler vp cp mode) = true /\
     (forall x, In x before -> pass (with_mode vm compiler vp cp x) = false) /\
     cfg = if beqb mode (B "client") then [(vm, Str vp); (compiler, Str cp)] else with_mode vm compiler vp cp mode) /\
  (forall item vp cp mode, jdk m regex item vp cp -> In mode modes -> pass (with_mode vm compiler vp cp mode) = true -> exists cfg, works m c cfg).
Proof. exact Proofs.Autoconf.java_works. Qed.

(** Nothing is printed for an executor but settings with which its test has passed, up to a
    default that is left out. *)
Theorem C88_tested : forall m c cfg,
  (forall regex vm compiler, how c = Javac regex vm compiler -> compiler <> vm ++ B "_mode") ->
  works m c cfg -> exists t, tested_as (how c) cfg t /\ passes_with c t = true.
Proof.
  intros m c cfg Hd. apply Proofs.Autoconf.tested. unfold Proofs.Autoconf.distinct. destruct (how c) eqn:E; try exact I. exact (Hd _ _ _ eq_refl).
Qed.
(** A setting is printed exactly when an executor that works has it and no later one that works
    says otherwise. *)
Theorem C88_printed : forall m l k v,
  (forall c regex vm compiler, In (Some c) l -> how c = Javac regex vm compiler -> compiler <> vm ++ B "_mode") ->
  value k (configure m l) = Some v <->
  exists before c after cfg, l = before ++ Some c :: after /\ works m c cfg /\ value k cfg = Some v /\
    forall c' cfg', In (Some c') after -> works m c' cfg' -> value k cfg' = None.
Proof.
  intros m l k v Hd. apply Proofs.Autoconf.printed. intros c Ic. unfold Proofs.Autoconf.distinct. destruct (how c) eqn:E; try exact I. exact (Hd c _ _ _ Ic E).
Qed.
(** The judge, given what was printed, finds the same program, and it is a file. *)
Theorem C88_ready : forall m dirs l before after c mp command names pass cfg,
  directories m dirs -> (forall q, isfile m (abspath m q) = isfile m q) ->
  (forall c regex vm compiler, In (Some c) l -> how c = Javac regex vm compiler -> compiler <> vm ++ B "_mode") ->
  l = before ++ Some c :: after -> c = {| how := First (Some mp); passes_with := pass |} -> NoDup (map fst mp) ->
  In (command, names) mp -> (forall n, In n names -> ~ absolute n) -> works m c cfg ->
  (forall c' cfg', In (Some c') after -> works m c' cfg' -> value command cfg' = None \/ value command cfg' = value command cfg) ->
  command_of command (configure m l) = command_of command cfg /\ ready m command (configure m l) = true.
Proof.
  intros m dirs l before after c mp command names pass cfg Hd Ha Hdist. apply (Proofs.Autoconf.ready_after m dirs); auto.
  intros c' Ic. unfold Proofs.Autoconf.distinct. destruct (how c') eqn:E; try exact I. exact (Hdist c' _ _ _ Ic E).
Qed.
(** The judge runs the virtual machine in the mode of the test; it compiles for the target of the
    test if that is this machine. *)
Theorem C88_same_mode : forall m regex vm compiler pass cfg, NoDup [vm; vm ++ B "_mode"; compiler] ->
  (forall items item, listdir m (jvm_dir m) = Some items -> In item items -> ~ absolute item) ->
  works m {| how := Javac regex vm compiler; passes_with := pass |} cfg ->
  exists t, tested_as (Javac regex vm compiler) cfg t /\ pass t = true /\ mode_judge vm cfg = mode_tested vm t.
Proof. exact Proofs.Autoconf.java_mode. Qed.
Theorem C88_same_target : forall m dirs arch mp pass cfg, directories m dirs -> NoDup (arch :: map fst mp) ->
  works m {| how := Gcc arch (Some mp); passes_with := pass |} cfg -> value arch cfg = None ->
  exists t, tested_as (Gcc arch (Some mp)) cfg t /\ pass t = true /\ march_judge arch cfg = march_tested arch t.
Proof. exact Proofs.Autoconf.gcc_march. Qed.

(** Kotlin needs its compiler and a Java virtual machine. *)
Theorem C88_kotlin : forall m dirs vm compiler pass cfg, directories m dirs -> vm <> compiler ->
  works m {| how := Kotlin vm compiler; passes_with := pass |} cfg <->
  exists k j, resolves m dirs [B "kotlinc"] k /\ resolves m dirs [B "java"] j /\ readable m j = true /\
    cfg = [(compiler, Str k); (vm, Str j)] /\ pass cfg = true.
Proof. intros m dirs vm compiler pass cfg Hd. exact (Proofs.Autoconf.kotlin_works m dirs Hd vm compiler pass cfg). Qed.
(** Scala and Groovy run on the Java their own launchers start, with its options: all but the size of
    the heap for Scala. *)
Theorem C88_scala : forall m dirs pass cfg, directories m dirs ->
  works m {| how := Scala; passes_with := pass |} cfg <->
  exists c java options, resolves m dirs [B "scalac"] c /\
    launched m dirs (B "scala") (B "scala.tools.nsc.MainGenericRunner") [B "-usebootcp"; B "-version"] 0 java options /\
    cfg = [(B "scalac", Str c); (B "scala_vm", Str java); (B "scala_args", Strs (filter (fun a => negb (heap_option a)) options))] /\ pass cfg = true.
Proof. intros m dirs pass cfg Hd. exact (Proofs.Autoconf.scala_works m dirs Hd pass cfg). Qed.
Theorem C88_groovy : forall m dirs pass cfg, directories m dirs ->
  works m {| how := Groovy; passes_with := pass |} cfg <->
  exists c java options, resolves m dirs [B "groovyc"] c /\
    launched m dirs (B "groovy") (B "org.codehaus.groovy.tools.GroovyStarter") [B "-version"] 1 java options /\
    cfg = [(B "groovyc", Str c); (B "groovy_vm", Str java); (B "groovy_args", Strs options)] /\ pass cfg = true.
Proof. intros m dirs pass cfg Hd. exact (Proofs.Autoconf.groovy_works m dirs Hd pass cfg). Qed.
(** The first program that is not there is named. *)
Theorem C88_missing : forall m dirs run before k names after, directories m dirs ->
  (forall k' ns, In (k', ns) before -> exists p, resolves m dirs ns p) -> (forall p, ~ resolves m dirs names p) ->
  find_first m run (Some (before ++ (k, names) :: after)) = Data [] false (B "Failed to find " ++ [34%N] ++ k ++ [34%N]).
Proof. intros m dirs run before k names after Hd. exact (Proofs.Autoconf.missing m dirs Hd run before k names after). Qed.

(** What the executors that need more than one program look for. *)
Theorem C88_mappings :
  (forall command paths files, In (B "mono", files) (mono_mapping command paths) <-> files = [B "mono"]) /\
  (forall command paths files, command <> B "mono" -> In (command, files) (mono_mapping command paths) <-> files = match paths with [] => [command] | _ => paths end) /\
  (forall prefixes as_name ld_name mp, as_name <> ld_name -> gas_mapping (Some prefixes) as_name ld_name = Some mp ->
     (forall files, In (as_name, files) mp <-> files = map (fun i => i ++ B "-as") prefixes ++ [B "as"]) /\
     (forall files, In (ld_name, files) mp <-> files = map (fun i => i ++ B "-ld") prefixes ++ [B "ld"])) /\
  (forall prefixes ld_name mp, ld_name <> B "nasm" -> nasm_mapping (Some prefixes) ld_name = Some mp ->
     (forall files, In (B "nasm", files) mp <-> files = [B "nasm"]) /\
     (forall files, In (ld_name, files) mp <-> files = map (fun i => i ++ B "-ld") prefixes ++ [B "ld"])) /\
  (forall command paths, NoDup (map fst (mono_mapping command paths))) /\ (forall command, NoDup (map fst (monovb_mapping command))) /\
  (forall prefixes as_name ld_name mp, gas_mapping prefixes as_name ld_name = Some mp -> NoDup (map fst mp)) /\
  (forall prefixes ld_name mp, nasm_mapping prefixes ld_name = Some mp -> NoDup (map fst mp)).
Proof. exact Proofs.Autoconf.mappings. Qed.

(** The continuous-integration run exits with 0 exactly when no case failed and every executor is
    acceptable. *)
Theorem C88_ci : forall m allow l fails, ci_status m allow l fails = 0 <-> fails = 0 /\ forall t, In t l -> acceptable m allow t.
Proof. exact Proofs.Autoconf.ci_ok. Qed.
(** A configuration given by hand is put to the same test: with either target for the C family. *)
Theorem C88_override : forall c cfg, (exists r msg, run_override c cfg = Data r true msg) <->
  match how c with
  | Gcc arch _ => exists v, In v [Str (B "native"); Null] /\ passes_with c (put arch v cfg) = true
  | _ => passes_with c cfg = true
  end.
Proof. exact Proofs.Autoconf.override_ok. Qed.

(** ** Cases *)
Definition box (files : list string) : machine := {|
  isfile p := existsb (fun f => beqb p (B f)) files; exists_ p := existsb (fun f => beqb p (B f)) files;
  isdir p := beqb p (B "/usr/lib/jvm/java-8-openjdk"); islink _ := false;
  listdir p := if beqb p (B "/usr/lib/jvm") then Some [B "default-java"; B "java-8-openjdk"] else None;
  readable p := existsb (fun f => beqb p (B f)) files; start _ := B "#!";
  cwd := B "/home/judge"; search_path := B "/usr/local/bin:/usr/bin"; jvm_dir := B "/usr/lib/jvm"; trace _ _ := None |}.
Definition host := box ["/usr/bin/awk"; "/usr/bin/gawk"; "/usr/local/bin/g++"; "/usr/bin/g++"; "/usr/bin/java"; "/usr/bin/kotlinc";
  "/usr/lib/jvm/java-8-openjdk/bin/java"; "/usr/lib/jvm/java-8-openjdk/bin/javac"]%string.
Lemma host_dirs : directories host [B "/usr/local/bin"; B "/usr/bin"].
Proof. split; [discriminate|]. split; [|reflexivity]. intros d [<-|[<-|[]]] I; vm_compute in I; repeat destruct I as [I|I]; discriminate || exact I. Qed.
Definition awk := {| how := First (base_mapping (Some (B "awk")) [B "mawk"; B "gawk"; B "awk"]); passes_with _ := true |}.
Definition cpp := {| how := Gcc (B "gcc_target_arch") (base_mapping (Some (B "g++")) []);
  passes_with t := match value (B "gcc_target_arch") t with Some (Str _) => true | _ => false end |}.
Definition java8 := {| how := Javac (starts_with (B "java-8-")) (B "java8") (B "javac8");
  passes_with t := match value (B "java8_mode") t with Some (Str s) => beqb s (B "server") | _ => false end |}.
Definition broken := {| how := First (base_mapping (Some (B "g++")) []); passes_with _ := false |}.
Example C88_run : configure host [Some awk; None; Some cpp; Some broken; Some java8] =
  [(B "awk", Str (B "/usr/bin/gawk")); (B "g++", Str (B "/usr/local/bin/g++"));
   (B "java8", Str (B "/usr/lib/jvm/java-8-openjdk/bin/java")); (B "java8_mode", Str (B "server"));
   (B "javac8", Str (B "/usr/lib/jvm/java-8-openjdk/bin/javac"))].
Proof. vm_compute. reflexivity. Qed.
Example C88_runs : works host awk [(B "awk", Str (B "/usr/bin/gawk"))] /\ works host cpp [(B "g++", Str (B "/usr/local/bin/g++"))] /\
  NoDup [B "gcc_target_arch"; B "g++"] /\ NoDup [B "java8"; B "java8" ++ B "_mode"; B "javac8"] /\
  (forall items item, listdir host (jvm_dir host) = Some items -> In item items -> ~ absolute item) /\
  jdk host (starts_with (B "java-8-")) (B "java-8-openjdk") (B "/usr/lib/jvm/java-8-openjdk/bin/java") (B "/usr/lib/jvm/java-8-openjdk/bin/javac").
Proof.
  split; [eexists; vm_compute; reflexivity|]. split; [eexists; vm_compute; reflexivity|].
  split; [vm_compute; repeat constructor; cbn; intuition discriminate|]. split; [vm_compute; repeat constructor; cbn; intuition discriminate|]. split.
  - intros items item H I (r & E). vm_compute in H. injection H as <-. destruct I as [<-|[<-|[]]]; discriminate.
  - exists [B "default-java"; B "java-8-openjdk"], (B "/usr/lib/jvm/java-8-openjdk"). split; [reflexivity|]. split; [right; left; reflexivity|]. split; [reflexivity|].
    split; [right; right; split; [discriminate|]; split; [|reflexivity]; intros d' E; apply (f_equal (@rev N)) in E; rewrite rev_app_distr in E; vm_compute in E; discriminate|].
    split; [reflexivity|]. split; [reflexivity|]. split; [|split; reflexivity].
    exists (B "/usr/lib/jvm/java-8-openjdk/bin"). split; [|split; reflexivity].
    right; right. split; [discriminate|]. split; [|reflexivity]. intros d' E; apply (f_equal (@rev N)) in E; rewrite rev_app_distr in E; vm_compute in E; discriminate.
Qed.
Definition ci (n : bytes) (c : option klass) : tested :=
  {| t_name := n; t_class := c; t_has_autoconfig := true; t_override := None; t_versions := true |}.
Example C88_ci_run : ci_status host [B "BF"] [ci (B "AWK") (Some awk); ci (B "CPP03") (Some cpp); ci (B "BF") (Some broken)] 0 = 0 /\
  ci_status host [] [ci (B "AWK") (Some awk); ci (B "BF") (Some broken)] 0 = 1 /\ ci_status host [B "BF"] [ci (B "BF") None] 0 = 1 /\
  ci_status host [] [ci (B "AWK") (Some awk)] 2 = 1.
Proof. vm_compute. repeat split; reflexivity. Qed.
(** A machine with Scala and Groovy. *)
Definition has_launchers : machine :=
  let there p := existsb (beqb p) (map B ["/usr/bin/scala"; "/usr/bin/scalac"; "/usr/bin/groovy"; "/usr/bin/groovyc"; "/usr/bin/java"]%string) in
  {| isfile := there; exists_ := there; isdir _ := false; islink _ := false; listdir _ := None; readable := there; start _ := []; cwd := B "/"; search_path := B "/bin:/usr/bin"; jvm_dir := B "/usr/lib/jvm";
     trace p _ := if beqb p (B "/usr/bin/scala")
       then Some (B "+ test -f x" ++ [10%N] ++ B "++ java -Xmx256M -Xms32M -cp a.jar scala.tools.nsc.MainGenericRunner -version" ++ [10%N] ++ B "+ exit 0")
       else Some (B "+ exec /usr/bin/java -Xmx1g -cp b.jar org.codehaus.groovy.tools.GroovyStarter -version" ++ [10%N]) |}.
Example C88_launchers_run : directories has_launchers [B "/bin"; B "/usr/bin"] /\
  works has_launchers {| how := Scala; passes_with _ := true |}
    [(B "scalac", Str (B "/usr/bin/scalac")); (B "scala_vm", Str (B "/usr/bin/java")); (B "scala_args", Strs [B "-cp"; B "a.jar"; B "scala.tools.nsc.MainGenericRunner"])] /\
  works has_launchers {| how := Groovy; passes_with _ := true |}
    [(B "groovyc", Str (B "/usr/bin/groovyc")); (B "groovy_vm", Str (B "/usr/bin/java")); (B "groovy_args", Strs [B "-Xmx1g"; B "-cp"; B "b.jar"; B "org.codehaus.groovy.tools.GroovyStarter"])].
Proof.
  split; [|split; eexists; vm_compute; reflexivity]. split; [discriminate|]. split; [|reflexivity].
  intros d [<-|[<-|[]]]; cbn; intuition discriminate.
Qed.

(** ** What does not hold *)
(** Where only a compiler for any machine works, the judge compiles for this machine all the same:
    the null that auto-configuration prints is read as the default. *)
Definition raspberry := {| how := Gcc (B "gcc_target_arch") (base_mapping (Some (B "g++")) []);
  passes_with t := match march_tested (B "gcc_target_arch") t with [] => true | _ => false end |}.
Theorem C88_generic_refuted : ~ forall m c arch mp cfg, how c = Gcc arch mp -> works m c cfg ->
  exists t, tested_as (how c) cfg t /\ passes_with c t = true /\ march_judge arch cfg = march_tested arch t.
Proof.
  intros H. destruct (H host raspberry (B "gcc_target_arch") (base_mapping (Some (B "g++")) []) [(B "g++", Str (B "/usr/local/bin/g++")); (B "gcc_target_arch", Null)] eq_refl)
    as (t & _ & P & M); [eexists; vm_compute; reflexivity|].
  cbn [passes_with raspberry] in P. rewrite <- M in P. vm_compute in P. discriminate.
Qed.
(** No setting of the target disables it. *)
Theorem C88_target_always : forall arch d, march_judge arch d = [] -> exists l, value arch d = Some (Strs l).
Proof.
  intros arch d. unfold march_judge, node_get. destruct (value arch d) as [[|[|c r]|l]|]; try (vm_compute; discriminate). intros _. exists l. reflexivity.
Qed.
(** A file of the current directory is taken before the programs of the system. *)
Theorem C88_here_refuted : ~ forall m dirs names p, directories m dirs -> find_command_from_list m names = Some p ->
  exists d name, In d dirs /\ In name names /\ in_dir d name p.
Proof.
  intros H. destruct (H (box ["awk"; "/usr/bin/awk"]%string) [B "/usr/local/bin"; B "/usr/bin"] [B "awk"] (B "/home/judge/awk")) as (d & n & I & [<-|[]] & J).
  - exact host_dirs.
  - vm_compute. reflexivity.
  - apply Proofs.Autoconf.in_one in J; [|reflexivity]. destruct I as [<-|[<-|[]]]; vm_compute in J; discriminate.
Qed.
(** A java that is a shell script is never replaced by the program it starts. *)
Theorem C88_unravel_refuted : forall m path, readable m path = true -> start m path = B "#!" -> unravel_java m path = Some path.
Proof. intros m path R _. unfold unravel_java. rewrite R. reflexivity. Qed.
Example C88_unravel_case : readable host (B "/usr/bin/java") = true /\ start host (B "/usr/bin/java") = B "#!".
Proof. split; reflexivity. Qed.
(** Scala, Groovy and Kotlin programs are started without the option that says where the virtual
    machine's crash log goes, which Java programs have and the judge reads. *)
Theorem C88_crash_log_refuted : forall mode agent memory class args jar,
  (forall a, In a args -> starts_with (B "-XX:ErrorFile=") a = false) ->
  In (B "-XX:ErrorFile=submission_jvm_crash.log") (java_args mode agent memory class) /\
  forall cmd, In cmd [scala_cmdline (java_args mode agent memory class) args; groovy_cmdline (java_args mode agent memory class) class args;
                      kotlin_cmdline (java_args mode agent memory class) jar] ->
    forall a, In a cmd -> starts_with (B "-XX:ErrorFile=") a = true -> a = mode \/ a = agent \/ a = class \/ a = jar.
Proof.
  intros mode agent memory class args jar Ha. split; [unfold java_args; cbn [In]; do 6 right; left; reflexivity|].
  intros cmd Ic a I E. destruct Ic as [<-|[<-|[<-|[]]]].
  - unfold scala_cmdline, splice_before_last, java_args in I. cbn [List.length Nat.sub firstn skipn app] in I.
    do 6 (destruct I as [<-|I]; [try discriminate; auto|]). apply in_app_or in I as [I|[<-|[]]]; [rewrite (Ha a I) in E; discriminate|auto].
  - unfold groovy_cmdline, splice_before_last, java_args in I. cbn [List.length Nat.sub firstn skipn app] in I.
    do 7 (destruct I as [<-|I]; [try discriminate; auto|]). apply in_app_or in I as [I|[<-|[]]]; [rewrite (Ha a I) in E; discriminate|auto].
  - unfold kotlin_cmdline, splice_end, java_args in I. cbn [List.length Nat.sub firstn skipn app] in I.
    do 8 (destruct I as [<-|I]; [try discriminate; auto|]). destruct I.
Qed.

Print Assumptions C88_first_found.
Print Assumptions C88_base.
Print Assumptions C88_gcc.
Print Assumptions C88_java.
Print Assumptions C88_tested.
Print Assumptions C88_printed.
Print Assumptions C88_ready.
Print Assumptions C88_same_mode.
Print Assumptions C88_same_target.
Print Assumptions C88_mappings.
Print Assumptions C88_ci.
Print Assumptions C88_override.
Print Assumptions C88_generic_refuted.
Print Assumptions C88_target_always.
Print Assumptions C88_here_refuted.
Print Assumptions C88_unravel_refuted.
Print Assumptions C88_crash_log_refuted.
Print Assumptions C88_kotlin.
Print Assumptions C88_scala.
Print Assumptions C88_groovy.
Print Assumptions C88_missing.

(** CoffeeScript, Racket and Turing need two programs each; Node may go by either of its names. *)
Theorem C88_two_programs :
  (forall k files, In (k, files) coffee_mapping <-> (k = B "node" /\ files = [B "nodejs"; B "node"]) \/ (k = B "coffee" /\ files = [B "coffee"])) /\
  (forall k files, In (k, files) racket_mapping <-> (k = B "racket" \/ k = B "raco") /\ files = [k]) /\
  (forall k files, In (k, files) turing_mapping <-> (k = B "tprolog" \/ k = B "tprologc") /\ files = [k]).
Proof.
  split; [|split]; intros k files; (split; [intros [[= <- <-]|[[= <- <-]|[]]]; auto|]).
  - intros [[-> ->]|[-> ->]]; [left|right; left]; reflexivity.
  - intros [[->| ->] ->]; [left|right; left]; reflexivity.
  - intros [[->| ->] ->]; [left|right; left]; reflexivity.
Qed.
Print Assumptions C88_two_programs.
