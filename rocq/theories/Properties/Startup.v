(** Property theorems for starting a judge (C84).

    [w] is what the process finds outside (files, the environment, the parser of numbers and of
    regular expressions), [a] the parsed command line, [root] the directory of the package: any.
    [documents w a l]: the documents the settings come from, in order of precedence. *)
From Coq Require Import String.
From Verif Require Import Model.Bytes Model.Paths Spec.Paths Model.Roots Spec.Roots Model.Executors Model.Config Model.Startup Spec.Startup.
From Verif Require Proofs.Startup.
Local Open Scope list_scope.
Local Open Scope Z_scope.

(** A setting is the configuration file's, else the Docker image's, else the standard one; the
    command line decides nothing but the name and the key. *)
Theorem C84_setting : forall root p w a s l k o, load_env root p w a = Loaded s -> documents w a l -> settled k l o ->
  (k <> B "id" /\ k <> B "key") \/ p <> TheJudge -> find k (s_env s) = o.
Proof. exact Proofs.Startup.setting. Qed.
Print Assumptions C84_setting.
(** A setting has one value. *)
Theorem C84_one_value : forall w a l k, documents w a l -> exists o, settled k l o /\ forall o', settled k l o' -> o' = o.
Proof.
  intros w a l k D. destruct (Proofs.Startup.settled_exists l k) as (o & S). exists o. split; [exact S|].
  intros o' S'. exact (Proofs.Startup.settled_fun w a l k o' o D S' S).
Qed.
Print Assumptions C84_one_value.

(** With a configuration file, the judge introduces itself by the name and the key of the command
    line; those not given, or empty, are the configured ones. *)
Theorem C84_name : forall root m ob w a l c n cs, main root m ob w a = Begun n cs -> documents w a l -> opened w (expand w (config a)) = Doc c ->
  (forall t, judge_name a = Some t -> t <> [] -> name n = VStr t)
  /\ (judge_name a = None \/ judge_name a = Some [] -> forall o, settled (B "id") l o -> name n = or_null o).
Proof.
  intros root m ob w a l c n cs H D E. unfold main in H. destruct (sanity_check m) as [[] cs']; [|discriminate].
  destruct (load_env root TheJudge w a) as [s|r|] eqn:L; try discriminate. assert (name n = env_item (s_env s) (B "id")) as -> by (injection H as <- _; reflexivity). unfold env_item.
  destruct (Proofs.Startup.identity root w a s l c (B "id") L D E (or_introl eq_refl)) as [A C].
  change (beqb (B "id") (B "id")) with true in A, C. split; [intros t Ht Hn; rewrite (A t Ht Hn); reflexivity|intros Ha o S; rewrite (C Ha o S); reflexivity].
Qed.
Print Assumptions C84_name.
Theorem C84_key : forall root m ob w a l c n cs, main root m ob w a = Begun n cs -> documents w a l -> opened w (expand w (config a)) = Doc c ->
  (forall t, judge_key a = Some t -> t <> [] -> key n = VStr t)
  /\ (judge_key a = None \/ judge_key a = Some [] -> forall o, settled (B "key") l o -> key n = or_null o).
Proof.
  intros root m ob w a l c n cs H D E. unfold main in H. destruct (sanity_check m) as [[] cs']; [|discriminate].
  destruct (load_env root TheJudge w a) as [s|r|] eqn:L; try discriminate. assert (key n = env_item (s_env s) (B "key")) as -> by (injection H as <- _; reflexivity). unfold env_item.
  destruct (Proofs.Startup.identity root w a s l c (B "key") L D E (or_intror eq_refl)) as [A C].
  change (beqb (B "key") (B "id")) with false in A, C. split; [intros t Ht Hn; rewrite (A t Ht Hn); reflexivity|intros Ha o S; rewrite (C Ha o S); reflexivity].
Qed.
Print Assumptions C84_key.

(** It connects where it was told to, over TLS or not, checking certificates or not, as it was told to. *)
Theorem C84_connection : forall root m ob w a n cs, main root m ob w a = Begun n cs ->
  to_host n = Some (server_host a) /\ to_port n = Some (server_port a)
  /\ tls n = secure a /\ unchecked n = no_certificate_check a /\ store_file n = trusted_certificates a.
Proof.
  intros root m ob w a n cs H. unfold main in H. destruct (sanity_check m) as [[] cs']; [|discriminate].
  unfold load_env in H. destruct (configure TheJudge w a) as [e d|r|]; try discriminate. destruct (problem_dirs_of w d) as [ds|]; [|discriminate].
  destruct (scan root (tree w) ds true) as [[f ws]|]; [|discriminate]. injection H as <- <-. repeat split.
Qed.
Print Assumptions C84_connection.
(** The rest of the command line.  Only the judge has a server to talk to, a log file and a choice
    about watching the problems; only the command line has a command and a history. *)
Theorem C84_options : forall root p w a s, load_env root p w a = Loaded s ->
  s_no_ansi s = no_ansi a /\ s_skip_self_test s = skip_self_test a /\
  (p = TheJudge -> s_host s = Some (server_host a) /\ s_port s = Some (server_port a) /\ s_secure s = secure a /\
     s_no_cert_check s = no_certificate_check a /\ s_cert_store s = trusted_certificates a /\
     s_log_file s = log_file a /\ s_no_watchdog s = no_watchdog a) /\
  (p <> TheJudge -> s_host s = None /\ s_port s = None /\ s_secure s = false /\ s_no_cert_check s = false /\
     s_cert_store s = None /\ s_log_file s = None /\ s_no_watchdog s = true) /\
  (p = Shell -> s_command s = command a /\
     (history a <> [] -> s_history s = Some (expand w (history a))) /\ (history a = [] -> s_history s = Some [])) /\
  (p <> Shell -> s_command s = [] /\ s_history s = None).
Proof. exact Proofs.Startup.options. Qed.
Print Assumptions C84_options.

(** The HTTP interface is there if a port was given, at the address given, and always in Docker,
    where it is open to all interfaces unless a port was given; the other programs have none. *)
Theorem C84_api : forall root m ob w a n cs h port, main root m ob w a = Begun n cs ->
  (api n = Some (h, port) <->
     (api_port a = Some port /\ port <> 0 /\ h = api_host a)
     \/ (docker w = true /\ (api_port a = None \/ api_port a = Some 0) /\ h = B "0.0.0.0" /\ port = 9998)).
Proof.
  intros root m ob w a n cs h port H. unfold main in H. destruct (sanity_check m) as [[] cs']; [|discriminate].
  destruct (load_env root TheJudge w a) as [s|r|] eqn:L; try discriminate. injection H as <- <-. cbn [api].
  apply Proofs.Startup.loaded_env in L. destruct L as (d & ds & f & ws & _ & _ & _ & _ & _ & _ & ->).
  unfold api_listen. cbn [is_cli]. destruct (api_port a) as [z|]; [destruct (Z.eqb_spec z 0) as [->|Hz]|]; destruct (docker w).
  all: split; [intros E; try discriminate; injection E as <- <-; auto|intros [(E & Hn & ->)|(E1 & E2 & -> & ->)]; try congruence; destruct E2; congruence].
Qed.
Print Assumptions C84_api.
Theorem C84_no_api : forall root p w a s, load_env root p w a = Loaded s -> p <> TheJudge -> s_api s = None.
Proof.
  intros root p w a s L Hp. apply Proofs.Startup.loaded_env in L. destruct L as (d & ds & f & ws & _ & _ & _ & _ & _ & _ & ->).
  destruct p; [congruence|reflexivity|reflexivity].
Qed.
Print Assumptions C84_no_api.

(** Which executors: those of the comma-separated lists. *)
Theorem C84_executors : forall root p w a s x, load_env root p w a = Loaded s ->
  (In x (s_only s) <-> set_of (only_executors a) x) /\ (In x (s_exclude s) <-> set_of (exclude_executors a) x).
Proof.
  intros root p w a s x H. rewrite <- !Proofs.Startup.listed. unfold load_env in H. destruct (configure p w a) as [e d|r|]; try discriminate.
  destruct (problem_dirs_of w d) as [ds|]; [|discriminate]. destruct (scan root (tree w) ds true) as [[f ws]|]; [|discriminate].
  destruct p; [injection H as <-; split; reflexivity|injection H as <-; split; reflexivity|].
  destruct (negb (isdir (tree w) (tests_dir a))); [discriminate|].
  destruct (given (problem_regex a) && _)%bool; [discriminate|]. destruct (given (case_regex a) && _)%bool; [discriminate|]. injection H as <-. split; reflexivity.
Qed.
Print Assumptions C84_executors.

(** The problems offered are those in the directories problem_storage_root stands for... *)
Theorem C84_roots : forall root p w a s l c v, load_env root p w a = Loaded s -> p <> Testsuite -> documents w a l ->
  opened w (expand w (config a)) = Doc c -> storage l v ->
  exists found, s_roots s = Some found /\ forall q, In q found <-> storage_dir root w v q.
Proof. exact Proofs.Startup.roots. Qed.
Print Assumptions C84_roots.
(** ...and a list of directories always starts, with a warning for each that is not one. *)
Theorem C84_starts : forall root p w a l c ps, p <> Testsuite -> documents w a l -> opened w (expand w (config a)) = Doc c -> storage l (VList (map VStr ps)) ->
  exists s, load_env root p w a = Loaded s /\ s_roots s = Some (filter (isdir (tree w)) (map (fun x => normpath (join root x)) ps))
    /\ s_warned s = map CannotAccess (filter (fun x => negb (isdir (tree w) x)) (map (fun x => normpath (join root x)) ps)).
Proof. exact Proofs.Startup.starts. Qed.
Print Assumptions C84_starts.
(** In Docker without a configuration file they are those in /problems; elsewhere nothing starts
    without one, nor without problems to grade. *)
Theorem C84_no_configuration : forall root p w a, opened w (expand w (config a)) = NoFile ->
  (docker w = false -> load_env root p w a = Raises)
  /\ (forall s, load_env root p w a = Loaded s -> docker w = true /\ (p <> Testsuite -> s_roots s = Some [B "/problems"])).
Proof.
  intros root p w a E. split; [intros D; exact (Proofs.Startup.needs_configuration root p w a D E)|].
  intros s L. exact (Proofs.Startup.no_configuration root p w a s L E).
Qed.
Print Assumptions C84_no_configuration.
Theorem C84_no_problems : forall root p w a l c, p <> Testsuite -> documents w a l -> opened w (expand w (config a)) = Doc c -> no_storage l ->
  load_env root p w a = Exits NoStorageRoot.
Proof. exact Proofs.Startup.no_problems. Qed.
Print Assumptions C84_no_problems.

(** Every directory problems are offered from is watched, or is below one that is. *)
Theorem C84_watched : forall root p w a s found q, starts_slash root = true -> load_env root p w a = Loaded s -> p <> Testsuite -> sound_listing (tree w) ->
  s_roots s = Some found -> In q found -> exists d, In d (s_watches s) /\ below d q.
Proof. intros root p w a s found q Ab. exact (Proofs.Startup.watched_roots root Ab p w a s found q). Qed.
Print Assumptions C84_watched.
Theorem C84_watching : forall root m w a n cs, main root m true w a = Begun n cs -> exists s, load_env root TheJudge w a = Loaded s
  /\ watched n = if no_watchdog a then [] else s_watches s.
Proof.
  intros root m w a n cs H. unfold main in H. destruct (sanity_check m) as [[] cs']; [|discriminate].
  destruct (load_env root TheJudge w a) as [s|r|] eqn:L; try discriminate. injection H as <- <-. exists s. split; [reflexivity|]. cbn [watched].
  unfold load_env in L. destruct (configure TheJudge w a) as [e d|r|]; try discriminate. destruct (problem_dirs_of w d) as [ds|]; [|discriminate].
  destruct (scan root (tree w) ds true) as [[f ws]|]; [|discriminate]. injection L as <-. cbn. destruct (no_watchdog a); reflexivity.
Qed.
Print Assumptions C84_watching.

(** The test suite offers the problems of the directory it is given, which is one, under the
    patterns it is given, which are patterns. *)
Theorem C84_testsuite : forall root w a s, load_env root Testsuite w a = Loaded s ->
  isdir (tree w) (tests_dir a) = true /\ s_dirs s = Roots.Plain [tests_dir a] /\ s_roots s = None
  /\ (forall r, s_problem_regex s = Some r <-> problem_regex a = Some r /\ r <> []) /\ (forall r, s_case_regex s = Some r <-> case_regex a = Some r /\ r <> [])
  /\ (forall r, s_problem_regex s = Some r \/ s_case_regex s = Some r -> compiles w r = true).
Proof.
  intros root w a s H. unfold load_env in H. destruct (configure Testsuite w a) as [e d|r|]; try discriminate.
  destruct (problem_dirs_of w d) as [ds|]; [|discriminate]. destruct (scan root (tree w) ds true) as [[f ws]|]; [|discriminate].
  destruct (isdir (tree w) (tests_dir a)); [|discriminate]. cbn [negb] in H.
  destruct (problem_regex a) as [[|c r]|] eqn:P, (case_regex a) as [[|c' r']|] eqn:C; cbn [given andb] in H.
  all: try (destruct (compiles w (c :: r)) eqn:K1; cbn [negb andb] in H; [|discriminate]).
  all: try (destruct (compiles w (c' :: r')) eqn:K2; cbn [negb andb] in H; [|discriminate]).
  all: injection H as <-; cbn; split; [reflexivity|]; split; [reflexivity|]; split; [reflexivity|].
  all: split; [|split]; [intros q; split; [intros E; try discriminate; split; congruence|intros [E E']; congruence] .. |].
  all: intros q [E|E]; congruence.
Qed.
Print Assumptions C84_testsuite.

(** A judge only starts on a machine that is not Windows, with the sandbox built, and not as root. *)
Theorem C84_unsafe : forall root m ob w a, main root m ob w a = Unsafe <-> windows m = true \/ cptbox m = false \/ uid m = 0%N.
Proof.
  intros root m ob w a. unfold main, sanity_check. destruct (windows m); [split; auto|]. destruct (cptbox m); [|split; auto]. cbn [negb].
  destruct (N.eqb_spec (uid m) 0) as [E|E]; [split; auto|].
  split; [destruct (load_env root TheJudge w a); discriminate|intros [H|[H|H]]; congruence].
Qed.
Print Assumptions C84_unsafe.
Theorem C84_cautions : forall root m ob w a n cs, main root m ob w a = Begun n cs ->
  (In NoJit cs <-> exists s, jit m = Some s /\ py_strip s <> B "1") /\ (In NoNativeChecker cs <-> native_checker m = false).
Proof.
  intros root m ob w a n cs H. unfold main in H. destruct (sanity_check m) as [[] cs'] eqn:S; [|discriminate].
  destruct (load_env root TheJudge w a); try discriminate. injection H as _ <-. unfold sanity_check in S.
  destruct (windows m); [discriminate|]. destruct (cptbox m); [|discriminate]. destruct (N.eqb (uid m) 0); [discriminate|]. injection S as <-.
  rewrite !in_app_iff. split.
  - split.
    + intros [X|X]; [|destruct (native_checker m); [destruct X|destruct X as [X|[]]; discriminate]].
      destruct (jit m) as [t|]; [|destruct X]. exists t. split; [reflexivity|]. intros E. rewrite E in X. vm_compute in X. exact X.
    + intros (t & -> & E). left. match goal with |- context [beqb (py_strip t) ?l] => change l with (B "1") end.
      destruct (BytesLemmas.beqb_spec (py_strip t) (B "1")); [contradiction|left; reflexivity].
  - split.
    + intros [X|X]; [|destruct (native_checker m); [destruct X|reflexivity]].
      exfalso. destruct (jit m) as [t|]; [|destruct X]. match type of X with context [if ?y then _ else _] => destruct y; [destruct X|destruct X as [X|[]]; discriminate X] end.
    + intros ->. right. left. reflexivity.
Qed.
Print Assumptions C84_cautions.

(** The process title tells which server, port and kind of connection are used. *)
Theorem C84_title : forall h p t h' p' t', make_host_port h p t = make_host_port h' p' t' -> h = h' /\ p = p' /\ t = t'.
Proof. exact Proofs.Startup.host_port_inj. Qed.
Print Assumptions C84_title.

(** ** A judge *)
Definition nothing : args := Args (B "site") None None 9999 [] (B "~/.dmoj_history") (B "~/.dmojrc") None false None (B "127.0.0.1") false false None None None false false (B "/t") None None.
Definition disk : fs := {| isdir := fun p => existsb (beqb p) [B "/problems"; B "/p"; B "/q/x"; B "/t"]; isfile := fun _ => false;
  listdir := fun p => if beqb p (B "/q") then Some [B "x"; B "y"] else None; readable := fun _ => true |}.
Definition here (dk : bool) (f : file) (i : file) : world := World dk (fun p => if beqb p (B "/root/.dmojrc") then f else if beqb p (B "/judge-runtime-paths.yml") then i else NoFile)
  (fun p => match p with 126%N :: r => B "/root" ++ r | _ => p end) disk (fun s => if beqb s (B "1") then Some 1 else None) (fun r => negb (beqb r (B "("))).
Definition sound : machine := Machine false true 1000 (Some (B "1" ++ [10%N])) true.

(** In Docker without a configuration file the name and the key of the command line are ignored. *)
Definition named := Args (B "site") (Some (B "alice")) (Some (B "secret")) 9999 [] [] (B "~/.dmojrc") None false None (B "127.0.0.1") true false None None None false false [] None None.
Theorem C84_name_refuted : exists w n cs, judge_name named = Some (B "alice") /\ main (B "/j") sound true w named = Begun n cs /\ name n = Null /\ key n = Null.
Proof. exists (here true NoFile (Doc (VDict []))). eexists. eexists. split; [reflexivity|]. split; [vm_compute; reflexivity|]. split; reflexivity. Qed.
Print Assumptions C84_name_refuted.
(** In Docker with a configuration file /problems is not the place to look unless it says so. *)
Theorem C84_docker_refuted : exists w, docker w = true /\ isdir (tree w) (B "/problems") = true
  /\ opened w (expand w (config nothing)) = Doc (VDict [(B "id", VStr (B "bob"))]) /\ load_env (B "/j") TheJudge w nothing = Exits NoStorageRoot.
Proof. exists (here true (Doc (VDict [(B "id", VStr (B "bob"))])) (Doc (VDict []))). repeat split; vm_compute; reflexivity. Qed.
Print Assumptions C84_docker_refuted.
(** A configuration file replaces the runtimes of the image as a whole: those it does not name are lost. *)
Theorem C84_runtime_refuted : exists w s, load_env (B "/j") TheJudge w nothing = Loaded s
  /\ opened w (B "/judge-runtime-paths.yml") = Doc (VDict [(B "runtime", VDict [(B "gcc", VStr (B "/usr/bin/gcc"))])])
  /\ opened w (expand w (config nothing)) = Doc (VDict [(B "problem_storage_root", VStr (B "/q")); (B "runtime", VDict [(B "java", VStr (B "/usr/bin/java"))])])
  /\ find (B "runtime") (s_env s) = Some (VDict [(B "java", VStr (B "/usr/bin/java"))]).
Proof.
  exists (here true (Doc (VDict [(B "problem_storage_root", VStr (B "/q")); (B "runtime", VDict [(B "java", VStr (B "/usr/bin/java"))])]))
            (Doc (VDict [(B "runtime", VDict [(B "gcc", VStr (B "/usr/bin/gcc"))])]))).
  eexists. split; [vm_compute; reflexivity|]. repeat split.
Qed.
Print Assumptions C84_runtime_refuted.
(** The test suite is meant to do without problem_storage_root (it is not told to stop), but never does. *)
Theorem C84_testsuite_refuted : forall root w a l c, documents w a l -> opened w (expand w (config a)) = Doc c -> no_storage l -> load_env root Testsuite w a = Raises.
Proof. exact Proofs.Startup.testsuite_no_problems. Qed.
Print Assumptions C84_testsuite_refuted.

Definition dmojrc : dict := [(B "id", VStr (B "bob")); (B "key", VStr (B "k")); (B "problem_storage_root", VList [VStr (B "/p"); VStr (B "/gone"); VDict [(B "1", VStr (B "/q"))]]); (B "tempdir", VStr (B "/dev/shm"))].
Example C84_ex : exists s, load_env (B "/j") TheJudge (here false (Doc (VDict dmojrc)) NoFile) nothing = Loaded s
  /\ s_roots s = Some [B "/p"; B "/q/x"] /\ s_watches s = [B "/p"; B "/gone"; B "/q"] /\ s_warned s = [CannotAccess (B "/gone")]
  /\ find (B "tempdir") (s_env s) = Some (VStr (B "/dev/shm")) /\ find (B "compiler_time_limit") (s_env s) = Some (VInt 10) /\ s_api s = None.
Proof. eexists. split; [vm_compute; reflexivity|]. repeat split. Qed.
Example C84_ex_documents : documents (here false (Doc (VDict dmojrc)) NoFile) nothing [dmojrc; standard].
Proof.
  exists [dmojrc], []. split; [left; exists dmojrc; split; [reflexivity|split; [|reflexivity]]|split; [right; split; reflexivity|reflexivity]].
  repeat constructor; vm_compute; intuition discriminate.
Qed.
Example C84_ex_launch : exists n cs, main (B "/j") sound true (here true (Doc (VDict dmojrc)) (Doc (VDict []))) named = Begun n cs
  /\ name n = VStr (B "alice") /\ key n = VStr (B "secret") /\ tls n = true /\ api n = Some (B "0.0.0.0", 9998) /\ cs = [].
Proof. eexists. eexists. split; [vm_compute; reflexivity|]. repeat split. Qed.
Example C84_ex_title : make_host_port (B "dmoj.ca") 9999 false = B "dmoj.ca:9999" /\ make_host_port (B "::1") 443 true = B "[::1]:443s".
Proof. split; vm_compute; reflexivity. Qed.
Example C84_ex_only : set_of (Some (B "PY3,CPP17")) (B "CPP17") /\ ~ set_of (Some (B "PY3, CPP17")) (B "CPP17").
Proof.
  split; [apply Proofs.Startup.listed; vm_compute; auto|]. rewrite <- Proofs.Startup.listed. vm_compute. intuition discriminate.
Qed.
