(** Programs that something else runs: scripts (dmoj/executors/script_executor.py and the executors
    built on it), programs on a Java virtual machine (java_executor.py, KOTLIN.py, GROOVY.py,
    SCALA.py, JAVA8.py to JAVA15.py, the *-security.policy files) and Brainf*** (BF.py:58-62). *)
From Coq Require Import String.
From Verif Require Import Model.Bytes Model.Paths Model.Access Model.Sources Model.Autoconf.
Local Open Scope nat_scope.
Local Open Scope list_scope.

(** ** Scripts *)
Inductive script := AWK | BASH | COFFEE | FORTH | LUA | PERL | PHP | PIKE | PRO | RUBY2 | SED | TCL | TEXT | V8JS.
(** the module's name, in lower case: get_executor_name().lower() *)
Definition low_name (s : script) : bytes :=
  match s with
  | AWK => B "awk" | BASH => B "bash" | COFFEE => B "coffee" | FORTH => B "forth" | LUA => B "lua" | PERL => B "perl"
  | PHP => B "php" | PIKE => B "pike" | PRO => B "pro" | RUBY2 => B "ruby2" | SED => B "sed" | TCL => B "tcl"
  | TEXT => B "text" | V8JS => B "v8js"
  end.
(** the class attributes ext and command *)
Definition ext (s : script) : bytes :=
  match s with
  | AWK => B "awk" | BASH => B "sh" | COFFEE => B "coffee" | FORTH => B "fs" | LUA => B "lua" | PERL => B "pl"
  | PHP => B "php" | PIKE => B "pike" | PRO => B "pl" | RUBY2 => B "rb" | SED => B "sed" | TCL => B "tcl"
  | TEXT => B "txt" | V8JS => B "js"
  end.
Definition command_name (s : script) : bytes :=
  match s with
  | AWK => B "awk" | BASH => B "bash" | COFFEE => B "node" | FORTH => B "gforth" | LUA => B "lua" | PERL => B "perl"
  | PHP => B "php" | PIKE => B "pike" | PRO => B "swipl" | RUBY2 => B "ruby2" | SED => B "sed" | TCL => B "tclsh"
  | TEXT => B "cat" | V8JS => B "v8dmoj"
  end.
(** runtime_dict, for the entries that are strings *)
Definition runtime := bytes -> option bytes.
(** script_executor.py:15-23; RUBY2.py:36-41, whose key is its own name *)
Definition get_command (s : script) (r : runtime) : option bytes :=
  match r (command_name s) with
  | Some c => Some c
  | None =>
      match r (low_name s ++ B "_home") with
      | Some home => Some (join (join home (B "bin")) (match s with RUBY2 => B "ruby" | _ => command_name s end))
      | None => None
      end
  end.
(** BaseExecutor.initialize up to the self-test, base_executor.py:124-131; COFFEE.py:30-33 *)
Definition initialized (s : script) (r : runtime) (isfile : bytes -> bool) : bool :=
  (match s with COFFEE => match r (B "coffee") with Some c => isfile c | None => false end | _ => true end)
  && match get_command s r with Some c => isfile c | None => false end.

(** A submission: its directory, problem and source. *)
Record submission := Submission { dir : bytes; problem : bytes; source : bytes }.
(** script_executor.py:12 with base_executor.py:36 and 78-83 *)
Definition code (s : script) (u : submission) : bytes := join (dir u) (problem u ++ B "." ++ ext s).
(** script_executor.py:32-34 *)
Definition script_files (s : script) (u : submission) : list (bytes * bytes) := [(code s u, source u)].
(** get_cmdline, script_executor.py:36-39 and the overrides: AWK.py:12-13, BASH.py:10-11,
    COFFEE.py:35-36, FORTH.py:16-17, PERL.py:12-13, PHP.py:14-15, PRO.py:24-25, RUBY2.py:29-30,
    SED.py:10-11, V8JS.py:16-17.  [None]: an assertion or a look-up fails. *)
Definition script_args (s : script) (r : runtime) (u : submission) : option (list bytes) :=
  match s with
  | BASH => Some [B "bash"; code s u]
  | PERL => Some [B "perl"; B "-Mre=eval"; code s u]
  | PHP => Some [B "php"; code s u]
  | _ =>
      match get_command s r with
      | None => None
      | Some c =>
          match s with
          | AWK | SED => Some [c; B "-f"; code s u]
          | COFFEE => match r (B "coffee") with Some t => Some [c; t; code s u] | None => None end
          | FORTH => Some [c; code s u; B "-e"; B "bye"]
          | PRO => Some [c; B "--goal=main"; B "-c"; code s u]
          | RUBY2 => Some [c; B "--disable-gems"; code s u]
          | V8JS => Some [c; B "--stack-size=131072"; code s u]
          | _ => Some [c; code s u]
          end
      end
  end.
(** script_executor.py:41-44 *)
Definition script_executable (s : script) (r : runtime) : option bytes := get_command s r.

(** ** Java virtual machines *)
Inductive jvm := JAVA8 | JAVA9 | JAVA10 | JAVA11 | JAVA15 | KOTLIN | GROOVY | SCALA.
(** the class attribute vm *)
Definition vm (j : jvm) : bytes :=
  match j with
  | JAVA8 => B "java8" | JAVA9 => B "java9" | JAVA10 => B "java10" | JAVA11 => B "java11" | JAVA15 => B "java15"
  | KOTLIN => B "kotlin_vm" | GROOVY => B "groovy_vm" | SCALA => B "scala_vm"
  end.
(** get_executable: java_executor.py:80-81, 140-142; get_vm_mode's setting: java_executor.py:146 *)
Definition jvm_executable (runtime : bytes -> option bytes) (j : jvm) : option bytes := runtime (vm j).
Definition jvm_mode (runtime : bytes -> option bytes) (j : jvm) : option bytes := runtime (vm j ++ B "_mode").
(** What an executor object knows.  [class]: self._class_name (java_executor.py:231, GROOVY.py:25,
    SCALA.py:31); [extra]: runtime_dict['groovy_args'] or ['scala_args']; [vm_mode]:
    runtime_dict[vm + '_mode'].  *)
Record program := Program {
  place : bytes; problem_id : bytes; class : bytes; jar_agent : bytes; hints : list bytes; unbuffered : bool;
  extra : list bytes; vm_mode : option bytes }.
(** java_executor.py:70 *)
Definition policy_file (p : program) : bytes := join (place p) (B "security.policy").
(** java_executor.py:89-95 *)
Definition agent_flag (p : program) : bytes :=
  let flag := fold_left (fun f h => f ++ B "," ++ h) (hints p) (B "-javaagent:" ++ jar_agent p ++ B "=policy:" ++ policy_file p) in
  if unbuffered p then flag ++ B ",nobuf" else flag.
(** java_executor.py:144-146 *)
Definition mode_flag (p : program) : bytes := B "-" ++ match vm_mode p with Some m => m | None => B "client" end.
(** KOTLIN.py:27 *)
Definition jar_name (p : program) : bytes := problem_id p ++ B ".jar".
(** java_executor.py:97-108 (Sources.java_args), KOTLIN.py:29-32, GROOVY.py:27-31, SCALA.py:33-39.
    For Kotlin the class name is None and is cut off again. *)
Definition jvm_args (j : jvm) (p : program) (orig_memory : N) : list bytes :=
  let res := java_args (mode_flag p) (agent_flag p) (decimal orig_memory) (class p) in
  match j with
  | KOTLIN => kotlin_cmdline res (jar_name p)
  | GROOVY => groovy_cmdline res (class p) (extra p)
  | SCALA => scala_cmdline res (extra p)
  | _ => res
  end.
(** java_executor.py:110-112: the memory shown to get_cmdline, and the sandbox's *)
Definition jvm_launch (j : jvm) (p : program) (memory : N) : list bytes * N := (jvm_args j p memory, 0%N).

(** create_files of the languages that keep the source's name: java_executor.py:66-72 after
    compiled_executor.py:134-137; KOTLIN.py:25-27, GROOVY.py:23-25, SCALA.py:29-31 *)
Definition jvm_ext (j : jvm) : bytes := match j with KOTLIN => B "kt" | GROOVY => B "groovy" | SCALA => B "scala" | _ => B "java" end.
Definition plain_code (j : jvm) (p : program) : bytes := join (place p) (problem_id p ++ B "." ++ jvm_ext j).
Definition plain_files (j : jvm) (policy : bytes) (p : program) (source : bytes) : list (bytes * bytes) :=
  [(plain_code j p, source); (policy_file p, policy)].
(** get_compile_args: JAVA8.py:32-33, JAVA9.py:32-33, JAVA10.py:32-33, JAVA11.py:34-35, JAVA15.py:36-37,
    KOTLIN.py:34-35, GROOVY.py:33-34, SCALA.py:41-42; [code] is self._code: of a Java program the
    file named after its class, java_executor.py:223 *)
Definition jvm_code (j : jvm) (p : program) : bytes :=
  match j with KOTLIN | GROOVY | SCALA => plain_code j p | _ => join (place p) (class p ++ B ".java") end.
Definition jvm_compile_args (j : jvm) (compiler : bytes) (p : program) : list bytes :=
  match j with
  | JAVA8 => [compiler; B "-encoding"; B "UTF-8"; B "-profile"; B "compact1"; jvm_code j p]
  | KOTLIN => [compiler; B "-include-runtime"; B "-d"; jar_name p; jvm_code j p]
  | GROOVY | SCALA => [compiler; jvm_code j p]
  | _ => [compiler; B "-encoding"; B "UTF-8"; jvm_code j p]
  end.

(** *** The policies *)
Record permission := Permission { kind : string; target : bytes; actions : list string }.
Definition prop (t : string) (a : list string) : permission := Permission "java.util.PropertyPermission" (B t) a.
Definition runtime_perm (t : string) : permission := Permission "java.lang.RuntimePermission" (B t) [].
Definition file_read (t : string) : permission := Permission "java.io.FilePermission" (B t) ["read"%string].
(** java-security.policy, in order *)
Definition java_policy : list permission :=
  [runtime_perm "readFileDescriptor"; runtime_perm "writeFileDescriptor"; runtime_perm "stopThread"; runtime_perm "modifyThread";
    prop "user.language" ["write"%string]; prop "user.timezone" ["write"%string]]
  ++ map (fun t => prop t ["read"%string])
      ["java.version"; "java.vendor"; "java.vendor.url"; "java.class.version"; "os.name"; "os.version"; "os.arch"; "line.separator";
       "java.specification.version"; "java.specification.vendor"; "java.specification.name";
       "java.vm.specification.version"; "java.vm.specification.vendor"; "java.vm.specification.name";
       "java.vm.version"; "java.vm.vendor"; "java.vm.name"]%string.
(** scala-security.policy *)
Definition scala_policy : list permission := prop "scala.time" ["read"%string] :: java_policy.
(** groovy-security.policy; the permissions that java-security.policy has too come last here *)
Definition groovy_policy : list permission :=
  [Permission "java.lang.reflect.ReflectPermission" (B "suppressAccessChecks") [];
    runtime_perm "createClassLoader"; runtime_perm "setContextClassLoader"; runtime_perm "accessDeclaredMembers";
    runtime_perm "getProtectionDomain"; runtime_perm "accessClassInPackage.sun.reflect";
    runtime_perm "accessClassInPackage.jdk.internal.reflect"; runtime_perm "accessClassInPackage.jdk.internal";
    runtime_perm "exitVM.*";
    file_read "."; file_read "${groovy.starter.conf}"; file_read "${groovy.home}/-"; file_read "${user.home}/.groovy/lib";
    file_read "${tools.jar}"; file_read "${submission.file}"; file_read "${submission.file}.groovy"; file_read "${submission.file}.gvy";
    file_read "${submission.file}.gy"; file_read "${submission.file}.gsh";
    Permission "java.util.logging.LoggingPermission" (B "control") [];
    prop "*" ["read"; "write"]%string] ++ java_policy.
(** java_executor.py:26-27 and 57, KOTLIN.py:5-6 and 16 (which reads java-security.policy),
    GROOVY.py:7-8 and 17, SCALA.py:6-7 and 19 *)
Definition policy_of (j : jvm) : list permission :=
  match j with GROOVY => groovy_policy | SCALA => scala_policy | _ => java_policy end.

(** ** Brainf***: BF.py:58-62.  The argument added to the command line (gcc_executor's, which is the
    program's name), and the memory given to the sandbox *)
Definition bf_launch (problem : bytes) (memory : N) : list bytes * N := ([problem; decimal (memory * 1024)], (memory + 8192)%N).
