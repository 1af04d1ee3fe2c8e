(** Interpreters and virtual machines as their users know them. *)
From Coq Require Import String.
From Verif Require Import Model.Bytes Spec.Access Model.Interpreters.
Local Open Scope nat_scope.
Local Open Scope list_scope.

(** ** How each interpreter is told to run a file, as its manual has it: what comes before and after
    the file's name on its command line.  [helper]: the script that makes CoffeeScript run on node. *)
Definition usage (s : script) (helper file : bytes) : list bytes :=
  match s with
  | AWK | SED => [B "-f"; file]                   (* take the program from a file, not the next argument *)
  | COFFEE => [helper; file]
  | FORTH => [file; B "-e"; B "bye"]              (* load, then leave instead of prompting *)
  | PERL => [B "-Mre=eval"; file]
  | PRO => [B "--goal=main"; B "-c"; file]
  | RUBY2 => [B "--disable-gems"; file]
  | V8JS => [B "--stack-size=131072"; file]
  | BASH | LUA | PHP | PIKE | TCL | TEXT => [file]
  end.
(** The program of each interpreter, the ending of its sources' names, and the setting that says where it is
    installed. *)
Definition interpreter (s : script) : bytes :=
  match s with
  | COFFEE => B "node" | FORTH => B "gforth" | PRO => B "swipl" | TCL => B "tclsh" | TEXT => B "cat" | V8JS => B "v8dmoj" | RUBY2 => B "ruby2"
  | AWK => B "awk" | BASH => B "bash" | LUA => B "lua" | PERL => B "perl" | PHP => B "php" | PIKE => B "pike" | SED => B "sed"
  end.
Definition ending (s : script) : bytes :=
  match s with
  | BASH => B ".sh" | FORTH => B ".fs" | PERL | PRO => B ".pl" | RUBY2 => B ".rb" | TEXT => B ".txt" | V8JS => B ".js"
  | AWK => B ".awk" | COFFEE => B ".coffee" | LUA => B ".lua" | PHP => B ".php" | PIKE => B ".pike" | SED => B ".sed" | TCL => B ".tcl"
  end.
Definition home_setting (s : script) : bytes :=
  match s with
  | AWK => B "awk_home" | BASH => B "bash_home" | COFFEE => B "coffee_home" | FORTH => B "forth_home" | LUA => B "lua_home" | PERL => B "perl_home"
  | PHP => B "php_home" | PIKE => B "pike_home" | PRO => B "pro_home" | RUBY2 => B "ruby2_home" | SED => B "sed_home" | TCL => B "tcl_home"
  | TEXT => B "text_home" | V8JS => B "v8js_home"
  end.
(** What a program would take for an option. *)
Definition option_like (a : bytes) : Prop := exists r, a = B "-" ++ r.

(** The setting under which each language's machine is found. *)
Definition machine_setting (j : jvm) : string :=
  match j with
  | JAVA8 => "java8" | JAVA9 => "java9" | JAVA10 => "java10" | JAVA11 => "java11" | JAVA15 => "java15"
  | KOTLIN => "kotlin_vm" | GROOVY => "groovy_vm" | SCALA => "scala_vm"
  end%string.
(** ** The command line of a Java virtual machine: options, then a class or -jar and a file, then the
    program's own arguments.  The class path is an option with an argument. *)
Inductive main := MainClass (name : bytes) | MainJar (file : bytes).
Inductive started_as : list bytes -> list bytes -> main -> list bytes -> Prop :=
| started_class name args : ~ option_like name -> started_as (name :: args) [] (MainClass name) args
| started_jar file args : started_as (B "-jar" :: file :: args) [] (MainJar file) args
| started_path flag path l opts m args : In flag [B "-cp"; B "-classpath"] ->
    started_as l opts m args -> started_as (flag :: path :: l) opts m args
| started_option o l opts m args : option_like o -> ~ In o [B "-jar"; B "-cp"; B "-classpath"] ->
    started_as l opts m args -> started_as (o :: l) (o :: opts) m args.
(** The largest heap, in kilobytes: the last -Xmx counts.  Only numbers followed by K are read here. *)
Definition heap_flag (o : bytes) : Prop := exists r, o = B "-Xmx" ++ r.
Definition digit (c : N) : Prop := (48 <= c <= 57)%N.
Definition heap_limit (opts : list bytes) (kilobytes : N) : Prop :=
  exists before after digits, opts = before ++ (B "-Xmx" ++ digits ++ B "K") :: after /\
    (forall o, In o after -> ~ heap_flag o) /\ digits <> [] /\ (forall c, In c digits -> digit c) /\ Spec.Access.numeral_value digits = kilobytes.
(** What a Java agent given as -javaagent:FILE=OPTIONS is told, its options being separated by commas. *)
Fixpoint cut (s : bytes) : list bytes :=
  match s with
  | [] => [[]]
  | c :: r => if (c =? 44)%N then [] :: cut r
              else match cut r with w :: l => (c :: w) :: l | [] => [[c]] end
  end.
Definition agent_told (opts : list bytes) (file : bytes) (told : list bytes) : Prop :=
  exists o, In (B "-javaagent:" ++ file ++ B "=" ++ o) opts /\ cut o = told.

(** ** Permissions: which requests a permission covers *)
(** A property, by its name; "*" covers all; "a.*" all that start with "a." *)
Definition covers_name (pattern name : bytes) : Prop :=
  pattern = name \/ pattern = B "*" \/ exists p r, pattern = p ++ B ".*" /\ name = p ++ B "." ++ r.
(** A request: of a kind, for a name, to do something ([None] for kinds without actions). *)
Record request := Request { r_kind : string; r_target : bytes; r_action : option string }.
(** File permissions name files after the expansion of ${...}, which is not modelled: here any file
    may be covered. *)
Definition covers (p : permission) (r : request) : Prop :=
  kind p = r_kind r /\
  match r_action r with Some a => In a (actions p) | None => actions p = [] end /\
  (r_kind r = "java.io.FilePermission"%string \/ covers_name (target p) (r_target r)).
Definition granted (l : list permission) (r : request) : Prop := exists p, In p l /\ covers p r.

(** ** How a program of each language is run on a virtual machine.  [eo], [m], [args]: the options the
    configuration adds, what is started and its arguments.  Java starts the submission's class, Kotlin
    its archive; Groovy and Scala start what the configuration says (their own launcher) and give it the
    submission's class. *)
Definition runs (j : jvm) (p : program) (eo : list bytes) (m : main) (args : list bytes) : Prop :=
  match j with
  | KOTLIN => eo = [] /\ m = MainJar (problem_id p ++ B ".jar") /\ args = []
  | GROOVY | SCALA => exists own, started_as (extra p) eo m own /\ args = own ++ [class p]
  | _ => eo = [] /\ m = MainClass (class p) /\ ~ option_like (class p) /\ args = []
  end.
(** A usable virtual machine: its name is not one of these options, and no name in the agent's options
    has a comma. *)
Definition no_comma (s : bytes) : Prop := ~ In 44%N s.
Definition usable_program (p : program) : Prop :=
  (forall m, vm_mode p = Some m -> ~ In m [B "jar"; B "cp"; B "classpath"]) /\
  (exists r, place p = B "/" ++ r) /\ (forall r, place p <> r ++ B "/") /\ no_comma (place p) /\ (forall h, In h (hints p) -> no_comma h).

(** The options a compiler for the virtual machine is given before the source. *)
Definition compiler_options (j : jvm) (jar : bytes) : list bytes :=
  match j with
  | JAVA8 => [B "-encoding"; B "UTF-8"; B "-profile"; B "compact1"]
  | JAVA9 | JAVA10 | JAVA11 | JAVA15 => [B "-encoding"; B "UTF-8"]
  | KOTLIN => [B "-include-runtime"; B "-d"; jar]
  | GROOVY | SCALA => []
  end.

(** ** What a program may ask of its virtual machine *)
Definition own_threads_and_streams : list string := ["readFileDescriptor"; "writeFileDescriptor"; "stopThread"; "modifyThread"]%string.
Definition changeable : list string := ["user.language"; "user.timezone"]%string.
Definition about_the_machine : list string :=
  ["java.version"; "java.vendor"; "java.vendor.url"; "java.class.version"; "os.name"; "os.version"; "os.arch"; "line.separator";
   "java.specification.version"; "java.specification.vendor"; "java.specification.name";
   "java.vm.specification.version"; "java.vm.specification.vendor"; "java.vm.specification.name";
   "java.vm.version"; "java.vm.vendor"; "java.vm.name"]%string.
Definition groovy_internals : list string :=
  ["createClassLoader"; "setContextClassLoader"; "accessDeclaredMembers"; "getProtectionDomain"; "accessClassInPackage.sun.reflect";
   "accessClassInPackage.jdk.internal.reflect"; "accessClassInPackage.jdk.internal"]%string.
Definition groovy_files : list string :=
  ["."; "${groovy.starter.conf}"; "${groovy.home}/-"; "${user.home}/.groovy/lib"; "${tools.jar}"; "${submission.file}"; "${submission.file}.groovy";
   "${submission.file}.gvy"; "${submission.file}.gy"; "${submission.file}.gsh"]%string.
Definition asks (r : request) (k : string) (a : option string) (names : list string) : Prop :=
  r_kind r = k /\ r_action r = a /\ In (r_target r) (map B names).
Definition may (j : jvm) (r : request) : Prop :=
  asks r "java.lang.RuntimePermission" None own_threads_and_streams \/
  asks r "java.util.PropertyPermission" (Some "write"%string) changeable \/
  asks r "java.util.PropertyPermission" (Some "read"%string) about_the_machine \/
  (j = SCALA /\ asks r "java.util.PropertyPermission" (Some "read"%string) ["scala.time"%string]) \/
  (j = GROOVY /\
    (asks r "java.lang.RuntimePermission" None groovy_internals \/
     (r_kind r = "java.lang.RuntimePermission"%string /\ r_action r = None /\ exists status, r_target r = B "exitVM." ++ status) \/
     asks r "java.lang.reflect.ReflectPermission" None ["suppressAccessChecks"%string] \/
     asks r "java.util.logging.LoggingPermission" None ["control"%string] \/
     (r_kind r = "java.io.FilePermission"%string /\ r_action r = Some "read"%string) \/
     (r_kind r = "java.util.PropertyPermission"%string /\ (r_action r = Some "read"%string \/ r_action r = Some "write"%string)))).
