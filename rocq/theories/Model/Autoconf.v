(** Finding the runtimes of a machine: dmoj/executors/autoconfig.py, the [autoconfig]
    methods of the executors, and the continuous-integration run of dmoj/citest.py. *)
From Coq Require Import String.
From Verif Require Import Model.Bytes Model.Paths.
Local Open Scope list_scope.
Local Open Scope nat_scope.

(** ** Settings *)
(** A value of the runtime section: null, a string, or a list of strings. *)
Inductive setting := Null | Str (s : bytes) | Strs (l : list bytes).
Definition config := list (bytes * setting).
(** [d[k]] for a dict: [None] when the key is absent *)
Fixpoint value (k : bytes) (d : config) : option setting :=
  match d with [] => None | (k', v) :: r => if beqb k k' then Some v else value k r end.
(** [d[k] = v] *)
Fixpoint put (k : bytes) (v : setting) (d : config) : config :=
  match d with
  | [] => [(k, v)]
  | (k', v') :: r => if beqb k k' then (k', v) :: r else (k', v') :: put k v r
  end.
(** [del d[k]], [d.pop(k)] *)
Definition del (k : bytes) (d : config) : config := filter (fun kv => negb (beqb k (fst kv))) d.
(** [d.update(new)] *)
Definition update (d new : config) : config := fold_left (fun d kv => put (fst kv) (snd kv) d) new d.

(** ** The machine *)
Record machine := {
  isfile : bytes -> bool;                    (** os.path.isfile *)
  exists_ : bytes -> bool;                   (** os.path.exists *)
  isdir : bytes -> bool;                     (** os.path.isdir *)
  islink : bytes -> bool;                    (** os.path.islink *)
  listdir : bytes -> option (list bytes);    (** os.listdir; [None]: OSError *)
  readable : bytes -> bool;                  (** open(path, 'rb') succeeds *)
  start : bytes -> bytes;                    (** the first two bytes of a file *)
  cwd : bytes;                               (** os.getcwd() *)
  search_path : bytes;                       (** PATH of the environment, or the system's default for it *)
  jvm_dir : bytes;                           (** java_executor.py:176: /usr/local on FreeBSD, else /usr/lib/jvm *)
  trace : bytes -> list bytes -> option bytes  (** what bash -x writes on running a script with arguments; [None]: cannot be run, or is not UTF-8 *)
}.

Section Machine.
Variable m : machine.

(** os.path.abspath *)
Definition abspath (p : bytes) : bytes := normpath (if starts_slash p then p else join (cwd m) p).

(** distutils.spawn.find_executable (CPython's), on a system other than Windows *)
Definition is_colon (c : N) : bool := (c =? 58)%N.
Fixpoint first_file (l : list bytes) : option bytes :=
  match l with [] => None | p :: r => if isfile m p then Some p else first_file r end.
Definition find_executable (name : bytes) : option bytes :=
  if isfile m name then Some name
  else match search_path m with
       | [] => None
       | path => first_file (map (fun d => join d name) (re_split is_colon path))
       end.

(** base_executor.py:236-246 find_command_from_list *)
Fixpoint find_command_from_list (files : list bytes) : option bytes :=
  match files with
  | [] => None
  | file :: r =>
      if starts_slash file then (if exists_ m file then Some file else find_command_from_list r)
      else match find_executable file with
           | Some path => Some (abspath path)
           | None => find_command_from_list r
           end
  end.

(** What [autoconfig] gives: the settings, whether they work, and a message.  The fourth
    component, the errors, is only printed; a configuration of [None] only goes with failure
    and is given as the empty one. *)
Inductive data := Raises | Data (cfg : config) (success : bool) (message : bytes).

Definition mapping := list (bytes * list bytes).
(** base_executor.py:253-258: the loop over the keys *)
Fixpoint find_all (mp : mapping) (result : config) : config + bytes :=
  match mp with
  | [] => inl result
  | (key, files) :: r =>
      match find_command_from_list files with
      | None => inr key
      | Some file => find_all r (put key (Str file) result)
      end
  end.

Definition quote : bytes := [34%N].
Definition failed_to_find (key : bytes) : bytes := B "Failed to find " ++ quote ++ key ++ quote.

Section Class.
(** [executor.run_self_test] of the class with these settings as its runtime_dict
    (base_executor.py:133-187, see Model.Executors.run_self_test) *)
Variable passes : config -> bool.

(** base_executor.py:262-274 *)
Definition run_test (result : config) : data :=
  if passes result
  then Data result true (match result with [(_, Str v)] => B "Using " ++ v | [(_, _)] => B "Using" | _ => [] end)
  else Data result false (B "Failed self-test").

(** gcc_executor.py:104-124, but for the name in the message *)
Definition gcc_run_test (arch : bytes) (result : config) : data :=
  let native := put arch (Str (B "native")) result in
  if passes native then Data (del arch native) true (B "Using (native target)")
  else
    let generic := put arch Null native in
    if passes generic then Data generic true (B "Using (generic target)")
    else Data generic false (B "Failed self-test").

(** base_executor.py:248-260 *)
Definition find_first (run : config -> data) (mp : option mapping) : data :=
  match mp with
  | None => Data [] false (B "Unimplemented")
  | Some mp =>
      match find_all mp [] with
      | inr key => Data [] false (failed_to_find key)
      | inl result => run result
      end
  end.

(** asm_executor.py:117-121 *)
Definition asm_autoconfig (can_debug : bool) (mp : option mapping) : data :=
  if negb can_debug then Data [] false (B "Unable to natively debug") else find_first run_test mp.

(** java_executor.py:241-267 test_jvm of JavacExecutor *)
Definition vm_modes : list bytes := [B "client"; B "server"; B "dcevm"; B "zero"].
Fixpoint try_modes (vm compiler vm_path compiler_path : bytes) (modes : list bytes) : data :=
  match modes with
  | [] => Data [] false (B "Failed self-test")
  | mode :: r =>
      let result := put compiler (Str compiler_path) (put (vm ++ B "_mode") (Str mode) (put vm (Str vm_path) [])) in
      if passes result
      then Data (if beqb mode (B "client") then del (vm ++ B "_mode") result else result) true (B "Using " ++ vm_path ++ B " (" ++ mode ++ B " VM)")
      else try_modes vm compiler vm_path compiler_path r
  end.
Definition test_jvm (vm compiler path : bytes) : data :=
  let vm_path := join (join path (B "bin")) (B "java") in
  let compiler_path := join (join path (B "bin")) (B "javac") in
  if isfile m vm_path && isfile m compiler_path then try_modes vm compiler vm_path compiler_path vm_modes
  else Data [] false (B "Invalid JDK").

(** java_executor.py:172-199; [regex] is [re.compile(jvm_regex).match] *)
Fixpoint try_vms (regex : bytes -> bool) (vm compiler : bytes) (vms : list bytes) : data :=
  match vms with
  | [] => Data [] false (B "Could not find JVM")
  | item :: r =>
      let path := join (jvm_dir m) item in
      if negb (isdir m path) || islink m path then try_vms regex vm compiler r
      else if regex item
      then match test_jvm vm compiler path with
           | Data cfg true msg => Data cfg true msg
           | _ => try_vms regex vm compiler r
           end
      else try_vms regex vm compiler r
  end.
Definition java_autoconfig (regex : bytes -> bool) (vm compiler : bytes) : data :=
  try_vms regex vm compiler (match listdir m (jvm_dir m) with Some l => l | None => [] end).

(** java_executor.py:201-212: what a file starts with is bytes and '#!' is text, which Python
    never finds equal, so that lines 207-212 are not reached.  [None]: the file cannot be
    opened. *)
Definition bytes_is_text (b t : bytes) : bool := false.
Definition unravel_java (path : bytes) : option bytes :=
  if readable m path
  then if negb (bytes_is_text (start m path) (B "#!")) then Some path else None
  else None.

(** KOTLIN.py:40-50 *)
Definition kotlin_autoconfig (vm compiler : bytes) : data :=
  match find_command_from_list [B "kotlinc"] with
  | None => Data [] false (failed_to_find (B "kotlinc"))
  | Some kotlinc =>
      match find_command_from_list [B "java"] with
      | None => Data [] false (failed_to_find (B "java"))
      | Some java =>
          match unravel_java java with
          | None => Raises
          | Some java' => run_test (put vm (Str java') (put compiler (Str kotlinc) []))
          end
      end
  end.

(** SCALA.py:46-74 and GROOVY.py:40-67.  [skip]: how many words of the traced command come
    before the virtual machine (GROOVY: 'exec'); [drops]: the arguments left out.  White space
    is ASCII's here, Unicode's in the program. *)
Fixpoint lstrip_plus (s : bytes) : bytes :=
  match s with c :: r => if ((c =? 43) || (c =? 32))%N then lstrip_plus r else s | [] => [] end.
Definition last_with (marker : bytes) (output : bytes) : option bytes :=
  match filter (contains marker) (re_split (fun c => (c =? 10)%N) output) with
  | [] => None
  | log => Some (last log [])
  end.
Definition starter_autoconfig (compiler launcher vm args_key marker : bytes) (flags : list bytes) (skip : nat)
  (drops : bytes -> bool) : data :=
  match find_all [(compiler, [compiler]); (launcher, [launcher])] [] with
  | inr key => Data [] false (failed_to_find key)
  | inl found =>
      match value launcher found with
      | Some (Str script) =>
          let result := del launcher found in
          match trace m script flags with
          | None => Raises
          | Some output =>
              match last_with marker output with
              | None => Data result false (B "Failed to parse: " ++ script)
              | Some line =>
                  let cmdline := py_split (lstrip_plus line) in
                  match skipn skip cmdline with
                  | [] => Raises
                  | java :: rest =>
                      match find_command_from_list [java] with
                      | None => Raises
                      | Some java' =>
                          match unravel_java java' with
                          | None => Raises
                          | Some java'' =>
                              run_test (put args_key (Strs (filter (fun a => negb (drops a)) (removelast rest)))
                                          (put vm (Str java'') result))
                          end
                      end
                  end
              end
          end
      | _ => Raises
      end
  end.
Definition scala_autoconfig : data :=
  starter_autoconfig (B "scalac") (B "scala") (B "scala_vm") (B "scala_args") (B "scala.tools.nsc.MainGenericRunner")
    [B "-usebootcp"; B "-version"] 0 (fun a => starts_with (B "-Xmx") a || starts_with (B "-Xms") a).
Definition groovy_autoconfig : data :=
  starter_autoconfig (B "groovyc") (B "groovy") (B "groovy_vm") (B "groovy_args") (B "org.codehaus.groovy.tools.GroovyStarter")
    [B "-version"] 1 (fun _ => false).
End Class.

(** ** What the executors look for *)
(** base_executor.py:276-280 *)
Definition base_mapping (command : option bytes) (command_paths : list bytes) : option mapping :=
  match command with
  | None => None
  | Some c => Some [(c, match command_paths with [] => [c] | l => l end)]
  end.
(** [res[key] = files] *)
Fixpoint put_files (k : bytes) (v : list bytes) (d : mapping) : mapping :=
  match d with
  | [] => [(k, v)]
  | (k', v') :: r => if beqb k k' then (k', v) :: r else (k', v') :: put_files k v r
  end.
(** mono_executor.py:66-70, and MONOVB.py:36-40 on top of it *)
Definition mono_mapping (command : bytes) (command_paths : list bytes) : mapping :=
  put_files (B "mono") [B "mono"] [(command, match command_paths with [] => [command] | l => l end)].
Definition monovb_mapping (command : bytes) : mapping :=
  put_files (B "mono-vbnc") [B "mono-vbnc"; B "vbnc"] (mono_mapping command []).
(** asm_executor.py:134-141 and 162-166; both from one dictionary display, whose keys are put
    in order *)
Definition prefixed (prefixes : list bytes) (tool : bytes) : list bytes := map (fun i => i ++ B "-" ++ tool) prefixes ++ [tool].
Definition gas_mapping (prefixes : option (list bytes)) (as_name ld_name : bytes) : option mapping :=
  match prefixes with
  | None => None
  | Some l => Some (put_files ld_name (prefixed l (B "ld")) [(as_name, prefixed l (B "as"))])
  end.
Definition nasm_mapping (prefixes : option (list bytes)) (ld_name : bytes) : option mapping :=
  match prefixes with
  | None => None
  | Some l => Some (put_files (B "nasm") [B "nasm"] [(ld_name, prefixed l (B "ld"))])
  end.
(** COFFEE.py:48-50, RKT.py:44-46, TUR.py:36-38, RUBY2.py:48-50 *)
Definition coffee_mapping : mapping := [(B "node", [B "nodejs"; B "node"]); (B "coffee", [B "coffee"])].
Definition racket_mapping : mapping := [(B "racket", [B "racket"]); (B "raco", [B "raco"])].
Definition turing_mapping : mapping := [(B "tprolog", [B "tprolog"]); (B "tprologc", [B "tprologc"])].
Definition ruby_mapping (name : bytes) (command_paths : list bytes) : mapping := [(py_lower name, command_paths)].

(** ** The loop over the executors *)
(** How a class looks for its runtime *)
Inductive finder :=
| First (mp : option mapping)
| Gcc (arch : bytes) (mp : option mapping)
| Asm (can_debug : bool) (mp : option mapping)
| Javac (regex : bytes -> bool) (vm compiler : bytes)
| Kotlin (vm compiler : bytes)
| Scala
| Groovy.
Record klass := { how : finder; passes_with : config -> bool }.
Definition autoconfig (c : klass) : data :=
  match how c with
  | First mp => find_first (run_test (passes_with c)) mp
  | Gcc arch mp => find_first (gcc_run_test (passes_with c) arch) mp
  | Asm can_debug mp => asm_autoconfig (passes_with c) can_debug mp
  | Javac regex vm compiler => java_autoconfig (passes_with c) regex vm compiler
  | Kotlin vm compiler => kotlin_autoconfig (passes_with c) vm compiler
  | Scala => scala_autoconfig (passes_with c)
  | Groovy => groovy_autoconfig (passes_with c)
  end.
(** A module of the directory: cannot be loaded or has no Executor ([None]), or its class *)
Definition modules := list (option klass).
(** autoconfig.py:28-80: what is printed as the runtime section *)
Definition configure (l : modules) : config :=
  fold_left (fun result e =>
    match e with
    | None => result
    | Some c => match autoconfig c with Data cfg true _ => update result cfg | _ => result end
    end) l [].

(** ** citest.py:38-119 *)
Record tested := {
  t_name : bytes;
  t_class : option klass;          (** [None]: the module has no Executor *)
  t_has_autoconfig : bool;
  t_override : option config;      (** overrides[name]; [None]: not in overrides *)
  t_versions : bool                (** get_runtime_versions() succeeds (it is called when the test has) *)
}.
(** citest.py:68-71: autoconfig_run_test is the class's own (gcc_executor.py:104) *)
Definition run_override (c : klass) (cfg : config) : data :=
  match how c with
  | Gcc arch _ => gcc_run_test (passes_with c) arch cfg
  | _ => run_test (passes_with c) cfg
  end.
(** citest.py:43-105: whether the executor makes the run fail; [None]: an exception ends it *)
Definition ci_one (allow_fail : list bytes) (t : tested) : option bool :=
  let counted := negb (existsb (beqb (t_name t)) allow_fail) in
  match t_class t with
  | None => Some true
  | Some c =>
      if negb (t_has_autoconfig t) then Some false
      else
        let judged d :=
          match d with
          | Raises => Some counted
          | Data cfg true _ => if t_versions t then Some false else None
          | Data cfg false msg => if beqb msg (B "Could not find JVM") then Some false else Some counted
          end in
        match t_override t with
        | Some [] => Some false
        | Some cfg => judged (run_override c cfg)
        | None => judged (autoconfig c)
        end
  end.
Fixpoint ci_executors (allow_fail : list bytes) (l : list tested) : option bool :=
  match l with
  | [] => Some false
  | t :: r =>
      match ci_one allow_fail t with
      | None => None
      | Some f => match ci_executors allow_fail r with None => None | Some f' => Some (f || f') end
      end
  end.
(** citest.py:106-119: the exit status, given the number of cases that failed *)
Definition ci_status (allow_fail : list bytes) (l : list tested) (fails : nat) : nat :=
  match ci_executors allow_fail l with
  | None => 1
  | Some failed => if failed || negb (fails =? 0) then 1 else 0
  end.
End Machine.

(** ** What the judge reads back *)
(** config.py ConfigNode.get: [self[key] or default]; the judge's runtime section is a
    ConfigNode (base_executor.py:27), the self-test of auto-configuration uses a dict *)
Definition truthy (v : setting) : bool := match v with Null => false | Str [] => false | Strs [] => false | _ => true end.
Definition node_get (k : bytes) (default : setting) (d : config) : setting :=
  match value k d with Some v => if truthy v then v else default | None => default end.
(** dict.get *)
Definition dict_get (k : bytes) (default : setting) (d : config) : setting :=
  match value k d with Some v => v | None => default end.
(** gcc_executor.py:94-100 *)
Definition march_of (conf : setting) : bytes :=
  match conf with Str (c :: r) => B "-march=" ++ c :: r | _ => [] end.
Definition march_tested (arch : bytes) (d : config) : bytes := march_of (dict_get arch (Str (B "native")) d).
Definition march_judge (arch : bytes) (d : config) : bytes := march_of (node_get arch (Str (B "native")) d).
(** java_executor.py:148-150 *)
Definition mode_of (conf : setting) : bytes := match conf with Str s => B "-" ++ s | _ => B "-" end.
Definition mode_tested (vm : bytes) (d : config) : bytes := mode_of (dict_get (vm ++ B "_mode") (Str (B "client")) d).
Definition mode_judge (vm : bytes) (d : config) : bytes := mode_of (node_get (vm ++ B "_mode") (Str (B "client")) d).
(** base_executor.py:120-131 up to the self-test: get_command, and whether the file is there *)
Definition command_of (command : bytes) (d : config) : option bytes :=
  match value command d with Some (Str c) => Some c | _ => None end.
Definition ready (m : machine) (command : bytes) (d : config) : bool :=
  match command_of command d with Some c => isfile m c | None => false end.

(** ** The command lines of the languages that run on a Java virtual machine *)
(** [res[-2:-1] = new], on a list of at least two *)
Definition splice_before_last {A} (res new : list A) : list A :=
  firstn (List.length res - 2) res ++ new ++ skipn (List.length res - 1) res.
(** [res[-2:] = new] *)
Definition splice_end {A} (res new : list A) : list A := firstn (List.length res - 2) res ++ new.
(** SCALA.py:33-38, GROOVY.py:27-30, KOTLIN.py:29-32; [res]: java_executor.py:97-108
    (Model.Sources.java_args) *)
Definition scala_cmdline (res args : list bytes) : list bytes := splice_before_last res args.
Definition groovy_cmdline (res : list bytes) (class : bytes) (args : list bytes) : list bytes :=
  splice_before_last res ((B "-Dsubmission.file=" ++ class) :: args).
Definition kotlin_cmdline (res : list bytes) (jar : bytes) : list bytes := splice_end res [B "-jar"; jar].
