(** The file rules of each shipped executor: the [fs] and [write_fs] attributes and the
    get_fs and get_write_fs methods in dmoj/executors/.  Linux side. *)
From Coq Require Import String.
From Verif Require Import Model.Bytes Model.Regex Model.Access.
Local Open Scope list_scope.

(** What the rules of a submission depend on besides the language: its directory and source
    file, the judge's home directory, configured paths, and which commands are installed. *)
Record place := {
  directory : list N;                 (** self._dir *)
  code : list N;                      (** self._code *)
  user_home : list N;                 (** expanduser's home directory, without slashes at its end *)
  runtime_home : option (list N);     (** runtime_dict's LANGUAGE_home *)
  tool : list N;                      (** runtime_dict['coffee']; the Java agent *)
  program : list N;                   (** self._executable, for assembly under qemu *)
  qemu : bool;                        (** use_qemu *)
  commands : list (option (list N))   (** shell_executor.py:15-16 get_allowed_exec *)
}.
Definition is_one (name : string) (l : list string) : bool := existsb (String.eqb name) l.
Definition scripts : list string :=
  ["AWK"; "BASH"; "COFFEE"; "FORTH"; "LUA"; "PERL"; "PHP"; "PIKE"; "PRO"; "RUBY2"; "SED"; "TCL"; "TEXT"; "V8JS"]%string.
Definition assemblers : list string := ["GAS32"; "GAS64"; "GASARM"; "NASM"; "NASM64"]%string.
Definition jvms : list string := ["GROOVY"; "JAVA10"; "JAVA11"; "JAVA15"; "JAVA8"; "JAVA9"; "KOTLIN"; "SCALA"]%string.
Definition monos : list string := ["MONOCS"; "MONOFS"; "MONOVB"]%string.

(** The [fs] attribute: DART.py:19, FORTH.py:13, PERL.py:8, PHP.py:10, RKT.py:9-10,
    RUBY2.py:15, SWIFT.py:8, mono_executor.py:35; otherwise mixins.py:59 *)
Definition class_fs (name : string) (pl : place) : list (list N) :=
  if is_one name ["DART"]%string then [B ".*/vm-service$"]
  else if is_one name ["FORTH"]%string then [B "/\.gforth-history$"]
  else if is_one name ["PERL"]%string then [B "/etc/perl/.*?"]
  else if is_one name ["PHP"]%string then [B ".*/php[\w-]*\.ini$"; B ".*/conf.d/.*\.ini$"]
  else if is_one name ["RKT"]%string
       then [user_home pl ++ B "/\.racket/"; user_home pl ++ B "/\.local/share/racket/"; B "/etc/racket/.*?"; B "/etc/passwd$"]
  else if is_one name ["RUBY2"]%string then [B "/proc/self/loginuid$"]
  else if is_one name ["SWIFT"]%string then [B "/lib"]
  else if is_one name monos then [B "/etc/mono/"]
  else [].
(** script_executor.py:25-30 *)
Definition script_fs (pl : place) : list (list N) :=
  code pl :: match runtime_home pl with Some home => [escape home] | None => [] end.
(** str.split('/') *)
Fixpoint split_slash (s : list N) : list (list N) :=
  match s with
  | [] => [[]]
  | c :: r => if (c =? 47)%N then [] :: split_slash r
              else match split_slash r with w :: t => (c :: w) :: t | [] => [[c]] end
  end.
(** '/'.join of a list given in reverse *)
Fixpoint join_rev (l : list (list N)) : list N :=
  match l with [] => [] | [x] => x | x :: r => join_rev r ++ 47%N :: x end.
(** RUBY2.py:24-26: the loop, on the components in reverse *)
Fixpoint parents (l : list (list N)) : list (list N) :=
  match l with
  | [] => []
  | [] :: _ => []
  | _ :: r => (escape (join_rev l) ++ B "$") :: parents r
  end.
(** RUBY2.py:17-27 *)
Definition ruby_fs (pl : place) : list (list N) :=
  match runtime_home pl with
  | Some home => escape home :: parents (tl (rev (split_slash home)))
  | None => []
  end.
(** shell_executor.py:18-19.  A command that is not installed puts None among the rules: the
    handler raises when it calls None.format, as it does for this rule, which
    str.format does not accept. *)
Definition command_fs (c : option (list N)) : list N := match c with Some w => w | None => B "{" end.
(** what the get_fs methods add: ScriptExecutor, COFFEE.py:40-41, ShellExecutor, RUBY2.py,
    OBJC.py:36-37, TUR.py:17-18, asm_executor.py:82-86, java_executor.py:83-84 *)
Definition added_fs (name : string) (pl : place) : list (list N) :=
  (if is_one name scripts then script_fs pl else [])
  ++ (if is_one name ["COFFEE"]%string then [tool pl; code pl] else [])
  ++ (if is_one name ["BASH"]%string then map command_fs (commands pl) else [])
  ++ (if is_one name ["RUBY2"]%string then ruby_fs pl else [])
  ++ (if is_one name ["OBJC"]%string then [B "/proc/\d+/cmdline$"] else [])
  ++ (if is_one name ["TUR"]%string then [code pl ++ B "bc"] else [])
  ++ (if is_one name assemblers && qemu pl
      then [B "/proc/sys/vm/mmap_min_addr$"; B "/etc/qemu-binfmt/"; program pl] else [])
  ++ (if is_one name jvms then [tool pl] else []).
(** get_fs, with the configured extra_fs *)
Definition language_fs (name : string) (pl : place) (extra : list (list N)) : list (list N) :=
  get_fs (class_fs name pl) extra (directory pl) ++ added_fs name pl.
(** get_write_fs: mixins.py:81-82, java_executor.py:86-87 (os.path.join of a directory
    without a slash at its end) *)
Definition language_write_fs (name : string) (pl : place) : list (list N) :=
  get_write_fs [] ++ (if is_one name jvms then [directory pl ++ B "/submission_jvm_crash.log"] else []).
Definition language_tracer (name : string) (pl : place) (extra : list (list N)) : tracer :=
  fresh (language_fs name pl extra) (language_write_fs name pl).
