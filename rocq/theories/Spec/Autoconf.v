(** What auto-configuration promises. *)
From Coq Require Import String.
From Verif Require Import Model.Bytes Spec.Text Model.Autoconf.
Local Open Scope list_scope.

(** ** Finding a program *)
Definition absolute (p : bytes) : Prop := exists r, p = B "/" ++ r.
(** The directories of the search path: what stands between the colons. *)
Fixpoint with_colons (dirs : list bytes) : bytes :=
  match dirs with [] => [] | [d] => d | d :: r => d ++ B ":" ++ with_colons r end.
Definition directories (m : machine) (dirs : list bytes) : Prop :=
  dirs <> [] /\ (forall d, In d dirs -> ~ In 58%N d) /\ search_path m = with_colons dirs.
(** The file [name] in a directory, as a path: the empty directory is the current one. *)
Definition in_dir (d name q : bytes) : Prop :=
  (d = [] /\ q = name) \/ (exists d', d = d' ++ B "/" /\ q = d ++ name) \/ (d <> [] /\ (forall d', d <> d' ++ B "/") /\ q = d ++ B "/" ++ name).
(** The program [name] is at [p]: an absolute name is where it says; another is looked for in
    the current directory and then along the search path. *)
Inductive found (m : machine) (dirs : list bytes) (name p : bytes) : Prop :=
| AsNamed : absolute name -> exists_ m name = true -> p = name -> found m dirs name p
| Here : ~ absolute name -> isfile m name = true -> p = abspath m name -> found m dirs name p
| Along before d after q : ~ absolute name -> isfile m name = false ->
    dirs = before ++ d :: after -> in_dir d name q -> isfile m q = true ->
    (forall d' q', In d' before -> in_dir d' name q' -> isfile m q' = false) ->
    p = abspath m q -> found m dirs name p.
(** Of several candidates the first that is there. *)
Definition resolves (m : machine) (dirs names : list bytes) (p : bytes) : Prop :=
  exists before name after, names = before ++ name :: after /\ found m dirs name p /\
    forall other q, In other before -> ~ found m dirs other q.
(** Every key with its program. *)
Definition assembled (m : machine) (dirs : list bytes) (mp : mapping) (cfg : config) : Prop :=
  Forall2 (fun want got => fst got = fst want /\ exists p, snd got = Str p /\ resolves m dirs (snd want) p) mp cfg.

(** ** Tested settings *)
(** [t] is [cfg] with one more setting. *)
Definition plus (k : bytes) (v : setting) (cfg t : config) : Prop :=
  value k cfg = None /\ value k t = Some v /\ forall k', k' <> k -> value k' t = value k' cfg.
(** The settings with which a test was run for the printed ones: the same, or with the default
    target or mode spelt out. *)
Definition tested_as (f : finder) (cfg t : config) : Prop :=
  t = cfg \/
  match f with
  | Gcc arch _ => plus arch (Str (B "native")) cfg t
  | Javac _ vm _ => plus (vm ++ B "_mode") (Str (B "client")) cfg t
  | _ => False
  end.
Definition works (m : machine) (c : klass) (cfg : config) : Prop := exists msg, autoconfig m c = Data cfg true msg.

(** ** Java *)
Definition jdk (m : machine) (regex : bytes -> bool) (item vm_path compiler_path : bytes) : Prop :=
  exists items home, listdir m (jvm_dir m) = Some items /\ In item items /\ regex item = true /\ in_dir (jvm_dir m) item home /\
    isdir m home = true /\ islink m home = false /\
    (exists bin, in_dir home (B "bin") bin /\ vm_path = bin ++ B "/java" /\ compiler_path = bin ++ B "/javac") /\
    isfile m vm_path = true /\ isfile m compiler_path = true.
Definition modes : list bytes := [B "client"; B "server"; B "dcevm"; B "zero"].
Definition with_mode (vm compiler vm_path compiler_path mode : bytes) : config :=
  [(vm, Str vm_path); (vm ++ B "_mode", Str mode); (compiler, Str compiler_path)].

(** ** Continuous integration *)
(** What came of an executor that is put to the test. *)
Definition outcome (m : machine) (t : tested) (c : klass) : data :=
  match t_override t with Some cfg => run_override c cfg | None => autoconfig m c end.
(** An executor does not make the run fail. *)
Definition acceptable (m : machine) (allow_fail : list bytes) (t : tested) : Prop :=
  exists c, t_class t = Some c /\
    (t_has_autoconfig t = false \/ t_override t = Some [] \/
     (exists cfg msg, outcome m t c = Data cfg true msg /\ t_versions t = true) \/
     (exists cfg, outcome m t c = Data cfg false (B "Could not find JVM")) \/
     ((forall cfg msg, outcome m t c <> Data cfg true msg) /\ In (t_name t) allow_fail)).

(** ** Launchers *)
(** The command a traced shell script ends in: the last line of the trace that contains [marker],
    without the signs that show the depth of the trace, as words. *)
Definition has (p s : bytes) : Prop := exists a b, s = a ++ p ++ b.
Definition last_command (marker trace : bytes) (ws : list bytes) : Prop :=
  exists before line after signs cmd, cut (N.eqb 10) trace = before ++ line :: after /\
    has marker line /\ (forall l, In l after -> ~ has marker l) /\
    line = signs ++ cmd /\ Forall (fun c => c = 43%N \/ c = 32%N) signs /\ (forall c r, cmd = c :: r -> c <> 43%N /\ c <> 32%N) /\
    ws = words cmd.
(** An option for the size of the heap. *)
Definition heap_option (a : bytes) : bool := (starts_with (B "-Xmx") a || starts_with (B "-Xms") a)%bool.
(** Java as the launcher of a language starts it: the words before it, it, its options and the main class, and
    last what the launcher was asked. *)
Definition launched (m : machine) (dirs : list bytes) (script marker : bytes) (flags : list bytes) (skipped : nat) (java : bytes) (options : list bytes) : Prop :=
  exists path out pre name asked, resolves m dirs [script] path /\ trace m path flags = Some out /\
    (last_command marker out (pre ++ name :: options ++ [asked]) \/ (last_command marker out (pre ++ [name]) /\ options = [])) /\
    length pre = skipped /\ resolves m dirs [name] java /\ readable m java = true.
