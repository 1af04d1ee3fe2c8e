(** Starting a judge: dmoj/judgeenv.py load_env, dmoj/judge.py sanity_check, make_host_port
    and the beginning of main.  argparse itself is not modelled: [args] is what it parsed. *)
From Coq Require Import String.
From Verif Require Import Model.Bytes Model.Paths Model.Roots Model.Executors Model.Access Model.Config.
Local Open Scope list_scope.
Local Open Scope Z_scope.

(** judgeenv.py:16-41: the settings of a judge without configuration *)
Definition defaults : dict :=
  [(B "selftest_time_limit", VInt 10); (B "selftest_memory_limit", VInt 131072);
   (B "generator_compiler_time_limit", VInt 30); (B "generator_time_limit", VInt 20); (B "generator_memory_limit", VInt 524288);
   (B "compiler_time_limit", VInt 10); (B "compiler_size_limit", VInt 131072); (B "compiler_output_character_limit", VInt 65536);
   (B "compiled_binary_cache_dir", Null); (B "compiled_binary_cache_size", VInt 100);
   (B "runtime", VDict []); (B "extra_fs", VDict []); (B "update_pings", VList []); (B "tempdir", Null)].

(** The parsed command line.  Which of these options exist depends on the program
    (judgeenv.py:63-118); the others are not looked at. *)
Record args := Args {
  server_host : bytes; judge_name : option bytes; judge_key : option bytes; server_port : Z;   (* the judge *)
  command : list bytes; history : bytes;                                                      (* the command line *)
  config : path;
  log_file : option bytes; no_watchdog : bool; api_port : option Z; api_host : bytes;
  secure : bool; no_certificate_check : bool; trusted_certificates : option bytes;            (* the judge *)
  only_executors : option bytes; exclude_executors : option bytes; no_ansi : bool; skip_self_test : bool;
  tests_dir : path; problem_regex : option bytes; case_regex : option bytes                   (* the test suite *)
}.
(** load_env(), load_env(cli=True), load_env(cli=True, testsuite=True): judge.py:576, cli.py:78,
    testsuite.py:278 *)
Inductive program := TheJudge | Shell | Testsuite.
Definition is_cli (p : program) : bool := match p with TheJudge => false | _ => true end.
Definition is_testsuite (p : program) : bool := match p with Testsuite => true | _ => false end.

(** open and yaml.safe_load: the file cannot be opened or read (IOError); it is not YAML;
    the document. *)
Inductive file := NoFile | NotYaml | Doc (v : value).
Record world := World {
  docker : bool;                             (* DMOJ_IN_DOCKER is set and not empty *)
  opened : path -> file;
  expand : path -> path;                     (* os.path.expanduser *)
  tree : fs;
  int_of : bytes -> option Z;                (* int(), [None]: ValueError *)
  compiles : bytes -> bool                   (* does re.compile accept the pattern? *)
}.

(** dict.update; [None]: TypeError or ValueError.  Simplification: a list of pairs, which
    dict.update also takes, counts as an error. *)
Definition dict_update (e : dict) (d : dict) : dict := fold_left (fun e kv => store (fst kv) (snd kv) e) d e.
Definition env_update (e : dict) (v : value) : option dict :=
  match v with VDict d => Some (dict_update e d) | VList [] => Some e | _ => None end.
(** config.py:83-84, 86-120: env.key for the top node, which has no dynamic keys:
    the name as it is, or with hyphens. *)
Definition env_item (e : dict) (k : bytes) : value := match find k e with Some v => v | None => Null end.
Definition env_attr (e : dict) (k : bytes) : value :=
  match env_item e k with Null => env_item e (hyphens k) | v => v end.

(** problem_dirs as the loops over it see it (judgeenv.py:237-275): [None]: they raise TypeError
    or InvalidInitException. *)
Definition depths (int_of : bytes -> option Z) (d : dict) : option (list (option Z * path)) :=
  fold_right (fun kv r => match snd kv, r with VStr p, Some l => Some ((int_of (fst kv), p) :: l) | _, _ => None end) (Some []) d.
Definition entry_of (int_of : bytes -> option Z) (v : value) : option entry :=
  match v with
  | VStr p => Some (Roots.One p)
  | VDict d => option_map Roots.Depths (depths int_of d)
  | VList [] => Some (Roots.Depths [])
  | _ => None
  end.
Definition dirs_of (int_of : bytes -> option Z) (v : value) : option dirs :=
  match v with
  | VStr p => Some (Roots.Str p)
  | VList l => option_map Roots.Node (fold_right (fun v r => match entry_of int_of v, r with Some e, Some l => Some (e :: l) | _, _ => None end) (Some []) l)
  | VDict d => Some (Roots.Node (map (fun kv => Roots.One (fst kv)) d))
  | _ => None
  end.
(** judgeenv.py:176-188: the directories to watch *)
Definition watches (root : path) (d : dirs) : list path :=
  match d with
  | Roots.Plain l => map (get_path root) l
  | Roots.Str p => [get_path root p]
  | Roots.Node l => flat_map (fun e => match e with Roots.One p => [get_path root p] | Roots.Depths m => map (fun dp => get_path root (snd dp)) m end) l
  end.

(** What load_env leaves behind.  [roots]: _problem_dirs_cache, [None] if cleared. *)
Record state := State {
  s_env : dict; s_host : option bytes; s_port : option Z; s_command : list bytes; s_history : option bytes;
  s_no_ansi : bool; s_skip_self_test : bool; s_no_watchdog : bool;
  s_api : option (bytes * Z); s_secure : bool; s_no_cert_check : bool; s_cert_store : option bytes;
  s_log_file : option bytes; s_only : list bytes; s_exclude : list bytes;
  s_dirs : dirs; s_roots : option (list path); s_watches : list path; s_warned : list warning;
  s_problem_regex : option bytes; s_case_regex : option bytes
}.
(** SystemExit with a message, or any other exception *)
Inductive refusal := NoStorageRoot | InvalidTestsDir | InvalidProblemRegex | InvalidCaseRegex.
Inductive loaded := Loaded (s : state) | Exits (r : refusal) | Raises.

Definition given {A} (o : option (list A)) : bool := match o with Some (_ :: _) => true | _ => false end.
Definition override (k : bytes) (o : option bytes) (e : dict) : dict :=
  match o with Some (c :: r) => store k (VStr (c :: r)) e | _ => e end.
(** judgeenv.py:130-131,143-145: where the HTTP interface listens *)
Definition api_listen (p : program) (w : world) (a : args) : option (bytes * Z) :=
  if is_cli p then None
  else
    let asked := match api_port a with Some n => if n =? 0 then None else Some (api_host a, n) | None => None end in
    if docker w then Some (match asked with Some x => x | None => (B "0.0.0.0", 9998) end) else asked.
(** judgeenv.py:142-171: the environment, and the value of problem_dirs: [inl]: the list of the
    Docker image, [inr v]: env.problem_storage_root *)
Inductive configured := Fine (e : dict) (d : path + value) | Stops (r : refusal) | Fails.
Definition read_config (p : program) (w : world) (a : args) (e : dict) : configured :=
  match opened w (expand w (config a)) with
  | NotYaml => Fails
  | NoFile => if docker w then Fine e (inl (B "/problems")) else Fails
  | Doc v =>
      match env_update e v with
      | None => Fails
      | Some e1 =>
          let e2 := if is_cli p then e1 else override (B "key") (judge_key a) (override (B "id") (judge_name a) e1) in
          match env_attr e2 (B "problem_storage_root") with
          | Null => if is_testsuite p then Fine e2 (inr Null) else Stops NoStorageRoot
          | d => Fine e2 (inr d)
          end
      end
  end.
Definition configure (p : program) (w : world) (a : args) : configured :=
  if docker w then
    match opened w (B "/judge-runtime-paths.yml") with
    | Doc v => match env_update defaults v with Some e => read_config p w a e | None => Fails end
    | _ => Fails
    end
  else read_config p w a defaults.

Section Load.
  (** _root: the directory of the package *)
  Variable root : path.
  Definition problem_dirs_of (w : world) (d : path + value) : option dirs :=
    match d with inl p => Some (Roots.Plain [p]) | inr v => dirs_of (int_of w) v end.
  (** judgeenv.py:55-207 *)
  Definition load_env (p : program) (w : world) (a : args) : loaded :=
    match configure p w a with
    | Fails => Raises
    | Stops r => Exits r
    | Fine e d =>
        match problem_dirs_of w d with
        | None => Raises
        | Some ds =>
            match scan root (tree w) ds true with
            | None => Raises
            | Some (found, ws) =>
                let s ds' roots pr cr := State e
                  (if is_cli p then None else Some (server_host a)) (if is_cli p then None else Some (server_port a))
                  (match p with Shell => command a | _ => [] end)
                  (match p with Shell => match history a with [] => Some [] | h => Some (expand w h) end | _ => None end)
                  (no_ansi a) (skip_self_test a) (if is_cli p then true else no_watchdog a)
                  (api_listen p w a)
                  (if is_cli p then false else secure a) (if is_cli p then false else no_certificate_check a)
                  (if is_cli p then None else trusted_certificates a)
                  (if is_cli p then None else log_file a)
                  (option_set (only_executors a)) (option_set (exclude_executors a))
                  ds' roots (watches root ds) ws pr cr in
                match p with
                | Testsuite =>
                    if negb (isdir (tree w) (tests_dir a)) then Exits InvalidTestsDir
                    else if given (problem_regex a) && negb (match problem_regex a with Some r => compiles w r | None => true end) then Exits InvalidProblemRegex
                    else if given (case_regex a) && negb (match case_regex a with Some r => compiles w r | None => true end) then Exits InvalidCaseRegex
                    else Loaded (s (Roots.Plain [tests_dir a]) None
                                   (if given (problem_regex a) then problem_regex a else None) (if given (case_regex a) then case_regex a else None))
                | _ => Loaded (s (match ds with Roots.Str q => Roots.Plain [q] | other => other end) (Some found) None None)
                end
            end
        end
    end.
End Load.

(** ** judge.py *)
(** What sanity_check looks at.  [jit]: the contents of bpf_jit_enable, if it exists. *)
Record machine := Machine { windows : bool; cptbox : bool; uid : N; jit : option bytes; native_checker : bool }.
Inductive caution := NoJit | NoNativeChecker.
(** judge.py:520-557: the answer and the warnings *)
Definition sanity_check (m : machine) : bool * list caution :=
  if windows m then (false, [])
  else if negb (cptbox m) then (false, [])
  else if N.eqb (uid m) 0 then (false, [])
  else (true, (match jit m with Some s => if beqb (py_strip s) (B "1") then [] else [NoJit] | None => [] end)
              ++ (if native_checker m then [] else [NoNativeChecker])).

(** '%s' of an int *)
Definition signed_decimal (z : Z) : bytes := if z <? 0 then B "-" ++ decimal (Z.to_N (- z)) else decimal (Z.to_N z).
(** judge.py:560-564 *)
Definition make_host_port (host : bytes) (port : Z) (tls : bool) : bytes :=
  (if existsb (N.eqb 58) host then B "[" ++ host ++ B "]" else host) ++ B ":" ++ signed_decimal port ++ (if tls then B "s" else []).

(** What main sets up before it listens: the connection (judge.py:515-517, 600-606: host, port,
    name, key, secure, no_cert_check, cert_store), the HTTP interface (judge.py:617-628) and the
    directories the monitor watches (monitor.py:64-79).  The log file and the title of the
    process are left out. *)
Record launch := Launch {
  to_host : option bytes; to_port : option Z; name : value; key : value;
  tls : bool; unchecked : bool; store_file : option bytes; api : option (bytes * Z); watched : list path
}.
Inductive begun := Begun (l : launch) (cautions : list caution) | Unsafe (* exit status 1 *) | Quits (r : refusal) | Dies.
(** judge.py:567-608 *)
Definition main (root : path) (m : machine) (has_observer : bool) (w : world) (a : args) : begun :=
  match sanity_check m with
  | (false, _) => Unsafe
  | (true, cautions) =>
      match load_env root TheJudge w a with
      | Raises => Dies
      | Exits r => Quits r
      | Loaded s =>
          Begun (Launch (s_host s) (s_port s) (env_item (s_env s) (B "id")) (env_item (s_env s) (B "key"))
                   (s_secure s) (s_no_cert_check s) (s_cert_store s) (s_api s)
                   (if has_observer && negb (s_no_watchdog s) then s_watches s else [])) cautions
      end
  end.
