(** Launching a submission: what dmoj/executors/mixins.py:90-139 (launch) asks the sandbox for,
    what dmoj/cptbox/tracer.py:90-133 and _cptbox.pyx:455-491 (_spawn) make of it, what the
    child does with it before the program starts (ptproc.cpp:68-79, helper.cpp:42-141), and the
    buffering of the standard streams (dmoj/utils/setbufsize.c).  Linux side. *)
From Coq Require Import String.
From Verif Require Import Model.Bytes Model.Child.
From Verif Require Model.Access.
Local Open Scope list_scope.
Local Open Scope nat_scope.

(** ** The environment *)
(** A value in an environment dict: None, an int that is not negative, or a str (as UTF-8). *)
Inductive value := NoValue | Num (n : N) | Text (s : bytes).
Definition dict := list (bytes * value).
(** dict[k] = v *)
Fixpoint put (k : bytes) (v : value) (d : dict) : dict :=
  match d with
  | [] => [(k, v)]
  | (k', v') :: r => if beqb k k' then (k', v) :: r else (k', v') :: put k v r
  end.
(** dict.update *)
Definition update (d new : dict) : dict := fold_left (fun d kv => put (fst kv) (snd kv) d) new d.

(** The executors' get_env (mixins.py:90-94, gcc_executor.py:79-82, mono_executor.py:48-55,
    script_executor.py:46-52, shell_executor.py:41-44).  [locale] is UTF8_LOCALE
    (mixins.py:48-51). *)
Inductive kind :=
| Base
| Gcc (gcc_env : dict)                 (* runtime.gcc_env or {} *)
| Mono
| Script (own : dict)                  (* runtime's <name>_env, empty if there is none *)
| Shell (path : bytes).                (* the judge's PATH *)
Definition base_env (locale : bytes) (unbuffered : bool) : dict :=
  (B "LANG", Text locale) :: (if unbuffered then [(B "CPTBOX_STDOUT_BUFFER_SIZE", Num 0)] else []).
Definition get_env (k : kind) (locale : bytes) (unbuffered : bool) : dict :=
  let e := base_env locale unbuffered in
  match k with
  | Base => e
  | Gcc g => update e g
  | Mono => put (B "MONO_CRASH_NOFILE") (Text (B "1")) (put (B "MONO_DISABLE_SHARED_AREA") (Text (B "1")) e)
  | Script own => update e own
  | Shell path => put (B "PATH") (Text path) e
  end.

(** What the caller of launch gives; the streams and limits go to Model/Child.v. *)
Record options := { stdout_buffer_size : value; stderr_buffer_size : value }.
(** mixins.py:111-119; [ld] is the judge's LD_LIBRARY_PATH, [agent] the copy of setbufsize.so in
    the submission's directory. *)
Definition launch_env (ld : option bytes) (agent : bytes) (o : options) (own : dict) : dict :=
  update [(B "LD_LIBRARY_PATH", Text (match ld with Some s => s | None => [] end));
          (B "LD_PRELOAD", Text agent);
          (B "CPTBOX_STDOUT_BUFFER_SIZE", stdout_buffer_size o);
          (B "CPTBOX_STDERR_BUFFER_SIZE", stderr_buffer_size o)] own.
(** '%s=%s' % (arg, val), for values that are not None (tracer.py:115-119) *)
Definition show (v : value) : option bytes :=
  match v with NoValue => None | Num n => Some (Model.Access.decimal n) | Text s => Some s end.
Definition env_list (d : dict) : list bytes :=
  flat_map (fun kv => match show (snd kv) with Some s => [fst kv ++ 61%N :: s] | None => [] end) d.
(** tracer.py:115-119: without an environment of its own, that of the judge *)
Definition popen_env (given : option dict) (judge : dict) : list bytes :=
  env_list (match given with Some d => d | None => judge end).
(** A bytes object assigned to a char * (_cptbox.pyx alloc_byte_array): up to the first NUL. *)
Fixpoint c_string (s : bytes) : bytes := match s with [] => [] | c :: r => if (c =? 0)%N then [] else c :: c_string r end.

(** ** The command *)
(** mixins.py:122-123 *)
Definition launch_args (cmdline args : list bytes) : list bytes := cmdline ++ args.
(** utils/os_ext.py:39-48, for a str; [abspath] of a relative path, [access] is os.access(p, X_OK);
    [None] = OSError *)
Definition starts_slash (p : bytes) : bool := match p with c :: _ => (c =? 47)%N | [] => false end.
Definition join (dir p : bytes) : bytes :=
  match rev dir with [] => p | c :: _ => if (c =? 47)%N then dir ++ p else dir ++ 47%N :: p end.
Definition find_exe_in_path (abspath : bytes -> bytes) (access : bytes -> bool) (path_dirs : list bytes) (p : bytes) : option bytes :=
  if starts_slash p then Some p
  else if existsb (N.eqb 47) p then Some (abspath p)
  else find access (map (fun d => join d p) path_dirs).

(** ** _spawn *)
Record child_setup := {
  file : bytes; argv : list bytes; envp : list bytes; dir : bytes;
  fd_in : Z; fd_out : Z; fd_err : Z;
  limits_of : Child.config;
  persona : N;
  use_seccomp : bool;
  whitelisted : N -> bool             (* the seccomp whitelist, for calls below [max_syscall] *)
}.
(** MAX_SYSCALL (ptbox.h:16) *)
Definition max_syscall : nat := 568.
(** tracer.py:111, ptproc.cpp:98-105: [built] is PTBOX_SECCOMP *)
Definition wants_seccomp (built has_security avoid : bool) : bool := built && (has_security && negb avoid).
(** _cptbox.pyx:455-491 *)
Definition spawn_setup (executable : bytes) (args : list bytes) (env : list bytes) (cwd : bytes)
  (i o e : Z) (c : Child.config) (p : N) (seccomp : bool) (wl : N -> bool) : child_setup :=
  {| file := c_string executable; argv := map c_string args; envp := map c_string env; dir := c_string cwd;
     fd_in := i; fd_out := o; fd_err := e; limits_of := c; persona := p; use_seccomp := seccomp; whitelisted := wl |}.

(** ** The child *)
(** What the system answers.  [close_rest] is cptbox_closefrom(3) (Model/Child.v). *)
Record system := {
  fork_ok : bool;
  nnp_ok : bool;                       (* prctl(PR_SET_NO_NEW_PRIVS) *)
  traceme_ok : bool;
  init_ok : bool;                      (* seccomp_init *)
  rule_ok : N -> bool;                 (* seccomp_rule_add; a refusal is only printed *)
  load_ok : bool;                      (* seccomp_load *)
  personality_ok : bool;               (* not looked at *)
  chdir_ok : bytes -> bool;            (* not looked at *)
  execve_ok : bool;
  privileged : bool;
  close_rest : Child.table -> Child.table
}.
Record process := {
  own_group : bool;
  persona_set : option N;
  no_new_privs : bool;
  fds : Child.table;
  traced : bool;
  stops : nat;                         (* times it stopped itself for the tracer *)
  filter : option (N -> bool);         (* native calls the loaded filter lets run unseen; others trap *)
  rlimits : Child.rlimits;
  cwd : bytes
}.
Inductive outcome :=
| NotForked                            (* spawn returns 1: RuntimeError('failed to spawn child') *)
| Exits (code : Z) (p : process)
| Runs (f : bytes) (a e : list bytes) (p : process).
Definition FAIL_NO_NEW_PRIVS : Z := 202.
Definition FAIL_SECCOMP : Z := 203.
Definition FAIL_TRACEME : Z := 204.
Definition FAIL_EXECVE : Z := 205.

Section Run.
  Variable s : system.
  Variable c : child_setup.
  (** helper.cpp:92-99: rules for the whitelisted calls in order; the ones refused still trap.
      Adding the other architectures (84-89) does not change the native one. *)
  Fixpoint add_rules (n : nat) : N -> bool :=
    match n with
    | 0 => fun _ => false
    | S k => fun call =>
        if (call =? N.of_nat k)%N then (if whitelisted c (N.of_nat k) then rule_ok s (N.of_nat k) else false)
        else add_rules k call
    end.
  (** helper.cpp:112-141, once the filter is in place: the limits, the directory, the last two
      limits (none of them depends on the directory), execve *)
  Definition finish (p : process) : outcome :=
    let p := {| own_group := own_group p; persona_set := persona_set p; no_new_privs := no_new_privs p; fds := fds p; traced := traced p;
                stops := stops p; filter := filter p;
                rlimits := Child.apply_limits (privileged s) (limits_of c) (rlimits p);
                cwd := match dir c with [] => cwd p | d => if chdir_ok s d then d else cwd p end |} in
    if execve_ok s then Runs (file c) (argv c) (envp c) p else Exits FAIL_EXECVE p.
  (** helper.cpp:74-107 *)
  Definition load_filter (p : process) : outcome :=
    if use_seccomp c then
      if init_ok s then
        if load_ok s then
          finish {| own_group := own_group p; persona_set := persona_set p; no_new_privs := no_new_privs p; fds := fds p; traced := traced p;
                    stops := stops p; filter := Some (add_rules max_syscall); rlimits := rlimits p; cwd := cwd p |}
        else Exits FAIL_SECCOMP p
      else Exits FAIL_SECCOMP p
    else finish p.
  (** helper.cpp:42-72 *)
  Definition child_run (p : process) : outcome :=
    let p := {| own_group := own_group p;
                persona_set := if (0 <? persona c)%N && personality_ok s then Some (persona c) else persona_set p;
                no_new_privs := no_new_privs p; fds := fds p; traced := traced p; stops := stops p; filter := filter p; rlimits := rlimits p; cwd := cwd p |} in
    if nnp_ok s then
      let p := {| own_group := own_group p; persona_set := persona_set p; no_new_privs := true;
                  fds := close_rest s (Child.wire (fds p) (fd_in c) (fd_out c) (fd_err c));
                  traced := traced p; stops := stops p; filter := filter p; rlimits := rlimits p; cwd := cwd p |} in
      if traceme_ok s then
        load_filter {| own_group := own_group p; persona_set := persona_set p; no_new_privs := no_new_privs p; fds := fds p; traced := true;
                       stops := S (stops p); filter := filter p; rlimits := rlimits p; cwd := cwd p |}
      else Exits FAIL_TRACEME p
    else Exits FAIL_NO_NEW_PRIVS p.
  (** ptproc.cpp:68-79: the child starts as a copy of the judge *)
  Definition spawn (judge : process) : outcome :=
    if fork_ok s then
      child_run {| own_group := true; persona_set := persona_set judge; no_new_privs := no_new_privs judge; fds := fds judge; traced := traced judge;
                   stops := stops judge; filter := filter judge; rlimits := rlimits judge; cwd := cwd judge |}
    else NotForked.
End Run.

(** tracer.py:185-201: what the exit code of a process that did not start means. *)
Inductive wait_error := NoNewPrivs | Seccomp | Traceme | Execve | UnknownCode (code : Z).
Definition wait_error_of (code : Z) : option wait_error :=
  if (code =? FAIL_NO_NEW_PRIVS)%Z then Some NoNewPrivs
  else if (code =? FAIL_SECCOMP)%Z then Some Seccomp
  else if (code =? FAIL_TRACEME)%Z then Some Traceme
  else if (code =? FAIL_EXECVE)%Z then Some Execve
  else if (0 <=? code)%Z then Some (UnknownCode code)
  else None.

(** ** setbufsize.c *)
(** strtoul(s, &end, 10): the number, and what is left; with no digits, 0 and the whole string.
    A minus sign negates in 64 bits; a value that does not fit gives the largest one. *)
Fixpoint skip_space (s : bytes) : bytes := match s with c :: r => if py_isspace c then skip_space r else s | [] => [] end.
Fixpoint digits_value (s : bytes) (acc : N) : N * bytes :=
  match s with
  | c :: r => if ((48 <=? c) && (c <=? 57))%N then digits_value r (10 * acc + (c - 48))%N else (acc, s)
  | [] => (acc, [])
  end.
Definition strtoul (s : bytes) : N * bytes :=
  let t := skip_space s in
  let '(neg, t) := match t with c :: r => if (c =? 45)%N then (true, r) else if (c =? 43)%N then (false, r) else (false, t) | [] => (false, t) end in
  match t with
  | c :: _ =>
      if ((48 <=? c) && (c <=? 57))%N then
        let '(n, rest) := digits_value t 0 in
        ((if (INFINITY <? n)%N then INFINITY else if neg then ((2 ^ 64 - n) mod 2 ^ 64)%N else n), rest)
      else (0%N, s)
  | [] => (0%N, s)
  end.
Inductive buffering := Untouched | Full (size : N) | Unbuffered.
(** setbufsize.c:6-21; getenv takes the first entry of that name *)
Fixpoint getenv (name : bytes) (env : list bytes) : option bytes :=
  match env with
  | [] => None
  | e :: r => if beqb (firstn (S (length name)) e) (name ++ [61%N]) then Some (skipn (S (length name)) e) else getenv name r
  end.
Definition setbuffer (name : bytes) (env : list bytes) : buffering :=
  match getenv name env with
  | None => Untouched
  | Some v => let '(n, rest) := strtoul v in
              match rest with [] => if (n =? 0)%N then Unbuffered else Full n | _ => Untouched end
  end.
