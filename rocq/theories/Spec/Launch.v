(** What launching a submission promises. *)
From Coq Require Import String.
From Verif Require Import Model.Bytes Model.Child Model.Launch.
Local Open Scope list_scope.
Local Open Scope nat_scope.

(** ** The environment *)
(** What a list of settings says about a variable. *)
Fixpoint says (d : dict) (x : bytes) : option value :=
  match d with [] => None | (k, v) :: r => if beqb x k then Some v else says r x end.
(** Settings of a configuration: no name twice, and nothing that C strings cannot carry. *)
Definition proper (d : dict) : Prop :=
  NoDup (map fst d) /\ forall k v, In (k, v) d -> ~ In 61%N k /\ ~ In 0%N k /\ (forall s, v = Text s -> ~ In 0%N s).
(** The settings of an executor, the strongest first: what the configuration or the kind of
    executor adds, then what all executors have, then what the launch says. *)
Definition added (k : kind) : dict :=
  match k with
  | Base => []
  | Gcc g => g
  | Mono => [(B "MONO_DISABLE_SHARED_AREA", Text (B "1")); (B "MONO_CRASH_NOFILE", Text (B "1"))]
  | Script own => own
  | Shell path => [(B "PATH", Text path)]
  end.
Definition common (locale : bytes) (unbuffered : bool) : dict :=
  if unbuffered then [(B "LANG", Text locale); (B "CPTBOX_STDOUT_BUFFER_SIZE", Num 0)] else [(B "LANG", Text locale)].
Definition of_launch (ld : option bytes) (agent : bytes) (o : options) : dict :=
  [(B "LD_LIBRARY_PATH", Text (match ld with Some s => s | None => [] end)); (B "LD_PRELOAD", Text agent);
   (B "CPTBOX_STDOUT_BUFFER_SIZE", stdout_buffer_size o); (B "CPTBOX_STDERR_BUFFER_SIZE", stderr_buffer_size o)].
Definition first {A} (a b : option A) : option A := match a with Some x => Some x | None => b end.
Definition variable (k : kind) locale unbuffered ld agent o (x : bytes) : option value :=
  first (says (added k) x) (first (says (common locale unbuffered) x) (says (of_launch ld agent o) x)).
(** The text of a value; a variable set to nothing is absent. *)
Definition text (v : option value) : option bytes :=
  match v with Some (Num n) => Some (Model.Access.decimal n) | Some (Text s) => Some s | _ => None end.

(** ** The path *)
(** The file [name] in a directory of the path, as a path: the empty directory is the current
    one. *)
Definition sits (d name q : bytes) : Prop :=
  (d = [] /\ q = name) \/ (exists d', d = d' ++ B "/" /\ q = d ++ name) \/ (d <> [] /\ (forall d', d <> d' ++ B "/") /\ q = d ++ B "/" ++ name).

(** ** Buffering *)
(** A size: none, or a number of bytes an unsigned long can hold. *)
Definition size (v : value) : Prop := match v with NoValue => True | Num n => (n <= 18446744073709551615)%N | Text _ => False end.
(** Zero asks for no buffering, another number for a full buffer of that size. *)
Definition as_asked (v : value) : buffering :=
  match v with Num n => if (n =? 0)%N then Unbuffered else Full n | _ => Untouched end.

(** ** The program's process *)
(** The filter keeps nothing from the tracer but calls of the whitelist. *)
Definition sees_all_but (wl : N -> bool) (f : N -> bool) : Prop := forall call, f call = true -> wl call = true /\ (call < 568)%N.
(** What holds of the process when the program starts. *)
Record confined (sys : system) (c : child_setup) (judge p : process) : Prop := {
  its_group : own_group p = true;
  is_traced : traced p = true;
  has_stopped : stops p = S (stops judge);
  gains_nothing : no_new_privs p = true;
  is_filtered : use_seccomp c = true -> exists f, filter p = Some f /\ sees_all_but (whitelisted c) f;
  is_limited : rlimits p = apply_limits (privileged sys) (limits_of c) (rlimits judge);
  has_streams : fds p = close_rest sys (wire (fds judge) (fd_in c) (fd_out c) (fd_err c));
  has_persona : persona_set p = (if (persona c =? 0)%N then persona_set judge else if personality_ok sys then Some (persona c) else persona_set judge);
  is_in_place : dir c <> [] -> chdir_ok sys (dir c) = true -> cwd p = dir c
}.
(** The first thing that fails, if anything does. *)
Inductive failure := Fork | NewPrivs | Tracing | Filtering | Executing.
Definition fails (sys : system) (c : child_setup) (f : failure) : Prop :=
  match f with
  | Fork => fork_ok sys = false
  | NewPrivs => nnp_ok sys = false
  | Tracing => traceme_ok sys = false
  | Filtering => use_seccomp c = true /\ (init_ok sys = false \/ load_ok sys = false)
  | Executing => execve_ok sys = false
  end.
Definition order : list failure := [Fork; NewPrivs; Tracing; Filtering; Executing].
Definition first_failure (sys : system) (c : child_setup) (f : failure) : Prop :=
  exists before after, order = before ++ f :: after /\ fails sys c f /\ forall g, In g before -> ~ fails sys c g.
Definition exit_code (f : failure) : option Z :=
  match f with Fork => None | NewPrivs => Some 202%Z | Filtering => Some 203%Z | Tracing => Some 204%Z | Executing => Some 205%Z end.
