(** What the judge tells the site about its runtimes: dmoj/executors/base_executor.py
    get_runtime_versions with its cache, and the report of PyPy (dmoj/executors/PYPY.py, PYPY3.py). *)
From Coq Require Import String.
From Verif Require Import Model.Bytes.
Local Open Scope list_scope.

(** A version, () for none (base_executor.py:203). *)
Definition version := list Z.
(** What running the command with one flag gives (base_executor.py:208-216): it prints something and
    succeeds; CalledProcessError; another exception, such as that the command is not there. *)
Inductive answer := Printed (o : bytes) | Failed | Broken.
(** The runtimes of an executor, each with the answers to its flags in turn (base_executor.py:204-208). *)
Definition world := list (bytes * list answer).
(** base_executor.py:203, 221. *)
Definition report := list (bytes * version).

Section Ask.
  Variable parse_version : bytes -> option version.      (* cls.parse_version(runtime, .) *)
  (** base_executor.py:207-221 for one runtime; [None]: raised. *)
  Fixpoint ask (flags : list answer) : option version :=
    match flags with
    | [] => Some []
    | Failed :: r => ask r
    | Broken :: _ => None
    | Printed o :: r => match parse_version o with Some (z :: v) => Some (z :: v) | _ => ask r end
    end.
  (** base_executor.py:203-221. *)
  Fixpoint asked (w : world) : option report :=
    match w with
    | [] => Some []
    | (name, flags) :: r =>
        match ask flags with
        | None => None
        | Some v => match asked r with Some l => Some ((name, v) :: l) | None => None end
        end
    end.
  (** version_cache (base_executor.py:19). *)
  Definition cache := list (bytes * report).
  Fixpoint lookup (k : bytes) (c : cache) : option report :=
    match c with [] => None | (k', r) :: c' => if beqb k k' then Some r else lookup k c' end.
  (** base_executor.py:197-224 get_runtime_versions for the executor [name]: the result, and the
      cache afterwards. *)
  Definition get_runtime_versions (c : cache) (name : bytes) (w : world) : option report * cache :=
    match lookup name c with
    | Some r => (Some r, c)
    | None => match asked w with Some r => (Some r, (name, r) :: c) | None => (None, c) end
    end.
  (** The cache after a history of calls (base_executor.py:223). *)
  Definition after (h : list (bytes * world)) : cache :=
    fold_left (fun c x => snd (get_runtime_versions c (fst x) (snd x))) h [].
End Ask.

(** ** PyPy *)
(** The class attribute _pypy_versions of PYPY and, if it has been set there, of PYPY3, which derives
    from PYPY (PYPY.py:10, PYPY3.py:4). *)
Record attrs := Attrs { own : option (list version); own3 : option (list version) }.
Inductive pypy := PYPY | PYPY3.
(** Setting and looking up cls._pypy_versions (PYPY.py:15, 23). *)
Definition set_attr (p : pypy) (v : list version) (a : attrs) : attrs :=
  match p with PYPY => Attrs (Some v) (own3 a) | PYPY3 => Attrs (own a) (Some v) end.
Definition get_attr (p : pypy) (a : attrs) : option (list version) :=
  match p with PYPY => own a | PYPY3 => match own3 a with Some v => Some v | None => own a end end.

Section PyPy.
  (** version_regex.findall followed by int() of the parts (PYPY.py:15).  Simplification: any function;
      int() does not raise. *)
  Variable findall : bytes -> list version.
  (** PYPY.py:12-18 parse_version: its result. *)
  Definition pypy_parse (o : bytes) : option version := nth_error (findall o) 1.
  (** The attribute after asking with the flags in turn (PYPY.py:15 called from base_executor.py:218). *)
  Fixpoint asked_attr (p : pypy) (flags : list answer) (a : attrs) : attrs :=
    match flags with
    | Printed o :: r =>
        let a' := set_attr p (findall o) a in
        match pypy_parse o with Some (_ :: _) => a' | _ => asked_attr p r a' end
    | Failed :: r => asked_attr p r a
    | _ => a
    end.
  (** PYPY.py:20-23 get_runtime_versions when nothing is cached: the single runtime [command] with the
      answers to its flags.  [None]: raised (AttributeError, IndexError or from asking). *)
  Definition pypy_versions (p : pypy) (command : bytes) (flags : list answer) (a : attrs) : option report :=
    match ask pypy_parse flags with
    | None => None
    | Some v =>
        match get_attr p (asked_attr p flags a) with
        | Some (python :: _) => Some [(command, v); (B "implementing python", python)]
        | _ => None
        end
    end.
End PyPy.
