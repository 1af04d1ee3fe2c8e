(** Which executors a judge offers: dmoj/utils/load.py, dmoj/executors/__init__.py,
    dmoj/contrib/__init__.py, and of dmoj/executors/base_executor.py the start-up test
    and the version detection; of dmoj/executors/mixins.py the symbolic links made
    before a launch. *)
From Coq Require Import String.
From Verif Require Import Model.Bytes Model.Paths.
Local Open Scope nat_scope.
Local Open Scope list_scope.

(** ** Finding modules *)
Definition upper_digit (c : N) : bool := ((65 <=? c) && (c <=? 90) || ((48 <=? c) && (c <=? 57)))%N.
Definition lower_letter (c : N) : bool := ((97 <=? c) && (c <=? 122))%N.
(** the longest prefix in a class of characters, and the rest *)
Fixpoint span (p : N -> bool) (s : bytes) : bytes * bytes :=
  match s with
  | c :: r => if p c then let (a, b) := span p r in (c :: a, b) else ([], s)
  | [] => ([], [])
  end.
(** executors/__init__.py:8: ([A-Z0-9]+)\.py$ ; '$' also matches before a final newline.
    The class does not contain '.', so the greedy match is the only one. *)
Definition re_executor (name : bytes) : option bytes :=
  let (a, r) := span upper_digit name in
  match a with
  | [] => None
  | _ => if beqb r (B ".py") || beqb r (B ".py" ++ [LF]) then Some a else None
  end.
(** contrib/__init__.py:7: ([a-z]+)\.py, not anchored at the end *)
Definition re_contrib (name : bytes) : option bytes :=
  let (a, r) := span lower_letter name in
  match a with
  | [] => None
  | _ => if starts_with (B ".py") r then Some a else None
  end.

Definition mem (x : bytes) (l : list bytes) : bool := existsb (beqb x) l.
Fixpoint dedup (l : list bytes) : list bytes :=
  match l with [] => [] | x :: r => if mem x r then dedup r else x :: dedup r end.
Fixpoint filter_map {A C} (f : A -> option C) (l : list A) : list C :=
  match l with [] => [] | x :: r => match f x with Some y => y :: filter_map f r | None => filter_map f r end end.

(** load.py:6-12; sets are lists without repetition; an empty or missing set is falsy. *)
Definition get_available_modules (pattern : bytes -> option bytes) (listing : list bytes) (only exclude : list bytes) : list bytes :=
  let to_load := dedup (filter_map pattern listing) in
  let to_load := match only with [] => to_load | _ => filter (fun n => mem n only) to_load end in
  let to_load := match exclude with [] => to_load | _ => filter (fun n => negb (mem n exclude)) to_load end in
  sort bytes_leb to_load.
(** executors/__init__.py:13,18-21 *)
Definition unsupported : list bytes := [B "BASH"].
Definition available_executors (listing only exclude : list bytes) : list bytes :=
  get_available_modules re_executor listing only (exclude ++ unsupported).
(** contrib/__init__.py:12-13 *)
Definition available_contrib (listing : list bytes) : list bytes := get_available_modules re_contrib listing [] [].
(** judgeenv.py:139-140: the command line lists, split at commas *)
Definition option_set (arg : option bytes) : list bytes :=
  match arg with
  | None | Some [] => []
  | Some a => re_split (fun c => (c =? 44)%N) a
  end.

(** ** Loading them *)
Section Load.
  Variable module : Type.
  (** What importing a module does. *)
  Inductive import := Imported (m : module) | ImportError (message : bytes) | ImportRaises.
  Variable import_module : bytes -> import.
  (** [hasattr(module, attr)]; [cls.initialize]: missing, its result, or an exception;
      [module.aliases]: missing or its result. *)
  Inductive init := NoInit | InitReturns (b : bool) | InitRaises.
  Variable has_attr : module -> bool.
  Variable initialize : module -> init.
  Variable aliases : module -> option (list bytes).

  (** load.py:15-20: the module or None, and whether a traceback is printed;
      the outer [None] = the exception leaves. *)
  Definition load_module (ignored_errors : list bytes) (name : bytes) : option (option module * bool) :=
    match import_module name with
    | Imported m => Some (Some m, false)
    | ImportError e => Some (None, negb (mem e ignored_errors))
    | ImportRaises => None
    end.

  Definition dict := list (bytes * module).
  Fixpoint put (k : bytes) (m : module) (d : dict) : dict :=
    match d with
    | [] => [(k, m)]
    | (k', m') :: r => if beqb k k' then (k, m) :: r else (k', m') :: put k m r
    end.
  Fixpoint get (k : bytes) (d : dict) : option module :=
    match d with
    | [] => None
    | (k', m) :: r => if beqb k k' then Some m else get k r
    end.

  (** load.py:23-44 *)
  Fixpoint load_modules (ignored_errors to_load excluded_aliases : list bytes) (d : dict) : option dict :=
    match to_load with
    | [] => Some d
    | name :: rest =>
        match load_module ignored_errors name with
        | None => None
        | Some (None, _) => load_modules ignored_errors rest excluded_aliases d
        | Some (Some m, _) =>
            if negb (has_attr m) then load_modules ignored_errors rest excluded_aliases d
            else
              let add :=
                load_modules ignored_errors rest excluded_aliases
                  (match aliases m with
                   | Some al => fold_left (fun d a => if mem a excluded_aliases then d else put a m d) al d
                   | None => put name m d
                   end) in
              match initialize m with
              | InitRaises => None
              | InitReturns false => load_modules ignored_errors rest excluded_aliases d
              | _ => add
              end
        end
    end.
End Load.
Arguments Imported {module}. Arguments ImportError {module}. Arguments ImportRaises {module}.

(** ** The start-up test: base_executor.py:120-131 and 133-187 *)
Record test_run := TestRun { t_tle : bool; t_mle : bool; t_stdout : bytes; t_stderr : bytes }.
Definition test_message : bytes := B "echo: Hello, World!".
(** [run]: what compiling and running the test program on the message did ([None] = it
    raised); [versions_known]: every runtime's version could be asked for (the
    assertion and the calls of lines 159-168 raise otherwise). *)
Definition run_self_test (test_program : bytes) (run : option test_run) (output versions_known : bool) : bool :=
  match test_program with
  | [] => true
  | _ =>
      match run with
      | None => false
      | Some r =>
          if t_tle r then false
          else if t_mle r then false
          else
            let res := beqb (py_strip (t_stdout r)) test_message && match t_stderr r with [] => true | _ => false end in
            if output && negb versions_known then false else res
      end
  end.
Definition initialize (command : option bytes) (isfile : bytes -> bool) (skip_self_test : bool)
  (test_program : bytes) (run : option test_run) (versions_known : bool) : bool :=
  match command with
  | None => false
  | Some c => if negb (isfile c) then false
              else skip_self_test || run_self_test test_program run true versions_known
  end.

(** ** Versions: base_executor.py:32 ('.*?(\d+(?:\.\d+)+)' with DOTALL) and 223-228.
    Only ASCII digits are modelled. *)
Definition dec_digit (c : N) : bool := ((48 <=? c) && (c <=? 57))%N.
(** int() of a run of digits *)
Definition number (ds : bytes) : Z := fold_left (fun a c => (10 * a + (Z.of_N c - 48))%Z) ds 0%Z.
(** (?:\.\d+)* greedily; [fuel] bounds the number of groups by the length *)
Fixpoint groups (fuel : nat) (s : bytes) : list bytes :=
  match fuel, s with
  | S f, c :: r =>
      if (c =? 46)%N then
        let (ds, r') := span dec_digit r in
        match ds with [] => [] | _ => ds :: groups f r' end
      else []
  | _, _ => []
  end.
(** \d+(?:\.\d+)+ at the front of [s]; giving back digits never helps the rest match. *)
Definition version_at (s : bytes) : option (list Z) :=
  let (ds, r) := span dec_digit s in
  match ds with
  | [] => None
  | _ => match groups (length r) r with
         | [] => None
         | gs => Some (map number (ds :: gs))
         end
  end.
(** '.*?': the leftmost place where the rest matches *)
Fixpoint parse_version (output : bytes) : option (list Z) :=
  match version_at output with
  | Some v => Some v
  | None => match output with [] => None | _ :: r => parse_version r end
  end.

(** base_executor.py:203-221 for one runtime: the first flag whose command succeeds with
    a version ([None] = CalledProcessError); () if none does. *)
Fixpoint runtime_version (outputs : list (option bytes)) : list Z :=
  match outputs with
  | [] => []
  | None :: r => runtime_version r
  | Some o :: r => match parse_version o with Some v => v | None => runtime_version r end
  end.

(** ** Symbolic links: mixins.py:97-108.  What is done for one pair ([dir] is the
    submission's absolute directory); the links themselves are made elsewhere. *)
Inductive link := Link (at_path : bytes) | RefuseLink.
Definition symlink (dir src : bytes) : link :=
  let p := normpath (join dir src) in
  if starts_with dir p then Link p else RefuseLink.
