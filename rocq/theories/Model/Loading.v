(** Loading a problem and choosing a case's checker: dmoj/problem.py Problem.__init__,
    _resolve_archive_files, _resolve_test_cases, ProblemDataManager, load_checker,
    TestCase.checker. *)
From Coq Require Import String.
From Verif Require Import Model.Bytes Model.Config Model.Paths.
Local Open Scope list_scope.
Local Open Scope nat_scope.

(** An InvalidInitException (config.py:1-7), or any other exception. *)
Inductive failure := InvalidInit | Raised.
Inductive loading (A : Type) := Fine (a : A) | Fails (f : failure).
Arguments Fine {A}. Arguments Fails {A}.

(** What zipfile.ZipFile makes of a path: no such file, not an archive, unreadable for another
    reason, or the entries in order; an entry that cannot be read has no data. *)
Definition entries := list (list N * option (list N)).
Inductive zip_outcome := NoArchive | BadArchive | ArchiveFails | Archive (z : entries).
Inductive yaml_outcome := Document (v : value) | BadSyntax | YamlFails.
(** ZipFile.getinfo: of two entries with one name the later counts. *)
Fixpoint entry (k : list N) (z : entries) : option (option (list N)) :=
  match z with
  | [] => None
  | (k', d) :: r => match entry k r with Some x => Some x | None => if beqb k k' then Some d else None end
  end.
Inductive data := Found (d : list N) | Missing | Unreadable.

(** problem.py:20-21 *)
Definition default_input : list N := B "^(?=.*?\.in|in).*?(?:(?:^|\W)(?P<batch>\d+)[^\d\s]+)?(?P<case>\d+)[^\d\s]*$".
Definition default_output : list N := B "^(?=.*?\.out|out).*?(?:(?:^|\W)(?P<batch>\d+)[^\d\s]+)?(?P<case>\d+)[^\d\s]*$".
(** problem.py:46-55 *)
Definition defaults (signature : bool) (meta : value) : dict :=
  [(B "wall_time_factor", VInt 3); (B "output_prefix_length", VInt (if signature then 0 else 64));
   (B "output_limit_length", VInt 25165824); (B "binary_data", VBool false); (B "short_circuit", VBool true);
   (B "points", VInt 1); (B "symlinks", VDict []); (B "meta", meta)].
(** config.py:49-51: dict.update *)
Definition update (d new : dict) : dict := fold_left (fun acc kv => store (fst kv) (snd kv) acc) new d.

(** Where the points of guessed cases come from: one value for ever, or these. *)
Inductive points := Always (r : result) | Each (l : list result).
Inductive cases := Listed | Guessed (names : list (list N)) (input output : list N) (p : points).
Record problem := Problem { config : chain; archive : option entries; test_cases : cases }.

Section Load.
  Variable run : bool -> value -> chain -> option value.      (** dynamic keys *)
  Variable file : list N -> option (list N).                  (** open(path, 'rb').read(); [None] = IOError *)
  Variable yaml : list N -> yaml_outcome.                     (** yaml.safe_load *)
  Variable zip : list N -> zip_outcome.
  Variable compiles : list N -> bool.                         (** re.compile accepts the pattern *)
  Variable root : list N.

  (** problem.py:194-203 *)
  Definition problem_data (z : option entries) (key : list N) : data :=
    match file (join root key) with
    | Some d => Found d
    | None =>
        match z with
        | Some z => match entry key z with Some (Some d) => Found d | Some None => Unreadable | None => Missing end
        | None => Missing
        end
    end.

  (** problem.py:175-185 *)
  Definition resolve_archive (c : chain) : loading (option entries * chain) :=
    match getattr run c (B "archive") with
    | Invalid => Fails InvalidInit
    | Got r c1 _ =>
        if res_truthy r then
          match r with
          | Plain (VStr s) =>
              match zip (join root s) with
              | NoArchive | BadArchive => Fails InvalidInit
              | ArchiveFails => Fails Raised
              | Archive z => Fine (Some z, c1)
              end
          | _ => Fails Raised                                  (* os.path.join of something else *)
          end
        else Fine (None, c1)
    end.

  (** problem.py:143-146 *)
  Definition get_with_default (n : option chain) (k : list N) (default : result) : loading result :=
    match n with
    | None => Fine default
    | Some c => match get run c k default with Got r _ _ => Fine r | Invalid => Fails InvalidInit end
    end.
  (** re.compile, lines 151-152 *)
  Definition pattern (r : result) : loading (list N) :=
    match r with Plain (VStr s) => if compiles s then Fine s else Fails Raised | _ => Fails Raised end.
  (** iter(), line 153 *)
  Definition points_of (n : option chain) (fallback : result) : loading points :=
    match n with
    | None => Fine (Always fallback)
    | Some c =>
        match getitem run c (Key (B "case_points")) with
        | Invalid => Fails InvalidInit
        | Got r _ _ =>
            if res_truthy r then
              match r with
              | Sub c1 => Fine (Each (iterate c1))
              | Plain (VStr s) => Fine (Each (map (fun x => Plain (VStr [x])) s))
              | Plain _ => Fails Raised
              end
            else Fine (Always fallback)
        end
    end.
  (** problem.py:129-134, 148-154.  Simplification: a dynamic key evaluated by one of these lookups
      in an enclosing node is evaluated again by the next. *)
  Definition guess (z : option entries) (c : chain) (n : option chain) : loading cases :=
    match z with
    | None => Fails InvalidInit
    | Some z =>
        match get_with_default n (B "input_format") (Plain (VStr default_input)) with
        | Fails f => Fails f
        | Fine i =>
        match pattern i with
        | Fails f => Fails f
        | Fine i =>
        match get_with_default n (B "output_format") (Plain (VStr default_output)) with
        | Fails f => Fails f
        | Fine o =>
        match pattern o with
        | Fails f => Fails f
        | Fine o =>
        match getattr run c (B "points") with
        | Invalid => Fails InvalidInit
        | Got p _ _ =>
            match points_of n p with
            | Fails f => Fails f
            | Fine ps => Fine (Guessed (map fst z) i o ps)
            end
        end end end end end
    end.
  (** problem.py:136-154 *)
  Definition resolve_cases (z : option entries) (c : chain) : loading cases :=
    match getattr run c (B "test_cases") with
    | Invalid => Fails InvalidInit
    | Got (Plain Null) c1 _ => guess z c1 None
    | Got (Plain _) _ _ => Fails Raised                        (* no unwrap method *)
    | Got (Sub (VList _ :: _)) _ _ => Fine Listed
    | Got (Sub n) c1 _ => guess z c1 (match n with raw :: _ => if truthy raw then Some n else None | [] => None end)
    end.

  (** problem.py:40-61.  Simplification: a document that is a list of pairs, which dict.update
      would take for a mapping, counts as wrong. *)
  Definition load (meta : value) : loading problem :=
    match problem_data None (B "init.yml") with
    | Unreadable => Fails Raised
    | Missing => Fails InvalidInit                             (* KeyError *)
    | Found text =>
        match yaml text with
        | BadSyntax => Fails InvalidInit
        | YamlFails => Fails Raised                            (* other errors of the YAML library *)
        | Document v =>
            if truthy v then
              match v with
              | VDict doc =>
                  let c := [VDict (update (defaults (has (B "signature_grader") doc) meta) doc)] in
                  match resolve_archive c with
                  | Fails f => Fails f
                  | Fine (z, c1) =>
                      match resolve_cases z c1 with
                      | Fails f => Fails f
                      | Fine l => Fine (Problem c1 z l)
                      end
                  end
              | _ => Fails Raised
              end
            else Fails InvalidInit
        end
    end.
End Load.

(** ** Checkers *)
(** checkers/__init__.py.  Every one has a check function; nothing else in the package does. *)
Definition builtin_checkers : list (list N) :=
  [B "bridged"; B "easy"; B "floats"; B "floatsabs"; B "floatsrel"; B "identical"; B "linecount"; B "rstripped";
   B "sorted"; B "standard"; B "unordered"].
(** [FromFile name n]: the module that execution number [n] made. *)
Inductive chosen := Builtin (name : list N) | FromFile (name : list N) (n : nat).
(** Executing a checker module: it has a callable check or not; the file cannot be read; the
    module itself raises IOError or AttributeError; or something else. *)
Inductive module := Module (checks : bool) | NoModule | NoAttribute | ModuleFails.
(** Problem._checkers, and the modules executed so far. *)
Record checkers := Checkers { kept : list (list N * (nat * bool)); executed : list (list N) }.
Definition no_checkers := Checkers [] [].
Fixpoint kept_checker (k : list N) (l : list (list N * (nat * bool))) : option (nat * bool) :=
  match l with [] => None | (k', v) :: r => if beqb k k' then Some v else kept_checker k r end.

Section Checker.
  Variable run : bool -> value -> chain -> option value.
  Variable execute : nat -> list N -> module.                  (** what the n-th execution of a file gives *)

  (** problem.py:156-160 *)
  Definition load_checker (st : checkers) (name : list N) : module * nat * checkers :=
    match kept_checker name (kept st) with
    | Some (n, b) => (Module b, n, st)
    | None =>
        let n := length (executed st) in
        let m := execute n name in
        (m, n, Checkers (match m with Module b => (name, (n, b)) :: kept st | _ => kept st end) (executed st ++ [name]))
    end.
  (** [**params] of a mapping node: its keys and what looking each up gives. *)
  Fixpoint keywords (c : chain) (ks : list (list N)) : loading (list (list N * result)) :=
    match ks with
    | [] => Fine []
    | k :: r =>
        match getitem run c (Key k) with
        | Invalid => Fails InvalidInit
        | Got v c' _ => match keywords c' r with Fine l => Fine ((k, v) :: l) | Fails f => Fails f end
        end
    end.
  Definition params_of (r : result) : loading (list (list N * result)) :=
    if res_truthy r then
      match r with
      | Sub (VDict d :: ps) => keywords (VDict d :: ps) (map fst d)
      | Sub _ => Fails InvalidInit                              (* config.py:65-68 *)
      | Plain _ => Fails Raised
      end
    else Fine [].
  (** problem.py:351-356: the name and the arguments; the node is as it stands. *)
  Definition named (c : chain) : loading (result * result) :=
    match get run c (B "checker") (Plain (VStr (B "standard"))) with
    | Invalid => Fails InvalidInit
    | Got (Plain v) _ _ => Fine (Plain v, Plain Null)
    | Got (Sub n) _ _ =>
        match getitem run n (Key (B "args")) with
        | Invalid => Fails InvalidInit
        | Got a n1 _ => match getitem run n1 (Key (B "name")) with Invalid => Fails InvalidInit | Got m _ _ => Fine (m, a) end
        end
    end.
  (** problem.py:349-369 *)
  Definition checker (c : chain) (st : checkers) : loading (chosen * list (list N * result)) * checkers :=
    match named c with
    | Fails f => (Fails f, st)
    | Fine (Plain (VStr s), a) =>
        if contains (B ".") s then
          match load_checker st s with
          | (Module true, n, st') => (match params_of a with Fine p => Fine (FromFile s n, p) | Fails f => Fails f end, st')
          | (Module false, _, st') | (NoModule, _, st') | (NoAttribute, _, st') => (Fails InvalidInit, st')
          | (ModuleFails, _, st') => (Fails Raised, st')
          end
        else if existsb (beqb s) builtin_checkers
        then (match params_of a with Fine p => Fine (Builtin s, p) | Fails f => Fails f end, st)
        else (Fails InvalidInit, st)
    | Fine (_, _) => (Fails Raised, st)                        (* TypeError: not a name *)
    end.
  (** Any number of cases, one after the other. *)
  Fixpoint checkers_of (cs : list chain) (st : checkers) : list (loading (chosen * list (list N * result))) * checkers :=
    match cs with
    | [] => ([], st)
    | c :: r => let (o, st1) := checker c st in let (os, st2) := checkers_of r st1 in (o :: os, st2)
    end.
End Checker.
