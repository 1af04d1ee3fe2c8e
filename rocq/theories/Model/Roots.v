(** Model of problem lookup (dmoj/judgeenv.py). *)
From Coq Require Import String.
From Verif Require Import Model.Bytes Model.Paths.
Local Open Scope list_scope.
Local Open Scope nat_scope.

Definition path := list N.
(** What the operating system answers: os.path.isdir, os.path.isfile, os.listdir ([None]: it
    raises OSError), os.access(..., R_OK).  The modification times get_supported_problems
    also reports are left out. *)
Record fs := { isdir : path -> bool; isfile : path -> bool; listdir : path -> option (list path); readable : path -> bool }.

Definition init_yml : path := B "init.yml".

(** judgeenv.py:213-223: get_problem_root.  [cache] is _problem_root_cache, [roots] what
    get_problem_roots returns, [None] is the KeyError. *)
Fixpoint lookup (id : path) (cache : list (path * path)) : option path :=
  match cache with [] => None | (k, v) :: r => if beqb k id then Some v else lookup id r end.
Fixpoint first_root (f : fs) (id : path) (roots : list path) : option path :=
  match roots with
  | [] => None
  | r :: rest => if isfile f (join (join r id) init_yml) then Some (join r id) else first_root f id rest
  end.
Definition get_problem_root (f : fs) (roots : list path) (cache : list (path * path)) (id : path) : list (path * path) * option path :=
  let stale := match lookup id cache with None => true | Some c => negb (isfile f (join c init_yml)) end in
  let cache' := if stale then match first_root f id roots with Some d => (id, d) :: cache | None => cache end else cache in
  (cache', lookup id cache').

(** judgeenv.py:295-307: get_supported_problems *)
Fixpoint get_supported_problems (f : fs) (roots : list path) : option (list path) :=
  match roots with
  | [] => Some []
  | r :: rest =>
      match listdir f r, get_supported_problems f rest with
      | Some names, Some more => Some (filter (fun n => readable f (join (join r n) init_yml)) names ++ more)
      | _, _ => None
      end
  end.

(** ** Which directories *)
(** An entry of problem_storage_root: a directory, or a mapping from depth ([None] if int()
    raises ValueError) to directory. *)
Inductive entry := One (p : path) | Depths (l : list (option Z * path)).
(** problem_dirs: a Python list, a ConfigNode around a list, a string. *)
Inductive dirs := Plain (l : list path) | Node (l : list entry) | Str (p : path).
Inductive warning := IllegalDepth | CannotAccess (p : path).

(** judgeenv.py:243-256: find_directories_by_depth, for a depth of at least 0 *)
Fixpoint find_directories_by_depth (f : fs) (dir : path) (depth : nat) : option (list path) :=
  match depth with
  | 0 => Some (if isdir f dir then [dir] else [])
  | S n =>
      match listdir f dir with
      | None => None
      | Some children =>
          (fix go cs := match cs with
           | [] => Some []
           | c :: rest =>
               if isdir f (join dir c) then
                 match find_directories_by_depth f (join dir c) n, go rest with
                 | Some a, Some b => Some (a ++ b)
                 | _, _ => None
                 end
               else go rest
           end) children
      end
  end.

Section Roots.
  (** _root: the directory of the package *)
  Variable root : path.
  Definition get_path (x y : path) : path := normpath (join x y).

  (** judgeenv.py:258-267 *)
  Fixpoint depth_dirs (f : fs) (l : list (option Z * path)) : option (list path * list warning) :=
    match l with
    | [] => Some ([], [])
    | (d, p) :: rest =>
        match depth_dirs f rest with
        | None => None
        | Some (ds, ws) =>
            match d with
            | None => Some (ds, IllegalDepth :: ws)
            | Some z =>
                if (z <? 0)%Z then Some (ds, IllegalDepth :: ws)
                else match find_directories_by_depth f (get_path root p) (Z.to_nat z) with
                     | None => None
                     | Some a => Some (a ++ ds, ws)
                     end
            end
        end
    end.
  Fixpoint node_dirs (f : fs) (l : list entry) : option (list path * list warning) :=
    match l with
    | [] => Some ([], [])
    | e :: rest =>
        match (match e with One p => Some ([get_path root p], []) | Depths m => depth_dirs f m end), node_dirs f rest with
        | Some (a, w), Some (ds, ws) => Some (a ++ ds, w ++ ws)
        | _, _ => None
        end
    end.
  (** judgeenv.py:229-283: get_problem_roots when nothing is cached; [None]: OSError. *)
  Definition scan (f : fs) (d : dirs) (warnings : bool) : option (list path * list warning) :=
    match d with
    | Plain l => Some (l, [])
    | Node l =>
        match node_dirs f l with
        | None => None
        | Some (ds, ws) =>
            Some (if warnings then (filter (isdir f) ds, ws ++ map CannotAccess (filter (fun p => negb (isdir f p)) ds)) else (ds, ws))
        end
    | Str p =>
        match listdir f (join root p) with
        | None => None
        | Some names =>
            let ds := filter (isdir f) (map (get_path (join root p)) names) in
            Some (if warnings then (filter (isdir f) ds, map CannotAccess (filter (fun p => negb (isdir f p)) ds)) else (ds, []))
        end
    end.

  (** The globals: problem_dirs, _problem_dirs_cache, _problem_root_cache, startup_warnings. *)
  Record globals := { problem_dirs : dirs; dirs_cache : option (list path); root_cache : list (path * path); warned : list warning }.
  (** get_problem_roots; [None]: OSError *)
  Definition get_problem_roots (f : fs) (warnings : bool) (g : globals) : globals * option (list path) :=
    match dirs_cache g with
    | Some l => (g, Some l)
    | None =>
        match scan f (problem_dirs g) warnings with
        | None => (g, None)
        | Some (l, ws) =>
            ({| problem_dirs := problem_dirs g; dirs_cache := Some l; root_cache := root_cache g; warned := warned g ++ ws |}, Some l)
        end
    end.
  (** judgeenv.py:173-189: the end of load_env for a judge *)
  Definition load_env (f : fs) (d : dirs) : option globals :=
    let g := {| problem_dirs := d; dirs_cache := None; root_cache := []; warned := [] |} in
    match get_problem_roots f true g with
    | (_, None) => None
    | (g', Some _) =>
        Some {| problem_dirs := match problem_dirs g' with Str p => Plain [p] | other => other end;
                dirs_cache := dirs_cache g'; root_cache := root_cache g'; warned := warned g' |}
    end.
  (** judge.py:99-104: the updater: what is sent to the server; [None]: the update fails *)
  Definition update (f : fs) (g : globals) : globals * option (list path) :=
    let g1 := {| problem_dirs := problem_dirs g; dirs_cache := None; root_cache := root_cache g; warned := warned g |} in
    match get_problem_roots f false g1 with
    | (g2, None) => (g2, None)
    | (g2, Some l) => (g2, get_supported_problems f l)
    end.
End Roots.
