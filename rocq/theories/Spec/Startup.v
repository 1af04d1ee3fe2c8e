(** What a judge should come up with. *)
From Coq Require Import String.
From Verif Require Import Model.Bytes Model.Paths Spec.Paths Model.Roots Spec.Roots Model.Config Model.Startup.
Local Open Scope list_scope.
Local Open Scope Z_scope.

(** ** Settings *)
(** The settings of a judge nobody configured. *)
Definition standard : dict :=
  [(B "selftest_time_limit", VInt 10); (B "selftest_memory_limit", VInt 131072);
   (B "generator_compiler_time_limit", VInt 30); (B "generator_time_limit", VInt 20); (B "generator_memory_limit", VInt 524288);
   (B "compiler_time_limit", VInt 10); (B "compiler_size_limit", VInt 131072); (B "compiler_output_character_limit", VInt 65536);
   (B "compiled_binary_cache_dir", Null); (B "compiled_binary_cache_size", VInt 100);
   (B "runtime", VDict []); (B "extra_fs", VDict []); (B "update_pings", VList []); (B "tempdir", Null)].
(** The first document that has the setting decides it, alone. *)
Inductive settled (k : bytes) : list dict -> option value -> Prop :=
| settled_nowhere : settled k [] None
| settled_here d v r : In (k, v) d -> settled k (d :: r) (Some v)
| settled_below d r o : ~ In k (map fst d) -> settled k r o -> settled k (d :: r) o.
(** The documents: the configuration file, the file of the Docker image, the standard settings. *)
Definition configuration (w : world) (a : args) (l : list dict) : Prop :=
  (exists d, opened w (expand w (config a)) = Doc (VDict d) /\ NoDup (map fst d) /\ l = [d])
  \/ (opened w (expand w (config a)) = NoFile /\ l = []).
Definition image (w : world) (l : list dict) : Prop :=
  (docker w = true /\ exists d, opened w (B "/judge-runtime-paths.yml") = Doc (VDict d) /\ NoDup (map fst d) /\ l = [d])
  \/ (docker w = false /\ l = []).
Definition documents (w : world) (a : args) (l : list dict) : Prop :=
  exists c i, configuration w a c /\ image w i /\ l = c ++ i ++ [standard].
(** What is used for a setting nobody made. *)
Definition or_null (o : option value) : value := match o with Some v => v | None => Null end.

(** ** Problems *)
(** problem_storage_root, also with hyphens. *)
Definition storage (l : list dict) (v : value) : Prop :=
  v <> Null /\ (settled (B "problem_storage_root") l (Some v)
    \/ ((settled (B "problem_storage_root") l None \/ settled (B "problem_storage_root") l (Some Null))
        /\ settled (B "problem-storage-root") l (Some v))).
Definition no_storage (l : list dict) : Prop :=
  (settled (B "problem_storage_root") l None \/ settled (B "problem_storage_root") l (Some Null))
  /\ (settled (B "problem-storage-root") l None \/ settled (B "problem-storage-root") l (Some Null)).
(** The directories it stands for: those in the directory named; or of a list: each directory
    named, and for a mapping the directories as many levels below as its key says. *)
Inductive storage_dir (root : path) (w : world) : value -> path -> Prop :=
| storage_in p names n : listdir (tree w) (join root p) = Some names -> In n names ->
    isdir (tree w) (normpath (join (join root p) n)) = true -> storage_dir root w (VStr p) (normpath (join (join root p) n))
| storage_one l p : In (VStr p) l -> isdir (tree w) (normpath (join root p)) = true -> storage_dir root w (VList l) (normpath (join root p))
| storage_deep l d k z p q : In (VDict d) l -> In (k, VStr p) d -> int_of w k = Some z -> 0 <= z ->
    down (tree w) (normpath (join root p)) (Z.to_nat z) q -> storage_dir root w (VList l) q
| storage_key d k v : In (k, v) d -> isdir (tree w) (normpath (join root k)) = true -> storage_dir root w (VDict d) (normpath (join root k)).
(** Names in a directory are names. *)
Definition sound_listing (f : fs) : Prop := forall d names n, listdir f d = Some names -> In n names -> name_ok n.
(** A path some levels below another. *)
Definition below (w r : path) : Prop := exists names, Forall name_ok names /\ r = fold_left join names w.

(** ** The command line *)
(** One of the parts of a text that commas separate. *)
Definition part (x s : bytes) : Prop :=
  ~ In 44%N x /\ exists a b, s = a ++ x ++ b /\ (a = [] \/ exists a', a = a' ++ B ",") /\ (b = [] \/ exists b', b = B "," ++ b').
Definition set_of (o : option bytes) (x : bytes) : Prop := exists s, o = Some s /\ s <> [] /\ part x s.
