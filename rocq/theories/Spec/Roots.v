(** What looking for a problem should find. *)
From Coq Require Import String.
From Verif Require Import Model.Bytes Model.Paths Model.Roots.
Local Open Scope list_scope.

(** A root has a problem: there is a file root/id/init.yml. *)
Definition has (f : fs) (id r : path) : Prop := isfile f (join (join r id) init_yml) = true.
(** r is the first of the roots that has it. *)
Definition first_with (f : fs) (id : path) (roots : list path) (r : path) : Prop :=
  exists before after, roots = before ++ r :: after /\ has f id r /\ forall r', In r' before -> ~ has f id r'.

(** Earlier lookups: the file system and the roots of the moment, and what was asked for. *)
Definition request := (fs * list path * path)%type.
Definition after_requests (h : list request) : list (path * path) :=
  fold_left (fun c q => fst (get_problem_root (fst (fst q)) (snd (fst q)) c (snd q))) h [].

(** A directory reached in exactly n steps down. *)
Inductive down (f : fs) : path -> nat -> path -> Prop :=
| down_0 : forall d, isdir f d = true -> down f d 0 d
| down_S : forall d names c n p, listdir f d = Some names -> In c names -> isdir f (join d c) = true -> down f (join d c) n p -> down f d (S n) p.

(** The directories a configuration entry names. *)
Inductive names_dir (root : path) (f : fs) : entry -> path -> Prop :=
| names_one : forall p, isdir f (normpath (join root p)) = true -> names_dir root f (One p) (normpath (join root p))
| names_depth : forall l z p q, In (Some z, p) l -> (0 <= z)%Z -> down f (normpath (join root p)) (Z.to_nat z) q -> names_dir root f (Depths l) q.
