(** What the collection operations of configuration nodes mean. *)
From Coq Require Import String.
From Verif Require Import Model.Bytes Model.Config Spec.Config.
Local Open Scope list_scope.

(** [new] says what [k] is: its last entry for it does. *)
Inductive says : dict -> list N -> value -> Prop :=
| says_here : forall before k v after, ~ In k (map fst after) -> says (before ++ (k, v) :: after) k v.
Definition silent (d : dict) (k : list N) : Prop := forall v, ~ In (k, v) d.
