(** What a path denotes. *)
From Coq Require Import String.
From Verif Require Import Model.Bytes Model.Paths.
Local Open Scope list_scope.

(** A place in the directory tree is the list of names leading to it from the root. *)
Definition place := list (list N).
Definition name_ok (n : list N) : Prop := n <> [] /\ ~ In 47%N n /\ n <> B "." /\ n <> B "..".
(** The one spelling of a place: '/', or '/a/b/c'. *)
Definition spelled (l : place) : list N :=
  match l with [] => [47%N] | _ => concat (map (fun n => 47%N :: n) l) end.

(** The components of a path: what is between slashes. *)
Inductive Components : list N -> list (list N) -> Prop :=
| comp_last : forall c, ~ In 47%N c -> Components c [c]
| comp_more : forall c r cs, ~ In 47%N c -> Components r cs -> Components (c ++ 47%N :: r) (c :: cs).

(** Walking the tree as the kernel does.  [is_dir] says which places are directories; the
    target of a symbolic link, if a place is one, is a place. *)
Section Kernel.
  Variable is_dir : place -> bool.
  Variable link : place -> option place.
  Inductive Walk : place -> list (list N) -> place -> Prop :=
  | w_done : forall p, Walk p [] p
  | w_stay : forall p c cs q, c = [] \/ c = B "." -> is_dir p = true -> Walk p cs q -> Walk p (c :: cs) q
  | w_up : forall p cs q, is_dir p = true -> Walk (removelast p) cs q -> Walk p (B ".." :: cs) q
  | w_down : forall p n cs q, name_ok n -> is_dir p = true ->
      Walk (match link (p ++ [n]) with Some t => t | None => p ++ [n] end) cs q -> Walk p (n :: cs) q.
  (** A path, looked up from a directory, denotes a place. *)
  Inductive Denotes (dir : place) : list N -> place -> Prop :=
  | d_abs : forall r cs q, Components r cs -> Walk [] cs q -> Denotes dir (47%N :: r) q
  | d_rel : forall r cs q, hd_error r <> Some 47%N -> Components r cs -> Walk dir cs q -> Denotes dir r q.
End Kernel.
