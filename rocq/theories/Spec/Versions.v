From Coq Require Import String.
From Verif Require Import Model.Bytes Model.Versions.
Local Open Scope list_scope.

(** Nothing is learnt from an answer. *)
Inductive useless (parse : bytes -> option version) : answer -> Prop :=
| useless_failed : useless parse Failed
| useless_none o : parse o = None -> useless parse (Printed o)
| useless_empty o : parse o = Some [] -> useless parse (Printed o).
(** The version of a runtime, given the answers to its flags: that of the first answer from which
    something is learnt; () if there is none. *)
Inductive version_of (parse : bytes -> option version) : list answer -> version -> Prop :=
| version_first l o v r : Forall (useless parse) l -> parse o = Some v -> v <> [] -> version_of parse (l ++ Printed o :: r) v
| version_none l : Forall (useless parse) l -> version_of parse l [].
(** A report names every runtime, in order, with its version. *)
Definition reports (parse : bytes -> option version) (w : world) (r : report) : Prop :=
  Forall2 (fun rt e => fst e = fst rt /\ version_of parse (snd rt) (snd e)) w r.
(** Asking [name] has not worked yet in a history. *)
Definition not_yet (parse : bytes -> option version) (name : bytes) (h : list (bytes * world)) : Prop :=
  forall w, In (name, w) h -> forall r, ~ reports parse w r.
