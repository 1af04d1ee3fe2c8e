From Coq Require Import String QArith.
From Verif Require Import Model.Bytes Model.Host.
Local Open Scope list_scope.

(** The load average of the machine, as far as it is known. *)
Inductive known (float_of : bytes -> option Q) : platform -> Q -> Prop :=
| known_native q : known float_of (Native (Average q)) q
| known_proc s w rest q : py_split s = w :: rest -> float_of w = Some q -> known float_of (Proc (Text s)) q.
(** The machine has nothing to say about its load. *)
Inductive silent : platform -> Prop :=
| silent_native : silent (Native NotTold)
| silent_proc : silent (Proc NotFound).
(** What a field of a packet holds. *)
Definition holds {V} (d : list (bytes * V)) (k : string) (v : V) : Prop := In (B k, v) d.
