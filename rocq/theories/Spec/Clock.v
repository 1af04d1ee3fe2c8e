(** What time keeping means, in nanoseconds. *)
From Verif Require Import Model.Bytes Model.Clock.
Local Open Scope list_scope.
Local Open Scope Z_scope.

Definition ns (t : timespec) : Z := tv_sec t * 1000000000 + tv_nsec t.
Definition normal (t : timespec) : Prop := 0 <= tv_sec t /\ 0 <= tv_nsec t < 1000000000.
Definition normal_readings (l : list (timespec * timespec)) : Prop :=
  forall s e, In (s, e) l -> normal s /\ normal e.

(** The length of the intervals; one that ends before it starts has none. *)
Fixpoint total (l : list (timespec * timespec)) : Z :=
  match l with
  | [] => 0
  | (s, e) :: rest => Z.max 0 (ns e - ns s) + total rest
  end.

(** A clock that never goes back: the readings in the order they are made. *)
Fixpoint monotone (last : Z) (l : list (timespec * timespec)) : Prop :=
  match l with
  | [] => True
  | (s, e) :: rest => last <= ns s /\ ns s <= ns e /\ monotone (ns e) rest
  end.
