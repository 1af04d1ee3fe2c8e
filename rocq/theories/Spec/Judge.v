(** Sequential grading and problem updates. *)
From Verif Require Import Model.Bytes Model.Judge.

(** Traces in which submissions are graded strictly one after the other: a block begins,
    reports the submission's own stream in order, always with that submission current,
    and ends.  The second argument is the open block and what is left of its stream. *)
Inductive sequential (stream : nat -> list nat) : list tev -> option (nat * list nat) -> Prop :=
| sq_nil : sequential stream [] None
| sq_begin : forall tr s, sequential stream tr None -> sequential stream (tr ++ [Begin s]) (Some (s, stream s))
| sq_report : forall tr s m r, sequential stream tr (Some (s, m :: r)) ->
    sequential stream (tr ++ [Report s m (Some s)]) (Some (s, r))
| sq_end : forall tr s, sequential stream tr (Some (s, [])) -> sequential stream (tr ++ [End s]) None.

(** How many moves of a schedule are the updater's. *)
Fixpoint updater_moves (ms : list umove) : nat :=
  match ms with [] => 0 | U :: r => S (updater_moves r) | _ :: r => updater_moves r end.
(** A list of problems at least as new as version [v] was sent between [s] and [s']. *)
Definition resent (v : nat) (s s' : ustate) : Prop :=
  exists new w, sent s' = sent s ++ new /\ In w new /\ v <= w.
