(** What happened during a run of a compiler, and which files reach it. *)
From Coq Require Import String.
From Verif Require Import Model.Bytes Model.Compile.
From Verif Require Import Spec.Access.
Local Open Scope list_scope.

Section History.
  Variables (limit : option N) (now : N).
  Definition after (h : list event) : run_state := run_all limit (run_init limit now) h.
  (** At some point of the history the compiler had ended with this code. *)
  Definition ended (h : list event) (code : Z) : Prop := exists h1 h2, h = h1 ++ h2 /\ p (after h1) = Zombie code.
  (** This is what the judge got from it. *)
  Definition said (h : list event) (t : talk) : Prop := exists h1 h2, h = h1 ++ Talk t :: h2 /\ mph (after h1) = MTalk.
  Definition finished (h : list event) (r : result) : Prop := mph (after h) = MResult r.
  (** Time since the start. *)
  Definition elapsed (h : list event) : N := (clock (after h) - now)%N.
End History.
(** How many seconds a compiler had, in the message about its time. *)
Definition out_of_time (limit : N) (m : bytes) : Prop :=
  exists digits, m = B "compiler timed out (> " ++ digits ++ B " seconds)" /\ numeral_value digits = limit /\
    Forall (fun c => 48 <= c <= 57)%N digits /\ digits <> [].
Fixpoint killer_steps (h : list event) : nat :=
  match h with [] => 0 | Killer :: r => S (killer_steps r) | _ :: r => killer_steps r end.

(** An argument that is an option. *)
Definition is_option (a : bytes) : Prop := exists r, a = 45%N :: r.
(** The newest standard available. *)
Definition first_of (avail : bytes -> Prop) (l : list bytes) (x : bytes) : Prop :=
  exists a b, l = a ++ x :: b /\ avail x /\ forall y, In y a -> ~ avail y.
(** A file's name without its directories. *)
Definition names (f base : bytes) : Prop := ~ In 47%N base /\ (f = base \/ exists d, f = d ++ 47%N :: base).
(** C++ and C sources, by name. *)
Definition has_suffix (f suffix : bytes) : Prop := exists base stem,
  names f base /\ base = stem ++ suffix /\ exists c, In c stem /\ c <> 46%N.
