(** What to expect of the judge and its worker process. *)
From Coq Require Import List Arith.
From Verif Require Import Model.Ipc.
Import ListNotations.

(** How often the grading thread goes on to something else. *)
Definition kind (t : jthread) : nat :=
  match t with JPolling _ => 0 | JHandling _ => 1 | JReplying => 2 | JFailing => 3 | JTearDown => 4 | JJoining _ => 5 | JDone => 6 end.
Definition is_turn (timeout : nat) (s : state) (m : move) : bool :=
  negb (kind (thread s) =? kind (thread (step timeout s m))).
Fixpoint turns (timeout : nat) (s : state) (ms : list move) : nat :=
  match ms with [] => 0 | m :: r => (if is_turn timeout s m then 1 else 0) + turns timeout (step timeout s m) r end.
(** A schedule in which the grading thread, a worker that waits to end, a caller of abort and
    the clock each get their turn again and again, with anything in between. *)
Definition in_rounds (rs : list (list move * bool)) : list move :=
  flat_map (fun r => fst r ++ [Judge (snd r); Exit; AbortWait; Tick]) rs.
(** An uneventful grading: nobody aborts, nothing crashes, no handler raises; time passes only
    while there is nothing to read, the worker reports in time and ends in time. *)
Definition quiet (s : state) : Prop :=
  (recv s = RListening -> back s = [])
  /\ match thread s with
     | JPolling d => pipe s = [] /\ S (clock s) < d
     | JJoining d => S (clock s) < d
     | JDone => True
     | _ => False
     end.
Fixpoint calm (timeout : nat) (s : state) (ms : list move) : Prop :=
  match ms with
  | [] => True
  | m :: r => match m with
              | Crash | AbortCall | Lost | Judge true => False
              | Tick => quiet s
              | _ => True
              end /\ calm timeout (step timeout s m) r
  end.
