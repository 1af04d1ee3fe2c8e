(** What a caller may rely on when talking to a process. *)
From Verif Require Import Model.Bytes Model.Communicate.

Definition prefix {A} (p l : list A) : Prop := exists r, l = p ++ r.
Definition size (l : list N) : N := N.of_nat (length l).

(** The process closed its input early (a write failed with EPIPE, or only a hang-up was
    reported), somewhere in the schedule. *)
Definition closes_input (p : poll_result) : Prop :=
  match p with Ready l => In (Stdin, Writable EPipe) l \/ In (Stdin, HangUp) l | _ => False end.

(** Poll entries of a schedule that are about something that can happen (and so advance
    the exchange), counted along the run. *)
Section Count.
  Variables (pb rs : nat) (input : list N) (ho he : bool) (ol el : N).
  Fixpoint live_entries (s : cstate) (l : list (fd * mode)) : nat :=
    match l with
    | [] => 0
    | e :: r => (if possible s e then 1 else 0) +
                match on_entry pb rs input ho ol el s e with Running s' => live_entries s' r | _ => 0 end
    end.
  Fixpoint live_polls (st : status) (ps : list poll_result) : nat :=
    match ps with
    | [] => 0
    | p :: r =>
        (match st, p with Running s, Ready l => live_entries s l | _, _ => 0 end) +
        live_polls (poll_step pb rs input ho ol el st p) r
    end.
End Count.
