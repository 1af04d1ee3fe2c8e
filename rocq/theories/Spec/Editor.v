From Coq Require Import String.
From Verif Require Import Model.Bytes Model.Editor Spec.Text.
Local Open Scope list_scope.

(** A line with which the user says that they are done: :q, with blanks around. *)
Definition stop_line (s : bytes) : Prop := exists a b, s = a ++ B ":q" ++ b /\ all_white a /\ all_white b.
(** The text made of the lines: each line ended by a line feed, but for the last feed. *)
Definition text_of (lines : list bytes) (t : bytes) : Prop :=
  match lines with [] => t = [] | _ => t ++ [LF] = flat_map (fun l => l ++ [LF]) lines end.
