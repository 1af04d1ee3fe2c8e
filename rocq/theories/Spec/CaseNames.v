(** Which test case a file belongs to, by its name. *)
From Coq Require Import String.
From Verif Require Import Model.Bytes Model.Regex Model.Problem.
Local Open Scope list_scope.

(** Digits are those Unicode calls decimal, word characters its letters and digits and the
    underscore ([Regex.is_digit], [Regex.is_word]); white space: *)
Definition spaces : list N :=
  [9; 10; 11; 12; 13; 28; 29; 30; 31; 32; 133; 160; 5760; 8192; 8193; 8194; 8195; 8196; 8197; 8198; 8199;
   8200; 8201; 8202; 8232; 8233; 8239; 8287; 12288]%N.
Definition number (s : list N) : Prop := s <> [] /\ Forall (fun c => is_digit c = true) s.
Definition plain (s : list N) : Prop := Forall (fun c => is_digit c = false /\ ~ In c spaces) s.

(** [c] is the last number of the name; [pre] is what stands before it, and no white space
    stands behind it. *)
Definition last_number (name pre c : list N) : Prop :=
  exists y, name = pre ++ c ++ y /\ number c /\ plain y /\ (forall p d, pre = p ++ [d] -> is_digit d = false).
(** [b] is the last number of [pre]; something stands behind it, but no white space, and it is
    at the start or follows a character that is not a word character. *)
Definition own_number (pre b : list N) : Prop :=
  exists q x, pre = q ++ b ++ x /\ number b /\ plain x /\ x <> [] /\
    (q = [] \/ exists q' s, q = q' ++ [s] /\ is_word s = false).
(** The batch and case of a name, as written in it. *)
Definition position (name : list N) (b : option (list N)) (c : list N) : Prop :=
  exists pre, last_number name pre c /\
  match b with Some n => own_number pre n | None => forall n, ~ own_number pre n end.

(** Is the name that of an input (output)?  Letter case is ignored. *)
Definition letter (c x : N) : Prop :=
  x = c \/ (97 <= c /\ x + 32 = c)%N \/ (c = 105 /\ (x = 304 \/ x = 305))%N.
Definition written (w s : list N) : Prop := Forall2 letter w s.
Definition marked (w : list N) (name : list N) : Prop :=
  (exists a m z, name = a ++ m ++ z /\ written (46%N :: w) m) \/ (exists m z, name = m ++ z /\ written w m).
Definition mark (r : role) : list N := match r with InputFile => B "in" | OutputFile => B "out" end.

(** An archive laid out by a plan: single cases and batches of cases, by number, each case with
    an input and an output file named after it.  [dec] writes a number, [w] is what all names
    start with, [sep] stands between the number of a batch and that of a case. *)
Inductive item := Single (k : N) | Batched (b : N) (cs : list N).
Definition number_of (i : item) : N := match i with Single k => k | Batched b _ => b end.
Section Plan.
  Variable dec : N -> list N.
  Variables w sep : list N.
  Definition single_name (k : N) : list N := w ++ dec k.
  Definition batch_name (b c : N) : list N := w ++ dec b ++ sep ++ dec c.
  Definition case_names (i : item) : list (list N) :=
    match i with Single k => [single_name k] | Batched b cs => map (batch_name b) cs end.
  Definition files (s : list N) : entry := {| input_file := Some (s ++ B ".in"); output_file := Some (s ++ B ".out") |}.
  (** The test case (batch) an item of the plan describes. *)
  Definition described {P} (i : item) (points : P) : matched P :=
    match i with
    | Single k => MCase (files (single_name k)) points
    | Batched b cs => MBatch (map (fun c => files (batch_name b c)) cs) points
    end.
End Plan.
