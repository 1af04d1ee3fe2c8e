(** What helper programs are given. *)
From Coq Require Import String.
From Verif Require Import Model.Bytes Model.Child Model.Helpers.
Local Open Scope list_scope.
Local Open Scope N_scope.

(** ** Templates *)
(** A template is a sequence of words; a word is made of text and names of files. *)
Inductive which := Input | Output | Answer.
Inductive piece := Text (s : bytes) | File (w : which).
Definition name_of (w : which) : bytes := match w with Input => B "input_file" | Output => B "output_file" | Answer => B "answer_file" end.
Definition file_of (f : files) (w : which) : bytes := match w with Input => input_file f | Output => output_file f | Answer => answer_file f end.
(** Plain text: no white space, quotation marks, backslashes or braces. *)
Definition plain (c : N) : Prop := ~ In c [32; 9; 13; 10; 39; 34; 92; 123; 125].
Definition plain_piece (p : piece) : Prop := match p with Text s => s <> [] /\ Forall plain s | File _ => True end.
Definition plain_word (w : list piece) : Prop := w <> [] /\ Forall plain_piece w.
(** How it is written, and what it stands for. *)
Definition written (p : piece) : bytes := match p with Text s => s | File w => 123 :: name_of w ++ [125] end.
Definition meaning (f : files) (p : piece) : bytes := match p with Text s => s | File w => file_of f w end.
Definition blank (s : bytes) : Prop := Forall (fun c => In c [32; 9; 13; 10]) s.
(** Words with white space between them, and maybe around them. *)
Inductive spelled : list (list piece) -> bytes -> Prop :=
| nothing : forall s, blank s -> spelled [] s
| last_word : forall lead w, blank lead -> plain_word w -> spelled [w] (lead ++ flat_map written w)
| next_word : forall lead w c ws s, blank lead -> plain_word w -> In c [32; 9; 13; 10] -> spelled ws s -> spelled (w :: ws) (lead ++ flat_map written w ++ c :: s).

(** ** Contents *)
Fixpoint content (made : list (bytes * bytes)) (name : bytes) : option bytes :=
  match made with [] => None | (n, d) :: r => if beqb name n then Some d else content r name end.
Definition distinct (temp : nat -> bytes) : Prop := forall i j, temp i = temp j -> i = j.

(** ** Pipes *)
Local Open Scope nat_scope.
(** A table without an end of pipe [id]. *)
Definition without (id : nat) (t : table) : Prop := forall n, t n <> Some (PipeRead id) /\ t n <> Some (PipeWrite id).
