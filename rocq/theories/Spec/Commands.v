(** A local session.  Independent of the model's functions. *)
From Coq Require Import List NArith ZArith.
Import ListNotations.

(** Entry number [id] (counting from 1) of a list. *)
Definition entry_number {A} (l : list A) (id : Z) (e : A) : Prop :=
  exists before after, l = before ++ e :: after /\ id = Z.of_nat (S (length before)).
(** The part of a file name after its first dot. *)
Definition extension (f ext : list N) : Prop := exists base, ~ In 46%N base /\ f = base ++ 46%N :: ext.
Definition capital (c d : N) : Prop := (97 <= c <= 122 /\ d = c - 32)%N \/ (~ (97 <= c <= 122)%N /\ d = c).
Definition capitals : list N -> list N -> Prop := Forall2 capital.
