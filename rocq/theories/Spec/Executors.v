(** What a judge offers.  Independent of the model. *)
From Coq Require Import List NArith ZArith Bool.
From Verif Require Import Spec.Text.
Import ListNotations.
Local Open Scope N_scope.

Definition upper_or_digit (c : N) : Prop := 65 <= c <= 90 \/ 48 <= c <= 57.
(** The file of executor module [n]: its name, made of capitals and digits, and ".py". *)
Definition executor_file (f n : list N) : Prop :=
  n <> [] /\ Forall upper_or_digit n /\ f = n ++ [46; 112; 121].

Definition lower (c : N) : Prop := 97 <= c <= 122.
(** The file of a contrib module [n]: its name, made of small letters, and ".py", whatever follows. *)
Definition contrib_file (f n : list N) : Prop :=
  n <> [] /\ Forall lower n /\ exists rest, f = n ++ [46; 112; 121] ++ rest.

(** Lexicographic order of names by bytes. *)
Inductive before : list N -> list N -> Prop :=
| before_end y s : before [] (y :: s)
| before_here x y r s : x < y -> before (x :: r) (y :: s)
| before_later x r s : before r s -> before (x :: r) (x :: s).
Inductive ascending : list (list N) -> Prop :=
| asc_nil : ascending []
| asc_cons x l : Forall (before x) l -> ascending l -> ascending (x :: l).

(** A dotted version: at least two runs of digits joined by dots. *)
Definition dec (c : N) : Prop := 48 <= c <= 57.
Fixpoint value (acc : Z) (ds : list N) : Z :=
  match ds with [] => acc | c :: r => value (10 * acc + (Z.of_N c - 48))%Z r end.
Inductive dotted : list N -> list Z -> Prop :=
| dotted_two a b : a <> [] -> Forall dec a -> b <> [] -> Forall dec b ->
    dotted (a ++ 46 :: b) [value 0 a; value 0 b]
| dotted_more a s v : a <> [] -> Forall dec a -> dotted s v -> dotted (a ++ 46 :: s) (value 0 a :: v).
(** The first dotted version in a text: it starts leftmost and, from there, is longest. *)
Definition first_version (out : list N) (v : list Z) : Prop :=
  exists pre num post, out = pre ++ num ++ post /\ dotted num v /\
    forall pre' num' post' v', out = pre' ++ num' ++ post' -> dotted num' v' ->
      (length pre <= length pre')%nat /\ (length pre = length pre' -> (length num' <= length num)%nat).
