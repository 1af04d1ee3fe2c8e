(** What an interactor should see.  Independent of the model. *)
From Coq Require Import List NArith ZArith.
From Verif Require Import Spec.Text.
Import ListNotations.
Local Open Scope N_scope.

(** The lines of an output: cut after every newline (byte 10); what follows the last
    newline is a line too unless it is empty.  The newlines are left out. *)
Definition is_lf (c : N) : bool := c =? 10.
Fixpoint drop_last_empty (ls : list (list N)) : list (list N) :=
  match ls with
  | [] => []
  | [ [] ] => []
  | l :: r => l :: drop_last_empty r
  end.
Definition file_lines (s : list N) : list (list N) := drop_last_empty (cut is_lf s).

(** A line as tokens: its words; but a blank line counts as one empty token, and a
    line's only word keeps the white space before it. *)
Definition line_tokens (l : list N) (ts : list (list N)) : Prop :=
  match words l with
  | [] => ts = [ [] ]
  | [w] => exists before, all_white before /\ ts = [before ++ w] /\ exists after, all_white after /\ l = before ++ w ++ after
  | ws => ts = ws
  end.

(** A line that has words and begins with one. *)
Definition tidy (l : list N) : Prop := exists c r, l = c :: r /\ ~ whitespace c.

(** Decimal integers as Python writes and reads them. *)
Definition digit (c : N) : Prop := 48 <= c <= 57.
Inductive digits : list N -> Z -> nat -> Prop :=
| digits_one c : digit c -> digits [c] (Z.of_N c - 48)%Z 1
| digits_more s v n c : digits s v n -> digit c -> digits (s ++ [c]) (10 * v + (Z.of_N c - 48))%Z (S n)
| digits_grouped s v n c : digits s v n -> digit c -> digits (s ++ [95; c]) (10 * v + (Z.of_N c - 48))%Z (S n).
Inductive signed : list N -> Z -> nat -> Prop :=
| signed_none s v n : digits s v n -> signed s v n
| signed_plus s v n : digits s v n -> signed (43 :: s) v n
| signed_minus s v n : digits s v n -> signed (45 :: s) (- v)%Z n.
(** [integer limit s v]: [s] reads as [v], in at most [limit] digits (0 = any number). *)
Definition integer (limit : nat) (s : list N) (v : Z) : Prop :=
  exists before t after n, s = before ++ t ++ after /\ all_white before /\ all_white after /\
    signed t v n /\ (limit = 0%nat \/ (n <= limit)%nat).

Definition between (lo hi : option Z) (v : Z) : Prop :=
  (forall l, lo = Some l -> (l <= v)%Z) /\ (forall h, hi = Some h -> (v <= h)%Z).

(** [a] is what stands before the first occurrence of [d] in [s], [b] what follows it. *)
Definition first_cut (d s a b : list N) : Prop :=
  s = a ++ d ++ b /\ forall a' b', s = a' ++ d ++ b' -> (length a <= length a')%nat.

(** The results of [k] successive calls. *)
Fixpoint calls {S A : Type} (f : S -> A * S) (k : nat) (s : S) : list A :=
  match k with
  | O => []
  | S n => let (a, s') := f s in a :: calls f n s'
  end.

(** The first line of a non-empty output and what follows it. *)
Definition next_line (s l rest : list N) : Prop :=
  ~ In 10 l /\ (s = l ++ 10 :: rest \/ (s = l /\ l <> [] /\ rest = [])).
(** [t] is [l] without its trailing white space. *)
Definition without_trailing (l t : list N) : Prop :=
  (exists w, l = t ++ w /\ all_white w) /\ (forall u c, t = u ++ [c] -> ~ whitespace c).
(** A text of at most five characters as it is, another one cut after the fifth and marked. *)
Definition shortened (x a : list N) : Prop :=
  ((length x <= 5)%nat /\ a = x) \/ exists h r, x = h ++ r /\ length h = 5%nat /\ r <> [] /\ a = h ++ [46; 46; 46].
