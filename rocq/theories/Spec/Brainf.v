(** Brainf*** and the fragment of C it is translated to. *)
From Coq Require Import String.
From Verif Require Import Model.Bytes.
Local Open Scope list_scope.
Local Open Scope nat_scope.

(** Balanced brackets; everything else is free. *)
Inductive balanced : bytes -> Prop :=
| bal_nil : balanced []
| bal_other : forall c x, c <> 91%N -> c <> 93%N -> balanced x -> balanced (c :: x)
| bal_loop : forall b x, balanced b -> balanced x -> balanced (91%N :: b ++ 93%N :: x).

(** The eight commands; all other bytes are comments. *)
Definition is_command (c : N) : bool := existsb (N.eqb c) (B "><+-.,[]").
Definition commands (source : bytes) : bytes := filter is_command source.

(** A machine: where the pointer is, the cells (bytes), the input left, the output so far. *)
Record machine := { ptr : Z; cell : Z -> N; input : bytes; output : bytes }.
Definition store (s : machine) (v : N) : machine :=
  {| ptr := ptr s; cell := fun q => if (q =? ptr s)%Z then (v mod 256)%N else cell s q; input := input s; output := output s |}.
Definition move (s : machine) (d : Z) : machine :=
  {| ptr := (ptr s + d)%Z; cell := cell s; input := input s; output := output s |}.

(** One command other than a bracket: right, left, increment, decrement, write, read (255 at
    the end of the input). *)
Definition act (c : N) (s : machine) : machine :=
  if (c =? 62)%N then move s 1
  else if (c =? 60)%N then move s (-1)
  else if (c =? 43)%N then store s (cell s (ptr s) + 1)
  else if (c =? 45)%N then store s (cell s (ptr s) + 255)
  else if (c =? 46)%N then
    {| ptr := ptr s; cell := cell s; input := input s; output := output s ++ [cell s (ptr s)] |}
  else
    match input s with
    | [] => store s 255
    | v :: rest => store {| ptr := ptr s; cell := cell s; input := rest; output := output s |} v
    end.

(** The brackets at i and j of the program belong together. *)
Definition matching (p : bytes) (i j : nat) : Prop :=
  exists a b c, p = a ++ 91%N :: b ++ 93%N :: c /\ balanced b /\ length a = i /\ j = i + 1 + length b.

(** One step of a program at an instruction. *)
Inductive bf_step (p : bytes) : nat * machine -> nat * machine -> Prop :=
| bf_act : forall i s c, nth_error p i = Some c -> c <> 91%N -> c <> 93%N -> bf_step p (i, s) (S i, act c s)
| bf_enter : forall i s, nth_error p i = Some 91%N -> cell s (ptr s) <> 0%N -> bf_step p (i, s) (S i, s)
| bf_skip : forall i j s, matching p i j -> cell s (ptr s) = 0%N -> bf_step p (i, s) (S j, s)
| bf_back : forall i j s, matching p i j -> bf_step p (j, s) (i, s).

(** Steps of any relation, counted. *)
Inductive steps {A} (R : A -> A -> Prop) : nat -> A -> A -> Prop :=
| steps_0 : forall x, steps R 0 x x
| steps_S : forall n x y z, R x y -> steps R n y z -> steps R (S n) x z.

(** The C statements that occur, and how they are written. *)
Inductive stmt :=
| IncPtr | DecPtr | IncCell | DecCell | Put | Get
| While (body : list stmt).
Fixpoint c_text1 (t : stmt) : bytes :=
  match t with
  | IncPtr => B "++p;" | DecPtr => B "--p;" | IncCell => B "++*p;" | DecCell => B "--*p;"
  | Put => B "putchar(*p);" | Get => B "*p=getchar();"
  | While body => B "while(*p){" ++ (fix go l := match l with [] => [] | x :: r => c_text1 x ++ go r end) body ++ B "}"
  end.
Definition c_text (l : list stmt) : bytes := concat (map c_text1 l).

(** What they do: p is the pointer, *p a char (eight bits, wrapping), getchar gives -1 at the
    end, putchar writes the byte. *)
Definition c_act (t : stmt) (s : machine) : machine :=
  match t with
  | IncPtr => move s 1
  | DecPtr => move s (-1)
  | IncCell => store s (cell s (ptr s) + 1)
  | DecCell => store s (cell s (ptr s) + 255)
  | Put => {| ptr := ptr s; cell := cell s; input := input s; output := output s ++ [cell s (ptr s)] |}
  | Get => match input s with
           | [] => store s 255
           | v :: rest => store {| ptr := ptr s; cell := cell s; input := rest; output := output s |} v
           end
  | While _ => s
  end.
(** What is left to run: the statements of the innermost block, then those of the blocks
    around it. *)
Inductive c_step : list (list stmt) * machine -> list (list stmt) * machine -> Prop :=
| c_basic : forall t l k s, (forall b, t <> While b) -> c_step ((t :: l) :: k, s) (l :: k, c_act t s)
| c_enter : forall b l k s, cell s (ptr s) <> 0%N -> c_step ((While b :: l) :: k, s) (b :: (While b :: l) :: k, s)
| c_leave : forall b l k s, cell s (ptr s) = 0%N -> c_step ((While b :: l) :: k, s) (l :: k, s)
| c_end : forall b k s, c_step ([] :: b :: k, s) (b :: k, s).
Definition c_finished (f : list (list stmt)) : Prop := f = [[]].
