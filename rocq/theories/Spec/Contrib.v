(** What a helper's stderr may say about partial points. *)
From Coq Require Import String List NArith ZArith Bool Ascii QArith.
From Verif Require Import Spec.Text.
Import ListNotations.

Fixpoint ascii_bytes (s : string) : list N :=
  match s with EmptyString => [] | String c r => N_of_ascii c :: ascii_bytes r end.

Definition digit (c : N) : Prop := (48 <= c <= 57)%N.
Definition numeral (ds : list N) : Prop := ds <> [] /\ Forall digit ds.
(** The value of a decimal numeral, most significant digit first. *)
Inductive denotes : list N -> Z -> Prop :=
| den_nil : denotes [] 0
| den_snoc ds z c : denotes ds z -> digit c -> denotes (ds ++ [c]) (10 * z + (Z.of_N c - 48)).

(** The lines of a text, separated by LF only. *)
Definition lf_lines (s : list N) : list (list N) := cut (N.eqb 10) s.

Definition says_points (line : list N) (n : Z) : Prop :=
  exists ds, line = ascii_bytes "points " ++ ds /\ numeral ds /\ denotes ds n.
Definition says_fraction (line : list N) (n d : Z) : Prop :=
  exists a b, line = ascii_bytes "partial " ++ a ++ ascii_bytes "/" ++ b /\
    numeral a /\ denotes a n /\ numeral b /\ denotes b d /\ (d <> 0)%Z.

(** [first_line P s x]: the first line of [s] about which [P] says something says [x]. *)
Definition first_line {X} (P : list N -> X -> Prop) (s : list N) (x : X) : Prop :=
  exists pre l post, lf_lines s = pre ++ l :: post /\ P l x /\ forall l', In l' pre -> forall x', ~ P l' x'.
Definition no_line {X} (P : list N -> X -> Prop) (s : list N) : Prop :=
  forall l, In l (lf_lines s) -> forall x, ~ P l x.

(** A rounding of the rationals: monotone, and exact on 0, 1 and the point value. *)
Local Open Scope Q_scope.
Definition rounding (rnd : Q -> Q) (pv : Q) : Prop :=
  (forall x y, x <= y -> rnd x <= rnd y) /\ rnd 0 == 0 /\ rnd 1 == 1 /\ rnd pv == pv.

(** A named fraction line. *)
Definition says_ratio (line : list N) (x : Z * Z) : Prop := says_fraction line (fst x) (snd x).
