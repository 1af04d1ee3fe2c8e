(** What "lines", "words" and "the same layout" mean.  Independent of the model. *)
From Coq Require Import List NArith Bool.
Import ListNotations.
Local Open Scope N_scope.

Definition whitespace (c : N) : Prop := c = 32 \/ c = 9 \/ c = 10 \/ c = 11 \/ c = 12 \/ c = 13.
Definition newline (c : N) : Prop := c = 10 \/ c = 13.

Definition whitespace_dec (c : N) : bool := existsb (N.eqb c) [32; 9; 10; 11; 12; 13].
Definition newline_dec (c : N) : bool := existsb (N.eqb c) [10; 13].

(** Cut at every separator: "a,b,,c" gives a / b / (empty) / c. *)
Fixpoint cut (sep : N -> bool) (s : list N) : list (list N) :=
  match s with
  | [] => [[]]
  | c :: r =>
      if sep c then [] :: cut sep r
      else match cut sep r with
           | w :: ws => (c :: w) :: ws
           | [] => [[c]]
           end
  end.

Definition nonnil {A} (l : list A) : bool := match l with [] => false | _ => true end.

Definition lines (s : list N) : list (list N) := cut newline_dec s.
Definition nonempty_lines (s : list N) : list (list N) := filter nonnil (lines s).
Definition words (s : list N) : list (list N) := filter nonnil (cut whitespace_dec s).

(** The lines that contain at least one word, each as its list of words. *)
Definition layout (s : list N) : list (list (list N)) := filter nonnil (map words (lines s)).

(** Two strings that differ only in trailing (resp. surrounding) whitespace. *)
Definition all_white (s : list N) : Prop := Forall whitespace s.
Definition same_upto_trailing (a b : list N) : Prop :=
  exists t wa wb, a = t ++ wa /\ b = t ++ wb /\ all_white wa /\ all_white wb.
Definition same_upto_surrounding (a b : list N) : Prop :=
  exists t la ra lb rb, a = la ++ t ++ ra /\ b = lb ++ t ++ rb /\
    all_white la /\ all_white ra /\ all_white lb /\ all_white rb.

(** ASCII case folding and the multiset of visible characters. *)
Definition fold_case (c : N) : N := if (65 <=? c) && (c <=? 90) then c + 32 else c.
Definition visible_folded (s : list N) : list N :=
  map fold_case (filter (fun c => negb (whitespace_dec c)) s).

(** [agree_count ps js k]: exactly [k] positions hold lines that agree up to
    surrounding whitespace. *)
Inductive agree_count : list (list N) -> list (list N) -> nat -> Prop :=
| ac_left js : agree_count [] js 0
| ac_right ps : agree_count ps [] 0
| ac_yes p j ps js k : same_upto_surrounding p j -> agree_count ps js k ->
    agree_count (p :: ps) (j :: js) (S k)
| ac_no p j ps js k : ~ same_upto_surrounding p j -> agree_count ps js k ->
    agree_count (p :: ps) (j :: js) k.
