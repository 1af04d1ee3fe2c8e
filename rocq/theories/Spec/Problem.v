(** What problem data means. *)
From Coq Require Import String Sorted.
From Verif Require Import Model.Bytes Model.Problem.
Local Open Scope list_scope.

(** The lines of a text in which any of LF, CR and CRLF ends a line. *)
Definition LF : N := 10.
Definition CR : N := 13.
Inductive Lines : list N -> list (list N) -> Prop :=
| L_nil : Lines [] []
| L_last : forall l, l <> [] -> ~ In LF l -> ~ In CR l -> Lines l [l]
| L_lf : forall l rest ls, ~ In LF l -> ~ In CR l -> Lines rest ls -> Lines (l ++ LF :: rest) (l :: ls)
| L_crlf : forall l rest ls, ~ In LF l -> ~ In CR l -> Lines rest ls -> Lines (l ++ CR :: LF :: rest) (l :: ls)
| L_cr : forall l rest ls, ~ In LF l -> ~ In CR l -> hd_error rest <> Some LF -> Lines rest ls -> Lines (l ++ CR :: rest) (l :: ls).
(** A text with every line ended by LF. *)
Definition unix (ls : list (list N)) : list N := concat (map (fun l => l ++ [LF]) ls).

(** The order of ids: numbers by value, words lexicographically; never one of each. *)
Inductive id_lt : id -> id -> Prop :=
| lt_int : forall x y, (x < y)%Z -> id_lt (IInt x) (IInt y)
| lt_prefix : forall p c r, id_lt (IStr p) (IStr (p ++ c :: r))
| lt_char : forall p a b r q, (a < b)%N -> id_lt (IStr (p ++ a :: r)) (IStr (p ++ b :: q)).
Definition comparable (a b : id) : Prop := match a, b with IInt _, IInt _ => True | IStr _, IStr _ => True | _, _ => False end.

Section Match.
  Variable parse : role -> list N -> option (option id * option id).
  Variable names : list (list N).
  (** Some archive member is given batch [b] and case [c] in role [r]. *)
  Definition member (r : role) (b : option id) (c : id) (n : list N) : Prop := In n names /\ parse r n = Some (b, Some c).
  (** The group a member is filed under: its batch, if that is neither absent nor zero nor
      empty, else its case. *)
  Definition group (b : option id) (c : id) : id := match b with None | Some (IInt 0%Z) | Some (IStr []) => c | Some x => x end.
  (** There is a member for case [c] of group [g]. *)
  Definition occurs (g c : id) : Prop := exists r b n, member r b c n /\ group b c = g.
  Definition is_batch_id (g : id) : Prop := exists r c n, member r (Some g) c n.
  (** The last archive member filed under group [g] and case [c] in a role. *)
  Definition filed (r : role) (g c : id) (n : list N) : bool :=
    match parse r n with Some (b, Some c') => id_eqb c c' && id_eqb g (group b c') | _ => false end.
  Definition last_filed (r : role) (g c : id) : option (list N) := hd_error (rev (filter (filed r g c) names)).
  Definition files_of (g c : id) : entry := {| input_file := last_filed InputFile g c; output_file := last_filed OutputFile g c |}.

  (** One result entry, for a group, with its points. *)
  Inductive entry_for {P} (g : id) (p : P) : matched P -> Prop :=
  | ef_batch : forall cs, is_batch_id g -> StronglySorted id_lt cs -> (forall c, In c cs <-> occurs g c) ->
      entry_for g p (MBatch (map (files_of g) cs) p)
  | ef_case : forall c, ~ is_batch_id g -> (forall c', occurs g c' <-> c' = c) -> entry_for g p (MCase (files_of g c) p).
End Match.
