(** Meaning of a pattern: [Matches r s t] if [r] can match a beginning of [s] leaving [t]. *)
From Verif Require Import Model.Bytes Model.Regex.
Local Open Scope list_scope.
Fixpoint Matches (r : re) (s t : list N) : Prop :=
  match r with
  | Eps => t = s
  | Chr c => s = c :: t
  | Cat a b => exists u, Matches a s u /\ Matches b u t
  | Alt a b => Matches a s t \/ Matches b s t
  | Opt a => Matches a s t \/ t = s
  | End => t = s /\ (s = [] \/ s = [10%N])
  | Not a => t = s /\ forall u, ~ Matches a s u
  | Cls k => exists c, s = c :: t /\ in_cls k c = true
  | Many k => exists w, s = w ++ t /\ Forall (fun c => in_cls k c = true) w
  end.
