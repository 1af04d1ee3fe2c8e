(** Configuration nodes used as collections: the rest of dmoj/config.py ConfigNode, over the
    lookups of Model/Config.v. *)
From Coq Require Import String.
From Verif Require Import Model.Bytes Model.Config.
Local Open Scope nat_scope.
Local Open Scope list_scope.

(** dict.update with a mapping *)
Definition merge (d new : dict) : dict := fold_left (fun acc kv => store (fst kv) (snd kv) acc) new d.
(** config.py:47-54 __init__ with no parent; [None] = TypeError or ValueError of dict.update.
    Simplification: lists of pairs, which dict.update takes for a mapping, count as wrong. *)
Definition make (raw : value) (defaults : dict) : option chain :=
  match defaults with
  | [] => Some [or_empty raw]
  | _ => match or_empty raw with VDict d => Some [VDict (merge defaults d)] | _ => None end
  end.
(** config.py:56-57 *)
Definition unwrap (c : chain) : value := match c with raw :: _ => raw | [] => Null end.
(** config.py:59-63: [None] = InvalidInitException *)
Definition update (c : chain) (new : dict) : option chain :=
  match c with VDict d :: ps => Some (VDict (merge d new) :: ps) | _ => None end.
(** config.py:65-68: [None] = InvalidInitException *)
Definition keys (c : chain) : option (list (list N)) :=
  match c with VDict d :: _ => Some (map fst d) | _ => None end.
(** config.py:73-81 items, iteritems, read to the end: [None] = InvalidInitException, raised when
    the first pair is asked for *)
Definition items (c : chain) : option (list (list N * result)) :=
  match c with VDict d :: _ => Some (map (fun kv => (fst kv, wrap (snd kv) c)) d) | _ => None end.
(** config.py:122-123; [None] = TypeError *)
Definition len (c : chain) : option nat :=
  match unwrap c with
  | VList l => Some (length l)
  | VDict d => Some (length d)
  | VStr s => Some (length s)
  | Null | VBool _ | VInt _ => None
  end.
(** config.py:125-126 with a str for the item; [None] = TypeError *)
Definition set_key (c : chain) (k : list N) (v : value) : option chain :=
  match c with VDict d :: ps => Some (VDict (store k v d) :: ps) | _ => None end.
(** l[i] = v *)
Fixpoint replace_nth (i : nat) (v : value) (l : list value) : list value :=
  match l, i with
  | [], _ => []
  | _ :: r, O => v :: r
  | x :: r, S j => x :: replace_nth j v r
  end.
(** config.py:125-126 with an int for the item, on a node over a list; [None] = IndexError, or a
    TypeError on other nodes.  (On a mapping it would store an integer key, which documents here
    do not have: left out.) *)
Definition set_index (c : chain) (z : Z) (v : value) : option chain :=
  match c with
  | VList l :: ps =>
      if (0 <=? z)%Z then if (z <? Z.of_nat (length l))%Z then Some (VList (replace_nth (Z.to_nat z) v l) :: ps) else None
      else if (0 <=? z + Z.of_nat (length l))%Z then Some (VList (replace_nth (Z.to_nat (z + Z.of_nat (length l))) v l) :: ps) else None
  | _ => None
  end.

(** What stands on the other side of a plus sign. *)
Inductive operand := AList (l : list value) | ADict (d : dict) | ANode (c : chain) | AnythingElse.
Inductive sum := ListOf (l : list value) | NodeOf (c : chain) | TypeErr.
(** config.py:137-143 __add__; nodes over scalars, which have no use for it, give an error here *)
Definition add (c : chain) (o : operand) : sum :=
  match unwrap c, o with
  | VList a, AList b => ListOf (a ++ b)
  | VList a, ANode (VList b :: _) => NodeOf [or_empty (VList (a ++ b))]
  | _, _ => TypeErr
  end.
(** config.py:145-149 __radd__: reached when the left operand is not a node *)
Definition radd (o : operand) (c : chain) : sum :=
  match o, unwrap c with
  | AList b, VList a => ListOf (b ++ a)
  | _, _ => TypeErr
  end.
