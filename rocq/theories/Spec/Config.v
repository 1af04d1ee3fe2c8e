(** What configuration lookups mean. *)
From Coq Require Import String.
From Verif Require Import Model.Bytes Model.Config.

(** A mapping or list gives a value to an item. *)
Inductive defines : value -> item -> value -> Prop :=
| def_dict : forall d k v, In (k, v) d -> defines (VDict d) (Key k) v
| def_nth : forall l i v, nth_error l i = Some v -> defines (VList l) (Index (Z.of_nat i)) v
| def_last : forall l i v, nth_error (rev l) i = Some v -> defines (VList l) (Index (- Z.of_nat i - 1)) v.
Definition undefined (raw : value) (it : item) : Prop := forall v, ~ defines raw it v.

(** No mapping repeats a key. *)
Definition unique_keys (raw : value) : Prop := match raw with VDict d => NoDup (map fst d) | _ => True end.
(** Neither [k++] nor [k+] is present. *)
Definition plain_for (it : item) (raw : value) : Prop :=
  match it with Key k => undefined raw (Key (k ++ B "++")) /\ undefined raw (Key (k ++ B "+")) | Index _ => True end.

(** The nodes a program can get hold of: a document, and what lookups and iteration
    give. *)
Inductive reachable (run : bool -> value -> chain -> option value) : chain -> Prop :=
| r_root : forall raw, reachable run [raw]
| r_after : forall c it r c' ev, reachable run c -> getitem run c it = Got r c' ev -> reachable run c'
| r_item : forall c it c1 c' ev, reachable run c -> getitem run c it = Got (Sub c1) c' ev -> reachable run c1
| r_iter : forall c c1, reachable run c -> In (Sub c1) (iterate c) -> reachable run c1.

(** The value behind a result. *)
Definition value_of (r : result) : value := match r with Plain v => v | Sub (raw :: _) => raw | Sub [] => Null end.

(** A history of reads; a read that raises leaves the node as it was. *)
Fixpoint reads (run : bool -> value -> chain -> option value) (c : chain) (ks : list (list N)) : chain * list (nat * list N) :=
  match ks with
  | [] => (c, [])
  | k :: r =>
      match getitem run c (Key k) with
      | Got _ c' ev => let (c2, ev2) := reads run c' r in (c2, ev ++ ev2)
      | Invalid => reads run c r
      end
  end.
Definition ends_in_plus (k : list N) : Prop := exists p, k = p ++ B "+".

(** Flattening numbered cases: positions of the cases, numbers of the batches, in order. *)
Section Flat.
  Context {A : Type}.
  Fixpoint positions (t : test_case A) : list nat :=
    match t with Case p _ _ => [p] | Batch _ _ l => flat_map positions l end.
  Fixpoint batches (t : test_case A) : list nat :=
    match t with Case _ _ _ => [] | Batch n _ l => n :: flat_map batches l end.
  (** A configuration with at most one level of batches. *)
  Definition flat_batch (c : case_cfg A) : Prop :=
    match c with CaseCfg _ => True | BatchCfg _ l => Forall (fun x => exists a, x = CaseCfg a) l end.
  (** The same tree without the numbers. *)
  Fixpoint erase (t : test_case A) : case_cfg A :=
    match t with Case _ _ a => CaseCfg a | Batch _ a l => BatchCfg a (map erase l) end.
  Definition in_own_batch (t : test_case A) : Prop :=
    match t with
    | Case _ b _ => b = 0
    | Batch n _ l => Forall (fun x => match x with Case _ b _ => b = n | Batch _ _ _ => False end) l
    end.
End Flat.
