(** Configuration nodes: dmoj/config.py ConfigNode; and what reads them first:
    dmoj/problem.py grader_class, dmoj/graders/base.py case numbering. *)
From Coq Require Import String.
From Verif Require Import Model.Bytes.

(** A YAML document.  Simplification: floats and dates are left out (they behave as
    opaque scalars), mapping keys are strings with no repetition. *)
Inductive value :=
| Null | VBool (b : bool) | VInt (z : Z) | VStr (s : list N)
| VList (l : list value) | VDict (d : list (list N * value)).
Definition dict := list (list N * value).
Inductive item := Key (k : list N) | Index (z : Z).

Fixpoint find (k : list N) (d : dict) : option value :=
  match d with [] => None | (k', v) :: r => if beqb k k' then Some v else find k r end.
Definition has (k : list N) (d : dict) : bool := match find k d with Some _ => true | None => false end.
(** del d[k] *)
Fixpoint remove (k : list N) (d : dict) : dict :=
  match d with [] => [] | (k', v) :: r => if beqb k k' then r else (k', v) :: remove k r end.
(** d[k] = v *)
Fixpoint store (k : list N) (v : value) (d : dict) : dict :=
  match d with [] => [(k, v)] | (k', v') :: r => if beqb k k' then (k', v) :: r else (k', v') :: store k v r end.

(** Python truth of a value; a ConfigNode is true iff its raw config is not empty
    (config.py:122-123, [__len__]). *)
Definition truthy (v : value) : bool :=
  match v with
  | Null => false
  | VBool b => b
  | VInt z => negb (z =? 0)%Z
  | VStr s => match s with [] => false | _ => true end
  | VList l => match l with [] => false | _ => true end
  | VDict d => match d with [] => false | _ => true end
  end.
(** config.py:49-54: [raw_config or {}] *)
Definition or_empty (v : value) : value := if truthy v then v else VDict [].
Definition is_container (v : value) : bool := match v with VList _ | VDict _ => true | _ => false end.

(** l[z] for a list: negative indices count from the end. *)
Definition list_index (l : list value) (z : Z) : option value :=
  if (0 <=? z)%Z then nth_error l (Z.to_nat z)
  else if (0 <=? z + Z.of_nat (length l))%Z then nth_error l (Z.to_nat (z + Z.of_nat (length l))) else None.
(** self.raw_config[item]; [None] = KeyError, IndexError or TypeError (config.py:118).
    An integer item on a mapping always ends there: by the TypeError of [item + '++']
    for dynamic nodes, by KeyError otherwise. *)
Definition raw_item (raw : value) (it : item) : option value :=
  match raw, it with
  | VDict d, Key k => find k d
  | VList l, Index z => list_index l z
  | _, _ => None
  end.

(** A node is its raw config followed by those of its parents, nearest first. *)
Definition chain := list value.
Inductive result :=
| Plain (v : value)                 (* a scalar, or None *)
| Sub (c : chain).                  (* a ConfigNode *)
(** config.py:115-117 *)
Definition wrap (v : value) (c : chain) : result :=
  if is_container v then Sub (or_empty v :: c) else Plain v.

Definition block_key (k : list N) : list N := k ++ B "++".
Definition expr_key (k : list N) : list N := k ++ B "+".

Section Dynamic.
  (** Running a dynamic key's code with [node] bound to the given node: [run is_block code
      node] is the value produced, or [None] if it raises.  Simplification: code is a
      function of those; a block leaving [node] bound to a ConfigNode stores its raw value. *)
  Variable run : bool -> value -> chain -> option value.

  (** config.py:88-113: evaluate the dynamic key for [it], if there is one.  [None] =
      InvalidInitException.  The evaluated key is reported. *)
  Definition resolve (raw : value) (parents : chain) (it : item) : option (value * list (list N)) :=
    match raw, it with
    | VDict d, Key k =>
        let node := or_empty (match find k d with Some v => v | None => VDict [] end) :: raw :: parents in
        match find (block_key k) d with
        | Some code =>
            match run true code node with
            | Some v => Some (VDict (store k v (remove (block_key k) d)), [block_key k])
            | None => None
            end
        | None =>
            match find (expr_key k) d with
            | Some code =>
                match run false code node with
                | Some v => Some (VDict (store k v (remove (expr_key k) d)), [expr_key k])
                | None => None
                end
            | None => Some (raw, [])
            end
        end
    | _, _ => Some (raw, [])
    end.

  Inductive outcome :=
  | Got (r : result) (c : chain) (evaluated : list (nat * list N))   (* depth (number of parents) and key *)
  | Invalid.
  (** config.py:86-120 __getitem__.  The chain returned is the node after the lookup. *)
  Fixpoint getitem (c : chain) (it : item) : outcome :=
    match c with
    | [] => Got (Plain Null) [] []
    | raw :: parents =>
        match resolve raw parents it with
        | None => Invalid
        | Some (raw', ev) =>
            let ev' := map (fun k => (length parents, k)) ev in
            match raw_item raw' it with
            | Some v => Got (wrap v (raw' :: parents)) (raw' :: parents) ev'
            | None =>
                match parents with
                | [] => Got (Plain Null) [raw'] ev'
                | p :: _ =>
                    if truthy p                     (* [if self.parent] *)
                    then match getitem parents it with
                         | Got r ps ev2 => Got r (raw' :: ps) (ev' ++ ev2)
                         | Invalid => Invalid
                         end
                    else Got (Plain Null) (raw' :: parents) ev'
                end
            end
        end
    end.

  Definition res_truthy (r : result) : bool :=
    match r with Plain v => truthy v | Sub (raw :: _) => truthy raw | Sub [] => false end.
  (** config.py:70-71 *)
  Definition get (c : chain) (k : list N) (default : result) : outcome :=
    match getitem c (Key k) with
    | Got r c' ev => Got (if res_truthy r then r else default) c' ev
    | Invalid => Invalid
    end.
  (** item.replace('_', '-') *)
  Definition hyphens (k : list N) : list N := map (fun c => if (c =? 95)%N then 45%N else c) k.
  (** config.py:83-84 __getattr__ *)
  Definition getattr (c : chain) (k : list N) : outcome :=
    match getitem c (Key k) with
    | Invalid => Invalid
    | Got r c' ev =>
        match getitem c' (Key (match r with Plain Null => hyphens k | _ => k end)) with
        | Invalid => Invalid
        | Got r2 c2 ev2 => Got r2 c2 (ev ++ ev2)
        end
    end.
  (** config.py:128-132 __iter__ over a list node; iterating a mapping gives its keys. *)
  Definition iterate (c : chain) : list result :=
    match c with
    | VList l :: _ => map (fun v => wrap v c) l
    | VDict d :: _ => map (fun kv => Plain (VStr (fst kv))) d
    | _ => []
    end.
End Dynamic.

(** [k in node]: no __contains__, so Python iterates. *)
Definition in_node (k : list N) (c : chain) : bool :=
  existsb (fun r => match r with Plain (VStr s) => beqb k s | _ => false end) (iterate c).

(** ** problem.py:162-173 *)
Inductive grader := CustomGrader | SignatureGrader | BridgedInteractiveGrader | StandardGrader.
Definition grader_class (config : chain) : grader :=
  if in_node (B "custom_judge") config then CustomGrader
  else if in_node (B "signature_grader") config then SignatureGrader
  else if in_node (B "interactive") config then BridgedInteractiveGrader
  else StandardGrader.

(** ** Numbering of cases (graders/base.py:32-52, problem.py:210-218)

    [CaseCfg] is an entry without, [BatchCfg] one with a 'batched' key; counters start
    at 0 (base.py:15-16).  The configuration attached to each entry is left abstract. *)
Inductive case_cfg (A : Type) := CaseCfg (a : A) | BatchCfg (a : A) (l : list (case_cfg A)).
Arguments CaseCfg {A}. Arguments BatchCfg {A}.
Inductive test_case (A : Type) := Case (position batch : nat) (a : A) | Batch (number : nat) (a : A) (l : list (test_case A)).
Arguments Case {A}. Arguments Batch {A}.
Definition is_batch {A} (t : test_case A) : bool := match t with Batch _ _ _ => true | _ => false end.
(** [None] = InvalidInitException("nested batches").  State: (batch counter, case counter). *)
Section Resolve.
  Context {A : Type}.
  Fixpoint resolve_one (c : case_cfg A) (batch_no : nat) (st : nat * nat) {struct c} : option (test_case A * (nat * nat)) :=
    match c with
    | CaseCfg a => Some (Case (snd st) batch_no a, (fst st, S (snd st)))
    | BatchCfg a l =>
        let b := S (fst st) in
        match (fix go (l : list (case_cfg A)) (st : nat * nat) : option (list (test_case A) * (nat * nat)) :=
                 match l with
                 | [] => Some ([], st)
                 | x :: r =>
                     match resolve_one x b st with
                     | None => None
                     | Some (t, st1) => match go r st1 with None => None | Some (ts, st2) => Some (t :: ts, st2) end
                     end
                 end) l (b, snd st) with
        | None => None
        | Some (ts, st') => if existsb is_batch ts then None else Some (Batch b a ts, st')
        end
    end.
  Fixpoint resolve_testcases (l : list (case_cfg A)) (batch_no : nat) (st : nat * nat) : option (list (test_case A) * (nat * nat)) :=
    match l with
    | [] => Some ([], st)
    | x :: r =>
        match resolve_one x batch_no st with
        | None => None
        | Some (t, st1) => match resolve_testcases r batch_no st1 with None => None | Some (ts, st2) => Some (t :: ts, st2) end
        end
    end.
  (** base.py:49-52 *)
  Definition cases (l : list (case_cfg A)) : option (list (test_case A)) :=
    match resolve_testcases l 0 (0, 0) with Some (ts, _) => Some ts | None => None end.
End Resolve.
