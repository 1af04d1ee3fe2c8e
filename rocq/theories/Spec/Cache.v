(** What the compile cache should do. *)
From Verif Require Import Model.Bytes Model.Cache.
Local Open Scope list_scope.
Local Open Scope nat_scope.

(** The keys of a history (most recent first), each once, at its most recent use. *)
Fixpoint distinct (h : list bytes) : list bytes :=
  match h with
  | [] => []
  | k :: rest => k :: filter (fun x => negb (beqb x k)) (distinct rest)
  end.
(** The [capacity] most recently used keys. *)
Definition recent (capacity : nat) (h : list bytes) : list bytes := firstn capacity (distinct h).

(** The history of uses: a request for a cached compilation uses its key if it is among the
    recent ones, or if it compiles. *)
Definition history {job} (key : job -> bytes) (capacity : nat) (l : list (op job)) : list bytes :=
  fold_left (fun h o =>
    match o with
    | Compile j true ok =>
        if ok || existsb (fun k => beqb k (key j)) (recent capacity h) then key j :: h else h
    | _ => h
    end) l [].

Definition no_vanish {job} (l : list (op job)) : Prop := forall d, ~ In (Vanish d) l.
Definition only_uncached {job} (l : list (op job)) : Prop := forall j ok, ~ In (Compile j true ok) l.
(** Someone still refers to the object: a caller, or the cache. *)
Definition referred {job} (s : state job) (n : nat) : Prop := In n (held s) \/ exists k, In (k, n) (cache s).
