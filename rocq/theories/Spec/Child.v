(** What the child's set-up should achieve. *)
From Coq Require Import QArith.
From Verif Require Import Model.Bytes Model.Child.
Local Open Scope list_scope.
Local Open Scope nat_scope.

(** Nothing is open from [b] on. *)
Definition bounded (t : table) (b : nat) : Prop := forall n, b <= n -> t n = None.
(** The judge itself runs with its three standard streams open. *)
Definition standard_open (t : table) : Prop := t 0 <> None /\ t 1 <> None /\ t 2 <> None.
(** No pipe of this call exists before it. *)
Definition no_pipes (t : table) : Prop := forall n id, t n <> Some (PipeRead id) /\ t n <> Some (PipeWrite id).
(** A sensible request for the stream [slot]: a pipe, nothing, that very number, or another
    open descriptor from 3 on. *)
Definition sensible (t : table) (slot : nat) (s : stream) : Prop :=
  match s with
  | Pipe | Inherit => True
  | Number fd => exists n, fd = Z.of_nat n /\ t n <> None /\ (n = slot \/ 3 <= n)
  end.
(** What the child should find in it; [id] numbers the pipe. *)
Definition wanted (t : table) (slot : nat) (id : nat) (s : stream) : option desc :=
  match s with
  | Pipe => Some (if slot =? 0 then PipeRead id else PipeWrite id)
  | Inherit => t slot
  | Number fd => t (Z.to_nat fd)
  end.
(** Where the judge's end of a pipe is. *)
Definition holds_other_end (t : table) (slot : nat) (id : nat) (s : stream) (e : end_) : Prop :=
  match s with
  | Pipe => exists n, judge_fd e = Some n /\ t n = Some (if slot =? 0 then PipeWrite id else PipeRead id)
  | _ => judge_fd e = None
  end.

(** A set of limits as the kernel keeps it. *)
Definition limits_ok (l : rlimits) : Prop := forall r, (fst (l r) <= snd (l r))%N.
