(** What reading a string out of the program should do. *)
From Verif Require Import Model.Bytes Model.ReadStr.
Local Open Scope list_scope.
Local Open Scope nat_scope.

(** No write leaves its allocation. *)
Definition in_bounds (l : list event) : Prop := forall cap off len, In (Write cap off len) l -> off + len <= cap.
(** Every range of the program asked for lies in one page. *)
Definition one_page (page : nat) (l : list event) : Prop :=
  forall a n, In (Ask a n) l -> n = 0 \/ a / page = (a + n - 1) / page.

(** The program's memory does not change, and is readable by whole pages. *)
Definition constant (mem : memory) (m : nat -> option N) : Prop := forall k a, mem k a = m a.
Definition paged (page : nat) (m : nat -> option N) : Prop :=
  forall a b, a / page = b / page -> m a <> None -> m b <> None.
(** The bytes s, none of them NUL, are at addr. *)
Definition chars (m : nat -> option N) (addr : nat) (s : bytes) : Prop :=
  forall i, i < length s -> exists c, nth_error s i = Some c /\ m (addr + i) = Some c /\ c <> 0%N.
(** A string at addr: s and then a NUL. *)
Definition string_at (m : nat -> option N) (addr : nat) (s : bytes) : Prop :=
  chars m addr s /\ m (addr + length s) = Some 0%N.
(** The memory ends, after s, without a NUL. *)
Definition cut_off (m : nat -> option N) (addr : nat) (s : bytes) : Prop :=
  chars m addr s /\ m (addr + length s) = None.
