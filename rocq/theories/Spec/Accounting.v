(** What should be reported about a traced process. *)
From Coq Require Import String ZArith.
From Verif Require Import Model.Bytes Model.Accounting.
Local Open Scope list_scope.
Local Open Scope N_scope.

(** [latest P l v]: [v] belongs to the last element of [l] that has one. *)
Inductive latest {A B} (P : A -> option B) : list A -> option B -> Prop :=
| latest_none l : (forall x, In x l -> P x = None) -> latest P l None
| latest_some l1 x l2 v : P x = Some v -> (forall y, In y l2 -> P y = None) -> latest P (l1 ++ x :: l2) (Some v).

(** The signal a moment shows: the main process stopped for it, and it is not one of ptrace's. *)
Definition shows_signal (x : moment) : option N :=
  match happened x with Stopped true s _ => if s =? 5 then None else Some s | _ => None end.
(** The moments at which the memory is looked at, [after] a first stop and knowing whether a
    fault came before. *)
Definition looks (fault_before : bool) (r : round) : bool :=
  match r with
  | Stopped main s ev => main || ((s =? 5) && ev && fault_before)
  | Unreadable _ | Refused _ | Unwritable _ _ | Queried => true
  | Started | Passed => false
  end.
Definition faults (r : round) : bool := match r with Unreadable _ | Refused _ | Unwritable _ _ => true | _ => false end.
(** What was found when the memory was looked at. *)
Fixpoint readings (fault_before : bool) (l : list moment) : list N :=
  match l with
  | [] => []
  | x :: r => (if looks fault_before (happened x) then [reading x] else []) ++ readings (fault_before || faults (happened x)) r
  end.
(** The last of them that is not zero; zero if there is none. *)
Definition last_reading (l : list N) : N := last (filter (fun n => negb (n =? 0)) l) 0.
Fixpoint rising (l : list N) : Prop :=
  match l with [] => True | a :: r => (forall b, In b r -> b = 0 \/ a <= b) /\ rising r end.
(** The fault of a moment. *)
Definition shows_fault (x : moment) : option fault :=
  match happened x with
  | Unreadable _ => Some (Report (-1) (B "ptrace fail") (repeat 0%Z 6) None)
  | Refused nr => Some (Report nr (get_syscall_name (knows x) nr) (arguments (knows x)) None)
  | Unwritable nr err => Some (Report nr (get_syscall_name (knows x) nr) (arguments (knows x)) (Some err))
  | _ => None
  end.
(** Calls have the numbers of C's int, other than -1; signals are small. *)
Definition proper (x : moment) : Prop :=
  match happened x with
  | Refused nr | Unwritable nr _ => (- 2 ^ 31 <= nr < 2 ^ 31 /\ nr <> -1)%Z
  | Stopped _ s _ => s < 128
  | _ => True
  end.

(** Decimal notation: a digit at a time, no leading zero. *)
Inductive decimal : N -> bytes -> Prop :=
| dec_one d : d < 10 -> decimal d [48 + d]
| dec_more n s d : 0 < n -> decimal n s -> d < 10 -> decimal (10 * n + d) (s ++ [48 + d]).
(** The line of /proc/<pid>/status with the peak. *)
Definition peak_line (blanks digits : bytes) : bytes := B "VmHWM:" ++ blanks ++ digits ++ B " kB" ++ [10].
Definition shows_xcpu (x : moment) : bool := match happened x with Stopped true s _ => s =? 24 | _ => false end.
Definition shows_start (x : moment) : bool := match happened x with Started => true | _ => false end.
(** The first thing that happens to a process is a stop. *)
Definition born (x : moment) : Prop := match happened x with Stopped _ _ _ => True | _ => False end.
(** Text that consists of whole lines, none of which - wherever it is cut - could be taken for that line. *)
Definition whole (s : bytes) : Prop := s = [] \/ exists q, s = q ++ [10].
Definition without_peak (s : bytes) : Prop := whole s /\ ~ exists u v, s = u ++ B "VmHWM:" ++ v.
