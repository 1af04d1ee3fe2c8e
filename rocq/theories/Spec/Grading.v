(** What a verdict must say, in terms of the raw observables of a run. *)
From Coq Require Import List NArith ZArith QArith Bool.
From Verif Require Import Model.Result Model.Grading.
Import ListNotations.

(** The bit each verdict code occupies in a result word, as the site decodes it. *)
Definition bit (c : code) : option N :=
  match c with
  | AC => None
  | WA => Some 0%N | RTE => Some 1%N | TLE => Some 2%N | MLE => Some 3%N
  | IR => Some 4%N | SC => Some 5%N | OLE => Some 6%N | IE => Some 30%N
  end.
Definition flagged (word : N) (c : code) : Prop := exists b, bit c = Some b /\ N.testbit word b = true.
(** Severity: lower is worse. *)
Definition severity (c : code) : nat :=
  match c with IE => 0 | TLE => 1 | MLE => 2 | OLE => 3 | RTE => 4 | IR => 5 | WA => 6 | SC => 7 | AC => 8 end.
Definition worse (a b : code) : Prop := (severity a < severity b)%nat.

(** The limit violations, read off the run. *)
Definition over_memory (p : process) : Prop := ~ (memory_limit p == 0)%Q /\ (memory_limit p < max_memory p)%Q.
Definition nonzero_exit (p : process) : Prop := exists r, returncode p = Some r /\ (0 < r)%Z.
Definition killed_by_signal (p : process) : Prop := exists r, returncode p = Some r /\ (r < 0)%Z.
(** [io = None]: reading the output hit the limit. *)
Definition over_output (io : option (list N * list N)) (p : process) : Prop := io = None \/ ole p = true.
Definition over_time (p : process) : Prop := tle p = true.

Definition clean (io : option (list N * list N)) (p : process) : Prop :=
  returncode p = Some 0%Z /\ ~ over_time p /\ ~ over_memory p /\ ~ over_output io p.

Definition passes (c : check_ret) : Prop :=
  match c with CkBool b => b = true | CkResult b _ _ _ => b = true | _ => False end.
(** The points a checker's answer is worth. *)
Definition worth (case_points : Q) (c : check_ret) : Q :=
  match c with CkBool true => case_points | CkResult _ q _ _ => q | _ => 0%Q end.

(** [occurs pat s]: [pat] is a factor of [s]. *)
Definition occurs (pat s : list N) : Prop := exists a b, s = a ++ pat ++ b.
(** [t] is [s] with the leftmost occurrence of [pat], if any, removed. *)
Definition drop_leftmost (pat s t : list N) : Prop :=
  (~ occurs pat s /\ t = s) \/
  (exists a b, s = a ++ pat ++ b /\ t = a ++ b /\
     forall a' b', s = a' ++ pat ++ b' -> (length a <= length a')%nat).

(** The run crashed (or was killed) for a reason other than a limit. *)
Definition crashed (p : process) : Prop :=
  (nonzero_exit p \/ killed_by_signal p) /\ ~ over_time p /\ ~ over_memory p /\ ole p = false.
