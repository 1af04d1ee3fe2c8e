(** Counting the turns threads get. *)
From Verif Require Import Model.Bytes Model.Lifecycle.
Local Open Scope list_scope.

Definition worker_turns (ms : list move) : nat := length (filter (fun m => match m with Worker _ => true | _ => false end) ms).
Definition shocker_turns (ms : list move) : nat := length (filter (fun m => match m with Shocker _ => true | _ => false end) ms).
Definition caller_turns (ms : list move) : nat := length (filter (fun m => match m with Caller => true | _ => false end) ms).
