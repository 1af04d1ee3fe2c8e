From Verif Require Import Model.Bytes Model.Shutdown.
Local Open Scope list_scope.

(** Turns given to each thread. *)
Definition main_turns (ms : list move) : nat := length (filter (fun m => match m with Main _ => true | _ => false end) ms).
Definition updater_turns (ms : list move) : nat := length (filter (fun m => match m with Updater => true | _ => false end) ms).
Definition flusher_turns (ms : list move) : nat := length (filter (fun m => match m with Flusher => true | _ => false end) ms).
(** Nobody presses Ctrl-C once the judge is going down. *)
Definition left_alone (ms : list move) : Prop := ~ In (Main true) ms.
(** How often somebody asks for an update. *)
Definition requests (ms : list move) : nat := length (filter (fun m => match m with Request => true | _ => false end) ms).
