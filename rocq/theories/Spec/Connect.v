(** What to expect of the judge's connection. *)
From Verif Require Import Model.Bytes Model.Packets Model.Connect.
Local Open Scope list_scope.

(** A connection good enough for the settings: encrypted if that was asked for, and with the
    site itself, as shown by its certificate, unless the check was switched off. *)
Definition good_enough (c : settings) (x : channel) : Prop :=
  secure c = true -> exists trusted named, x = Some (trusted, named)
  /\ (no_cert_check c = false -> trusted = true /\ named = true).
(** Schedules in which other threads send only while the judge is online. *)
Fixpoint polite (c : settings) (s : state) (ms : list move) : Prop :=
  match ms with
  | [] => True
  | m :: r => (match m with Send _ => at_ s = Online | _ => True end) /\ polite c (step c s m) r
  end.
(** What was written on a connection. *)
Definition on (i : nat) (w : list (nat * packet)) : list packet := map snd (filter (fun x => Nat.eqb (fst x) i) w).
(** How many of the first connections are open. *)
Definition open_now (s : state) : list nat := filter (is_open s) (seq 0 (length (made s))).
(** First the handshake, once, then anything else. *)
Definition introduced (l : list packet) : Prop := l = [] \/ exists r, l = Handshake :: r /\ Forall (fun p => p = Other) r.
