(** Property theorems for the judge's connection to the site (C83). *)
From Coq Require Import String QArith.
From Verif Require Import Model.Bytes Model.Packets Model.Connect Spec.Connect.
From Verif Require Proofs.Connect Proofs.Packets.
Local Open Scope list_scope.
Local Open Scope nat_scope.

(** ** C83 *)
(** Whatever happens, everything the judge writes - its key, sources' results, anything - goes to
    a connection that is as safe as it was told to insist on. *)
Theorem C83_safe : forall c ms i p, In (i, p) (written (run c start ms)) ->
  exists x, nth_error (made (run c start ms)) i = Some x /\ good_enough c x.
Proof. exact Proofs.Connect.all_written. Qed.
Print Assumptions C83_safe.
(** It is online only on a connection on which it sent its handshake, waited, and was told that
    this succeeded. *)
Theorem C83_online : forall c ms, at_ (run c start ms) = Online -> exists ms1 ms2 i, ms = ms1 ++ Answer (Named (B "handshake-success")) :: ms2
  /\ at_ (run c start ms1) = Waiting /\ files (run c start ms1) = Some i /\ files (run c start ms) = Some i /\ In (i, Handshake) (written (run c start ms1)).
Proof. exact Proofs.Connect.online. Qed.
Print Assumptions C83_online.
(** If other threads send only while it is online, each connection starts with the handshake and
    carries one only. *)
Theorem C83_introduced : forall c ms i, polite c start ms -> introduced (on i (written (run c start ms))).
Proof. exact Proofs.Connect.introduces. Qed.
Print Assumptions C83_introduced.
(** There are never more than two connections, and only one while online. *)
Theorem C83_open : forall c ms, length (open_now (run c start ms)) <= 2
  /\ (at_ (run c start ms) = Online -> forall i, is_open (run c start ms) i = true <-> conn (run c start ms) = Some i).
Proof. intros c ms. split; [apply Proofs.Connect.few_open|]. intros A i. exact (Proofs.Connect.one_online c ms i A). Qed.
Print Assumptions C83_open.
(** It waits between four seconds and a day before each attempt after the first. *)
Theorem C83_waits : forall c ms, Forall (fun w => (4 <= w /\ w <= 86400)%Q) (waits (back (run c start ms))).
Proof. intros c ms. destruct (Proofs.Connect.backs_off c ms) as (es&->). apply Proofs.Packets.waits_bounded. Qed.
Print Assumptions C83_waits.
(** It ends with status 0 only when it has given up; with 1 only if it could not write, or a
    packet could not be handled, the answer to the handshake without a name included. *)
Theorem C83_exit : forall c s m code, live (at_ s) = true -> at_ (step c s m) = Exited code ->
  match m with
  | Retry => code = 0 /\ gave_up (back (step c s m)) = true
  | Greet ok | Send ok => code = 1 /\ (ok = false \/ files s = None)
  | Answer Nameless | Fail => code = 1
  | _ => False
  end.
Proof. exact Proofs.Connect.step_exit. Qed.
Print Assumptions C83_exit.
Theorem C83_gives_up : forall c ms, at_ (run c start ms) = Exited 0 -> gave_up (back (run c start ms)) = true.
Proof. exact Proofs.Connect.gives_up. Qed.
Print Assumptions C83_gives_up.

(** A thread that reports a result while the judge reconnects may get ahead of the handshake. *)
Definition lost : list move := [Create Accepted; Open_; Greet true; Answer (Named (B "handshake-success")); Lose; Retry].
Theorem C83_introduced_refuted : exists ms i, on i (written (run (Settings false false) start ms)) = [Other; Handshake].
Proof. exists (lost ++ [Awake; Create Accepted; Open_; Send true; Greet true]), 1. reflexivity. Qed.
Print Assumptions C83_introduced_refuted.
(** The old connection stays open while the judge waits, and until the new one is set up. *)
Theorem C83_open_refuted : exists ms, at_ (run (Settings false false) start ms) = Sleeping /\ open_now (run (Settings false false) start ms) = [0]
  /\ open_now (run (Settings false false) start (ms ++ [Awake; Create Accepted])) = [0; 1].
Proof. exists lost. repeat split. Qed.
Print Assumptions C83_open_refuted.

(** A judge that insists on certificates: a wrong one, a broken one, a good one; a wrong key; an
    interrupted attempt; then success and two more packets. *)
Definition story : list move :=
  [Create Accepted; Secure (Certificate true false); Retry; Awake; Create Interrupted; Create Accepted; Secure Broken; Retry; Awake;
   Create Accepted; Secure (Certificate true true); Open_; Greet true; Answer (Named (B "handshake-failure")); Retry; Awake;
   Create Refused; Retry; Awake; Create Accepted; Secure (Certificate true true); Open_; Greet true; Answer (Named (B "handshake-success")); Send true; Send true].
Example C83_ex : let s := run (Settings true false) start story in
  at_ s = Online /\ written s = [(2, Handshake); (3, Handshake); (3, Other); (3, Other)] /\ made s = [None; None; Some (true, true); Some (true, true)]
  /\ open_now s = [3] /\ map Qred (waits (back s)) = [4; 6; 9; 27 # 2]%Q.
Proof. vm_compute. repeat split. Qed.
Example C83_ex_polite : polite (Settings true false) start story.
Proof. vm_compute. repeat split. Qed.
Definition hopeless : list move := concat (repeat [Create Refused; Retry; Awake] 26).
Example C83_ex_gives_up : at_ (run (Settings true false) start hopeless) = Exited 0.
Proof. vm_compute. reflexivity. Qed.

(** An attempt that a signal interrupts is made again; one that is refused counts as a failure. *)
Theorem C83_attempts : forall c s, at_ s = Connecting ->
  step c s (Create Interrupted) = s /\ at_ (step c s (Create Refused)) = Failing /\
  at_ (step c s (Create Accepted)) = (if context c then Securing else Opening).
Proof. intros c s E. unfold step. rewrite E. split; [reflexivity|]. split; [reflexivity|]. destruct (context c); reflexivity. Qed.
Print Assumptions C83_attempts.
