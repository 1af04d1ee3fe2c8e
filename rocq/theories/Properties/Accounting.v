(** Property theorems for what is reported of a traced process (C82). *)
From Coq Require Import String ZArith Lia.
From Verif Require Import Model.Bytes Model.Accounting Spec.Accounting.
From Verif Require Proofs.Accounting.
Local Open Scope list_scope.
Local Open Scope N_scope.

(** ** C82 *)
(** The peak is read exactly, wherever its line stands and however long other lines are. *)
Theorem C82_peak : forall pre blanks digits n post, without_peak pre -> (forall c, In c blanks -> c = 32 \/ c = 9) ->
  decimal n digits -> n < 2 ^ 64 -> (length blanks + length digits <= 117)%nat ->
  get_memory (Some (pre ++ peak_line blanks digits ++ post)) = Some n.
Proof. intros pre blanks digits n post [H1 H2]. exact (Proofs.Accounting.reads_peak pre blanks digits n post H1 H2). Qed.
Print Assumptions C82_peak.
(** A process that has no memory any more, or is gone, reads as zero. *)
Theorem C82_no_peak : get_memory None = Some 0 /\ forall file, without_peak file -> get_memory (Some file) = Some 0.
Proof. split; [reflexivity|]. intros file [H1 H2]. exact (Proofs.Accounting.reads_nothing file H1 H2). Qed.
Print Assumptions C82_no_peak.

(** Reported is the last reading that is not zero, and without any the kernel's own figure. *)
Theorem C82_memory : forall x l code rss m, born x -> Forall proper l ->
  max_memory rss m (process_of (x :: l) code) = or_else (last_reading (readings false l)) rss
  /\ max_memory rss m (running (x :: l)) = or_else m (or_else (last_reading (readings false l)) rss).
Proof. exact Proofs.Accounting.memory. Qed.
Print Assumptions C82_memory.
(** Readings never fall, except to zero, so it is the highest. *)
Theorem C82_memory_highest : forall x l code rss m, born x -> Forall proper l -> rising (readings false l) -> last_reading (readings false l) <> 0 ->
  In (max_memory rss m (process_of (x :: l) code)) (readings false l) /\ forall r, In r (readings false l) -> r <= max_memory rss m (process_of (x :: l) code).
Proof. exact Proofs.Accounting.memory_peak. Qed.
Print Assumptions C82_memory_highest.
(** What is read when the main process is about to exit is final. *)
Theorem C82_memory_exit : forall x l1 y l2 code rss m, born x -> Forall proper (l1 ++ y :: l2) -> happened y = Stopped true SIGTRAP true -> 0 < reading y ->
  (forall z, In z l2 -> reading z = 0) -> max_memory rss m (process_of (x :: l1 ++ y :: l2) code) = reading y.
Proof. exact Proofs.Accounting.memory_exit. Qed.
Print Assumptions C82_memory_exit.
(** The memory limit is exceeded exactly if there is one and what is reported is more. *)
Theorem C82_exceeded : forall limit rss m a, is_mle limit rss m a = true <-> limit <> 0 /\ limit < max_memory rss m a.
Proof.
  intros. unfold is_mle. rewrite Bool.andb_true_iff, N.ltb_lt, Bool.negb_true_iff, N.eqb_neq. reflexivity.
Qed.
Print Assumptions C82_exceeded.

(** The signal is the last one the main process of a started program stopped for, unless it is one of the tracer's. *)
Theorem C82_signal : forall x l code, born x -> Forall proper l -> signal (running (x :: l)) = None
  /\ exists s, latest shows_signal l s /\ signal (process_of (x :: l) code)
     = Some (if existsb shows_start l then match s with Some n => n | None => 0 end else 0).
Proof. exact Proofs.Accounting.signals. Qed.
Print Assumptions C82_signal.
Theorem C82_latest_one : forall (P : moment -> option N) l v w, latest P l v -> latest P l w -> v = w.
Proof. exact (@Proofs.Accounting.latest_fun moment N). Qed.
Print Assumptions C82_latest_one.
(** CPU time ran out exactly if the main process got the signal for it. *)
Theorem C82_cpu_time : forall x l code, born x -> Forall proper l -> is_tle (process_of (x :: l) code) = true <-> exists y, In y l /\ shows_xcpu y = true.
Proof. exact Proofs.Accounting.tle_reports. Qed.
Print Assumptions C82_cpu_time.
(** The fault reported is the last one, with the call's number, name and arguments at that moment
    and the error code if registers could not be written; none is reported if there was none. *)
Theorem C82_fault : forall x l code, born x -> Forall proper l -> latest shows_fault l (protection_fault (process_of (x :: l) code)).
Proof. exact Proofs.Accounting.fault_reports. Qed.
Print Assumptions C82_fault.
(** The name of a call is that of the first entry of the table with its number. *)
Theorem C82_name : forall t a nr l1 n s l2, t = l1 ++ (n, s) :: l2 -> In nr s -> (forall e, In e l1 -> ~ In nr (snd e)) ->
  get_syscall_name (Seen (Some t) a) nr = n.
Proof.
  intros t a nr l1 n s l2 -> Hs Hn. unfold get_syscall_name. cbn [names].
  assert (forall l, existsb (Z.eqb nr) l = true <-> In nr l) as He.
  { intros l. rewrite existsb_exists. split; [intros (x&Hx&E); apply Z.eqb_eq in E as ->; exact Hx|intros H; exists nr; split; [exact H|apply Z.eqb_refl]]. }
  induction l1 as [|e l1 IH].
  - cbn [app find snd fst]. apply He in Hs. rewrite Hs. reflexivity.
  - cbn [app find]. destruct (existsb (Z.eqb nr) (snd e)) eqn:E; [apply He in E; elim (Hn e (or_introl eq_refl) E)|].
    apply IH. intros q Hq. apply Hn. right. exact Hq.
Qed.
Print Assumptions C82_name.
(** The exit code is known once the process is gone. *)
Theorem C82_exit : forall x l code, born x -> Forall proper l -> returncode (running (x :: l)) = None /\ returncode (process_of (x :: l) code) = Some code.
Proof. intros x l code Hx P. split; [apply (Proofs.Accounting.run_all x l Hx P)|reflexivity]. Qed.
Print Assumptions C82_exit.

(** A program that catches SIGALRM and is then killed, or exits, is reported to have got SIGALRM. *)
Theorem C82_signal_refuted : exists x l, born x /\ Forall proper l /\
  signal (process_of (x :: l) (-9)) = Some 14 /\ signal (process_of (x :: l) 1) = Some 14.
Proof.
  exists (Moment (Stopped true 19 false) 0 (Seen None [])), [Moment Started 0 (Seen None []); Moment (Stopped true 14 false) 100 (Seen None []); Moment (Stopped true 5 true) 200 (Seen None [])].
  split; [exact I|]. split; [repeat constructor|]. split; reflexivity.
Qed.
Print Assumptions C82_signal_refuted.
(** A program that makes a call with the number -1 is reported as a failure of ptrace, although
    ptrace did not fail. *)
Theorem C82_fault_refuted : forall x l k m code, 
  protection_fault (process_of (x :: l ++ [Moment (Refused (-1)) m k]) code) = Some (Report (-1) (B "ptrace fail") (repeat 0%Z 6) None).
Proof.
  intros x l k m code. unfold process_of. rewrite app_comm_cons, fold_left_app. cbn [fold_left].
  destruct (fold_left live l (live (Watch true false, fresh) x)) as [w a]. destruct w. reflexivity.
Qed.
Print Assumptions C82_fault_refuted.

(** A program that uses more and more memory, gets SIGSEGV and dies. *)
Definition sample : list moment :=
  let k := Seen (Some [(B "sys_read", [0%Z]); (B "sys_socket", [41%Z])]) [2; 1; 0; 0; 0; 0]%Z in
  [Moment Started 500 k; Moment (Stopped true 24 false) 600 k; Moment Queried 700 k; Moment (Refused 41) 900 k; Moment (Stopped true 11 false) 0 k].
Definition birth := Moment (Stopped true 19 false) 7 (Seen None []).
Example C82_ex : born birth /\ Forall proper sample /\ rising (readings false sample)
  /\ let a := process_of (birth :: sample) (-11) in max_memory 5000 0 a = 900 /\ signal a = Some 11 /\ is_tle a = true
     /\ protection_fault a = Some (Report 41 (B "sys_socket") [2; 1; 0; 0; 0; 0]%Z None).
Proof.
  split; [exact I|]. split; [repeat constructor; cbn; lia|]. split; [|repeat split]. cbn. intuition lia.
Qed.
Example C82_ex_peak : get_memory (Some (B "Name:	cat" ++ [10] ++ B "VmHWM:	    1024 kB" ++ [10] ++ B "VmRSS:	     512 kB" ++ [10])) = Some 1024.
Proof. vm_compute. reflexivity. Qed.
