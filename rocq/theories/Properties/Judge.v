(** Property theorems for the judge's threads (C23, C24, C55). *)
From Coq Require Import String.
From Verif Require Import Model.Bytes Model.Judge Spec.Judge.
From Verif Require Model.Packets Proofs.Judge.

(** ** C23 *)
(** Whatever the threads do and however they interleave, submissions are graded strictly
    one after the other, and every report is made while its own submission is current. *)
Theorem C23_one_at_a_time : forall stream fork_fails requests schedule,
  exists open, sequential stream (trace (jrun stream fork_fails (jinit requests) schedule)) open.
Proof. exact Proofs.Judge.serial. Qed.
Print Assumptions C23_one_at_a_time.

(** If starting a worker never fails, no request fails (in particular not on the
    assertion that nothing is being graded). *)
Theorem C23_requests_never_fail : forall stream fork_fails requests schedule, (forall s, fork_fails s = false) ->
  forall i, callers (jrun stream fork_fails (jinit requests) schedule) i <> CFailed.
Proof. exact Proofs.Judge.never_fails. Qed.
Print Assumptions C23_requests_never_fail.

(** ... and a waiting request can always still be served: there is no deadlock. *)
Theorem C23_no_deadlock : forall stream fork_fails requests schedule, (forall x, fork_fails x = false) ->
  let s := jrun stream fork_fails (jinit requests) schedule in
  forall i sub r, todo s i = sub :: r -> exists more, let s' := jrun stream fork_fails (jinit requests) (schedule ++ more) in
    todo s' i = r /\ In (Begin sub) (trace s').
Proof. exact Proofs.Judge.accepts. Qed.
Print Assumptions C23_no_deadlock.

(** Without that hypothesis it fails: when starting one worker fails, the lock stays
    taken and no later request is ever served. *)
Theorem C23_no_deadlock_refuted : exists stream fork_fails requests schedule,
  let s := jrun stream fork_fails (jinit requests) schedule in
  todo s 1 = [2] /\ fork_fails 2 = false /\ current s = None /\ forall more, jrun stream fork_fails s more = s.
Proof. exists (fun _ => []), Proofs.Judge.ff1, Proofs.Judge.td1, [Caller 0; Caller 0]. cbn zeta. split; [reflexivity|]. split; [reflexivity|]. split; [reflexivity|]. exact Proofs.Judge.leak_stuck. Qed.
Print Assumptions C23_no_deadlock_refuted.

(** The new request arrives while the first submission is still being torn down. *)
Example C23_case : let s := jrun (fun s => [0; s]) (fun _ => false) (jinit (fun i => match i with 0 => [7; 8] | _ => [] end))
    [Caller 0; Caller 0; Caller 0; Thread 0; Caller 0; Caller 0; Thread 0; Thread 0; Thread 0; Caller 0; Thread 0; Caller 0; Thread 0; Caller 0; Caller 0; Caller 0; Thread 1] in
  trace s = [Begin 7; Report 7 0 (Some 7); Report 7 7 (Some 7); End 7; Begin 8; Report 8 0 (Some 8)].
Proof. reflexivity. Qed.

(** ** C24 *)
(** After a notification, once the updater has made five moves (however they interleave
    with other changes and notifications), a problem list read after that notification
    has been sent. *)
Theorem C24_update_sent : forall fails, (forall k, fails k = false) -> forall before after,
  ~ In Murder before -> ~ In Murder after -> 5 <= updater_moves after ->
  let s := urun fails uinit (before ++ [Notify]) in resent (version s) s (urun fails s after).
Proof. exact Proofs.Judge.update_sent. Qed.
Print Assumptions C24_update_sent.

(** The updater never goes to sleep with a notification unserved. *)
Theorem C24_never_forgotten : forall fails, (forall k, fails k = false) -> forall before after,
  ~ In Murder before -> ~ In Murder after ->
  let s := urun fails uinit (before ++ [Notify]) in let s' := urun fails s after in
  phase s' = UWait -> event s' = false -> resent (version s) s s'.
Proof. exact Proofs.Judge.update_not_lost. Qed.
Print Assumptions C24_never_forgotten.

(** No list newer than the problem set is ever sent. *)
Theorem C24_sent_lists_are_real : forall fails ms,
  Forall (fun v => v <= version (urun fails uinit ms)) (sent (urun fails uinit ms)).
Proof. exact Proofs.Judge.sent_real. Qed.
Print Assumptions C24_sent_lists_are_real.

(** There is never a list nobody asked for: no more lists than notifications. *)
Theorem C24_no_more_than_asked : forall fails ms,
  List.length (sent (urun fails uinit ms)) <= List.length (filter (fun m => match m with Notify => true | _ => false end) ms).
Proof. exact Proofs.Judge.sent_few. Qed.
Print Assumptions C24_no_more_than_asked.

(** If reading or sending the list fails once, the notification is forgotten for good,
    although every later attempt would succeed. *)
Theorem C24_update_sent_refuted : exists fails, (forall k, 1 <= k -> fails k = false) /\
  forall ms, Forall (fun m => m = U) ms -> sent (urun fails uinit ([Change; Notify] ++ ms)) = [].
Proof. exists Proofs.Judge.fail0. split; [intros [|k] H; [lia|reflexivity]|exact Proofs.Judge.lost_after_failure]. Qed.
Print Assumptions C24_update_sent_refuted.

(** A notification arriving while an older list is about to be sent. *)
Example C24_case : sent (urun (fun _ => false) uinit [Change; Notify; U; U; U; Change; Notify; U; U; U; U; U]) = [1; 2].
Proof. reflexivity. Qed.

(** ** C55 *)
Theorem C55_named : forall current r, abort_grading current (Some r) = Some r /\ current = Some r \/
  abort_grading current (Some r) = None /\ current <> Some r.
Proof. intros [c|] r; cbn; [destruct (Nat.eqb_spec c r); [left; subst; auto|right; split; congruence]|right; split; congruence]. Qed.
Print Assumptions C55_named.

Theorem C55_unnamed : forall current, abort_grading current None = current.
Proof. intros [c|]; reflexivity. Qed.
Print Assumptions C55_unnamed.

Example C55_case : abort_grading (Some 4) (Some 5) = None /\ abort_grading (Some 4) (Some 4) = Some 4.
Proof. split; reflexivity. Qed.

(** The site's terminate request stops whatever is being graded, even when it names
    another submission. *)
Theorem C55_site_request_refuted : exists current p r,
  Packets.assoc (B "name") p = Some (Packets.JStr (B "terminate-submission")) /\
  Packets.assoc (B "submission-id") p = Some (Packets.JNum (Z.of_nat r)) /\
  Packets.receive_packet current p = ([Packets.AbortCurrent], Packets.Continue) /\
  exists s, abort_grading current None = Some s /\ s <> r.
Proof.
  exists (Some 4), [(B "name", Packets.JStr (B "terminate-submission")); (B "submission-id", Packets.JNum 5)], 5.
  split; [reflexivity|]. split; [reflexivity|]. split; [reflexivity|]. exists 4. split; [reflexivity|discriminate].
Qed.
Print Assumptions C55_site_request_refuted.
