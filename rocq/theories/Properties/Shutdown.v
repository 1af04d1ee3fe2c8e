(** Property theorems for the end of the judge (C102).

    A run is a sequence of moves: listening [Ends] in some way; [Main], [Updater], [Flusher] give the
    thread a turn, [Main true] with Ctrl-C pressed in it; [Request] asks for a problem update. *)
From Coq Require Import String Lia.
From Verif Require Import Model.Bytes Model.Shutdown Spec.Shutdown.
From Verif Require Proofs.Shutdown.
Local Open Scope nat_scope.
Local Open Scope list_scope.

(** ** C102 *)
(** However listening ends, short of a crash, and whatever the other threads are doing then: with a
    few turns for each thread the process is over, with status 0 and with everything stopped. *)
Theorem C102_over api before e stopping rest : left_alone before -> main (run api before) = Listening -> e <> Fails ->
  left_alone stopping -> 6 <= main_turns stopping -> 4 <= updater_turns rest -> 2 <= flusher_turns rest ->
  let s := run api (before ++ Ends e :: stopping ++ rest) in
  process_over s /\ main s = Done 0 /\
  aborted s = true /\ closed s = true /\ (api = true -> api_stopped s = true) /\ monitor_stopped s = true.
Proof.
  intros LB L NF LS M U F. cbv zeta. rewrite Proofs.Shutdown.run_app. cbn [fold_left]. rewrite fold_left_app.
  pose proof (Proofs.Shutdown.inv_fold api before start LB (Proofs.Shutdown.inv_start api)) as I. fold (run api before) in I.
  assert (status (run api before) = 0%Z) as S0.
  { apply (Proofs.Shutdown.status_zero api before LB start); [reflexivity|]. fold (run api before). rewrite L. discriminate. }
  set (s0 := run api before) in *. clearbody s0.
  pose proof (Proofs.Shutdown.inv_step api s0 (Ends e) ltac:(discriminate) I) as I1.
  assert (main (step api s0 (Ends e)) = Aborting /\ status (step api s0 (Ends e)) = 0%Z) as [A1 A2].
  { destruct s0. cbn in *. subst. unfold step. cbn. destruct e; try (split; reflexivity). contradiction NF. reflexivity. }
  set (s1 := step api s0 (Ends e)) in *. clearbody s1. clear I s0 L LB S0.
  pose proof (Proofs.Shutdown.inv_fold api stopping s1 LS I1) as I2.
  pose proof (Proofs.Shutdown.main_finishes api stopping s1 ltac:(rewrite A1; cbn; lia) ltac:(rewrite A1; cbn; lia)) as R2.
  pose proof (Proofs.Shutdown.status_fold api stopping s1 ltac:(rewrite A1; cbn; lia) LS) as S2. rewrite A2 in S2.
  set (s2 := fold_left (step api) stopping s1) in *. clearbody s2. clear I1 A1 A2 s1.
  assert (exists k, main s2 = Done k) as [k D]. { destruct (main s2); cbn in R2; try lia. eexists. reflexivity. }
  destruct (Proofs.Shutdown.status_over api rest s2 R2) as [_ E2].
  assert (Proofs.Shutdown.inv api (fold_left (step api) rest s2)) as I3.
  { revert I2 R2. clear. revert s2. induction rest as [|m r IH]; intros s I R; [exact I|]. cbn [fold_left]. apply IH; [apply Proofs.Shutdown.inv_over; assumption|].
    pose proof (Proofs.Shutdown.rank_step api s m). lia. }
  assert (closed s2 = true) as C2 by (apply (Proofs.Shutdown.v_closed _ _ I2); lia).
  split; [right; split; [exists k; rewrite E2; exact D|split]|split; [|split; [|split; [|split]]]].
  - apply Proofs.Shutdown.updater_ends; [exact I2|exact R2|]. destruct (updater s2); cbn; lia.
  - apply Proofs.Shutdown.flusher_ends; [exact R2|exact C2|]. destruct (flusher s2); cbn; lia.
  - rewrite E2, D. f_equal. rewrite (Proofs.Shutdown.v_done _ _ I2 k D). exact S2.
  - apply (Proofs.Shutdown.v_abort _ _ I3). rewrite E2, D. cbn. lia.
  - apply (Proofs.Shutdown.v_closed _ _ I3). rewrite E2, D. cbn. lia.
  - intros P. rewrite (Proofs.Shutdown.v_api _ _ I3 P), E2, D. reflexivity.
  - rewrite (Proofs.Shutdown.v_mon _ _ I3), E2, D. reflexivity.
Qed.
Print Assumptions C102_over.

(** Nothing is stopped before listening has ended, and a connection that has been closed means that
    the grading has been aborted. *)
Theorem C102_before api ms : left_alone ms -> let s := run api ms in
  (main s = Listening -> aborted s = false /\ closed s = false /\ flag s = false /\ monitor_stopped s = false) /\
  (closed s = true -> aborted s = true).
Proof.
  intros L. cbv zeta. pose proof (Proofs.Shutdown.inv_fold api ms start L (Proofs.Shutdown.inv_start api)) as I. fold (run api ms) in I.
  destruct I as [A Z O F G C P Q M D]. split; [|exact O].
  intros E. rewrite F, M, E in *. destruct (Z eq_refl). repeat split; assumption || reflexivity.
Qed.
Print Assumptions C102_before.

(** A site that asks the judge to disconnect has it closed at once. *)
Theorem C102_disconnect api ms : main (run api ms) = Listening ->
  closed (run api (ms ++ [Ends Disconnects])) = true /\ aborted (run api (ms ++ [Ends Disconnects])) = true.
Proof.
  intros L. rewrite Proofs.Shutdown.run_app. cbn [fold_left]. unfold step. rewrite L. destruct (run api ms). cbn in L. subst. split; reflexivity.
Qed.
Print Assumptions C102_disconnect.

(** Once the updater has been told to end, at most the list it is sending is still sent, whatever
    is asked for. *)
Theorem C102_updates api before after : flag (run api before) = true ->
  sent (run api (before ++ after)) <= sent (run api before) + (match updater (run api before) with USend => 1 | _ => 0 end).
Proof. intros F. rewrite Proofs.Shutdown.run_app. exact (Proofs.Shutdown.going_fold api after _ F). Qed.
Print Assumptions C102_updates.

(** No list is sent that nobody asked for: going down wakes the updater up, but sends nothing. *)
Theorem C102_asked api ms : sent (run api ms) <= requests ms.
Proof.
  pose proof (Proofs.Shutdown.asked_fold api ms 0 start) as H. fold (run api ms) in H.
  destruct H as [H _]; [split; [cbn; lia | split; discriminate]|]. lia.
Qed.
Print Assumptions C102_asked.

(** A crash while reading ends the process at once, with status 1, whatever comes. *)
Theorem C102_crash api ms rest : main (run api ms) = Listening ->
  let s := run api (ms ++ Ends Fails :: rest) in
  process_over s /\ status s = 1%Z /\ sent s = sent (run api ms).
Proof.
  intros L. cbv zeta. rewrite Proofs.Shutdown.run_app. cbn [fold_left]. set (s0 := run api ms) in *. clearbody s0.
  destruct s0 as [m0 u f st fl sg cl ab ap mo n]. cbn in L. subst m0.
  change (step api (State Listening u f st fl sg cl ab ap mo n) (Ends Fails)) with (State Exited u f 1 fl sg cl ab ap mo n).
  rewrite Proofs.Shutdown.exited_stays by reflexivity. split; [left; reflexivity|]. split; reflexivity.
Qed.
Print Assumptions C102_crash.

(** The submission being graded is then not aborted: the promise of murder() is not kept. *)
Theorem C102_crash_refuted api ms rest : left_alone ms -> main (run api ms) = Listening ->
  aborted (run api (ms ++ Ends Fails :: rest)) = false.
Proof.
  intros N L. pose proof (proj1 (proj1 (C102_before api ms N) L)) as A. rewrite Proofs.Shutdown.run_app. cbn [fold_left]. set (s0 := run api ms) in *. clearbody s0.
  destruct s0 as [m0 u f st fl sg cl ab ap mo n]. cbn in L, A. subst m0 ab.
  change (step api (State Listening u f st fl sg cl false ap mo n) (Ends Fails)) with (State Exited u f 1 fl sg cl false ap mo n).
  rewrite Proofs.Shutdown.exited_stays by reflexivity. reflexivity.
Qed.
Print Assumptions C102_crash_refuted.

(** A second Ctrl-C, while the grading is being aborted, and the process never ends: the connection
    is not closed and the flusher goes on. *)
Theorem C102_second_interrupt_refuted : exists ms, main (run true ms) = Done 1%Z /\
  forall rest, ~ process_over (run true (ms ++ rest)).
Proof.
  exists [Ends Interrupted; Main true; Main false]. split; [reflexivity|]. intros rest [E|[_ [_ F]]]; rewrite Proofs.Shutdown.run_app in *; [destruct (Proofs.Shutdown.status_over true rest (run true [Ends Interrupted; Main true; Main false]) ltac:(vm_compute; lia)) as [_ E2]; rewrite E2 in E; discriminate E|]. idtac.
  assert (forall ms s, main s = Done 1%Z -> closed s = false -> flusher s <> FOver -> flusher (fold_left (step true) ms s) <> FOver) as H.
  { clear. induction ms as [|m r IH]; intros s D C F; [exact F|]. cbn [fold_left]. destruct s as [m0 u f st fl sg cl ab ap mo n]. cbn in D, C, F. subst.
    apply IH; destruct m as [e|i| | |]; cbn; try reflexivity; try assumption; destruct u, f; cbn; try reflexivity; try discriminate; try contradiction;
      destruct sg; try reflexivity; discriminate. }
  revert F. apply H; [reflexivity|reflexivity|discriminate].
Qed.
Print Assumptions C102_second_interrupt_refuted.

Example C102_ex : let before := [Request; Updater; Updater; Updater; Flusher] in
  let stopping := [Main false; Main false; Updater; Main false; Main false; Main false; Main false] in
  let rest := [Updater; Flusher; Updater; Flusher; Updater; Updater] in
  left_alone before /\ main (run true before) = Listening /\ updater (run true before) = USend /\
  left_alone stopping /\ main_turns stopping = 6 /\ updater_turns rest = 4 /\ flusher_turns rest = 2 /\
  main (run true (before ++ Ends GivesUp :: stopping ++ rest)) = Done 0%Z /\ updater (run true (before ++ Ends GivesUp :: stopping ++ rest)) = UOver.
Proof. cbv zeta. unfold left_alone. repeat split; try reflexivity; cbn; intuition discriminate. Qed.
