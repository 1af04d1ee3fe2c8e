(** C40, C61: time keeping and the time-limit verdict. *)
From Coq Require Import Reals Lra.
From Verif Require Import Model.Bytes Model.Clock Spec.Clock Proofs.Clock.
Local Open Scope list_scope.
Local Open Scope Z_scope.

(** ** C40 *)
(** The execution time is the length of the intervals between a resumption and the next stop, and normalised. *)
Theorem C40_total : forall l, normal_readings l ->
  normal (exec_time (turns l)) /\ ns (exec_time (turns l)) = total l.
Proof. exact exec_total. Qed.
(** It never decreases. *)
Theorem C40_grows : forall l l2, normal_readings (l ++ l2) -> ns (exec_time (turns l)) <= ns (exec_time (turns (l ++ l2))).
Proof. exact exec_grows. Qed.
(** The arithmetic underneath. *)
Theorem C40_add : forall a b, normal a -> normal b -> normal (timespec_add a b) /\ ns (timespec_add a b) = ns a + ns b.
Proof. exact add_spec. Qed.
Theorem C40_sub : forall a b, normal a -> normal b -> normal (timespec_sub a b) /\ ns (timespec_sub a b) = Z.max 0 (ns a - ns b).
Proof. exact sub_spec. Qed.
(** Wall time: since the first resumption while the program runs, up to the last stop once it has ended. *)
Theorem C40_wall_running : forall s e l now, normal_readings ((s, e) :: l) -> normal now -> 0 < ns s ->
  ns (wall_clock (turns ((s, e) :: l)) now) = Z.max 0 (ns now - ns s) /\ normal (wall_clock (turns ((s, e) :: l)) now).
Proof. exact wall_running. Qed.
Theorem C40_wall_finished : forall s e l now, normal_readings ((s, e) :: l) -> 0 < ns s -> monotone 0 ((s, e) :: l) ->
  ns (wall_clock (finish ((s, e) :: l)) now) = ns (snd (last ((s, e) :: l) (zero, zero))) - ns s.
Proof. exact wall_finished. Qed.
Theorem C40_exec_below_wall : forall s e l now, normal_readings ((s, e) :: l) -> 0 < ns s -> monotone 0 ((s, e) :: l) ->
  ns (exec_time (finish ((s, e) :: l))) <= ns (wall_clock (finish ((s, e) :: l)) now).
Proof. exact exec_below_wall. Qed.
(** The number of seconds Python sees never goes down either. *)
Theorem C40_seconds_monotone : forall a b, normal a -> normal b -> tv_sec b < 2 ^ 52 -> ns a <= ns b -> (seconds a <= seconds b)%R.
Proof. exact seconds_mono. Qed.

(** ** C61 *)
(** The verdict: out of time exactly when the kernel said so, the final execution time is above the limit, or
    one of the watchdog's polls saw the execution or the wall time above its limit. *)
Theorem C61_verdict : forall t w polls xcpu exec,
  is_tle (Some (t, w)) polls xcpu exec = true <->
  xcpu = true \/ (t < seconds exec)%R \/ exists e x, In (e, x) polls /\ ((t < seconds e)%R \/ (w < seconds x)%R).
Proof. exact tle_iff. Qed.
(** Since time only grows, a program killed for its execution time is out of time by its final one as well. *)
Theorem C61_sound : forall t w l polls xcpu,
  normal_readings l -> tv_sec (exec_time (turns l)) < 2 ^ 52 ->
  (forall e x, In (e, x) polls -> exists l1 l2, l = l1 ++ l2 /\ e = exec_time (turns l1)) ->
  is_tle (Some (t, w)) polls xcpu (exec_time (turns l)) = true ->
  xcpu = true \/ (t < seconds (exec_time (turns l)))%R \/ exists e x, In (e, x) polls /\ (w < seconds x)%R.
Proof. exact tle_sound. Qed.
(** With a whole number of seconds as limit, one nanosecond more is too much and the limit itself is not. *)
Theorem C61_exact : forall limit t, 0 <= limit < 2 ^ 22 -> normal t -> tv_sec t < 2 ^ 52 ->
  ((IZR limit < seconds t)%R <-> limit * 1000000000 < ns t).
Proof. exact seconds_exact. Qed.

Definition at_ (s n : Z) : timespec := {| tv_sec := s; tv_nsec := n |}.
Definition readings : list (timespec * timespec) := [(at_ 10 999999999, at_ 11 5); (at_ 11 5, at_ 13 4); (at_ 14 0, at_ 14 7)].
Example C40_ex : normal_readings readings /\ monotone 0 readings
  /\ exec_time (turns readings) = at_ 2 12 /\ wall_clock (finish readings) zero = at_ 3 8.
Proof.
  split; [|split; [cbn; lia|split; reflexivity]].
  intros s e [H|[H|[H|[]]]]; injection H as <- <-; unfold normal; cbn; lia.
Qed.
(** A limit of two seconds is passed by those readings, one of three is not. *)
Example C61_ex : is_tle (Some (IZR 2, IZR 6)) [] false (exec_time (turns readings)) = true
  /\ is_tle (Some (IZR 3, IZR 9)) [] false (exec_time (turns readings)) = false.
Proof.
  assert (N : normal (exec_time (turns readings))) by (apply C40_total; apply C40_ex).
  assert (E : exec_time (turns readings) = at_ 2 12) by reflexivity. split.
  - apply C61_verdict. right. left. apply C61_exact; [lia|exact N|rewrite E; cbn; lia|rewrite E; reflexivity].
  - destruct (is_tle _ _ _ _) eqn:X; [|reflexivity]. apply C61_verdict in X. destruct X as [X|[X|(e & x & [] & _)]]; [discriminate|].
    apply C61_exact in X; [rewrite E in X; unfold ns in X; cbn in X; lia|lia|exact N|rewrite E; cbn; lia].
Qed.

Print Assumptions C40_total.
Print Assumptions C40_grows.
Print Assumptions C40_add.
Print Assumptions C40_sub.
Print Assumptions C40_wall_running.
Print Assumptions C40_wall_finished.
Print Assumptions C40_exec_below_wall.
Print Assumptions C40_seconds_monotone.
Print Assumptions C61_verdict.
Print Assumptions C61_sound.
Print Assumptions C61_exact.
