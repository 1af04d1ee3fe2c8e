(** Property theorems for the threads around a sandboxed program (C101).

    A run is a sequence of moves: [Worker], [Shocker] and [Caller] give the named thread a turn,
    [Killer] is a turn of a kill() someone calls, [Groups] and [Ends] are the program making its
    process group and ending, [CpuSignal] is SIGXCPU.  Any sequence is possible; a thread that has
    to wait does nothing in its turn. *)
From Coq Require Import String Lia.
From Verif Require Import Model.Bytes Model.Lifecycle Spec.Lifecycle.
From Verif Require Proofs.Lifecycle.
Local Open Scope nat_scope.
Local Open Scope list_scope.

(** ** C101 *)
(** The constructor gives the object exactly if the spawning worked and raises exactly if it did
    not, and by then the judge's copies of the program's pipe ends are closed. *)
Theorem C101_constructor limited spawn_ok ms : let s := run limited spawn_ok ms in caller s <> CBuild ->
  ends_open s = false /\ (caller s = CRaised <-> spawn_ok = false) /\ (caller s = CHolds \/ caller s = CWaited <-> spawn_ok = true).
Proof.
  cbv zeta. intros N. pose proof (Proofs.Lifecycle.inv_run limited spawn_ok ms) as I. set (s := run limited spawn_ok ms) in *. clearbody s.
  pose proof (Proofs.Lifecycle.n_caller _ _ _ I) as C. pose proof (Proofs.Lifecycle.n_err _ _ _ I) as E.
  rewrite (Proofs.Lifecycle.n_open _ _ _ I).
  destruct (caller s); [contradiction N; reflexivity| | |]; destruct C as [C1 C2]; rewrite C2 in E;
    (split; [apply Nat.ltb_ge; lia|]).
  - destruct E as [-> _]. split; (split; [intros; first [reflexivity | intuition discriminate]|intros; first [reflexivity|discriminate]]).
  - rewrite (E ltac:(lia)). split; (split; [intros; first [reflexivity|discriminate]|intros; first [discriminate|left; reflexivity]]).
  - rewrite (E ltac:(lia)). split; (split; [intros; first [reflexivity|discriminate]|intros; first [discriminate|right; reflexivity]]).
Qed.
Print Assumptions C101_constructor.

(** It does not wait for ever: three turns of the watching thread are enough. *)
Theorem C101_constructed limited spawn_ok before after : 3 <= worker_turns before -> 1 <= caller_turns after ->
  caller (run limited spawn_ok (before ++ after)) <> CBuild.
Proof.
  intros W C. rewrite Proofs.Lifecycle.run_app.
  assert (3 <= Proofs.Lifecycle.rank (worker (run limited spawn_ok before))) as R by (apply Proofs.Lifecycle.announce; cbn; lia).
  pose proof (Proofs.Lifecycle.built limited spawn_ok after _ (Proofs.Lifecycle.inv_run limited spawn_ok before) R C) as B.
  intros E. rewrite E in B. cbn in B. lia.
Qed.
Print Assumptions C101_constructed.

(** When wait() answers, the program has ended, has been reaped and its exit code is there. *)
Theorem C101_wait limited spawn_ok ms : let s := run limited spawn_ok ms in caller s = CWaited ->
  ended s = true /\ reaped s = true /\ exited s = true.
Proof.
  cbv zeta. intros C. pose proof (Proofs.Lifecycle.inv_run limited spawn_ok ms) as I. set (s := run limited spawn_ok ms) in *. clearbody s.
  pose proof (Proofs.Lifecycle.n_caller _ _ _ I) as C'. rewrite C in C'. destruct C' as [R E].
  assert (reaped s = true) as A by (rewrite (Proofs.Lifecycle.n_reaped _ _ _ I), E; apply Nat.leb_le; lia).
  split; [exact (Proofs.Lifecycle.n_ended _ _ _ I A)|]. split; [exact A|].
  rewrite (Proofs.Lifecycle.n_exited _ _ _ I), E. apply Nat.leb_le. lia.
Qed.
Print Assumptions C101_wait.

(** Once the program has ended, wait() answers, and the thread enforcing the limits goes away:
    six more turns of the watching thread, then two of the caller, four of the other. *)
Theorem C101_answers limited ms watching rest : ended (run limited true ms) = true -> 6 <= worker_turns watching ->
  let s := run limited true (ms ++ watching ++ rest) in
  (2 <= caller_turns rest -> caller s = CWaited) /\ (4 <= shocker_turns rest -> shocker s = SOver).
Proof.
  intros E W. cbv zeta. pose proof (Proofs.Lifecycle.inv_run limited true ms) as I.
  rewrite !Proofs.Lifecycle.run_app. rewrite fold_left_app.
  assert (worker (fold_left (step limited true) watching (run limited true ms)) = WOver) as O.
  { apply Proofs.Lifecycle.finish; [exact I|left; exact E|]. pose proof (Proofs.Lifecycle.n_alive _ _ _ I E) as F. rewrite (Proofs.Lifecycle.n_fork _ _ _ I) in F.
    unfold Proofs.Lifecycle.left_over. destruct (worker (run limited true ms)); try lia; [|destruct (spawn_error (run limited true ms)); lia..].
    rewrite andb_false_r in F. discriminate F. }
  pose proof (Proofs.Lifecycle.inv_fold limited true watching _ I) as I2. set (s2 := fold_left (step limited true) watching (run limited true ms)) in *.
  split.
  - intros C. pose proof (Proofs.Lifecycle.waited limited true rest s2 I2 O ltac:(lia)) as K.
    pose proof (Proofs.Lifecycle.inv_fold limited true rest s2 I2) as I3. set (s3 := fold_left (step limited true) rest s2) in *.
    pose proof (Proofs.Lifecycle.n_caller _ _ _ I3) as C3. pose proof (Proofs.Lifecycle.n_err _ _ _ I3) as E3.
    destruct (caller s3); cbn in K; try lia; [|reflexivity]. destruct C3 as [_ C3]. rewrite C3 in E3. destruct E3; discriminate.
  - intros C. apply Proofs.Lifecycle.shocker_ends; [exact I2|exact O|]. destruct (shocker s2); cbn; lia.
Qed.
Print Assumptions C101_answers.

(** When nothing was started, too, the thread enforcing the limits goes away. *)
Theorem C101_failed limited before after : 3 <= worker_turns before -> 4 <= shocker_turns after ->
  shocker (run limited false (before ++ after)) = SOver /\ signals (run limited false (before ++ after)) = [].
Proof.
  intros W C. split.
  - rewrite Proofs.Lifecycle.run_app. pose proof (Proofs.Lifecycle.inv_run limited false before) as I.
    assert (3 <= Proofs.Lifecycle.rank (worker (run limited false before))) as R by (apply Proofs.Lifecycle.announce; cbn; lia).
    apply Proofs.Lifecycle.shocker_ends; [exact I| |destruct (shocker (run limited false before)); cbn; lia].
    pose proof (Proofs.Lifecycle.n_err _ _ _ I) as E. destruct (spawn_error (run limited false before)).
    + destruct E as [_ E]. destruct (worker (run limited false before)); cbn in *; try lia; try contradiction. reflexivity.
    + discriminate (E ltac:(lia)).
  - generalize (before ++ after). clear. intros ms. induction ms as [|m ms IH] using rev_ind; [destruct limited; reflexivity|].
    rewrite Proofs.Lifecycle.run_app. cbn [fold_left]. pose proof (Proofs.Lifecycle.inv_run limited false ms) as I.
    set (s := run limited false ms) in *. clearbody s.
    pose proof (Proofs.Lifecycle.n_err _ _ _ I) as E. pose proof (Proofs.Lifecycle.n_shocker _ _ _ I) as S1.
    pose proof (Proofs.Lifecycle.n_killer _ _ _ I) as K.
    assert (3 <= Proofs.Lifecycle.rank (worker s) -> spawn_error s = true) as E'.
    { intros R. destruct (spawn_error s); [reflexivity|]. discriminate (E ltac:(lia)). }
    clear E I. destruct s as [w sh c k f g e r o er sp d x t l]. cbn in IH, S1, K, E'. subst l.
    destruct m; cbn; try reflexivity.
    + destruct w; cbn; Proofs.Lifecycle.ifs; reflexivity.
    + destruct sh; cbn; Proofs.Lifecycle.ifs; try reflexivity; destruct S1 as [S1 S2]; rewrite (E' S1) in S2; discriminate.
    + destruct c; cbn; Proofs.Lifecycle.ifs; reflexivity.
    + destruct k; [destruct c; cbn; Proofs.Lifecycle.ifs; reflexivity|]. destruct (K eq_refl) as [S1' S2]. rewrite (E' S1') in S2. discriminate.
Qed.
Print Assumptions C101_failed.

(** No signal ever goes to the judge's own process group, which is what killpg(0) would reach. *)
Theorem C101_own_group limited spawn_ok ms g : ~ In (g, OwnGroup) (signals (run limited spawn_ok ms)).
Proof. exact (Proofs.Lifecycle.n_own _ _ _ (Proofs.Lifecycle.inv_run limited spawn_ok ms) g). Qed.
Print Assumptions C101_own_group.

(** Without a time limit nobody watches the clocks, and only kill() kills. *)
Theorem C101_unlimited spawn_ok ms : let s := run false spawn_ok ms in
  shocker s = SOver /\ (forall t, ~ In (Wake, t) (signals s)) /\ (~ In Killer ms -> signals s = []) /\
  (tle s = true -> In CpuSignal ms).
Proof.
  cbv zeta. pose proof (Proofs.Lifecycle.inv_run false spawn_ok ms) as I. destruct (Proofs.Lifecycle.n_limit _ _ _ I eq_refl) as [O W].
  split; [exact O|]. split; [exact W|]. split.
  - intros N. destruct (Proofs.Lifecycle.sources false spawn_ok ms) as [_ [_ H]]. destruct (H N) as [_ H'].
    destruct (signals (run false spawn_ok ms)) as [|[[|] t] r] eqn:E; [reflexivity| |exfalso; apply (W t); left; reflexivity].
    exfalso. clear H H'. 
    assert (forall ms, ~ In Killer ms -> signals (run false spawn_ok ms) = [] /\ killer (run false spawn_ok ms) = KIdle) as Z.
    { clear. intros ms. induction ms as [|m ms IH] using rev_ind; intros N; [split; reflexivity|].
      rewrite Proofs.Lifecycle.run_app. cbn [fold_left]. destruct IH as [IH1 IH2]; [intros X; apply N, in_or_app; left; exact X|].
      assert (m <> Killer) as M by (intros ->; apply N, in_or_app; right; left; reflexivity).
      pose proof (proj1 (Proofs.Lifecycle.n_limit _ _ _ (Proofs.Lifecycle.inv_run false spawn_ok ms) eq_refl)) as O.
      set (s := run false spawn_ok ms) in *. clearbody s. destruct s as [w sh c k f g e r o er sp d x t l]. cbn in IH1, IH2, O. subst.
      destruct m; cbn; try (split; reflexivity).
      - destruct w; cbn; Proofs.Lifecycle.ifs; split; reflexivity.
      - destruct c; cbn; Proofs.Lifecycle.ifs; split; reflexivity.
      - contradiction M; reflexivity. }
    rewrite (proj1 (Z ms N)) in E. discriminate E.
  - intros T. destruct (proj1 (proj2 (Proofs.Lifecycle.sources false spawn_ok ms)) T) as [X|[X _]]; [exact X|discriminate X].
Qed.
Print Assumptions C101_unlimited.

(** A time limit is reported only after SIGXCPU or after one of the two threads found the clocks
    past a limit; and a program killed without anybody calling kill() was killed for that, and is
    reported once the thread is done. *)
Theorem C101_reported limited spawn_ok ms : let s := run limited spawn_ok ms in
  (tle s = true -> In CpuSignal ms \/ limited = true /\ (In (Worker true) ms \/ In (Shocker true) ms)) /\
  (~ In Killer ms -> forall t, In (Kill, t) (signals s) -> In (Shocker true) ms /\ (shocker s = SOver -> tle s = true)).
Proof.
  cbv zeta. destruct (Proofs.Lifecycle.sources limited spawn_ok ms) as [_ [H2 H3]]. split; [exact H2|].
  intros N t T. destruct (H3 N) as [_ B]. destruct (B t T) as [B1 B2]. split; [exact B1|]. intros O. rewrite O in B2.
  destruct B2 as [B2|B2]; [discriminate B2|exact B2].
Qed.
Print Assumptions C101_reported.

(** A thread that finds the clocks past a limit while the program runs kills the program: it
    reaches the program's group, once the program has made it. *)
Theorem C101_enforced limited ms : let s := run limited true ms in
  shocker s = SDecide -> exited s = false -> reaped s = false -> grouped s = true ->
  let s' := run limited true (ms ++ [Shocker true; Shocker false; Shocker false; Shocker false]) in
  In (Kill, ProgramGroup) (signals s') /\ tle s' = true /\ shocker s' = SOver.
Proof.
  cbv zeta. intros D X R G. rewrite Proofs.Lifecycle.run_app. pose proof (Proofs.Lifecycle.inv_run limited true ms) as I.
  pose proof (Proofs.Lifecycle.n_shocker _ _ _ I) as S1. pose proof (Proofs.Lifecycle.n_fork _ _ _ I) as F.
  set (s := run limited true ms) in *. clearbody s. clear I. destruct s as [w sh c k f g e r o er sp d x t l]. cbn in D, X, R, G, F. subst. cbn in S1.
  destruct S1 as [S1 ->]. cbn. destruct w; cbn in S1; try lia; cbn; (split; [left; reflexivity|split; reflexivity]).
Qed.
Print Assumptions C101_enforced.

(** After the end has been announced at most two more signals are sent: one of the thread
    enforcing the limits and one of a kill() under way. *)
Theorem C101_quiet limited spawn_ok before after : died (run limited spawn_ok before) = true ->
  length (signals (run limited spawn_ok (before ++ after))) <= length (signals (run limited spawn_ok before)) + 2.
Proof.
  intros D. rewrite Proofs.Lifecycle.run_app. pose proof (Proofs.Lifecycle.pending_fold limited spawn_ok after _ (Proofs.Lifecycle.inv_run limited spawn_ok before) D) as P.
  assert (Proofs.Lifecycle.pending (run limited spawn_ok before) <= 2) by (unfold Proofs.Lifecycle.pending; destruct (shocker _), (killer _); cbn; lia). lia.
Qed.
Print Assumptions C101_quiet.

(** Such a signal can go to whoever has the process group's number by then: between the test for
    an exit code and the sending the program may have ended and been reaped. *)
Theorem C101_former_refuted : exists ms g, In (g, FormerGroup) (signals (run true true ms)).
Proof.
  exists [Worker false; Worker false; Worker false; Groups; Caller; Killer; Ends; Worker false; Killer], Kill.
  left. reflexivity.
Qed.
Print Assumptions C101_former_refuted.

(** A kill() before the program has made its group reaches nobody and is not repeated: the
    program goes on, though kill() came back. *)
Theorem C101_killed_refuted : exists ms, let s := run false true ms in
  In Killer ms /\ killer s = KIdle /\ caller s = CHolds /\ signals s = [(Kill, NoGroup)] /\ grouped s = true /\ ended s = false.
Proof. exists [Worker false; Worker false; Worker false; Caller; Killer; Killer; Groups]. vm_compute. auto 10. Qed.
Print Assumptions C101_killed_refuted.

(** The time-limit verdict may still change after wait() has answered. *)
Theorem C101_verdict_refuted : exists ms more, let s := run true true ms in
  caller s = CWaited /\ tle s = false /\ tle (run true true (ms ++ more)) = true.
Proof.
  exists [Worker false; Worker false; Worker false; Groups; Caller; Shocker false; Shocker false; Shocker true; Ends;
          Worker false; Worker false; Worker false; Worker false; Caller], [Shocker false; Shocker false].
  vm_compute. auto.
Qed.
Print Assumptions C101_verdict_refuted.

(** What went wrong in spawning is raised again without its message. *)
Theorem C101_message_refuted : exists class message, message <> [] /\ raised_again class message <> (class, message) /\ fst (raised_again class message) = class.
Proof. exists (B "RuntimeError"), (B "failed to spawn child"). repeat split; discriminate. Qed.
Print Assumptions C101_message_refuted.

Example C101_ex : let ms := [Worker false; Worker false; Worker false; Groups; Caller; Shocker false; Shocker false] in
  let s := run true true ms in shocker s = SDecide /\ exited s = false /\ reaped s = false /\ grouped s = true /\ caller s = CHolds /\
  3 <= worker_turns ms /\ ended (run true true (ms ++ [Ends])) = true /\
  died (run true true (ms ++ [Ends; Worker true; Worker true; Worker true; Worker true])) = true /\
  tle (run true true (ms ++ [Ends; Worker true; Worker true; Worker true; Worker true])) = true.
Proof. vm_compute. auto 10. Qed.
