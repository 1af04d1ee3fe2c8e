From Coq Require Import List Arith QArith Qround Lia Bool.
From Verif Require Import Model.Ipc Spec.Ipc.
Import ListNotations.
Local Open Scope nat_scope.

Section Run.
  Variable timeout : nat.
  Notation step := (step timeout). Notation run := (run timeout). Notation init := (init timeout).

  Lemma run_inv (I : state -> Prop) : I init -> (forall s m, I s -> I (step s m)) -> forall ms, I (run init ms).
  Proof.
    intros H0 Hs ms. assert (forall s, I s -> I (run s ms)) as H; [|apply H, H0].
    induction ms as [|m ms IH]; intros s H; [exact H|]. apply IH, Hs, H.
  Qed.

  (** ** Messages *)
  Definition taken_tail (s : state) : list msg := match thread s with JHandling m => [m] | JReplying => [Bye] | _ => [] end.
  Definition bye_last (s : state) : Prop :=
    match main s with
    | WJoining _ => exists l, sent s = l ++ [Bye] /\ ~ In Bye l
    | _ => ~ In Bye (sent s)
    end.
  (* before failing or ending, everything read has been handled but the message in hand *)
  Definition messages_inv (s : state) : Prop :=
    bye_last s
    /\ (exists mid, sent s = handled s ++ mid
        /\ match thread s with
           | JPolling _ => errors s = 0 /\ mid = pipe s
           | JHandling m => errors s = 0 /\ m <> Bye /\ mid = m :: pipe s
           | JReplying => errors s = 0 /\ mid = Bye :: pipe s
           | JFailing => errors s = 0
           | JTearDown | JJoining _ | JDone => errors s = 0 /\ mid = Bye :: pipe s \/ errors s = 1
           end)
    /\ ~ In Bye (handled s).
  Lemma snoc_not_in (l : list msg) x : x <> Bye -> ~ In Bye l -> ~ In Bye (l ++ [x]).
  Proof. intros Hx Hl H. apply in_app_or in H. destruct H as [H|[H|[]]]; congruence. Qed.
  Lemma send_inv s x m : x <> Bye \/ (exists d, m = WJoining d) -> x = Bye \/ (forall d, m <> WJoining d) ->
    (forall d, main s <> WJoining d) -> messages_inv s -> messages_inv (send s x m).
  Proof.
    intros Hx Hm Hn (Hb & (mid & He & Ht) & Hh). unfold messages_inv, bye_last in *. cbn.
    assert (~ In Bye (sent s)) as Hs by (destruct (main s); auto; destruct (Hn deadline); reflexivity).
    split; [|split; [|exact Hh]].
    - destruct Hm as [->|Hm].
      + destruct Hx as [Hx|[d ->]]; [congruence|]. exists (sent s). auto.
      + assert (x <> Bye) by (destruct Hx as [Hx|[d ->]]; [exact Hx|destruct (Hm d); reflexivity]).
        destruct m; try (apply snoc_not_in; assumption). destruct (Hm deadline). reflexivity.
    - exists (mid ++ [x]). split; [rewrite He, app_assoc; reflexivity|].
      destruct (thread s); repeat match goal with H : _ /\ _ |- _ => destruct H end; subst; auto.
      all: destruct Ht as [[E ->]|E]; auto.
  Qed.
  Lemma messages_step s m : messages_inv s -> messages_inv (step s m).
  Proof.
    intros H. destruct m; cbn [Ipc.step].
    - destruct (main s) eqn:E; try exact H. destruct (alive s); [|exact H]. apply send_inv; try exact H; rewrite ?E; [left|right|]; try discriminate.
      all: intros d; discriminate.
    - destruct (main s) eqn:E; try exact H. destruct (alive s); [|exact H]. unfold messages_inv, bye_last in *. cbn. rewrite E in H. exact H.
    - destruct (main s) eqn:E; try exact H. destruct (alive s); [|exact H]. apply send_inv; try exact H; rewrite ?E; [left|right|]; try discriminate.
    - destruct (main s) eqn:E; try exact H. destruct (alive s); [|exact H]. apply send_inv; try exact H; rewrite ?E; [right; eauto|left; reflexivity|discriminate].
    - destruct (main s) eqn:E; try exact H. destruct (alive s); [|exact H]. apply send_inv; try exact H; rewrite ?E; [left|right|]; try discriminate.
    - destruct (main s) eqn:E; try exact H. destruct (alive s); [|exact H]. apply send_inv; try exact H; rewrite ?E; [right; eauto|left; reflexivity|discriminate].
    - destruct (main s) eqn:E; try exact H. destruct (_ && _); [|exact H]. unfold messages_inv, bye_last in *. cbn. rewrite E in H. exact H.
    - exact H.
    - destruct (recv s); try exact H. destruct (back s) as [|[|] b]; try exact H; destruct (alive s); exact H.
    - destruct H as (Hb & (mid & He & Ht) & Hh). destruct (thread s) as [d|x| | | |d|] eqn:E.
      + destruct Ht as [Ht ->]. destruct (pipe s) as [|x p] eqn:Ep.
        * destruct (negb (alive s)); [|destruct (over s d)]; (split; [exact Hb|]); (split; [exists []; cbn; rewrite ?E; try (split; [exact He|]); auto|exact Hh]).

        * destruct x; (split; [exact Hb|]); (split; [eexists; cbn; split; [exact He|]; repeat split; auto; discriminate|exact Hh]).
      + destruct Ht as (Ht & Hx & ->). destruct raises; (split; [exact Hb|]).
        * split; [|exact Hh]. exists (x :: pipe s). cbn. auto.
        * split; [|cbn; apply snoc_not_in; assumption]. exists (pipe s). cbn. rewrite <- app_assoc. auto.
      + destruct Ht as (Ht & ->). destruct (alive s); (split; [exact Hb|]); (split; [exists (Bye :: pipe s); cbn; auto|exact Hh]).
      + split; [exact Hb|]. split; [|exact Hh]. exists mid. cbn. rewrite Ht. auto.
      + split; [exact Hb|]. split; [|exact Hh]. exists mid. cbn. destruct (alive s); auto.
      + destruct (negb (alive s)); [|destruct (over s d)]; (split; [exact Hb|]); (split; [exists mid; cbn; rewrite ?E; auto|exact Hh]).
      + split; [exact Hb|]. split; [|exact Hh]. exists mid. cbn. rewrite E. auto.
    - destruct (thread s) eqn:E; try exact H. destruct (_ && _); [|exact H]. destruct H as (Hb & (mid & He & Ht) & Hh).
      split; [exact Hb|]. split; [|exact Hh]. exists mid. cbn. rewrite E in Ht. tauto.
    - destruct (thread s) eqn:E, (caller s), (alive s); try exact H; unfold messages_inv, bye_last in *; cbn; rewrite E in *; exact H.
    - destruct (caller s); [exact H|]. destruct (negb (alive s)); [exact H|]. destruct (over s deadline); exact H.
    - destruct (may_pass s); exact H.
  Qed.
  Lemma messages_ok ms : messages_inv (run init ms).
  Proof.
    apply run_inv; [|apply messages_step]. split; [cbn; auto|]. split; [|cbn; auto]. exists []. cbn. auto.
  Qed.
  Lemma errors_le ms : errors (run init ms) <= 1.
  Proof. destruct (messages_ok ms) as (_ & (mid & _ & H) & _). destruct (thread _); intuition lia. Qed.
  Lemma handled_prefix ms : exists rest, sent (run init ms) = handled (run init ms) ++ rest.
  Proof. destruct (messages_ok ms) as (_ & (mid & H & _) & _). eauto. Qed.
  Lemma done_complete ms : thread (run init ms) = JDone -> errors (run init ms) = 0 -> sent (run init ms) = handled (run init ms) ++ [Bye].
  Proof.
    intros Hd He. destruct (messages_ok ms) as (Hb & (mid & Hs & Ht) & Hh). rewrite Hd in Ht.
    destruct Ht as [[_ ->]|C]; [|lia]. rewrite Hs. f_equal. f_equal.
    unfold bye_last in Hb. destruct (pipe (run init ms)) as [|x p]; [reflexivity|]. exfalso.
    assert (In Bye (sent (run init ms))) as Hi by (rewrite Hs; apply in_or_app; right; left; reflexivity).
    destruct (main (run init ms)); try contradiction. destruct Hb as (l & Hl & Hn). apply Hn.
    rewrite Hl in Hs. destruct (exists_last (l := x :: p) ltac:(discriminate)) as (q & y & Eq). rewrite Eq in Hs.
    change (handled (run init ms) ++ Bye :: q ++ [y]) with (handled (run init ms) ++ (Bye :: q) ++ [y]) in Hs. rewrite app_assoc in Hs.
    apply app_inj_tail in Hs. destruct Hs as [-> _]. apply in_or_app. right. left. reflexivity.
  Qed.

  (** ** The process *)
  Definition orphan_inv (s : state) : Prop := thread s = JDone -> alive s = false.
  Lemma alive_false_step s m : alive s = false -> alive (step s m) = false.
  Proof.
    intros H. destruct m; cbn [Ipc.step]; try solve [destruct (main s); rewrite ?H; cbn; auto]; try reflexivity.
    - destruct (recv s); auto. destruct (back s) as [|[|] b]; rewrite ?H; auto.
    - destruct (thread s); cbn; rewrite ?H; cbn; auto. destruct (pipe s) as [|[] p]; cbn; auto. destruct raises; cbn; auto.
    - destruct (thread s); cbn; auto. destruct (_ && _); cbn; auto.
    - destruct (thread s), (caller s); rewrite ?H; cbn; auto.
    - destruct (caller s); cbn; rewrite ?H; cbn; auto.
    - destruct (may_pass s); cbn; auto.
  Qed.
  Lemma orphan_step s m : orphan_inv s -> orphan_inv (step s m).
  Proof.
    intros H Hd. destruct (alive s) eqn:Ea; [|apply alive_false_step, Ea].
    assert (thread s <> JDone) as Hn by (intros C; specialize (H C); congruence). clear H.
    destruct m; cbn [Ipc.step] in Hd |- *; try (exfalso; apply Hn; destruct (main s); rewrite ?Ea in Hd; cbn in Hd; exact Hd).
    - destruct (main s); cbn in Hd |- *; try congruence. destruct (_ && _); cbn in *; congruence.
    - exfalso. apply Hn. destruct (recv s); try exact Hd. destruct (back s) as [|[|] b]; rewrite ?Ea in Hd; exact Hd.
    - destruct (thread s) as [d|x| | | |d|] eqn:Et; try (rewrite Ea in Hd; cbn in Hd; congruence); try congruence.
      + destruct (pipe s) as [|[] p]; cbn in Hd; try discriminate. rewrite Ea in Hd. cbn in Hd. destruct (over s d); cbn in Hd; congruence.
      + destruct raises; discriminate.
      + rewrite Ea in *. cbn [negb] in *. destruct (over s d); [reflexivity|]. cbn in Hd. congruence.
    - destruct (thread s) eqn:Et; try (cbn in Hd; congruence). destruct (_ && _); cbn in Hd; congruence.
    - exfalso. apply Hn. destruct (thread s) eqn:Et, (caller s); rewrite ?Ea in Hd; cbn in Hd; congruence.
    - exfalso. apply Hn. destruct (caller s); [exact Hd|]. rewrite Ea in Hd. cbn in Hd. destruct (over s deadline); exact Hd.
    - exfalso. apply Hn. destruct (may_pass s); exact Hd.
  Qed.
  Lemma no_orphan ms : thread (run init ms) = JDone -> alive (run init ms) = false.
  Proof. revert ms. apply (run_inv orphan_inv); [intros H; discriminate H|apply orphan_step]. Qed.

  (** ** Waiting *)
  Definition wait_inv (s : state) : Prop :=
    match thread s with
    | JPolling d => waited s + (d - clock s) <= timeout * S (length (handled s)) /\ clock s <= d
    | JHandling _ | JReplying | JFailing | JTearDown => waited s <= timeout * S (length (handled s))
    | JJoining d => waited s + (d - clock s) <= timeout * S (length (handled s)) + 5 /\ clock s <= d
    | JDone => waited s <= timeout * S (length (handled s)) + 5
    end.
  Lemma wait_step s m : wait_inv s -> wait_inv (step s m).
  Proof.
    intros H. destruct m; cbn [Ipc.step];
      try (destruct (main s); try exact H; destruct (alive s); exact H); try exact H.
    - destruct (main s); try exact H. destruct (_ && _); exact H.
    - destruct (recv s); try exact H. destruct (back s) as [|[|] b]; try exact H; destruct (alive s); exact H.
    - unfold wait_inv in *. destruct (thread s) as [d|x| | | |d|] eqn:E.
      + destruct (pipe s) as [|[] p]; cbn; try lia. destruct (negb (alive s)); cbn; [lia|]. destruct (over s d); cbn; rewrite ?E; lia.
      + destruct raises; cbn; [lia|]. rewrite app_length. cbn. lia.
      + destruct (alive s); cbn; lia.
      + cbn. lia.
      + unfold teardown_timeout. destruct (alive s); cbn; lia.
      + destruct (negb (alive s)); cbn; [lia|]. destruct (over s d); cbn; rewrite ?E; lia.
      + rewrite E. exact H.
    - unfold wait_inv in *. destruct (thread s) eqn:E; rewrite ?E; try exact H. destruct (_ && _); cbn; rewrite ?E; lia.
    - unfold wait_inv in *. destruct (thread s) eqn:E, (caller s), (alive s); cbn; rewrite ?E; exact H.
    - destruct (caller s); [exact H|]. destruct (negb (alive s)); [exact H|]. destruct (over s deadline); exact H.
    - destruct (may_pass s) eqn:M; [|exact H]. unfold may_pass in M. apply andb_prop in M. destruct M as [M _]. apply andb_prop in M. destruct M as [M _].
      unfold wait_inv, waiting, over in *. cbn. destruct (thread s); try exact H; apply negb_true_iff, Nat.leb_gt in M; lia.
  Qed.
  Lemma wait_bound ms : waited (run init ms) <= timeout * S (length (handled (run init ms))) + 5.
  Proof.
    assert (wait_inv (run init ms)) as H by (apply run_inv; [cbn; lia|apply wait_step]). unfold wait_inv in H. destruct (thread _); lia.
  Qed.

  (** ** Turns *)
  Definition turn_phase (s : state) : nat :=
    2 * length (handled s) + match thread s with JPolling _ => 0 | JHandling _ | JReplying => 1 | JFailing => 2 | JTearDown => 3 | JJoining _ => 4 | JDone => 5 end.
  Lemma turn_step s m : turn_phase s + (if is_turn timeout s m then 1 else 0) <= turn_phase (step s m).
  Proof.
    assert (forall s', handled s' = handled s -> thread s' = thread s ->
            turn_phase s + (if negb (kind (thread s) =? kind (thread s')) then 1 else 0) <= turn_phase s') as Q.
    { intros s' E1 E2. rewrite E2, Nat.eqb_refl. unfold turn_phase. rewrite E1, E2. cbn. lia. }
    unfold is_turn. destruct m; cbn [Ipc.step]; try (destruct (main s); try (apply Q; reflexivity); destruct (alive s); apply Q; reflexivity).
    - destruct (main s); try (apply Q; reflexivity). destruct (_ && _); apply Q; reflexivity.
    - destruct (recv s); try (apply Q; reflexivity). destruct (back s) as [|[|] b]; try (apply Q; reflexivity); destruct (alive s); apply Q; reflexivity.
    - unfold turn_phase. destruct (thread s) as [d|x| | | |d|] eqn:E.
      + destruct (pipe s) as [|[] p]; cbn; try lia. destruct (negb (alive s)); cbn; [lia|]. destruct (over s d); cbn; rewrite ?E; cbn; lia.
      + destruct raises; cbn; [lia|]. rewrite app_length. cbn. lia.
      + destruct (alive s); cbn; lia.
      + cbn. lia.
      + destruct (alive s); cbn; lia.
      + destruct (negb (alive s)); cbn; [lia|]. destruct (over s d); cbn; rewrite ?E; cbn; lia.
      + rewrite E. cbn. lia.
    - destruct (thread s) eqn:E; try (apply Q; auto; fail). destruct (_ && _); [|apply Q; auto]. unfold turn_phase. cbn. rewrite E. cbn. lia.
    - destruct (thread s) eqn:E, (caller s), (alive s); apply Q; auto.
    - destruct (caller s); [apply Q; reflexivity|]. destruct (negb (alive s)); [apply Q; reflexivity|]. destruct (over s deadline); apply Q; reflexivity.
    - destruct (may_pass s); apply Q; reflexivity.
  Qed.
  Lemma turns_bound ms : turns timeout init ms <= 2 * length (handled (run init ms)) + 5.
  Proof.
    assert (forall s, turn_phase s + turns timeout s ms <= turn_phase (run s ms)) as H.
    { induction ms as [|m ms IH]; intros s; cbn [turns]; [cbn; lia|]. pose proof (turn_step s m). specialize (IH (step s m)). change (run s (m :: ms)) with (run (step s m) ms). lia. }
    specialize (H init). unfold turn_phase in H. cbn in H. destruct (thread (run init ms)); cbn in *; lia.
  Qed.

  (** ** Ending *)
  Definition weight := timeout + 2.
  Definition energy (s : state) : nat :=
    match thread s with
    | JDone => 0
    | JJoining d => 1 + (d - clock s)
    | JTearDown => 8 | JFailing => 9 | JReplying => 10
    | JPolling d => 11 + (d - clock s) + weight * length (pipe s)
    | JHandling _ => 12 + timeout + weight * length (pipe s)
    end.
  Lemma energy_step s m : energy (step s m) + weight * length (sent s) <= energy s + weight * length (sent (step s m)).
  Proof.
    assert (forall s x m', energy (send s x m') + weight * length (sent s) <= energy s + weight * length (sent (send s x m'))) as Hs.
    { intros s0 x m'. unfold energy. cbn. rewrite !app_length. cbn. destruct (thread s0); nia. }
    destruct m; cbn [Ipc.step]; try (destruct (main s); try apply Nat.le_refl; destruct (alive s); try apply Nat.le_refl; apply Hs).
    - destruct (main s); try apply Nat.le_refl. destruct (_ && _); apply Nat.le_refl.
    - destruct (recv s); try apply Nat.le_refl. destruct (back s) as [|[|] b]; try apply Nat.le_refl; destruct (alive s); apply Nat.le_refl.
    - unfold energy. destruct (thread s) as [d|x| | | |d|] eqn:E.
      + destruct (pipe s) as [|[] p] eqn:Ep; cbn [set_thread thread pipe length clock sent]; unfold weight in *; try lia.
        destruct (negb (alive s)); cbn; [lia|]. destruct (over s d); cbn; rewrite ?E, ?Ep; cbn; lia.
      + destruct raises; cbn; [nia|]. nia.
      + destruct (alive s); cbn; lia.
      + cbn. lia.
      + unfold teardown_timeout. destruct (alive s); cbn; lia.
      + destruct (negb (alive s)); cbn; [lia|]. destruct (over s d); cbn; rewrite ?E; lia.
      + rewrite E. lia.
    - unfold energy. destruct (thread s) eqn:E; rewrite ?E; try lia. destruct (_ && _); cbn; rewrite ?E; nia.
    - unfold energy. destruct (thread s) eqn:E, (caller s), (alive s); cbn; rewrite ?E; lia.
    - destruct (caller s); [apply Nat.le_refl|]. destruct (negb (alive s)); [apply Nat.le_refl|]. destruct (over s deadline); apply Nat.le_refl.
    - unfold energy. destruct (may_pass s); cbn; destruct (thread s); nia.
  Qed.
  Lemma energy_run ms : forall s, energy (run s ms) + weight * length (sent s) <= energy s + weight * length (sent (run s ms)).
  Proof.
    induction ms as [|m ms IH]; intros s; [cbn; lia|]. pose proof (energy_step s m). specialize (IH (step s m)). change (run s (m :: ms)) with (run (step s m) ms). lia.
  Qed.
  Lemma done_step s m : thread s = JDone -> thread (step s m) = JDone.
  Proof.
    intros H. destruct m; cbn [Ipc.step]; try (rewrite H; exact H); try exact H; try (destruct (main s); try exact H; destruct (alive s); exact H).
    - destruct (main s); try exact H. destruct (_ && _); exact H.
    - destruct (recv s); try exact H. destruct (back s) as [|[|] b]; try exact H; destruct (alive s); exact H.
    - destruct (caller s); [exact H|]. destruct (negb (alive s)); [exact H|]. destruct (over s deadline); exact H.
    - destruct (may_pass s); exact H.
  Qed.
  Lemma done_run ms : forall s, thread s = JDone -> thread (run s ms) = JDone.
  Proof. induction ms as [|m ms IH]; intros s H; [exact H|]. apply IH, done_step, H. Qed.
  Lemma round_sent s b : sent (run s [Judge b; Exit; AbortWait; Tick]) = sent s.
  Proof.
    assert (forall s, sent (step s Tick) = sent s) as HT by (intros s0; cbn; destruct (may_pass s0); reflexivity).
    assert (forall s, sent (step s AbortWait) = sent s) as HA.
    { intros s0. cbn. destruct (caller s0); [reflexivity|]. destruct (negb (alive s0)); [reflexivity|]. destruct (over s0 deadline); reflexivity. }
    assert (forall s, sent (step s Exit) = sent s) as HE by (intros s0; cbn; destruct (main s0); try reflexivity; destruct (_ && _); reflexivity).
    assert (forall s b, sent (step s (Judge b)) = sent s) as HJ.
    { intros s0 b0. cbn. destruct (thread s0); try reflexivity.
      - destruct (pipe s0) as [|[] p]; try reflexivity. destruct (negb (alive s0)); [reflexivity|]. destruct (over s0 deadline); reflexivity.
      - destruct b0; reflexivity.
      - destruct (alive s0); reflexivity.
      - destruct (negb (alive s0)); [reflexivity|]. destruct (over s0 deadline); reflexivity. }
    cbn [Ipc.run fold_left]. unfold Ipc.run. cbn [fold_left]. rewrite HT, HA, HE, HJ. reflexivity.
  Qed.
  (* nothing to do for the thread but wait *)
  Definition idle (s : state) : Prop :=
    alive s = true /\ match thread s with JPolling d => pipe s = [] /\ clock s < d | JJoining d => clock s < d | _ => False end.
  Lemma judge_energy s b : thread s <> JDone -> energy (step s (Judge b)) < energy s \/ (idle s /\ step s (Judge b) = s).
  Proof.
    intros Hd. unfold idle, energy. cbn [Ipc.step]. destruct (thread s) as [d|x| | | |d|] eqn:E.
    - destruct (pipe s) as [|[] p] eqn:Ep; cbn [set_thread thread pipe length clock]; unfold weight; try (left; lia).
      destruct (alive s) eqn:Ea; cbn [negb]; [|left; cbn; lia]. destruct (over s d) eqn:Eo; [left; cbn; lia|].
      right. unfold over in Eo. apply Nat.leb_gt in Eo. auto.
    - left. destruct b; cbn; nia.
    - left. destruct (alive s); cbn; lia.
    - left. cbn. lia.
    - left. unfold teardown_timeout. destruct (alive s); cbn; lia.
    - destruct (alive s) eqn:Ea; cbn [negb]; [|left; cbn; lia]. destruct (over s d) eqn:Eo; [left; cbn; lia|].
      right. unfold over in Eo. apply Nat.leb_gt in Eo. auto.
    - congruence.
  Qed.
  Lemma idle_thread s : idle s -> exists d, (thread s = JPolling d \/ thread s = JJoining d) /\ clock s < d.
  Proof. intros [_ H]. destruct (thread s) eqn:E; try contradiction; [destruct H|]; eauto. Qed.
  Lemma round_energy s b : thread s <> JDone -> energy (run s [Judge b; Exit; AbortWait; Tick]) < energy s.
  Proof.
    intros Hd. destruct (judge_energy s b Hd) as [H|[Hi Hj]].
    - pose proof (energy_run [Exit; AbortWait; Tick] (step s (Judge b))) as Q.
      pose proof (round_sent s b) as R. change (run s [Judge b; Exit; AbortWait; Tick]) with (run (step s (Judge b)) [Exit; AbortWait; Tick]) in *.
      assert (sent (step s (Judge b)) = sent s) as R'.
      { cbn. destruct (thread s); try reflexivity.
        - destruct (pipe s) as [|[] p]; try reflexivity. destruct (negb (alive s)); [reflexivity|]. destruct (over s deadline); reflexivity.
        - destruct b; reflexivity.
        - destruct (alive s); reflexivity.
        - destruct (negb (alive s)); [reflexivity|]. destruct (over s deadline); reflexivity. }
      rewrite R, R' in Q. lia.
    - change (run s [Judge b; Exit; AbortWait; Tick]) with (step (step (step (step s (Judge b)) Exit) AbortWait) Tick). rewrite Hj.
      destruct (idle_thread s Hi) as (d & Ht & Hc).
      set (s1 := step s Exit). assert (thread s1 = thread s /\ clock s1 = clock s /\ pipe s1 = pipe s /\ caller s1 = caller s /\ main s1 = main s
        /\ (alive s1 && match main s1 with WJoining d => over s1 d | _ => false end) = false) as (T1 & C1 & P1 & A1 & M1 & W1).
      { unfold s1. cbn [Ipc.step]. destruct (main s) eqn:E; try (rewrite E; repeat split; auto using andb_false_r).
        destruct (_ && _) eqn:X; cbn; repeat split; auto. rewrite E. destruct (alive s); [|reflexivity]. cbn in X |- *. apply orb_false_iff in X. tauto. }
      set (s2 := step s1 AbortWait). assert (thread s2 = thread s1 /\ clock s2 = clock s1 /\ pipe s2 = pipe s1
        /\ match caller s2 with AJoining d => over s2 d | _ => false end = false
        /\ (alive s2 && match main s2 with WJoining d => over s2 d | _ => false end) = false) as (T2 & C2 & P2 & A2 & W2).
      { clearbody s1. unfold s2. cbn [Ipc.step]. destruct (caller s1) eqn:E; [repeat split; auto; rewrite E; reflexivity|]. destruct (alive s1) eqn:Ea; cbn [negb].
        - destruct (over s1 deadline) eqn:Eo; cbn; repeat split; auto; rewrite ?E, ?Ea; auto.
        - cbn. repeat split; auto; rewrite ?Ea; reflexivity. }
      assert (may_pass s2 = true) as MP.
      { unfold may_pass. rewrite A2, W2, T2, T1. unfold over. rewrite C2, C1.
        destruct Ht as [->| ->]; cbn; rewrite andb_true_r; apply andb_true_iff; split; auto; apply negb_true_iff, Nat.leb_gt; lia. }
      clearbody s2. clearbody s1. cbn [Ipc.step]. rewrite MP. unfold energy. cbn [thread clock pipe]. rewrite T2, T1, C2, C1, P2, P1. destruct Ht as [->| ->]; lia.
  Qed.
  Lemma rounds_energy rs : forall s, thread (run s (in_rounds rs)) <> JDone ->
    energy (run s (in_rounds rs)) + length rs + weight * length (sent s) <= energy s + weight * length (sent (run s (in_rounds rs))).
  Proof.
    induction rs as [|[pre b] rs IH]; intros s H; [cbn; lia|].
    assert (run s (in_rounds ((pre, b) :: rs)) = run (run (run s pre) [Judge b; Exit; AbortWait; Tick]) (in_rounds rs)) as E.
    { unfold in_rounds. cbn [flat_map fst snd]. unfold Ipc.run. rewrite !fold_left_app. reflexivity. }
    rewrite E in *. set (s1 := run s pre) in *. set (s2 := run s1 [Judge b; Exit; AbortWait; Tick]) in *.
    specialize (IH s2 H). pose proof (energy_run pre s) as Q. fold s1 in Q.
    assert (thread s1 <> JDone) as Hn by (intros C; apply H, done_run, done_run, C).
    pose proof (round_energy s1 b Hn) as R. fold s2 in R. assert (sent s2 = sent s1) as S2 by apply round_sent. rewrite S2 in IH. cbn [length]. lia.
  Qed.
  Lemma rounds_end rs : 11 + timeout + (timeout + 2) * length (sent (run init (in_rounds rs))) < length rs -> thread (run init (in_rounds rs)) = JDone.
  Proof.
    intros H. destruct (thread (run init (in_rounds rs))) eqn:E; [exfalso..|reflexivity].
    all: pose proof (rounds_energy rs init ltac:(congruence)) as Q; unfold energy at 2 in Q; cbn in Q; unfold weight in Q; rewrite Nat.sub_0_r in Q; nia.
  Qed.

  (** ** Aborting *)
  Lemma abort_requested ms : abort (run init ms) = true \/ In OAbort (back (run init ms)) -> requested (run init ms) = true.
  Proof.
    revert ms. apply (run_inv (fun s => abort s = true \/ In OAbort (back s) -> requested s = true)); [intros [H|H]; [discriminate|destruct H]|].
    intros s m H. destruct m; cbn [Ipc.step]; try (destruct (main s); try exact H; destruct (alive s); exact H); try exact H.
    - destruct (main s); try exact H. destruct (_ && _); exact H.
    - destruct (recv s); try exact H. destruct (back s) as [|[|] b] eqn:E; try (rewrite ?E in *; exact H); destruct (alive s); try (rewrite ?E in *; exact H).
      + cbn. intros [C|C]; apply H; [left; exact C|right; right; exact C].
      + cbn. intros _. apply H. right. left. reflexivity.
    - destruct (thread s); cbn; try exact H.
      + destruct (pipe s) as [|[] p]; try exact H. destruct (negb (alive s)); [exact H|]. destruct (over s deadline); exact H.
      + destruct raises; exact H.
      + destruct (alive s); [|exact H]. cbn. intros [C|C]; apply H; [left; exact C|]. apply in_app_or in C. destruct C as [C|[C|[]]]; [right; exact C|discriminate].
      + destruct (negb (alive s)); [exact H|]. destruct (over s deadline); exact H.
    - destruct (thread s); try exact H. destruct (_ && _); exact H.
    - destruct (thread s), (caller s), (alive s); cbn; auto.
    - destruct (caller s); [exact H|]. destruct (negb (alive s)); [exact H|]. destruct (over s deadline); exact H.
    - destruct (may_pass s); exact H.
  Qed.

  (** An order to abort that was given reaches the worker. *)
  Lemma order_given ms : requested (run init ms) = true -> abort (run init ms) = true \/ In OAbort (back (run init ms)).
  Proof.
    revert ms. apply (run_inv (fun s => requested s = true -> abort s = true \/ In OAbort (back s))); [intros H; discriminate|].
    intros s m H. destruct m; cbn [Ipc.step]; try (destruct (main s); try exact H; destruct (alive s); exact H); try exact H.
    - destruct (main s); try exact H. destruct (_ && _); exact H.
    - destruct (recv s); try exact H. destruct (back s) as [|[|] b] eqn:E; try (rewrite ?E in *; exact H); destruct (alive s); try (rewrite ?E in *; exact H).
      + cbn. intros C. destruct (H C) as [A|[A|A]]; [left; exact A|discriminate|right; exact A].
      + cbn. intros _. left. reflexivity.
    - destruct (thread s); cbn; try exact H.
      + destruct (pipe s) as [|[] p]; try exact H. destruct (negb (alive s)); [exact H|]. destruct (over s deadline); exact H.
      + destruct raises; exact H.
      + destruct (alive s); [|exact H]. cbn. intros C. destruct (H C) as [A|A]; [left; exact A|]. right. apply in_or_app. left. exact A.
      + destruct (negb (alive s)); [exact H|]. destruct (over s deadline); exact H.
    - destruct (thread s); try exact H. destruct (_ && _); exact H.
    - destruct (thread s), (caller s), (alive s); cbn; auto; intros _; right; apply in_or_app; right; left; reflexivity.
    - destruct (caller s); [exact H|]. destruct (negb (alive s)); [exact H|]. destruct (over s deadline); exact H.
    - destruct (may_pass s); exact H.
  Qed.
  Lemma step_dead s m : alive s = false -> alive (step s m) = false.
  Proof.
    intros H. destruct m; cbn [Ipc.step]; rewrite ?H; try (destruct (main s); try first [exact H|reflexivity]; reflexivity); try first [exact H|reflexivity]; try reflexivity.
    - destruct (recv s); try first [exact H|reflexivity]. destruct (back s) as [|[|] b]; first [exact H|reflexivity].
    - destruct (thread s); cbn; try first [exact H|reflexivity].
      + destruct (pipe s) as [|[] p]; first [exact H|reflexivity].
      + destruct raises; first [exact H|reflexivity].
    - destruct (thread s); try first [exact H|reflexivity]. destruct (_ && _); first [exact H|reflexivity].
    - destruct (thread s), (caller s); first [exact H|reflexivity].
    - destruct (caller s); first [exact H|reflexivity].
    - destruct (may_pass s); first [exact H|reflexivity].
  Qed.
  Lemma run_dead ms : forall s, alive s = false -> alive (run s ms) = false.
  Proof. induction ms as [|m ms IH]; intros s H; [exact H|]. apply IH. apply step_dead. exact H. Qed.
  Definition listens (m : move) : bool := match m with Listen => true | _ => false end.
  (** Only listening takes orders away, and only the farewell ends it. *)
  Lemma order_waits s m : alive s = true -> recv s = RListening -> listens m = false ->
    alive (step s m) = true -> recv (step s m) = RListening /\ abort (step s m) = abort s /\ exists more, back (step s m) = back s ++ more.
  Proof.
    intros A R L. assert (forall t, recv t = recv s -> abort t = abort s -> back t = back s -> recv t = RListening /\ abort t = abort s /\ exists more, back t = back s ++ more) as K.
    { intros t -> -> ->. split; [exact R|]. split; [reflexivity|]. exists []. symmetry. apply app_nil_r. }
    intros Al. destruct m; try discriminate L; cbn [Ipc.step] in *; rewrite ?A in *.
    all: try (destruct (main s); apply K; cbn; congruence).
    - destruct (main s); try (apply K; reflexivity). destruct (_ && _); apply K; reflexivity.
    - destruct (thread s); cbn [negb] in *; try (apply K; reflexivity).
      + destruct (pipe s) as [|[] p]; try (apply K; reflexivity). destruct (over s deadline); apply K; reflexivity.
      + destruct raises; apply K; reflexivity.
      + cbn. split; [exact R|]. split; [reflexivity|]. eexists. reflexivity.
      + destruct (over s deadline); apply K; reflexivity.
    - destruct (thread s); try (apply K; reflexivity).
    - destruct (thread s), (caller s); try (apply K; reflexivity); cbn; (split; [exact R|]; split; [reflexivity|]; eexists; reflexivity).
    - destruct (caller s); [apply K; reflexivity|]. cbn [negb] in *. destruct (over s deadline); apply K; reflexivity.
    - destruct (may_pass s); apply K; reflexivity.
  Qed.
  Lemma abort_sticks ms : forall s, abort s = true -> abort (run s ms) = true.
  Proof.
    induction ms as [|m ms IH]; intros s H; [exact H|]. apply IH. clear IH.
    destruct m; cbn [Ipc.step]; try (destruct (main s); try exact H; destruct (alive s); exact H); try exact H.
    - destruct (main s); try exact H. destruct (_ && _); exact H.
    - destruct (recv s); try exact H. destruct (back s) as [|[|] b]; try exact H; destruct (alive s); try exact H; reflexivity.
    - destruct (thread s); cbn; try exact H.
      + destruct (pipe s) as [|[] p]; try exact H. destruct (negb (alive s)); [exact H|]. destruct (over s deadline); exact H.
      + destruct raises; exact H.
      + destruct (alive s); exact H.
      + destruct (negb (alive s)); [exact H|]. destruct (over s deadline); exact H.
    - destruct (thread s); try exact H. destruct (_ && _); exact H.
    - destruct (thread s), (caller s), (alive s); exact H.
    - destruct (caller s); [exact H|]. destruct (negb (alive s)); [exact H|]. destruct (over s deadline); exact H.
    - destruct (may_pass s); exact H.
  Qed.
  Lemma order_obeyed ms : forall s b1 b2, recv s = RListening -> back s = b1 ++ OAbort :: b2 -> ~ In OBye b1 ->
    alive (run s ms) = true -> length b1 < length (filter listens ms) -> abort (run s ms) = true.
  Proof.
    induction ms as [|m ms IH]; intros s b1 b2 R E Hn Al Hl; [cbn in Hl; lia|].
    assert (alive s = true) as A by (destruct (alive s) eqn:A; [reflexivity|]; rewrite (run_dead (m :: ms) s A) in Al; discriminate).
    assert (alive (step s m) = true) as A' by (destruct (alive (step s m)) eqn:A'; [reflexivity|]; change (alive (run (step s m) ms) = true) in Al; rewrite (run_dead ms _ A') in Al; discriminate).
    destruct (listens m) eqn:L.
    - destruct m; try discriminate. cbn [Ipc.run fold_left Ipc.step] in *. cbn [filter listens length] in Hl. rewrite R, E, A in *.
      destruct b1 as [|o b1]; cbn [app] in *.
      + apply abort_sticks. reflexivity.
      + destruct o; [elim Hn; left; reflexivity|]. apply abort_sticks. reflexivity.
    - destruct (order_waits s m A R L A') as (R'&_&more&E'). cbn [Ipc.run fold_left filter] in *. rewrite L in Hl.
      apply (IH (step s m) b1 (b2 ++ more) R'); [|exact Hn|exact Al|exact Hl]. rewrite E', E, <- app_assoc. reflexivity.
  Qed.

  Lemma caller_bound ms d : caller (run init ms) = AJoining d -> clock (run init ms) <= d <= clock (run init ms) + teardown_timeout.
  Proof.
    revert d. apply (run_inv (fun s => forall d, caller s = AJoining d -> clock s <= d <= clock s + teardown_timeout)); [intros d H; discriminate|].
    intros s m H. destruct m; cbn [Ipc.step]; try (destruct (main s); try exact H; destruct (alive s); exact H); try exact H.
    - destruct (main s); try exact H. destruct (_ && _); exact H.
    - destruct (recv s); try exact H. destruct (back s) as [|[|] b]; try exact H; destruct (alive s); exact H.
    - destruct (thread s); cbn; try exact H.
      + destruct (pipe s) as [|[] p]; try exact H. destruct (negb (alive s)); [exact H|]. destruct (over s deadline); exact H.
      + destruct raises; exact H.
      + destruct (alive s); exact H.
      + destruct (negb (alive s)); [exact H|]. destruct (over s deadline); exact H.
    - destruct (thread s); try exact H. destruct (_ && _); exact H.
    - destruct (thread s), (caller s) eqn:E, (alive s); cbn; rewrite ?E; try exact H; intros d Hd; injection Hd as <-; unfold teardown_timeout; lia.
    - destruct (caller s) eqn:E; [rewrite E; exact H|]. destruct (negb (alive s)); [intros d Hd; discriminate|]. destruct (over s deadline); [intros d Hd; discriminate|]. rewrite E. exact H.
    - destruct (may_pass s) eqn:M; [|exact H]. cbn. intros d Hd. specialize (H d Hd). unfold may_pass in M. rewrite Hd in M.
      apply andb_prop in M. destruct M as [M _]. apply andb_prop in M. destruct M as [_ M]. apply negb_true_iff in M. unfold over in M. apply Nat.leb_gt in M. lia.
  Qed.
  Lemma caller_returns s m d : caller s = AJoining d -> caller (step s m) = AIdle -> alive (step s m) = false.
  Proof.
    intros H. destruct m; cbn [Ipc.step].
    all: try solve [destruct (main s); cbn; try congruence; destruct (alive s); cbn; congruence]; try (cbn; congruence).
    - destruct (main s); cbn; try congruence; destruct (_ && _); cbn; congruence.
    - destruct (recv s); cbn; try congruence. destruct (back s) as [|[|] b]; cbn; try congruence; destruct (alive s); cbn; congruence.
    - destruct (thread s); cbn; try congruence.
      + destruct (pipe s) as [|[] p]; cbn; try congruence. destruct (negb (alive s)); cbn; [congruence|]. destruct (over s deadline); cbn; congruence.
      + destruct raises; cbn; congruence.
      + destruct (alive s); cbn; congruence.
      + destruct (negb (alive s)); cbn; [congruence|]. destruct (over s deadline); cbn; congruence.
    - destruct (thread s); cbn; try congruence. destruct (_ && _); cbn; congruence.
    - rewrite H. destruct (thread s); cbn; congruence.
    - rewrite H. destruct (alive s) eqn:Ea; cbn; [|auto]. destruct (over s d); cbn; auto. congruence.
    - destruct (may_pass s); cbn; congruence.
  Qed.

  (** ** Uneventful gradings *)
  Hypothesis positive : 0 < timeout.
  Definition replied (s : state) : Prop := match thread s with JTearDown | JJoining _ | JDone => True | _ => False end.
  Record calm_inv (s : state) : Prop := {
    ci_messages : messages_inv s;
    ci_errors : errors s = 0;
    ci_killed : killed s = false;
    ci_caller : caller s = AIdle;
    ci_thread : thread s <> JFailing;
    ci_alive : alive s = false -> replied s;
    ci_main : replied s -> exists d, main s = WJoining d;
    ci_ended : recv s = REnded -> replied s;
    ci_order : In OBye (back s) -> replied s;
    ci_told : replied s -> recv s = RListening -> In OBye (back s);
    ci_abort : ~ In OAbort (back s);
    ci_over : forall d, main s = WJoining d -> recv s <> RNone /\ (clock s < d \/ recv s <> RListening);
    ci_time : match thread s with JPolling d => clock s < d | JJoining d => clock s < d | _ => True end;
    ci_none : recv s = RNone -> main s = WGreet \/ main s = WStart;
    ci_none' : main s = WGreet \/ main s = WStart -> recv s = RNone
  }.
  Lemma calm_send s x m : calm_inv s -> messages_inv (send s x m) -> (forall d, main s <> WJoining d) ->
    (m = WGreet \/ m = WStart <-> recv s = RNone) -> (forall d, m = WJoining d -> recv s <> RNone /\ clock s < d) -> calm_inv (send s x m).
  Proof.
    intros [] Hm Hj Hn Hd. constructor; auto.
    - intros H. destruct (ci_main0 H) as [d E]. destruct (Hj d E).
    - intros d E. destruct (Hd d E). cbn. auto.
    - cbn. intros H. tauto.
    - cbn. tauto.
  Qed.
  Lemma calm_step s m : calm_inv s -> calm timeout s [m] -> calm_inv (step s m).
  Proof.
    intros H [Hc _]. pose proof (messages_step s m (ci_messages s H)) as Hm.
    assert (recv s = RListening \/ recv s = REnded -> main s = WGreet \/ main s = WStart -> False) as Hr.
    { intros A B. apply (ci_none' s H) in B. destruct A; congruence. }
    assert (main s = WGrading \/ main s = WRaised -> recv s <> RNone) as Hr'.
    { intros A B. apply (ci_none s H) in B. destruct A as [A|A], B as [B|B]; congruence. }
    destruct m; try contradiction; cbn [Ipc.step] in Hm |- *.
    - destruct (main s) eqn:E; try exact H. destruct (alive s) eqn:Ea; [|exact H]. apply calm_send; auto; rewrite ?E; try (intros; discriminate).
      pose proof (ci_none' s H (or_introl E)). tauto.
    - destruct (main s) eqn:E; try exact H. destruct (alive s) eqn:Ea; [|exact H].
      assert (~ replied s) as Hnr by (intros C; destruct (ci_main s H C) as [d Ed]; congruence).
      destruct H. constructor; auto; cbn; try (intros; discriminate); try tauto; try (intros [C|C]; discriminate).
    - destruct (main s) eqn:E; try exact H. destruct (alive s) eqn:Ea; [|exact H]. apply calm_send; auto; rewrite ?E; try (intros; discriminate).
      split; [intros [C|C]; discriminate|intros C; destruct (Hr' ltac:(auto) C)].
    - destruct (main s) eqn:E; try exact H. destruct (alive s) eqn:Ea; [|exact H]. apply calm_send; auto; rewrite ?E; try (intros; discriminate).
      + split; [intros [C|C]; discriminate|intros C; destruct (Hr' ltac:(auto) C)].
      + intros d Ed. injection Ed as <-. split; [apply Hr'; auto|unfold teardown_timeout; lia].
    - destruct (main s) eqn:E; try exact H. destruct (alive s) eqn:Ea; [|exact H]. apply calm_send; auto; rewrite ?E; try (intros; discriminate).
      split; [intros [C|C]; discriminate|intros C; destruct (Hr' ltac:(auto) C)].
    - destruct (main s) eqn:E; try exact H. destruct (alive s) eqn:Ea; [|exact H]. apply calm_send; auto; rewrite ?E; try (intros; discriminate).
      + split; [intros [C|C]; discriminate|intros C; destruct (Hr' ltac:(auto) C)].
      + intros d Ed. injection Ed as <-. split; [apply Hr'; auto|unfold teardown_timeout; lia].
    - destruct (main s) eqn:E; try exact H. destruct (_ && _) eqn:X; [|exact H].
      apply andb_prop in X. destruct X as [_ X].
      assert (replied s) as R.
      { destruct (ci_over s H _ E) as [N1 N2]. apply (ci_ended s H). destruct (recv s); [congruence| |reflexivity].
        cbn in X. unfold over in X. apply Nat.leb_le in X. destruct N2; [lia|congruence]. }
      destruct H. constructor; auto; cbn; rewrite ?E in *; auto.
    - destruct (recv s) eqn:Er; try exact H. destruct (back s) as [|[|] b] eqn:Eb; try exact H; destruct (alive s) eqn:Ea; try exact H.
      + assert (replied s) as R by (apply (ci_order s H); rewrite Eb; left; reflexivity).
        destruct H. constructor; auto; cbn; try (intros; discriminate); try (rewrite Eb in *; cbn in *; tauto);
          try (intros d Ed; split; [discriminate|right; discriminate]); try (intros C; rewrite ?Er in Hr; destruct (Hr (or_introl eq_refl) C)).
      + exfalso. apply (ci_abort s H). rewrite Eb. left. reflexivity.
    - destruct raises; [contradiction|]. destruct (thread s) as [d|x| | | |d|] eqn:E.
      + destruct (pipe s) as [|x p] eqn:Ep.
        * pose proof (ci_time s H) as Ht. rewrite E in Ht.
          destruct (alive s) eqn:Ea; [|pose proof (ci_alive s H Ea) as R; unfold replied in R; rewrite E in R; contradiction].
          cbn [negb]. assert (over s d = false) as -> by (apply Nat.leb_gt, Ht). exact H.
        * assert (~ replied s) as R by (unfold replied; rewrite E; auto).
          destruct x; destruct H; constructor; auto; cbn; try discriminate; try tauto.
      + assert (~ replied s) as R by (unfold replied; rewrite E; auto).
        destruct H. constructor; auto; cbn; try discriminate; try tauto. lia.
      + assert (~ replied s) as R by (unfold replied; rewrite E; auto).
        destruct (alive s) eqn:Ea; [|destruct R; apply (ci_alive s H Ea)].
        destruct H. constructor; auto; cbn; try discriminate; try tauto.
        * intros _. destruct ci_messages0 as (Hb & (mid & Hs & Ht) & _). rewrite E in Ht. destruct Ht as [_ ->].
          unfold bye_last in Hb. destruct (main s); try (exfalso; apply Hb; rewrite Hs; apply in_or_app; right; left; reflexivity). eauto.
        * intros _ _. apply in_or_app. right. left. reflexivity.
        * intros C. apply in_app_or in C. destruct C as [C|[C|[]]]; [auto|discriminate].
      + destruct (ci_thread s H E).
      + assert (replied s) as R by (unfold replied; rewrite E; exact I).
        destruct H. constructor; auto; cbn; destruct (alive s) eqn:Ea; try discriminate; auto; unfold teardown_timeout; try lia.
      + assert (replied s) as R by (unfold replied; rewrite E; exact I).
        pose proof (ci_time s H) as Ht. rewrite E in Ht. destruct (alive s) eqn:Ea; cbn [negb] in Hm |- *.
        * assert (over s d = false) as -> by (apply Nat.leb_gt, Ht). exact H.
        * destruct H. constructor; auto; cbn; try discriminate; auto.
      + exact H.
    - rewrite (ci_caller s H). exact H.
    - destruct Hc as [Hb Ht]. destruct (may_pass s); [|exact H]. destruct H. constructor; auto; cbn.
      + intros d Ed. destruct (ci_over0 d Ed) as [N1 N2]. split; [exact N1|]. destruct N2 as [N2|N2]; [|auto]. right. intros C.
        (* the farewell would have to be on its way *)
        specialize (Hb C). destruct ci_messages0 as (Hl & (mid & Hs & Hmid) & Hh). unfold bye_last in Hl. rewrite Ed in Hl. destruct Hl as (l & Hl & _).
        assert (In Bye (sent s)) as Hi by (rewrite Hl; apply in_or_app; right; left; reflexivity).
        destruct (thread s) eqn:E; try contradiction.
        * destruct Ht as [Hp _], Hmid as [_ ->]. rewrite Hs, Hp, app_nil_r in Hi. contradiction.
        * assert (replied s) as R by (unfold replied; rewrite E; exact I). pose proof (ci_told0 R C) as Q. rewrite Hb in Q. destruct Q.
        * assert (replied s) as R by (unfold replied; rewrite E; exact I). pose proof (ci_told0 R C) as Q. rewrite Hb in Q. destruct Q.
      + destruct (thread s); try exact I; tauto.
  Qed.
  Lemma calm_init : calm_inv init.
  Proof.
    constructor; cbn; try discriminate; try tauto; try (intros; discriminate); auto.
    - exact (messages_ok []).
  Qed.
  Lemma calm_run ms : forall s, calm_inv s -> calm timeout s ms -> calm_inv (run s ms).
  Proof.
    induction ms as [|m ms IH]; intros s H Hc; [exact H|]. destruct Hc as [Hm Hc]. apply IH; [|exact Hc]. apply calm_step; [exact H|]. split; [exact Hm|exact I].
  Qed.
  Lemma calm_clean ms : calm timeout init ms -> errors (run init ms) = 0 /\ killed (run init ms) = false
    /\ (thread (run init ms) = JDone -> sent (run init ms) = handled (run init ms) ++ [Bye]).
  Proof.
    intros H. pose proof (calm_run ms init calm_init H) as C. split; [apply C|]. split; [apply C|]. intros Hd. apply done_complete; [exact Hd|apply C].
  Qed.
End Run.

Lemma recv_timeout_bounds tl : 60 <= recv_timeout tl /\ (2 * tl < inject_Z (Z.of_nat (recv_timeout tl) + 1))%Q
  /\ ((2 * tl < 61)%Q -> recv_timeout tl = 60) /\ ((61 <= 2 * tl)%Q -> (inject_Z (Z.of_nat (recv_timeout tl)) <= 2 * tl)%Q).
Proof.
  unfold recv_timeout. set (q := (2 * tl)%Q). pose proof (Qlt_floor q) as Hl. pose proof (Qfloor_le q) as Hf. repeat split.
  - apply Nat.le_max_l.
  - eapply Qlt_le_trans; [exact Hl|]. rewrite <- Zle_Qle. lia.
  - intros H. assert (inject_Z (Qfloor q) < 61)%Q as Q by (eapply Qle_lt_trans; eassumption). change 61%Q with (inject_Z 61) in Q. rewrite <- Zlt_Qlt in Q. lia.
  - intros H. assert (60 < inject_Z (Qfloor q + 1))%Q as Q by (eapply Qlt_trans; [|eapply Qle_lt_trans; eassumption]; reflexivity).
    change 60%Q with (inject_Z 60) in Q. rewrite <- Zlt_Qlt in Q.
    assert (Z.of_nat (Nat.max 60 (Z.to_nat (Qfloor q))) = Qfloor q) as -> by lia. exact Hf.
Qed.
