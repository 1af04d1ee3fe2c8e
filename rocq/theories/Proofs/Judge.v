From Verif Require Import Model.Bytes Model.Judge Spec.Judge.

Lemma set_nth_same {A} (l : list A) j a x : nth_error l j = Some x -> nth_error (set_nth l j a) j = Some a.
Proof. revert j. induction l as [|y l IH]; intros [|j]; cbn; try discriminate; auto. Qed.
Lemma set_nth_other {A} (l : list A) j a k : k <> j -> nth_error (set_nth l j a) k = nth_error l k.
Proof. revert j k. induction l as [|y l IH]; intros [|j] [|k] H; cbn; auto; try contradiction. Qed.
Lemma set_nth_length {A} (l : list A) j a : length (set_nth l j a) = length l.
Proof. revert j. induction l as [|y l IH]; intros [|j]; cbn; auto. Qed.

Section G.
  Variable stream : nat -> list nat.
  Variable fork_fails : nat -> bool.
  Notation step := (jstep stream fork_fails).

  Definition holding (p : cphase) : Prop := match p with CLocked _ | CStarted _ => True | _ => False end.
  Definition done (t : gthread) : Prop := g_ph t = GDone /\ ready t = true.
  Definition all_done_but (j : option nat) (l : list gthread) : Prop :=
    forall k t, nth_error l k = Some t -> Some k <> j -> done t.

  Inductive Own : jstate -> Prop :=
  | own_none : forall s, locked s = false -> current s = None -> (forall i, ~ holding (callers s i)) ->
      all_done_but None (threads s) -> sequential stream (trace s) None -> Own s
  | own_leaked : forall s i, callers s i = CFailed -> (exists sub, fork_fails sub = true) ->
      locked s = true -> current s = None -> (forall i, ~ holding (callers s i)) ->
      all_done_but None (threads s) -> sequential stream (trace s) None -> Own s
  | own_locked : forall s i sub, locked s = true -> current s = None -> callers s i = CLocked sub ->
      (forall k, k <> i -> ~ holding (callers s k)) -> all_done_but None (threads s) -> sequential stream (trace s) None -> Own s
  | own_started : forall s i sub, locked s = true -> current s = Some sub -> callers s i = CStarted sub ->
      (forall k, k <> i -> ~ holding (callers s k)) -> all_done_but None (threads s) ->
      sequential stream (trace s) (Some (sub, stream sub)) -> Own s
  | own_run : forall s j sub r rdy, locked s = true -> current s = Some sub ->
      nth_error (threads s) j = Some (GThread sub (GRun r) rdy) ->
      (forall k, ~ holding (callers s k)) -> all_done_but (Some j) (threads s) ->
      sequential stream (trace s) (Some (sub, r)) -> Own s
  | own_torn : forall s j sub rdy, locked s = true -> current s = Some sub ->
      nth_error (threads s) j = Some (GThread sub GTornDown rdy) ->
      (forall k, ~ holding (callers s k)) -> all_done_but (Some j) (threads s) ->
      sequential stream (trace s) (Some (sub, [])) -> Own s
  | own_clear : forall s j sub rdy, locked s = true -> current s = None ->
      nth_error (threads s) j = Some (GThread sub GCleared rdy) ->
      (forall k, ~ holding (callers s k)) -> all_done_but (Some j) (threads s) ->
      sequential stream (trace s) None -> Own s
  | own_signal : forall s j sub, locked s = true -> current s = None ->
      nth_error (threads s) j = Some (GThread sub GSignalled true) ->
      (forall k, ~ holding (callers s k)) -> all_done_but (Some j) (threads s) ->
      sequential stream (trace s) None -> Own s.

  Definition failed_why (s : jstate) : Prop :=
    (forall i, callers s i = CFailed -> exists sub, fork_fails sub = true) /\
    (forall i j, callers s i = CWaiting j -> j < length (threads s)).

  Lemma set_caller_same s i p : set_caller s i p i = p.
  Proof. unfold set_caller. rewrite Nat.eqb_refl. reflexivity. Qed.
  Lemma set_caller_other s i p k : k <> i -> set_caller s i p k = callers s k.
  Proof. intros H. unfold set_caller. destruct (Nat.eqb_spec k i); [contradiction|reflexivity]. Qed.
  Lemma not_holding_set s i p : (forall k, ~ holding (callers s k)) -> ~ holding p -> forall k, ~ holding (set_caller s i p k).
  Proof. intros H Hp k. destruct (Nat.eq_dec k i) as [->|Hk]; [rewrite set_caller_same|rewrite set_caller_other by exact Hk]; auto. Qed.
  Lemma all_done_set l j t : all_done_but (Some j) l -> all_done_but (Some j) (set_nth l j t).
  Proof. intros H k u Hk Hj. destruct (Nat.eq_dec k j) as [->|Hn]; [contradiction|]. rewrite set_nth_other in Hk by exact Hn. eapply H; eauto. Qed.
  Lemma all_done_fin l j t : all_done_but (Some j) l -> done t -> all_done_but None (set_nth l j t).
  Proof.
    intros H Ht k u Hk _. destruct (Nat.eq_dec k j) as [->|Hn].
    - destruct (nth_error l j) as [x|] eqn:E; [rewrite (set_nth_same _ _ _ _ E) in Hk; injection Hk as <-; exact Ht|].
      apply nth_error_None in E. assert (nth_error (set_nth l j t) j <> None) by congruence. apply nth_error_Some in H0. rewrite set_nth_length in H0. lia.
    - rewrite set_nth_other in Hk by exact Hn. eapply H; eauto. congruence.
  Qed.

  Lemma hold_kill s i : (forall k, ~ holding (callers s k)) -> holding (callers s i) -> False.
  Proof. intros H. apply H. Qed.
  (** A caller that does not hold the lock. *)
  Lemma caller_other s i : Own s -> failed_why s -> callers s i = CIdle \/ (exists j, callers s i = CWaiting j) \/ callers s i = CFailed ->
    locked s = true \/ callers s i <> CIdle -> Own (caller_step stream fork_fails s i).
  Proof.
    intros O W Hc Hl. unfold caller_step. destruct Hc as [Hc|[[j Hc]|Hc]]; rewrite Hc.
    - destruct Hl as [Hl|Hl]; [|contradiction]. rewrite Hl. destruct (todo s i); exact O.
    - destruct (nth_error (threads s) j) as [t|]; [|exact O]. destruct (ready t); [|exact O].
      assert (forall k, holding (set_caller s i CIdle k) -> k <> i /\ set_caller s i CIdle k = callers s k) as HH.
      { intros k. destruct (Nat.eq_dec k i) as [->|Hk]; [rewrite set_caller_same; intros []|]. rewrite set_caller_other by exact Hk. auto. }
      assert (forall k, ~ holding (callers s k) -> ~ holding (set_caller s i CIdle k)) as HN.
      { intros k Hn Hh. destruct (HH k Hh) as [_ E]. rewrite E in Hh. contradiction. }
      destruct O as [s H1 H2 H3 H4 H5|s i' H0 H0' H1 H2 H3 H4 H5|s i' sub H1 H2 H3 H4 H5 H6|s i' sub H1 H2 H3 H4 H5 H6|s j' sub r rdy H1 H2 H3 H4 H5 H6|s j' sub rdy H1 H2 H3 H4 H5 H6|s j' sub rdy H1 H2 H3 H4 H5 H6|s j' sub H1 H2 H3 H4 H5 H6].
      + apply own_none; cbn; auto.
      + apply (own_leaked _ i'); cbn; auto. rewrite set_caller_other; [exact H0|congruence].
      + apply (own_locked _ i' sub); cbn; auto. rewrite set_caller_other; [exact H3|congruence].
      + apply (own_started _ i' sub); cbn; auto. rewrite set_caller_other; [exact H3|congruence].
      + apply (own_run _ j' sub r rdy); cbn; auto.
      + apply (own_torn _ j' sub rdy); cbn; auto.
      + apply (own_clear _ j' sub rdy); cbn; auto.
      + apply (own_signal _ j' sub); cbn; auto.
    - exact O.
  Qed.
  Lemma own_caller s i : Own s -> failed_why s -> Own (caller_step stream fork_fails s i).
  Proof.
    intros O W. destruct (callers s i) as [|sub|sub|j|] eqn:Ec.
    - destruct (locked s) eqn:El; [apply caller_other; auto|].
      inversion O; subst; try congruence. unfold caller_step. rewrite Ec, El. destruct (todo s i) as [|sub r]; [exact O|].
      apply (own_locked _ i sub); cbn; auto; [apply set_caller_same|].
      intros k Hk. rewrite set_caller_other by exact Hk. auto.
    - inversion O; subst; try (exfalso; eapply (hold_kill s i); [eassumption|rewrite Ec; exact I]).
      + assert (i0 = i) as -> by (destruct (Nat.eq_dec i0 i) as [->|Hn]; [reflexivity|exfalso; apply (H2 i); [congruence|rewrite Ec; exact I]]).
        rewrite Ec in H1. injection H1 as <-. unfold caller_step. rewrite Ec, H0. destruct (fork_fails sub) eqn:Ef.
        * apply (own_leaked _ i); cbn; eauto; [apply set_caller_same|].
          intros k. destruct (Nat.eq_dec k i) as [->|Hk]; [rewrite set_caller_same; intros []|rewrite set_caller_other by exact Hk; auto].
        * apply (own_started _ i sub); cbn; auto; [apply set_caller_same| |apply sq_begin; assumption].
          intros k Hk. rewrite set_caller_other by exact Hk. auto.
      + exfalso. apply (H2 i); [|rewrite Ec; exact I]. intros ->. congruence.
    - inversion O; subst; try (exfalso; eapply (hold_kill s i); [eassumption|rewrite Ec; exact I]).
      + exfalso. apply (H2 i); [|rewrite Ec; exact I]. intros ->. congruence.
      + assert (i0 = i) as -> by (destruct (Nat.eq_dec i0 i) as [->|Hn]; [reflexivity|exfalso; apply (H2 i); [congruence|rewrite Ec; exact I]]).
        rewrite Ec in H1. injection H1 as <-. unfold caller_step. rewrite Ec.
        apply (own_run _ (length (threads s)) sub (stream sub) false); cbn; auto.
        * rewrite nth_error_app2, Nat.sub_diag by lia. reflexivity.
        * intros k. destruct (Nat.eq_dec k i) as [->|Hk]; [rewrite set_caller_same; intros []|rewrite set_caller_other by exact Hk; auto].
        * intros k t Hk Hn. destruct (Nat.lt_ge_cases k (length (threads s))) as [Hlt|Hge].
          -- rewrite nth_error_app1 in Hk by exact Hlt. eapply H3; eauto. discriminate.
          -- assert (k = length (threads s)); [|subst; contradiction]. assert (k < length (threads s ++ [GThread sub (GRun (stream sub)) false])) by (apply nth_error_Some; congruence). rewrite app_length in *; cbn in *; lia.
    - apply caller_other; eauto. right. congruence.
    - apply caller_other; auto. right. congruence.
  Qed.
  Lemma done_stuck s j t : nth_error (threads s) j = Some t -> done t -> thread_step s j = s.
  Proof. intros E [H _]. unfold thread_step. rewrite E. destruct t as [sub ph rdy]. cbn in H. subst ph. reflexivity. Qed.
  Lemma own_thread s j : Own s -> Own (thread_step s j).
  Proof.
    intros O. destruct (nth_error (threads s) j) as [t|] eqn:Et; [|unfold thread_step; rewrite Et; exact O].
    assert (forall o, all_done_but o (threads s) -> Some j <> o -> Own (thread_step s j)) as HD.
    { intros o H Hn. rewrite (done_stuck _ _ _ Et (H _ _ Et Hn)). exact O. }
    inversion O; subst; try (eapply HD; [eassumption|discriminate]).
    - destruct (Nat.eq_dec j0 j) as [->|Hn]; [|eapply HD; [eassumption|congruence]].
      unfold thread_step. rewrite H1. destruct r as [|m r].
      + apply (own_torn _ j sub rdy); cbn; auto; [eapply set_nth_same, H1|apply all_done_set; assumption].
      + apply (own_run _ j sub r (rdy || (m =? 0))); cbn; auto; [eapply set_nth_same, H1|apply all_done_set; assumption|].
        rewrite H0. apply sq_report. assumption.
    - destruct (Nat.eq_dec j0 j) as [->|Hn]; [|eapply HD; [eassumption|congruence]].
      unfold thread_step. rewrite H1. apply (own_clear _ j sub rdy); cbn; auto; [eapply set_nth_same, H1|apply all_done_set; assumption|].
      apply sq_end. assumption.
    - destruct (Nat.eq_dec j0 j) as [->|Hn]; [|eapply HD; [eassumption|congruence]].
      unfold thread_step. rewrite H1. apply (own_signal _ j sub); cbn; auto; [eapply set_nth_same, H1|apply all_done_set; assumption].
    - destruct (Nat.eq_dec j0 j) as [->|Hn]; [|eapply HD; [eassumption|congruence]].
      unfold thread_step. rewrite H1. apply own_none; cbn; auto. apply all_done_fin; [assumption|split; reflexivity].
  Qed.
  Lemma threads_len_mono s m : length (threads s) <= length (threads (step s m)).
  Proof.
    destruct m as [i|j]; cbn.
    - unfold caller_step. destruct (callers s i); cbn; try lia.
      + destruct (todo s i), (locked s); cbn; lia.
      + destruct (current s); cbn; [lia|]. destruct (fork_fails s0); cbn; lia.
      + rewrite app_length. lia.
      + destruct (nth_error (threads s) j) as [t|]; [destruct (ready t)|]; cbn; lia.
    - unfold thread_step. destruct (nth_error (threads s) j) as [[sub ph rdy]|]; [|lia]. destruct ph as [[|m r]| | | |]; cbn; rewrite ?set_nth_length; lia.
  Qed.
  Lemma why_step s m : Own s -> failed_why s -> failed_why (step s m).
  Proof.
    intros O [W1 W2]. pose proof (threads_len_mono s m) as HL. split.
    - intros k. destruct m as [i|j]; cbn.
      + unfold caller_step. destruct (callers s i) as [|sub|sub|j|] eqn:Ec.
        * destruct (todo s i), (locked s); cbn; eauto. destruct (Nat.eq_dec k i) as [->|Hk]; [rewrite set_caller_same; discriminate|rewrite set_caller_other by exact Hk; eauto].
        * destruct (current s) as [c|] eqn:Ecur.
          -- exfalso. inversion O; subst; try congruence; try (eapply (hold_kill s i); [eassumption|rewrite Ec; exact I]).
             assert (i0 = i) as -> by (destruct (Nat.eq_dec i0 i) as [->|Hn]; [reflexivity|exfalso; apply (H2 i); [congruence|rewrite Ec; exact I]]). congruence.
          -- destruct (fork_fails sub) eqn:Ef; cbn.
             ++ destruct (Nat.eq_dec k i) as [->|Hk]; [eauto|rewrite set_caller_other by exact Hk; eauto].
             ++ destruct (Nat.eq_dec k i) as [->|Hk]; [rewrite set_caller_same; discriminate|rewrite set_caller_other by exact Hk; eauto].
        * cbn. destruct (Nat.eq_dec k i) as [->|Hk]; [rewrite set_caller_same; discriminate|rewrite set_caller_other by exact Hk; eauto].
        * destruct (nth_error (threads s) j) as [t|]; [destruct (ready t)|]; cbn; eauto.
          destruct (Nat.eq_dec k i) as [->|Hk]; [rewrite set_caller_same; discriminate|rewrite set_caller_other by exact Hk; eauto].
        * eauto.
      + unfold thread_step. destruct (nth_error (threads s) j) as [[sub ph rdy]|]; [|eauto]. destruct ph as [[|m r]| | | |]; cbn; eauto.
    - intros k w Hk. assert (callers s k = CWaiting w \/ w < length (threads (step s m))) as [H|H]; [|specialize (W2 _ _ H); lia|exact H].
      revert Hk. destruct m as [i|j]; cbn in *.
      + unfold caller_step in *. destruct (callers s i) as [|sub|sub|j|] eqn:Ec.
        * destruct (todo s i), (locked s); cbn; eauto. destruct (Nat.eq_dec k i) as [->|Hk]; [rewrite set_caller_same; discriminate|rewrite set_caller_other by exact Hk; eauto].
        * destruct (current s); [|destruct (fork_fails sub)]; cbn; (destruct (Nat.eq_dec k i) as [->|Hk]; [rewrite set_caller_same; discriminate|rewrite set_caller_other by exact Hk; eauto]).
        * cbn. destruct (Nat.eq_dec k i) as [->|Hk]; [rewrite set_caller_same|rewrite set_caller_other by exact Hk; eauto]. intros X. injection X as <-. right. rewrite app_length. cbn. lia.
        * destruct (nth_error (threads s) j) as [t|]; [destruct (ready t)|]; cbn; eauto.
          destruct (Nat.eq_dec k i) as [->|Hk]; [rewrite set_caller_same; discriminate|rewrite set_caller_other by exact Hk; eauto].
        * eauto.
      + unfold thread_step. destruct (nth_error (threads s) j) as [[sub ph rdy]|]; [|eauto]. destruct ph as [[|m r]| | | |]; cbn; eauto.
  Qed.
  Definition JInv (s : jstate) : Prop := Own s /\ failed_why s.
  Lemma jinv_step s m : JInv s -> JInv (step s m).
  Proof. intros [O W]. split; [destruct m; cbn; [apply own_caller; assumption|apply own_thread, O]|apply why_step; assumption]. Qed.
  Lemma jinv_run sch : forall s, JInv s -> JInv (jrun stream fork_fails s sch).
  Proof. induction sch as [|m sch IH]; intros s H; [exact H|]. cbn. apply IH, jinv_step, H. Qed.
  Lemma jinv_init td : JInv (jinit td).
  Proof.
    split.
    - apply own_none; cbn; auto; [intros k t H; destruct k; discriminate|constructor].
    - split; cbn; intros; discriminate.
  Qed.

  Theorem serial td sch : exists o, sequential stream (trace (jrun stream fork_fails (jinit td) sch)) o.
  Proof.
    destruct (jinv_run sch _ (jinv_init td)) as [O _]. inversion O; subst; eauto.
  Qed.
  Theorem never_fails td sch : (forall s, fork_fails s = false) -> forall i, callers (jrun stream fork_fails (jinit td) sch) i <> CFailed.
  Proof.
    intros HF i E. destruct (jinv_run sch _ (jinv_init td)) as [_ [W _]]. destruct (W i E) as [sub H]. rewrite HF in H. discriminate.
  Qed.

  (** Progress. *)
  Lemma run_app s a b : jrun stream fork_fails s (a ++ b) = jrun stream fork_fails (jrun stream fork_fails s a) b.
  Proof. apply fold_left_app. Qed.
  Definition same_todo (s s' : jstate) : Prop := forall i, todo s' i = todo s i.
  Lemma thread_todo s j i : todo (thread_step s j) i = todo s i.
  Proof. unfold thread_step. destruct (nth_error (threads s) j) as [[sub ph rdy]|]; [|reflexivity]. destruct ph as [[|m r]| | | |]; reflexivity. Qed.
  Definition Fin (n : nat) (s : jstate) (j : nat) : Prop :=
    let s' := jrun stream fork_fails s (repeat (Thread j) n) in
    locked s' = false /\ (forall i, callers s' i = callers s i) /\ (forall i, todo s' i = todo s i).
  Lemma fin_S n s j s1 : thread_step s j = s1 -> (forall i, callers s1 i = callers s i) -> (forall i, todo s1 i = todo s i) ->
    Fin n s1 j -> Fin (S n) s j.
  Proof. intros E H1 H2 [A [C D]]. unfold Fin. cbn [repeat jrun fold_left jstep]. rewrite E. split; [exact A|]. split; intros i; [exact (eq_trans (C i) (H1 i))|exact (eq_trans (D i) (H2 i))]. Qed.
  Lemma fin_signalled s j sub rdy : nth_error (threads s) j = Some (GThread sub GSignalled rdy) -> Fin 1 s j.
  Proof. intros E. unfold Fin. cbn. unfold thread_step. rewrite E. cbn. auto. Qed.
  Lemma fin_cleared s j sub rdy : nth_error (threads s) j = Some (GThread sub GCleared rdy) -> Fin 2 s j.
  Proof. intros E. eapply fin_S; [unfold thread_step; rewrite E; reflexivity|reflexivity|reflexivity|]. eapply fin_signalled. cbn. eapply set_nth_same, E. Qed.
  Lemma fin_torn s j sub rdy : nth_error (threads s) j = Some (GThread sub GTornDown rdy) -> Fin 3 s j.
  Proof. intros E. eapply fin_S; [unfold thread_step; rewrite E; reflexivity|reflexivity|reflexivity|]. eapply fin_cleared. cbn. eapply set_nth_same, E. Qed.
  Lemma fin_run r : forall s j sub rdy, nth_error (threads s) j = Some (GThread sub (GRun r) rdy) -> Fin (length r + 4) s j.
  Proof.
    induction r as [|m r IH]; intros s j sub rdy E; (eapply fin_S; [unfold thread_step; rewrite E; reflexivity|reflexivity|reflexivity|]).
    - eapply fin_torn. cbn. eapply set_nth_same, E.
    - eapply IH. cbn. eapply set_nth_same, E.
  Qed.
  Lemma unlock s : (forall x, fork_fails x = false) -> JInv s -> exists sch, JInv (jrun stream fork_fails s sch) /\ locked (jrun stream fork_fails s sch) = false /\ same_todo s (jrun stream fork_fails s sch).
  Proof.
    intros HF.
    assert (forall s j t, JInv s -> nth_error (threads s) j = Some t -> ~ done t -> exists sch, JInv (jrun stream fork_fails s sch) /\ locked (jrun stream fork_fails s sch) = false /\ same_todo s (jrun stream fork_fails s sch)) as HT.
    { intros s0 j [sub ph rdy] I E Hd. pose proof I as [O W]. destruct ph as [r| | | |].
      - destruct (fin_run r s0 j sub rdy E) as [H1 [_ H2]]. exists (repeat (Thread j) (length r + 4)). split; [apply jinv_run, I|]. split; assumption.
      - destruct (fin_torn s0 j sub rdy E) as [H1 [_ H2]]. exists (repeat (Thread j) 3). split; [apply jinv_run, I|]. split; assumption.
      - destruct (fin_cleared s0 j sub rdy E) as [H1 [_ H2]]. exists (repeat (Thread j) 2). split; [apply jinv_run, I|]. split; assumption.
      - destruct (fin_signalled s0 j sub rdy E) as [H1 [_ H2]]. exists (repeat (Thread j) 1). split; [apply jinv_run, I|]. split; assumption.
      - exfalso. inversion O; subst; try (apply Hd; eapply H2; [exact E|discriminate]; fail); try (apply Hd; eapply H3; [exact E|discriminate]; fail);
          try (apply Hd; eapply H4; [exact E|discriminate]; fail); try (destruct (Nat.eq_dec j0 j) as [->|Hn]; [congruence|]; apply Hd; eapply H3; [exact E|congruence]). }
    intros I. pose proof I as [O W]. inversion O; subst.
    - exists []. split; [exact I|]. split; [assumption|]. intros k. reflexivity.
    - exfalso. destruct H0 as [sub X]. rewrite HF in X. discriminate.
    - (* locked *)
      set (s1 := step s (Caller i)). assert (JInv s1) as I1 by (apply jinv_step, I).
      assert (callers s1 i = CStarted sub /\ same_todo s s1) as [E1 T1].
      { unfold s1. cbn. unfold caller_step. rewrite H1, H0, HF. cbn. rewrite set_caller_same. split; [reflexivity|intros k; reflexivity]. }
      assert (nth_error (threads (step s1 (Caller i))) (length (threads s1)) = Some (GThread sub (GRun (stream sub)) false) /\ same_todo s1 (step s1 (Caller i))) as [E2 T2].
      { clearbody s1. cbn. unfold caller_step. rewrite E1. cbn. rewrite nth_error_app2, Nat.sub_diag by lia. split; [reflexivity|intros k; reflexivity]. }
      destruct (HT _ _ _ (jinv_step _ _ I1) E2) as [sch [A [Bk C]]]; [intros [X _]; discriminate|].
      exists (Caller i :: Caller i :: sch). split; [exact A|]. split; [exact Bk|]. intros k. exact (eq_trans (C k) (eq_trans (T2 k) (T1 k))).
    - set (s2 := step s (Caller i)). assert (JInv s2) as I2 by (apply jinv_step, I).
      assert (nth_error (threads s2) (length (threads s)) = Some (GThread sub (GRun (stream sub)) false) /\ same_todo s s2) as [E2 T2].
      { unfold s2. cbn. unfold caller_step. rewrite H1. cbn. rewrite nth_error_app2, Nat.sub_diag by lia. split; [reflexivity|intros k; reflexivity]. }
      destruct (HT s2 _ _ I2 E2) as [sch [A [Bk C]]]; [intros [X _]; discriminate|].
      exists (Caller i :: sch). split; [exact A|]. split; [exact Bk|]. intros k. exact (eq_trans (C k) (T2 k)).
    - eapply HT; eauto. intros [X _]; discriminate.
    - eapply HT; eauto. intros [X _]; discriminate.
    - eapply HT; eauto. intros [X _]; discriminate.
    - eapply HT; eauto. intros [X _]; discriminate.
  Qed.
  Theorem accepts td sch : (forall x, fork_fails x = false) ->
    let s := jrun stream fork_fails (jinit td) sch in
    forall i sub r, todo s i = sub :: r -> exists more, let s' := jrun stream fork_fails (jinit td) (sch ++ more) in
      todo s' i = r /\ In (Begin sub) (trace s').
  Proof.
    intros HF s i sub r E. pose proof (jinv_run sch _ (jinv_init td)) as I. fold s in I.
    destruct (unlock s HF I) as [m1 [I1 [L1 T1]]]. set (s1 := jrun stream fork_fails s m1) in *.
    assert (exists m2, JInv (jrun stream fork_fails s1 m2) /\ locked (jrun stream fork_fails s1 m2) = false /\ callers (jrun stream fork_fails s1 m2) i = CIdle /\ todo (jrun stream fork_fails s1 m2) i = sub :: r) as [m2 [I2 [L2 [C2 T2]]]].
    { destruct I1 as [O1 [W1 W2]]. inversion O1; subst; try congruence. destruct (callers s1 i) as [|x|x|j|] eqn:Ec.
      - exists []. split; [split; [assumption|split; assumption]|]. split; [exact L1|]. split; [exact Ec|]. cbn. rewrite T1. exact E.
      - exfalso. apply (H1 i). rewrite Ec. exact Logic.I.
      - exfalso. apply (H1 i). rewrite Ec. exact Logic.I.
      - exists [Caller i]. split; [apply jinv_run; split; [assumption|split; assumption]|]. cbn. unfold caller_step. rewrite Ec.
        destruct (nth_error (threads s1) j) as [t|] eqn:Et; [|apply nth_error_None in Et; specialize (W2 _ _ Ec); lia].
        assert (ready t = true) as -> by (eapply H2; [exact Et|discriminate]). cbn. rewrite set_caller_same. split; [exact L1|]. split; [reflexivity|]. rewrite T1. exact E.
      - exfalso. destruct (W1 _ Ec) as [x X]. rewrite HF in X. discriminate. }
    set (s2 := jrun stream fork_fails s1 m2) in *.
    exists (m1 ++ m2 ++ [Caller i; Caller i]). rewrite !run_app. fold s. fold s1. fold s2. cbn.
    destruct I2 as [O2 _]. inversion O2; subst; try congruence.
    unfold caller_step at 2 4. rewrite C2, T2, L2. unfold caller_step. cbn. rewrite set_caller_same. rewrite H0, HF. cbn.
    split; [unfold set_todo; rewrite Nat.eqb_refl; reflexivity|]. apply in_or_app. right. left. reflexivity.
  Qed.
End G.

(** ** A failed fork leaks the lock *)
Definition ff1 (s : nat) : bool := s =? 1.
Definition td1 (i : nat) : list nat := match i with 0 => [1] | 1 => [2] | _ => [] end.
Definition leaked := jrun (fun _ => []) ff1 (jinit td1) [Caller 0; Caller 0].
Lemma leak_stuck sch : jrun (fun _ => []) ff1 leaked sch = leaked.
Proof.
  induction sch as [|m sch IH]; [reflexivity|]. cbn [jrun fold_left]. replace (jstep (fun _ => []) ff1 leaked m) with leaked; [exact IH|].
  destruct m as [[|[|i]]|[|j]]; try reflexivity; cbn; unfold caller_step, thread_step; destruct i; reflexivity.
Qed.

(** ** Updates *)
Section U.
  Variable fails : nat -> bool.
  Hypothesis OK : forall k, fails k = false.
  Definition pend (v0 k : nat) (s : ustate) : Prop :=
    exiting s = false /\ v0 <= version s /\
    match phase s with
    | UScanned v => (v0 <= v /\ 1 <= k) \/ (event s = true /\ 5 <= k)
    | UCleared => 2 <= k
    | UWoken => 3 <= k
    | UWait => event s = true /\ 4 <= k
    | UExited => False
    end.
  Definition goodu (s0 : ustate) (v0 k : nat) (s : ustate) : Prop :=
    (exists new, sent s = sent s0 ++ new) /\ (resent v0 s0 s \/ pend v0 k s).
  Lemma sent_mono s m : exists new, sent (ustep fails s m) = sent s ++ new.
  Proof.
    assert (forall l : list nat, exists new, l = l ++ new) as Z by (intros l; exists []; rewrite app_nil_r; reflexivity).
    destruct m; cbn; auto. destruct (phase s); cbn; auto; [destruct (event s); cbn; auto|destruct (exiting s); cbn; auto; destruct (fails (attempts s)); cbn; auto|eauto].
  Qed.
  Lemma resent_step v s0 s m : resent v s0 s -> resent v s0 (ustep fails s m).
  Proof.
    intros [new [w [E [Hi Hv]]]]. destruct (sent_mono s m) as [n2 E2]. exists (new ++ n2), w. split; [rewrite E2, E, app_assoc; reflexivity|]. split; [apply in_or_app; auto|exact Hv].
  Qed.
  Lemma goodu_step s0 v0 k s m : goodu s0 v0 k s -> m <> Murder ->
    goodu s0 v0 (match m with U => k - 1 | _ => k end) (ustep fails s m).
  Proof using OK.
    intros [[new E] [R|[He [Hv Hp]]]] Hm.
    - split; [destruct (sent_mono s m) as [n2 E2]; exists (new ++ n2); rewrite E2, E, app_assoc; reflexivity|left; apply resent_step, R].
    - split; [destruct (sent_mono s m) as [n2 E2]; exists (new ++ n2); rewrite E2, E, app_assoc; reflexivity|].
      destruct m; try contradiction.
      + right. unfold pend. cbn. split; [exact He|]. split; [lia|]. destruct (phase s); auto.
      + right. unfold pend. cbn. split; [exact He|]. split; [lia|]. destruct (phase s); intuition.
      + unfold pend, ustep in *. destruct (phase s) as [| | |v|]; [| | | |contradiction].
        * destruct Hp as [Hev Hk]. rewrite Hev. right. cbn. intuition lia.
        * right. cbn. intuition lia.
        * rewrite He, OK. right. cbn. intuition lia.
        * destruct Hp as [[Hle Hk]|[Hev Hk]].
          -- left. exists (new ++ [v]), v. cbn. split; [rewrite E, app_assoc; reflexivity|]. split; [apply in_or_app; right; left; reflexivity|exact Hle].
          -- right. cbn. rewrite Hev. intuition lia.
  Qed.
  Lemma goodu_run s0 v0 ms : ~ In Murder ms -> forall k s, goodu s0 v0 k s -> goodu s0 v0 (k - updater_moves ms) (urun fails s ms).
  Proof using OK.
    induction ms as [|m ms IH]; intros HM k s G; [cbn; rewrite Nat.sub_0_r; exact G|].
    assert (m <> Murder) as Hm by (intros ->; apply HM; left; reflexivity).
    assert (~ In Murder ms) as HM' by (intros X; apply HM; right; exact X).
    pose proof (IH HM' _ _ (goodu_step _ _ _ _ m G Hm)) as G'. cbn [urun fold_left updater_moves].
    destruct m; [exact G'|exact G'| |contradiction]. replace (k - S (updater_moves ms)) with (k - 1 - updater_moves ms) by lia. exact G'.
  Qed.
  Definition alive (s : ustate) : Prop := exiting s = false /\ phase s <> UExited.
  Lemma alive_run ms : ~ In Murder ms -> forall s, alive s -> alive (urun fails s ms).
  Proof using OK.
    induction ms as [|m ms IH]; intros HM s A; [exact A|]. cbn. apply IH; [intros X; apply HM; right; exact X|].
    destruct A as [A1 A2]. destruct m; try (split; [exact A1|exact A2]).
    - unfold alive, ustep. destruct (phase s) eqn:Ep.
      + destruct (event s); split; cbn; auto; try discriminate. congruence.
      + split; [exact A1|discriminate].
      + rewrite A1, OK. split; [reflexivity|discriminate].
      + split; [exact A1|discriminate].
      + contradiction.
    - exfalso. apply HM. left. reflexivity.
  Qed.
  Lemma start_good before : ~ In Murder before ->
    let s := urun fails uinit (before ++ [Notify]) in goodu s (version s) 5 s.
  Proof using OK.
    intros HM. unfold urun. rewrite fold_left_app. fold (urun fails uinit before). cbn.
    assert (alive (urun fails uinit before)) as [A1 A2] by (apply alive_run; [exact HM|split; [reflexivity|discriminate]]).
    split; [exists []; rewrite app_nil_r; reflexivity|]. right. unfold pend. cbn. split; [exact A1|]. split; [lia|].
    destruct (phase (urun fails uinit before)); try contradiction; intuition lia.
  Qed.
  Theorem update_sent before after : ~ In Murder before -> ~ In Murder after -> 5 <= updater_moves after ->
    let s := urun fails uinit (before ++ [Notify]) in resent (version s) s (urun fails s after).
  Proof using OK.
    intros H1 H2 H5 s. destruct (goodu_run s (version s) after H2 5 s (start_good before H1)) as [_ [R|[P1 [P2 P3]]]]; [exact R|exfalso].
    destruct (phase (urun fails s after)); intuition lia.
  Qed.
  Theorem update_not_lost before after : ~ In Murder before -> ~ In Murder after ->
    let s := urun fails uinit (before ++ [Notify]) in let s' := urun fails s after in
    phase s' = UWait -> event s' = false -> resent (version s) s s'.
  Proof using OK.
    intros H1 H2 s s' E1 E2. destruct (goodu_run s (version s) after H2 5 s (start_good before H1)) as [_ [R|[P1 [P2 P3]]]]; [exact R|exfalso].
    fold s' in P3. rewrite E1, E2 in P3. destruct P3. discriminate.
  Qed.
End U.

(** Every list sent is the list as it was at some moment. *)
Theorem sent_real fails ms : Forall (fun v => v <= version (urun fails uinit ms)) (sent (urun fails uinit ms)).
Proof.
  assert (forall s, Forall (fun v => v <= version s) (sent s) -> (match phase s with UScanned v => v <= version s | _ => True end) ->
    Forall (fun v => v <= version (urun fails s ms)) (sent (urun fails s ms))) as H.
  { induction ms as [|m ms IH]; intros s H1 H2; [exact H1|]. cbn. apply IH.
    - destruct m; cbn; auto; [eapply Forall_impl; [|exact H1]; cbn; intros; lia|].
      destruct (phase s); cbn; auto; [destruct (event s)|destruct (exiting s); [|destruct (fails (attempts s))]|]; cbn; auto.
      apply Forall_app. split; [exact H1|constructor; [exact H2|constructor]].
    - destruct m; cbn; auto; [destruct (phase s); auto; lia|].
      destruct (phase s) eqn:Ep; cbn; auto; [destruct (event s)|destruct (exiting s); [|destruct (fails (attempts s))]|]; cbn; auto; rewrite ?Ep; auto. }
  apply H; cbn; auto.
Qed.

Definition fail0 (k : nat) : bool := k =? 0.
Lemma lost_after_failure ms : Forall (fun m => m = U) ms -> sent (urun fail0 uinit ([Change; Notify] ++ ms)) = [].
Proof.
  intros H. unfold urun. rewrite fold_left_app. fold (urun fail0 (fold_left (ustep fail0) [Change; Notify] uinit) ms). cbn.
  do 3 (destruct H as [|m ms -> H]; [reflexivity|]; cbn [urun fold_left ustep phase event exiting fail0 attempts Nat.eqb]).
  induction H as [|m ms -> H IH]; [reflexivity|exact IH].
Qed.

(** Lists sent and under way against notifications. *)
Definition owed (s : ustate) : nat :=
  match phase s with
  | UScanned _ => if exiting s then 1 else S (if event s then 1 else 0)
  | UCleared => if exiting s then 0 else S (if event s then 1 else 0)
  | UWoken => if exiting s then 0 else 1
  | _ => if exiting s then 0 else if event s then 1 else 0
  end.
Definition asks (m : umove) : bool := match m with Notify => true | _ => false end.
Lemma owed_step fails s m : (phase s = UWoken -> event s = true) ->
  (phase (ustep fails s m) = UWoken -> event (ustep fails s m) = true) /\
  List.length (sent (ustep fails s m)) + owed (ustep fails s m) <= List.length (sent s) + owed s + (if asks m then 1 else 0).
Proof.
  intros W. destruct s as [ev v nt ph se at_ ex]. cbn in W. unfold owed. destruct m; cbn.
  - split; [exact W|lia].
  - split; [reflexivity|]. destruct ph, ev, ex; cbn; lia.
  - destruct ph; cbn; (try (split; [assumption || discriminate|])).
    + destruct ev; cbn; (split; [reflexivity || discriminate|]); destruct ex; lia.
    + destruct ex; lia.
    + destruct ex; cbn; [split; [discriminate|]; lia|]. destruct (fails at_); cbn; (split; [discriminate|]); destruct ev; lia.
    + rewrite app_length. cbn. destruct ev, ex; lia.
    + lia.
  - split; [reflexivity|]. destruct ph, ev, ex; cbn; lia.
Qed.
Lemma sent_few fails ms : List.length (sent (urun fails uinit ms)) <= List.length (filter asks ms).
Proof.
  assert (forall ms s, (phase s = UWoken -> event s = true) ->
    List.length (sent (urun fails s ms)) + owed (urun fails s ms) <= List.length (sent s) + owed s + List.length (filter asks ms)) as H.
  { clear ms. induction ms as [|m r IH]; intros s W; [cbn; lia|]. cbn [urun fold_left]. change (fold_left (ustep fails) r (ustep fails s m)) with (urun fails (ustep fails s m) r).
    destruct (owed_step fails s m W) as [W' L]. specialize (IH _ W'). cbn [filter]. destruct (asks m); cbn [List.length]; lia. }
  specialize (H ms uinit ltac:(discriminate)). cbn [uinit sent owed phase event exiting List.length] in H. lia.
Qed.
