From Coq Require Import String.
From Verif Require Import Model.Bytes Model.Watch Spec.Watch.
Local Open Scope nat_scope.
Local Open Scope list_scope.

Section Refresher.
  Variable urls : list bytes.
  Let K := length urls.
  Definition worker_moves (ms : list rmove) : nat := length (filter (fun m => match m with R => true | _ => false end) ms).

  Inductive serving (t : nat) (s : rstate) (w : nat) : Prop :=
  | sv_done : told urls (pinged s) t -> serving t s w
  | sv_wait : rph s = RWait -> trigger s = true -> K + 3 <= w -> serving t s w
  | sv_woken : rph s = RWoken -> K + 2 <= w -> serving t s w
  | sv_cleared : rph s = RCleared -> K + 1 <= w -> serving t s w
  | sv_good rest done : rph s = RPinging rest -> urls = done ++ rest -> told done (pinged s) t -> length rest <= w -> serving t s w
  | sv_old rest : rph s = RPinging rest -> trigger s = true -> length rest + 1 + K + 3 <= w -> serving t s w.

  Lemma told_more (us : list bytes) p t x : told us p t -> told us (p ++ x) t.
  Proof. intros H u Hu. destruct (H u Hu) as (n & L & I). exists n. split; [exact L|]. apply in_or_app. left. exact I. Qed.
  Lemma told_snoc (us : list bytes) u p t n : told us p t -> t <= n -> told (us ++ [u]) (p ++ [(u, n)]) t.
  Proof.
    intros H L v Hv. apply in_app_or in Hv. destruct Hv as [Hv|[<-|[]]].
    - exact (told_more us p t [(u, n)] H v Hv).
    - exists n. split; [exact L|]. apply in_or_app. right. left. reflexivity.
  Qed.

  Lemma serving_other t s w m : m = Refresh -> serving t s w -> serving t (rstep urls s m) w.
  Proof.
    intros -> H. destruct s as [tr te a ph p]. destruct H; cbn in *.
    - apply sv_done. assumption.
    - apply sv_wait; [assumption|reflexivity|assumption].
    - apply sv_woken; assumption.
    - apply sv_cleared; assumption.
    - eapply sv_good; eassumption.
    - eapply sv_old; [eassumption|reflexivity|assumption].
  Qed.
  Lemma serving_step t s w : terminate s = false -> t <= asked s -> serving t s w ->
    serving t (rstep urls s R) (pred w).
  Proof.
    intros T L H. destruct s as [tr te a ph p]. cbn in T, L. subst te. destruct H; cbn in *.
    - apply sv_done. destruct ph as [| | |[|u r]|]; cbn; try assumption; [destruct tr; assumption|]. apply told_more. assumption.
    - subst ph tr. cbn. apply sv_woken; [reflexivity|lia].
    - subst ph. cbn. apply sv_cleared; [reflexivity|lia].
    - subst ph. cbn. apply sv_good with (rest := urls) (done := []); [reflexivity|reflexivity|intros u []|fold K; lia].
    - subst ph. destruct rest as [|u r]; cbn.
      + apply sv_done. rewrite app_nil_r in H0. rewrite H0. assumption.
      + apply sv_good with (rest := r) (done := done ++ [u]); [reflexivity|rewrite <- app_assoc; exact H0| |cbn in *; lia].
        apply told_snoc; assumption.
    - subst ph tr. destruct rest as [|u r]; cbn in *.
      + apply sv_wait; [reflexivity|reflexivity|lia].
      + eapply sv_old; [reflexivity|reflexivity|cbn; lia].
  Qed.
  Lemma serving_zero t s : serving t s 0 -> told urls (pinged s) t \/ exists done, rph s = RPinging [] /\ urls = done /\ told done (pinged s) t.
  Proof.
    intros H. destruct H; try lia; [left; assumption|]. destruct rest; [|cbn in *; lia]. rewrite app_nil_r in H0. right. eauto.
  Qed.
  Lemma serving_told t s : serving t s 0 -> told urls (pinged s) t.
  Proof. intros H. destruct (serving_zero t s H) as [K0|(d & _ & Ed & K0)]; [exact K0|]. rewrite Ed. exact K0. Qed.

  Definition no_stop (ms : list rmove) : Prop := ~ In StopA ms /\ ~ In StopB ms.
  Lemma run_serving t ms : forall s w, no_stop ms -> terminate s = false -> t <= asked s -> serving t s w ->
    serving t (rrun urls s ms) (w - worker_moves ms).
  Proof.
    induction ms as [|m ms IH]; intros s w N T L H; [cbn; rewrite Nat.sub_0_r; exact H|].
    assert (N' : no_stop ms) by (split; intros X; [apply (proj1 N)|apply (proj2 N)]; right; exact X).
    change (rrun urls s (m :: ms)) with (rrun urls (rstep urls s m) ms).
    destruct m; try (exfalso; first [apply (proj1 N); left; reflexivity|apply (proj2 N); left; reflexivity]).
    - apply IH; [exact N'|exact T|cbn; lia|]. apply serving_other; [reflexivity|exact H].
    - replace (w - worker_moves (R :: ms)) with (pred w - worker_moves ms) by (cbn; unfold worker_moves; lia).
      apply IH; [exact N'| | |apply serving_step; assumption].
      + destruct s as [tr te a ph p]. cbn in *. destruct ph as [| | |[|u r]|]; cbn; try assumption. destruct tr; assumption.
      + destruct s as [tr te a ph p]. cbn in *. destruct ph as [| | |[|u r]|]; cbn; try assumption. destruct tr; assumption.
  Qed.

  (** Without a stop the worker never ends, and pings only suffixes of [urls]. *)
  Definition alive (s : rstate) : Prop := terminate s = false /\ rph s <> RExited /\
    match rph s with RPinging r => length r <= K | _ => True end.
  Lemma alive_run ms : forall s, no_stop ms -> alive s -> alive (rrun urls s ms).
  Proof.
    induction ms as [|m ms IH]; intros s N A; [exact A|].
    assert (N' : no_stop ms) by (split; intros X; [apply (proj1 N)|apply (proj2 N)]; right; exact X).
    change (rrun urls s (m :: ms)) with (rrun urls (rstep urls s m) ms). apply IH; [exact N'|].
    destruct m; try (exfalso; first [apply (proj1 N); left; reflexivity|apply (proj2 N); left; reflexivity]).
    - exact A.
    - destruct s as [tr te a ph p]. destruct A as (A1 & A2 & A3). cbn in *. subst te.
      destruct ph as [| | |[|u r]|]; cbn; try congruence.
      + destruct tr; repeat split; discriminate.
      + repeat split; discriminate.
      + repeat split; try discriminate. apply le_n.
      + repeat split; discriminate.
      + repeat split; try discriminate. apply Nat.lt_le_incl. exact A3.
  Qed.
  Lemma alive_init : alive rinit.
  Proof. repeat split. discriminate. Qed.

  Lemma serving_start s : alive s -> serving (S (asked s)) (rstep urls s Refresh) (2 * K + 4).
  Proof.
    intros (A1 & A2 & A3). destruct s as [tr te a ph p]. cbn in *. destruct ph as [| | |r|].
    - apply sv_wait; [reflexivity|reflexivity|lia].
    - apply sv_woken; [reflexivity|lia].
    - apply sv_cleared; [reflexivity|lia].
    - apply sv_old with (rest := r); [reflexivity|reflexivity|lia].
    - congruence.
  Qed.

  Lemma rrun_app s a b : rrun urls s (a ++ b) = rrun urls (rrun urls s a) b.
  Proof. apply fold_left_app. Qed.

  Lemma refresh_served before after : no_stop before -> no_stop after ->
    let s := rrun urls rinit (before ++ [Refresh]) in
    exists w, w <= (2 * K + 4) - worker_moves after /\ serving (asked s) (rrun urls s after) w.
  Proof.
    intros N1 N2 s. subst s. rewrite rrun_app. set (s0 := rrun urls rinit before).
    assert (A : alive s0) by (apply alive_run; [exact N1|apply alive_init]).
    eexists. split; [apply le_n|].
    apply run_serving; [exact N2|apply A|apply le_n|]. exact (serving_start s0 A).
  Qed.

  Lemma pinged_after before after : no_stop before -> no_stop after -> 2 * K + 4 <= worker_moves after ->
    let s := rrun urls rinit (before ++ [Refresh]) in told urls (pinged (rrun urls s after)) (asked s).
  Proof.
    intros N1 N2 L s. destruct (refresh_served before after N1 N2) as (w & Lw & H). apply serving_told.
    replace 0 with w by lia. exact H.
  Qed.
  Lemma never_forgotten before after : no_stop before -> no_stop after ->
    let s := rrun urls rinit (before ++ [Refresh]) in let s' := rrun urls s after in
    rph s' = RWait -> trigger s' = false -> told urls (pinged s') (asked s).
  Proof.
    intros N1 N2 s s' P T. destruct (refresh_served before after N1 N2) as (w & _ & H). fold s s' in H.
    destruct H; try congruence. assumption.
  Qed.

  (** ** Stopping *)
  Definition left_to_ping (s : rstate) : nat := match rph s with RPinging r => length r | _ => 0 end.
  Lemma stopped_step s m : terminate s = true ->
    let s' := rstep urls s m in terminate s' = true /\
    length (pinged s') + left_to_ping s' <= length (pinged s) + left_to_ping s.
  Proof.
    intros T. destruct s as [tr te a ph p]. cbn in T. subst te. unfold left_to_ping. destruct m; cbn; try (split; [reflexivity|lia]).
    destruct ph as [| | |[|u r]|]; cbn; try (split; [reflexivity|lia]).
    - destruct tr; cbn; split; try reflexivity; lia.
    - rewrite app_length. cbn. split; [reflexivity|lia].
  Qed.
  Lemma stopped_run ms : forall s, terminate s = true ->
    terminate (rrun urls s ms) = true /\
    length (pinged (rrun urls s ms)) + left_to_ping (rrun urls s ms) <= length (pinged s) + left_to_ping s.
  Proof.
    induction ms as [|m ms IH]; intros s T; [split; [exact T|apply le_n]|].
    change (rrun urls s (m :: ms)) with (rrun urls (rstep urls s m) ms).
    destruct (stopped_step s m T) as [T' L']. destruct (IH _ T') as [T'' L'']. split; [exact T''|lia].
  Qed.
  Definition short (s : rstate) : Prop := left_to_ping s <= K.
  Lemma short_run ms : forall s, short s -> short (rrun urls s ms).
  Proof.
    unfold short. induction ms as [|m ms IH]; intros s H; [exact H|].
    change (rrun urls s (m :: ms)) with (rrun urls (rstep urls s m) ms). apply IH.
    destruct s as [tr te a ph p]. unfold left_to_ping in *. destruct m; cbn in *; try exact H.
    destruct ph as [| | |[|u r]|]; cbn in *; try lia; [destruct tr; cbn; lia|destruct te; cbn; fold K; lia].
  Qed.
  Lemma no_more_than_a_round before after : let s := rrun urls rinit (before ++ [StopA]) in
    length (pinged (rrun urls s after)) <= length (pinged s) + K.
  Proof.
    intros s. assert (T : terminate s = true) by (subst s; rewrite rrun_app; reflexivity).
    destruct (stopped_run after s T) as [_ L].
    assert (Sh : short s) by (apply short_run; unfold short, left_to_ping; cbn; lia). unfold short in Sh. lia.
  Qed.

  (** Moves until it has ended. *)
  Inductive ending (s : rstate) (w : nat) : Prop :=
  | en_done : rph s = RExited -> ending s w
  | en_cleared : rph s = RCleared -> 1 <= w -> ending s w
  | en_woken : rph s = RWoken -> 2 <= w -> ending s w
  | en_wait : rph s = RWait -> trigger s = true -> 3 <= w -> ending s w
  | en_ping r : rph s = RPinging r -> trigger s = true -> length r + 4 <= w -> ending s w.
  Lemma ending_step s w m : terminate s = true -> ending s w ->
    ending (rstep urls s m) (match m with R => pred w | _ => w end).
  Proof.
    intros T H. destruct s as [tr te a ph p]. cbn in T. subst te.
    destruct m; cbn; try (destruct H; cbn in *; subst;
      [apply en_done; reflexivity|apply en_cleared; [reflexivity|lia]|apply en_woken; [reflexivity|lia]
      |apply en_wait; [reflexivity|reflexivity|lia]|eapply en_ping; [reflexivity|reflexivity|lia]]).
    destruct H; cbn in *; subst; cbn.
    - apply en_done. reflexivity.
    - apply en_done. reflexivity.
    - apply en_cleared; [reflexivity|lia].
    - apply en_woken; [reflexivity|lia].
    - destruct r as [|u r]; cbn in *; [apply en_wait; [reflexivity|reflexivity|lia]|eapply en_ping; [reflexivity|reflexivity|lia]].
  Qed.
  Lemma ending_run ms : forall s w, terminate s = true -> ending s w -> ending (rrun urls s ms) (w - worker_moves ms).
  Proof.
    induction ms as [|m ms IH]; intros s w T H; [cbn; rewrite Nat.sub_0_r; exact H|].
    change (rrun urls s (m :: ms)) with (rrun urls (rstep urls s m) ms).
    pose proof (ending_step s w m T H) as H'. destruct (stopped_step s m T) as [T' _].
    destruct m; try (exact (IH _ _ T' H')).
    replace (w - worker_moves (R :: ms)) with (pred w - worker_moves ms) by (cbn; unfold worker_moves; lia).
    exact (IH _ _ T' H').
  Qed.
  Lemma stops before mid after : K + 4 <= worker_moves after ->
    rph (rrun urls rinit (before ++ [StopA] ++ mid ++ [StopB] ++ after)) = RExited.
  Proof.
    intros L. rewrite !rrun_app. set (s := rrun urls (rrun urls (rrun urls rinit before) [StopA]) mid).
    assert (T : terminate s = true) by (apply stopped_run; reflexivity).
    assert (Sh : short s). { unfold s. rewrite <- !rrun_app. apply short_run. unfold short, left_to_ping. cbn. lia. }
    change (rrun urls s [StopB]) with (rstep urls s StopB).
    assert (H : ending (rstep urls s StopB) (K + 4)).
    { clearbody s. destruct s as [tr te a ph p]. unfold short, left_to_ping in Sh. cbn in *. destruct ph as [| | |r|].
      - apply en_wait; [reflexivity|reflexivity|lia].
      - apply en_woken; [reflexivity|lia].
      - apply en_cleared; [reflexivity|lia].
      - eapply en_ping; [reflexivity|reflexivity|lia].
      - apply en_done; reflexivity. }
    pose proof (ending_run after (rstep urls s StopB) _ T H) as E. replace (K + 4 - worker_moves after) with 0 in E by lia.
    destruct E; try lia. assumption.
  Qed.

  (** ** Rounds *)
  Definition rest_of (s : rstate) : list bytes := match rph s with RPinging r => r | _ => [] end.
  Definition pending (s : rstate) : nat :=
    match rph s with
    | RWait | RPinging _ => if trigger s then 1 else 0
    | RWoken => 1
    | RCleared => 1 + (if trigger s then 1 else 0)
    | RExited => 0
    end.
  Definition rounds_ok (s : rstate) : Prop := exists n,
    map fst (pinged s) ++ rest_of s = concat (repeat urls n) /\ n + pending s <= asked s.
  Lemma rounds_step s m : m <> StopB -> rounds_ok s -> rounds_ok (rstep urls s m).
  Proof.
    intros Nm (n & E & L). destruct s as [tr te a ph p]. unfold rounds_ok, rest_of, pending in *. cbn in E, L.
    destruct m; try congruence.
    - exists n. split; [exact E|]. cbn. destruct ph, tr; lia.
    - exists n. split; [exact E|exact L].
    - destruct ph as [| | |[|u r]|]; cbn.
      + destruct tr; cbn; exists n; (split; [exact E|lia]).
      + exists n. split; [exact E|lia].
      + destruct te; cbn; [exists n; split; [exact E|lia]|]. exists (S n). split; [|lia].
        rewrite app_nil_r in E. rewrite E. replace (S n) with (n + 1) by lia. rewrite repeat_app, concat_app. cbn. rewrite app_nil_r. reflexivity.
      + exists n. split; [exact E|lia].
      + exists n. split; [|lia]. rewrite map_app, <- app_assoc. exact E.
      + exists n. split; [exact E|lia].
  Qed.
  Lemma rounds_run ms : forall s, ~ In StopB ms -> rounds_ok s -> rounds_ok (rrun urls s ms).
  Proof.
    induction ms as [|m ms IH]; intros s N H; [exact H|].
    change (rrun urls s (m :: ms)) with (rrun urls (rstep urls s m) ms). apply IH; [intros X; apply N; right; exact X|].
    apply rounds_step; [|exact H]. intros ->. apply N. left. reflexivity.
  Qed.
  Lemma rounds ms : ~ In StopB ms -> let s := rrun urls rinit ms in
    in_rounds urls (map fst (pinged s)) /\ length (pinged s) <= asked s * K.
  Proof.
    intros N s. assert (H : rounds_ok s). { apply rounds_run; [exact N|]. exists 0. split; [reflexivity|cbn; lia]. }
    destruct H as (n & E & L). split.
    - exists n, (rest_of s). split; [exact E|].
      assert (Sh : short s) by (apply short_run; unfold short, left_to_ping; cbn; lia).
      unfold short, left_to_ping in Sh. unfold rest_of. destruct (rph s); cbn in *; try lia.
    - apply (f_equal (@length _)) in E. rewrite app_length, map_length in E.
      assert (Lc : forall k, length (concat (repeat urls k)) = k * K).
      { induction k as [|k IH]; [reflexivity|]. cbn. rewrite app_length, IH. reflexivity. }
      rewrite Lc in E. nia.
  Qed.
End Refresher.
