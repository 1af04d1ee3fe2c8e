From Coq Require Import String Lia.
From Verif Require Import Model.Bytes Model.Shutdown Spec.Shutdown.
Local Open Scope nat_scope.
Local Open Scope list_scope.

Definition mrank (m : main_at) : nat :=
  match m with Listening => 0 | Aborting => 1 | Flagging => 2 | Signalling => 3 | Closing => 4 | StoppingApi => 5 | StoppingMonitor => 6 | Done _ => 7 | Exited => 0 end.

Record inv (api : bool) (s : state) : Prop := {
  v_abort : 2 <= mrank (main s) -> aborted s = true;
  v_listen : mrank (main s) = 0 -> aborted s = false /\ closed s = false;
  v_order : closed s = true -> aborted s = true;
  v_flag : flag s = (3 <=? mrank (main s));
  v_sig : 4 <= mrank (main s) -> signal s = true \/ updater s = UTest \/ updater s = UOver;
  v_closed : 5 <= mrank (main s) -> closed s = true;
  v_api : api = true -> api_stopped s = (6 <=? mrank (main s));
  v_noapi : api = false -> main s <> StoppingApi;
  v_mon : monitor_stopped s = (7 <=? mrank (main s));
  v_done : forall k, main s = Done k -> k = status s
}.

Lemma inv_start api : inv api start.
Proof. constructor; cbn; try reflexivity; try lia; try discriminate. Qed.

Ltac go := cbn in *; try reflexivity; try assumption; try discriminate; try lia; auto; try congruence.

Lemma step_cases api s m : step api s m = s /\ main s = Exited \/ step api s m = act api s m /\ main s <> Exited.
Proof. unfold step. destruct (main s); try (right; split; [reflexivity|discriminate]). left. split; reflexivity. Qed.
Lemma step_live api s m : 1 <= mrank (main s) -> step api s m = act api s m.
Proof. intros R. destruct (step_cases api s m) as [[_ E]|[E _]]; [rewrite E in R; cbn in R; lia|exact E]. Qed.

Lemma inv_act api s m : m <> Main true -> main s <> Exited -> inv api s -> inv api (act api s m).
Proof.
  intros N X [A L O F G C P Q M D]. destruct s as [m0 u f st fl sg cl ab ap mo n].
  cbn [main updater flusher status flag signal closed aborted api_stopped monitor_stopped sent] in *. subst fl mo.
  destruct m as [e|i| | |]; cbn [act].
  - destruct m0; try solve [constructor; go]. destruct e; constructor; go.
  - destruct i; [contradiction N; reflexivity|]. destruct m0; cbn [main_step]; try solve [constructor; go].
    destruct api; constructor; go.
  - destruct u; try solve [constructor; go].
    + destruct sg; constructor; go.
    + destruct (3 <=? mrank m0) eqn:E; constructor; go. intros R. destruct m0; cbn in *; first [lia | discriminate].
    + constructor; go. intros R. destruct (G R) as [Y|[Y|Y]]; [left; exact Y|discriminate Y|discriminate Y].
  - destruct f; try solve [constructor; go].
  - constructor; go.
Qed.
Lemma inv_step api s m : m <> Main true -> inv api s -> inv api (step api s m).
Proof. intros N I. destruct (step_cases api s m) as [[E X]|[E X]]; rewrite E; [exact I|apply inv_act; assumption]. Qed.

Lemma inv_fold api ms : forall s, left_alone ms -> inv api s -> inv api (fold_left (step api) ms s).
Proof.
  induction ms as [|m r IH]; intros s N I; [exact I|]. cbn [fold_left]. apply IH; [intros X; apply N; right; exact X|].
  apply inv_step; [|exact I]. intros ->. apply N. left. reflexivity.
Qed.

Lemma run_app api a b : run api (a ++ b) = fold_left (step api) b (run api a).
Proof. apply fold_left_app. Qed.

Lemma rank_step api s m : mrank (main s) <= mrank (main (step api s m)).
Proof.
  destruct (step_cases api s m) as [[E X]|[E X]]; rewrite E; [lia|]. clear E X.
  destruct s as [m0 u f st fl sg cl ab ap mo n]. destruct m as [e|i| | |]; cbn; try lia.
  - destruct m0; cbn; try lia; destruct e; cbn; lia.
  - destruct m0, i; cbn; try lia; destruct api; cbn; lia.
  - destruct u; cbn; try lia; destruct sg; cbn; lia.
  - destruct f; cbn; lia.
Qed.
Lemma rank_fold api ms : forall s, mrank (main s) <= mrank (main (fold_left (step api) ms s)).
Proof. induction ms as [|m r IH]; intros s; [cbn; lia|]. cbn [fold_left]. pose proof (rank_step api s m). specialize (IH (step api s m)). lia. Qed.

Lemma main_finishes api ms : forall s, 1 <= mrank (main s) -> 7 <= mrank (main s) + main_turns ms ->
  7 <= mrank (main (fold_left (step api) ms s)).
Proof.
  induction ms as [|m r IH]; intros s R H; [cbn in *; lia|]. cbn [fold_left]. pose proof (rank_step api s m) as K.
  apply IH; [lia|]. unfold main_turns in *. destruct m as [e|i| | |]; cbn [filter length] in *; try lia.
  clear K IH. rewrite step_live by exact R. destruct s as [m0 u f st fl sg cl ab ap mo n]. cbn [main act] in *. destruct m0, i; cbn in *; try lia; destruct api; cbn; lia.
Qed.

Definition urank (u : updater_at) : nat := match u with UOver => 0 | UTest => 1 | UClear => 2 | UWait => 3 | USend => 4 end.
Lemma urank_step api s m : inv api s -> 7 <= mrank (main s) ->
  urank (updater (step api s m)) <= urank (updater s) - match m with Updater => 1 | _ => 0 end.
Proof.
  intros [A L O F G C P Q M D] R. rewrite step_live by lia. clear A L O C P Q M D. rewrite (proj2 (Nat.leb_le _ _)) in F by lia. specialize (G ltac:(lia)).
  destruct s as [m0 u f st fl sg cl ab ap mo n]. cbn in *. subst fl. destruct m as [e|i| | |]; cbn; try lia.
  - destruct m0; cbn; try lia; destruct e; cbn; lia.
  - destruct m0, i; cbn; try lia; destruct api; cbn; lia.
  - destruct u; cbn; try lia. destruct sg; cbn; try lia. destruct G as [G|[G|G]]; discriminate.
  - destruct f; cbn; lia.
Qed.
Lemma main_over api s m : 7 <= mrank (main s) -> m = Main true -> step api s m = s.
Proof. intros R ->. rewrite step_live by lia. destruct s as [m0 u f st fl sg cl ab ap mo n]. destruct m0; cbn in *; try lia. reflexivity. Qed.
Lemma inv_over api s m : 7 <= mrank (main s) -> inv api s -> inv api (step api s m).
Proof.
  intros R I. destruct m as [e|[|]| | |]; try (apply inv_step; [discriminate|exact I]). rewrite main_over; [exact I|exact R|reflexivity].
Qed.
Lemma updater_ends api ms : forall s, inv api s -> 7 <= mrank (main s) -> urank (updater s) <= updater_turns ms ->
  updater (fold_left (step api) ms s) = UOver.
Proof.
  induction ms as [|m r IH]; intros s I R H; [cbn in *; destruct (updater s); cbn in H; try lia; reflexivity|].
  cbn [fold_left]. pose proof (urank_step api s m I R) as U. pose proof (rank_step api s m).
  apply IH; [apply inv_over; assumption|lia|]. unfold updater_turns in *. destruct m; cbn in *; lia.
Qed.
Definition frank (f : flusher_at) : nat := match f with FOver => 0 | FTest => 1 | FFlush => 2 end.
Lemma frank_step api s m : 7 <= mrank (main s) -> closed s = true ->
  closed (step api s m) = true /\ frank (flusher (step api s m)) <= frank (flusher s) - match m with Flusher => 1 | _ => 0 end.
Proof.
  intros R C. rewrite step_live by lia. destruct s as [m0 u f st fl sg cl ab ap mo n]. cbn in C. subst cl. destruct m as [e|i| | |]; cbn.
  - destruct m0; cbn; try (split; [reflexivity|lia]); destruct e; cbn; split; try reflexivity; lia.
  - destruct m0, i; cbn; split; try reflexivity; try lia; destruct api; cbn; lia.
  - destruct u; cbn; try (split; [reflexivity|lia]). destruct sg; cbn; (split; [reflexivity|lia]).
  - destruct f; cbn; split; try reflexivity; lia.
  - split; [reflexivity|lia].
Qed.
Lemma flusher_ends api ms : forall s, 7 <= mrank (main s) -> closed s = true -> frank (flusher s) <= flusher_turns ms -> flusher (fold_left (step api) ms s) = FOver.
Proof.
  induction ms as [|m r IH]; intros s R C H; [cbn in *; destruct (flusher s); cbn in H; try lia; reflexivity|].
  cbn [fold_left]. destruct (frank_step api s m R C) as [C' F]. pose proof (rank_step api s m). apply IH; [lia|exact C'|]. unfold flusher_turns in *. destruct m; cbn in *; lia.
Qed.

(** A flag once set stays, and one more list may be on its way. *)
Definition going (s : state) : nat := match updater s with USend => 1 | _ => 0 end.
Lemma going_step api s m : flag s = true -> flag (step api s m) = true /\ sent (step api s m) + going (step api s m) <= sent s + going s.
Proof.
  intros F. destruct (step_cases api s m) as [[E X]|[E X]]; rewrite E; [split; [exact F|lia]|]. clear E X.
  destruct s as [m0 u f st fl sg cl ab ap mo n]. cbn in F. subst fl. unfold going. destruct m as [e|i| | |]; cbn.
  - destruct m0; cbn; try (split; [reflexivity|lia]); destruct e; cbn; split; try reflexivity; lia.
  - destruct m0, i; cbn; split; try reflexivity; try lia; destruct api; cbn; lia.
  - destruct u; cbn; try (split; [reflexivity|lia]). destruct sg; cbn; (split; [reflexivity|lia]).
  - destruct f; cbn; split; try reflexivity; lia.
  - split; [reflexivity|lia].
Qed.
Lemma going_fold api ms : forall s, flag s = true -> sent (fold_left (step api) ms s) <= sent s + going s.
Proof.
  induction ms as [|m r IH]; intros s F; [cbn; lia|]. cbn [fold_left]. destruct (going_step api s m F) as [F' L]. specialize (IH _ F'). lia.
Qed.

Lemma status_step api s m : (forall e, m <> Ends e) -> m <> Main true -> status (step api s m) = status s.
Proof.
  intros E N. destruct (step_cases api s m) as [[EE X]|[EE X]]; rewrite EE; [reflexivity|]. clear EE X. destruct s as [m0 u f st fl sg cl ab ap mo n]. destruct m as [e|i| | |]; cbn; try reflexivity.
  - contradiction (E e eq_refl).
  - destruct i; [contradiction N; reflexivity|]. destruct m0; cbn; reflexivity.
  - destruct u; cbn; try reflexivity. destruct sg; reflexivity.
  - destruct f; reflexivity.
Qed.
Lemma status_kept api s m : 1 <= mrank (main s) -> m <> Main true -> status (step api s m) = status s.
Proof.
  intros R N. destruct m as [e|i| | |]; try (apply status_step; [discriminate|exact N]).
  rewrite step_live by exact R. destruct s as [m0 u f st fl sg cl ab ap mo n]. cbn in *. destruct m0; cbn in *; try lia; reflexivity.
Qed.
Lemma status_fold api ms : forall s, 1 <= mrank (main s) -> left_alone ms -> status (fold_left (step api) ms s) = status s.
Proof.
  induction ms as [|m r IH]; intros s R N; [reflexivity|]. cbn [fold_left]. pose proof (rank_step api s m).
  rewrite IH; [|lia|intros X; apply N; right; exact X]. apply status_kept; [exact R|]. intros ->. apply N. left. reflexivity.
Qed.
Lemma status_over api ms : forall s, 7 <= mrank (main s) -> status (fold_left (step api) ms s) = status s /\ main (fold_left (step api) ms s) = main s.
Proof.
  induction ms as [|m r IH]; intros s R; [split; reflexivity|]. cbn [fold_left].
  assert (status (step api s m) = status s /\ main (step api s m) = main s) as [E1 E2].
  { rewrite step_live by lia. destruct s as [m0 u f st fl sg cl ab ap mo n]. cbn in R. destruct m0; cbn in R; try lia.
    destruct m as [e|i| | |]; cbn; try (split; reflexivity); [destruct u; cbn; try (split; reflexivity); destruct sg; split; reflexivity|destruct f; split; reflexivity]. }
  destruct (IH (step api s m)) as [I1 I2]; [rewrite E2; exact R|]. rewrite I1, I2. split; assumption.
Qed.

(** The exit status is 0 until Ctrl-C or os._exit. *)
Lemma status_zero api ms : left_alone ms -> forall s, (main s <> Exited -> status s = 0%Z) ->
  main (fold_left (step api) ms s) <> Exited -> status (fold_left (step api) ms s) = 0%Z.
Proof.
  induction ms as [|m r IH]; intros N s H X; [exact (H X)|]. cbn [fold_left] in *. apply IH; [intros Y; apply N; right; exact Y| |exact X].
  intros Y. destruct (step_cases api s m) as [[E Z]|[E Z]]; rewrite E in *; [contradiction|]. specialize (H Z).
  destruct s as [m0 u f st fl sg cl ab ap mo n]. cbn in H. subst st. destruct m as [e|i| | |]; cbn in *; try reflexivity.
  - destruct m0; try reflexivity. destruct e; try reflexivity. contradiction Y. reflexivity.
  - destruct i; [contradiction N; left; reflexivity|]. destruct m0; reflexivity.
  - destruct u; try reflexivity. destruct sg; reflexivity.
  - destruct f; reflexivity.
Qed.
Lemma exited_stays api ms : forall s, main s = Exited -> fold_left (step api) ms s = s.
Proof. induction ms as [|m r IH]; intros s E; [reflexivity|]. cbn [fold_left]. unfold step at 2. rewrite E. apply IH. exact E. Qed.

(** Every list that is sent, or is on its way, was asked for. *)
Definition on_its_way (s : state) : nat :=
  (match updater s with USend => 1 | UTest => if flag s then 0 else 1 | _ => 0 end) + (if flag s then 0 else if signal s then 1 else 0).
Definition asked_for (k : nat) (s : state) : Prop :=
  sent s + on_its_way s <= k /\ (main s = Signalling -> flag s = true) /\ (updater s = UClear -> signal s = true).
Lemma asked_step api k s mv : asked_for k s -> asked_for (match mv with Request => S k | _ => k end) (step api s mv).
Proof.
  destruct s as [m u f st fl sg cl ab ap mo n]. unfold asked_for, on_its_way. cbn [sent updater flag signal main].
  intros (A & M & C). unfold step. cbn [main].
  destruct mv as [[]|[]| | |], m; cbn; destruct u, fl, sg; cbn in *; try (specialize (C eq_refl); discriminate);
    try (specialize (M eq_refl); discriminate); try destruct f; cbn;
    (split; [lia | split; intros; try reflexivity; try discriminate; try assumption]); try (destruct api; discriminate).
Qed.
Lemma asked_fold api ms : forall k s, asked_for k s -> asked_for (k + requests ms) (fold_left (step api) ms s).
Proof.
  induction ms as [|m r IH]; intros k s A; cbn [fold_left].
  - unfold requests. cbn. rewrite Nat.add_0_r. exact A.
  - apply (asked_step api k s m) in A. apply IH in A. unfold requests in *. cbn [filter]. destruct m; cbn [length] in *; try exact A.
    rewrite Nat.add_succ_r. exact A.
Qed.
