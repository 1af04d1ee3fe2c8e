From Coq Require Import String Lia.
From Verif Require Import Model.Bytes Model.Lifecycle Spec.Lifecycle.
Local Open Scope nat_scope.
Local Open Scope list_scope.

(** How far the watching thread is, as a number. *)
Definition rank (w : worker_at) : nat :=
  match w with WSpawn => 0 | WClose => 1 | WAnnounce => 2 | WWatch => 3 | WStore => 4 | WCompare => 5 | WFinish => 6 | WOver => 7 end.

Record inv (limited spawn_ok : bool) (s : state) : Prop := {
  n_fork : forked s = negb (spawn_error s) && negb (rank (worker s) =? 0);
  n_spawned : spawned s = (3 <=? rank (worker s));
  n_open : ends_open s = (rank (worker s) <? 2);
  n_died : died s = spawn_error s || (rank (worker s) =? 7);
  n_exited : exited s = negb (spawn_error s) && (5 <=? rank (worker s));
  n_reaped : reaped s = negb (spawn_error s) && (4 <=? rank (worker s));
  n_err : if spawn_error s then spawn_ok = false /\ match worker s with WClose | WAnnounce | WOver => True | _ => False end
          else rank (worker s) <> 0 -> spawn_ok = true;
  n_shocker : match shocker s with
              | SWait | SOver => True
              | SPoll => 3 <= rank (worker s)
              | _ => 3 <= rank (worker s) /\ spawn_error s = false
              end;
  n_caller : match caller s with
             | CBuild => True
             | CRaised => 3 <= rank (worker s) /\ spawn_error s = true
             | CHolds => 3 <= rank (worker s) /\ spawn_error s = false
             | CWaited => 7 <= rank (worker s) /\ spawn_error s = false
             end;
  n_killer : killer s = KSend -> 3 <= rank (worker s) /\ spawn_error s = false;
  n_ended : reaped s = true -> ended s = true;
  n_alive : ended s = true -> forked s = true;
  n_own : forall g, ~ In (g, OwnGroup) (signals s);
  n_limit : limited = false -> shocker s = SOver /\ forall t, ~ In (Wake, t) (signals s)
}.

Lemma inv_start limited spawn_ok : inv limited spawn_ok (start limited).
Proof.
  constructor; cbn; try reflexivity; try discriminate; try tauto; try congruence.
  - destruct limited; exact I.
  - intros ->. split; [reflexivity|]. intros t [].
Qed.

Lemma no_own limited spawn_ok s g : inv limited spawn_ok s -> forked s = true -> forall h, ~ In (h, OwnGroup) (send g s).
Proof.
  intros H F h [E|I]; [|exact (n_own _ _ _ H h I)]. unfold target_of in E. rewrite F in E. cbn in E.
  destruct (reaped s), (grouped s); discriminate E.
Qed.

Ltac shut := cbn in *; try reflexivity; try assumption; try discriminate; try (intros; discriminate); try lia; try tauto; auto;
  try (split; [lia|reflexivity]); try (intuition lia); try congruence.
Ltac same H := destruct H; constructor; shut.

Lemma inv_step limited spawn_ok s m : inv limited spawn_ok s -> inv limited spawn_ok (step limited spawn_ok s m).
Proof.
  intros H. pose proof (no_own _ _ s Kill H) as OK. pose proof (no_own _ _ s Wake H) as OW.
  destruct s as [w sh c k f g e r o er sp d x t l]. destruct H as [N1 N2 N3 N4 N5 N6 N7 N8 N9 N10 N11 N12 N13 N14]. cbn [worker shocker caller killer forked grouped ended reaped ends_open spawn_error spawned died exited tle signals] in *. subst f sp o d x r.
  destruct m as [over|over| | | | |]; cbn [step].
  - clear OK OW. destruct w; cbn [worker_step].
    + destruct er; [destruct N7 as [_ []]|]. destruct spawn_ok; constructor; destruct sh, c, k; shut.
    + destruct er; constructor; destruct sh, c, k; shut.
    + destruct er; constructor; destruct sh, c, k; shut.
    + destruct er; [destruct N7 as [_ []]|]. destruct e; constructor; destruct sh, c, k; shut.
    + destruct er; [destruct N7 as [_ []]|]. constructor; destruct sh, c, k; shut.
    + destruct er; [destruct N7 as [_ []]|]. constructor; destruct sh, c, k; shut.
    + destruct er; [destruct N7 as [_ []]|]. constructor; destruct sh, c, k; shut.
    + constructor; shut.
  - destruct sh; cbn [shocker_step].
    + destruct (3 <=? rank w) eqn:E; [pose proof (proj1 (Nat.leb_le _ _) E) as E'|]; constructor; shut; try (intros L; destruct (N14 L); discriminate).
    + destruct (er || (rank w =? 7)) eqn:E; constructor; shut; try (intros L; destruct (N14 L); discriminate).
      apply orb_false_iff in E as [-> _]. shut.
    + destruct over; constructor; shut; try (intros L; destruct (N14 L); discriminate).
    + destruct (negb er && (5 <=? rank w)) eqn:E; constructor; shut; try (intros L; destruct (N14 L); discriminate).
    + destruct N8 as [N8 ->]. assert (negb (rank w =? 0) = true) as F by (destruct w; cbn in *; try reflexivity; lia).
      cbn [negb andb] in *. constructor; try solve [shut; intros L; destruct (N14 L); discriminate].
    + constructor; shut; try (intros L; destruct (N14 L); discriminate).
    + destruct N8 as [N8 ->]. assert (negb (rank w =? 0) = true) as F by (destruct w; cbn in *; try reflexivity; lia).
      cbn [negb andb] in *. constructor; try solve [shut; intros L; destruct (N14 L); discriminate].
    + constructor; shut.
  - destruct c; cbn [caller_step].
    + destruct (3 <=? rank w) eqn:E; [pose proof (proj1 (Nat.leb_le _ _) E) as E'|]; [|constructor; shut]. destruct er; constructor; shut.
    + constructor; shut.
    + destruct (er || (rank w =? 7)) eqn:E; constructor; shut. destruct N9 as [_ ->]. cbn in E. apply Nat.eqb_eq in E. split; [lia|reflexivity].
    + constructor; shut.
  - destruct k; cbn [killer_step].
    + destruct c; try solve [constructor; shut]; destruct (negb er && (5 <=? rank w)) eqn:E; constructor; shut.
    + destruct (N10 eq_refl) as [N10' ->]. assert (negb (rank w =? 0) = true) as F by (destruct w; cbn in *; try reflexivity; lia).
      cbn [negb andb] in *. constructor; try solve [shut].
      intros L. split; [exact (proj1 (N14 L))|]. intros t' [E|I]; [discriminate E|]. exact (proj2 (N14 L) t' I).
  - constructor; shut.
  - constructor; shut; destruct e; shut.
  - constructor; shut.
Qed.

Lemma inv_fold limited spawn_ok ms : forall s, inv limited spawn_ok s -> inv limited spawn_ok (fold_left (step limited spawn_ok) ms s).
Proof. induction ms as [|m r IH]; intros s H; [exact H|]. apply IH, inv_step, H. Qed.
Lemma inv_run limited spawn_ok ms : inv limited spawn_ok (run limited spawn_ok ms).
Proof. apply inv_fold, inv_start. Qed.

Ltac ifs := repeat match goal with |- context [if ?b then _ else _] => destruct b; cbn end.
Lemma rank_mono limited spawn_ok s m : rank (worker s) <= rank (worker (step limited spawn_ok s m)).
Proof.
  destruct s as [w sh c k f g e r o er sp d x t l]. destruct m; cbn; try lia.
  - destruct w; cbn; try lia; ifs; lia.
  - destruct sh; cbn; try lia; ifs; lia.
  - destruct c; cbn; try lia; ifs; lia.
  - destruct k, c; cbn; try lia; ifs; lia.
Qed.
Lemma rank_fold limited spawn_ok ms : forall s, rank (worker s) <= rank (worker (fold_left (step limited spawn_ok) ms s)).
Proof. induction ms as [|m r IH]; intros s; [cbn; lia|]. cbn [fold_left]. pose proof (rank_mono limited spawn_ok s m). specialize (IH (step limited spawn_ok s m)). lia. Qed.

Lemma error_kept limited spawn_ok s m : rank (worker s) <> 0 -> spawn_error (step limited spawn_ok s m) = spawn_error s.
Proof.
  destruct s as [w sh c k f g e r o er sp d x t l]. cbn. intros R. destruct m; cbn; try reflexivity.
  - destruct w; cbn in *; try reflexivity; try lia; ifs; reflexivity.
  - destruct sh; cbn; try reflexivity; ifs; reflexivity.
  - destruct c; cbn; try reflexivity; ifs; reflexivity.
  - destruct k, c; cbn; try reflexivity; ifs; reflexivity.
Qed.

Lemma ended_kept limited spawn_ok s m : ended s = true -> ended (step limited spawn_ok s m) = true.
Proof.
  destruct s as [w sh c k f g e r o er sp d x t l]. cbn. intros ->. destruct m; cbn; try reflexivity.
  - destruct w; cbn; try reflexivity; ifs; reflexivity.
  - destruct sh; cbn; try reflexivity; ifs; reflexivity.
  - destruct c; cbn; try reflexivity; ifs; reflexivity.
  - destruct k, c; cbn; try reflexivity; ifs; reflexivity.
Qed.

Lemma announce limited spawn_ok ms : forall s, 3 <= rank (worker s) + worker_turns ms -> 3 <= rank (worker (fold_left (step limited spawn_ok) ms s)).
Proof.
  induction ms as [|m r IH]; intros s H; [cbn in *; lia|]. cbn [fold_left]. apply IH.
  destruct m as [over| | | | | |]; unfold worker_turns in *; cbn [filter length] in *;
    try (pose proof (rank_mono limited spawn_ok s); match goal with |- 3 <= rank (worker (step _ _ s ?m)) + _ => specialize (H0 m) end; lia).
  destruct s as [w sh c k f g e r' o er sp d x t l]. cbn in *. destruct w; cbn in *; try lia; ifs; lia.
Qed.

(** The worker's turns that matter: an error skips the watching. *)
Definition left_over (s : state) : nat :=
  match worker s with
  | WSpawn => 7
  | WClose => if spawn_error s then 2 else 6 | WAnnounce => if spawn_error s then 1 else 5
  | WWatch => 4 | WStore => 3 | WCompare => 2 | WFinish => 1 | WOver => 0
  end.
Lemma left_other limited spawn_ok s m : (forall o, m <> Worker o) -> left_over (step limited spawn_ok s m) = left_over s.
Proof.
  destruct s as [w sh c k f g e r o er sp d x t l]. intros M. destruct m; cbn; try reflexivity.
  - contradiction (M over eq_refl).
  - destruct sh; cbn; try reflexivity; ifs; reflexivity.
  - destruct c; cbn; try reflexivity; ifs; reflexivity.
  - destruct k, c; cbn; try reflexivity; ifs; reflexivity.
Qed.
Lemma left_worker limited spawn_ok s over : inv limited spawn_ok s -> ended s = true \/ spawn_error s = true ->
  left_over (step limited spawn_ok s (Worker over)) = left_over s - 1.
Proof.
  intros H E. pose proof (n_err _ _ _ H) as R. pose proof (n_alive _ _ _ H) as A. pose proof (n_fork _ _ _ H) as F.
  destruct s as [w sh c k f g e r o er sp d x t l]. cbn in *. subst f. destruct w; cbn.
  - destruct er; [destruct R as [_ []]|]. destruct E as [->|E]; [|discriminate]. discriminate (A eq_refl).
  - destruct er; reflexivity.
  - destruct er; reflexivity.
  - destruct er; [destruct R as [_ []]|]. destruct E as [->|E]; [reflexivity|discriminate].
  - destruct er; [destruct R as [_ []]|]. reflexivity.
  - destruct er; [destruct R as [_ []]|]. reflexivity.
  - destruct er; [destruct R as [_ []]|]. reflexivity.
  - reflexivity.
Qed.
Lemma finish limited spawn_ok ms : forall s, inv limited spawn_ok s -> ended s = true \/ spawn_error s = true ->
  left_over s <= worker_turns ms -> worker (fold_left (step limited spawn_ok) ms s) = WOver.
Proof.
  induction ms as [|m r IH]; intros s I E H.
  { cbn in *. unfold left_over in H. destruct (worker s); try reflexivity; try lia; destruct (spawn_error s); lia. }
  cbn [fold_left]. apply IH; [apply inv_step, I| |].
  - destruct E as [E|E]; [left; apply ended_kept, E|right]. rewrite error_kept; [exact E|].
    pose proof (n_err _ _ _ I) as R. rewrite E in R. destruct (worker s); cbn; first [lia | destruct R as [_ []]].
  - unfold worker_turns in *. destruct m as [over| | | | | |]; cbn [filter length] in *;
      try (rewrite left_other; [lia|discriminate]). rewrite left_worker; [lia|exact I|exact E].
Qed.

Lemma over_kept limited spawn_ok ms s : worker s = WOver -> worker (fold_left (step limited spawn_ok) ms s) = WOver.
Proof. intros W. pose proof (rank_fold limited spawn_ok ms s) as R. rewrite W in R. cbn in R. destruct (worker (fold_left _ ms s)); cbn in R; try lia. reflexivity. Qed.

Definition crank (c : caller_at) : nat := match c with CBuild => 0 | CHolds => 1 | CRaised | CWaited => 2 end.
Lemma crank_mono limited spawn_ok s m : crank (caller s) <= crank (caller (step limited spawn_ok s m)).
Proof.
  destruct s as [w sh c k f g e r o er sp d x t l]. destruct m; cbn; try lia.
  - destruct w; cbn; try lia; ifs; lia.
  - destruct sh; cbn; try lia; ifs; lia.
  - destruct c; cbn; try lia; ifs; lia.
  - destruct k, c; cbn; try lia; ifs; lia.
Qed.
Lemma crank_fold limited spawn_ok ms : forall s, crank (caller s) <= crank (caller (fold_left (step limited spawn_ok) ms s)).
Proof. induction ms as [|m r IH]; intros s; [cbn; lia|]. cbn [fold_left]. pose proof (crank_mono limited spawn_ok s m). specialize (IH (step limited spawn_ok s m)). lia. Qed.

Lemma built limited spawn_ok ms : forall s, inv limited spawn_ok s -> 3 <= rank (worker s) -> 1 <= caller_turns ms ->
  1 <= crank (caller (fold_left (step limited spawn_ok) ms s)).
Proof.
  induction ms as [|m r IH]; intros s I R H; [cbn in H; lia|]. cbn [fold_left].
  assert (m = Caller \/ 1 <= caller_turns r) as [->|H'].
  { unfold caller_turns in *. destruct m; cbn in *; auto. }
  - pose proof (crank_fold limited spawn_ok r (step limited spawn_ok s Caller)) as C.
    enough (1 <= crank (caller (step limited spawn_ok s Caller))) by lia.
    pose proof (n_spawned _ _ _ I) as S1. destruct s as [w sh c k f g e r' o er sp d x t l]. cbn [worker spawned] in *. subst sp.
    rewrite (proj2 (Nat.leb_le _ _) R). cbn. destruct c; cbn; try lia; ifs; lia.
  - apply IH; [apply inv_step, I| |exact H']. pose proof (rank_mono limited spawn_ok s m). lia.
Qed.

Lemma waited limited spawn_ok ms : forall s, inv limited spawn_ok s -> worker s = WOver -> 2 <= crank (caller s) + caller_turns ms ->
  2 <= crank (caller (fold_left (step limited spawn_ok) ms s)).
Proof.
  induction ms as [|m r IH]; intros s I R H; [cbn in *; lia|]. cbn [fold_left].
  apply IH; [apply inv_step, I|exact (over_kept limited spawn_ok [m] s R)|].
  assert (m = Caller \/ caller_turns (m :: r) = caller_turns r) as [->|H'].
  { unfold caller_turns in *. destruct m; cbn in *; auto. }
  - pose proof (n_spawned _ _ _ I) as S1. pose proof (n_died _ _ _ I) as S2. destruct s as [w sh c k f g e r' o er sp d x t l].
    cbn [worker spawned died spawn_error] in *. subst w. cbn in S1, S2. rewrite orb_true_r in S2. subst sp d.
    unfold caller_turns in *. cbn in *. destruct c; cbn in *; try lia; try (destruct er; cbn; lia).
  - pose proof (crank_mono limited spawn_ok s m). lia.
Qed.

Definition srank (sh : shocker_at) : nat :=
  match sh with SWait => 2 | SPoll => 1 | SDecide => 4 | SCheck => 3 | SSend => 2 | SMark => 1 | SWake => 2 | SOver => 0 end.
Lemma srank_step limited spawn_ok s m : inv limited spawn_ok s -> worker s = WOver ->
  srank (shocker (step limited spawn_ok s m)) <= srank (shocker s) - (match m with Shocker _ => 1 | _ => 0 end).
Proof.
  intros I W. pose proof (n_spawned _ _ _ I) as S1. pose proof (n_died _ _ _ I) as S2.
  destruct s as [w sh c k f g e r o er sp d x t l]. cbn [worker spawned died spawn_error] in *. subst w. cbn in S1, S2.
  rewrite orb_true_r in S2. subst sp d. destruct m; cbn; try lia.
  - destruct sh; cbn; try lia; ifs; lia.
  - destruct c; cbn; lia.
  - destruct k, c; cbn; try lia; ifs; lia.
Qed.
Lemma shocker_ends limited spawn_ok ms : forall s, inv limited spawn_ok s -> worker s = WOver -> srank (shocker s) <= shocker_turns ms ->
  shocker (fold_left (step limited spawn_ok) ms s) = SOver.
Proof.
  induction ms as [|m r IH]; intros s I R H.
  { cbn in *. destruct (shocker s); cbn in H; try lia. reflexivity. }
  cbn [fold_left]. apply IH; [apply inv_step, I|exact (over_kept limited spawn_ok [m] s R)|].
  pose proof (srank_step limited spawn_ok s m I R). unfold shocker_turns in *. destruct m; cbn in *; lia.
Qed.

(** Signals still under way. *)
Definition pending (s : state) : nat :=
  (match shocker s with SDecide | SCheck | SSend | SWake => 1 | _ => 0 end) + (match killer s with KSend => 1 | KIdle => 0 end).
Lemma pending_step limited spawn_ok s m : inv limited spawn_ok s -> died s = true ->
  length (signals (step limited spawn_ok s m)) + pending (step limited spawn_ok s m) <= length (signals s) + pending s.
Proof.
  intros I D. pose proof (n_died _ _ _ I) as S2. pose proof (n_exited _ _ _ I) as S3. pose proof (n_caller _ _ _ I) as S4.
  destruct s as [w sh c k f g e r o er sp d x t l]. cbn [worker spawned died spawn_error exited caller] in *. subst d.
  destruct m; cbn; try lia.
  - destruct w; cbn; try lia; ifs; lia.
  - destruct sh; cbn; try lia; ifs; lia.
  - destruct c; cbn; try lia; ifs; lia.
  - destruct k; cbn; [|destruct sh; lia]. destruct c; cbn; try lia; destruct S4 as [_ ->]; cbn in S2; symmetry in S2; apply Nat.eqb_eq in S2;
      rewrite S2 in S3; cbn in S3; subst x; cbn; lia.
Qed.
Lemma died_kept limited spawn_ok s m : inv limited spawn_ok s -> died s = true -> died (step limited spawn_ok s m) = true.
Proof.
  intros I D. destruct s as [w sh c k f g e r o er sp d x t l]. cbn [died] in *. subst d. destruct m; cbn; try reflexivity.
  - destruct w; cbn; try reflexivity; ifs; reflexivity.
  - destruct sh; cbn; try reflexivity; ifs; reflexivity.
  - destruct c; cbn; try reflexivity; ifs; reflexivity.
  - destruct k, c; cbn; try reflexivity; ifs; reflexivity.
Qed.
Lemma pending_fold limited spawn_ok ms : forall s, inv limited spawn_ok s -> died s = true ->
  length (signals (fold_left (step limited spawn_ok) ms s)) <= length (signals s) + pending s.
Proof.
  induction ms as [|m r IH]; intros s I D; [cbn; lia|]. cbn [fold_left].
  specialize (IH _ (inv_step _ _ s m I) (died_kept _ _ s m I D)). pose proof (pending_step limited spawn_ok s m I D). lia.
Qed.

Lemma run_app limited spawn_ok a b : run limited spawn_ok (a ++ b) = fold_left (step limited spawn_ok) b (run limited spawn_ok a).
Proof. apply fold_left_app. Qed.

(** Past the clocks. *)
Definition decided (sh : shocker_at) : bool := match sh with SCheck | SSend | SMark => true | _ => false end.
Lemma sources limited spawn_ok ms : let s := run limited spawn_ok ms in
  (decided (shocker s) = true -> In (Shocker true) ms) /\
  (tle s = true -> In CpuSignal ms \/ limited = true /\ (In (Worker true) ms \/ In (Shocker true) ms)) /\
  (~ In Killer ms -> killer s = KIdle /\ forall t, In (Kill, t) (signals s) -> In (Shocker true) ms /\ (shocker s = SMark \/ tle s = true)).
Proof.
  induction ms as [|m ms IH] using rev_ind.
  { cbn. split; [destruct limited; discriminate|]. split; [discriminate|]. intros _. split; [reflexivity|intros t []]. }
  cbv zeta in *. rewrite run_app. cbn [fold_left]. pose proof (inv_run limited spawn_ok ms) as I.
  destruct IH as [H1 [H2 H3]]. set (s := run limited spawn_ok ms) in *.
  pose proof (n_limit _ _ _ I) as L. clear I. clearbody s.
  assert (forall x, In x ms -> In x (ms ++ [m])) as M by (intros x X; apply in_or_app; left; exact X).
  assert (In m (ms ++ [m])) as Z by (apply in_or_app; right; left; reflexivity).
  assert (shocker s <> SOver -> limited = true) as L'. { intros N. destruct limited; [reflexivity|]. destruct (L eq_refl) as [E _]. contradiction. }
  clear L.
  assert (~ In Killer (ms ++ [m]) -> ~ In Killer ms /\ m <> Killer) as K.
  { intros N. split; [intros X; apply N, M, X|]. intros ->. apply N, Z. }
  assert (tle s = true -> In CpuSignal (ms ++ [m]) \/ limited = true /\ (In (Worker true) (ms ++ [m]) \/ In (Shocker true) (ms ++ [m]))) as H2'.
  { intros T. destruct (H2 T) as [X|[X [Y|Y]]]; [left; apply M, X|right; split; [exact X|left; apply M, Y]|right; split; [exact X|right; apply M, Y]]. }
  assert (decided (shocker s) = true -> In (Shocker true) (ms ++ [m])) as H1' by (intros X; apply M, H1, X).
  clear H1 H2. 
  destruct s as [w sh c k f g e r o er sp d x t l]. cbn [shocker tle killer signals] in *.
  destruct m as [over|over| | | | |]; cbn [step].
  - destruct w; cbn; ifs; cbn;
      (split; [exact H1'|split]); try exact H2';
      try (intros N; destruct (H3 (proj1 (K N))) as [A B]; split; [exact A|]; intros t' T; destruct (B t' T) as [B1 [B2|B2]]; (split; [apply M, B1|]); [left; exact B2|right; rewrite ?B2; reflexivity]).
    intros T. apply orb_true_iff in T as [T|T]; [exact (H2' T)|]. apply andb_true_iff in T as [-> ->]. right. split; [reflexivity|left; exact Z].
  - destruct sh; cbn; ifs; cbn in *;
      (split; [first [exact H1' | discriminate | intros _; exact Z | intros _; apply H1'; reflexivity]|split]);
      try exact H2';
      try (intros N; destruct (H3 (proj1 (K N))) as [A B]; split; [exact A|]; intros t' T; first [destruct (B t' T) as [B1 [B2|B2]]; (split; [apply M, B1|]); first [discriminate B2 | left; exact B2 | right; exact B2 | right; reflexivity]]).
    + intros N. destruct (H3 (proj1 (K N))) as [A B]. split; [exact A|]. intros t' [T|T]; [split; [apply H1'; reflexivity|left; reflexivity]|].
      destruct (B t' T) as [B1 B2]. split; [apply M, B1|left; reflexivity].
    + intros _. right. split; [apply L'; discriminate|right; apply H1'; reflexivity].
    + intros N. destruct (H3 (proj1 (K N))) as [A B]. split; [exact A|]. intros t' [T|T]; [discriminate T|].
      destruct (B t' T) as [B1 [B2|B2]]; [discriminate B2|]. split; [apply M, B1|right; exact B2].
  - destruct c; cbn; ifs; cbn;
      (split; [exact H1'|split]); try exact H2';
      try (intros N; destruct (H3 (proj1 (K N))) as [A B]; split; [exact A|]; intros t' T; destruct (B t' T) as [B1 B2]; (split; [apply M, B1|exact B2])).
  - split; [|split].
    + destruct k, c; cbn; ifs; exact H1'.
    + destruct k, c; cbn; ifs; exact H2'.
    + intros N. contradiction (proj2 (K N) eq_refl).
  - cbn; (split; [exact H1'|split]); try exact H2';
      try (intros N; destruct (H3 (proj1 (K N))) as [A B]; split; [exact A|]; intros t' T; destruct (B t' T) as [B1 B2]; (split; [apply M, B1|exact B2])).
  - cbn; (split; [exact H1'|split]); try exact H2';
      try (intros N; destruct (H3 (proj1 (K N))) as [A B]; split; [exact A|]; intros t' T; destruct (B t' T) as [B1 B2]; (split; [apply M, B1|exact B2])).
  - cbn; (split; [exact H1'|split]).
    + intros _. left. exact Z.
    + intros N; destruct (H3 (proj1 (K N))) as [A B]; split; [exact A|]; intros t' T; destruct (B t' T) as [B1 [B2|B2]]; (split; [apply M, B1|]); [left; exact B2|right; rewrite B2; reflexivity].
Qed.
