From Verif Require Import Model.Bytes Model.Access Model.Tracer Model.Monitor Spec.Monitor.
Local Open Scope list_scope.

Section P.
Variable seccomp : bool.
Variable decide : regs -> decision.
Variable getpid : nat -> Z.
Notation stepx := (step seccomp decide getpid).
Notation runx := (run seccomp decide getpid).

Lemma run_app : forall l1 s l2, runx s (l1 ++ l2) = runx (runx s l1) l2.
Proof.
  induction l1 as [|[t st] r IH]; intros s l2; [reflexivity|]. cbn [app run]. apply IH.
Qed.
Lemma attach_id : forall s tid, first s = false -> attach s tid = s.
Proof. intros [] tid H. cbn in H. subst. reflexivity. Qed.
Lemma not_first_id : forall s, first s = false -> not_first s = s.
Proof. intros [] H. cbn in H. subst. reflexivity. Qed.

(** the frame: first, group and over *)
Definition same_frame (a b : state) : Prop := group a = group b /\ over a = over b /\ (first a = false -> first b = false).
Lemma frame_refl : forall a, same_frame a a. Proof. intro a. repeat split; auto. Qed.
Lemma frame_trans : forall a b c, same_frame a b -> same_frame b c -> same_frame a c.
Proof. intros a b c (A & B & C) (D & E & G). split; [congruence|]. split; [congruence|]. auto. Qed.
Lemma resume_frame : forall s tid set sig, same_frame s (fst (resume s tid set sig)).
Proof. intros [] tid set sig. cbn. repeat split; auto. Qed.
Lemma on_return_frame : forall s tid e r, same_frame s (fst (fst (on_return seccomp s tid e r))).
Proof. intros s tid e r. unfold on_return. destruct ((seccomp || negb e) && returns s tid); cbn [fst]; [repeat split; auto|apply frame_refl]. Qed.
Lemma complete_frame : forall s tid e r c w b, same_frame s (fst (complete seccomp s tid e r c w b)).
Proof.
  intros s tid e r c w b. unfold complete.
  pose proof (on_return_frame s tid e r) as Fr. destruct (on_return seccomp s tid e r) as [[s' r'] c']. cbn [fst] in Fr.
  destruct (c || c').
  - destruct w; [|exact Fr]. eapply frame_trans; [exact Fr|]. exact (resume_frame s' tid (Some r') 0%N).
  - eapply frame_trans; [exact Fr|]. exact (resume_frame s' tid None 0%N).
Qed.
Lemma on_call_frame : forall s tid got w, same_frame s (fst (on_call seccomp decide getpid s tid got w)).
Proof.
  intros s tid got w. unfold on_call.
  set (s1 := if seccomp then s else set_inside s (set_at (inside s) tid (negb (inside s tid)))).
  assert (F1 : same_frame s s1) by (unfold s1; destruct seccomp; repeat split; auto).
  cbv zeta. destruct got as [r| |]; [|exact F1|exact F1].
  destruct (negb (spawned s1)).
  { eapply frame_trans; [exact F1|]. destruct (is_end_of_first_execve seccomp _ r); [|apply resume_frame].
    eapply frame_trans; [|apply resume_frame]. repeat split; auto. }
  destruct (if seccomp then true else inside s1 tid).
  - destruct (decide r) as [[|e|]|].
    + eapply frame_trans; [exact F1|]. apply complete_frame.
    + cbn [deny]. eapply frame_trans; [exact F1|]. eapply frame_trans; [|apply complete_frame]. repeat split; auto.
    + exact F1.
    + eapply frame_trans; [exact F1|]. apply complete_frame.
  - eapply frame_trans; [exact F1|]. apply complete_frame.
Qed.

Definition live (m : N) (s : state) : Prop := first s = false /\ group s = Some m /\ over s = false.
Lemma step_live : forall m s tid st, live m s -> (forall status, (tid, st) <> (m, Ended status)) -> live m (fst (stepx s tid st)).
Proof.
  intros m s tid st (Hf & Hg & Ho) NE. unfold step. rewrite Ho.
  assert (FL : forall s', same_frame s s' -> live m s') by (intros s' (A & B & C); unfold live; rewrite <- A, <- B; auto).
  destruct st as [status| |got w|e|sig].
  - rewrite Hf, Hg. cbn [orb]. destruct (m =? tid)%N eqn:E.
    + apply N.eqb_eq in E. subst tid. exfalso. exact (NE status eq_refl).
    + cbn [fst]. repeat split; assumption.
  - rewrite attach_id by exact Hf. apply FL. apply resume_frame.
  - rewrite attach_id by exact Hf. apply FL. apply on_call_frame.
  - rewrite attach_id by exact Hf. cbv zeta. apply FL. eapply frame_trans; [|apply resume_frame].
    destruct e; repeat split; auto.
  - rewrite attach_id by exact Hf. cbv zeta. apply FL. eapply frame_trans; [|apply resume_frame]. repeat split; auto.
Qed.
Lemma run_live : forall m l s, live m s -> (forall status, ~ In (m, Ended status) l) -> live m (runx s l).
Proof.
  intro m. induction l as [|[t st] r IH]; intros s H NE; [exact H|].
  cbn [run]. apply IH.
  - apply step_live; [exact H|]. intros status E. apply (NE status). left. exact E.
  - intros status Hin. apply (NE status). right. exact Hin.
Qed.
Lemma alive_split : forall m l, alive m l -> exists r, live m (fst (stepx start m (fst r)))
  /\ l = (m, fst r) :: snd r /\ (forall status, ~ In (m, Ended status) (snd r)).
Proof.
  intros m l ((sig & r & ->) & NE). exists (SignalStop sig, r). cbn [fst snd]. split; [repeat split|].
  split; [reflexivity|]. intros status Hin. apply (NE status). right. exact Hin.
Qed.
Lemma alive_live : forall m l, alive m l -> live m (runx start l).
Proof.
  intros m l H. destruct (alive_split m l H) as ([st r] & L & -> & NE). cbn [fst snd] in *.
  cbn [run]. apply run_live; assumption.
Qed.

(** only the stopped thread is resumed *)
Lemma resume_go : forall s tid set sig t x g, In (Go t x g) (snd (resume s tid set sig)) -> t = tid.
Proof. intros s tid set sig t x g [E|[]]. injection E as <- _ _. reflexivity. Qed.
Lemma fault_go : forall nr t x g, ~ In (Go t x g) (protection_fault nr).
Proof. intros nr t x g [E|[E|[]]]; discriminate. Qed.
Lemma complete_go : forall s tid e r c w b t x g, (forall a y h, ~ In (Go a y h) b) ->
  In (Go t x g) (snd (complete seccomp s tid e r c w b)) -> t = tid.
Proof.
  intros s tid e r c w b t x g Hb. unfold complete. destruct (on_return seccomp s tid e r) as [[s' r'] c'].
  assert (K : forall set, In (Go t x g) (snd (let '(s, a) := resume s' tid set 0%N in (s, b ++ a))) -> t = tid).
  { intro set. cbn [resume snd]. rewrite in_app_iff. intros [H|H]; [exfalso; exact (Hb _ _ _ H)|].
    exact (resume_go s' tid set 0%N t x g H). }
  destruct (c || c'); [|apply K]. destruct w; [apply K|]. cbn [snd]. rewrite in_app_iff.
  intros [H|H]; exfalso; [exact (Hb _ _ _ H)|exact (fault_go _ _ _ _ H)].
Qed.
Lemma step_go : forall s tid st t x g, In (Go t x g) (snd (stepx s tid st)) -> t = tid.
Proof.
  intros s tid st t x g. unfold step. destruct (over s); [intros []|].
  destruct st as [status| |got w|e|sig].
  - destruct (first s || _).
    + cbn [snd]. rewrite in_app_iff. intros [H|[E|[]]]; [|discriminate]. apply in_map_iff in H. destruct H as (c & E & _). discriminate.
    + intros [].
  - apply resume_go.
  - unfold on_call. cbv zeta. set (s1 := if seccomp then _ else _). destruct got as [r| |]; [|intros []|intro H; exfalso; exact (fault_go _ _ _ _ H)].
    destruct (negb (spawned s1)); [apply resume_go|].
    assert (NB : forall a y h, ~ In (Go a y h) []) by (intros a y h []).
    destruct (if seccomp then true else inside s1 tid); [|apply complete_go; exact NB].
    destruct (decide r) as [[|er|]|].
    + apply complete_go. exact NB.
    + cbn [deny]. apply complete_go. exact NB.
    + intro H. exfalso. exact (fault_go _ _ _ _ H).
    + apply complete_go. intros a y h. apply fault_go.
  - apply resume_go.
  - apply resume_go.
Qed.
End P.

(** ** seccomp *)
Section Seccomp.
Variable decide : regs -> decision.
Variable getpid : nat -> Z.
Notation stepx := (step true decide getpid).
Notation runx := (run true decide getpid).
Definition clean (s : state) : Prop := (forall t, returns s t = false) /\ slot s = None.
Lemma on_return_clean : forall s tid e r, clean s -> on_return true s tid e r = (s, r, false).
Proof. intros s tid e r [A B]. unfold on_return. rewrite A. reflexivity. Qed.
Lemma complete_clean : forall s tid e r c w b, clean s -> clean (fst (complete true s tid e r c w b)).
Proof.
  intros s tid e r c w b H. unfold complete. rewrite (on_return_clean _ _ _ _ H).
  destruct (c || false); [destruct w|]; exact H.
Qed.
Lemma on_return_denied : forall s tid e r errno, clean s ->
  on_return true (fst (deny true getpid s tid r errno)) tid e (snd (deny true getpid s tid r errno))
  = (set_pending s (set_at (set_at (returns s) tid true) tid false) None,
     {| r_abi := r_abi r; r_nr := (-1)%Z; r_arg0 := r_arg0 r; r_result := (- Z.of_N errno)%Z |}, true).
Proof.
  intros s tid e r errno [A B]. unfold deny, on_return. cbn [fst snd returns slot set_pending orb negb].
  unfold set_at at 1. rewrite N.eqb_refl. cbn [andb]. reflexivity.
Qed.
Lemma denied_clean : forall s tid, clean s -> clean (set_pending s (set_at (set_at (returns s) tid true) tid false) None).
Proof.
  intros s tid [A B]. split; [|reflexivity]. intro t. cbn [returns set_pending]. unfold set_at.
  destruct (t =? tid)%N; [reflexivity|apply A].
Qed.
Lemma step_clean : forall s tid st, clean s -> clean (fst (stepx s tid st)).
Proof.
  intros s tid st H. unfold step. destruct (over s); [exact H|].
  assert (HA : clean (attach s tid)) by exact H.
  destruct st as [status| |got w|e|sig].
  - destruct (first s || _); exact H.
  - exact H.
  - unfold on_call. cbv zeta. destruct got as [r| |]; [|exact H|exact H].
    destruct (negb (spawned (attach s tid))); [destruct (is_end_of_first_execve true true r); exact H|].
    cbv iota. destruct (decide r) as [[|er|]|].
    + apply complete_clean. exact HA.
    + pose proof (on_return_denied (attach s tid) tid true r er HA) as OR.
      destruct (deny true getpid (attach s tid) tid r er) as [s1 r1]. cbn [fst snd] in OR.
      unfold complete. rewrite OR. cbn [orb]. pose proof (denied_clean (attach s tid) tid HA) as DC.
      destruct w; exact DC.
    + exact H.
    + apply complete_clean. exact HA.
  - destruct e; exact H.
  - exact H.
Qed.
Lemma run_clean : forall l s, clean s -> clean (runx s l).
Proof. induction l as [|[t st] r IH]; intros s H; [exact H|]. cbn [run]. apply IH. apply step_clean. exact H. Qed.

Lemma step_spawned : forall s tid st, spawned s = true -> spawned (fst (stepx s tid st)) = true.
Proof.
  intros s tid st H. unfold step. destruct (over s); [exact H|].
  destruct st as [status| |got w|e|sig].
  - destruct (first s || _); exact H.
  - exact H.
  - unfold on_call. cbv zeta. destruct got as [r| |]; [|exact H|exact H].
    replace (spawned (attach s tid)) with true by (symmetry; exact H). cbn [negb].
    assert (C : forall s' c b, spawned s' = true -> forall r', spawned (fst (complete true s' tid true r' c w b)) = true).
    { intros s' c b H' r'. unfold complete, on_return. destruct ((true || negb true) && returns s' tid);
        (destruct (c || _); [destruct w|]; exact H'). }
    destruct (decide r) as [[|er|]|]; [apply C; exact H| |exact H|apply C; exact H].
    cbn [deny]. apply C. exact H.
  - destruct e; exact H.
  - exact H.
Qed.
Lemma run_spawned : forall l s, spawned s = true -> spawned (runx s l) = true.
Proof. induction l as [|[t st] r IH]; intros s H; [exact H|]. cbn [run]. apply IH. apply step_spawned. exact H. Qed.
Lemma execve_spawns : forall s tid r w, over s = false -> r_nr r = 59%Z -> spawned (fst (stepx s tid (CallStop (Got r) w))) = true.
Proof.
  intros s tid r w Ho E. destruct (spawned s) eqn:S0; [apply step_spawned; exact S0|].
  unfold step. rewrite Ho. unfold on_call. cbv zeta.
  replace (spawned (attach s tid)) with false by (symmetry; exact S0). cbn [negb].
  unfold is_end_of_first_execve. rewrite E. reflexivity.
Qed.
Lemma called_spawned : forall m l, alive m l -> called_execve l -> spawned (runx start l) = true.
Proof.
  intros m l HA (tid & r & w & Hin & E).
  apply in_split in Hin. destruct Hin as (p & q & ->). rewrite run_app. cbn [run]. apply run_spawned.
  apply execve_spawns; [|exact E].
  destruct HA as ((sig & r0 & E0) & NE). destruct p as [|x p].
  - reflexivity.
  - cbn [app] in E0. injection E0 as E0 E1. subst x.
    refine (proj2 (proj2 (alive_live true decide getpid m ((m, SignalStop sig) :: p) _))).
    split; [exists sig, p; reflexivity|]. intros status Hin. apply (NE status).
    apply in_app_iff. left. exact Hin.
Qed.

Theorem seccomp_call : forall m l tid r w, alive m l -> called_execve l ->
  let acts := snd (stepx (runx start l) tid (CallStop (Got r) w)) in
  match decide r with
  | Verdict Run => acts = [Go tid None 0%N]
  | Verdict (Fail e) =>
      if w then acts = [Go tid (Some {| r_abi := r_abi r; r_nr := -1; r_arg0 := r_arg0 r; r_result := - Z.of_N e |}) 0%N]
      else acts = [Fault (-1); KillGroup]
  | Verdict Kill => acts = [Fault (r_nr r); KillGroup]
  | FaultAndRun => acts = [Fault (r_nr r); KillGroup; Go tid None 0%N]
  end.
Proof.
  intros m l tid r w HA HE acts. unfold acts. clear acts.
  destruct (alive_live true decide getpid m l HA) as (Hf & Hg & Ho).
  pose proof (called_spawned m l HA HE) as Hs.
  assert (Hc : clean (runx start l)) by (apply run_clean; split; reflexivity).
  set (s := runx start l) in *. clearbody s.
  unfold step. rewrite Ho, (attach_id s tid Hf). unfold on_call. cbv zeta. rewrite Hs. cbn [negb].
  destruct (decide r) as [[|e|]|].
  - unfold complete. rewrite (on_return_clean _ _ _ _ Hc). cbn [orb]. unfold resume. rewrite Hf. reflexivity.
  - pose proof (on_return_denied s tid true r e Hc) as OR.
    destruct (deny true getpid s tid r e) as [s1 r1]. cbn [fst snd] in OR.
    unfold complete. rewrite OR. cbn [orb]. destruct w; [|reflexivity].
    unfold resume. cbn [first set_pending]. rewrite Hf. reflexivity.
  - reflexivity.
  - unfold complete. rewrite (on_return_clean _ _ _ _ Hc). cbn [orb]. unfold resume. rewrite Hf. reflexivity.
Qed.
End Seccomp.

(** ** without seccomp *)
Section Ptrace.
Variable decide : regs -> decision.
Variable getpid : nat -> Z.
Notation stepx := (step false decide getpid).
Notation runx := (run false decide getpid).

Definition tracks (ph : N -> phase) (s : state) : Prop :=
  forall t, match ph t with New => True | Outside => inside s t = false | Inside => inside s t = true end.

Lemma complete_inside : forall s tid e r c w b, inside (fst (complete false s tid e r c w b)) = inside s.
Proof.
  intros. unfold complete, on_return. destruct ((false || negb e) && returns s tid);
    (destruct (c || _); [destruct w|]; reflexivity).
Qed.
Lemma complete_spawned : forall s tid e r c w b, spawned (fst (complete false s tid e r c w b)) = spawned s.
Proof.
  intros. unfold complete, on_return. destruct ((false || negb e) && returns s tid);
    (destruct (c || _); [destruct w|]; reflexivity).
Qed.
Lemma on_call_inside : forall s tid got w,
  inside (fst (on_call false decide getpid s tid got w)) = set_at (inside s) tid (negb (inside s tid)).
Proof.
  intros s tid got w. unfold on_call. cbv zeta iota. destruct got as [r| |]; [|reflexivity|reflexivity].
  destruct (negb _); [destruct (is_end_of_first_execve false _ r); reflexivity|].
  destruct (inside _ tid); [|rewrite complete_inside; reflexivity].
  destruct (decide r) as [[|e|]|]; [rewrite complete_inside; reflexivity| |reflexivity|rewrite complete_inside; reflexivity].
  cbn [deny]. rewrite complete_inside. reflexivity.
Qed.
Lemma step_tracks : forall s tid st ph p, over s = false -> tracks ph s -> next false (ph tid) st = Some p ->
  tracks (fun x => if (x =? tid)%N then p else ph x) (fst (stepx s tid st)).
Proof.
  intros s tid st ph p Ho H E t. unfold step. rewrite Ho.
  assert (SA : forall v, (p = Outside -> v = false) -> (p = Inside -> v = true) ->
    match (if (t =? tid)%N then p else ph t) with New => True | Outside => set_at (inside s) tid v t = false | Inside => set_at (inside s) tid v t = true end).
  { intros v V1 V2. unfold set_at. destruct (t =? tid)%N; [destruct p; auto|exact (H t)]. }
  specialize (H t) as Ht.
  destruct st as [status| |got w|e|sig].
  - assert (p = New) by (destruct (ph tid); cbn in E; congruence). subst p.
    destruct (first s || _); cbn [fst inside finish set_children]; (destruct (t =? tid)%N; [exact Logic.I|exact Ht]).
  - assert (p = ph tid) by (destruct (ph tid); cbn in E; congruence). subst p.
    cbn [fst inside resume not_first attach]. destruct (t =? tid)%N eqn:X; [apply N.eqb_eq in X; subst t|]; exact Ht.
  - rewrite on_call_inside. cbn [inside attach]. specialize (H tid). apply SA; intro P; subst p;
      (destruct (ph tid); cbn in E; try discriminate E); rewrite H; reflexivity.
  - cbv zeta.
    replace (inside (fst (resume _ tid None 0%N))) with (set_at (inside s) tid false) by (destruct e; reflexivity).
    apply SA; [reflexivity|]. intros ->. destruct (ph tid); discriminate.
  - cbv zeta. cbn [fst inside resume not_first set_inside attach].
    apply SA; [reflexivity|]. intros ->. destruct (ph tid); discriminate.
Qed.

Lemma phases_app : forall b l ph tid st, phases b ph (l ++ [(tid, st)]) =
  match phases b ph l with
  | Some ph' => match next b (ph' tid) st with Some p => Some (fun x => if (x =? tid)%N then p else ph' x) | None => None end
  | None => None
  end.
Proof.
  intro b. induction l as [|[t s] r IH]; intros ph tid st.
  - cbn [app phases]. destruct (next b (ph tid) st); reflexivity.
  - cbn [app phases]. destruct (next b (ph t) s); [apply IH|reflexivity].
Qed.
Lemma alive_prefix : forall m x l e, alive m ((x :: l) ++ [e]) -> alive m (x :: l).
Proof.
  intros m x l e ((sig & r & E) & NE). cbn [app] in E. injection E as E1 E2. split; [exists sig, l; congruence|].
  intros status Hin. apply (NE status). apply in_app_iff. left. exact Hin.
Qed.
Lemma run_snoc : forall l s tid st, runx s (l ++ [(tid, st)]) = fst (stepx (runx s l) tid st).
Proof. intros. rewrite run_app. reflexivity. Qed.

Lemma run_tracks : forall m l ph, alive m l -> kernel false l = Some ph -> tracks ph (runx start l).
Proof.
  intro m. induction l as [|[tid st] l IH] using rev_ind; intros ph HA HK.
  - destruct HA as ((sig & r & E) & _). discriminate.
  - unfold kernel in HK. rewrite phases_app in HK. destruct (phases false (fun _ => New) l) as [ph'|] eqn:K; [|discriminate].
    destruct (next false (ph' tid) st) as [p|] eqn:Nx; [|discriminate]. injection HK as <-.
    rewrite run_snoc. apply step_tracks; [| |exact Nx].
    + destruct l as [|x l]; [reflexivity|]. exact (proj2 (proj2 (alive_live false decide getpid m _ (alive_prefix _ _ _ _ HA)))).
    + destruct l as [|x l]; [|exact (IH ph' (alive_prefix _ _ _ _ HA) K)].
      cbn in K. injection K as <-. intro t. exact Logic.I.
Qed.

Definition execve_done (r : regs) : bool :=
  (if r_abi r =? X86 then (r_nr r =? 11)%Z else (r_nr r =? 59)%Z) && (r_result r =? 0)%Z.
Lemma step_spawned_eq : forall s tid st, over s = false ->
  spawned (fst (stepx s tid st)) = spawned s ||
    match st with CallStop (Got r) _ => inside s tid && execve_done r | _ => false end.
Proof.
  intros s tid st Ho. unfold step. rewrite Ho.
  destruct st as [status| |got w|e|sig].
  - rewrite orb_false_r. destruct (first s || _); reflexivity.
  - rewrite orb_false_r. reflexivity.
  - unfold on_call. cbv zeta iota. destruct got as [r| |]; [|rewrite orb_false_r; reflexivity|rewrite orb_false_r; reflexivity].
    cbn [spawned attach set_inside inside]. unfold set_at at 1. rewrite N.eqb_refl.
    destruct (spawned s) eqn:S0; cbn [negb orb].
    + assert (C : forall s' e c b r', spawned s' = true -> spawned (fst (complete false s' tid e r' c w b)) = true)
        by (intros; rewrite complete_spawned; assumption).
      set (s1 := set_inside _ _).
      assert (S1 : spawned s1 = true) by exact S0.
      destruct (set_at _ tid _ tid); [|apply C; exact S1].
      destruct (decide r) as [[|e|]|]; [apply C; exact S1| |exact S1|apply C; exact S1].
      cbn [deny]. apply C. exact S1.
    + unfold is_end_of_first_execve, execve_done.
      destruct (inside s tid); cbn [negb andb]; [|exact S0].
      destruct (r_abi r =? X86); [destruct ((r_nr r =? 11)%Z && _); [reflexivity|exact S0]|].
      destruct ((r_nr r =? 59)%Z && _); [reflexivity|exact S0].
  - rewrite orb_false_r. destruct e; reflexivity.
  - rewrite orb_false_r. reflexivity.
Qed.
Lemma execve_done_spec : forall r, execve_done r = true <-> r_result r = 0%Z /\ r_nr r = (if (r_abi r =? X86)%nat then 11 else 59)%Z.
Proof.
  intro r. unfold execve_done. rewrite andb_true_iff, Z.eqb_eq. destruct (r_abi r =? X86); rewrite Z.eqb_eq; tauto.
Qed.
Lemma snoc_inv : forall A (p q l : list A) x e, l ++ [e] = p ++ x :: q -> (q = [] /\ p = l /\ x = e) \/ exists q', q = q' ++ [e] /\ l = p ++ x :: q'.
Proof.
  intros A p q l x e H. destruct q as [|y q] using rev_ind.
  - left. apply app_inj_tail in H. destruct H as [-> ->]. auto.
  - clear IHq. right. exists q. rewrite app_comm_cons, app_assoc in H. apply app_inj_tail in H.
    destruct H as [-> ->]. auto.
Qed.
Theorem spawned_iff : forall m l ph, alive m l -> kernel false l = Some ph ->
  (spawned (runx start l) = true <-> execve_returned false l).
Proof.
  intro m. induction l as [|[tid st] l IH] using rev_ind; intros ph HA HK.
  - destruct HA as ((sig & r & E) & _). discriminate.
  - unfold kernel in HK. rewrite phases_app in HK. destruct (phases false (fun _ => New) l) as [ph'|] eqn:K; [|discriminate].
    destruct (next false (ph' tid) st) as [p|] eqn:Nx; [|discriminate]. clear HK.
    assert (Ho : over (runx start l) = false).
    { destruct l as [|x l]; [reflexivity|]. exact (proj2 (proj2 (alive_live false decide getpid m _ (alive_prefix _ _ _ _ HA)))). }
    assert (IH' : spawned (runx start l) = true <-> execve_returned false l).
    { destruct l as [|x l]; [|exact (IH ph' (alive_prefix _ _ _ _ HA) K)]. cbn. split; [discriminate|].
      intros (p' & t & r & w & q & ph0 & E & _). destruct p'; discriminate. }
    assert (T : tracks ph' (runx start l)).
    { destruct l as [|x l]; [cbn in K; injection K as <-; intro t; exact Logic.I|exact (run_tracks m _ _ (alive_prefix _ _ _ _ HA) K)]. }
    rewrite run_snoc, (step_spawned_eq _ _ _ Ho), orb_true_iff, IH'. split.
    + intros [(p' & t & r & w & q & ph0 & -> & A)|X].
      * exists p', t, r, w, (q ++ [(tid, st)]), ph0. split; [rewrite <- app_assoc; reflexivity|exact A].
      * destruct st as [ | |[r| |] w| |]; try discriminate X. apply andb_true_iff in X. destruct X as [X1 X2].
        exists l, tid, r, w, [], ph'. split; [reflexivity|]. split; [exact K|]. split.
        -- specialize (T tid). destruct (ph' tid); [cbn in Nx; discriminate|congruence|reflexivity].
        -- apply execve_done_spec. exact X2.
    + intros (p' & t & r & w & q & ph0 & E & Kp & A & B & C).
      destruct (snoc_inv _ _ _ _ _ _ E) as [(-> & -> & X)|(q' & -> & ->)].
      * injection X as <- <-. right. rewrite andb_true_iff. split.
        -- assert (ph0 = ph') by (unfold kernel in Kp; congruence). subst ph0. specialize (T t). rewrite A in T. exact T.
        -- apply execve_done_spec. split; assumption.
      * left. exists p', t, r, w, q', ph0. repeat split; assumption.
Qed.

Lemma I1 : forall s tid b, inside s tid = b -> set_at (inside s) tid (negb (inside s tid)) tid = negb b.
Proof. intros s tid b E. unfold set_at. rewrite N.eqb_refl, E. reflexivity. Qed.
Theorem ptrace_entry : forall m l ph tid r w, alive m l -> kernel false l = Some ph -> execve_returned false l ->
  ph tid = Outside ->
  let acts := snd (stepx (runx start l) tid (CallStop (Got r) w)) in
  match decide r with
  | Verdict Run => acts = [Go tid None 0%N]
  | Verdict (Fail e) =>
      if w then acts = [Go tid (Some {| r_abi := r_abi r; r_nr := getpid (r_abi r); r_arg0 := r_arg0 r; r_result := r_result r |}) 0%N]
      else acts = [Fault (getpid (r_abi r)); KillGroup]
  | Verdict Kill => acts = [Fault (r_nr r); KillGroup]
  | FaultAndRun => acts = [Fault (r_nr r); KillGroup; Go tid None 0%N]
  end.
Proof.
  intros m l ph tid r w HA HK HE HP acts. unfold acts. clear acts.
  destruct (alive_live false decide getpid m l HA) as (Hf & Hg & Ho).
  pose proof (proj2 (spawned_iff m l ph HA HK) HE) as Hs.
  pose proof (run_tracks m l ph HA HK tid) as T. rewrite HP in T.
  set (s := runx start l) in *. clearbody s.
  unfold step. rewrite Ho, (attach_id s tid Hf). unfold on_call. cbv zeta iota. cbn [spawned set_inside inside].
  rewrite Hs. cbn [negb]. rewrite (I1 _ _ _ T). cbn [negb].
  destruct (decide r) as [[|e|]|].
  - unfold complete, on_return. cbn [orb negb andb]. unfold resume. cbn [first set_inside]. rewrite Hf. reflexivity.
  - unfold deny, complete, on_return. cbn [orb negb andb]. destruct w; [|reflexivity].
    unfold resume. cbn [first set_inside set_pending]. rewrite Hf. reflexivity.
  - reflexivity.
  - unfold complete, on_return. cbn [orb negb andb]. unfold resume. cbn [first set_inside]. rewrite Hf. reflexivity.
Qed.

(** the result of a denied call *)
Definition no_calls (l : list (N * stop)) : Prop := forall t got w, ~ In (t, CallStop got w) l.
Lemma step_quiet : forall s tid st, (forall got w, st <> CallStop got w) ->
  returns (fst (stepx s tid st)) = returns s /\ slot (fst (stepx s tid st)) = slot s.
Proof.
  intros s tid st H. unfold step. destruct (over s); [split; reflexivity|].
  destruct st as [status| |got w|e|sig]; [|split; reflexivity|exfalso; exact (H _ _ eq_refl)| |split; reflexivity].
  - destruct (first s || _); split; reflexivity.
  - destruct e; split; reflexivity.
Qed.
Lemma run_quiet : forall l s, no_calls l -> returns (runx s l) = returns s /\ slot (runx s l) = slot s.
Proof.
  induction l as [|[t st] r IH]; intros s H; [split; reflexivity|]. cbn [run].
  destruct (step_quiet s t st) as [A B]; [intros got w E; subst st; exact (H _ _ _ (or_introl eq_refl))|].
  destruct (IH (fst (stepx s t st))) as [C D]; [intros t' g w Hin; exact (H t' g w (or_intror Hin))|].
  rewrite C, D, A, B. split; reflexivity.
Qed.
Theorem ptrace_result : forall m l l2 ph tid r r2 e, alive m (l ++ (tid, CallStop (Got r) true) :: l2) ->
  kernel false (l ++ (tid, CallStop (Got r) true) :: l2) = Some ph -> no_calls l2 ->
  execve_returned false l ->
  (exists ph0, kernel false l = Some ph0 /\ ph0 tid = Outside) -> ph tid = Inside ->
  decide r = Verdict (Fail e) ->
  snd (stepx (runx start (l ++ (tid, CallStop (Got r) true) :: l2)) tid (CallStop (Got r2) true))
  = [Go tid (Some {| r_abi := r_abi r2; r_nr := r_nr r2; r_arg0 := r_arg0 r2; r_result := - Z.of_N e |}) 0%N].
Proof.
  intros m l l2 ph tid r r2 e HA HK HQ HE (ph0 & K0 & P0) HP HD.
  destruct (alive_live false decide getpid m _ HA) as (Hf & Hg & Ho).
  pose proof (run_tracks m _ ph HA HK tid) as T. rewrite HP in T.
  assert (Hs : spawned (runx start (l ++ (tid, CallStop (Got r) true) :: l2)) = true).
  { apply (spawned_iff m _ ph HA HK). destruct HE as (p & t & a & w & q & ph1 & -> & A).
    exists p, t, a, w, (q ++ (tid, CallStop (Got r) true) :: l2), ph1. split; [rewrite <- app_assoc; reflexivity|exact A]. }
  assert (Q : returns (runx start (l ++ (tid, CallStop (Got r) true) :: l2)) tid = true
              /\ slot (runx start (l ++ (tid, CallStop (Got r) true) :: l2)) = Some e).
  { rewrite run_app. cbn [run]. destruct (run_quiet l2 (fst (stepx (runx start l) tid (CallStop (Got r) true))) HQ) as [-> ->].
    assert (HA0 : alive m l).
    { destruct HA as ((sig & rr & E) & NE). destruct l as [|x l].
      - cbn in K0. injection K0 as <-. discriminate P0.
      - cbn [app] in E. injection E as E1 E2. split; [exists sig, l; congruence|].
        intros status Hin. apply (NE status). apply in_app_iff. left. exact Hin. }
    destruct (alive_live false decide getpid m l HA0) as (Hf0 & _ & Ho0).
    pose proof (proj2 (spawned_iff m l ph0 HA0 K0) HE) as Hs0.
    pose proof (run_tracks m l ph0 HA0 K0 tid) as T0. rewrite P0 in T0.
    set (s := runx start l) in *. clearbody s.
    unfold step. rewrite Ho0, (attach_id s tid Hf0). unfold on_call. cbv zeta iota. cbn [spawned set_inside inside].
    rewrite Hs0. cbn [negb]. rewrite (I1 _ _ _ T0). cbn [negb]. rewrite HD.
    unfold deny, complete, on_return. cbn [orb negb andb]. unfold resume.
    cbn [fst returns slot not_first set_pending]. unfold set_at at 1. rewrite N.eqb_refl. split; reflexivity. }
  destruct Q as [Q1 Q2].
  set (s := runx start _) in *. clearbody s.
  unfold step. rewrite Ho, (attach_id s tid Hf). unfold on_call. cbv zeta iota. cbn [spawned set_inside inside].
  rewrite Hs. cbn [negb]. rewrite (I1 _ _ _ T). cbn [negb].
  unfold complete, on_return. cbn [orb negb andb returns set_inside slot]. rewrite Q1, Q2.
  cbn [orb]. unfold resume. cbn [first set_pending set_inside]. rewrite Hf. reflexivity.
Qed.
End Ptrace.

(** ** children *)
Section Children.
Variable seccomp : bool.
Variable decide : regs -> decision.
Variable getpid : nat -> Z.
Notation stepx := (step seccomp decide getpid).
Notation runx := (run seccomp decide getpid).
Lemma complete_children : forall s tid e r c w b, children (fst (complete seccomp s tid e r c w b)) = children s.
Proof.
  intros. unfold complete, on_return. destruct ((seccomp || negb e) && returns s tid);
    (destruct (c || _); [destruct w|]; reflexivity).
Qed.
Lemma on_call_children : forall s tid got w, children (fst (on_call seccomp decide getpid s tid got w)) = children s.
Proof.
  intros s tid got w. unfold on_call. cbv zeta. set (s1 := if seccomp then _ else _).
  assert (C1 : children s1 = children s) by (unfold s1; destruct seccomp; reflexivity).
  destruct got as [r| |]; [|exact C1|exact C1].
  destruct (negb (spawned s1)); [destruct (is_end_of_first_execve seccomp _ r); exact C1|].
  destruct (if seccomp then true else inside s1 tid); [|rewrite complete_children; exact C1].
  destruct (decide r) as [[|e|]|]; [rewrite complete_children; exact C1| |exact C1|rewrite complete_children; exact C1].
  cbn [deny]. rewrite complete_children. exact C1.
Qed.
Definition ends (c : N) (tid : N) (st : stop) : bool := match st with Ended _ => (tid =? c)%N | _ => false end.
Lemma insert_in : forall x l c, In c (insert x l) <-> c = x \/ In c l.
Proof.
  intros x l c. unfold insert. destruct (existsb (N.eqb x) l) eqn:E; cbn [In]; [|intuition].
  split; [auto|]. intros [->|H]; [|exact H]. apply existsb_exists in E. destruct E as (y & Hy & E).
  apply N.eqb_eq in E. subst y. exact Hy.
Qed.
Lemma erase_in : forall x l c, In c (erase x l) <-> In c l /\ c <> x.
Proof. intros x l c. unfold erase. rewrite filter_In, negb_true_iff, N.eqb_neq. reflexivity. Qed.
Lemma step_children : forall m s tid st c, live m s -> (forall status, (tid, st) <> (m, Ended status)) ->
  (In c (children (fst (stepx s tid st))) <-> forks c st = true \/ (In c (children s) /\ ends c tid st = false)).
Proof.
  intros m s tid st c (Hf & Hg & Ho) NE. unfold step. rewrite Ho.
  destruct st as [status| |got w|e|sig]; cbn [forks ends].
  - rewrite Hf, Hg. cbn [orb]. destruct (m =? tid)%N eqn:E.
    + apply N.eqb_eq in E. subst tid. exfalso. exact (NE status eq_refl).
    + cbn [fst children set_children]. rewrite erase_in, N.eqb_neq. intuition congruence.
  - cbn [fst children resume not_first attach]. intuition discriminate.
  - rewrite on_call_children. cbn [children attach]. intuition discriminate.
  - destruct e; cbn [fst children resume not_first set_children set_inside attach]; try rewrite insert_in, N.eqb_eq; intuition congruence.
  - cbn [fst children resume not_first set_inside attach]. intuition discriminate.
Qed.
Lemma outstanding_snoc : forall c l tid st,
  outstanding c (l ++ [(tid, st)]) <-> forks c st = true \/ (outstanding c l /\ ends c tid st = false).
Proof.
  intros c l tid st. split.
  - intros (p & t & s & q & E & F & NE). destruct (snoc_inv _ _ _ _ _ _ E) as [(-> & -> & X)|(q' & -> & ->)].
    + injection X as -> ->. left. exact F.
    + right. split; [exists p, t, s, q'; split; [reflexivity|]; split; [exact F|]; intros status Hin; apply (NE status); apply in_app_iff; left; exact Hin|].
      destruct st as [status| | | |]; try reflexivity. cbn [ends]. apply N.eqb_neq. intros ->.
      apply (NE status). apply in_app_iff. right. left. reflexivity.
  - intros [F|((p & t & s & q & -> & F & NE) & En)].
    + exists l, tid, st, []. split; [reflexivity|]. split; [exact F|]. intros status [].
    + exists p, t, s, (q ++ [(tid, st)]). split; [rewrite <- app_assoc; reflexivity|]. split; [exact F|].
      intros status Hin. apply in_app_iff in Hin. destruct Hin as [Hin|[X|[]]]; [exact (NE _ Hin)|].
      injection X as -> ->. cbn [ends] in En. rewrite N.eqb_refl in En. discriminate.
Qed.
Lemma run_children : forall m l c, alive m l -> (In c (children (runx start l)) <-> outstanding c l).
Proof.
  intros m l c. induction l as [|[tid st] l IH] using rev_ind; intro HA.
  - destruct HA as ((sig & r & E) & _). discriminate.
  - rewrite run_app. cbn [run]. rewrite outstanding_snoc.
    destruct l as [|x l].
    + destruct HA as ((sig & r & E) & _). cbn in E. injection E as E1 E2 E3. subst tid st r. cbn. split; [intros []|].
      intros [X|((p & t & s & q & E & _) & _)]; [discriminate|]. destruct p; discriminate.
    + assert (HA' : alive m (x :: l)).
      { destruct HA as ((sig & r & E) & NE). cbn [app] in E. injection E as E1 E2. split; [exists sig, l; congruence|].
        intros status Hin. apply (NE status). apply in_app_iff. left. exact Hin. }
      rewrite (step_children m), IH; [reflexivity|exact HA'|apply alive_live; exact HA'|].
      intros status E. apply (proj2 HA status). apply in_app_iff. right. left. exact E.
Qed.
Theorem end_kills : forall m l status, alive m l ->
  let acts := snd (stepx (runx start l) m (Ended status)) in
  In (Finish status) acts /\ (forall c, In (KillOne c) acts <-> outstanding c l)
  /\ forall tid st, snd (stepx (fst (stepx (runx start l) m (Ended status))) tid st) = [].
Proof.
  intros m l status HA acts. unfold acts. destruct (alive_live seccomp decide getpid m l HA) as (Hf & Hg & Ho).
  unfold step at 1 2 4. rewrite Ho, Hf, Hg, N.eqb_refl. cbn [orb fst snd]. split; [apply in_app_iff; right; left; reflexivity|]. split.
  - intro c. rewrite in_app_iff, in_map_iff, <- (run_children m l c HA). split.
    + intros [(x & E & H)|[E|[]]]; [injection E as <-; exact H|discriminate].
    + intro H. left. exists c. split; [reflexivity|exact H].
  - intros tid st. unfold step. cbn [over finish]. reflexivity.
Qed.
Theorem other_end : forall m l tid status, alive m l -> tid <> m ->
  snd (stepx (runx start l) tid (Ended status)) = [] /\ over (fst (stepx (runx start l) tid (Ended status))) = false.
Proof.
  intros m l tid status HA Nt. destruct (alive_live seccomp decide getpid m l HA) as (Hf & Hg & Ho).
  unfold step. rewrite Ho, Hf, Hg. apply N.eqb_neq in Nt. rewrite N.eqb_sym, Nt. cbn. split; [reflexivity|exact Ho].
Qed.
End Children.

(** ** Where the claims fail *)
Definition rg (abi : nat) (nr result : Z) : regs := {| r_abi := abi; r_nr := nr; r_arg0 := 0; r_result := result |}.
Definition exec_trace (m : N) : list (N * stop) :=
  [(m, SignalStop 19); (m, CallStop (Got (rg X64 59 0)) true); (m, CallStop (Got (rg X64 59 0)) true)].
Definition clone_trace (m : N) : list (N * stop) :=
  exec_trace m ++ [(m, CallStop (Got (rg X64 56 0)) true); (m, EventStop EvClone); (m, CallStop (Got (rg X64 56 2)) true)].
Lemma entry_runs : forall decide getpid m s r w, live m s -> spawned s = true -> inside s m = false -> returns s m = false ->
  decide r = Verdict Run ->
  let s' := fst (step false decide getpid s m (CallStop (Got r) w)) in
  live m s' /\ spawned s' = true /\ inside s' m = true /\ returns s' m = false.
Proof.
  intros decide getpid m s r w L Hs Hi Hr D s'. destruct L as (Hf & Hg & Ho). unfold s', step. rewrite Ho, (attach_id s m Hf).
  unfold on_call. cbv zeta iota. cbn [spawned set_inside inside]. rewrite Hs. cbn [negb]. rewrite (I1 _ _ _ Hi). cbn [negb].
  rewrite D. unfold complete, on_return. cbn [orb negb andb]. unfold resume, live.
  cbn [fst first group over spawned inside returns not_first set_inside]. rewrite (I1 _ _ _ Hi). repeat split; assumption.
Qed.
Lemma event_resets : forall decide getpid m s e, live m s ->
  let s' := fst (step false decide getpid s m (EventStop e)) in
  live m s' /\ spawned s' = spawned s /\ inside s' m = false /\ returns s' = returns s.
Proof.
  intros decide getpid m s e (Hf & Hg & Ho) s'. unfold s', step. rewrite Ho, (attach_id s m Hf). unfold live, set_at.
  destruct e; cbn; rewrite N.eqb_refl; repeat split; assumption.
Qed.
Lemma exit_runs : forall decide getpid m s r w, live m s -> spawned s = true -> inside s m = true -> returns s m = false ->
  snd (step false decide getpid s m (CallStop (Got r) w)) = [Go m None 0%N].
Proof.
  intros decide getpid m s r w (Hf & Hg & Ho) Hs Hi Hr. unfold step. rewrite Ho, (attach_id s m Hf).
  unfold on_call. cbv zeta iota. cbn [spawned set_inside inside]. rewrite Hs. cbn [negb]. rewrite (I1 _ _ _ Hi). cbn [negb].
  unfold complete, on_return. cbn [orb negb andb returns set_inside]. rewrite Hr. unfold resume. cbn [first set_inside snd]. rewrite Hf. reflexivity.
Qed.
Lemma clone_bypass : forall decide getpid r, decide (rg X64 56 0) = Verdict Run -> decide (rg X64 56 2) = Verdict Run ->
  snd (step false decide getpid (run false decide getpid start (clone_trace 1)) 1 (CallStop (Got r) true)) = [Go 1%N None 0%N].
Proof.
  intros decide getpid r D1 D2. unfold clone_trace. rewrite run_app.
  assert (L0 : live 1 (run false decide getpid start (exec_trace 1))) by (repeat split).
  set (s0 := run false decide getpid start (exec_trace 1)) in *.
  assert (S0 : spawned s0 = true) by reflexivity. assert (J0 : inside s0 1%N = false) by reflexivity.
  assert (R0 : returns s0 1%N = false) by reflexivity. clearbody s0. cbn [run].
  destruct (entry_runs decide getpid 1%N s0 (rg X64 56 0) true L0 S0 J0 R0 D1) as (L1 & S1 & J1 & R1).
  set (s1 := fst (step false decide getpid s0 1%N _)) in *. clearbody s1.
  destruct (event_resets decide getpid 1%N s1 EvClone L1) as (L2 & S2 & J2 & R2).
  set (s2 := fst (step false decide getpid s1 1%N _)) in *. clearbody s2.
  rewrite S1 in S2. assert (R2' : returns s2 1%N = false) by (rewrite R2; exact R1).
  destruct (entry_runs decide getpid 1%N s2 (rg X64 56 2) true L2 S2 J2 R2' D2) as (L3 & S3 & J3 & R3).
  exact (exit_runs decide getpid 1%N _ r true L3 S3 J3 R3).
Qed.
Lemma exec_returned : forall b q, execve_returned b (exec_trace 1 ++ q).
Proof.
  intros b q. set (m := 1%N). exists [(m, SignalStop 19%N); (m, CallStop (Got (rg X64 59 0)) true)], m, (rg X64 59 0), true, q.
  eexists. split; [reflexivity|]. split; [reflexivity|]. repeat split; reflexivity.
Qed.
Lemma clone_kernel : exists ph, kernel true (clone_trace 1) = Some ph /\ ph 1%N = Outside.
Proof. eexists. split; reflexivity. Qed.
Lemma clone_alive : alive 1 (clone_trace 1).
Proof.
  split; [exists 19%N; eexists; reflexivity|]. intros status H. unfold clone_trace, exec_trace in H. cbn [app In] in H.
  repeat (destruct H as [H|H]; [discriminate|]). exact H.
Qed.

(** two threads with a denied call each *)
Definition two_decide (r : regs) : decision := if (r_nr r =? 2)%Z then Verdict (Fail ENOENT) else if (r_nr r =? 62)%Z then Verdict (Fail EPERM) else Verdict Run.
Definition two_trace : list (N * stop) :=
  exec_trace 1 ++ [(2%N, SignalStop 19); (1%N, CallStop (Got (rg X64 2 0)) true); (2%N, CallStop (Got (rg X64 62 0)) true)].
Lemma two_threads :
  alive 1 two_trace /\ execve_returned false two_trace
  /\ (exists ph, kernel false two_trace = Some ph /\ ph 1%N = Inside /\ ph 2%N = Inside)
  /\ snd (step false two_decide (fun _ => 39%Z) (run false two_decide (fun _ => 39%Z) start two_trace) 1 (CallStop (Got (rg X64 39 1)) true))
     = [Go 1 (Some (rg X64 39 (- Z.of_N EPERM))) 0]
  /\ snd (step false two_decide (fun _ => 39%Z)
         (run false two_decide (fun _ => 39%Z) start (two_trace ++ [(1%N, CallStop (Got (rg X64 39 1)) true)])) 2 (CallStop (Got (rg X64 39 1)) true))
     = [Go 2 None 0].
Proof.
  split; [|split; [apply exec_returned|split; [eexists; split; [reflexivity|split; reflexivity]|split; reflexivity]]].
  split; [exists 19%N; eexists; reflexivity|]. intros status H. cbn in H. repeat (destruct H as [H|H]; [discriminate|]). exact H.
Qed.
(** children made by clone are not killed at the end *)
Definition adopt_trace : list (N * stop) := exec_trace 1 ++ [(1%N, EventStop EvClone); (2%N, SignalStop 19)].
(** execve fails under seccomp *)
Definition failed_exec : list (N * stop) :=
  [(1%N, SignalStop 19); (1%N, CallStop (Got (rg X64 59 (-38))) true); (1%N, CallStop (Got (rg X64 231 (-38))) true)].
