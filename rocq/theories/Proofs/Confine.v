From Coq Require Import String.
From Verif Require Import Model.Bytes Model.Paths Model.Regex Model.Access Model.SyscallTables Model.Tracer Model.Monitor Model.Policies
  Model.FileRules Model.Confine Spec.Regex Spec.Access Spec.Tracer Spec.Policies Spec.FileRules Spec.Confine.
From Verif Require Spec.Paths Proofs.Access Proofs.Tracer Proofs.Monitor Proofs.Policies Proofs.FileRules.
Local Open Scope list_scope.

Lemma linux_bsd a : linux a -> Linux_or_bsd a.
Proof. unfold linux, Linux_or_bsd. cbn. tauto. Qed.

(** ** The monitor *)
Section Step.
  Variable dec : regs -> decision.
  Variable getpid : nat -> Z.
  Lemma call_acts s tid r ok a : Proofs.Monitor.clean s -> spawned s = true ->
    In a (snd (step true dec getpid s tid (CallStop (Got r) ok))) ->
    match a with
    | Go t None _ => t = tid /\ (dec r = Verdict Run \/ dec r = FaultAndRun)
    | Go t (Some r') _ => t = tid /\ r_nr r' = (-1)%Z
    | _ => True
    end.
  Proof.
    intros Hc Hs. unfold step. destruct (over s); [intros []|]. unfold on_call. cbv zeta. cbn [spawned attach]. rewrite Hs. cbn [negb].
    assert (Hc' : Proofs.Monitor.clean (attach s tid)) by exact Hc. set (s' := attach s tid) in *. clearbody s'.
    assert (R : forall (s : state) x g b, In a (snd (let '(s2, a2) := resume s tid x g in (s2, protection_fault b ++ a2))) \/ In a (snd (resume s tid x g)) ->
      match a with Go t y _ => t = tid /\ y = x | _ => True end).
    { intros s0 x g b [H|H]; cbn in H; repeat destruct H as [<-|H]; try destruct H; auto. }
    destruct (dec r) as [[|e|]|] eqn:D.
    - unfold complete. rewrite (Proofs.Monitor.on_return_clean _ _ _ _ Hc'). cbn [orb app]. intros H.
      pose proof (R s' None 0%N 0%Z (or_intror H)) as X. destruct a as [t y g| | | |]; try exact I. destruct X as (-> & ->). auto.
    - pose proof (Proofs.Monitor.on_return_denied getpid s' tid true r e Hc') as OR.
      destruct (deny true getpid s' tid r e) as [s1 r1] eqn:Dn. cbn [fst snd] in OR. unfold complete. rewrite OR. cbn [orb app].
      destruct ok.
      + intros H. match type of H with In a (snd (let '(s0, a0) := resume ?s2 tid ?x ?g in _)) => pose proof (R s2 x g 0%Z (or_intror H)) as X end.
        destruct a as [t y g| | | |]; try exact I. destruct X as (-> & ->). split; [reflexivity|].
        unfold deny in Dn. injection Dn as _ <-. cbn. reflexivity.
      + cbn. intros [<-|[<-|[]]]; exact I.
    - cbn. intros [<-|[<-|[]]]; exact I.
    - unfold complete. rewrite (Proofs.Monitor.on_return_clean _ _ _ _ Hc'). cbn [orb app]. intros H.
      pose proof (R s' None 0%N (r_nr r) (or_introl H)) as X. destruct a as [t y g| | | |]; try exact I. destruct X as (-> & ->). auto.
  Qed.
  Lemma exec_spawns s tid r ok : r_nr r = 59%Z -> over s = false -> spawned (fst (step true dec getpid s tid (CallStop (Got r) ok))) = true.
  Proof.
    intros E Ho. destruct (spawned s) eqn:Es; [apply Proofs.Monitor.step_spawned; exact Es|].
    unfold step. rewrite Ho. unfold on_call. cbv zeta. cbn [spawned attach]. rewrite Es. cbn [negb is_end_of_first_execve]. rewrite E. reflexivity.
  Qed.
  Lemma over_stays s tid st : over s = true -> step true dec getpid s tid st = (s, []).
  Proof. intros H. unfold step. rewrite H. reflexivity. Qed.
End Step.

(** ** The whole *)
Section Whole.
  Variables (lang : string) (own : list (string * hval own_handler)) (pl : place) (extra : list (list N)) (supported : list nat)
    (tabs : tables own_handler) (filter : N -> bool) (allowed : list (option (list N))) (getpid : nat -> Z).
  Hypothesis SB : sandboxed lang own pl extra supported tabs filter.
  Definition rules_kept (t : tracer) : Prop :=
    Proofs.Access.cache_ok t /\ read_fs t = language_fs lang pl extra /\ write_fs t = language_write_fs lang pl.
  Definition Inv (b : box) : Prop := Proofs.Monitor.clean (fst b) /\ rules_kept (snd b).
  Lemma kept_handle t d c : rules_kept t -> fst (handle t d c) = fst (handle (language_tracer lang pl extra) d c) /\ rules_kept (snd (handle t d c)).
  Proof.
    intros (A & E1 & E2). destruct (Proofs.Access.handle_history t d c A) as (B1 & B2 & B3 & B4). split.
    - rewrite B1, E1, E2. reflexivity.
    - split; [exact B2|]. split; congruence.
  Qed.
  Lemma kept_own t d h : rules_kept t -> rules_kept (snd (handle_own allowed t d h)).
  Proof. intros K. destruct h; try exact K. apply (kept_handle t d c K). Qed.
  Lemma box_inv b tid st d : Inv b -> Inv (fst (box_step tabs allowed getpid b tid st d)).
  Proof.
    destruct b as [s t]. intros (C & K). cbn [fst snd] in *. unfold box_step.
    pose proof (Proofs.Monitor.step_clean (decide_at tabs allowed t d) getpid s tid st C) as C'.
    destruct (step true (decide_at tabs allowed t d) getpid s tid st) as [s' acts]. cbn [fst] in *. split; [exact C'|]. cbn [snd].
    destruct st as [| |[r| |]| |]; try exact K. destruct (over s || negb (spawned s)); [exact K|]. unfold after_at.
    destruct (called tabs (r_abi r) (r_nr r)); [apply kept_own; exact K|exact K].
  Qed.
  Lemma kernel_inv b h : Inv b -> Inv (fst (kernel_step tabs allowed getpid filter b h)).
  Proof.
    intros V. destruct h as [tid e seen kept ok|tid st]; cbn [kernel_step].
    - destruct (executes e) as [abi nr]. destruct (_ && _ && _); [exact V|].
      pose proof (box_inv b tid (CallStop (Got (registers e seen)) ok) seen V) as V'. destruct (box_step _ _ _ _ _ _ _) as [b' acts]. exact V'.
    - destruct st as [| |[r| |]| |]; try exact V; cbn [fst]; apply box_inv; exact V.
  Qed.
  Definition started (b : box) : Prop := over (fst b) = true \/ spawned (fst b) = true.
  Lemma box_started b tid st d : started b -> started (fst (box_step tabs allowed getpid b tid st d)).
  Proof.
    destruct b as [s t]. unfold started. cbn [fst]. intros [H|H]; unfold box_step.
    - rewrite over_stays by exact H. left. exact H.
    - pose proof (Proofs.Monitor.step_spawned (decide_at tabs allowed t d) getpid s tid st H) as X.
      destruct (step true (decide_at tabs allowed t d) getpid s tid st). right. exact X.
  Qed.
  Lemma kernel_started b h : started b -> started (fst (kernel_step tabs allowed getpid filter b h)).
  Proof.
    intros V. destruct h as [tid e seen kept ok|tid st]; cbn [kernel_step].
    - destruct (executes e) as [abi nr]. destruct (_ && _ && _); [exact V|].
      pose proof (box_started b tid (CallStop (Got (registers e seen)) ok) seen V) as V'. destruct (box_step _ _ _ _ _ _ _) as [b' acts]. exact V'.
    - destruct st as [| |[r| |]| |]; try exact V; cbn [fst]; apply box_started; exact V.
  Qed.
  (** What a call that is executed has passed. *)
  Definition passed (x : executed) : Prop :=
    x_nr x = (-1)%Z \/ x_abi x <> ARM /\ exists t v, rules_kept t /\ decide (fun h => fst (handle_own allowed t (x_view x) h)) tabs (x_abi x) (x_nr x) (arg0 (x_view x)) = v
      /\ (v = Verdict Run \/ v = FaultAndRun).
  Lemma kernel_passed b h x : Inv b -> started b -> steady h -> In x (snd (kernel_step tabs allowed getpid filter b h)) -> passed x.
  Proof.
    intros V St Sd. destruct SB as (He & Hs & HX & (sec & Es & Eb & Ew) & _).
    destruct h as [tid e seen kept ok|tid st]; cbn [kernel_step]; [|destruct st as [| |[r| |]| |]; intros []].
    destruct Sd as (-> & NI). pose proof (Proofs.Tracer.sees_what_executes e NI) as SE.
    destruct (executes e) as [abi nr] eqn:Ee.
    destruct ((abi =? X64) && (0 <=? nr)%Z && filter (Z.to_N nr)) eqn:Fl.
    - intros [<-|[]]. right. cbn [x_abi x_nr x_view]. apply andb_true_iff in Fl as [Fl F3]. apply andb_true_iff in Fl as [F1 F2].
      apply Nat.eqb_eq in F1. apply Z.leb_le in F2. subst abi. destruct V as (_ & K). split; [discriminate|]. exists (snd b), (Verdict Run). split; [exact K|]. split; [|left; reflexivity].
      rewrite <- (Z2N.id nr F2) at 1. apply (Proofs.Tracer.whitelist_agrees _ (policy_with own) sec supported tabs X64 filter (Z.to_N nr)); try assumption.
      intros a Ha. apply linux_bsd, Hs, Ha.
    - destruct b as [s t]. unfold box_step. intros H. destruct V as (C & K). cbn [fst snd] in *.
      destruct St as [Ho|Sp]; cbn [fst] in *.
      { rewrite over_stays in H by exact Ho. destruct H. }
      pose proof (fun a => call_acts (decide_at tabs allowed t seen) getpid s tid (registers e seen) ok a C Sp) as CA.
      destruct (step true (decide_at tabs allowed t seen) getpid s tid (CallStop (Got (registers e seen)) ok)) as [s' acts]. cbn [snd] in *.
      apply in_flat_map in H as (a & Ia & Ix). specialize (CA a Ia). unfold resumed in Ix. destruct a as [t0 [r'|] g| | | |]; try (destruct Ix; fail).
      + destruct (t0 =? tid)%N; [|destruct Ix]. destruct Ix as [<-|[]]. left. exact (proj2 CA).
      + destruct (t0 =? tid)%N; [|destruct Ix]. rewrite Ee in Ix. destruct Ix as [<-|[]]. right. destruct CA as (_ & CA). split; [cbn [x_abi]; clear -Ee; apply (f_equal fst) in Ee; cbn [fst] in Ee; rewrite <- Ee; unfold executes; destruct e as [rax| |]; [destruct (Z.testbit rax 30)|..]; cbn [fst]; intros X; vm_compute in X; discriminate X|].
        exists t, (decide_at tabs allowed t seen (registers e seen)). split; [exact K|]. split; [|exact CA].
        unfold decide_at, registers. cbn [r_abi r_nr r_arg0 x_abi x_nr x_view fst snd]. rewrite SE. reflexivity.
  Qed.
  Lemma run_passed l : forall b x, Inv b -> started b -> Forall steady l -> In x (snd (kernel_run tabs allowed getpid filter b l)) -> passed x.
  Proof.
    induction l as [|h l IH]; intros b x V St F; [intros []|]. inversion F as [|? ? Fh Fl]; subst. cbn [kernel_run].
    pose proof (kernel_inv b h V) as V'. pose proof (kernel_started b h St) as St'. pose proof (fun x => kernel_passed b h x V St Fh) as P.
    destruct (kernel_step tabs allowed getpid filter b h) as [b1 x1]. cbn [fst snd] in *. specialize (IH b1).
    destruct (kernel_run tabs allowed getpid filter b1 l) as [b2 x2]. cbn [snd] in *. intros I. apply in_app_or in I as [I|I]; [apply P, I|].
    exact (IH x V' St' Fl I).
  Qed.
  Lemma run_inv l : forall b, Inv b -> Inv (fst (kernel_run tabs allowed getpid filter b l)).
  Proof.
    induction l as [|h l IH]; intros b V; [exact V|]. cbn [kernel_run]. pose proof (kernel_inv b h V) as V'.
    destruct (kernel_step tabs allowed getpid filter b h) as [b1 x1]. cbn [fst] in *. specialize (IH b1 V').
    destruct (kernel_run tabs allowed getpid filter b1 l) as [b2 x2]. exact IH.
  Qed.
  Lemma passed_passes x n name : passed x -> x_nr x = Z.of_N n -> In (n, name) (table_of (x_abi x)) ->
    exists t, rules_kept t /\ In (x_abi x) supported /\ passes own supported allowed t (x_view x) (x_abi x) n.
  Proof.
    intros [E|(_ & t & v & K & D & Hv)] En Hn; [exfalso; rewrite E in En; clear -En; lia|].
    destruct SB as (He & Hs & HX & (sec & Es & Eb & Ew) & _). exists t. split; [exact K|]. rewrite En in D. split.
    - destruct (Proofs.Tracer.default_deny (fun h => fst (handle_own allowed t (x_view x) h)) (policy_with own) sec supported tabs (x_abi x) (Z.of_N n) (arg0 (x_view x)))
        as (n' & name' & h & _ & Ha & _); try assumption.
      + intros a Ha. apply linux_bsd, Hs, Ha.
      + left. clear. lia.
      + intros (Ea & Hr). rewrite Ea in Hn. apply (in_map fst) in Hn. cbn [fst] in Hn.
        assert (Q : forallb (fun m => (m <? 0xF0000)%N) (map fst (table_of ARM)) = true) by (vm_compute; reflexivity).
        rewrite forallb_forall in Q. specialize (Q n Hn). apply N.ltb_lt in Q. clear -Q Hr. lia.
      + rewrite D. destruct Hv as [->| ->]; discriminate.
    - exists sec, tabs, v. auto.
  Qed.
  Lemma known x : passed x -> (x_nr x < 0)%Z \/
    exists n name h, x_nr x = Z.of_N n /\ In (x_abi x) supported /\ In (n, name) (table_of (x_abi x)) /\ governs (policy_with own) name h.
  Proof.
    intros [E|(A & t & v & K & D & Hv)]; [left; rewrite E; clear; lia|]. destruct (Z.ltb_spec (x_nr x) 0); [left; assumption|]. right.
    destruct SB as (He & Hs & HX & (sec & Es & Eb & Ew) & _).
    destruct (Proofs.Tracer.default_deny (fun h => fst (handle_own allowed t (x_view x) h)) (policy_with own) sec supported tabs (x_abi x) (x_nr x) (arg0 (x_view x)))
        as (n' & name' & h & E & Ha & Hn & G & _); try assumption.
    - intros a Ha. apply linux_bsd, Hs, Ha.
    - left. assumption.
    - intros (Ea & _). contradiction.
    - rewrite D. destruct Hv as [->| ->]; discriminate.
    - exists n', name', h. auto.
  Qed.
  Lemma exec_started tid e seen kept ok b : execs (Call tid e seen kept ok) -> started (fst (kernel_step tabs allowed getpid filter b (Call tid e seen kept ok))).
  Proof.
    cbn [execs]. intros ->. cbn [kernel_step]. change (executes (Syscall64 59)) with (X64, 59%Z). cbv iota beta.
    destruct ((X64 =? X64) && (0 <=? 59)%Z && filter (Z.to_N 59)) eqn:Fl.
    - exfalso. apply andb_true_iff in Fl as [_ Fl]. destruct SB as (He & Hs & HX & (sec & Es & Eb & Ew) & _).
      assert (Hn : In (59%N, "execve"%string) (table_of X64)) by (apply Proofs.Tracer.in_table; vm_compute; reflexivity).
      set (d := {| pid := 1%N; uarg := fun _ => 0%N; arg0 := 0; readstr := fun _ => NoStr; cwd := []; fds := fun _ => None |}).
      assert (P : passes own supported allowed (fresh [] []) d X64 59).
      { exists sec, tabs, (Verdict Run). split; [exact Es|]. split; [exact Eb|]. split; [|left; reflexivity].
        apply (Proofs.Tracer.whitelist_agrees _ (policy_with own) sec supported tabs X64 filter 59%N); try assumption. intros a Ha. apply linux_bsd, Hs, Ha. }
      destruct (Proofs.Policies.files_checked lang own supported allowed (fresh [] []) d X64 59 "execve" He Hs HX Hn) as [(c & X & _)|[X|[(_ & X)|[(_ & X)|(_ & X)]]]]; try assumption.
      + assert (Q : existsb (String.eqb "execve") file_naming = true) by (vm_compute; reflexivity). apply existsb_exists in Q as (y & Hy & Ey). apply String.eqb_eq in Ey. rewrite Ey. exact Hy.
      + discriminate X.
      + cbn in X. intuition discriminate.
      + discriminate X.
      + discriminate X.
      + destruct X as (path & full & X & _). discriminate X.
    - destruct b as [s t]. unfold box_step, started. destruct (over s) eqn:Ho.
      + rewrite over_stays by exact Ho. cbn [fst]. left. exact Ho.
      + pose proof (exec_spawns (decide_at tabs allowed t seen) getpid s tid (registers (Syscall64 59) seen) ok eq_refl Ho) as X.
        destruct (step true (decide_at tabs allowed t seen) getpid s tid (CallStop (Got (registers (Syscall64 59) seen)) ok)). cbn [fst] in *. right. exact X.
  Qed.
  Lemma start_inv : Inv (start, language_tracer lang pl extra).
  Proof. split; [split; reflexivity|]. split; [apply Proofs.Access.fresh_ok|]. split; reflexivity. Qed.
  (** After the first execve. *)
  Lemma all_passed before h after x : execs h -> Forall steady after ->
    In x (snd (kernel_run tabs allowed getpid filter (fst (kernel_step tabs allowed getpid filter (fst (kernel_run tabs allowed getpid filter (start, language_tracer lang pl extra) before)) h)) after)) ->
    passed x.
  Proof.
    intros Hx F. destruct h as [tid e seen kept ok|tid st]; [|destruct Hx]. apply run_passed; [| |exact F].
    - apply kernel_inv, run_inv, start_inv.
    - apply exec_started, Hx.
  Qed.

  Lemma files is_dir x n name : passed x -> x_nr x = Z.of_N n -> In (n, name) (table_of (x_abi x)) -> In name file_naming ->
    unchecked lang name \/ (lang = "BASH" /\ name = "execve")%string /\ in_commands allowed (x_view x) \/
    exists c, checked_as name = Some c /\ forall q, names_file is_dir (x_view x) c q ->
      if wants_write (x_view x) c then writable lang pl (Spec.Paths.spelled q) else readable lang pl extra (pid (x_view x)) (Spec.Paths.spelled q).
  Proof.
    intros P En Hn Hf. destruct (passed_passes x n name P En Hn) as (t & K & Ha & Ps). destruct SB as (He & Hs & _ & _ & T & D & Ex).
    destruct (Proofs.Policies.files_checked lang own supported allowed t (x_view x) (x_abi x) n name He Hs Ha Hn Hf Ps) as [(c & Ec & Hr)|[X|[X|[X|X]]]].
    - right. right. exists c. split; [exact Ec|]. intros q (path & dir & Hp & Hd & Hb & Hq).
      destruct (kept_handle t (x_view x) c K) as (E & _). rewrite E in Hr.
      destruct (Proofs.Access.full_path_registers is_dir dir path q (cwd (x_view x)) (fds (x_view x)) (dir_of (x_view x) c) Hq Hd Hb) as (Fp & _).
      assert (Fc : file_call c = true).
      { clear -Ec. unfold checked_as in Ec.
        match type of Ec with context [find ?f ?l] => destruct (find f l) as [p|] eqn:Fd; [|discriminate Ec] end.
        injection Ec as <-. apply find_some in Fd as (Fd & _). cbn in Fd. repeat destruct Fd as [<-|Fd]; try reflexivity. destruct Fd. }
      destruct (wants_write (x_view x) c) eqn:W.
      + apply (Proofs.FileRules.language_writes lang pl extra (x_view x) c path T D (Ex _) Fc W Hp) in Hr as (full & E1 & Hr).
        rewrite Fp in E1. injection E1 as <-. exact Hr.
      + apply (Proofs.FileRules.language_reads lang pl extra (x_view x) c path T D (Ex _) Fc W Hp) in Hr as (full & E1 & Hr).
        rewrite Fp in E1. injection E1 as <-. exact Hr.
    - left. left. exact X.
    - left. right. left. exact X.
    - left. right. right. exact X.
    - right. left. exact X.
  Qed.

  (** ** What is granted *)
  Lemma box_live m b tid st d : Proofs.Monitor.live m (fst b) -> (forall status, (tid, st) <> (m, Ended status)) ->
    Proofs.Monitor.live m (fst (fst (box_step tabs allowed getpid b tid st d))).
  Proof.
    destruct b as [s t]. cbn [fst]. intros L NE. unfold box_step.
    pose proof (Proofs.Monitor.step_live true (decide_at tabs allowed t d) getpid m s tid st L NE) as X.
    destruct (step true (decide_at tabs allowed t d) getpid s tid st). exact X.
  Qed.
  Lemma kernel_live m b h : Proofs.Monitor.live m (fst b) -> (forall status, h <> Stop m (Ended status)) ->
    Proofs.Monitor.live m (fst (fst (kernel_step tabs allowed getpid filter b h))).
  Proof.
    intros L NE. destruct h as [tid e seen kept ok|tid st]; cbn [kernel_step].
    - destruct (executes e) as [abi nr]. destruct (_ && _ && _); [exact L|].
      pose proof (box_live m b tid (CallStop (Got (registers e seen)) ok) seen L) as V'. destruct (box_step _ _ _ _ _ _ _) as [b' acts]. apply V'.
      intros st E. discriminate E.
    - assert (N1 : forall status, (tid, st) <> (m, Ended status)) by (intros status E; injection E as -> ->; exact (NE status eq_refl)).
      destruct st as [| |[r| |]| |]; try exact L; cbn [fst]; apply box_live; assumption.
  Qed.
  Lemma run_live m l : forall b, Proofs.Monitor.live m (fst b) -> (forall status, ~ In (Stop m (Ended status)) l) ->
    Proofs.Monitor.live m (fst (fst (kernel_run tabs allowed getpid filter b l))).
  Proof.
    induction l as [|h l IH]; intros b L NE; [exact L|]. cbn [kernel_run].
    assert (L1 : Proofs.Monitor.live m (fst (fst (kernel_step tabs allowed getpid filter b h)))).
    { apply kernel_live; [exact L|]. intros st E. apply (NE st). left. exact E. }
    destruct (kernel_step tabs allowed getpid filter b h) as [b1 x1]. cbn [fst] in *. specialize (IH b1 L1).
    destruct (kernel_run tabs allowed getpid filter b1 l) as [b2 x2]. apply IH. intros st I. apply (NE st). right. exact I.
  Qed.
  Lemma run_started l : forall b, started b -> started (fst (kernel_run tabs allowed getpid filter b l)).
  Proof.
    induction l as [|h l IH]; intros b L; [exact L|]. cbn [kernel_run]. pose proof (kernel_started b h L) as L1.
    destruct (kernel_step tabs allowed getpid filter b h) as [b1 x1]. cbn [fst] in *. specialize (IH b1 L1).
    destruct (kernel_run tabs allowed getpid filter b1 l) as [b2 x2]. exact IH.
  Qed.
  Definition grant_check (e name : string) (k : Proofs.Policies.kind) : bool :=
    match checked_as name with
    | Some c => match k with Proofs.Policies.KFn (Base c') => Proofs.Policies.handled_eqb c c' | Proofs.Policies.KAny => true | _ => false end
    | None => true
    end.
  Lemma grant_checked : Proofs.Policies.check file_naming grant_check = true.
  Proof. vm_compute. reflexivity. Qed.
  Lemma granted m b tid e d kept ok n name c is_dir q : Inv b -> Proofs.Monitor.live m (fst b) -> started b ->
    (forall rax, e <> Int80_from64 rax) -> executes e = (fst (executes e), Z.of_N n) -> In (fst (executes e)) supported ->
    In (n, name) (table_of (fst (executes e))) -> In name file_naming ->
    checked_as name = Some c -> names_file is_dir d c q ->
    (if wants_write d c then writable lang pl (Spec.Paths.spelled q) else readable lang pl extra (pid d) (Spec.Paths.spelled q)) ->
    snd (kernel_step tabs allowed getpid filter b (Call tid e d kept ok)) = [Executed (fst (executes e)) (Z.of_N n) kept].
  Proof.
    intros (C & K) (Lf & Lg & Lo) St NI En Ha Hn Hf Hc (path & dir & Hp & Hd & Hb & Hq) Hr.
    destruct St as [St|St]; [congruence|]. destruct SB as (He & Hs & _ & (sec & Es & Eb & _) & T & D & Ex). cbn [kernel_step].
    pose proof (Proofs.Tracer.sees_what_executes e NI) as SE. destruct (executes e) as [abi nr] eqn:Ee. cbn [fst] in *. injection En as ->.
    destruct ((abi =? X64) && (0 <=? Z.of_N n)%Z && filter (Z.to_N (Z.of_N n))); [reflexivity|].
    destruct b as [s t]. cbn [fst snd] in *.
    assert (Dc : let v := decide_at tabs allowed t d (registers e d) in v = Verdict Run \/ v = FaultAndRun).
    { unfold decide_at, registers. cbn [r_abi r_nr r_arg0]. rewrite SE. cbn [fst snd].
      rewrite (Proofs.Policies.decide_entry _ (policy_with own) sec supported tabs abi n name) by (try assumption; intros a X; apply linux_bsd, Hs, X).
      pose proof (Proofs.Policies.check_spec _ _ _ _ _ grant_checked He Hf) as G. unfold grant_check in G. rewrite Hc in G.
      unfold Proofs.Policies.kind_of in G. unfold Proofs.Policies.by_entry. destruct (Proofs.Policies.entry_for (policy_with own) name) as [[k|h]|]; [| |discriminate G].
      - cbn [meaning]. destruct (k =? 1)%N; [left; reflexivity|]. destruct (k =? 3)%N; [|discriminate G]. destruct ((arg0 d =? 1)%Z || (arg0 d =? 2)%Z); auto.
      - destruct h as [c'| | |]; try discriminate G. apply Proofs.Policies.handled_eqb_eq in G. subst c'. cbn [meaning handle_own].
        destruct (Proofs.Access.full_path_registers is_dir dir path q (cwd d) (fds d) (dir_of d c) Hq Hd Hb) as (Fp & _).
        assert (Fc : file_call c = true).
        { clear -Hc. unfold checked_as in Hc. match type of Hc with context [find ?f ?l] => destruct (find f l) as [p|] eqn:Fd; [|discriminate Hc] end.
          injection Hc as <-. apply find_some in Fd as (Fd & _). cbn in Fd. repeat destruct Fd as [<-|Fd]; try reflexivity. destruct Fd. }
        destruct (kept_handle t d c K) as (E & _). left. f_equal. rewrite E. destruct (wants_write d c) eqn:W.
        + apply (Proofs.FileRules.language_writes lang pl extra d c path T D (Ex _) Fc W Hp). exists (Spec.Paths.spelled q). split; [exact Fp|exact Hr].
        + apply (Proofs.FileRules.language_reads lang pl extra d c path T D (Ex _) Fc W Hp). exists (Spec.Paths.spelled q). split; [exact Fp|exact Hr]. }
    cbv zeta in Dc. unfold box_step.
    assert (A : snd (step true (decide_at tabs allowed t d) getpid s tid (CallStop (Got (registers e d)) ok)) = [Go tid None 0%N] \/
                snd (step true (decide_at tabs allowed t d) getpid s tid (CallStop (Got (registers e d)) ok)) = protection_fault (r_nr (registers e d)) ++ [Go tid None 0%N]).
    { unfold step. rewrite Lo, (Proofs.Monitor.attach_id s tid Lf). unfold on_call. cbv zeta. rewrite St. cbn [negb].
      destruct Dc as [-> | ->]; unfold complete; rewrite (Proofs.Monitor.on_return_clean _ _ _ _ C); cbn [orb]; unfold resume; rewrite Lf; [left|right]; reflexivity. }
    destruct (step true (decide_at tabs allowed t d) getpid s tid (CallStop (Got (registers e d)) ok)) as [s' acts]. cbn [snd] in A |- *.
    destruct A as [-> | ->]; cbn [flat_map app resumed protection_fault]; rewrite N.eqb_refl, Ee; reflexivity.
  Qed.
  (** From the start: the program's main process, seen first, has executed its first execve and has not ended. *)
  Lemma granted_run m sg before h after tid e d kept ok n name c is_dir q :
    (forall status, ~ In (Stop m (Ended status)) (before ++ h :: after)) -> execs h ->
    (forall rax, e <> Int80_from64 rax) -> executes e = (fst (executes e), Z.of_N n) -> In (fst (executes e)) supported ->
    In (n, name) (table_of (fst (executes e))) -> In name file_naming ->
    checked_as name = Some c -> names_file is_dir d c q ->
    (if wants_write d c then writable lang pl (Spec.Paths.spelled q) else readable lang pl extra (pid d) (Spec.Paths.spelled q)) ->
    snd (kernel_step tabs allowed getpid filter
          (fst (kernel_run tabs allowed getpid filter (start, language_tracer lang pl extra) (Stop m (SignalStop sg) :: before ++ h :: after)))
          (Call tid e d kept ok)) = [Executed (fst (executes e)) (Z.of_N n) kept].
  Proof.
    intros NE Hx NI En Ha Hn Hf Hc Hq Hr.
    assert (S1 : Proofs.Monitor.live m (fst (fst (kernel_step tabs allowed getpid filter (start, language_tracer lang pl extra) (Stop m (SignalStop sg)))))).
    { cbn. split; [reflexivity|]. split; reflexivity. }
    eapply (granted m _ tid e d kept ok n name c is_dir q); try eassumption.
    - apply run_inv, start_inv.
    - cbn [kernel_run]. destruct (kernel_step tabs allowed getpid filter (start, language_tracer lang pl extra) (Stop m (SignalStop sg))) as [b1 x1].
      cbn [fst] in S1. pose proof (run_live m _ b1 S1 NE) as L. destruct (kernel_run tabs allowed getpid filter b1 (before ++ h :: after)). exact L.
    - clear -SB Hx. set (l := Stop m (SignalStop sg) :: before). change (Stop m (SignalStop sg) :: before ++ h :: after) with (l ++ h :: after).
      clearbody l. generalize (start, language_tracer lang pl extra). induction l as [|k l IH]; intros b; cbn [app kernel_run].
      + assert (St : started (fst (kernel_step tabs allowed getpid filter b h))) by (destruct h as [t0 e0 a0 k0 o0|]; [apply exec_started; exact Hx|destruct Hx]).
        destruct (kernel_step tabs allowed getpid filter b h) as [b1 x1]. cbn [fst] in St. pose proof (run_started after b1 St) as L.
        destruct (kernel_run tabs allowed getpid filter b1 after). exact L.
      + destruct (kernel_step tabs allowed getpid filter b k) as [b1 x1]. specialize (IH b1).
        destruct (kernel_run tabs allowed getpid filter b1 (l ++ h :: after)). exact IH.
  Qed.
  Lemma others before h after x n name : execs h -> Forall steady after ->
    In x (snd (kernel_run tabs allowed getpid filter (fst (kernel_step tabs allowed getpid filter (fst (kernel_run tabs allowed getpid filter (start, language_tracer lang pl extra) before)) h)) after)) ->
    x_nr x = Z.of_N n -> In (n, name) (table_of (x_abi x)) ->
    (In name network -> (name = "socketpair" /\ In lang ("PIKE" :: jvm_languages))%string \/ (lang = "TCL" /\ In name ["connect"; "getsockname"])%string)
    /\ (In name privileged -> (name = "setrlimit" /\ In lang ("COFFEE" :: jvm_languages))%string
          \/ (name = "sched_setscheduler" /\ In lang mono_languages)%string \/ (name = "personality" /\ lang = "SBCL")%string)
    /\ (In name spawning -> (name = "fork" /\ lang = "BASH")%string)
    /\ (In name signalling -> uarg (x_view x) 0 = pid (x_view x)).
  Proof.
    intros Hx F I En Hn. pose proof (all_passed before h after x Hx F I) as P. destruct (passed_passes x n name P En Hn) as (t & K & Ha & Ps).
    destruct SB as (He & Hs & _). split; [|split; [|split]]; intros Q.
    - exact (Proofs.Policies.network_checked _ _ _ _ _ _ _ _ _ He Hs Ha Hn Q Ps).
    - exact (Proofs.Policies.privileged_checked _ _ _ _ _ _ _ _ _ He Hs Ha Hn Q Ps).
    - exact (Proofs.Policies.spawn_checked _ _ _ _ _ _ _ _ _ He Hs Ha Hn Q Ps).
    - exact (Proofs.Policies.signal_checked _ _ _ _ _ _ _ _ _ He Hs Ha Hn Q Ps).
  Qed.
End Whole.
