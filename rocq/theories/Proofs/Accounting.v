(** Proofs about what is reported of a traced process. *)
From Coq Require Import String ZArith Lia.
From Verif Require Import Model.Bytes Model.Registers Model.Accounting Spec.Accounting.
From Verif Require Import Proofs.BytesLemmas.
From Verif Require Proofs.Registers.
Local Open Scope list_scope.
Local Open Scope N_scope.

Definition run (w : watch) (a : account) (l : list moment) := fold_left live l (w, a).
Lemma live_eq w a x : live (w, a) x = (fst (events w (happened x)),
  fold_left (fun a e => on_event (reading x) (knows x) e a) (snd (events w (happened x)))
    (match happened x with Started => with_start a | Queried => query (reading x) a | _ => a end)).
Proof. unfold live. destruct (events w (happened x)). reflexivity. Qed.

(** Every field but the exit code after one round past the first stop. *)
Definition next_faulted (w : watch) (r : round) : bool := faulted w || faults r.
Lemma next_watch w x : first w = false -> fst (events w (happened x)) = Watch false (next_faulted w (happened x)).
Proof.
  intros F. unfold next_faulted. destruct w as [f g]. cbn in F. subst.
  destruct (happened x); cbn; rewrite ?Bool.orb_false_r, ?Bool.orb_true_r; reflexivity.
Qed.
Lemma signed64 n : (- 2 ^ 31 <= n < 2 ^ 31)%Z -> signed 64 (unsigned 64 n) = n.
Proof.
  intros H. unfold signed, unsigned. rewrite Z.mod_mod by (vm_compute; discriminate).
  destruct (Z.ltb_spec n 0).
  - replace (n mod 2 ^ 64)%Z with (n + 2 ^ 64)%Z.
    + destruct (Z.ltb_spec (n + 2 ^ 64) (2 ^ (64 - 1))); [|lia]. exfalso. change (2 ^ (64 - 1))%Z with 9223372036854775808%Z in *. change (2 ^ 64)%Z with 18446744073709551616%Z in *. lia.
    + symmetry. replace n with (n + 2 ^ 64 + (-1) * 2 ^ 64)%Z at 1 by lia. rewrite Z.mod_add by (vm_compute; discriminate).
      apply Z.mod_small. change (2 ^ 64)%Z with 18446744073709551616%Z. lia.
  - rewrite Z.mod_small by (change (2 ^ 64)%Z with 18446744073709551616%Z; lia).
    destruct (Z.ltb_spec n (2 ^ (64 - 1))); [reflexivity|]. change (2 ^ (64 - 1))%Z with 9223372036854775808%Z in *. lia.
Qed.

Lemma step_fields w a x : first w = false -> proper x -> let a' := snd (live (w, a) x) in
  exitcode a' = exitcode a
  /\ signal_ a' = match shows_signal x with Some s => s | None => signal_ a end
  /\ max_memory_ a' = (if looks (faulted w) (happened x) then or_else (reading x) (max_memory_ a) else max_memory_ a)
  /\ initialized a' = initialized a || shows_start x
  /\ is_tle a' = is_tle a || shows_xcpu x
  /\ protection_fault a' = match shows_fault x with Some f => Some f | None => protection_fault a end.
Proof.
  intros F P. rewrite live_eq. destruct w as [f g]. cbn in F. subst. destruct x as [r m k].
  unfold proper, shows_signal, shows_start, shows_xcpu, shows_fault in *. cbn [happened reading knows faulted snd] in *.
  destruct r as [main s ev| | |err|nr|nr err|]; cbn [events fst snd fold_left app faulted first negb andb].
  - assert (s mod 2 ^ 32 = s) as Es by (apply N.mod_small; change (2 ^ 32) with 4294967296; lia).
    assert (or_else m (or_else m (max_memory_ a)) = or_else m (max_memory_ a)) as Eo
      by (unfold or_else; destruct (m =? 0); reflexivity).
    change SIGTRAP with 5. change SIGXCPU with 24.
    destruct (s =? 5) eqn:T, ev, g, main; cbn [andb orb app fold_left on_event]; change SIGTRAP with 5; change SIGXCPU with 24; rewrite ?T, ?Es; cbn [looks]; rewrite ?T;
      try (apply N.eqb_eq in T; subst s); try change (5 =? 24) with false; cbn [orb andb];
      try (destruct (s =? 24)); cbn; rewrite ?Eo, ?Bool.orb_false_r, ?Bool.orb_true_r; repeat split; try reflexivity.
  - cbn. rewrite Bool.orb_false_r, Bool.orb_true_r. repeat split.
  - cbn. rewrite !Bool.orb_false_r. repeat split.
  - cbn. rewrite !Bool.orb_false_r. repeat split.
  - unfold protection_events. cbn [fold_left on_event]. rewrite signed64 by lia. unfold protection. destruct (Z.eqb_spec nr (-1)); [lia|].
    cbn. rewrite !Bool.orb_false_r. repeat split.
  - unfold protection_events. cbn [fold_left on_event]. rewrite signed64 by lia. unfold protection. destruct (Z.eqb_spec nr (-1)); [lia|].
    cbn. rewrite !Bool.orb_false_r. repeat split.
  - cbn. rewrite !Bool.orb_false_r. unfold query, or_else. destruct (N.ltb_spec 0 m); destruct (N.eqb_spec m 0); try lia; cbn; repeat split; reflexivity.
Qed.

(** A first stop changes nothing. *)
Lemma born_stop x : born x -> live (Watch true false, fresh) x = (Watch false false, fresh).
Proof.
  unfold born. intros H. rewrite live_eq. destruct (happened x) as [main s ev| | | | | |] eqn:E; try contradiction.
  cbn. rewrite Bool.andb_false_r. reflexivity.
Qed.

Definition after (x : moment) (l : list moment) : account := running (x :: l).
Lemma running_snoc x l y : running (x :: l ++ [y]) = snd (live (fold_left live l (live (Watch true false, fresh) x)) y).
Proof. unfold running. cbn [fold_left]. rewrite fold_left_app. reflexivity. Qed.
Lemma watch_after x l : born x -> fst (fold_left live l (live (Watch true false, fresh) x)) = Watch false (existsb (fun y => faults (happened y)) l).
Proof.
  intros H. rewrite (born_stop x H). induction l as [|y l IH] using rev_ind; [reflexivity|].
  rewrite fold_left_app, existsb_app. cbn [fold_left existsb]. destruct (fold_left live l _) as [w a]. cbn [fst] in IH. subst w.
  rewrite live_eq. cbn [fst]. rewrite next_watch by reflexivity. unfold next_faulted. cbn [faulted]. rewrite Bool.orb_false_r. reflexivity.
Qed.
Lemma step_after x l y : born x -> proper y -> let a := running (x :: l) in let a' := running (x :: l ++ [y]) in
  exitcode a' = exitcode a
  /\ signal_ a' = match shows_signal y with Some s => s | None => signal_ a end
  /\ max_memory_ a' = (if looks (existsb (fun y => faults (happened y)) l) (happened y) then or_else (reading y) (max_memory_ a) else max_memory_ a)
  /\ initialized a' = initialized a || shows_start y
  /\ is_tle a' = is_tle a || shows_xcpu y
  /\ protection_fault a' = match shows_fault y with Some f => Some f | None => protection_fault a end.
Proof.
  intros Hx Hy. cbv zeta. rewrite running_snoc. unfold running. cbn [fold_left]. pose proof (watch_after x l Hx) as W.
  destruct (fold_left live l _) as [w a]. cbn [fst] in W. subst w. cbn [snd].
  exact (step_fields (Watch false _) a y eq_refl Hy).
Qed.

Lemma latest_snoc {A B} (P : A -> option B) l y v : latest P l v -> latest P (l ++ [y]) (match P y with Some w => Some w | None => v end).
Proof.
  intros H. destruct (P y) eqn:E.
  - apply latest_some; [exact E|]. intros z [].
  - inversion H; subst.
    + apply latest_none. intros z Hz. apply in_app_iff in Hz as [Hz|[<-|[]]]; auto.
    + rewrite <- app_assoc. cbn. apply latest_some; [assumption|]. intros z Hz. apply in_app_iff in Hz as [Hz|[<-|[]]]; auto.
Qed.
Lemma latest_fun {A B} (P : A -> option B) l v w : latest P l v -> latest P l w -> v = w.
Proof.
  assert (forall l, latest P l None -> forall x, In x l -> P x = None) as Hn
    by (intros l0 H; inversion H; auto).
  assert (forall l u, latest P l (Some u) -> exists x, In x l /\ P x = Some u) as Hs.
  { intros l0 u H. inversion H; subst. exists x. split; [apply in_or_app; right; left; reflexivity|assumption]. }
  revert v w. induction l as [|y l IH] using rev_ind; intros v w Hv Hw.
  - destruct v as [v|]; [apply Hs in Hv as (?&[]&?)|]. destruct w as [w|]; [apply Hs in Hw as (?&[]&?)|]. reflexivity.
  - assert (forall u, latest P (l ++ [y]) u -> match P y with Some z => u = Some z | None => latest P l u end) as Hc.
    { intros u H. destruct (P y) eqn:E.
      - inversion H; subst.
        + specialize (H0 y ltac:(apply in_or_app; right; left; reflexivity)). congruence.
        + destruct l2 as [|z l2] using rev_ind.
          * apply app_inj_tail in H0 as [_ ->]. congruence.
          * clear IHl2. rewrite app_comm_cons, app_assoc in H0. apply app_inj_tail in H0 as [_ ->].
            specialize (H2 y ltac:(apply in_or_app; right; left; reflexivity)). congruence.
      - inversion H; subst.
        + apply latest_none. intros z Hz. apply H0. apply in_or_app. left. exact Hz.
        + destruct l2 as [|z l2] using rev_ind.
          * apply app_inj_tail in H0 as [_ ->]. congruence.
          * clear IHl2. rewrite app_comm_cons, app_assoc in H0. apply app_inj_tail in H0 as [<- _].
            apply latest_some; [assumption|]. intros q Hq. apply H2. apply in_or_app. left. exact Hq. }
    apply Hc in Hv, Hw. destruct (P y); [congruence|]. eauto.
Qed.

Lemma run_all x l : born x -> Forall proper l -> let a := running (x :: l) in
  exitcode a = None
  /\ (exists s, latest shows_signal l s /\ signal_ a = match s with Some n => n | None => 0 end)
  /\ max_memory_ a = last_reading (readings false l)
  /\ initialized a = existsb shows_start l
  /\ is_tle a = existsb shows_xcpu l
  /\ latest shows_fault l (protection_fault a).
Proof.
  intros Hx. induction l as [|y l IH] using rev_ind; intros P.
  - cbv zeta. unfold running. cbn [fold_left]. rewrite (born_stop x Hx). cbn. split; [reflexivity|]. split.
    + exists None. split; [apply latest_none; intros z []|reflexivity].
    + repeat split. apply latest_none. intros z [].
  - apply Forall_app in P as [P Py]. inversion Py as [|? ? Hy _]. subst. destruct (IH P) as (E&(s&Hs&Es)&M&I&T&F). clear IH.
    destruct (step_after x l y Hx Hy) as (E'&S'&M'&I'&T'&F'). cbv zeta in *. rewrite E', S', M', I', T', F'. split; [exact E|]. split.
    + exists (match shows_signal y with Some w => Some w | None => s end). split; [apply latest_snoc; exact Hs|].
      destruct (shows_signal y); [reflexivity|exact Es].
    + split; [|split; [rewrite existsb_app; cbn; rewrite Bool.orb_false_r, I; reflexivity|split;
        [rewrite existsb_app; cbn; rewrite Bool.orb_false_r, T; reflexivity|apply latest_snoc; exact F]]].
      rewrite M. clear. assert (forall l f, readings f (l ++ [y]) = readings f l ++ (if looks (f || existsb (fun y => faults (happened y)) l) (happened y) then [reading y] else [])) as Hr.
      { intros l0. induction l0 as [|z l0 IH]; intros f; cbn [readings app existsb].
        - rewrite Bool.orb_false_r, app_nil_r. reflexivity.
        - rewrite IH, app_assoc, Bool.orb_assoc. reflexivity. }
      rewrite Hr. cbn [orb]. unfold last_reading. rewrite filter_app. destruct (looks _ (happened y)); [|cbn; rewrite app_nil_r; reflexivity].
      cbn [filter]. unfold or_else. destruct (reading y =? 0); cbn [negb]; [rewrite app_nil_r; reflexivity|]. rewrite last_last. reflexivity.
Qed.

Lemma ended x l code : exitcode (process_of (x :: l) code) = Some code /\ signal_ (process_of (x :: l) code) = signal_ (running (x :: l))
  /\ max_memory_ (process_of (x :: l) code) = max_memory_ (running (x :: l)) /\ initialized (process_of (x :: l) code) = initialized (running (x :: l))
  /\ is_tle (process_of (x :: l) code) = is_tle (running (x :: l)) /\ protection_fault (process_of (x :: l) code) = protection_fault (running (x :: l)).
Proof. repeat split. Qed.

Lemma signals x l code : born x -> Forall proper l -> signal (running (x :: l)) = None
  /\ exists s, latest shows_signal l s /\ signal (process_of (x :: l) code)
     = Some (if existsb shows_start l then match s with Some n => n | None => 0 end else 0).
Proof.
  intros Hx P. destruct (run_all x l Hx P) as (E&(s&Hs&Es)&_&I&_). split.
  - unfold signal. rewrite E. reflexivity.
  - exists s. split; [exact Hs|]. unfold signal. destruct (ended x l code) as (->&->&_&->&_). rewrite I, Es. reflexivity.
Qed.
Lemma memory x l code rss m : born x -> Forall proper l ->
  max_memory rss m (process_of (x :: l) code) = or_else (last_reading (readings false l)) rss
  /\ max_memory rss m (running (x :: l)) = or_else m (or_else (last_reading (readings false l)) rss).
Proof.
  intros Hx P. destruct (run_all x l Hx P) as (E&_&M&_). unfold max_memory. destruct (ended x l code) as (->&_&->&_). rewrite E, M. split; [reflexivity|].
  unfold query, or_else. destruct (N.ltb_spec 0 m); destruct (N.eqb_spec m 0); try lia; cbn [max_memory_ with_memory].
  - destruct (N.eqb_spec m 0); [lia|reflexivity].
  - rewrite M. reflexivity.
Qed.
Lemma last_reading_app l r : last_reading (l ++ [r]) = or_else r (last_reading l).
Proof.
  unfold last_reading, or_else. rewrite filter_app. cbn [filter]. destruct (r =? 0); cbn [negb]; [rewrite app_nil_r; reflexivity|]. apply last_last.
Qed.
Lemma last_reading_in l : last_reading l = 0 \/ In (last_reading l) l.
Proof.
  induction l as [|r l IH] using rev_ind; [left; reflexivity|]. rewrite last_reading_app. unfold or_else. destruct (N.eqb_spec r 0).
  - destruct IH; [auto|]. right. apply in_or_app. left. assumption.
  - right. apply in_or_app. right. left. reflexivity.
Qed.
Lemma last_reading_zero l : last_reading l = 0 -> forall r, In r l -> r = 0.
Proof.
  induction l as [|r l IH] using rev_ind; [intros _ r []|]. rewrite last_reading_app. unfold or_else. destruct (N.eqb_spec r 0).
  - intros H q Hq. apply in_app_iff in Hq as [Hq|[<-|[]]]; auto.
  - intros H. congruence.
Qed.
Lemma rising_last l : rising l -> forall r, In r l -> r <= last_reading l.
Proof.
  intros H r Hr. destruct (N.eq_dec r 0) as [->|Hn]; [lia|].
  apply in_split in Hr as (l1&l2&->). destruct (N.eq_dec (last_reading (l1 ++ r :: l2)) 0) as [Hz|Hz].
  - pose proof (last_reading_zero _ Hz r ltac:(apply in_or_app; right; left; reflexivity)). lia.
  - assert (last_reading (l1 ++ r :: l2) = last_reading (r :: l2)) as Ee.
    { assert (last_reading (r :: l2) <> 0) as Hnz.
      { intros Hc. pose proof (last_reading_zero _ Hc r (or_introl eq_refl)). lia. }
      clear H Hz. revert Hnz. generalize (r :: l2). intros q. induction q as [|z q IH] using rev_ind; [intros []; reflexivity|].
      rewrite app_assoc, !last_reading_app. unfold or_else. destruct (z =? 0); [exact IH|reflexivity]. }
    assert (rising (r :: l2)) as [Hr _].
    { clear Ee Hz Hn. induction l1 as [|z l1 IH]; [exact H|]. apply IH. apply H. }
    rewrite Ee in *. destruct (last_reading_in (r :: l2)) as [Hc|[Hc|Hc]]; [lia|lia|]. destruct (Hr _ Hc); lia.
Qed.
Lemma memory_peak x l code rss m : born x -> Forall proper l -> rising (readings false l) -> last_reading (readings false l) <> 0 ->
  In (max_memory rss m (process_of (x :: l) code)) (readings false l) /\ forall r, In r (readings false l) -> r <= max_memory rss m (process_of (x :: l) code).
Proof.
  intros Hx P R Hn. destruct (memory x l code rss m Hx P) as [-> _]. unfold or_else. destruct (N.eqb_spec (last_reading (readings false l)) 0); [congruence|].
  split; [destruct (last_reading_in (readings false l)); [congruence|assumption]|apply rising_last; exact R].
Qed.
Lemma memory_exit x l1 y l2 code rss m : born x -> Forall proper (l1 ++ y :: l2) -> happened y = Stopped true SIGTRAP true -> 0 < reading y ->
  (forall z, In z l2 -> reading z = 0) -> max_memory rss m (process_of (x :: l1 ++ y :: l2) code) = reading y.
Proof.
  intros Hx P Hy Hp Hz. destruct (memory x _ code rss m Hx P) as [-> _].
  assert (last_reading (readings false (l1 ++ y :: l2)) = reading y) as ->; [|unfold or_else; destruct (N.eqb_spec (reading y) 0); [lia|reflexivity]].
  assert (forall f, exists l r, readings f (l1 ++ y :: l2) = l ++ reading y :: r /\ forall z, In z r -> z = 0) as Hr.
  { clear P. induction l1 as [|q l1 IH]; intros f.
    - cbn [app readings]. rewrite Hy. cbn [looks orb app]. exists [], (readings (f || faults (Stopped true SIGTRAP true)) l2). split; [reflexivity|].
      generalize (f || faults (Stopped true SIGTRAP true)). clear -Hz. induction l2 as [|z l2 IH]; intros f; cbn [readings]; [intros z []|].
      intros w Hw. apply in_app_iff in Hw as [Hw|Hw].
      + destruct (looks f (happened z)); [destruct Hw as [<-|[]]; apply Hz; left; reflexivity|destruct Hw].
      + apply (IH (fun z Hz' => Hz z (or_intror Hz')) _ _ Hw).
    - cbn [app readings]. destruct (IH (f || faults (happened q))) as (l&r&->&H). rewrite app_assoc. eauto. }
  destruct (Hr false) as (l&r&->&H). clear -H Hp. induction r as [|z r IH] using rev_ind.
  - rewrite last_reading_app. unfold or_else. destruct (N.eqb_spec (reading y) 0); [lia|reflexivity].
  - rewrite app_comm_cons, app_assoc, last_reading_app. rewrite (H z) by (apply in_or_app; right; left; reflexivity). cbn. apply IH. intros w Hw. apply H. apply in_or_app. left. exact Hw.
Qed.
Lemma fault_reports x l code : born x -> Forall proper l -> latest shows_fault l (protection_fault (process_of (x :: l) code)).
Proof. intros Hx P. destruct (run_all x l Hx P) as (_&_&_&_&_&F). destruct (ended x l code) as (_&_&_&_&_&->). exact F. Qed.
Lemma tle_reports x l code : born x -> Forall proper l -> is_tle (process_of (x :: l) code) = true <-> exists y, In y l /\ shows_xcpu y = true.
Proof.
  intros Hx P. destruct (run_all x l Hx P) as (_&_&_&_&T&_). destruct (ended x l code) as (_&_&_&_&->&_). rewrite T, existsb_exists. reflexivity.
Qed.

(** *** Reading the peak *)
Lemma fgets_some k : forall pre rest, pre <> [] -> whole pre ->
  exists line pre', fgets (S k) (pre ++ rest) = (line, pre' ++ rest) /\ pre = line ++ pre' /\ line <> [] /\ whole pre'.
Proof.
  induction k as [|k IH]; intros pre rest Hn Hw; destruct pre as [|c pre]; try congruence.
  - exists [c], pre. cbn. assert (whole pre) as Hp.
    { destruct Hw as [Hw|(q&Hw)]; [discriminate|]. destruct q as [|d q]; [injection Hw as _ ->; left; reflexivity|]. injection Hw as _ ->. right. eauto. }
    destruct (c =? 10); repeat split; congruence || exact Hp.
  - assert (whole pre) as Hp.
    { destruct Hw as [Hw|(q&Hw)]; [discriminate|]. destruct q as [|d q]; [injection Hw as _ ->; left; reflexivity|]. injection Hw as _ ->. right. eauto. }
    cbn [app]. change (fgets (S (S k)) (c :: pre ++ rest)) with (if c =? 10 then ([c], pre ++ rest) else let '(l, r) := fgets (S k) (pre ++ rest) in (c :: l, r)).
    destruct (N.eqb_spec c 10) as [->|Hc].
    + exists [10], pre. repeat split; congruence || exact Hp.
    + destruct (list_eq_dec N.eq_dec pre []) as [->|Hne].
      * exfalso. destruct Hw as [Hw|(q&Hw)]; [discriminate|]. destruct q as [|d q]; [injection Hw as ->; congruence|]. injection Hw as _ Hw. destruct q; discriminate.
      * destruct (IH pre rest Hne Hp) as (line&pre'&->&E&Hl&Hw'). exists (c :: line), pre'. subst pre. repeat split; congruence || exact Hw'.
Qed.
Lemma starts_with_split p s : starts_with p s = true -> exists t, s = p ++ t.
Proof.
  revert s. induction p as [|c p IH]; intros s H; [exists s; reflexivity|]. destruct s as [|d s]; [discriminate|]. cbn in H.
  apply Bool.andb_true_iff in H as [E H]. apply N.eqb_eq in E as ->. destruct (IH s H) as (t&->). exists t. reflexivity.
Qed.
Lemma skip_lines : forall fuel pre rest, whole pre -> ~ (exists u v, pre = u ++ B "VmHWM:" ++ v) -> (length pre < fuel)%nat ->
  exists fuel', (fuel <= length pre + fuel')%nat /\ find_peak fuel (pre ++ rest) = find_peak fuel' rest.
Proof.
  induction fuel as [|f IH]; intros pre rest Hw Hno Hl; [lia|].
  destruct (list_eq_dec N.eq_dec pre []) as [->|Hn]; [exists (S f); split; [cbn; lia|reflexivity]|].
  destruct (fgets_some 126 pre rest Hn Hw) as (line&pre'&E&Ep&Hne&Hw').
  assert (length pre = length line + length pre')%nat as Hlen by (rewrite Ep, app_length; reflexivity).
  assert (1 <= length line)%nat as H1 by (destruct line; [congruence|cbn; lia]).
  destruct (IH pre' rest Hw') as (f'&Hf&Ef).
  - intros (u&v&Hv). apply Hno. exists (line ++ u), v. rewrite Ep, Hv, <- !app_assoc. reflexivity.
  - lia.
  - exists f'. split; [lia|]. cbn [find_peak]. rewrite E. destruct line as [|c line]; [congruence|].
    destruct (starts_with (B "VmHWM:") (c :: line)) eqn:S; [|exact Ef]. exfalso. apply starts_with_split in S as (t&Ht).
    apply Hno. exists [], (t ++ pre'). rewrite Ep, Ht, <- app_assoc. reflexivity.
Qed.
Lemma fgets_line : forall k s rest, (length s < k)%nat -> (forall c, In c s -> c <> 10) -> fgets k (s ++ 10 :: rest) = (s ++ [10], rest).
Proof.
  induction k as [|k IH]; intros s rest Hl Hs; [lia|]. destruct s as [|c s].
  - cbn. reflexivity.
  - cbn [app fgets]. destruct (N.eqb_spec c 10) as [E|_]; [elim (Hs c); [left; reflexivity|exact E]|].
    rewrite IH; [reflexivity|cbn in Hl; lia|intros d Hd; apply Hs; right; exact Hd].
Qed.
Lemma decimal_digits n s : decimal n s -> Forall (fun c => digit c = true) s /\ s <> [].
Proof.
  assert (forall d, d < 10 -> digit (48 + d) = true) as Hd by (intros d Hd; unfold digit; apply Bool.andb_true_iff; split; apply N.leb_le; lia).
  induction 1 as [d H|n s d H D [IH _] Hd']; split; try discriminate; auto.
  - apply Forall_app. split; [exact IH|]. auto.
  - destruct s; discriminate.
Qed.
Lemma number_digit acc d t : d < 10 -> number 10 acc ((48 + d) :: t) = number 10 (acc * 10 + d) t.
Proof.
  intros H. cbn [number]. unfold digit_value, digit. replace (48 <=? 48 + d) with true by (symmetry; apply N.leb_le; lia).
  replace (48 + d <=? 57) with true by (symmetry; apply N.leb_le; lia). cbn [andb]. replace (48 + d - 48) with d by lia.
  replace (d <? 10) with true by (symmetry; apply N.ltb_lt; lia). reflexivity.
Qed.
Lemma number_decimal n s : decimal n s -> forall t, number 10 0 (s ++ t) = number 10 n t.
Proof.
  induction 1 as [d H|n s d H D IH Hd]; intros t.
  - cbn [app]. rewrite number_digit by exact H. reflexivity.
  - rewrite <- app_assoc. cbn [app]. rewrite IH, number_digit by exact Hd. f_equal. lia.
Qed.
Lemma decimal_head n s : decimal n s -> exists d r, s = (48 + d) :: r /\ d < 10 /\ (d = 0 -> r = [] /\ n = 0).
Proof.
  induction 1 as [d H|n s d H D IH Hd]; [exists d, []; auto|]. destruct IH as (e&r&->&He&Hz). exists e, (r ++ [48 + d]). split; [reflexivity|]. split; [exact He|].
  intros E. destruct (Hz E) as [_ Hn]. lia.
Qed.
Lemma strtoul_plain c q : c <> 48 -> strtoul (c :: q) = N.min (number 10 0 (c :: q)) (2 ^ 64 - 1).
Proof.
  intros H. unfold strtoul. destruct c as [|p]; [reflexivity|].
  destruct p as [p|p|]; try reflexivity. destruct p as [p|p|]; try reflexivity. destruct p as [p|p|]; try reflexivity.
  destruct p as [p|p|]; try reflexivity. destruct p as [p|p|]; try reflexivity. destruct p as [p|p|]; try reflexivity. congruence.
Qed.
Lemma strtoul_decimal n s : decimal n s -> n < 2 ^ 64 -> strtoul (s ++ [32]) = n.
Proof.
  intros D Hn. destruct (decimal_head n s D) as (d&r&Es&Hd&Hz).
  assert (number 10 0 (s ++ [32]) = n) as E10 by (rewrite (number_decimal n s D); reflexivity).
  assert (N.min n (2 ^ 64 - 1) = n) as Hm by (apply N.min_l; change (2 ^ 64) with 18446744073709551616 in *; lia).
  destruct (N.eq_dec d 0) as [E0|E0].
  - destruct (Hz E0) as [-> ->]. subst. reflexivity.
  - assert (48 + d <> 48) as Hne by lia. rewrite Es in *. cbn [app] in *. rewrite strtoul_plain by exact Hne. rewrite E10. exact Hm.
Qed.
Lemma to_digit_skip s t : (forall c, In c s -> digit c = false) -> to_digit (s ++ t) = to_digit t.
Proof.
  induction s as [|c s IH]; intros H; [reflexivity|]. cbn. rewrite (H c) by (left; reflexivity). apply IH. intros d Hd. apply H. right. exact Hd.
Qed.
Lemma reads_peak pre blanks digits n post : whole pre -> ~ (exists u v, pre = u ++ B "VmHWM:" ++ v) ->
  (forall c, In c blanks -> c = 32 \/ c = 9) -> decimal n digits -> n < 2 ^ 64 -> (length blanks + length digits <= 117)%nat ->
  get_memory (Some (pre ++ peak_line blanks digits ++ post)) = Some n.
Proof.
  intros Hw Hno Hb Hd Hn Hl. unfold get_memory. destruct (skip_lines (S (length (pre ++ peak_line blanks digits ++ post))) pre (peak_line blanks digits ++ post) Hw Hno) as (f'&Hf&->).
  - rewrite app_length. lia.
  - rewrite app_length in Hf. destruct f' as [|f']; [unfold peak_line in Hf; rewrite !app_length in Hf; cbn in Hf; lia|].
    destruct (decimal_digits n digits Hd) as [Hdig Hne]. rewrite Forall_forall in Hdig.
    set (s := B "VmHWM:" ++ blanks ++ digits ++ B " kB").
    assert (peak_line blanks digits ++ post = s ++ 10 :: post) as -> by (unfold peak_line, s; rewrite <- !app_assoc; reflexivity).
    assert (fgets 127 (s ++ 10 :: post) = (s ++ [10], post)) as E.
    { apply fgets_line.
      - unfold s. rewrite !app_length. change (length (B "VmHWM:")) with 6%nat. change (length (B " kB")) with 3%nat. lia.
      - intros c Hc. unfold s in Hc. rewrite !in_app_iff in Hc. destruct Hc as [Hc|[Hc|[Hc|Hc]]].
        + vm_compute in Hc. intuition lia.
        + destruct (Hb c Hc); lia.
        + apply Hdig in Hc. unfold digit in Hc. apply Bool.andb_true_iff in Hc as [Hc _]. apply N.leb_le in Hc. lia.
        + vm_compute in Hc. intuition lia. }
    cbn [find_peak]. rewrite E.
    assert (starts_with (B "VmHWM:") (s ++ [10]) = true) as Hs by (unfold s; rewrite <- app_assoc; reflexivity).
    assert (firstn (length (s ++ [10]) - 3) (s ++ [10]) = B "VmHWM:" ++ blanks ++ digits ++ [32]) as Ef.
    { assert (s ++ [10] = (B "VmHWM:" ++ blanks ++ digits ++ [32]) ++ [107; 66; 10]) as -> by (unfold s; rewrite <- !app_assoc; reflexivity).
      rewrite app_length. cbn [length]. replace (_ + 3 - 3)%nat with (length (B "VmHWM:" ++ blanks ++ digits ++ [32])) by lia.
      rewrite firstn_app, Nat.sub_diag, firstn_all. cbn [firstn]. apply app_nil_r. }
    rewrite Ef, Hs. destruct (s ++ [10]) eqn:Es; [destruct s; discriminate|].
    rewrite app_assoc, to_digit_skip.
    + assert (to_digit (digits ++ [32]) = Some (digits ++ [32])) as ->.
      { destruct digits as [|c q]; [congruence|]. cbn. rewrite (Hdig c) by (left; reflexivity). reflexivity. }
      cbn [option_map]. rewrite (strtoul_decimal n digits Hd Hn). reflexivity.
    + intros c Hc. apply in_app_iff in Hc as [Hc|Hc].
      * vm_compute in Hc. intuition (subst; reflexivity).
      * destruct (Hb c Hc) as [->| ->]; reflexivity.
Qed.
(** Without such a line nothing is found. *)
Lemma reads_nothing file : whole file -> ~ (exists u v, file = u ++ B "VmHWM:" ++ v) -> get_memory (Some file) = Some 0.
Proof.
  intros Hw Hno. unfold get_memory. destruct (skip_lines (S (length file)) file [] Hw Hno ltac:(lia)) as (f'&Hf&E). rewrite app_nil_r in E. rewrite E.
  destruct f'; reflexivity.
Qed.
