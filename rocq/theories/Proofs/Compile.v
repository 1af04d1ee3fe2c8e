From Coq Require Import String.
From Verif Require Import Model.Bytes Model.Compile Spec.Compile Proofs.BytesLemmas.
From Verif Require Spec.Startup.
Local Open Scope nat_scope.
Local Open Scope list_scope.

Section Run.
  Variables (limit : option N) (now : N).
  Notation aft := (after limit now).
  Lemma after_snoc h e : aft (h ++ [e]) = run_step limit (aft h) e.
  Proof. unfold after, run_all. rewrite fold_left_app. reflexivity. Qed.
  Lemma ended_snoc h e c : ended limit now h c -> ended limit now (h ++ [e]) c.
  Proof. intros (h1 & h2 & -> & H). exists h1, (h2 ++ [e]). rewrite <- app_assoc. split; [reflexivity|exact H]. Qed.
  Lemma said_snoc h e t : said limit now h t -> said limit now (h ++ [e]) t.
  Proof. intros (h1 & h2 & -> & H). exists h1, (h2 ++ [e]). rewrite <- app_assoc. split; [reflexivity|exact H]. Qed.
  Lemma ended_now h c : p (aft h) = Zombie c -> ended limit now h c.
  Proof. intros H. exists h, []. rewrite app_nil_r. split; [reflexivity|exact H]. Qed.
  Lemma said_now h t : mph (aft h) = MTalk -> said limit now (h ++ [Talk t]) t.
  Proof. intros H. exists h, []. split; [reflexivity|exact H]. Qed.

  Definition overtime (s : run_state) : Prop := exists n, limit = Some n /\ n <> 0%N /\ (n < clock s - now)%N.
  (** everything that is always true *)
  Record inv (h : list event) : Prop := {
    i_time : (now <= started (aft h) <= clock (aft h))%N;
    i_out : timed_out (aft h) = true -> overtime (aft h);
    i_none : kph (aft h) = KNone <-> has_killer limit = false;
    i_kill : kph (aft h) = KKill -> timed_out (aft h) = true;
    i_done : kph (aft h) = KDone -> p (aft h) <> Alive;
    i_main : match mph (aft h) with
             | MTalk => returncode (aft h) = None /\ p (aft h) <> Gone
             | MWait o => returncode (aft h) = None /\ p (aft h) <> Gone /\ said limit now h (Ended o)
             | MReaped o c => returncode (aft h) = None /\ p (aft h) = Gone /\ said limit now h (Ended o) /\ ended limit now h c
             | MTalked (Ended o) => p (aft h) = Gone /\ said limit now h (Ended o) /\ exists c, returncode (aft h) = Some c /\ ended limit now h c
             | MTalked TooLong => returncode (aft h) = None /\ p (aft h) <> Gone /\ said limit now h TooLong
             | MResult r => exists t b, said limit now h t /\ (b = true -> overtime (aft h)) /\
                 r = (if match returncode (aft h) with Some 0%Z => false | _ => true end
                      then CompileError (if b : bool then timed_out_message (limit_value limit) else match t with Ended o => o | TooLong => too_long end)
                      else Compiled (match t with Ended o => o | TooLong => too_long end)) /\
                 match t with
                 | Ended _ => p (aft h) = Gone /\ exists c, returncode (aft h) = Some c /\ ended limit now h c
                 | TooLong => p (aft h) <> Gone /\ returncode (aft h) = None
                 end
             end }.

  Ltac same H := destruct H as [A1 A2 A3 A4 A5 A6].
  Lemma has_killer_limit : has_killer limit = true -> exists n, limit = Some n /\ n <> 0%N.
  Proof. unfold has_killer. destruct limit as [n|]; [|discriminate]. intros H. exists n. split; [reflexivity|]. apply negb_true_iff, N.eqb_neq in H. exact H. Qed.
  Lemma overtime_mono s s' : (clock s <= clock s')%N -> overtime s -> overtime s'.
  Proof. intros H (n & E & Hn & L). exists n. split; [exact E|split; [exact Hn|]]. lia. Qed.

  Lemma inv_init : inv [].
  Proof.
    split; cbn.
    - lia.
    - discriminate.
    - destruct (has_killer limit); split; congruence.
    - destruct (has_killer limit); discriminate.
    - destruct (has_killer limit); discriminate.
    - split; [reflexivity|discriminate].
  Qed.
  (** the part about the judge's thread survives when only the clock, the process ending or the killer change things *)
  Lemma main_kept h e : inv h -> mph (aft (h ++ [e])) = mph (aft h) -> returncode (aft (h ++ [e])) = returncode (aft h) ->
    (p (aft (h ++ [e])) = Gone <-> p (aft h) = Gone) -> (clock (aft h) <= clock (aft (h ++ [e])))%N ->
    match mph (aft (h ++ [e])) with
             | MTalk => returncode (aft (h ++ [e])) = None /\ p (aft (h ++ [e])) <> Gone
             | MWait o => returncode (aft (h ++ [e])) = None /\ p (aft (h ++ [e])) <> Gone /\ said limit now (h ++ [e]) (Ended o)
             | MReaped o c => returncode (aft (h ++ [e])) = None /\ p (aft (h ++ [e])) = Gone /\ said limit now (h ++ [e]) (Ended o) /\ ended limit now (h ++ [e]) c
             | MTalked (Ended o) => p (aft (h ++ [e])) = Gone /\ said limit now (h ++ [e]) (Ended o) /\ exists c, returncode (aft (h ++ [e])) = Some c /\ ended limit now (h ++ [e]) c
             | MTalked TooLong => returncode (aft (h ++ [e])) = None /\ p (aft (h ++ [e])) <> Gone /\ said limit now (h ++ [e]) TooLong
             | MResult r => exists t b, said limit now (h ++ [e]) t /\ (b = true -> overtime (aft (h ++ [e]))) /\
                 r = (if match returncode (aft (h ++ [e])) with Some 0%Z => false | _ => true end
                      then CompileError (if b : bool then timed_out_message (limit_value limit) else match t with Ended o => o | TooLong => too_long end)
                      else Compiled (match t with Ended o => o | TooLong => too_long end)) /\
                 match t with
                 | Ended _ => p (aft (h ++ [e])) = Gone /\ exists c, returncode (aft (h ++ [e])) = Some c /\ ended limit now (h ++ [e]) c
                 | TooLong => p (aft (h ++ [e])) <> Gone /\ returncode (aft (h ++ [e])) = None
                 end
             end.
  Proof.
    intros H E1 E2 E3 E4. same H. rewrite E1, E2. destruct (mph (aft h)) as [|o|o c|[o|]|r].
    - destruct A6 as [B1 B2]. split; [exact B1|tauto].
    - destruct A6 as (B1 & B2 & B3). split; [exact B1|split; [tauto|apply said_snoc; exact B3]].
    - destruct A6 as (B1 & B2 & B3 & B4). split; [exact B1|split; [tauto|split; [apply said_snoc; exact B3|apply ended_snoc; exact B4]]].
    - destruct A6 as (B1 & B2 & c & B3 & B4). split; [tauto|split; [apply said_snoc; exact B2|exists c; split; [exact B3|apply ended_snoc; exact B4]]].
    - destruct A6 as (B1 & B2 & B3). split; [exact B1|split; [tauto|apply said_snoc; exact B3]].
    - destruct A6 as (t & b & B1 & B2 & B3 & B4). exists t, b. split; [apply said_snoc; exact B1|]. split.
      + intros Hb. exact (overtime_mono _ _ E4 (B2 Hb)).
      + split; [exact B3|]. destruct t as [o|].
        * destruct B4 as (B4 & c & B5 & B6). split; [tauto|]. exists c. split; [exact B5|apply ended_snoc; exact B6].
        * destruct B4 as [B4 B5]. split; [tauto|exact B5].
  Qed.

  Lemma inv_step h e : inv h -> inv (h ++ [e]).
  Proof.
    intros H. pose proof (main_kept h e H) as MK. rewrite after_snoc in MK. pose proof H as H'. same H'.
    destruct e as [d|c| |t| | |].
    - (* Tick *) split; rewrite after_snoc; cbn [run_step clock started timed_out kph p]; try assumption.
      + lia.
      + intros T. apply (overtime_mono (aft h)); [cbn; lia|exact (A2 T)].
      + apply MK; cbn; [reflexivity|reflexivity|tauto|lia].
    - (* Exit *) cbn [run_step] in MK. destruct (p (aft h)) eqn:P.
      + split; rewrite after_snoc; cbn [run_step]; rewrite P; cbn [clock started timed_out kph p]; try assumption; try congruence.
        apply MK; cbn; [reflexivity|reflexivity|split; congruence|lia].
      + split; rewrite after_snoc; cbn [run_step]; rewrite P; try assumption; [congruence|]. apply MK; [reflexivity|reflexivity|rewrite P; tauto|lia].
      + split; rewrite after_snoc; cbn [run_step]; rewrite P; try assumption; [congruence|]. apply MK; [reflexivity|reflexivity|rewrite P; tauto|lia].
    - (* Killer *) cbn [run_step] in MK. unfold killer_step in MK.
      destruct (kph (aft h)) eqn:K.
      + split; rewrite after_snoc; cbn [run_step]; unfold killer_step; rewrite K; rewrite ?K; try assumption; try congruence.
        apply MK; [reflexivity|reflexivity|tauto|lia].
      + split; rewrite after_snoc; cbn [run_step]; unfold killer_step; rewrite K; cbn [clock started timed_out kph p]; try assumption; try congruence.
        * lia.
        * split; [discriminate|]. intros E. apply A3 in E. discriminate.
        * apply MK; cbn; [reflexivity|reflexivity|tauto|lia].
      + (* KLoop *) split; rewrite after_snoc; cbn [run_step]; unfold killer_step; rewrite K; cbn [clock started timed_out kph p]; try assumption.
        * split; [destruct (returncode (aft h)); discriminate|]. intros E. apply A3 in E. discriminate.
        * destruct (returncode (aft h)); discriminate.
        * intros E. destruct (returncode (aft h)) as [c|] eqn:R; [|discriminate].
          intros PA. destruct (mph (aft h)) as [|o|o c0|[o|]|r].
          -- destruct A6; congruence.
          -- destruct A6; congruence.
          -- destruct A6; congruence.
          -- destruct A6; congruence.
          -- destruct A6; congruence.
          -- destruct A6 as (t & b & _ & _ & _ & B). destruct t; [destruct B as [B _]; congruence|destruct B as [_ B]; congruence].
        * apply MK; cbn; [reflexivity|reflexivity|tauto|lia].
      + (* KTime *) destruct (N.ltb_spec (limit_value limit) (clock (aft h) - started (aft h))) as [L|L].
        * split; rewrite after_snoc; cbn [run_step]; unfold killer_step; rewrite K; apply N.ltb_lt in L as L'; rewrite L'; cbn [clock started timed_out kph p]; try assumption; try congruence.
          -- intros _. destruct (has_killer limit) eqn:HK; [|destruct A3 as [_ A3]; specialize (A3 eq_refl); discriminate].
             destruct (has_killer_limit HK) as (n & E & Hn). exists n. split; [exact E|split; [exact Hn|]]. cbn [clock]. assert (V : limit_value limit = n) by (rewrite E; reflexivity). rewrite V in L. lia.
          -- split; [discriminate|]. intros E. apply A3 in E. discriminate.
          -- apply MK; cbn; [reflexivity|reflexivity|tauto|lia].
        * apply N.ltb_ge in L. split; rewrite after_snoc; cbn [run_step]; unfold killer_step; rewrite K, L; cbn [clock started timed_out kph p]; try assumption; try congruence.
          -- split; [discriminate|]. intros E. apply A3 in E. discriminate.
          -- apply MK; cbn; [reflexivity|reflexivity|tauto|lia].
      + (* KKill *) destruct (p (aft h)) eqn:P;
          (split; rewrite after_snoc; cbn [run_step]; unfold killer_step; rewrite K, P; cbn [clock started timed_out kph p]; try assumption; try congruence;
           [split; [discriminate|intros E; apply A3 in E; discriminate]
           |apply MK; cbn; [reflexivity|reflexivity|split; congruence|lia]]).
      + (* KSleep *) split; rewrite after_snoc; cbn [run_step]; unfold killer_step; rewrite K; cbn [clock started timed_out kph p]; try assumption; try congruence.
        * split; [discriminate|]. intros E. apply A3 in E. discriminate.
        * apply MK; cbn; [reflexivity|reflexivity|tauto|lia].
      + (* KDone *) split; rewrite after_snoc; cbn [run_step]; unfold killer_step; rewrite K; rewrite ?K; try assumption; try congruence.
        apply MK; [reflexivity|reflexivity|tauto|lia].
    - (* Talk *)
      assert (Hno : mph (aft h) <> MTalk -> run_step limit (aft h) (Talk t) = aft h) by (intros Hm; destruct t; cbn [run_step]; destruct (mph (aft h)); congruence).
      destruct (mph (aft h)) eqn:M.
      2-5: rewrite Hno in MK by discriminate; split; rewrite after_snoc, Hno by discriminate; try assumption; apply MK; (reflexivity || tauto || lia || congruence).
      clear Hno. destruct A6 as [B1 B2].
      destruct t as [o|]; cbn [run_step] in *; (split; rewrite after_snoc; cbn [run_step]; rewrite M; cbn [with_mph clock started timed_out kph p mph returncode]; try assumption).
      + split; [exact B1|split; [exact B2|apply said_now; exact M]].
      + split; [exact B1|split; [exact B2|apply said_now; exact M]].
    - (* Wait *) cbn [run_step] in *.
      assert (Hno : (forall o c, mph (aft h) = MWait o -> p (aft h) = Zombie c -> False) -> run_step limit (aft h) Wait = aft h)
        by (intros Hm; cbn [run_step]; destruct (mph (aft h)) eqn:M; try reflexivity; destruct (p (aft h)) eqn:P; try reflexivity; destruct (Hm _ _ eq_refl eq_refl)).
      destruct (mph (aft h)) as [|o|o c0|t0|r] eqn:M.
      1,3,4,5: split; rewrite after_snoc, Hno by (intros; discriminate); try assumption; rewrite ?M in *; apply MK; (reflexivity || tauto || lia || congruence).
      destruct (p (aft h)) as [|c|] eqn:P.
      1,3: split; rewrite after_snoc, Hno by (intros; discriminate); rewrite ?P; try assumption; try congruence; rewrite ?M, ?P in *; apply MK; (reflexivity || tauto || lia || congruence).
      destruct A6 as (B1 & B2 & B3). clear Hno MK.
      split; rewrite after_snoc; cbn [run_step]; rewrite M, P; cbn [clock started timed_out kph p mph returncode]; try assumption.
      + discriminate.
      + split; [exact B1|split; [reflexivity|split; [apply said_snoc; exact B3|apply ended_snoc, ended_now; exact P]]].
    - (* Assign *) cbn [run_step] in *. destruct (mph (aft h)) as [|o|o c|t0|r] eqn:M.
      1,2,4,5: split; rewrite after_snoc; cbn [run_step]; rewrite M; try assumption; rewrite ?M in *; apply MK; (reflexivity || tauto || lia || congruence).
      destruct A6 as (B1 & B2 & B3 & B4). clear MK.
      split; rewrite after_snoc; cbn [run_step]; rewrite M; cbn [clock started timed_out kph p mph returncode]; try assumption.
      split; [exact B2|split; [apply said_snoc; exact B3|]]. exists c. split; [reflexivity|apply ended_snoc; exact B4].
    - (* Decide *) cbn [run_step] in *. destruct (mph (aft h)) as [|o|o c|t|r] eqn:M.
      1,2,3,5: split; rewrite after_snoc; cbn [run_step]; rewrite M; try assumption; rewrite ?M in *; apply MK; (reflexivity || tauto || lia || congruence).
      clear MK. split; rewrite after_snoc; cbn [run_step]; rewrite M; cbn [with_mph clock started timed_out kph p mph returncode]; try assumption.
      exists t, (timed_out (aft h)). split; [apply said_snoc; destruct t; tauto|]. split; [exact A2|]. split; [reflexivity|].
      destruct t as [o|].
      + destruct A6 as (B1 & B2 & c & B3 & B4). split; [exact B1|]. exists c. split; [exact B3|apply ended_snoc; exact B4].
      + tauto.
  Qed.
  Lemma inv_all h : inv h.
  Proof. induction h as [|e h IH] using rev_ind; [exact inv_init|exact (inv_step h e IH)]. Qed.

  Lemma after_app h1 h2 : aft (h1 ++ h2) = run_all limit (aft h1) h2.
  Proof. unfold after, run_all. rewrite fold_left_app. reflexivity. Qed.
  (** once ended, the code stays; once reaped, it is gone for good *)
  Lemma dead_step s e c : p s = Zombie c \/ p s = Gone -> p (run_step limit s e) = Zombie c \/ p (run_step limit s e) = Gone.
  Proof.
    intros H. destruct e as [d|c'| |t| | |]; cbn [run_step].
    - exact H.
    - destruct H as [H|H]; rewrite H; [left|right]; exact H.
    - unfold killer_step. destruct (kph s); cbn [p]; try exact H.
      + destruct (_ <? _)%N; exact H.
      + destruct H as [H|H]; rewrite H; cbn [p]; [left|right]; reflexivity.
    - destruct t; destruct (mph s); exact H.
    - destruct (mph s); try exact H. destruct H as [H|H]; rewrite H; cbn [p]; right; [reflexivity|exact H].
    - destruct (mph s); exact H.
    - destruct (mph s); exact H.
  Qed.
  Lemma dead_all l : forall s c, p s = Zombie c \/ p s = Gone -> p (run_all limit s l) = Zombie c \/ p (run_all limit s l) = Gone.
  Proof. induction l as [|e l IH]; intros s c H; [exact H|]. cbn. apply IH, dead_step, H. Qed.
  Lemma gone_all l : forall s, p s = Gone -> p (run_all limit s l) = Gone.
  Proof. intros s H. destruct (dead_all l s 0%Z (or_intror H)) as [A|A]; [|exact A]. destruct (dead_all l s 1%Z (or_intror H)) as [A'|A']; congruence. Qed.
  Lemma ended_unique h c c' : ended limit now h c -> ended limit now h c' -> c = c'.
  Proof.
    assert (W : forall h1 h2 k1 k2 c c', h1 ++ k1 = h2 ++ k2 -> length h1 <= length h2 -> p (aft h1) = Zombie c -> p (aft h2) = Zombie c' -> c = c').
    { intros h1 h2 k1 k2 d d' E L Z1 Z2. assert (exists m, h2 = h1 ++ m) as [m ->].
      { exists (firstn (length h2 - length h1) k1). apply (f_equal (firstn (length h2))) in E. rewrite firstn_app in E.
        rewrite (firstn_all2 h1) in E by lia. rewrite firstn_app, firstn_all, Nat.sub_diag in E. cbn in E. rewrite app_nil_r in E. symmetry. exact E. }
      rewrite after_app in Z2. destruct (dead_all m (aft h1) d (or_introl Z1)) as [A|A]; congruence. }
    intros (h1 & k1 & -> & Z1) (h2 & k2 & E & Z2).
    destruct (Nat.le_ge_cases (length h1) (length h2)) as [L|L].
    - exact (W _ _ _ _ _ _ E L Z1 Z2).
    - symmetry. symmetry in E. exact (W _ _ _ _ _ _ E L Z2 Z1).
  Qed.
  Lemma past_talk l : forall s, mph s <> MTalk -> mph (run_all limit s l) <> MTalk.
  Proof.
    induction l as [|e l IH]; intros s H; [exact H|]. cbn. apply IH. destruct e as [d|c'| |t| | |]; cbn [run_step].
    - exact H.
    - destruct (p s); exact H.
    - unfold killer_step. destruct (kph s); cbn [mph]; try exact H; [destruct (_ <? _)%N; exact H|destruct (p s); exact H].
    - destruct t; destruct (mph s) eqn:M; rewrite ?M; congruence.
    - destruct (mph s) eqn:M; try congruence. destruct (p s); cbn [mph]; congruence.
    - destruct (mph s) eqn:M; cbn [mph]; congruence.
    - destruct (mph s) eqn:M; cbn [mph with_mph]; congruence.
  Qed.
  Lemma said_moves h t : mph (aft h) = MTalk -> mph (aft (h ++ [Talk t])) <> MTalk.
  Proof. intros M. rewrite after_snoc. destruct t; cbn [run_step]; rewrite M; discriminate. Qed.
  Lemma said_unique h t t' : said limit now h t -> said limit now h t' -> t = t'.
  Proof.
    assert (W : forall h1 k1 h2 k2 t t', h1 ++ Talk t :: k1 = h2 ++ Talk t' :: k2 -> length h1 <= length h2 ->
      mph (aft h1) = MTalk -> mph (aft h2) = MTalk -> t = t').
    { intros h1 k1 h2 k2 u u' E L M1 M2. destruct (Nat.eq_dec (length h1) (length h2)) as [Q|Q].
      - assert (Talk u :: k1 = Talk u' :: k2).
        { apply (f_equal (skipn (length h1))) in E. rewrite skipn_app, skipn_all, Nat.sub_diag in E. cbn [app skipn] in E.
          rewrite Q, skipn_app, skipn_all, Nat.sub_diag in E. exact E. }
        congruence.
      - exfalso. assert (exists m, h2 = (h1 ++ [Talk u]) ++ m) as [m ->].
        { exists (firstn (length h2 - S (length h1)) k1). apply (f_equal (firstn (length h2))) in E.
          rewrite firstn_app, (firstn_all2 h1) in E by lia. rewrite firstn_app, firstn_all, Nat.sub_diag in E. cbn [firstn] in E. rewrite app_nil_r in E.
          etransitivity; [symmetry; exact E|]. rewrite <- app_assoc. destruct (length h2 - length h1) as [|q] eqn:QQ; [lia|]. cbn. repeat f_equal. lia. }
        rewrite after_app in M2. exact (past_talk m _ (said_moves h1 u M1) M2). }
    intros (h1 & k1 & -> & Z1) (h2 & k2 & E & Z2).
    destruct (Nat.le_ge_cases (length h1) (length h2)) as [L|L].
    - exact (W _ _ _ _ _ _ E L Z1 Z2).
    - symmetry. symmetry in E. exact (W _ _ _ _ _ _ E L Z2 Z1).
  Qed.

  Lemma result_success h o : finished limit now h (Compiled o) -> said limit now h (Ended o) /\ ended limit now h 0.
  Proof.
    intros F. destruct (inv_all h) as [_ _ _ _ _ I]. unfold finished in F. rewrite F in I.
    destruct I as (t & b & S & _ & R & T). destruct t as [o'|].
    - destruct T as (_ & c & RC & EN). rewrite RC in R. destruct c; try discriminate. injection R as ->. split; assumption.
    - destruct T as [_ RC]. rewrite RC in R. discriminate.
  Qed.
  Lemma result_of_success h r o : finished limit now h r -> said limit now h (Ended o) -> ended limit now h 0 -> r = Compiled o.
  Proof.
    intros F S0 E0. destruct (inv_all h) as [_ _ _ _ _ I]. unfold finished in F. rewrite F in I.
    destruct I as (t & b & S & _ & R & T). rewrite (said_unique _ _ _ S S0) in *. destruct T as (_ & c & RC & EN).
    rewrite (ended_unique _ _ _ EN E0) in RC. rewrite RC in R. exact R.
  Qed.
  Lemma result_error h m : finished limit now h (CompileError m) ->
    (said limit now h TooLong /\ m = too_long) \/
    (exists c, said limit now h (Ended m) /\ ended limit now h c /\ c <> 0%Z) \/
    (exists n, limit = Some n /\ n <> 0%N /\ (n < elapsed limit now h)%N /\ m = timed_out_message n /\ ~ ended limit now h 0) \/
    (exists n, limit = Some n /\ n <> 0%N /\ (n < elapsed limit now h)%N /\ m = timed_out_message n /\ said limit now h TooLong).
  Proof.
    intros F. destruct (inv_all h) as [_ _ _ _ _ I]. unfold finished in F. rewrite F in I.
    destruct I as (t & b & S & O & R & T). destruct b.
    - right. right. destruct (O eq_refl) as (n & E & Hn & L).
      assert (V : limit_value limit = n) by (rewrite E; reflexivity). rewrite V in R.
      destruct t as [o|].
      + left. exists n. destruct T as (_ & c & RC & EN). rewrite RC in R. destruct c; try discriminate; injection R as ->;
        (repeat split; try assumption; intros E0; pose proof (ended_unique _ _ _ EN E0); discriminate).
      + right. exists n. destruct T as [_ RC]. rewrite RC in R. injection R as ->. repeat split; assumption.
    - destruct t as [o|].
      + right. left. destruct T as (_ & c & RC & EN). exists c. rewrite RC in R. destruct c; try discriminate; injection R as ->; repeat split; (assumption || discriminate).
      + left. destruct T as [_ RC]. rewrite RC in R. injection R as ->. split; [exact S|reflexivity].
  Qed.
  Lemma killed_late h c : ended limit now h c -> In (Exit c) h \/ (c = (-9)%Z /\ exists n, limit = Some n /\ n <> 0%N /\ (n < elapsed limit now h)%N).
  Proof.
    induction h as [|e h IH] using rev_ind; intros (h1 & h2 & E & Z).
    - destruct h1; [|discriminate]. cbn in Z. discriminate.
    - assert (Cl : (elapsed limit now h <= elapsed limit now (h ++ [e]))%N).
      { unfold elapsed. rewrite after_snoc. destruct e as [d|c'| |t| | |]; cbn [run_step].
        - cbn. lia.
        - destruct (p (aft h)); cbn; lia.
        - unfold killer_step. destruct (kph (aft h)); cbn; try lia; [destruct (_ <? _)%N; cbn; lia|destruct (p (aft h)); cbn; lia].
        - destruct t; destruct (mph (aft h)); cbn; lia.
        - destruct (mph (aft h)); cbn; try lia. destruct (p (aft h)); cbn; lia.
        - destruct (mph (aft h)); cbn; lia.
        - destruct (mph (aft h)); cbn; lia. }
      destruct h2 as [|x h2 _] using rev_ind.
      + rewrite app_nil_r in E. subst h1.
        destruct (p (aft h)) as [|c0|] eqn:P.
        * rewrite after_snoc in Z. destruct e as [d|c'| |t| | |]; cbn [run_step] in Z; rewrite ?P in Z; cbn [p] in Z; rewrite ?P in Z; try congruence.
          -- left. apply in_or_app. right. left. congruence.
          -- right. pose proof (inv_all h) as I. destruct I as [A1 A2 A3 A4 A5 A6].
             unfold killer_step in Z. rewrite ?P in Z. destruct (kph (aft h)) eqn:K; cbn [p] in Z; rewrite ?P in Z; try congruence.
             ++ destruct (_ <? _)%N; cbn [p] in Z; congruence.
             ++ split; [congruence|]. destruct (A2 (A4 eq_refl)) as (n & E & Hn & L). exists n. split; [exact E|split; [exact Hn|]]. unfold elapsed in *. lia.
          -- destruct t; destruct (mph (aft h)); cbn [p with_mph] in Z; congruence.
          -- destruct (mph (aft h)); cbn [p with_mph] in Z; congruence.
          -- destruct (mph (aft h)); cbn [p with_mph] in Z; congruence.
          -- destruct (mph (aft h)); cbn [p with_mph] in Z; congruence.
        * assert (c = c0).
          { rewrite after_snoc in Z. destruct (dead_step (aft h) e c0 (or_introl P)); congruence. }
          subst c0. destruct (IH (ended_now h c P)) as [H|(-> & n & E & Hn & L)].
          -- left. apply in_or_app. left. exact H.
          -- right. split; [reflexivity|]. exists n. split; [exact E|split; [exact Hn|lia]].
        * rewrite after_snoc in Z. pose proof (gone_all [e] _ P) as G. cbn in G. congruence.
      + rewrite app_assoc in E. apply app_inj_tail in E as [-> ->].
        destruct IH as [H|(-> & n & E & Hn & L)].
        * exists h1, h2. split; [reflexivity|exact Z].
        * left. apply in_or_app. left. exact H.
        * right. split; [reflexivity|]. exists n. split; [exact E|split; [exact Hn|lia]].
  Qed.
  Lemma result_reaped h r o : finished limit now h r -> said limit now h (Ended o) -> p (aft h) = Gone.
  Proof.
    intros F S0. destruct (inv_all h) as [_ _ _ _ _ I]. unfold finished in F. rewrite F in I.
    destruct I as (t & b & S & _ & R & T). rewrite (said_unique _ _ _ S S0) in *. tauto.
  Qed.
  Lemma judge_decides h : p (aft h) <> Alive -> (exists t, said limit now h t) -> exists r, finished limit now (h ++ [Wait; Assign; Decide]) r.
  Proof.
    intros PA [t S0]. destruct (inv_all h) as [_ _ _ _ _ I]. unfold finished. rewrite after_app.
    destruct (mph (aft h)) as [|o|o c|t0|r] eqn:M; unfold run_all; cbn [fold_left run_step]; rewrite M.
    - exfalso. destruct S0 as (h1 & k & -> & M1). change (h1 ++ Talk t :: k) with (h1 ++ [Talk t] ++ k) in M. rewrite app_assoc, after_app in M.
      exact (past_talk k _ (said_moves h1 t M1) M).
    - destruct I as (B1 & B2 & _). destruct (p (aft h)); try congruence. cbn [mph with_mph]. eexists. reflexivity.
    - rewrite ?M. cbn [mph with_mph]. eexists. reflexivity.
    - rewrite ?M. cbn [mph with_mph]. eexists. reflexivity.
    - rewrite ?M. cbn [mph with_mph]. eexists. reflexivity.
  Qed.

  (** how many more of the killer's steps until it fires, when time is up *)
  Definition krank (k : kphase) : nat := match k with KStart => 5 | KSleep => 4 | KLoop => 3 | KTime => 2 | KKill => 1 | _ => 0 end.
  Lemma clock_mono l : forall s, (clock s <= clock (run_all limit s l))%N.
  Proof.
    induction l as [|e l IH]; intros s; [cbn; lia|]. cbn. eapply N.le_trans; [|apply IH].
    destruct e as [d|c'| |t| | |]; cbn [run_step]; try (cbn; lia).
    - destruct (p s); cbn; lia.
    - unfold killer_step. destruct (kph s); cbn; try lia; [destruct (_ <? _)%N; cbn; lia|destruct (p s); cbn; lia].
    - destruct t; destruct (mph s); cbn; lia.
    - destruct (mph s); cbn; try lia. destruct (p s); cbn; lia.
    - destruct (mph s); cbn; lia.
    - destruct (mph s); cbn; lia.
  Qed.
  Definition up (s : run_state) : Prop := (limit_value limit < clock s - started s)%N /\ kph s <> KStart.
  Lemma up_step s e : up s -> (started s <= clock s)%N -> up (run_step limit s e) /\ (started (run_step limit s e) <= clock (run_step limit s e))%N.
  Proof.
    intros [U1 U2] L. unfold up. destruct e as [d|c'| |t| | |]; cbn [run_step].
    - cbn. split; [split; [lia|exact U2]|lia].
    - destruct (p s); cbn; tauto.
    - unfold killer_step. destruct (kph s) eqn:K; cbn; rewrite ?K; try tauto; try (repeat split; (assumption || congruence)).
      + destruct (returncode s); repeat split; (assumption || congruence).
      + destruct (_ <? _)%N; cbn; repeat split; (assumption || congruence).
      + destruct (p s); cbn; repeat split; (assumption || congruence).
    - destruct t; destruct (mph s); cbn; tauto.
    - destruct (mph s); cbn; try tauto. destruct (p s); cbn; tauto.
    - destruct (mph s); cbn; tauto.
    - destruct (mph s); cbn; tauto.
  Qed.
  Lemma kill_happens h2 : forall h, has_killer limit = true -> up (aft h) -> krank (kph (aft h)) <= killer_steps h2 -> p (aft (h ++ h2)) <> Alive.
  Proof.
    induction h2 as [|e h2 IH]; intros h HK U R.
    - rewrite app_nil_r. destruct (inv_all h) as [A1 A2 A3 A4 A5 A6]. cbn in R. destruct U as [_ U]. destruct (kph (aft h)) eqn:K; cbn in R; try lia.
      + exfalso. assert (has_killer limit = false) by (apply A3; reflexivity). congruence.
      + exact (A5 eq_refl).
    - replace (h ++ e :: h2) with ((h ++ [e]) ++ h2) by (rewrite <- app_assoc; reflexivity).
      destruct (p (aft h)) as [|c|] eqn:P.
      2:{ rewrite <- app_assoc. rewrite after_app. destruct (dead_all ([e] ++ h2) _ c (or_introl P)); congruence. }
      2:{ rewrite <- app_assoc. rewrite after_app, gone_all by exact P. discriminate. }
      destruct (inv_all h) as [A1 A2 A3 A4 A5 A6].
      assert (U' := proj1 (up_step (aft h) e U (proj2 A1))). rewrite <- after_snoc in U'.
      apply IH; [exact HK|exact U'|]. rewrite after_snoc. destruct U as [U1 U2].
      assert (RC : returncode (aft h) = None).
      { destruct (mph (aft h)) as [|o|o c|[o|]|r]; try tauto; try (destruct A6; congruence). destruct A6 as (t & b & _ & _ & _ & B). destruct t; [destruct B; congruence|tauto]. }
      destruct e as [d|c'| |t| | |]; cbn [run_step killer_steps] in *.
      + exact R.
      + rewrite P. exact R.
      + unfold killer_step. destruct (kph (aft h)) eqn:K; cbn [krank kph] in *; rewrite ?RC, ?P; try congruence; cbn [krank kph]; try lia.
        * rewrite K. cbn. lia.
        * apply N.ltb_lt in U1. rewrite U1. cbn. lia.
        * rewrite K. cbn. lia.
      + destruct t; destruct (mph (aft h)); exact R.
      + destruct (mph (aft h)); rewrite ?P; exact R.
      + destruct (mph (aft h)); exact R.
      + destruct (mph (aft h)); exact R.
  Qed.
  (** the killer's clock starts no later than its first step *)
  Lemma started_by h : 1 <= killer_steps h -> has_killer limit = true -> kph (aft h) <> KStart /\ (started (aft h) <= clock (aft h))%N.
  Proof.
    intros K HK. split; [|exact (proj2 (i_time _ (inv_all h)))]. revert K.
    induction h as [|e h IH] using rev_ind; [cbn; lia|]. intros K. rewrite after_snoc.
    assert (Q : killer_steps (h ++ [e]) = killer_steps h + match e with Killer => 1 | _ => 0 end).
    { clear. induction h as [|x h IH]; [destruct e; reflexivity|]. destruct x; cbn; rewrite IH; reflexivity. }
    rewrite Q in K. clear Q. destruct e as [d|c'| |t| | |]; cbn [run_step].
    - apply IH. lia.
    - destruct (p (aft h)); apply IH; lia.
    - unfold killer_step. destruct (kph (aft h)) eqn:E; cbn [kph]; rewrite ?E; try discriminate.
      + destruct (returncode (aft h)); discriminate.
      + destruct (_ <? _)%N; discriminate.
      + destruct (p (aft h)); discriminate.
    - destruct t; destruct (mph (aft h)); apply IH; lia.
    - destruct (mph (aft h)); try (apply IH; lia). destruct (p (aft h)); apply IH; lia.
    - destruct (mph (aft h)); apply IH; lia.
    - destruct (mph (aft h)); apply IH; lia.
  Qed.
  Lemma started_kept l : forall s, kph s <> KStart -> started (run_all limit s l) = started s.
  Proof.
    induction l as [|e l IH]; intros s K; [reflexivity|]. cbn.
    assert (W : kph (run_step limit s e) <> KStart /\ started (run_step limit s e) = started s).
    { destruct e as [d|c'| |t| | |]; cbn [run_step].
      - tauto.
      - destruct (p s); tauto.
      - unfold killer_step. destruct (kph s) eqn:E; cbn; rewrite ?E; try (split; congruence).
        + destruct (returncode s); split; congruence.
        + destruct (_ <? _)%N; cbn; split; congruence.
        + destruct (p s); cbn; split; congruence.
      - destruct t; destruct (mph s); tauto.
      - destruct (mph s); try tauto. destruct (p s); tauto.
      - destruct (mph s); tauto.
      - destruct (mph s); tauto. }
    destruct W as [W1 W2]. transitivity (started (run_step limit s e)); [exact (IH _ W1)|exact W2].
  Qed.
  Lemma kill_when_up n h1 h2 h3 : limit = Some n -> n <> 0%N -> 1 <= killer_steps h1 ->
    (n < clock (aft (h1 ++ h2)) - clock (aft h1))%N -> 4 <= killer_steps h3 -> p (aft (h1 ++ h2 ++ h3)) <> Alive.
  Proof.
    intros E Hn K1 L K3.
    assert (HK : has_killer limit = true) by (unfold has_killer; rewrite E; apply negb_true_iff, N.eqb_neq; exact Hn).
    destruct (started_by h1 K1 HK) as [S1 S2].
    assert (ST : started (aft (h1 ++ h2)) = started (aft h1)) by (rewrite after_app; apply started_kept; exact S1).
    assert (V : limit_value limit = n) by (rewrite E; reflexivity).
    assert (KS : kph (aft (h1 ++ h2)) <> KStart).
    { apply started_by; [|exact HK]. clear -K1. revert K1. induction h1 as [|x h1 IH]; [cbn; lia|]. destruct x; cbn; lia. }
    rewrite app_assoc. apply kill_happens; [exact HK| |].
    - split; [|exact KS]. rewrite V, ST. lia.
    - destruct (kph (aft (h1 ++ h2))); cbn; try lia. congruence.
  Qed.
  (** without a limit nothing is ever killed *)
  Lemma no_limit_strays h : has_killer limit = false -> strays (aft h) = 0.
  Proof.
    intros HK. induction h as [|e h IH] using rev_ind; [reflexivity|]. rewrite after_snoc.
    pose proof (proj2 (i_none _ (inv_all h)) HK) as K.
    destruct e as [d|c'| |t| | |]; cbn [run_step].
    - exact IH.
    - destruct (p (aft h)); exact IH.
    - unfold killer_step. rewrite K. exact IH.
    - destruct t; destruct (mph (aft h)); exact IH.
    - destruct (mph (aft h)); try exact IH. destruct (p (aft h)); exact IH.
    - destruct (mph (aft h)); exact IH.
    - destruct (mph (aft h)); exact IH.
  Qed.
  Lemma strays_bound h : strays (aft h) = 0 \/ (strays (aft h) = 1 /\ kph (aft h) = KDone /\ overtime (aft h)).
  Proof.
    induction h as [|e h IH] using rev_ind; [left; reflexivity|].
    pose proof (inv_all h) as I. destruct I as [A1 A2 A3 A4 A5 A6].
    assert (C : (clock (aft h) <= clock (aft (h ++ [e])))%N) by (rewrite after_app; apply clock_mono).
    assert (O : overtime (aft h) -> overtime (aft (h ++ [e]))) by (apply overtime_mono; exact C).
    rewrite after_snoc in *. clear C.
    destruct e as [d|c'| |t| | |]; cbn [run_step] in *.
    - cbn [strays kph]. tauto.
    - destruct (p (aft h)); cbn [strays kph]; tauto.
    - unfold killer_step in *. destruct (kph (aft h)) eqn:K; cbn [strays kph] in *; rewrite ?K; try tauto; try (destruct IH as [IH|(_ & IH & _)]; [left; exact IH|discriminate]).
      + destruct (_ <? _)%N; cbn [strays]; destruct IH as [IH|(_ & IH & _)]; try discriminate; left; exact IH.
      + destruct IH as [IH|(_ & IH & _)]; [|discriminate]. destruct (p (aft h)); cbn [strays]; try (left; exact IH).
        right. rewrite IH. split; [reflexivity|]. split; [reflexivity|]. apply O, A2, A4. reflexivity.
    - destruct t; destruct (mph (aft h)); cbn [strays kph with_mph]; tauto.
    - destruct (mph (aft h)); cbn [strays kph with_mph]; try tauto. destruct (p (aft h)); cbn [strays kph with_mph]; tauto.
    - destruct (mph (aft h)); cbn [strays kph with_mph]; tauto.
    - destruct (mph (aft h)); cbn [strays kph with_mph]; tauto.
  Qed.
End Run.

(** ** dictionaries and files *)
Lemma dict_get_set k k' v d : dict_get k (dict_set k' v d) = if beqb k k' then Some v else dict_get k d.
Proof.
  induction d as [|[a x] d IH]; cbn; [reflexivity|].
  destruct (beqb k' a) eqn:E; cbn.
  - apply beqb_eq in E as ->. destruct (beqb k a); reflexivity.
  - rewrite IH. destruct (beqb k a) eqn:E2; [|reflexivity]. apply beqb_eq in E2 as ->.
    destruct (beqb a k') eqn:E3; [|reflexivity]. apply beqb_eq in E3 as ->. rewrite beqb_refl in E. discriminate.
Qed.
Lemma dict_set_keys k v d : forall x, In x (map fst (dict_set k v d)) <-> x = k \/ In x (map fst d).
Proof.
  induction d as [|[a y] d IH]; intros x; cbn; [firstorder|].
  destruct (beqb k a) eqn:E; cbn.
  - apply beqb_eq in E as ->. firstorder.
  - rewrite IH. firstorder.
Qed.
Lemma dict_set_nodup k v d : NoDup (map fst d) -> NoDup (map fst (dict_set k v d)).
Proof.
  induction d as [|[a y] d IH]; cbn; intros H; [constructor; [auto|constructor]|].
  inversion H; subst. destruct (beqb k a) eqn:E; cbn; [constructor; assumption|].
  constructor; [|apply IH; assumption]. rewrite dict_set_keys. intros [->|Q]; [rewrite beqb_refl in E; discriminate|tauto].
Qed.
Lemma written_acc ext srcs : forall acc k,
  dict_get k (fold_left (fun d s => dict_set (file_name ext (fst s)) (snd s) d) srcs acc) =
  match find (fun s => beqb k (file_name ext (fst s))) (rev srcs) with Some s => Some (snd s) | None => dict_get k acc end.
Proof.
  induction srcs as [|s srcs IH]; intros acc k; [reflexivity|]. cbn [fold_left rev]. rewrite IH, dict_get_set.
  assert (F : forall (f : bytes * bytes -> bool) a b, find f (a ++ b) = match find f a with Some x => Some x | None => find f b end).
  { intros f a b. induction a as [|x a IHa]; [reflexivity|]. cbn. destruct (f x); [reflexivity|exact IHa]. }
  rewrite F. destruct (find _ (rev srcs)); [reflexivity|]. cbn. destruct (beqb k (file_name ext (fst s))); reflexivity.
Qed.
Lemma written_last ext srcs : forall k x,
  dict_get k (written ext srcs) = Some x <->
  exists pre n post, srcs = pre ++ (n, x) :: post /\ file_name ext n = k /\ forall s, In s post -> file_name ext (fst s) <> k.
Proof.
  intros k x. unfold written. rewrite written_acc. cbn [dict_get]. 
  assert (G : match find (fun s => beqb k (file_name ext (fst s))) (rev srcs) with Some s => Some (snd s) | None => None end = Some x <->
    exists pre n post, rev srcs = rev post ++ (n, x) :: rev pre /\ file_name ext n = k /\ forall s, In s (rev post) -> file_name ext (fst s) <> k).
  { generalize (rev srcs) as l. intros l. split.
    - destruct (find _ l) as [[n y]|] eqn:Fd; [|discriminate]. intros [= ->].
      assert (exists a b, l = a ++ (n, x) :: b /\ file_name ext n = k /\ forall s, In s a -> file_name ext (fst s) <> k) as (a & b & -> & A & Bq).
      { revert Fd. induction l as [|s l IH]; [discriminate|]. cbn. destruct (beqb k (file_name ext (fst s))) eqn:E.
        - intros [= ->]. exists [], l. apply beqb_eq in E. cbn in E. split; [reflexivity|]. split; [symmetry; exact E|intros ? []].
        - intros Q. destruct (IH Q) as (a & b & -> & A & C). exists (s :: a), b. split; [reflexivity|]. split; [exact A|].
          intros s' [<-|I]; [|exact (C s' I)]. intros W. rewrite W, beqb_refl in E. discriminate. }
      exists (rev b), n, (rev a). rewrite !rev_involutive. split; [reflexivity|split; assumption].
    - intros (pre & n & post & -> & A & Bq). revert Bq. generalize (rev post) as q. induction q as [|s q IH]; intros Bq; cbn.
      + rewrite A, beqb_refl. reflexivity.
      + destruct (beqb k (file_name ext (fst s))) eqn:E; [apply beqb_eq in E; exfalso; apply (Bq s); [left; reflexivity|symmetry; exact E]|].
        apply IH. intros s' I. apply Bq. right. exact I. }
  rewrite G. split; intros (pre & n & post & E & A & Bq); exists pre, n, post.
  - split; [|split; [exact A|intros s I; apply Bq; apply in_rev in I; exact I]].
    apply (f_equal (@rev _)) in E. rewrite rev_app_distr in E. cbn in E. rewrite !rev_involutive in E. rewrite <- app_assoc in E. exact E.
  - split; [|split; [exact A|intros s I; apply Bq; apply in_rev; exact I]].
    rewrite E, rev_app_distr. cbn. rewrite <- app_assoc. reflexivity.
Qed.
Lemma written_all ext srcs : NoDup (source_paths ext srcs) -> forall n x, In (n, x) srcs -> dict_get (file_name ext n) (written ext srcs) = Some x.
Proof.
  intros Nd n x I. apply written_last. apply in_split in I as (pre & post & ->). exists pre, n, post. split; [reflexivity|]. split; [reflexivity|].
  intros s I E. unfold source_paths in Nd. rewrite map_app in Nd. cbn in Nd. apply NoDup_remove_2 in Nd. apply Nd, in_or_app. right.
  rewrite <- E. apply in_map_iff. exists s. split; [reflexivity|exact I].
Qed.
Lemma written_only ext srcs k x : dict_get k (written ext srcs) = Some x -> exists n, In (n, x) srcs /\ file_name ext n = k.
Proof. intros H. apply written_last in H as (pre & n & post & -> & E & _). exists n. split; [apply in_elt|exact E]. Qed.
Lemma has_dot n : existsb (N.eqb 46) n = true <-> In 46%N n.
Proof. rewrite existsb_exists. split; [intros (x & I & E); apply N.eqb_eq in E as <-; exact I|intros I; exists 46%N; split; [exact I|reflexivity]]. Qed.
Lemma file_name_dot ext n : In 46%N n -> file_name ext n = n.
Proof. intros H. apply has_dot in H. unfold file_name. rewrite H. reflexivity. Qed.
Lemma file_name_plain ext n : ~ In 46%N n -> file_name ext n = n ++ 46%N :: ext.
Proof. intros H. unfold file_name. destruct (existsb (N.eqb 46) n) eqn:E; [apply has_dot in E; tauto|reflexivity]. Qed.

Definition optionb (a : bytes) : bool := match a with c :: _ => (c =? 45)%N | [] => false end.
Lemma optionb_iff a : optionb a = true <-> is_option a.
Proof.
  unfold is_option. destruct a as [|c r]; cbn; [split; [discriminate|intros [? [=]]]|]. rewrite N.eqb_eq. split; [intros ->; exists r; reflexivity|intros [r' [= -> _]]; reflexivity].
Qed.
Lemma filter_options (l : list bytes) : (forall a, In a l -> is_option a) -> filter (fun a => negb (optionb a)) l = [].
Proof. induction l as [|a l IH]; intros H; [reflexivity|]. cbn. rewrite (proj2 (optionb_iff a) (H a (or_introl eq_refl))). cbn. apply IH. intros b I. apply H. right. exact I. Qed.
Lemma filter_files (l : list bytes) : (forall a, In a l -> ~ is_option a) -> filter (fun a => negb (optionb a)) l = l.
Proof.
  induction l as [|a l IH]; intros H; [reflexivity|]. cbn. destruct (optionb a) eqn:E.
  - apply optionb_iff in E. exfalso. exact (H a (or_introl eq_refl) E).
  - cbn. f_equal. apply IH. intros b I. apply H. right. exact I.
Qed.
(** the arguments that are not options, in order *)
Lemma plain_arguments c paths : ~ is_option (command c) -> ~ is_option (compiled_file c) -> (forall a, In a paths -> ~ is_option a) ->
  (forall a, In a (defines c ++ flags c ++ ldflags c) -> is_option a) -> is_option (march c) ->
  filter (fun a => negb (optionb a)) (compile_args c paths) = command c :: paths ++ [compiled_file c].
Proof.
  intros H1 H2 H3 H4 H5. unfold compile_args. rewrite !filter_app. 
  rewrite (filter_files paths) by exact H3.
  rewrite (filter_options (ldflags c)) by (intros a I; apply H4; rewrite !in_app_iff; tauto).
  rewrite (filter_options (flags c)) by (intros a I; apply H4; rewrite !in_app_iff; tauto).
  cbn [filter]. rewrite (filter_options (defines c)) by (intros a I; apply H4; rewrite !in_app_iff; tauto).
  rewrite (proj2 (optionb_iff _) H5).
  replace (optionb (command c)) with false by (symmetry; destruct (optionb (command c)) eqn:E; [apply optionb_iff in E; tauto|reflexivity]).
  replace (optionb (compiled_file c)) with false by (symmetry; destruct (optionb (compiled_file c)) eqn:E; [apply optionb_iff in E; tauto|reflexivity]).
  destruct (has_color c); cbn; reflexivity.
Qed.

(** ** helpers *)
Lemma basename_acc f : forall acc, fold_left (fun acc c => if (c =? 47)%N then [] else acc ++ [c]) f acc =
  if existsb (N.eqb 47) f then basename f else acc ++ f.
Proof.
  induction f as [|c f IH]; intros acc; [cbn; rewrite app_nil_r; reflexivity|]. unfold basename. cbn [fold_left existsb].
  rewrite (N.eqb_sym 47 c). destruct (c =? 47)%N eqn:E; cbn [orb].
  - reflexivity.
  - rewrite IH. destruct (existsb (N.eqb 47) f) eqn:S; [|rewrite <- app_assoc; reflexivity]. rewrite IH. reflexivity.
Qed.
Lemma basename_plain f : ~ In 47%N f -> basename f = f.
Proof.
  intros H. unfold basename. rewrite basename_acc. destruct (existsb (N.eqb 47) f) eqn:E; [|reflexivity].
  apply existsb_exists in E as (x & I & E). apply N.eqb_eq in E as <-. tauto.
Qed.
Lemma basename_dir d b : ~ In 47%N b -> basename (d ++ 47%N :: b) = b.
Proof.
  intros H. unfold basename. rewrite fold_left_app. cbn [fold_left]. rewrite N.eqb_refl. fold (basename b). apply basename_plain. exact H.
Qed.
Lemma basename_names f b : basename f = b <-> names f b.
Proof.
  split.
  - intros <-. induction f as [|c f IH] using rev_ind.
    + split; [intros []|left; reflexivity].
    + unfold basename. rewrite fold_left_app. cbn [fold_left]. fold (basename f). destruct (N.eqb_spec c 47) as [->|E].
      * split; [intros []|right; exists f; reflexivity].
      * destruct IH as [A [Q|(d & Q)]].
        -- split; [rewrite in_app_iff; intros [I|[I|[]]]; [tauto|congruence]|left; congruence].
        -- split; [rewrite in_app_iff; intros [I|[I|[]]]; [tauto|congruence]|right; exists d].
           rewrite Q at 1. rewrite <- app_assoc. reflexivity.
  - intros [A [->|(d & ->)]]; [apply basename_plain; exact A|apply basename_dir; exact A].
Qed.
Lemma from_last_dot_iff s x : from_last_dot s = Some x <-> exists stem r, s = stem ++ x /\ x = 46%N :: r /\ ~ In 46%N r.
Proof.
  revert x. induction s as [|c s IH]; intros x; cbn.
  - split; [discriminate|intros (stem & r & E & -> & _); destruct stem; discriminate].
  - destruct (from_last_dot s) as [y|] eqn:F.
    + split.
      * intros [= ->]. destruct (proj1 (IH x) eq_refl) as (stem & r & -> & E & H). exists (c :: stem), r. split; [reflexivity|split; assumption].
      * intros (stem & r & E & -> & H). destruct stem as [|a stem].
        -- injection E as -> ->. destruct (proj1 (IH y) eq_refl) as (stem & r' & -> & -> & _). exfalso. apply H, in_elt.
        -- injection E as -> ->. f_equal. assert (Some y = Some (46%N :: r)) by (apply IH; exists stem, r; repeat split; assumption). congruence.
    + assert (ND : ~ In 46%N s).
      { intros I. assert (exists q r, s = q ++ 46%N :: r /\ ~ In 46%N r) as (q & r & -> & H).
        { clear -I. induction s as [|a s IHs]; [destruct I|]. destruct (in_dec N.eq_dec 46%N s) as [J|J].
          - destruct (IHs J) as (q & r & -> & H). exists (a :: q), r. split; [reflexivity|exact H].
          - destruct I as [->|I]; [|tauto]. exists [], s. split; [reflexivity|exact J]. }
        assert (None = Some (46%N :: r)) by (apply IH; exists q, r; repeat split; assumption). discriminate. }
      destruct (N.eqb_spec c 46) as [->|E].
      * split; [intros [= <-]; exists [], s; repeat split; assumption|].
        intros (stem & r & Q & -> & H). destruct stem as [|a stem]; [cbn in Q; congruence|]. injection Q as Ea Es. exfalso. apply ND. rewrite Es. apply in_elt.
      * split; [discriminate|]. intros (stem & r & Q & -> & H). destruct stem as [|a stem]; injection Q; intros; subst; [congruence|]. exfalso. apply ND, in_elt.
Qed.
Lemma strip_dots_spec s : exists d, s = d ++ strip_dots s /\ (forall c, In c d -> c = 46%N) /\ match strip_dots s with c :: _ => c <> 46%N | [] => True end.
Proof.
  induction s as [|c s (d & E & A & C)]; cbn; [exists []; repeat split; intros ? []|].
  destruct (N.eqb_spec c 46) as [->|H].
  - exists (46%N :: d). cbn. rewrite <- E. repeat split; [intros c [<-|I]; [reflexivity|exact (A c I)]|exact C].
  - exists []. repeat split; [intros ? []|exact H].
Qed.
Lemma extension_iff f suffix r : suffix = 46%N :: r -> ~ In 46%N r -> r <> [] -> (extension f = suffix <-> has_suffix f suffix).
Proof.
  intros Es Hr Hn. unfold extension, has_suffix. destruct (strip_dots_spec (basename f)) as (d & E & A & C).
  split.
  - intros H. destruct (from_last_dot (strip_dots (basename f))) as [x|] eqn:F; [|congruence]. subst x.
    apply from_last_dot_iff in F as (stem & r' & Q & Ex & _). rewrite Q in C.
    exists (basename f), (d ++ stem). split; [apply basename_names; reflexivity|]. rewrite E at 1. rewrite Q, app_assoc. split; [reflexivity|].
    destruct stem as [|a stem]; [rewrite Ex in C; cbn in C; congruence|]. exists a. cbn in C. split; [apply in_elt|exact C].
  - intros (base & stem & Nm & -> & c & I & Hc). apply basename_names in Nm. rewrite Nm in *. clear f Nm. remember (strip_dots (stem ++ suffix)) as t eqn:Et. clear Et.
    assert (exists s', stem = d ++ s') as [s' ->].
    { clear -E A I Hc. revert stem I E. induction d as [|a d IH]; intros stem I E; [exists stem; reflexivity|].
      destruct stem as [|b stem]; [destruct I|]. cbn in E. injection E as Eb E. destruct (IH (fun c I => A c (or_intror I)) stem) as [s' ->].
      - destruct I as [->|I]; [|exact I]. exfalso. apply Hc. rewrite Eb. apply A. left. reflexivity.
      - exact E.
      - exists s'. rewrite Eb. reflexivity. }
    rewrite <- app_assoc in E. apply app_inv_head in E.
    replace (from_last_dot _) with (Some suffix); [reflexivity|]. symmetry. apply from_last_dot_iff. exists s', r. split; [symmetry; exact E|split; assumption].
Qed.
Lemma use_cpp_iff files : use_cpp files = true <-> exists f, In f files /\ (has_suffix f (B ".cpp") \/ has_suffix f (B ".cc")).
Proof.
  unfold use_cpp. rewrite existsb_exists. split; intros (f & I & H); exists f; (split; [exact I|]).
  - apply orb_true_iff in H as [H|H]; apply beqb_eq in H; [left|right]; revert H; (eapply extension_iff; [reflexivity|cbn; intuition discriminate|discriminate]).
  - apply orb_true_iff. destruct H as [H|H]; [left|right]; apply beqb_eq; revert H; (eapply extension_iff; [reflexivity|cbn; intuition discriminate|discriminate]).
Qed.
Lemma use_c_iff files : use_c files = true <-> exists f, In f files /\ has_suffix f (B ".c").
Proof.
  unfold use_c. rewrite existsb_exists. split; intros (f & I & H); exists f; (split; [exact I|]).
  - apply beqb_eq in H. revert H. eapply extension_iff; [reflexivity|cbn; intuition discriminate|discriminate].
  - apply beqb_eq. revert H. eapply extension_iff; [reflexivity|cbn; intuition discriminate|discriminate].
Qed.
Lemma find_first (f : bytes -> bool) l x : find f l = Some x <-> first_of (fun y => f y = true) l x.
Proof.
  unfold first_of. induction l as [|a l IH]; cbn.
  - split; [discriminate|intros (q & ? & E & _); destruct q; discriminate].
  - destruct (f a) eqn:E.
    + split; [intros [= ->]; exists [], l; repeat split; [exact E|intros ? []]|].
      intros (q & b & Q & X & H). destruct q as [|y q]; injection Q; intros; subst; [reflexivity|]. exfalso. exact (H y (or_introl eq_refl) E).
    + rewrite IH. split; intros (q & b & Q & X & H).
      * exists (a :: q), b. subst l. repeat split; [exact X|]. intros y [<-|I]; [congruence|exact (H y I)].
      * destruct q as [|y q]; injection Q; intros; subst; [congruence|]. exists q, b. repeat split; [exact X|]. intros z I. apply H. right. exact I.
Qed.
Section Helpers.
  Variable read : bytes -> option bytes.
  Lemma read_all_keep files : forall acc srcs k, read_all read files acc = Some srcs -> ~ In k (map basename files) -> dict_get k srcs = dict_get k acc.
  Proof.
    induction files as [|f files IH]; intros acc srcs k; cbn; [congruence|].
    destruct (read f) as [s|]; [|discriminate]. intros E H. rewrite (IH _ _ _ E) by tauto. rewrite dict_get_set.
    destruct (beqb k (basename f)) eqn:Q; [apply beqb_eq in Q; exfalso; apply H; left; symmetry; exact Q|reflexivity].
  Qed.
  Lemma read_all_get files : forall acc srcs, read_all read files acc = Some srcs -> NoDup (map basename files) ->
    forall f, In f files -> exists s, read f = Some s /\ dict_get (basename f) srcs = Some s.
  Proof.
    induction files as [|f files IH]; intros acc srcs E Nd g I; [destruct I|]. cbn in E. destruct (read f) as [s|] eqn:R; [|discriminate].
    inversion Nd; subst. destruct I as [<-|I]; [|exact (IH _ _ E H2 g I)].
    exists s. split; [exact R|]. rewrite (read_all_keep _ _ _ _ E H1), dict_get_set, beqb_refl. reflexivity.
  Qed.
  Lemma read_all_some files acc : (forall f, In f files -> read f <> None) -> exists srcs, read_all read files acc = Some srcs.
  Proof.
    revert acc. induction files as [|f files IH]; intros acc H; cbn; [eexists; reflexivity|].
    destruct (read f) as [s|] eqn:R; [|exfalso; exact (H f (or_introl eq_refl) R)]. apply IH. intros g I. apply H. right. exact I.
  Qed.
  Lemma read_all_none files acc f : In f files -> read f = None -> read_all read files acc = None.
  Proof.
    revert acc. induction files as [|g files IH]; intros acc I R; [destruct I|]. cbn. destruct I as [->|I]; [rewrite R; reflexivity|].
    destruct (read g); [apply IH; assumption|reflexivity].
  Qed.
  Lemma read_all_keys files : forall acc srcs, read_all read files acc = Some srcs -> NoDup (map fst acc) ->
    NoDup (map fst srcs) /\ forall k, In k (map fst srcs) <-> In k (map fst acc) \/ In k (map basename files).
  Proof.
    induction files as [|f files IH]; intros acc srcs E Nd; cbn in E.
    - injection E as <-. split; [exact Nd|]. cbn. tauto.
    - destruct (read f) as [s|]; [|discriminate]. destruct (IH _ _ E (dict_set_nodup _ _ _ Nd)) as [A C]. split; [exact A|].
      intros k. rewrite C, dict_set_keys. cbn. intuition congruence.
  Qed.
  Variable executors : bytes -> option exec_class.
  (** which language *)
  Definition choice (files : list bytes) (lang : option bytes) : option bytes :=
    match lang with Some l => Some l | None => find (available executors) (best_choices files) end.
  Lemma available_iff l : available executors l = true <-> executors l <> None.
  Proof. unfold available. destruct (executors l); split; congruence. Qed.
  Lemma build_lang files fl lang limit cache l srcs lim bf cd :
    build executors read files fl lang limit cache = Built l srcs lim bf cd ->
    choice files lang = Some l /\ exists e, executors l = Some e /\ lim = (if compiled e then Some limit else None) /\
      bf = option_map (fun own => fl ++ own) (class_flags e) /\
      (if use_cpp files || use_c files then takes_aux e = true /\ read_all read files [] = Some srcs /\ cd = cache
       else exists s, srcs = [s] /\ read_all read files [] = Some [s] /\ cd = false).
  Proof.
    unfold build, choice. destruct (read_all read files []) as [sources|]; [|discriminate].
    destruct (match lang with Some l0 => Some l0 | None => _ end) as [l0|]; [|discriminate].
    destruct (executors l0) as [e|] eqn:E; [|discriminate].
    destruct (use_cpp files || use_c files).
    - destruct (takes_aux e) eqn:T; [|discriminate]. intros [= <- <- <- <- <-]. split; [reflexivity|]. exists e. repeat split; assumption || reflexivity.
    - destruct sources as [|s [|]]; try discriminate. intros [= <- <- <- <- <-]. split; [reflexivity|]. exists e. repeat split; try assumption. exists s. repeat split.
  Qed.
End Helpers.

(** ** The configured limits *)
Lemma defaults k n : env_get k default_env = Some n <-> In (k, Config.VInt (Z.of_N n)) Spec.Startup.standard.
Proof.
  unfold default_env. split.
  - cbn [env_get]. repeat (match goal with |- (if beqb ?a ?b then _ else _) = _ -> _ => destruct (beqb_spec a b) as [->|_] end;
      [intros [= <-]; cbn [In Spec.Startup.standard Z.of_N]; auto 20|]). discriminate.
  - intros H. cbn [In Spec.Startup.standard] in H.
    repeat (destruct H as [H|H]; [try discriminate H; injection H as <- E; destruct n as [|q]; cbn [Z.of_N] in E; try discriminate E; injection E as <-; reflexivity|]).
    destruct H.
Qed.

(** The numbers in messages *)
Lemma dec_digits_value f : forall n, (n < 10 ^ N.of_nat f)%N -> (0 < f)%nat -> Spec.Access.numeral_value (dec_digits f n) = n.
Proof.
  unfold Spec.Access.numeral_value. induction f as [|f IH]; intros n Hn Hf; [lia|]. cbn [dec_digits].
  assert (Hm : (n mod 10 < 10)%N) by (apply N.mod_lt; discriminate).
  assert (Hd : n = (10 * (n / 10) + n mod 10)%N) by (apply N.div_mod; discriminate).
  rewrite fold_left_app. destruct (N.ltb_spec n 10).
  - cbn [fold_left]. rewrite N.mod_small by lia. lia.
  - rewrite Nat2N.inj_succ, N.pow_succ_r' in Hn. rewrite IH.
    + cbn [fold_left]. replace (48 + n mod 10 - 48)%N with (n mod 10)%N by lia. symmetry. exact Hd.
    + apply N.div_lt_upper_bound; lia.
    + destruct f; [|lia]. cbn in Hn. lia.
Qed.
Lemma dec_digits_range f : forall n, Forall (fun c => 48 <= c <= 57)%N (dec_digits f n).
Proof.
  induction f as [|f IH]; intros n; cbn [dec_digits]; [constructor|]. apply Forall_app. split.
  - destruct (n <? 10)%N; [constructor|apply IH].
  - constructor; [|constructor]. pose proof (N.mod_lt n 10 ltac:(discriminate)). lia.
Qed.
Lemma out_of_time_message n : out_of_time n (timed_out_message n).
Proof.
  exists (decimal n). split; [reflexivity|]. split; [|split].
  - unfold decimal. apply dec_digits_value; [|lia]. rewrite Nat2N.inj_succ, N2Nat.id.
    destruct (N.eq_dec n 0) as [->|Hn]; [reflexivity|].
    apply N.lt_le_trans with (2 ^ N.succ (N.log2 n))%N; [apply N.log2_spec; lia|]. apply N.pow_le_mono_l. lia.
  - apply dec_digits_range.
  - unfold decimal. cbn [dec_digits]. destruct (n <? 10)%N; [discriminate|]. intros E. apply app_eq_nil in E as [_ E]. discriminate E.
Qed.
