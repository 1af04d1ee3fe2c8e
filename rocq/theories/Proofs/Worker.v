From Coq Require Import QArith.
From Verif Require Import Model.Bytes Model.Result Model.Worker Spec.Worker.
Local Open Scope nat_scope.
Local Open Scope list_scope.

Record hist := Hist { h_batch : option nat; h_case : test_case; h_rep : report }.

Section W.
  Variable grade : test_case -> grade_ret.
  Variable abort_at : option nat.
  Variable short : bool.
  Notation aborted := (abort_requested abort_at).

  Definition zero (h : hist) : Prop := (case_points (h_case h) == 0)%Q.
  Definition blocks (b : option nat) (h : hist) : Prop :=
    wrong (h_rep h) /\ (short = true \/ zero h \/ (b <> None /\ h_batch h = b)).
  Definition good_rep (pre : list hist) (h : hist) : Prop :=
    (ran (h_rep h) = false <-> exists h', In h' pre /\ blocks (h_batch h) h') /\
    (ran (h_rep h) = true -> grade (h_case h) = GResult (rep_flag (h_rep h)) (rep_points (h_rep h)) /\ aborted (length pre) = false) /\
    (ran (h_rep h) = false -> reported_skipped (h_rep h)).
  Definition good (hs : list hist) : Prop := forall pre h post, hs = pre ++ h :: post -> good_rep pre h.
  Lemma good_snoc hs h : good hs -> good_rep hs h -> good (hs ++ [h]).
  Proof.
    intros G H pre h' post E. destruct post as [|p post] using rev_ind.
    - apply app_inj_tail in E as [<- <-]. exact H.
    - clear IHpost. change (pre ++ h' :: post ++ [p]) with (pre ++ (h' :: post) ++ [p]) in E. rewrite app_assoc in E.
      apply app_inj_tail in E as [E _]. eapply G, E.
  Qed.

  Record Inv (b : option nat) (s : sc_state) (hs : list hist) : Prop := {
    inv_num : case_number s = length hs;
    inv_en : enabled s = true <-> (short = true \/ exists h, In h hs /\ wrong (h_rep h) /\ zero h);
    inv_sc : is_short_circuiting s = true <-> exists h, In h hs /\ blocks b h
  }.

  Definition evs1 (b : option nat) (k : nat) (h : hist) : list event :=
    (if ran (h_rep h) then [Run (h_case h)] else []) ++ [Send (CaseResult b (S k) (rep_flag (h_rep h)) (rep_points (h_rep h)))].
  Fixpoint evs (b : option nat) (k : nat) (hs : list hist) : list event :=
    match hs with [] => [] | h :: r => evs1 b k h ++ evs b (S k) r end.

  Lemma wrong_truthy f : truthy (N.land f (flag_of WA)) = N.testbit f 0.
  Proof using.
    cbn [flag_of]. change (N.shiftl 1 0) with 1%N. rewrite N.bit0_odd.
    change 1%N with (N.ones 1). rewrite N.land_ones. change (2 ^ 1)%N with 2%N. rewrite <- N.bit0_mod, N.bit0_odd.
    destruct (N.odd f); reflexivity.
  Qed.
  Lemma no_points_iff c : no_points c = true <-> (case_points c == 0)%Q.
  Proof using. apply Qeq_bool_iff. Qed.

  (** What the end of a group, or of everything, looks like. *)
  Definition ending (b : option nat) (hs : list hist) (rest : list test_case) (st : status) (tail : list event) : Prop :=
    match st with
    | Go s => rest = [] /\ tail = [] /\ Inv b s hs
    | Stop => exists c r, rest = c :: r /\ tail = [Run c; Send GradingAborted] /\ aborted (length hs) = true /\
        (exists f p, grade c = GResult f p) /\ ~ (exists h, In h hs /\ blocks b h)
    | Failed => exists c r, rest = c :: r /\ tail = [Run c] /\ grade c = GRaise /\ ~ (exists h, In h hs /\ blocks b h)
    end.

  Lemma group b cs : forall s hs, Inv b s hs -> good hs ->
    exists new tail, fst (grade_group grade abort_at b s cs) = evs b (length hs) new ++ tail /\
      map h_case new = firstn (length new) cs /\ Forall (fun h => h_batch h = b) new /\ good (hs ++ new) /\
      ending b (hs ++ new) (skipn (length new) cs) (snd (grade_group grade abort_at b s cs)) tail.
  Proof.
    induction cs as [|c cs IH]; intros s hs I G; cbn [grade_group].
    { exists [], []. rewrite ?(app_nil_r hs). split; [reflexivity|]. split; [reflexivity|]. split; [constructor|]. split; [exact G|]. cbn. auto. }
    unfold grade_one. destruct (is_short_circuiting s) eqn:Es.
    - set (h := Hist b c (Report false (flag_of SC) 0)).
      assert (good_rep hs h) as Hg.
      { split; [|split].
        - split; [intros _; apply (inv_sc _ _ _ I), Es|reflexivity].
        - discriminate.
        - intros _. repeat split. }
      assert (~ wrong (h_rep h)) as Hw by (intros X; discriminate X).
      destruct (IH (SC_state (S (case_number s)) true (enabled s)) (hs ++ [h])) as [new [tail [E [Em [Ef [Gn En]]]]]].
      + destruct I as [I1 I2 I3]. split; cbn.
        * rewrite app_length, I1. cbn. lia.
        * rewrite I2. split; intros [X|[h' [Hi [X Y]]]]; auto; right; exists h'.
          -- split; [apply in_or_app; auto|auto].
          -- apply in_app_or in Hi as [Hi|[<-|[]]]; [auto|contradiction].
        * split; [|reflexivity]. intros _. apply I3 in Es as [h' [Hi X]]. exists h'. split; [apply in_or_app; auto|exact X].
      + apply good_snoc; assumption.
      + destruct (grade_group grade abort_at b (SC_state (S (case_number s)) true (enabled s)) cs) as [e' st] eqn:Eg. cbn [fst snd] in *.
        exists (h :: new), tail. rewrite <- app_assoc in Gn, En. cbn [app] in Gn, En.
        rewrite (inv_num _ _ _ I). split.
        * rewrite E. cbn. rewrite app_length, Nat.add_1_r. reflexivity.
        * split; [cbn; rewrite Em; reflexivity|]. split; [constructor; auto|]. split; [exact Gn|exact En].
    - destruct (grade c) as [f p|] eqn:Eg.
      2: { exists [], [Run c]. rewrite ?(app_nil_r hs). split; [reflexivity|]. split; [reflexivity|]. split; [constructor|]. split; [exact G|]. cbn. exists c, cs. split; [reflexivity|]. split; [reflexivity|]. split; [exact Eg|].
           rewrite <- (inv_sc _ _ _ I). congruence. }
      rewrite (inv_num _ _ _ I).
      destruct (aborted (length hs)) eqn:Ea.
      { exists [], [Run c; Send GradingAborted]. rewrite ?(app_nil_r hs). split; [reflexivity|]. split; [reflexivity|]. split; [constructor|]. split; [exact G|]. cbn. exists c, cs. split; [reflexivity|]. split; [reflexivity|]. split; [exact Ea|]. split; [eauto|].
        rewrite <- (inv_sc _ _ _ I). congruence. }
      set (h := Hist b c (Report true f p)).
      assert (~ exists h', In h' hs /\ blocks b h') as Hnb by (rewrite <- (inv_sc _ _ _ I); congruence).
      assert (good_rep hs h) as Hg.
      { split; [|split].
        - split; [discriminate|]. intros X. contradiction.
        - intros _. split; [exact Eg|exact Ea].
        - discriminate. }
      rewrite wrong_truthy.
      match goal with |- context [if N.testbit f 0 then ?x else ?y] => destruct (if N.testbit f 0 then x else y) as [sc en] eqn:Epair end.
      cbv zeta in Epair. cbn [orb] in Epair.
      destruct (IH (SC_state (S (length hs)) sc en) (hs ++ [h])) as [new [tail [E [Em [Ef [Gn En]]]]]].
      + destruct I as [I1 I2 I3]. split; cbn [case_number enabled is_short_circuiting].
        * rewrite app_length. cbn. lia.
        * destruct (N.testbit f 0) eqn:Ew; injection Epair as <- <-.
          -- rewrite orb_true_iff, I2, no_points_iff. split.
             ++ intros [[X|[h' [Hi X]]]|X]; [auto| |].
                ** right. exists h'. split; [apply in_or_app; auto|auto].
                ** right. exists h. split; [apply in_or_app; right; left; reflexivity|]. split; [exact Ew|exact X].
             ++ intros [X|[h' [Hi [X Y]]]]; [auto|]. apply in_app_or in Hi as [Hi|[<-|[]]]; [left; right; eauto|right; exact Y].
          -- rewrite I2. split; intros [X|[h' [Hi [X Y]]]]; auto; right; exists h'.
             ++ split; [apply in_or_app; auto|auto].
             ++ apply in_app_or in Hi as [Hi|[<-|[]]]; [auto|]. cbn in X. unfold wrong in X. cbn in X. congruence.
        * destruct (N.testbit f 0) eqn:Ew; injection Epair as <- <-.
          -- rewrite !orb_true_iff, I2, no_points_iff. split.
             ++ intros [X|[[X|[h' [Hi [X Y]]]]|X]].
                ** exists h. split; [apply in_or_app; right; left; reflexivity|]. split; [exact Ew|]. right. right. cbn. destruct b; [split; [discriminate|reflexivity]|discriminate].
                ** exists h. split; [apply in_or_app; right; left; reflexivity|]. split; [exact Ew|]. auto.
                ** exists h'. split; [apply in_or_app; auto|]. split; auto.
                ** exists h. split; [apply in_or_app; right; left; reflexivity|]. split; [exact Ew|]. right. left. exact X.
             ++ intros [h' [Hi X]]. apply in_app_or in Hi as [Hi|[<-|[]]]; [exfalso; apply Hnb; eauto|].
                destruct X as [_ [X|[X|[X _]]]]; [auto|auto|]. left. destruct b; [reflexivity|contradiction].
          -- split; [discriminate|]. intros [h' [Hi X]]. exfalso. apply Hnb. exists h'.
             apply in_app_or in Hi as [Hi|[<-|[]]]; [auto|]. destruct X as [X _]. unfold wrong in X. cbn in X. congruence.
      + apply good_snoc; assumption.
      + destruct (grade_group grade abort_at b (SC_state (S (length hs)) sc en) cs) as [e' st] eqn:Eg'. cbn [fst snd] in *.
        exists (h :: new), tail. rewrite <- app_assoc in Gn, En. cbn [app] in Gn, En. split.
        * rewrite E. cbn. rewrite app_length, Nat.add_1_r. reflexivity.
        * split; [cbn; rewrite Em; reflexivity|]. split; [constructor; auto|]. split; [exact Gn|exact En].
  Qed.

  (** ** A direct recursion over entries *)
  Fixpoint run_entries (bn : nat) (s : sc_state) (es : list entry) : list event * status :=
    match es with
    | [] => ([], Go s)
    | Single c :: r =>
        match grade_one grade abort_at None s c with
        | (e, Go s') => let (e', st) := run_entries bn s' r in (e ++ e', st)
        | other => other
        end
    | Batched _ [] :: r => run_entries (S bn) s r
    | Batched _ cs :: r =>
        match grade_group grade abort_at (Some (S bn)) s cs with
        | (e, Go s1) =>
            let s2 := SC_state (case_number s1) (is_short_circuiting s1 && enabled s1) (enabled s1) in
            let (e', st) := run_entries (S bn) s2 r in
            ([Send (BatchBegin (S bn))] ++ e ++ [Send (BatchEnd (S bn))] ++ e', st)
        | (e, st) => ([Send (BatchBegin (S bn))] ++ e, st)
        end
    end.

  Lemma flatten_keys bn es k c : In (k, c) (flatten_cases bn es) -> match k with Some n => bn < n | None => True end.
  Proof using.
    revert bn. induction es as [|[c'|m cs] es IH]; intros bn; cbn; [intros []| |].
    - intros [E|H]; [injection E as <- _; exact I|]. apply (IH bn H).
    - rewrite in_app_iff, in_map_iff. intros [[x [E _]]|H].
      + injection E as <- _. lia.
      + apply IH in H. destruct k; [lia|exact I].
  Qed.
  Lemma groupby_batch {A} n (cs : list A) l : cs <> [] -> (forall k a, In (k, a) l -> k <> Some n) ->
    groupby (map (fun c => (Some n, c)) cs ++ l) = (Some n, cs) :: groupby l.
  Proof using.
    intros Hc Hl. induction cs as [|c cs IH]; [contradiction|]. cbn [map app groupby].
    destruct cs as [|c' cs].
    - cbn [map app]. destruct l as [|[k a] l]; [reflexivity|].
      destruct (groupby ((k, a) :: l)) as [|[k' g] gs] eqn:E; [reflexivity|].
      assert (k' = k) as ->.
      { cbn in E. destruct (groupby l) as [|[k'' g'] gs'].
        - injection E as <- _ _. reflexivity.
        - destruct (key_eqb k k''); injection E as <- _ _; reflexivity. }
      destruct k as [m|]; cbn [key_eqb]; [|reflexivity].
      destruct (Nat.eqb_spec n m) as [->|Hn]; [|reflexivity]. exfalso. apply (Hl (Some m) a); [left; reflexivity|reflexivity].
    - rewrite IH by discriminate. cbn. rewrite Nat.eqb_refl. reflexivity.
  Qed.
  Lemma group_one b s c : grade_group grade abort_at b s [c] = grade_one grade abort_at b s c.
  Proof. cbn. destruct (grade_one grade abort_at b s c) as [e [s'| |]]; [rewrite app_nil_r|..]; reflexivity. Qed.
  Lemma groups_eq bn es : forall s,
    grade_groups grade abort_at s (groupby (flatten_cases bn es)) = run_entries bn s es.
  Proof.
    revert bn. induction es as [|[c|m cs] es IH]; intros bn s; [reflexivity| |].
    - cbn [flatten_cases run_entries]. cbn [groupby].
      specialize (IH bn).
      destruct (groupby (flatten_cases bn es)) as [|[[n|] g] gs] eqn:Eg.
      + cbn [grade_groups batch_truthy]. rewrite group_one. destruct (grade_one grade abort_at None s c) as [e [s'| |]]; try reflexivity.
        rewrite <- IH. cbn. rewrite ?app_nil_r. reflexivity.
      + cbn [key_eqb]. rewrite <- Eg in *. clear Eg. cbn [grade_groups batch_truthy]. rewrite group_one.
        destruct (grade_one grade abort_at None s c) as [e [s'| |]]; try reflexivity.
        rewrite <- IH. destruct (grade_groups grade abort_at s' _). cbn. reflexivity.
      + cbn [key_eqb]. cbn [grade_groups batch_truthy grade_group].
        destruct (grade_one grade abort_at None s c) as [e [s'| |]]; try reflexivity.
        rewrite <- IH. cbn [grade_groups batch_truthy app].
        destruct (grade_group grade abort_at None s' g) as [e' [s''| |]]; try reflexivity.
        destruct (grade_groups grade abort_at s'' gs). rewrite app_assoc. reflexivity.
    - cbn [flatten_cases run_entries]. destruct cs as [|c cs].
      + cbn [map app]. apply IH.
      + rewrite groupby_batch; [|discriminate|].
        * cbn [grade_groups batch_truthy].
          destruct (grade_group grade abort_at (Some (S bn)) s (c :: cs)) as [e [s'| |]]; try reflexivity.
          rewrite IH. reflexivity.
        * intros k a Hi E. subst k. apply flatten_keys in Hi. lia.
  Qed.

  (** ** Entries *)
  Fixpoint transcript_e (b k : nat) (es : list entry) (rs : list report) : list msg :=
    match es with
    | [] => []
    | Single _ :: rest =>
        match rs with
        | [] => []
        | r :: rs' => numbered None k [r] ++ transcript_e b (S k) rest rs'
        end
    | Batched _ [] :: rest => transcript_e (S b) k rest rs
    | Batched _ cs :: rest =>
        let n := length cs in
        BatchBegin (S b) :: numbered (Some (S b)) k (firstn n rs) ++
        (if length rs <? n then []
         else BatchEnd (S b) :: transcript_e (S b) (k + n) rest (skipn n rs))
    end.
  Definition runs (es : list event) : list test_case :=
    flat_map (fun e => match e with Run c => [c] | Send _ => [] end) es.
  Definition ran_cases (hs : list hist) : list test_case :=
    flat_map (fun h => if ran (h_rep h) then [h_case h] else []) hs.
  Lemma messages_app a b : messages (a ++ b) = messages a ++ messages b.
  Proof using. apply flat_map_app. Qed.
  Lemma runs_app a b : runs (a ++ b) = runs a ++ runs b.
  Proof using. apply flat_map_app. Qed.
  Lemma ran_cases_app a b : ran_cases (a ++ b) = ran_cases a ++ ran_cases b.
  Proof using. apply flat_map_app. Qed.
  Lemma messages_evs b k hs : messages (evs b k hs) = numbered b k (map h_rep hs).
  Proof.
    revert k. induction hs as [|h hs IH]; intros k; [reflexivity|]. cbn [evs map numbered]. rewrite messages_app, IH.
    unfold evs1. destruct (ran (h_rep h)); reflexivity.
  Qed.
  Lemma runs_evs b k hs : runs (evs b k hs) = ran_cases hs.
  Proof.
    revert k. induction hs as [|h hs IH]; intros k; [reflexivity|]. cbn [evs ran_cases flat_map]. rewrite runs_app, IH.
    unfold evs1. destruct (ran (h_rep h)); reflexivity.
  Qed.

  Definition tagged (h : hist) : option nat * test_case := (h_batch h, h_case h).
  Definition final (hs : list hist) (rest : list (option nat * test_case)) (st : status) (tail : list event) : Prop :=
    match st with
    | Go s => rest = [] /\ tail = []
    | Stop => exists b c r, rest = (b, c) :: r /\ tail = [Run c; Send GradingAborted] /\ aborted (length hs) = true /\
        (exists f p, grade c = GResult f p) /\ ~ (exists h, In h hs /\ blocks b h)
    | Failed => exists b c r, rest = (b, c) :: r /\ tail = [Run c] /\ grade c = GRaise /\ ~ (exists h, In h hs /\ blocks b h)
    end.

  Lemma map_tagged_const b new cs : map h_case new = cs -> Forall (fun h => h_batch h = b) new ->
    map tagged new = map (fun c => (b, c)) cs.
  Proof.
    revert cs. induction new as [|h new IH]; intros cs E F; cbn in *; subst cs; [reflexivity|]. inversion F; subst.
    cbn. unfold tagged at 1. f_equal. apply IH; auto.
  Qed.
  Lemma skipn_nil_inv {A} n (l : list A) : skipn n l = [] -> length l <= n.
  Proof using. intros H. apply (f_equal (@length _)) in H. rewrite skipn_length in H. cbn in H. lia. Qed.
  Lemma len_first {A B} (f : A -> B) new cs : map f new = firstn (length new) cs -> length new <= length cs.
  Proof using. intros H. apply (f_equal (@length _)) in H. rewrite map_length, firstn_length in H. lia. Qed.
  Lemma flat_len_app b (cs : list test_case) l n : length cs <= n ->
    skipn n (map (fun c => (b : option nat, c)) cs ++ l) = skipn (n - length cs) l.
  Proof. intros H. rewrite skipn_app, map_length, skipn_all2 by (rewrite map_length; lia). reflexivity. Qed.

  Lemma entries es : forall bn s hs, Inv None s hs -> good hs ->
    (forall h, In h hs -> match h_batch h with Some n => n <= bn | None => True end) ->
    exists new e tail, run_entries bn s es = (e, snd (run_entries bn s es)) /\
      map tagged new = firstn (length new) (flatten_cases bn es) /\ good (hs ++ new) /\
      messages e = transcript_e bn (length hs) es (map h_rep new) ++ messages tail /\
      runs e = ran_cases new ++ runs tail /\
      final (hs ++ new) (skipn (length new) (flatten_cases bn es)) (snd (run_entries bn s es)) tail.
  Proof.
    induction es as [|[c|m cs] es IH]; intros bn s hs I G Hk.
    - exists [], [], []. rewrite ?(app_nil_r hs). cbn. repeat (split; [auto; fail|]). auto.
    - cbn [run_entries flatten_cases].
      destruct (group None [c] s hs I G) as [new [tail [E [Em [Ef [Gn En]]]]]]. rewrite group_one in E, En.
      destruct (grade_one grade abort_at None s c) as [e st] eqn:E1. cbn [fst snd] in E, En. subst e.
      destruct st as [s'| |]; cbn [ending] in En.
      + destruct En as [Er [-> I']]. rewrite app_nil_r in *.
        assert (exists h, new = [h] /\ h_case h = c /\ h_batch h = None) as [h [-> [Hc Hb]]].
        { destruct new as [|h new]; [discriminate|]. destruct new; [|discriminate]. injection Em as Em. inversion Ef; subst. eauto. }
        destruct (IH bn s' (hs ++ [h]) I' Gn) as [new [e [tail [E [Et [Gn' [Emm [Err Ee]]]]]]]].
        { intros h' Hi. apply in_app_or in Hi as [Hi|[<-|[]]]; [apply Hk, Hi|]. rewrite Hb. exact Logic.I. }
        destruct (run_entries bn s' es) as [e0 st]. cbn [snd] in *. injection E as ->.
        exists (h :: new), (evs None (length hs) [h] ++ e), tail. rewrite <- app_assoc in Gn', Ee. cbn [app] in Gn', Ee.
        split; [reflexivity|]. split; [cbn; rewrite Et; unfold tagged at 1; rewrite Hb, Hc; reflexivity|]. split; [exact Gn'|].
        split.
        { rewrite messages_app, messages_evs, Emm. cbn [map transcript_e]. rewrite app_length, Nat.add_1_r, <- app_assoc. reflexivity. }
        split; [rewrite runs_app, runs_evs, Err; cbn; destruct (ran (h_rep h)); reflexivity|]. exact Ee.
      + destruct En as [c' [r [Er [-> R]]]].
        destruct new as [|h new].
        2: { exfalso. apply (f_equal (@length _)) in Er. rewrite skipn_length in Er. cbn in Er. lia. }
        cbn in Er. injection Er as <- <-. rewrite app_nil_r in *.
        exists [], [Run c; Send GradingAborted], [Run c; Send GradingAborted]. rewrite ?(app_nil_r hs). cbn.
        repeat (split; [auto; fail|]). exists None, c, (flatten_cases bn es). repeat (split; [auto; fail|]). tauto.
      + destruct En as [c' [r [Er [-> R]]]].
        destruct new as [|h new].
        2: { exfalso. apply (f_equal (@length _)) in Er. rewrite skipn_length in Er. cbn in Er. lia. }
        cbn in Er. injection Er as <- <-. rewrite app_nil_r in *.
        exists [], [Run c], [Run c]. rewrite ?(app_nil_r hs). cbn. repeat (split; [auto; fail|]).
        exists None, c, (flatten_cases bn es). repeat (split; [auto; fail|]). tauto.
    - cbn [run_entries flatten_cases]. destruct cs as [|c cs].
      { cbn [map app transcript_e]. apply IH; auto. intros h Hi. specialize (Hk h Hi). destruct (h_batch h); [lia|exact Logic.I]. }
      cbn [transcript_e]. set (L := c :: cs) in *.
      assert (Inv (Some (S bn)) s hs) as IB.
      { destruct I as [I1 I2 I3]. split; auto. rewrite I3. split; intros [h [Hi [Hw X]]]; exists h; split; auto; split; auto.
        - destruct X as [X|[X|[X _]]]; auto; contradiction.
        - destruct X as [X|[X|[_ X]]]; [auto|auto|]. specialize (Hk h Hi). rewrite X in Hk. lia. }
      destruct (group (Some (S bn)) L s hs IB G) as [new [tail [E [Em [Ef [Gn En]]]]]].
      pose proof (len_first _ _ _ Em) as Hlen.
      destruct (grade_group grade abort_at (Some (S bn)) s L) as [e st] eqn:E1. cbn [fst snd] in E, En. subst e.
      pose proof (map_tagged_const _ _ _ Em Ef) as Etag.
      assert (map tagged new = firstn (length new) (map (fun c => (Some (S bn), c)) L ++ flatten_cases (S bn) es)) as Etag'.
      { rewrite Etag, <- firstn_map, firstn_app, map_length. replace (length new - length L) with 0 by lia. cbn. rewrite app_nil_r. reflexivity. }
      destruct st as [s1| |]; cbn [ending] in En.
      + destruct En as [Er [-> I']]. rewrite app_nil_r in *. apply skipn_nil_inv in Er.
        assert (length new = length L) as El by lia. clear Er Hlen.
        set (s2 := SC_state (case_number s1) (is_short_circuiting s1 && enabled s1) (enabled s1)) in *.
        destruct (IH (S bn) s2 (hs ++ new)) as [new' [e [tail [E [Et [Gn' [Emm [Err Ee]]]]]]]].
        * destruct I' as [I1 I2 I3]. split; cbn; auto. rewrite andb_true_iff, I2, I3. split.
          -- intros [[h [Hi [Hw X]]] [Y|[h' [Hi' [Hw' X']]]]].
             ++ exists h. split; auto. split; auto.
             ++ exists h'. split; auto. split; auto.
          -- intros [h [Hi [Hw X]]]. destruct X as [X|[X|[X _]]]; [| |contradiction].
             ++ split; [exists h; split; auto; split; auto|auto].
             ++ split; [exists h; split; auto; split; auto|right; exists h; auto].
        * exact Gn.
        * intros h Hi. apply in_app_or in Hi as [Hi|Hi].
          -- specialize (Hk h Hi). destruct (h_batch h); [lia|exact Logic.I].
          -- rewrite Forall_forall in Ef. rewrite (Ef h Hi). lia.
        * destruct (run_entries (S bn) s2 es) as [e0 st]. cbn [snd] in *. injection E as ->.
          exists (new ++ new'), ([Send (BatchBegin (S bn))] ++ evs (Some (S bn)) (length hs) new ++ [Send (BatchEnd (S bn))] ++ e), tail.
          rewrite <- app_assoc in Gn', Ee. split; [reflexivity|]. split; [|split; [exact Gn'|split; [|split]]].
          -- rewrite map_app, Et, Etag', app_length, El. rewrite !firstn_app, map_length, Nat.sub_diag. cbn [firstn]. rewrite app_nil_r.
             replace (length L + length new' - length L) with (length new') by lia. f_equal.
             rewrite !firstn_all2 by (rewrite map_length; lia). reflexivity.
          -- rewrite !messages_app, messages_evs, Emm, app_length.
             assert (firstn (length L) (map h_rep (new ++ new')) = map h_rep new) as F1.
             { rewrite map_app, firstn_app, firstn_all2 by (rewrite map_length; lia). rewrite map_length, El, Nat.sub_diag. apply app_nil_r. }
             assert (skipn (length L) (map h_rep (new ++ new')) = map h_rep new') as F2.
             { rewrite map_app, skipn_app, skipn_all2 by (rewrite map_length; lia). rewrite map_length, El, Nat.sub_diag. reflexivity. }
             rewrite F1, F2. rewrite map_length, app_length, El.
             destruct (Nat.ltb_spec (length L + length new') (length L)); [lia|].
             cbn [messages flat_map app]. rewrite <- app_assoc. reflexivity.
          -- rewrite !runs_app, runs_evs, Err, ran_cases_app, <- app_assoc. cbn [runs flat_map app]. reflexivity.
          -- rewrite app_length, El, flat_len_app by lia. replace (length L + length new' - length L) with (length new') by lia. exact Ee.
      + destruct En as [c' [r [Er [-> R]]]].
        assert (length new < length L) as Hlt.
        { apply (f_equal (@length _)) in Er. rewrite skipn_length in Er. cbn [length] in Er. lia. }
        exists new, ([Send (BatchBegin (S bn))] ++ evs (Some (S bn)) (length hs) new ++ [Run c'; Send GradingAborted]), [Run c'; Send GradingAborted].
        split; [reflexivity|]. split; [exact Etag'|]. split; [exact Gn|]. split; [|split].
        * rewrite !messages_app, messages_evs. rewrite firstn_all2 by (rewrite map_length; lia). rewrite map_length.
          destruct (Nat.ltb_spec (length new) (length L)); [|lia]. cbn [messages flat_map app]. rewrite ?app_nil_r. reflexivity.
        * rewrite !runs_app, runs_evs. reflexivity.
        * cbn [snd final]. exists (Some (S bn)), c', (map (fun c => (Some (S bn), c)) r ++ flatten_cases (S bn) es).
          split; [|auto]. rewrite skipn_app, map_length. replace (length new - length L) with 0 by lia. rewrite skipn_map, Er. reflexivity.
      + destruct En as [c' [r [Er [-> R]]]].
        assert (length new < length L) as Hlt.
        { apply (f_equal (@length _)) in Er. rewrite skipn_length in Er. cbn [length] in Er. lia. }
        exists new, ([Send (BatchBegin (S bn))] ++ evs (Some (S bn)) (length hs) new ++ [Run c']), [Run c'].
        split; [reflexivity|]. split; [exact Etag'|]. split; [exact Gn|]. split; [|split].
        * rewrite !messages_app, messages_evs. rewrite firstn_all2 by (rewrite map_length; lia). rewrite map_length.
          destruct (Nat.ltb_spec (length new) (length L)); [|lia]. cbn [messages flat_map app]. rewrite ?app_nil_r. reflexivity.
        * rewrite !runs_app, runs_evs. reflexivity.
        * cbn [snd final]. exists (Some (S bn)), c', (map (fun c => (Some (S bn), c)) r ++ flatten_cases (S bn) es).
          split; [|auto]. rewrite skipn_app, map_length. replace (length new - length L) with 0 by lia. rewrite skipn_map, Er. reflexivity.
  Qed.
End W.

(** ** The flattened layout *)
Definition flat (bn k : nat) (l : layout) := flatten_cases bn (resolve_testcases bn k l).
Lemma plain_snd b qs : forall k, snd (resolve_plain b k qs) = k + length qs.
Proof.
  induction qs as [|q qs IH]; intros k; cbn; [lia|]. specialize (IH (S k)). destruct (resolve_plain b (S k) qs). cbn in *. lia.
Qed.
Lemma plain_nth b qs : forall k i c, nth_error (fst (resolve_plain b k qs)) i = Some c ->
  position c = k + i /\ nth_error qs i = Some (case_points c).
Proof.
  induction qs as [|q qs IH]; intros k i c; cbn; [destruct i; discriminate|].
  specialize (IH (S k)). destruct (resolve_plain b (S k) qs) as [cs m]. cbn in *. destruct i as [|i]; cbn.
  - intros E. injection E as <-. cbn. split; [lia|reflexivity].
  - intros E. apply IH in E as [E1 E2]. split; [lia|exact E2].
Qed.
Lemma plain_len b qs : forall k, length (fst (resolve_plain b k qs)) = length qs.
Proof.
  induction qs as [|q qs IH]; intros k; cbn; [reflexivity|]. specialize (IH (S k)). destruct (resolve_plain b (S k) qs). cbn in *. lia.
Qed.
Lemma flat_case bn k q r : flat bn k (CfgCase q :: r) = (None, TestCase k 0 q) :: flat bn (S k) r.
Proof. reflexivity. Qed.
Lemma flat_batch bn k qs r : flat bn k (CfgBatch qs :: r) =
  map (fun c => (Some (S bn), c)) (fst (resolve_plain (S bn) k qs)) ++ flat (S bn) (k + length qs) r.
Proof.
  unfold flat. cbn [resolve_testcases]. pose proof (plain_snd (S bn) qs k) as H.
  destruct (resolve_plain (S bn) k qs) as [cs m]. cbn in *. subst m. reflexivity.
Qed.
Lemma flat_nth l : forall bn k i b c, nth_error (flat bn k l) i = Some (b, c) ->
  position c = k + i /\ nth_error (all_points l) i = Some (case_points c).
Proof.
  induction l as [|[q|qs] l IH]; intros bn k i b c; [destruct i; discriminate| |].
  - rewrite flat_case. destruct i as [|i]; cbn.
    + intros E. injection E as <- <-. cbn. split; [lia|reflexivity].
    + intros E. apply IH in E as [E1 E2]. split; [lia|exact E2].
  - rewrite flat_batch. change (all_points (CfgBatch qs :: l)) with (qs ++ all_points l).
    destruct (Nat.lt_ge_cases i (length qs)) as [Hi|Hi].
    + rewrite nth_error_app1 by (rewrite map_length, plain_len; lia). rewrite nth_error_map.
      destruct (nth_error (fst (resolve_plain (S bn) k qs)) i) as [c'|] eqn:E; [|discriminate]. cbn. intros X. injection X as <- <-.
      apply plain_nth in E as [E1 E2]. split; [exact E1|]. rewrite nth_error_app1 by lia. exact E2.
    + rewrite nth_error_app2 by (rewrite map_length, plain_len; lia). rewrite map_length, plain_len.
      intros E. apply IH in E as [E1 E2]. split; [lia|]. rewrite nth_error_app2 by lia. exact E2.
Qed.
Lemma flat_len l : forall bn k, length (flat bn k l) = total l.
Proof.
  induction l as [|[q|qs] l IH]; intros bn k; [reflexivity| |].
  - rewrite flat_case. cbn. rewrite IH. reflexivity.
  - rewrite flat_batch, app_length, map_length, plain_len, IH. unfold total, all_points. cbn. rewrite app_length. reflexivity.
Qed.
Lemma same_batch_cons e l i j : same_batch (e :: l) i j <->
  (exists qs, e = CfgBatch qs /\ i < length qs /\ j < length qs) \/
  (length (points_in e) <= i /\ length (points_in e) <= j /\
   same_batch l (i - length (points_in e)) (j - length (points_in e))).
Proof.
  assert (forall b, total (e :: b) = length (points_in e) + total b) as HT.
  { intros b. unfold total, all_points. cbn. rewrite app_length. reflexivity. }
  split.
  - intros [[|e' b] [qs [a [E [H1 H2]]]]].
    + injection E as -> ->. cbn in H1, H2. left. exists qs. split; [reflexivity|]. lia.
    + injection E as <- ->. rewrite HT in H1, H2. right. split; [lia|]. split; [lia|].
      exists b, qs, a. split; [reflexivity|]. lia.
  - intros [[qs [-> H]]|[H1 [H2 [b [qs [a [-> H]]]]]]].
    + exists [], qs, l. split; [reflexivity|]. cbn. lia.
    + exists (e :: b), qs, a. split; [reflexivity|]. rewrite HT. lia.
Qed.
Lemma same_batch_flat l : forall bn k i j, same_batch l i j <->
  exists n c c', nth_error (flat bn k l) i = Some (Some n, c) /\ nth_error (flat bn k l) j = Some (Some n, c').
Proof.
  induction l as [|[q|qs] l IH]; intros bn k i j.
  - split.
    + intros [[|x b] [qs [a [E _]]]]; discriminate.
    + intros [n [c [c' [E _]]]]. destruct i; discriminate.
  - rewrite same_batch_cons, flat_case. cbn [points_in length]. split.
    + intros [[qs [E _]]|[H1 [H2 H]]]; [discriminate|]. rewrite (IH bn (S k)) in H. destruct i, j; try lia.
      cbn [nth_error]. replace (S i - 1) with i in H by lia. replace (S j - 1) with j in H by lia. exact H.
    + intros [n [c [c' [E1 E2]]]]. right. destruct i as [|i]; [discriminate|]. destruct j as [|j]; [discriminate|].
      split; [lia|]. split; [lia|]. rewrite (IH bn (S k)). replace (S i - 1) with i by lia. replace (S j - 1) with j by lia.
      exists n, c, c'. split; assumption.
  - rewrite same_batch_cons, flat_batch. cbn [points_in].
    assert (forall x, x < length qs -> exists c, nth_error (map (fun c => (Some (S bn), c)) (fst (resolve_plain (S bn) k qs)) ++ flat (S bn) (k + length qs) l) x = Some (Some (S bn), c)) as HA.
    { intros x Hx. rewrite nth_error_app1 by (rewrite map_length, plain_len; lia). rewrite nth_error_map.
      destruct (nth_error (fst (resolve_plain (S bn) k qs)) x) as [c'|] eqn:E; [cbn; eauto|].
      apply nth_error_None in E. rewrite plain_len in E. lia. }
    assert (forall x, length qs <= x -> nth_error (map (fun c => (Some (S bn), c)) (fst (resolve_plain (S bn) k qs)) ++ flat (S bn) (k + length qs) l) x
        = nth_error (flat (S bn) (k + length qs) l) (x - length qs)) as HB.
    { intros x Hx. rewrite nth_error_app2 by (rewrite map_length, plain_len; lia). rewrite map_length, plain_len. reflexivity. }
    split.
    + intros [[qs' [E [H1 H2]]]|[H1 [H2 H]]].
      * injection E as <-. destruct (HA _ H1) as [c E1], (HA _ H2) as [c' E2]. exists (S bn), c, c'. split; assumption.
      * rewrite (IH (S bn) (k + length qs)) in H. rewrite (HB _ H1), (HB _ H2). exact H.
    + intros [n [c [c' [E1 E2]]]].
      destruct (Nat.lt_ge_cases i (length qs)) as [Hi|Hi], (Nat.lt_ge_cases j (length qs)) as [Hj|Hj].
      * left. exists qs. auto.
      * exfalso. destruct (HA _ Hi) as [c1 X]. rewrite X in E1. injection E1 as <- _. rewrite HB in E2 by exact Hj.
        apply nth_error_In, flatten_keys in E2. cbn in E2. lia.
      * exfalso. destruct (HA _ Hj) as [c1 X]. rewrite X in E2. injection E2 as <- _. rewrite HB in E1 by exact Hi.
        apply nth_error_In, flatten_keys in E1. cbn in E1. lia.
      * right. split; [exact Hi|]. split; [exact Hj|]. rewrite (IH (S bn) (k + length qs)).
        rewrite (HB _ Hi) in E1. rewrite (HB _ Hj) in E2. exists n, c, c'. split; assumption.
Qed.
Lemma transcript_eq l : forall bn k m rs, transcript_e bn k (resolve_testcases bn m l) rs = transcript bn k l rs.
Proof.
  induction l as [|[q|qs] l IH]; intros bn k m rs; [reflexivity| |].
  - cbn. destruct rs; [reflexivity|]. rewrite IH. reflexivity.
  - cbn [resolve_testcases transcript]. pose proof (plain_len (S bn) qs m) as HL.
    destruct (resolve_plain (S bn) m qs) as [cs m'] eqn:E. cbn [fst] in HL.
    destruct qs as [|q qs].
    + destruct cs; [|discriminate]. cbn [transcript_e]. apply IH.
    + destruct cs as [|c cs]; [discriminate|]. cbn [transcript_e]. rewrite HL. cbn zeta. destruct (length rs <? length (q :: qs)); [reflexivity|].
      rewrite IH. reflexivity.
Qed.

(** ** The whole grading *)
Lemma nth_split_app {A} (l : list A) i x : nth_error l i = Some x -> exists pre post, l = pre ++ x :: post /\ length pre = i.
Proof. intros H. apply nth_error_split in H as [p [q [E L]]]. eauto. Qed.
Lemma ran_indices_snoc rs r : ran_indices (rs ++ [r]) = ran_indices rs ++ (if ran r then [length rs] else []).
Proof.
  unfold ran_indices. rewrite app_length. cbn [length]. rewrite Nat.add_1_r, seq_S, filter_app. cbn [filter].
  rewrite (nth_error_app2 rs [r]) by lia. cbn [Nat.add]. rewrite Nat.sub_diag. cbn [nth_error]. f_equal.
  apply filter_ext_in. intros i Hi. apply in_seq in Hi. rewrite nth_error_app1 by lia. reflexivity.
Qed.

Section Main.
  Variable grade : test_case -> grade_ret.
  Variable abort_at : option nat.
  Variable short : bool.

  Lemma abort_iff i : abort_requested abort_at i = true <-> abort_seen abort_at i.
  Proof.
    unfold abort_requested, abort_seen. destruct abort_at as [a|].
    - rewrite Nat.leb_le. split; [eauto|]. intros [a' [E H]]. injection E as ->. exact H.
    - split; [discriminate|]. intros [a [E _]]. discriminate.
  Qed.
  Lemma ran_positions hs l : map tagged hs = firstn (length hs) (flat 0 0 l) ->
    map position (ran_cases hs) = ran_indices (map h_rep hs).
  Proof.
    induction hs as [|h hs IH] using rev_ind; intros H; [reflexivity|].
    rewrite map_app, app_length in H. cbn in H.
    assert (map tagged hs = firstn (length hs) (flat 0 0 l) /\ nth_error (flat 0 0 l) (length hs) = Some (tagged h)) as [H1 H2].
    { assert (length hs < length (flat 0 0 l)) as HL.
      { apply (f_equal (@length _)) in H. rewrite app_length, map_length, firstn_length in H. cbn in H. lia. }
      destruct (nth_error (flat 0 0 l) (length hs)) as [x|] eqn:Ex; [|apply nth_error_None in Ex; lia].
      destruct (nth_split_app _ _ _ Ex) as [pre [post [E Lp]]]. rewrite E in H |- *.
      rewrite Nat.add_1_r in H. replace (S (length hs)) with (length pre + 1) in H by lia. rewrite firstn_app_2 in H. cbn in H.
      apply app_inj_tail in H as [<- <-]. rewrite <- Lp, firstn_app, Nat.sub_diag, firstn_all. cbn. rewrite app_nil_r. auto. }
    rewrite ran_cases_app, map_app, map_app. cbn [map]. rewrite ran_indices_snoc, map_length, (IH H1). f_equal.
    cbn. unfold tagged in H2. apply flat_nth in H2 as [H2 _]. destruct (ran (h_rep h)); [|reflexivity]. cbn. rewrite H2. reflexivity.
  Qed.

  Theorem graded l e st : grade_flattened grade abort_at short (flat 0 0 l) = (e, st) ->
    exists rs, length rs <= total l /\
      (forall i r, nth_error rs i = Some r ->
         (ran r = false <-> exists j, stops short l rs j i) /\
         (ran r = false -> reported_skipped r) /\
         (ran r = true -> ~ abort_seen abort_at i /\ exists c, position c = i /\
            nth_error (all_points l) i = Some (case_points c) /\ grade c = GResult (rep_flag r) (rep_points r))) /\
      match st with
      | Go _ => length rs = total l /\ messages e = transcript 0 0 l rs ++ [GradingEnd] /\
                map position (runs e) = ran_indices rs
      | Stop => length rs < total l /\ messages e = transcript 0 0 l rs ++ [GradingAborted] /\
                map position (runs e) = ran_indices rs ++ [length rs] /\
                abort_seen abort_at (length rs) /\ ~ (exists j, stops short l rs j (length rs)) /\
                exists c f p, position c = length rs /\ grade c = GResult f p
      | Failed => length rs < total l /\ messages e = transcript 0 0 l rs /\
                map position (runs e) = ran_indices rs ++ [length rs] /\
                ~ (exists j, stops short l rs j (length rs)) /\
                exists c, position c = length rs /\ grade c = GRaise
      end.
  Proof.
    intros H. unfold grade_flattened in H. unfold flat in H. rewrite groups_eq in H.
    destruct (entries grade abort_at short (resolve_testcases 0 0 l) 0 (SC_state 0 false short) []) as [hs [e' [tail [E [Et [G [Em [Er F]]]]]]]].
    - split; cbn; [reflexivity| |].
      + split; [auto|]. intros [X|[h [[] _]]]. exact X.
      + split; [discriminate|]. intros [h [[] _]].
    - intros pre h post X. destruct pre; discriminate.
    - intros h [].
    - change (flatten_cases 0 (resolve_testcases 0 0 l)) with (flat 0 0 l) in *. cbn [app length] in *.
      rewrite E in H. destruct (run_entries grade abort_at 0 (SC_state 0 false short) (resolve_testcases 0 0 l)) as [e0 st0].
      cbn [snd] in *. injection E as ->. rewrite transcript_eq in Em.
      assert (forall i h, nth_error hs i = Some h -> nth_error (flat 0 0 l) i = Some (tagged h)) as HN.
      { intros i h Hi. assert (nth_error (map tagged hs) i = Some (tagged h)) as X by (rewrite nth_error_map, Hi; reflexivity).
        rewrite Et in X. assert (i < length hs) by (apply nth_error_Some; congruence).
        clear - X H0. revert i H0 X. generalize (length hs). generalize (flat 0 0 l). intros L n. revert L.
        induction n as [|n IH]; intros L i Hi X; [lia|]. destruct L as [|x L]; [destruct i; discriminate|]. destruct i as [|i]; [exact X|].
        cbn in *. apply IH; [lia|exact X]. }
      assert (length hs <= total l) as HL.
      { rewrite <- (flat_len l 0 0). apply (len_first tagged), Et. }
      (* blocking in terms of indices *)
      assert (forall i b c, nth_error (flat 0 0 l) i = Some (b, c) -> i <= length hs ->
        ((exists h, In h (firstn i hs) /\ blocks short b h) <-> exists j, stops short l (map h_rep hs) j i)) as HS.
      { intros i b c Hi Hle. split.
        - intros [h [Hin [Hw Hb]]]. apply In_nth_error in Hin as [j Hj].
          assert (j < i) as Hji. { assert (j < length (firstn i hs)) by (apply nth_error_Some; congruence). rewrite firstn_length in H0. lia. }
          assert (nth_error hs j = Some h) as Hj'. { rewrite <- Hj. clear - Hji. revert j Hji hs. induction i as [|i IH]; intros j Hji hs; [lia|]. destruct hs, j; cbn; auto. apply IH. lia. }
          pose proof (HN _ _ Hj') as Hf. exists j. split; [exact Hji|]. split.
          + exists (h_rep h). rewrite nth_error_map, Hj'. auto.
          + destruct Hb as [Hb|[Hb|[Hb1 Hb2]]]; [auto| |].
            * right. left. destruct (flat_nth _ _ _ _ _ _ Hf) as [_ Hq]. eauto.
            * right. right. destruct b as [n|]; [|contradiction]. apply (same_batch_flat l 0 0). unfold tagged in Hf. rewrite Hb2 in Hf. eauto.
        - intros [j [Hji [[r [Hr Hw]] Hx]]]. rewrite nth_error_map in Hr. destruct (nth_error hs j) as [h|] eqn:Hj; [|discriminate].
          injection Hr as <-. pose proof (HN _ _ Hj) as Hf. exists h. split.
          + apply (nth_error_In _ j). rewrite <- Hj. clear - Hji. revert j Hji hs. induction i as [|i IH]; intros j Hji hs; [lia|]. destruct hs, j; cbn; auto. apply IH. lia.
          + split; [exact Hw|]. destruct Hx as [Hx|[[q [Hq Hz]]|Hx]]; [auto| |].
            * right. left. destruct (flat_nth _ _ _ _ _ _ Hf) as [_ Hq']. unfold zero. rewrite Hq in Hq'. injection Hq' as <-. exact Hz.
            * right. right. apply (same_batch_flat l 0 0) in Hx as [n [c1 [c2 [E1 E2]]]]. rewrite Hi in E2. injection E2 as -> ->.
              unfold tagged in Hf. rewrite Hf in E1. injection E1 as E1 _. split; [discriminate|exact E1]. }
      exists (map h_rep hs). rewrite map_length. split; [exact HL|]. split.
      + intros i r Hr. rewrite nth_error_map in Hr. destruct (nth_error hs i) as [h|] eqn:Hh; [|discriminate]. injection Hr as <-.
        destruct (nth_split_app _ _ _ Hh) as [pre [post [Ehs Lp]]].
        destruct (G _ _ _ Ehs) as [G1 [G2 G3]]. pose proof (HN _ _ Hh) as Hf.
        assert (firstn i hs = pre) as Hpre. { rewrite Ehs, <- Lp, firstn_app, Nat.sub_diag, firstn_all. cbn. apply app_nil_r. }
        assert (i <= length hs) as Hle by (rewrite Ehs, app_length; lia).
        split; [|split].
        * rewrite G1, <- Hpre. apply (HS i (h_batch h) (h_case h)); [exact Hf|exact Hle].
        * exact G3.
        * intros Hr. destruct (G2 Hr) as [X Y]. split.
          -- rewrite <- abort_iff, <- Lp. congruence.
          -- exists (h_case h). destruct (flat_nth _ _ _ _ _ _ Hf) as [P1 P2]. auto.
      + pose proof (ran_positions _ _ Et) as HR.
        destruct st0 as [s| |]; cbn [final] in F.
        * destruct F as [F1 ->]. injection H as <- <-. rewrite app_nil_r in Em, Er.
          apply skipn_nil_inv in F1. rewrite flat_len in F1.
          rewrite messages_app, Em, runs_app, Er, map_app, HR. cbn. rewrite app_nil_r. repeat split; auto; lia.
        * injection H as <- <-. destruct F as [b [c [r [F1 [-> [Ha [[f [p Hg]] Hb]]]]]]].
          assert (nth_error (flat 0 0 l) (length hs) = Some (b, c)) as Hc.
          { rewrite <- (firstn_skipn (length hs) (flat 0 0 l)), F1. rewrite nth_error_app2; rewrite firstn_length, flat_len; [|lia].
            replace (length hs - Nat.min (length hs) (total l)) with 0 by lia. reflexivity. }
          assert (length hs < total l) as HL'. { rewrite <- (flat_len l 0 0). apply nth_error_Some. congruence. }
          destruct (flat_nth _ _ _ _ _ _ Hc) as [Hp _].
          rewrite Em, Er, map_app, HR. cbn. rewrite Hp. repeat (split; [auto; fail|]). split; [apply abort_iff, Ha|]. split.
          -- rewrite <- (HS _ _ _ Hc); [rewrite firstn_all; exact Hb|lia].
          -- eauto 8.
        * injection H as <- <-. destruct F as [b [c [r [F1 [-> [Hg Hb]]]]]].
          assert (nth_error (flat 0 0 l) (length hs) = Some (b, c)) as Hc.
          { rewrite <- (firstn_skipn (length hs) (flat 0 0 l)), F1. rewrite nth_error_app2; rewrite firstn_length, flat_len; [|lia].
            replace (length hs - Nat.min (length hs) (total l)) with 0 by lia. reflexivity. }
          assert (length hs < total l) as HL'. { rewrite <- (flat_len l 0 0). apply nth_error_Some. congruence. }
          destruct (flat_nth _ _ _ _ _ _ Hc) as [Hp _].
          rewrite Em, Er, map_app, HR. cbn. rewrite Hp, app_nil_r. repeat (split; [auto; fail|]). split.
          -- rewrite <- (HS _ _ _ Hc); [rewrite firstn_all; exact Hb|lia].
          -- eauto.
  Qed.
End Main.

(** ** Reading transcripts *)
Lemma runs_positions es : map position (runs es) = run_positions es.
Proof. induction es as [|[c|m] es IH]; cbn; [reflexivity| |exact IH]. f_equal. exact IH. Qed.
Lemma numbers_numbered b rs : forall k, case_numbers (numbered b k rs) = seq (S k) (length rs).
Proof. induction rs as [|r rs IH]; intros k; cbn; [reflexivity|]. f_equal. apply IH. Qed.
Lemma batches_numbered b rs : forall k, case_batches (numbered b k rs) = repeat b (length rs).
Proof. induction rs as [|r rs IH]; intros k; cbn; [reflexivity|]. f_equal. apply IH. Qed.
Lemma begins_numbered b rs : forall k, batch_begins (numbered b k rs) = [].
Proof. induction rs as [|r rs IH]; intros k; cbn; [reflexivity|]. apply IH. Qed.
Lemma numbers_app a b : case_numbers (a ++ b) = case_numbers a ++ case_numbers b.
Proof. apply flat_map_app. Qed.
Lemma batches_app a b : case_batches (a ++ b) = case_batches a ++ case_batches b.
Proof. apply flat_map_app. Qed.
Lemma begins_app a b : batch_begins (a ++ b) = batch_begins a ++ batch_begins b.
Proof. apply flat_map_app. Qed.
Lemma map_same {A B} (b : B) (l : list A) : map (fun _ => b) l = repeat b (length l).
Proof. induction l; cbn; congruence. Qed.
Lemma numbers_batch x y a t : case_numbers (BatchBegin x :: a ++ BatchEnd y :: t) = case_numbers a ++ case_numbers t.
Proof. exact (numbers_app a (BatchEnd y :: t)). Qed.
Lemma batches_batch x y a t : case_batches (BatchBegin x :: a ++ BatchEnd y :: t) = case_batches a ++ case_batches t.
Proof. exact (batches_app a (BatchEnd y :: t)). Qed.
Lemma begins_batch x y a t : batch_begins (BatchBegin x :: a ++ BatchEnd y :: t) = x :: batch_begins a ++ batch_begins t.
Proof. exact (f_equal (cons x) (begins_app a (BatchEnd y :: t))). Qed.
Lemma nested_numbered b rs rest : forall k, well_nested b (numbered b k rs ++ rest) <-> well_nested b rest.
Proof. induction rs as [|r rs IH]; intros k; cbn; [tauto|]. rewrite IH. tauto. Qed.
Lemma total_case q l : total (CfgCase q :: l) = S (total l). Proof. reflexivity. Qed.
Lemma total_batch qs l : total (CfgBatch qs :: l) = length qs + total l.
Proof. unfold total, all_points. cbn. apply app_length. Qed.

Lemma transcript_case_messages l : forall b k rs, Forall case_message (transcript b k l rs).
Proof.
  assert (forall b rs k, Forall case_message (numbered b k rs)) as HN.
  { induction rs as [|r rs IH]; intros k; cbn; constructor; cbn; auto. }
  induction l as [|[q|[|q qs]] l IH]; intros b k rs; cbn [transcript]; [constructor| |apply IH|].
  - destruct rs; [constructor|]. apply Forall_app. split; [apply HN|apply IH].
  - constructor; [exact I|]. apply Forall_app. split; [apply HN|]. destruct (_ <? _); [constructor|]. constructor; [exact I|apply IH].
Qed.
Lemma transcript_full l : forall b k rs, length rs = total l ->
  case_numbers (transcript b k l rs) = seq (S k) (total l) /\ well_nested None (transcript b k l rs) /\
  (no_empty_batch l -> batch_begins (transcript b k l rs) = seq (S b) (batches l)) /\
  case_batches (transcript b k l rs) = map fst (flat b k l).
Proof.
  induction l as [|[q|qs] l IH]; intros b k rs HL.
  - cbn. auto.
  - rewrite total_case in *. destruct rs as [|r rs]; [discriminate|]. injection HL as HL. cbn [transcript]. rewrite flat_case.
    destruct (IH b (S k) rs HL) as [H1 [H2 [H3 H4]]].
    rewrite numbers_app, batches_app, begins_app, H1, H4. split; [reflexivity|]. split; [rewrite nested_numbered; exact H2|]. split; [|reflexivity].
    intros HE. cbn. apply H3. intros X. apply HE. right. exact X.
  - rewrite total_batch in *. rewrite flat_batch. destruct qs as [|q qs].
    + cbn [transcript]. destruct (IH (S b) k rs HL) as [H1 [H2 [H3 H4]]]. cbn in H4 |- *. rewrite Nat.add_0_r. repeat (split; [assumption|]). split; [|exact H4].
      intros HE. exfalso. apply HE. left. reflexivity.
    + cbn [transcript]. remember (length (q :: qs)) as n eqn:Hn.
      assert (length rs <? n = false) as -> by (apply Nat.ltb_ge; lia).
      destruct (IH (S b) (k + n) (skipn n rs)) as [H1 [H2 [H3 H4]]]; [rewrite skipn_length; lia|].
      assert (length (firstn n rs) = n) as HF by (rewrite firstn_length; lia).
      split; [|split; [|split]].
      * rewrite numbers_batch, numbers_numbered, HF, H1, seq_app. reflexivity.
      * cbn. split; [reflexivity|]. rewrite nested_numbered. cbn. auto.
      * intros HE. rewrite begins_batch, begins_numbered. cbn [app]. change (batches (CfgBatch (q :: qs) :: l)) with (S (batches l)). cbn [seq]. f_equal. apply H3. intros X. apply HE. right. exact X.
      * rewrite batches_batch, batches_numbered, HF, H4, map_app, map_map. cbn [fst]. f_equal.
        rewrite map_same, plain_len, Hn. reflexivity.
Qed.

Section Final.
  Variable grade : test_case -> grade_ret.
  Variable abort_at : option nat.
  Variable short : bool.

  Lemma cases_unfold w p l e st : grade_cases grade abort_at short (Compiled w p (Some l)) = (e, st) ->
    exists e', grade_flattened grade abort_at short (flat 0 0 l) = (e', st) /\
      messages e = preamble w p ++ messages e' /\ run_positions e = run_positions e'.
  Proof.
    unfold grade_cases. change (flatten_cases 0 (resolve_testcases 0 0 l)) with (flat 0 0 l).
    destruct (grade_flattened grade abort_at short (flat 0 0 l)) as [e' s']. intros E. injection E as <- <-. exists e'.
    split; [reflexivity|]. destruct w; split; reflexivity.
  Qed.

  Theorem complete w p l e s : grade_cases grade abort_at short (Compiled w p (Some l)) = (e, Go s) ->
    exists rs, length rs = total l /\
      messages e = preamble w p ++ transcript 0 0 l rs ++ [GradingEnd] /\
      run_positions e = ran_indices rs /\
      forall i r, nth_error rs i = Some r -> ran r = true -> exists c, position c = i /\
        nth_error (all_points l) i = Some (case_points c) /\ grade c = GResult (rep_flag r) (rep_points r).
  Proof.
    intros E. apply cases_unfold in E as [e' [E [Em Er]]]. destruct (graded _ _ _ _ _ _ E) as [rs [H1 [H2 [H3 [H4 H5]]]]].
    exists rs. split; [exact H3|]. split; [rewrite Em, H4; reflexivity|]. split; [rewrite Er, <- runs_positions; exact H5|].
    intros i r Hi Hr. apply H2 in Hi as [_ [_ X]]. apply X in Hr as [_ Y]. exact Y.
  Qed.
  Theorem numbering w p l e s : grade_cases grade abort_at short (Compiled w p (Some l)) = (e, Go s) ->
    case_numbers (messages e) = seq 1 (total l) /\ well_nested None (messages e) /\
    (no_empty_batch l -> batch_begins (messages e) = seq 1 (batches l)) /\
    (forall i j n, (nth_error (case_batches (messages e)) i = Some (Some n) /\ nth_error (case_batches (messages e)) j = Some (Some n)) -> same_batch l i j) /\
    (forall i j, same_batch l i j -> exists n, nth_error (case_batches (messages e)) i = Some (Some n) /\ nth_error (case_batches (messages e)) j = Some (Some n)).
  Proof.
    intros E. apply complete in E as [rs [H1 [H2 _]]]. destruct (transcript_full l 0 0 rs H1) as [N1 [N2 [N3 N4]]].
    rewrite H2. rewrite !numbers_app, !batches_app, !begins_app, N1, N4.
    assert (case_numbers (preamble w p) = [] /\ case_batches (preamble w p) = [] /\ batch_begins (preamble w p) = []) as [-> [-> ->]] by (destruct w; auto).
    cbn [app case_numbers case_batches batch_begins flat_map]. rewrite !app_nil_r.
    assert (forall ms o, well_nested o ms -> well_nested o (ms ++ [GradingEnd])) as HW.
    { induction ms as [|m ms IH]; intros o; cbn; [auto|].
      destruct m; try (apply IH); intros [X Y]; split; auto. }
    split; [reflexivity|]. split; [destruct w; cbn; apply HW, N2|]. split; [intros HE; apply N3, HE|].
    split.
    - intros i j n [X Y]. rewrite nth_error_map in X, Y.
      destruct (nth_error (flat 0 0 l) i) as [[b c]|] eqn:E1; [|discriminate]. destruct (nth_error (flat 0 0 l) j) as [[b' c']|] eqn:E2; [|discriminate].
      cbn in X, Y. injection X as ->. injection Y as ->. apply (same_batch_flat l 0 0). eauto.
    - intros i j X. apply (same_batch_flat l 0 0) in X as [n [c [c' [X Y]]]]. exists n. rewrite !nth_error_map, X, Y. auto.
  Qed.
  Theorem reaches_end w p l : abort_at = None -> (forall c, grade c <> GRaise) ->
    exists e s, grade_cases grade abort_at short (Compiled w p (Some l)) = (e, Go s).
  Proof.
    intros Ha Hg. destruct (grade_cases grade abort_at short (Compiled w p (Some l))) as [e st] eqn:E.
    apply cases_unfold in E as [e' [E _]]. destruct (graded _ _ _ _ _ _ E) as [rs [_ [_ H]]].
    destruct st as [s| |]; [eauto| |]; exfalso.
    - destruct H as [_ [_ [_ [[a [X _]] _]]]]. congruence.
    - destruct H as [_ [_ [_ [_ [c [_ X]]]]]]. exact (Hg _ X).
  Qed.
  Theorem skipping w p l e st : grade_cases grade abort_at short (Compiled w p (Some l)) = (e, st) ->
    exists rs, length rs <= total l /\ (exists tail, messages e = preamble w p ++ transcript 0 0 l rs ++ tail /\ Forall terminal tail) /\
      (forall i r, nth_error rs i = Some r ->
        (ran r = false <-> exists j, stops short l rs j i) /\ (ran r = false -> reported_skipped r) /\
        (ran r = true <-> In i (run_positions e))).
  Proof.
    intros E. apply cases_unfold in E as [e' [E [Em Er]]]. destruct (graded _ _ _ _ _ _ E) as [rs [H1 [H2 H]]].
    exists rs. split; [exact H1|].
    assert (forall i r, nth_error rs i = Some r -> (In i (ran_indices rs) <-> ran r = true)) as HI.
    { intros i r Hi. unfold ran_indices. rewrite filter_In, in_seq, Hi. assert (i < length rs) by (apply nth_error_Some; congruence). split; [tauto|]. intros X. split; [lia|exact X]. }
    assert (forall i r, nth_error rs i = Some r -> (ran r = true <-> In i (run_positions e))) as HR.
    { intros i r Hi. rewrite Er, <- runs_positions. assert (i < length rs) by (apply nth_error_Some; congruence). rewrite <- (HI _ _ Hi). destruct st; destruct H as [_ [_ H]].
      - rewrite H. tauto.
      - destruct H as [H _]. rewrite H, in_app_iff. cbn. split; [auto|]. intros [X|[X|[]]]; [exact X|lia].
      - destruct H as [H _]. rewrite H, in_app_iff. cbn. split; [auto|]. intros [X|[X|[]]]; [exact X|lia]. }
    split.
    - destruct st; destruct H as [_ [H _]]; rewrite Em, H; [exists [GradingEnd]|exists [GradingAborted]|exists []]; rewrite ?app_nil_r; split; auto; repeat constructor.
    - intros i r Hi. destruct (H2 _ _ Hi) as [X [Y _]]. split; [exact X|]. split; [exact Y|exact (HR _ _ Hi)].
  Qed.
  Theorem abort_stops w p l e st : grade_cases grade abort_at short (Compiled w p (Some l)) = (e, st) ->
    forall before i after, run_positions e = before ++ i :: after -> abort_seen abort_at i ->
    after = [] /\ ~ In GradingEnd (messages e) /\
    ((exists c, position c = i /\ grade c = GRaise) \/ exists ms, messages e = ms ++ [GradingAborted]).
  Proof.
    intros E. apply cases_unfold in E as [e' [E [Em Er]]]. destruct (graded _ _ _ _ _ _ E) as [rs [H1 [H2 H]]].
    intros before i after Hr Ha. rewrite Er, <- runs_positions in Hr.
    assert (~ In i (ran_indices rs)) as HN.
    { unfold ran_indices. rewrite filter_In. intros [_ X]. destruct (nth_error rs i) as [r|] eqn:Hi; [|discriminate].
      destruct (H2 _ _ Hi) as [_ [_ Y]]. apply Y in X as [X _]. contradiction. }
    assert (forall rest, ran_indices rs ++ [length rs] = before ++ i :: rest -> rest = [] /\ i = length rs) as HX.
    { intros rest X. destruct rest as [|y rest] using rev_ind.
      - apply app_inj_tail in X as [_ X]. auto.
      - clear IHrest. exfalso. apply HN. change (before ++ i :: rest ++ [y]) with (before ++ (i :: rest) ++ [y]) in X. rewrite app_assoc in X. apply app_inj_tail in X as [X _]. rewrite X. apply in_or_app. right. left. reflexivity. }
    assert (forall m, In m (transcript 0 0 l rs) -> m <> GradingEnd) as HT.
    { intros m Hm ->. pose proof (transcript_case_messages l 0 0 rs) as F. rewrite Forall_forall in F. exact (F _ Hm). }
    assert (~ In GradingEnd (preamble w p)) as HP by (destruct w; cbn; intuition discriminate).
    destruct st as [s| |].
    - exfalso. destruct H as [_ [_ H]]. apply HN. rewrite <- H, Hr. apply in_or_app. right. left. reflexivity.
    - destruct H as [_ [Hm [H _]]]. rewrite H in Hr. destruct (HX _ Hr) as [-> ->]. split; [reflexivity|]. rewrite Em, Hm. split.
      + rewrite !in_app_iff. intros [X|[X|[X|[]]]]; [contradiction|exact (HT _ X eq_refl)|discriminate].
      + right. exists (preamble w p ++ transcript 0 0 l rs). apply app_assoc.
    - destruct H as [_ [Hm [H [_ [c [X Y]]]]]]. rewrite H in Hr. destruct (HX _ Hr) as [-> ->]. split; [reflexivity|]. rewrite Em, Hm. split.
      + rewrite !in_app_iff. intros [Z|Z]; [contradiction|exact (HT _ Z eq_refl)].
      + left. eauto.
  Qed.
  Theorem aborted_only_if w p l e st : grade_cases grade abort_at short (Compiled w p (Some l)) = (e, st) ->
    In GradingAborted (messages e) -> exists a, abort_at = Some a /\ a < total l.
  Proof.
    intros E. apply cases_unfold in E as [e' [E [Em Er]]]. destruct (graded _ _ _ _ _ _ E) as [rs [H1 [H2 H]]].
    assert (forall m, In m (transcript 0 0 l rs) -> m <> GradingAborted) as HT.
    { intros m Hm ->. pose proof (transcript_case_messages l 0 0 rs) as F. rewrite Forall_forall in F. exact (F _ Hm). }
    assert (~ In GradingAborted (preamble w p)) as HP by (destruct w; cbn; intuition discriminate).
    rewrite Em, in_app_iff. intros [X|X]; [contradiction|]. destruct st as [s| |].
    - destruct H as [_ [Hm _]]. rewrite Hm, in_app_iff in X. destruct X as [X|[X|[]]]; [exfalso; exact (HT _ X eq_refl)|discriminate].
    - destruct H as [HL [_ [_ [[a [Ha Hle]] _]]]]. exists a. split; [exact Ha|lia].
    - destruct H as [_ [Hm _]]. rewrite Hm in X. exfalso; exact (HT _ X eq_refl).
  Qed.

  (** *** The stream of a worker *)
  Definition shape (body : list msg) (t : msg) : Prop :=
    (body = [] /\ (t = CompileErr \/ t = UnhandledException)) \/
    exists w p cs, body = preamble w p ++ cs /\ Forall case_message cs /\
      (t = GradingEnd \/ t = GradingAborted \/ t = UnhandledException).
  Lemma gen_shape set e st : grade_cases grade abort_at short set = (e, st) ->
    exists body t, shape body t /\
      match st with Failed => messages e = body /\ t = UnhandledException | _ => messages e = body ++ [t] /\ t <> UnhandledException end.
  Proof.
    destruct set as [| |w p [l|]].
    - intros E. injection E as <- <-. exists [], UnhandledException. split; [left; auto|]. split; reflexivity.
    - intros E. injection E as <- <-. exists [], CompileErr. split; [left; auto|]. split; [reflexivity|discriminate].
    - intros E. apply cases_unfold in E as [e' [E [Em Er]]]. destruct (graded _ _ _ _ _ _ E) as [rs [H1 [H2 H]]].
      pose proof (transcript_case_messages l 0 0 rs) as F.
      destruct st; destruct H as [_ [H _]]; exists (preamble w p ++ transcript 0 0 l rs); [exists GradingEnd|exists GradingAborted|exists UnhandledException];
      (split; [right; exists w, p, (transcript 0 0 l rs); auto|]); rewrite Em, H, ?app_assoc; split; auto; discriminate.
    - intros E. injection E as <- <-. exists (preamble w p), UnhandledException. split; [|split; [destruct w; reflexivity|reflexivity]].
      right. exists w, p, []. rewrite app_nil_r. auto.
  Qed.
  Lemma send_prefix send tail ms : forall i,
    (send_all send i ms tail = ms ++ tail /\ (forall j, i <= j < i + length ms -> send j = Sent)) \/
    exists a b, ms = a ++ b /\ b <> [] /\
      ((send_all send i ms tail = a /\ send (i + length a) = PipeBroken) \/
       (send_all send i ms tail = a ++ [UnhandledException; Bye] /\ send (i + length a) = PickleError)).
  Proof.
    induction ms as [|m ms IH]; intros i; [left; split; [reflexivity|cbn; intros; lia]|].
    cbn [send_all]. destruct (send i) eqn:Es.
    - destruct (IH (S i)) as [[-> H]|[a [b [-> [Hb H]]]]].
      + left. split; [reflexivity|]. intros j Hj. destruct (Nat.eq_dec j i) as [->|Hn]; [exact Es|]. apply H. cbn in Hj. lia.
      + right. exists (m :: a), b. split; [reflexivity|]. split; [exact Hb|]. cbn. replace (i + S (length a)) with (S i + length a) by lia.
        destruct H as [[-> H]|[-> H]]; [left|right]; auto.
    - right. exists [], (m :: ms). split; [reflexivity|]. split; [discriminate|]. left. cbn. rewrite Nat.add_0_r. auto.
    - right. exists [], (m :: ms). split; [reflexivity|]. split; [discriminate|]. right. cbn. rewrite Nat.add_0_r. auto.
  Qed.
  Lemma shape_progress body t a b : shape body t -> body = a ++ b -> in_progress a.
  Proof.
    intros [[-> _]|[w [p [cs [-> [F _]]]]]] E.
    - destruct a; [|discriminate]. exists (preamble false true), false, true, []. split; [reflexivity|constructor].
    - exists b, w, p, cs. auto.
  Qed.
  Theorem stream set send :
    let ms := worker_stream send (grade_cases grade abort_at short set) in
    finished_stream ms \/ exists body i, ms = Hello :: body /\ in_progress body /\ send i = PipeBroken.
  Proof.
    cbv zeta. unfold worker_stream. destruct (grade_cases grade abort_at short set) as [e st] eqn:E.
    destruct (gen_shape _ _ _ E) as [body [t [Hs Hm]]]. clear E.
    assert (terminal t) as Ht. { destruct Hs as [[_ [->| ->]]|[? [? [? [_ [_ [->|[->| ->]]]]]]]]; exact I. }
    assert (in_progress body) as Hb by (apply (shape_progress _ _ body [] Hs); rewrite app_nil_r; reflexivity).
    assert (finished_stream (Hello :: body ++ [t; Bye])) as Hfull.
    { exists body, t. split; [reflexivity|]. split; [exact Ht|]. split; [exact Hb|]. destruct Hs as [[-> Hx]|[w [p [cs [-> [_ Hx]]]]]].
      - split; [auto|]. destruct Hx as [->| ->]; intros [X|X]; discriminate.
      - split; [destruct Hx as [->|[->| ->]]; discriminate|]. intros _. eauto. }
    assert (forall a b, body = a ++ b -> finished_stream (Hello :: a ++ [UnhandledException; Bye])) as Hun.
    { intros a b X. exists a, UnhandledException. split; [reflexivity|]. split; [exact I|]. split; [exact (shape_progress _ _ _ _ Hs X)|].
      split; [discriminate|]. intros [Y|Y]; discriminate. }
    set (tail := match st with Failed => [UnhandledException; Bye] | _ => [Bye] end).
    destruct (send_prefix send tail (messages e) 0) as [[-> _]|[a [b [Eab [Hne HX]]]]].
    - left. destruct st; destruct Hm as [-> Hm]; subst tail; cbn beta iota; rewrite <- ?app_assoc; try exact Hfull. subst t. exact Hfull.
    - assert (exists b', body = a ++ b') as [b' Hb'].
      { destruct st.
        1,2: destruct Hm as [Hm _]; rewrite Hm in Eab; destruct b as [|x b] using rev_ind; [contradiction|]; clear IHb; rewrite app_assoc in Eab; apply app_inj_tail in Eab as [Eab _]; exists b; exact Eab.
        destruct Hm as [Hm _]. rewrite Hm in Eab. eauto. }
      destruct HX as [[-> HX]|[-> HX]].
      + right. exists a, (0 + length a). split; [reflexivity|]. split; [exact (shape_progress _ _ _ _ Hs Hb')|exact HX].
      + left. exact (Hun _ _ Hb').
  Qed.
End Final.
