(** Proofs about the judge's connection. *)
From Coq Require Import String QArith Lia.
From Verif Require Import Model.Bytes Model.Packets Model.Connect Spec.Connect.
From Verif Require Import Proofs.BytesLemmas.
From Verif Require Proofs.Packets.
Local Open Scope list_scope.
Local Open Scope nat_scope.

Section Connect.
  Variable c : settings.
  Notation step := (Connect.step c).
  Notation run := (Connect.run c).

  Lemma wrap_good ctx x t : context c = Some ctx -> wrap ctx x = Some t -> good_enough c (Some t).
  Proof.
    unfold context, wrap. intros H W Hs. rewrite Hs in H. destruct t as [trusted named]. exists trusted, named. split; [reflexivity|].
    intros Hn. rewrite Hn in H. cbn in H. injection H as <-. destruct x as [|a b]; [discriminate|]. cbn in W.
    destruct a, b; cbn in W; try discriminate. injection W as <- <-. split; reflexivity.
  Qed.
  Lemma plain_good : context c = None -> good_enough c None.
  Proof. unfold context, good_enough. intros H Hs. rewrite Hs in H. discriminate. Qed.

  Definition good_at (s : state) (i : nat) : Prop := exists x, nth_error (made s) i = Some x /\ good_enough c x.
  Definition Inv (s : state) : Prop :=
    (forall i p, In (i, p) (written s) -> good_at s i)
    /\ (forall j, files s = Some j -> good_at s j)
    /\ (forall j, conn s = Some j -> j < length (made s))
    /\ match at_ s with
       | Securing | Opening => exists l x, made s = l ++ [x] /\ conn s = Some (length l) /\ conn_closed s = false
           /\ (forall j, files s = Some j -> j < length l)
           /\ (forall i p, In (i, p) (written s) -> i < length l) /\ (at_ s = Opening -> good_enough c x)
       | Greeting => exists l x, made s = l ++ [x] /\ conn s = Some (length l) /\ files s = Some (length l)
       | Waiting | Online => exists l x, made s = l ++ [x] /\ conn s = Some (length l) /\ files s = Some (length l) /\ In (length l, Handshake) (written s)
       | _ => True
       end.
  Lemma inv_goto s p : Inv s -> match p with Securing | Opening | Greeting | Waiting | Online => False | _ => True end -> Inv (goto s p).
  Proof. intros (W&F&C&P) H. split; [exact W|]. split; [exact F|]. split; [exact C|]. cbn. destruct p; auto; contradiction. Qed.
  Lemma nth_last {A} (l : list A) x : nth_error (l ++ [x]) (length l) = Some x.
  Proof. rewrite nth_error_app2, Nat.sub_diag by lia. reflexivity. Qed.
  Lemma good_more s i x : good_at s i -> exists y, nth_error (made s ++ [x]) i = Some y /\ good_enough c y.
  Proof.
    intros (y&Hy&G). exists y. split; [|exact G]. rewrite nth_error_app1; [exact Hy|]. apply nth_error_Some. congruence.
  Qed.
  Lemma inv_write s ok p next : Inv s -> live (at_ s) = true ->
    (next = at_ s /\ p = Other \/ at_ s = Greeting /\ next = Waiting /\ p = Handshake) -> Inv (write s ok p next).
  Proof.
    intros I L H. unfold write. destruct (files s) as [i|] eqn:E; [|apply inv_goto; [exact I|exact Logic.I]].
    destruct ok; [|apply inv_goto; [exact I|exact Logic.I]]. destruct I as (W&F&C&P).
    split; [|split; [|split]]; cbn [written made files conn].
    - intros j q Hj. apply in_app_iff in Hj as [Hj|[Hj|[]]]; [exact (W j q Hj)|]. injection Hj as <- <-. exact (F i E).
    - intros j Hj. apply F. rewrite E. exact Hj.
    - exact C.
    - cbn [at_]. destruct H as [[-> ->]|(Hg&->&->)].
      + destruct (at_ s); auto.
        * destruct P as (l&x&M&Cn&Cl&Fl&Wl&G). exists l, x. split; [exact M|]. split; [exact Cn|]. split; [exact Cl|]. split; [rewrite <- E; exact Fl|]. split; [|exact G].
          intros j q Hj. apply in_app_iff in Hj as [Hj|[Hj|[]]]; [exact (Wl j q Hj)|]. injection Hj as <- <-. apply Fl. exact E.
        * destruct P as (l&x&M&Cn&Cl&Fl&Wl&G). exists l, x. split; [exact M|]. split; [exact Cn|]. split; [exact Cl|]. split; [rewrite <- E; exact Fl|]. split; [|exact G].
          intros j q Hj. apply in_app_iff in Hj as [Hj|[Hj|[]]]; [exact (Wl j q Hj)|]. injection Hj as <- <-. apply Fl. exact E.
        * destruct P as (l&x&M&Cn&Fl). exists l, x. rewrite <- E. auto.
        * destruct P as (l&x&M&Cn&Fl&G). exists l, x. rewrite <- E. repeat split; auto. apply in_or_app. left. exact G.
        * destruct P as (l&x&M&Cn&Fl&G). exists l, x. rewrite <- E. repeat split; auto. apply in_or_app. left. exact G.
      + rewrite Hg in P. destruct P as (l&x&M&Cn&Fl). exists l, x. rewrite <- E. repeat split; auto. apply in_or_app. right. left. congruence.
  Qed.
  Lemma inv_step s m : Inv s -> Inv (step s m).
  Proof.
    intros I. pose proof I as (W&F&C&P). destruct m as [r|x| |ok|r| | | | | |ok]; cbn [Connect.step].
    - destruct r; destruct (at_ s) eqn:A; try exact I; try (apply inv_goto; [exact I|exact Logic.I]).
      split; [|split; [|split]]; cbn [written made files conn at_].
      + intros i p Hi. apply good_more. exact (W i p Hi).
      + intros j Hj. apply good_more. exact (F j Hj).
      + intros j Hj. injection Hj as <-. rewrite app_length. cbn. lia.
      + assert (forall q, q = Securing \/ q = Opening -> (q = Opening -> good_enough c None) -> exists l x, made s ++ [None] = l ++ [x] /\ Some (length (made s)) = Some (length l) /\ false = false /\ (forall j, files s = Some j -> j < length l)
           /\ (forall i p, In (i, p) (written s) -> i < length l) /\ (q = Opening -> good_enough c x)) as K.
        { intros q Hq Hg. exists (made s), None. repeat split; auto.
          - intros j Hj. destruct (F j Hj) as (y&Hy&_). apply nth_error_Some. congruence.
          - intros i p Hi. destruct (W i p Hi) as (y&Hy&_). apply nth_error_Some. congruence. }
        destruct (context c) eqn:E; [apply (K Securing); [left; reflexivity|discriminate]|apply (K Opening); [right; reflexivity|intros _; apply plain_good; exact E]].
    - destruct (at_ s) eqn:A; try exact I. destruct (context c) as [ctx|] eqn:E; [|exact I].
      destruct P as (l&y&M&Cn&Cl&Fl&Wl&_). assert (upgrade (made s) = fun z => l ++ [z]) as Hu.
      { unfold upgrade. rewrite M, app_length. cbn [length]. replace (length l + 1 - 1) with (length l) by lia. rewrite firstn_app, Nat.sub_diag, firstn_all. cbn. rewrite app_nil_r. reflexivity. }
      assert (forall i z, i < length l -> good_at s i -> exists q, nth_error (l ++ [z]) i = Some q /\ good_enough c q) as Hg.
      { intros i z Hi (q&Hq&G). exists q. split; [|exact G]. rewrite M in Hq. rewrite nth_error_app1 in Hq |- * by exact Hi. exact Hq. }
      destruct (wrap ctx x) as [t|] eqn:T.
      + rewrite Hu. split; [|split; [|split]]; cbn [written made files conn at_].
        * intros i p Hi. apply Hg; [exact (Wl i p Hi)|exact (W i p Hi)].
        * intros j Hj. apply Hg; [exact (Fl j Hj)|exact (F j Hj)].
        * intros j Hj. apply C in Hj. rewrite M in Hj. rewrite app_length in *. exact Hj.
        * exists l, (Some t). repeat split; auto. intros _. exact (wrap_good ctx x t E T).
      + split; [exact W|]. split; [exact F|]. split; [exact C|]. exact Logic.I.
    - destruct (at_ s) eqn:A; try exact I. destruct P as (l&y&M&Cn&Cl&Fl&Wl&G). split; [exact W|]. split; [|split].
      + cbn. intros j Hj. rewrite Cn in Hj. injection Hj as <-. exists y. split; [rewrite M; apply nth_last|apply G; reflexivity].
      + exact C.
      + cbn. exists l, y. auto.
    - destruct (at_ s) eqn:A; try exact I. apply inv_write; [exact I|rewrite A; reflexivity|right; auto].
    - destruct r as [|n|]; destruct (at_ s) eqn:A; try exact I; try (apply inv_goto; [exact I|exact Logic.I]).
      destruct (beqb n _); [|apply inv_goto; [exact I|exact Logic.I]]. split; [exact W|]. split; [exact F|]. split; [exact C|]. exact P.
    - destruct (at_ s) eqn:A; try exact I. cbv zeta. destruct (gave_up (conn_step (back s) Drop)); (split; [exact W|]; split; [exact F|]; split; [exact C|]; exact Logic.I).
    - destruct (at_ s) eqn:A; try exact I. apply inv_goto; [exact I|exact Logic.I].
    - destruct (at_ s) eqn:A; try exact I. apply inv_goto; [exact I|exact Logic.I].
    - destruct (at_ s) eqn:A; try exact I. apply inv_goto; [exact I|exact Logic.I].
    - assert (Inv (State (at_ s) (made s) (conn s) (conn_closed s) (files s) (conn_step (back s) Graded) (written s))) as K by (split; [exact W|]; split; [exact F|]; split; [exact C|exact P]).
      destruct (at_ s); cbn [live]; try exact K. exact I.
    - assert (live (at_ s) = true -> Inv (write s ok Other (at_ s))) as K by (intros L; apply inv_write; [exact I|exact L|left; auto]).
      destruct (at_ s); cbn [live]; try (apply K; reflexivity). exact I.
  Qed.
  Lemma inv_start : Inv start.
  Proof. split; [intros i p []|]. split; [intros j H; discriminate|]. split; [intros j H; discriminate|exact Logic.I]. Qed.
  Lemma inv_run ms : Inv (run start ms).
  Proof.
    induction ms as [|m ms IH] using rev_ind; [exact inv_start|]. unfold Connect.run in *. rewrite fold_left_app. cbn [fold_left]. apply inv_step. exact IH.
  Qed.

  Lemma all_written ms i p : In (i, p) (written (run start ms)) -> exists x, nth_error (made (run start ms)) i = Some x /\ good_enough c x.
  Proof. exact (proj1 (inv_run ms) i p). Qed.

  (** ** Online *)
  Lemma run_snoc ms m : run start (ms ++ [m]) = step (run start ms) m.
  Proof. unfold Connect.run. rewrite fold_left_app. reflexivity. Qed.
  Lemma stays_online s m : at_ s = Online -> at_ (step s m) = Online -> files (step s m) = files s.
  Proof.
    intros A B. destruct m as [[]| | | |[| |]| | | | | |ok]; cbn [Connect.step] in *; rewrite A in *; cbn [live] in *; try reflexivity.
    unfold write in *. destruct (files s) eqn:E; [|cbn; exact E]. destruct ok; [reflexivity|]. cbn. exact E.
  Qed.
  Lemma becomes_online s m : at_ s <> Online -> at_ (step s m) = Online ->
    m = Answer (Named (B "handshake-success")) /\ at_ s = Waiting /\ files (step s m) = files s.
  Proof.
    intros Hn A. assert (forall ok p q, q <> Online -> at_ (write s ok p q) <> Online) as Hw
      by (intros ok p q Hq; unfold write; destruct (files s); [destruct ok|]; cbn; congruence).
    destruct m as [[]| | | |[|n|]| | | | | |ok]; cbn [Connect.step] in *; destruct (at_ s) eqn:E; cbn [live] in *;
      try congruence; try (exfalso; revert A; apply Hw; discriminate); try (cbn in A; discriminate).
    - exfalso. cbn in A. destruct (context c); discriminate.
    - exfalso. destruct (context c) as [ctx|]; [|congruence]. destruct (wrap ctx x); discriminate.
    - destruct (beqb n (B "handshake-success")) eqn:Hb; [|discriminate]. apply beqb_eq in Hb. subst. repeat split.
    - exfalso. cbv zeta in A. destruct (gave_up (conn_step (back s) Drop)); discriminate.
  Qed.
  Lemma online ms : at_ (run start ms) = Online -> exists ms1 ms2 i, ms = ms1 ++ Answer (Named (B "handshake-success")) :: ms2
    /\ at_ (run start ms1) = Waiting /\ files (run start ms1) = Some i /\ files (run start ms) = Some i /\ In (i, Handshake) (written (run start ms1)).
  Proof.
    induction ms as [|m ms IH] using rev_ind; [discriminate|]. rewrite run_snoc. intros A.
    assert (at_ (run start ms) = Online \/ at_ (run start ms) <> Online) as [E|E] by (destruct (at_ (run start ms)); auto; right; discriminate).
    - destruct (IH E) as (ms1&ms2&i&->&W&F&G&H). exists ms1, (ms2 ++ [m]), i. split; [rewrite <- app_assoc; reflexivity|]. split; [exact W|]. split; [exact F|]. split; [|exact H].
      rewrite stays_online; [exact G|exact E|exact A].
    - destruct (becomes_online (run start ms) m E A) as (->&W&F). exists ms, [].
      destruct (inv_run ms) as (_&_&_&P). rewrite W in P. destruct P as (l&x&_&_&Fl&H). exists (length l). rewrite F. auto.
  Qed.

  (** ** What is said first *)
  Lemma on_app i w v : on i (w ++ v) = on i w ++ on i v.
  Proof. unfold on. rewrite filter_app, map_app. reflexivity. Qed.
  Lemma on_none i w : (forall p, ~ In (i, p) w) -> on i w = [].
  Proof.
    intros H. unfold on. assert (filter (fun x => fst x =? i) w = []) as ->; [|reflexivity].
    induction w as [|[j q] w IH]; [reflexivity|]. cbn. destruct (Nat.eqb_spec j i) as [->|_]; [elim (H q); left; reflexivity|]. apply IH. intros p Hp. apply (H p). right. exact Hp.
  Qed.

  Definition Polite (s : state) : Prop := (forall i, introduced (on i (written s)))
    /\ (at_ s = Greeting -> forall i, files s = Some i -> on i (written s) = [])
    /\ (at_ s = Online -> forall i, files s = Some i -> on i (written s) <> []).
  Lemma same_written s t : Polite s -> written t = written s -> (at_ t = Greeting -> at_ s = Greeting /\ files t = files s) ->
    (at_ t = Online -> at_ s = Online /\ files t = files s) -> Polite t.
  Proof.
    intros (H&G&O) E HG HO. split; [rewrite E; exact H|]. split.
    - intros A. destruct (HG A) as [A' F]. rewrite E, F. exact (G A').
    - intros A. destruct (HO A) as [A' F]. rewrite E, F. exact (O A').
  Qed.
  Lemma polite_step s m : Inv s -> Polite s -> (match m with Send _ => at_ s = Online | _ => True end) -> Polite (step s m).
  Proof.
    intros I K Q. pose proof K as (H&G&O). pose proof I as (W&F&C&P).
    destruct m as [r|x| |ok|r| | | | | |ok]; cbn [Connect.step].
    - destruct r; destruct (at_ s) eqn:A; try exact K; try (apply (same_written s); [exact K|reflexivity|cbn; discriminate|cbn; discriminate]);
        apply (same_written s); [exact K|reflexivity| |]; cbn; destruct (context c); discriminate.
    - destruct (at_ s) eqn:A; try exact K. destruct (context c) as [ctx|]; [|exact K]. destruct (wrap ctx x); (apply (same_written s); [exact K|reflexivity|cbn; discriminate|cbn; discriminate]).
    - destruct (at_ s) eqn:A; try exact K. destruct P as (l&y&M&Cn&Cl&Fl&Wl&_). split; [exact H|]. split; [|discriminate].
      cbn. intros _ i Hi. rewrite Cn in Hi. injection Hi as <-. apply on_none. intros p Hp. apply Wl in Hp. lia.
    - destruct (at_ s) eqn:A; try exact K. unfold write. destruct (files s) as [i|] eqn:E; [|apply (same_written s); [exact K|reflexivity|cbn; discriminate|cbn; discriminate]].
      destruct ok; [|apply (same_written s); [exact K|reflexivity|cbn; discriminate|cbn; discriminate]].
      split; [|split; cbn; discriminate]. cbn [written]. intros j. rewrite on_app. destruct (Nat.eqb_spec i j) as [->|Hne].
      + rewrite (G eq_refl j eq_refl). cbn. unfold on. cbn. rewrite Nat.eqb_refl. cbn. right. exists []. split; [reflexivity|constructor].
      + unfold on at 2. cbn. replace (i =? j) with false by (symmetry; apply Nat.eqb_neq; exact Hne). cbn. rewrite app_nil_r. apply H.
    - destruct r as [|n|]; destruct (at_ s) eqn:A; try exact K; try (apply (same_written s); [exact K|reflexivity|cbn; discriminate|cbn; discriminate]).
      destruct (beqb n _); [|apply (same_written s); [exact K|reflexivity|cbn; discriminate|cbn; discriminate]].
      split; [exact H|]. split; [cbn; discriminate|]. cbn [written files at_ goto]. intros _ i Hi. destruct P as (l&y&_&_&Fl&Hw). rewrite Fl in Hi. injection Hi as <-.
      intros Hc. assert (In Handshake (on (length l) (written s))) as Hin; [|rewrite Hc in Hin; destruct Hin].
      unfold on. apply in_map_iff. exists (length l, Handshake). split; [reflexivity|]. apply filter_In. split; [exact Hw|apply Nat.eqb_refl].
    - destruct (at_ s) eqn:A; try exact K. cbv zeta. destruct (gave_up _); (apply (same_written s); [exact K|reflexivity|cbn; discriminate|cbn; discriminate]).
    - destruct (at_ s) eqn:A; try exact K. apply (same_written s); [exact K|reflexivity|cbn; discriminate|cbn; discriminate].
    - destruct (at_ s) eqn:A; try exact K. apply (same_written s); [exact K|reflexivity|cbn; discriminate|cbn; discriminate].
    - destruct (at_ s) eqn:A; try exact K. apply (same_written s); [exact K|reflexivity|cbn; discriminate|cbn; discriminate].
    - assert (Polite (State (at_ s) (made s) (conn s) (conn_closed s) (files s) (conn_step (back s) Graded) (written s))) as K' by (apply (same_written s); [exact K|reflexivity|cbn; auto|cbn; auto]).
      destruct (at_ s); cbn [live]; try exact K'. exact K.
    - rewrite Q. cbn [live]. unfold write. destruct (files s) as [i|] eqn:E; [|apply (same_written s); [exact K|reflexivity|cbn; discriminate|cbn; discriminate]].
      destruct ok; [|apply (same_written s); [exact K|reflexivity|cbn; discriminate|cbn; discriminate]].
      split; [|split; [cbn; discriminate|]]; cbn [written files at_].
      + intros j. rewrite on_app. destruct (Nat.eqb_spec i j) as [->|Hne].
        * destruct (H j) as [Hz|(r&Hr&Ho)]; [elim (O Q j eq_refl Hz)|]. rewrite Hr. right. exists (r ++ on j [(j, Other)]). split; [reflexivity|].
          apply Forall_app. split; [exact Ho|]. unfold on. cbn. rewrite Nat.eqb_refl. repeat constructor.
        * unfold on at 2. cbn. replace (i =? j) with false by (symmetry; apply Nat.eqb_neq; exact Hne). cbn. rewrite app_nil_r. apply H.
      + intros _ j Hj. injection Hj as <-. rewrite on_app. specialize (O Q i eq_refl). destruct (on i (written s)); [congruence|discriminate].
  Qed.
  Lemma polite_run ms : forall s, Inv s -> Polite s -> polite c s ms -> Polite (run s ms).
  Proof.
    induction ms as [|m ms IH]; intros s I K H; [exact K|]. destruct H as [Hm H]. cbn. apply IH; [apply inv_step; exact I|apply polite_step; assumption|exact H].
  Qed.
  Lemma introduces ms i : polite c start ms -> introduced (on i (written (run start ms))).
  Proof.
    intros H. assert (Polite start) as K by (split; [intros j; left; reflexivity|split; discriminate]).
    exact (proj1 (polite_run ms start inv_start K H) i).
  Qed.

  (** ** Open connections *)
  Lemma few_open s : length (open_now s) <= 2.
  Proof.
    unfold open_now. assert (forall l, NoDup l -> incl l (match files s with Some j => [j] | None => [] end ++ match conn s with Some j => [j] | None => [] end) -> length l <= 2) as K.
    { intros l N Hi. pose proof (NoDup_incl_length N Hi) as Hl. rewrite app_length in Hl. destruct (files s), (conn s); cbn in Hl; lia. }
    apply K; [apply NoDup_filter, seq_NoDup|]. intros i Hi. apply filter_In in Hi as [_ Hi]. unfold is_open in Hi. apply in_or_app.
    apply Bool.orb_true_iff in Hi as [Hi|Hi].
    - left. destruct (files s); [|discriminate]. apply Nat.eqb_eq in Hi as ->. left. reflexivity.
    - right. apply Bool.andb_true_iff in Hi as [Hi _]. destruct (conn s); [|discriminate]. apply Nat.eqb_eq in Hi as ->. left. reflexivity.
  Qed.
  Lemma one_online ms i : at_ (run start ms) = Online -> is_open (run start ms) i = true <-> conn (run start ms) = Some i.
  Proof.
    intros A. destruct (inv_run ms) as (_&_&_&P). rewrite A in P. destruct P as (l&x&_&Cn&Fl&_). unfold is_open. rewrite Cn, Fl.
    split.
    - intros H. apply Bool.orb_true_iff in H as [H|H]; [|apply Bool.andb_true_iff in H as [H _]]; apply Nat.eqb_eq in H; congruence.
    - intros H. injection H as <-. rewrite Nat.eqb_refl. reflexivity.
  Qed.

  (** ** Giving up *)
  Lemma backs_off ms : exists es, back (run start ms) = conn_run conn_init es.
  Proof.
    induction ms as [|m ms (es&IH)] using rev_ind; [exists []; reflexivity|]. rewrite run_snoc.
    assert (exists es', back (step (run start ms) m) = conn_run (back (run start ms)) es') as (es'&E).
    { generalize (run start ms). intros s. assert (forall ok p q, back (write s ok p q) = back s) as Hw
        by (intros; unfold write; destruct (files s); [destruct ok|]; reflexivity).
      destruct m as [[]| | | |[|n|]| | | | | |ok]; cbn [Connect.step]; destruct (at_ s); cbn [live]; try (exists []; rewrite ?Hw; reflexivity); try (exists [Graded]; reflexivity).
      - exists []. destruct (context c) as [ctx|]; [|reflexivity]. destruct (wrap ctx x); reflexivity.
      - exists []. destruct (beqb n _); reflexivity.
      - exists [Drop]. cbv zeta. destruct (gave_up (conn_step (back s) Drop)); reflexivity. }
    exists (es ++ es'). unfold conn_run in *. rewrite fold_left_app, <- IH. exact E.
  Qed.
  Lemma step_exit s m code : live (at_ s) = true -> at_ (step s m) = Exited code ->
    match m with
    | Retry => code = 0 /\ gave_up (back (step s m)) = true
    | Greet ok | Send ok => code = 1 /\ (ok = false \/ files s = None)
    | Answer Nameless | Fail => code = 1
    | _ => False
    end.
  Proof.
    intros L A. assert (forall ok p q, live q = true -> at_ (write s ok p q) = Exited code -> code = 1 /\ (ok = false \/ files s = None)) as Hw.
    { intros ok p q Hq. unfold write. destruct (files s); [destruct ok|]; cbn; intros H; [subst; discriminate|injection H as <-; auto|injection H as <-; auto]. }
    destruct m as [[]| | | |[|n|]| | | | | |ok]; cbn [Connect.step] in *; destruct (at_ s) eqn:E; cbn [live] in *; try congruence; try (rewrite E in A; discriminate);
      try (apply (Hw _ _ _) in A; [exact A|reflexivity]); try (cbn in A; congruence).
    - destruct (context c); discriminate.
    - destruct (context c) as [ctx|]; [|congruence]. destruct (wrap ctx x); discriminate.
    - destruct (beqb n _); discriminate.
    - cbv zeta in *. destruct (gave_up (conn_step (back s) Drop)) eqn:G; [|discriminate]. injection A as <-. split; [reflexivity|exact G].
  Qed.
  Lemma stays_exited s m code : at_ s = Exited code -> step s m = s.
  Proof. intros A. destruct m as [[]| | | |[| |]| | | | | |ok]; cbn [Connect.step]; rewrite A; reflexivity. Qed.
  Lemma gives_up ms : at_ (run start ms) = Exited 0 -> gave_up (back (run start ms)) = true.
  Proof.
    induction ms as [|m ms IH] using rev_ind; [discriminate|]. rewrite run_snoc. intros A. destruct (live (at_ (run start ms))) eqn:L.
    - pose proof (step_exit _ m 0 L A) as H. destruct m as [[]| | | |[| |]| | | | | |ok]; try contradiction; try (destruct H as [H _]; discriminate H); try discriminate H. apply H.
    - destruct (at_ (run start ms)) as [| | | | | | | |code] eqn:E; try discriminate L. rewrite (stays_exited _ m code E) in *. rewrite E in A. apply IH. exact A.
  Qed.
End Connect.
