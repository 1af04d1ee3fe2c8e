(** Proofs about problem lookup. *)
From Coq Require Import String.
From Verif Require Import Model.Bytes Model.Paths Model.Roots Spec.Roots Proofs.BytesLemmas.
Local Open Scope list_scope.
Local Open Scope nat_scope.

Lemma first_root_some : forall f id roots d, first_root f id roots = Some d <-> exists r, first_with f id roots r /\ d = join r id.
Proof.
  intros f id roots d. induction roots as [|r rest IH].
  - split; [discriminate|]. intros (r & (a & b & E & _) & _). destruct a; discriminate.
  - cbn [first_root]. destruct (isfile f (join (join r id) init_yml)) eqn:F.
    + split.
      * intro H. injection H as <-. exists r. split; [|reflexivity]. exists [], rest. split; [reflexivity|]. split; [exact F|intros r' []].
      * intros (r1 & (a & b & E & H & N) & ->). destruct a as [|r2 a]; [injection E as -> _; reflexivity|]. injection E as -> _. exfalso. apply (N r2); [left; reflexivity|exact F].
    + rewrite IH. split.
      * intros (r1 & (a & b & E & H & N) & D). exists r1. split; [|exact D]. exists (r :: a), b. split; [rewrite E; reflexivity|]. split; [exact H|].
        intros r' [X|X]; [subst r'; unfold has; congruence|apply N; exact X].
      * intros (r1 & (a & b & E & H & N) & D). destruct a as [|r2 a]; [injection E as -> _; unfold has in H; congruence|]. injection E as -> E. exists r1. split; [|exact D].
        exists a, b. split; [exact E|]. split; [exact H|]. intros r' X. apply N. right. exact X.
Qed.
Lemma first_root_none : forall f id roots, first_root f id roots = None <-> forall r, In r roots -> ~ has f id r.
Proof.
  intros f id roots. induction roots as [|r rest IH]; cbn [first_root]; [split; [intros _ r []|reflexivity]|].
  destruct (isfile f (join (join r id) init_yml)) eqn:F.
  - split; [discriminate|]. intro H. exfalso. apply (H r); [left; reflexivity|exact F].
  - rewrite IH. split.
    + intros H r' [X|X]; [subst r'; unfold has; congruence|apply H; exact X].
    + intros H r' X. apply H. right. exact X.
Qed.
Lemma lookup_cons : forall id k v c, lookup id ((k, v) :: c) = if beqb k id then Some v else lookup id c.
Proof. reflexivity. Qed.

(** What is remembered after some requests. *)
Definition seen (h : list request) (id d : path) : Prop :=
  exists f roots r, In (f, roots, id) h /\ first_with f id roots r /\ d = join r id.
Lemma after_app : forall h q, after_requests (h ++ [q]) = fst (get_problem_root (fst (fst q)) (snd (fst q)) (after_requests h) (snd q)).
Proof. intros. unfold after_requests. rewrite fold_left_app. reflexivity. Qed.
Lemma requests_cache : forall h id,
  (forall d, lookup id (after_requests h) = Some d -> seen h id d)
  /\ (lookup id (after_requests h) = None -> forall f roots, In (f, roots, id) h -> forall r, In r roots -> ~ has f id r).
Proof.
  induction h as [|[[f roots] i] h IH] using rev_ind; intro id.
  - split; [discriminate|]. intros _ f roots [].
  - destruct (IH id) as [I1 I2]. rewrite after_app. cbn [fst snd]. unfold get_problem_root. set (c := after_requests h) in *.
    assert (W : forall d, seen h id d -> seen (h ++ [(f, roots, i)]) id d).
    { intros d (f' & roots' & r & X & Y). exists f', roots', r. split; [apply in_or_app; left; exact X|exact Y]. }
    destruct (match lookup i c with None => true | Some c0 => negb (isfile f (join c0 init_yml)) end) eqn:St.
    + destruct (first_root f i roots) as [d0|] eqn:Fr; cbn [fst].
      * rewrite lookup_cons. destruct (beqb_spec i id) as [E|E].
        -- subst i. split; [|discriminate]. intros d X. injection X as <-. apply first_root_some in Fr. destruct Fr as (r & A & C). exists f, roots, r. split; [apply in_or_app; right; left; reflexivity|split; assumption].
        -- split; [intros d X; apply W; apply I1; exact X|]. intros X f' roots' H. apply in_app_or in H. destruct H as [H|[H|[]]]; [exact (I2 X f' roots' H)|]. congruence.
      * split; [intros d X; apply W; apply I1; exact X|]. intros X f' roots' H. apply in_app_or in H. destruct H as [H|[H|[]]]; [exact (I2 X f' roots' H)|].
        injection H as <- <- <-. apply first_root_none. exact Fr.
    + cbn [fst]. split; [intros d X; apply W; apply I1; exact X|]. intros X f' roots' H. apply in_app_or in H. destruct H as [H|[H|[]]]; [exact (I2 X f' roots' H)|].
      injection H as <- <- <-. rewrite X in St. discriminate.
Qed.
Definition answer (h : list request) (f : fs) (roots : list path) (id : path) : option path := snd (get_problem_root f roots (after_requests h) id).
Lemma answer_lookup : forall h f roots id, answer h f roots id = lookup id (after_requests (h ++ [(f, roots, id)])).
Proof. intros. rewrite after_app. reflexivity. Qed.
Theorem answered : forall h f roots id,
  (forall d, answer h f roots id = Some d -> seen (h ++ [(f, roots, id)]) id d)
  /\ (answer h f roots id = None <-> forall f' roots', In (f', roots', id) (h ++ [(f, roots, id)]) -> forall r, In r roots' -> ~ has f' id r).
Proof.
  intros h f roots id. rewrite answer_lookup. destruct (requests_cache (h ++ [(f, roots, id)]) id) as [A C]. split; [exact A|]. split; [exact C|].
  intro H. destruct (lookup id (after_requests (h ++ [(f, roots, id)]))) as [d|] eqn:E; [|reflexivity]. exfalso.
  destruct (A d eq_refl) as (f' & roots' & r & X & (a & b & Y & Z & _) & _). apply (H f' roots' X r); [|exact Z]. rewrite Y. apply in_or_app. right. left. reflexivity.
Qed.
Theorem present : forall h f roots id r, In r roots -> has f id r -> exists d, answer h f roots id = Some d /\ isfile f (join d init_yml) = true.
Proof.
  intros h f roots id r Hr Hh. unfold answer, get_problem_root. cbn [snd].
  destruct (lookup id (after_requests h)) as [d|] eqn:L.
  - destruct (isfile f (join d init_yml)) eqn:F; cbn [negb].
    + rewrite L. exists d. split; [reflexivity|exact F].
    + destruct (first_root f id roots) as [d'|] eqn:Fr.
      * rewrite lookup_cons, beqb_refl. exists d'. split; [reflexivity|]. apply first_root_some in Fr. destruct Fr as (r' & (a & b & _ & X & _) & ->). exact X.
      * exfalso. exact (proj1 (first_root_none f id roots) Fr r Hr Hh).
  - destruct (first_root f id roots) as [d'|] eqn:Fr.
    + rewrite lookup_cons, beqb_refl. exists d'. split; [reflexivity|]. apply first_root_some in Fr. destruct Fr as (r' & (a & b & _ & X & _) & ->). exact X.
    + exfalso. exact (proj1 (first_root_none f id roots) Fr r Hr Hh).
Qed.
Lemma first_unique : forall f id roots r r', first_with f id roots r -> first_with f id roots r' -> r = r'.
Proof.
  intros f id roots. induction roots as [|x roots IH]; intros r r' (a & b & E & H & N) (a' & b' & E' & H' & N'); [destruct a; discriminate|].
  destruct a as [|y a], a' as [|y' a']; injection E as -> E; injection E' as E0 E'.
  - congruence.
  - exfalso. apply (N' r); [left; congruence|exact H].
  - exfalso. apply (N r'); [left; congruence|exact H'].
  - apply IH; [exists a, b|exists a', b']; (split; [assumption|]; split; [assumption|]); intros z Z; [apply N|apply N']; right; exact Z.
Qed.
Theorem unchanged : forall h f roots id, (forall f' roots' id', In (f', roots', id') h -> f' = f /\ roots' = roots) ->
  forall d, answer h f roots id = Some d <-> exists r, first_with f id roots r /\ d = join r id.
Proof.
  intros h f roots id H d. destruct (answered h f roots id) as [A C]. split.
  - intro E. destruct (A d E) as (f' & roots' & r & X & Y). apply in_app_or in X. destruct X as [X|[X|[]]].
    + destruct (H _ _ _ X) as [-> ->]. exists r. exact Y.
    + injection X as <- <-. exists r. exact Y.
  - intros (r & Fr & ->). destruct (answer h f roots id) as [d'|] eqn:E.
    + destruct (A d' eq_refl) as (f' & roots' & r' & X & Y & ->). apply in_app_or in X. assert (f' = f /\ roots' = roots) as [-> ->] by (destruct X as [X|[X|[]]]; [exact (H _ _ _ X)|injection X as <- <-; split; reflexivity]).
      rewrite (first_unique _ _ _ _ _ Y Fr). reflexivity.
    + exfalso. destruct Fr as (a & b & Er & Hr & _). apply (proj1 C eq_refl f roots) with (r := r); [apply in_or_app; right; left; reflexivity| |exact Hr]. rewrite Er. apply in_or_app. right. left. reflexivity.
Qed.

(** ** The list sent to the server *)
Theorem supported : forall f roots l, get_supported_problems f roots = Some l ->
  forall id, In id l <-> exists r names, In r roots /\ listdir f r = Some names /\ In id names /\ readable f (join (join r id) init_yml) = true.
Proof.
  intros f roots. induction roots as [|r rest IH]; intros l H id.
  - injection H as <-. split; [intros []|]. intros (r & names & [] & _).
  - cbn [get_supported_problems] in H. destruct (listdir f r) as [names|] eqn:L; [|discriminate]. destruct (get_supported_problems f rest) as [more|]; [|discriminate]. injection H as <-.
    rewrite in_app_iff, filter_In, (IH more eq_refl id). split.
    + intros [[A C]|(r' & n' & A & C)]; [exists r, names; split; [left; reflexivity|split; [exact L|split; assumption]]|exists r', n'; split; [right; exact A|exact C]].
    + intros (r' & n' & [A|A] & C & D & E); [subst r'; rewrite L in C; injection C as <-; left; split; assumption|right; exists r', n'; split; [exact A|split; [exact C|split; assumption]]].
Qed.
Theorem supported_defined : forall f roots, get_supported_problems f roots <> None <-> forall r, In r roots -> listdir f r <> None.
Proof.
  intros f roots. induction roots as [|r rest IH]; [split; [intros _ r []|discriminate]|]. cbn [get_supported_problems]. destruct (listdir f r) as [names|] eqn:L.
  - destruct (get_supported_problems f rest) as [more|].
    + split; [|discriminate]. intros _ r' [X|X]; [congruence|]. apply IH; [discriminate|exact X].
    + split; [congruence|]. intro H. exfalso. assert (Y : None <> None :> option (list path)) by (apply IH; intros r' X; apply H; right; exact X). congruence.
  - split; [congruence|]. intro H. exfalso. exact (H r (or_introl eq_refl) L).
Qed.
(** If the init files are readable files and directories list what is in them, exactly the problems listed are found. *)
Theorem supported_found : forall f roots l id, get_supported_problems f roots = Some l ->
  (forall r, In r roots -> isfile f (join (join r id) init_yml) = readable f (join (join r id) init_yml)) ->
  (forall r names, In r roots -> listdir f r = Some names -> has f id r -> In id names) ->
  In id l <-> exists d, answer [] f roots id = Some d.
Proof.
  intros f roots l id E R L. rewrite (supported f roots l E id). split.
  - intros (r & names & A & C & D & H). destruct (present [] f roots id r A) as (d & X & _); [unfold has; rewrite R; assumption|]. exists d. exact X.
  - intros (d & X). apply (unchanged [] f roots id ltac:(intros ? ? ? [])) in X. destruct X as (r & (a & b & Er & Hr & _) & _).
    assert (Hin : In r roots) by (rewrite Er; apply in_or_app; right; left; reflexivity).
    assert (N : listdir f r <> None) by (apply (proj1 (supported_defined f roots)); [congruence|exact Hin]).
    destruct (listdir f r) as [names|] eqn:Ld; [|congruence]. exists r, names. split; [exact Hin|]. split; [exact Ld|]. split; [exact (L r names Hin Ld Hr)|]. rewrite <- R by exact Hin. exact Hr.
Qed.

(** ** Directories by depth *)
Theorem by_depth : forall f n d l, find_directories_by_depth f d n = Some l -> forall p, In p l <-> down f d n p.
Proof.
  intros f n. induction n as [|n IH]; intros d l H p; cbn [find_directories_by_depth] in H.
  - destruct (isdir f d) eqn:D; injection H as <-.
    + split; [intros [X|[]]; subst p; constructor; exact D|]. intro X. inversion X; subst. left. reflexivity.
    + split; [intros []|]. intro X. inversion X; subst. congruence.
  - destruct (listdir f d) as [names|] eqn:L; [|discriminate].
    assert (G : forall cs l, (fix go cs := match cs with [] => Some [] | c :: rest => if isdir f (join d c) then match find_directories_by_depth f (join d c) n, go rest with Some a, Some b => Some (a ++ b) | _, _ => None end else go rest end) cs = Some l ->
       In p l <-> exists c, In c cs /\ isdir f (join d c) = true /\ down f (join d c) n p).
    { clear H l L names. induction cs as [|c rest IHc]; intros l H.
      - injection H as <-. split; [intros []|]. intros (c & [] & _).
      - destruct (isdir f (join d c)) eqn:D.
        + destruct (find_directories_by_depth f (join d c) n) as [a|] eqn:Fd; [|discriminate].
          match type of H with match ?x with _ => _ end = _ => destruct x as [b|] eqn:G; [|discriminate] end. injection H as <-.
          rewrite in_app_iff, (IH _ _ Fd p), (IHc _ eq_refl). split.
          * intros [X|(c' & X & Y)]; [exists c; split; [left; reflexivity|split; assumption]|exists c'; split; [right; exact X|exact Y]].
          * intros (c' & [X|X] & Y & Z); [subst c'; left; exact Z|right; exists c'; split; [exact X|split; assumption]].
        + rewrite (IHc _ H). split.
          * intros (c' & X & Y). exists c'. split; [right; exact X|exact Y].
          * intros (c' & [X|X] & Y & Z); [congruence|exists c'; split; [exact X|split; assumption]]. }
    rewrite (G names l H). split.
    + intros (c & A & C & D). exact (down_S f d names c n p L A C D).
    + intro X. inversion X as [|d0 names0 c n0 p0 Q1 Q2 Q3 Q4]; subst. exists c. rewrite L in Q1. injection Q1 as <-. split; [exact Q2|split; assumption].
Qed.
Lemma down_dir : forall f d n p, down f d n p -> isdir f p = true.
Proof. intros f d n p H. induction H; assumption. Qed.

Section Config.
  Variable root : path.
  Lemma depth_dirs_in : forall f l ds ws, depth_dirs root f l = Some (ds, ws) ->
    forall q, In q ds <-> exists z p, In (Some z, p) l /\ (0 <= z)%Z /\ down f (normpath (join root p)) (Z.to_nat z) q.
  Proof.
    intros f l. induction l as [|[o p] l IH]; intros ds ws H q; cbn [depth_dirs] in H.
    - injection H as <- <-. split; [intros []|]. intros (z & p & [] & _).
    - destruct (depth_dirs root f l) as [[ds0 ws0]|]; [|discriminate]. specialize (IH ds0 ws0 eq_refl q).
      assert (K : forall X : Prop, (X <-> exists z p0, In (Some z, p0) l /\ (0 <= z)%Z /\ down f (normpath (join root p0)) (Z.to_nat z) q) -> (forall z, o = Some z -> ~ (0 <= z)%Z) ->
         X <-> exists z p0, In (Some z, p0) ((o, p) :: l) /\ (0 <= z)%Z /\ down f (normpath (join root p0)) (Z.to_nat z) q).
      { intros X HX No. rewrite HX. split; intros (z & p0 & A & C); exists z, p0.
        - split; [right; exact A|exact C].
        - destruct A as [A|A]; [|split; assumption]. injection A as -> ->. exfalso. exact (No z eq_refl (proj1 C)). }
      destruct o as [z|]; [|injection H as <- <-; apply K; [exact IH|discriminate]].
      destruct (z <? 0)%Z eqn:Z0; [apply Z.ltb_lt in Z0; injection H as <- <-; apply K; [exact IH|intros z' E; injection E as <-; lia]|]. apply Z.ltb_ge in Z0.
      destruct (find_directories_by_depth f (get_path root p) (Z.to_nat z)) as [a|] eqn:Fd; [|discriminate]. injection H as <- <-.
      rewrite in_app_iff, IH, (by_depth _ _ _ _ Fd q). split.
      + intros [X|(z' & p' & A & C)]; [exists z, p; split; [left; reflexivity|split; [exact Z0|exact X]]|exists z', p'; split; [right; exact A|exact C]].
      + intros (z' & p' & [A|A] & C & D); [injection A as -> ->; left; exact D|right; exists z', p'; split; [exact A|split; assumption]].
  Qed.
  Lemma node_dirs_in : forall f l ds ws, node_dirs root f l = Some (ds, ws) -> forall q,
    isdir f q = true -> In q ds <-> exists e, In e l /\ names_dir root f e q.
  Proof.
    intros f l. induction l as [|e l IH]; intros ds ws H q Hq; cbn [node_dirs] in H.
    - injection H as <- <-. split; [intros []|]. intros (e & [] & _).
    - destruct (match e with One p => Some ([get_path root p], []) | Depths m => depth_dirs root f m end) as [[a w]|] eqn:E; [|discriminate].
      destruct (node_dirs root f l) as [[ds0 ws0]|]; [|discriminate]. injection H as <- <-. rewrite in_app_iff, (IH _ _ eq_refl q Hq).
      assert (K : In q a <-> names_dir root f e q).
      { destruct e as [p|m].
        - injection E as <- <-. split; [intros [X|[]]; subst q; constructor; exact Hq|]. intro X. inversion X; subst. left. reflexivity.
        - rewrite (depth_dirs_in _ _ _ _ E q). split; [intros (z & p & A & C & D); exact (names_depth root f m z p q A C D)|]. intro X. inversion X; subst. eexists. eexists. eauto. }
      rewrite K. split.
      + intros [X|(e' & X & Y)]; [exists e; split; [left; reflexivity|exact X]|exists e'; split; [right; exact X|exact Y]].
      + intros (e' & [X|X] & Y); [subst e'; left; exact Y|right; exists e'; split; assumption].
  Qed.
  Lemma node_not_dir : forall f l ds ws, node_dirs root f l = Some (ds, ws) -> forall q, isdir f q = false -> In q ds <-> exists p, In (One p) l /\ q = normpath (join root p).
  Proof.
    intros f l. induction l as [|e l IH]; intros ds ws H q Hq; cbn [node_dirs] in H.
    - injection H as <- <-. split; [intros []|]. intros (p & [] & _).
    - destruct (match e with One p => Some ([get_path root p], []) | Depths m => depth_dirs root f m end) as [[a w]|] eqn:E; [|discriminate].
      destruct (node_dirs root f l) as [[ds0 ws0]|]; [|discriminate]. injection H as <- <-. rewrite in_app_iff, (IH _ _ eq_refl q Hq). destruct e as [p|m].
      + injection E as <- <-. split.
        * intros [[X|[]]|(p' & X & Y)]; [exists p; split; [left; reflexivity|symmetry; exact X]|exists p'; split; [right; exact X|exact Y]].
        * intros (p' & [X|X] & Y); [injection X as ->; left; left; symmetry; exact Y|right; exists p'; split; assumption].
      + split.
        * intros [X|(p' & X & Y)]; [|exists p'; split; [right; exact X|exact Y]]. exfalso. apply (depth_dirs_in _ _ _ _ E q) in X. destruct X as (z & p & _ & _ & X). rewrite (down_dir _ _ _ _ X) in Hq. discriminate.
        * intros (p' & [X|X] & Y); [discriminate|right; exists p'; split; assumption].
  Qed.
  (** At start-up: exactly the directories the configuration names, in its order, and a warning for each other. *)
  Theorem loaded : forall f l g, load_env root f (Node l) = Some g ->
    exists roots, dirs_cache g = Some roots /\ (forall q, In q roots <-> exists e, In e l /\ names_dir root f e q)
    /\ (forall p, In (CannotAccess p) (warned g) <-> isdir f p = false /\ exists e, In (One e) l /\ p = normpath (join root e)).
  Proof.
    intros f l g H. unfold load_env, get_problem_roots in H. cbn [dirs_cache problem_dirs scan] in H.
    destruct (node_dirs root f l) as [[ds ws]|] eqn:E; [|discriminate]. injection H as <-. cbn [dirs_cache warned]. exists (filter (isdir f) ds). split; [reflexivity|]. split.
    - intro q. rewrite filter_In. split.
      + intros [A C]. apply (node_dirs_in _ _ _ _ E q C). exact A.
      + intros (e & A & C). assert (D : isdir f q = true) by (inversion C; subst; [assumption|eapply down_dir; eassumption]). split; [|exact D]. apply (node_dirs_in _ _ _ _ E q D). exists e. split; assumption.
    - intro p. cbn [app]. rewrite in_app_iff. assert (W : forall m ds0 ws0, depth_dirs root f m = Some (ds0, ws0) -> forall p, ~ In (CannotAccess p) ws0).
      { induction m as [|[o x] m IHm]; intros ds0 ws0 Hm q; cbn [depth_dirs] in Hm; [injection Hm as <- <-; intros []|]. destruct (depth_dirs root f m) as [[ds1 ws1]|]; [|discriminate]. specialize (IHm _ _ eq_refl).
        destruct o as [z|]; [|injection Hm as <- <-; intros [X|X]; [discriminate|exact (IHm _ X)]]. destruct (z <? 0)%Z; [injection Hm as <- <-; intros [X|X]; [discriminate|exact (IHm _ X)]|].
        destruct (find_directories_by_depth f (get_path root x) (Z.to_nat z)); [|discriminate]. injection Hm as <- <-. apply IHm. }
      assert (W2 : forall l ds0 ws0, node_dirs root f l = Some (ds0, ws0) -> forall p, ~ In (CannotAccess p) ws0).
      { clear - W. induction l as [|e l IHl]; intros ds0 ws0 Hl q; cbn [node_dirs] in Hl; [injection Hl as <- <-; intros []|].
        destruct (match e with One p => Some ([get_path root p], []) | Depths m => depth_dirs root f m end) as [[a w]|] eqn:E; [|discriminate].
        destruct (node_dirs root f l) as [[ds1 ws1]|]; [|discriminate]. injection Hl as <- <-. intro X. apply in_app_or in X. destruct X as [X|X]; [|exact (IHl _ _ eq_refl _ X)].
        destruct e; [injection E as <- <-; destruct X|exact (W _ _ _ E _ X)]. }
      split.
      + intros [X|X]; [exfalso; exact (W2 _ _ _ E _ X)|]. apply in_map_iff in X. destruct X as (q & X & Y). injection X as ->. apply filter_In in Y. destruct Y as [Y Z].
        apply Bool.negb_true_iff in Z. split; [exact Z|]. apply (node_not_dir _ _ _ _ E p Z). exact Y.
      + intros [A C]. right. apply in_map_iff. exists p. split; [reflexivity|]. apply filter_In. split; [|rewrite A; reflexivity]. apply (node_not_dir _ _ _ _ E p A). exact C.
  Qed.
  (** An update with nothing changed. *)
  Theorem updated_same : forall f l g roots, load_env root f (Node l) = Some g -> dirs_cache g = Some roots ->
    (forall e, In (One e) l -> isdir f (normpath (join root e)) = true) ->
    dirs_cache (fst (update root f g)) = Some roots /\ snd (update root f g) = get_supported_problems f roots.
  Proof.
    intros f l g roots H Hr Hd. unfold load_env, get_problem_roots in H. cbn [dirs_cache problem_dirs scan] in H.
    destruct (node_dirs root f l) as [[ds ws]|] eqn:E; [|discriminate]. injection H as <-. cbn [dirs_cache] in Hr. injection Hr as <-.
    assert (Fl : filter (isdir f) ds = ds).
    { assert (Al : forall q, In q ds -> isdir f q = true).
      { intros q Hq. destruct (isdir f q) eqn:D; [reflexivity|]. apply (node_not_dir _ _ _ _ E q D) in Hq. destruct Hq as (p & X & ->). rewrite (Hd p X) in D. discriminate. }
      clear - Al. induction ds as [|x ds IH]; [reflexivity|]. cbn [filter]. rewrite (Al x (or_introl eq_refl)), IH; [reflexivity|]. intros q Hq. apply Al. right. exact Hq. }
    rewrite Fl. unfold update, get_problem_roots. cbn [dirs_cache problem_dirs scan]. rewrite E. cbn [fst snd dirs_cache]. split; reflexivity.
  Qed.
  Lemma node_dirs_app : forall f a b ds ws, node_dirs root f (a ++ b) = Some (ds, ws) ->
    exists da wa db wb, node_dirs root f a = Some (da, wa) /\ node_dirs root f b = Some (db, wb) /\ ds = da ++ db.
  Proof.
    intros f a. induction a as [|e a IH]; intros b ds ws H; [exists [], [], ds, ws; split; [reflexivity|split; [exact H|reflexivity]]|].
    cbn [app node_dirs] in H |- *. destruct (match e with One p => Some ([get_path root p], []) | Depths m => depth_dirs root f m end) as [[x w]|]; [|discriminate].
    destruct (node_dirs root f (a ++ b)) as [[d0 w0]|] eqn:Nd; [|discriminate]. injection H as <- <-. destruct (IH b d0 w0 Nd) as (da & wa & db & wb & A & C & ->). rewrite A.
    exists (x ++ da), (w ++ wa), db, wb. split; [reflexivity|]. split; [exact C|]. rewrite app_assoc. reflexivity.
  Qed.
  Theorem loaded_order : forall f a b g, load_env root f (Node (a ++ b)) = Some g ->
    exists ga gb ra rb, load_env root f (Node a) = Some ga /\ load_env root f (Node b) = Some gb
    /\ dirs_cache ga = Some ra /\ dirs_cache gb = Some rb /\ dirs_cache g = Some (ra ++ rb).
  Proof.
    intros f a b g H. unfold load_env, get_problem_roots in *. cbn [dirs_cache problem_dirs scan] in *.
    destruct (node_dirs root f (a ++ b)) as [[ds ws]|] eqn:E; [|discriminate]. injection H as <-. destruct (node_dirs_app _ _ _ _ _ E) as (da & wa & db & wb & A & C & ->).
    rewrite A, C. do 4 eexists. split; [reflexivity|]. split; [reflexivity|]. cbn [dirs_cache]. split; [reflexivity|]. split; [reflexivity|]. rewrite filter_app. reflexivity.
  Qed.
End Config.
