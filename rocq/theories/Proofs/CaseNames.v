(** Proofs about the default names of test case files. *)
From Coq Require Import String Lia Sorted.
From Verif Require Import Model.Bytes Model.UnicodeTables Model.Regex Model.Problem Model.CaseNames Spec.Problem Spec.CaseNames.
Local Open Scope list_scope.

Fixpoint takew (f : N -> bool) (l : list N) : list N := match l with x :: t => if f x then x :: takew f t else [] | [] => [] end.
Fixpoint dropw (f : N -> bool) (l : list N) : list N := match l with x :: t => if f x then dropw f t else l | [] => [] end.
Lemma take_drop f l : l = takew f l ++ dropw f l.
Proof. induction l as [|x t IH]; [reflexivity|]. cbn. destruct (f x); [cbn; congruence|reflexivity]. Qed.
Lemma takew_all f l : Forall (fun c => f c = true) (takew f l).
Proof. induction l as [|x t IH]; [constructor|]. cbn. destruct (f x) eqn:E; constructor; auto. Qed.
Lemma dropw_hd f l x t : dropw f l = x :: t -> f x = false.
Proof. induction l as [|y r IH]; [discriminate|]. cbn. destruct (f y) eqn:E; [exact IH|]. congruence. Qed.
Lemma takew_app f a r : Forall (fun c => f c = true) a -> (forall x t, r = x :: t -> f x = false) -> takew f (a ++ r) = a /\ dropw f (a ++ r) = r.
Proof.
  intros A R. induction A as [|x a E A IH]; cbn.
  - destruct r as [|x t]; [auto|]. cbn. rewrite (R x t eq_refl). auto.
  - rewrite E. destruct IH as [-> ->]. auto.
Qed.
Lemma taken_app a b : taken (a ++ b) b = a.
Proof. unfold taken. rewrite app_length, Nat.add_sub, firstn_app, Nat.sub_diag, firstn_all. cbn. apply app_nil_r. Qed.
Lemma taken_drop f l : taken l (dropw f l) = takew f l.
Proof. rewrite (take_drop f l) at 1. apply taken_app. Qed.

Lemma star_max f l k : (forall x t, f x = true -> k (x :: t) = None) -> star f l k = k (dropw f l).
Proof.
  intros K. induction l as [|x t IH]; [reflexivity|]. cbn. destruct (f x) eqn:E; [|reflexivity].
  rewrite IH, (K x t E). destruct (k (dropw f t)); reflexivity.
Qed.
Lemma star_ext f l k k' : (forall r, k r = k' r) -> star f l k = star f l k'.
Proof. intros E. induction l as [|x t IH]; cbn; [apply E|]. rewrite IH, E. reflexivity. Qed.
Lemma lazy_ext f l k k' : (forall r, k r = k' r) -> lazy f l k = lazy f l k'.
Proof. intros E. induction l as [|x t IH]; cbn; rewrite E; [reflexivity|]. rewrite IH. reflexivity. Qed.

(** ** character classes *)
Lemma digit_not_other c : is_digit c = true -> other c = false.
Proof. unfold other. intros ->. reflexivity. Qed.
Lemma in_ranges_ge l c : (forall r, In r l -> 128 <= fst r)%N -> in_ranges l c = true -> (128 <= c)%N.
Proof.
  unfold in_ranges. intros G H. apply existsb_exists in H as (r & I & H). apply Bool.andb_true_iff in H as [H _].
  apply N.leb_le in H. specialize (G r I). lia.
Qed.
Lemma digit_ranges_ge r : In r digit_ranges -> (128 <= fst r)%N.
Proof.
  intros I. assert (forallb (fun r => 128 <=? fst r)%N digit_ranges = true) as H by (vm_compute; reflexivity).
  rewrite forallb_forall in H. apply N.leb_le. exact (H r I).
Qed.
Lemma digit_ascii c : (c < 128)%N -> is_digit c = ((48 <=? c) && (c <=? 57))%N.
Proof.
  intros L. unfold is_digit. destruct (in_ranges digit_ranges c) eqn:E; [|apply Bool.orb_false_r].
  apply (in_ranges_ge _ _ digit_ranges_ge) in E. lia.
Qed.
Lemma space_spec c : is_space c = true <-> In c spaces.
Proof.
  unfold is_space, spaces. split.
  - intros H. repeat (apply Bool.orb_true_iff in H; destruct H as [H|H]).
    + apply Bool.andb_true_iff in H as [A C]. apply N.leb_le in A, C.
      assert (c = 9 \/ c = 10 \/ c = 11 \/ c = 12 \/ c = 13)%N as D by lia. cbn. intuition auto.
    + apply Bool.andb_true_iff in H as [A C]. apply N.leb_le in A, C.
      assert (c = 28 \/ c = 29 \/ c = 30 \/ c = 31 \/ c = 32)%N as D by lia. cbn. intuition auto 20.
    + apply N.eqb_eq in H. subst. cbn. intuition auto 20.
    + apply N.eqb_eq in H. subst. cbn. intuition auto 20.
    + apply N.eqb_eq in H. subst. cbn. intuition auto 20.
    + apply Bool.andb_true_iff in H as [A C]. apply N.leb_le in A, C.
      assert (c = 8192 \/ c = 8193 \/ c = 8194 \/ c = 8195 \/ c = 8196 \/ c = 8197 \/ c = 8198 \/ c = 8199 \/ c = 8200 \/ c = 8201 \/ c = 8202)%N as D by lia.
      decompose [or] D; subst; cbn; tauto.
    + apply N.eqb_eq in H. subst. cbn. tauto.
    + apply N.eqb_eq in H. subst. cbn. tauto.
    + apply N.eqb_eq in H. subst. cbn. tauto.
    + apply N.eqb_eq in H. subst. cbn. tauto.
    + apply N.eqb_eq in H. subst. cbn. tauto.
  - cbn. intros H. decompose [or] H; subst; try reflexivity; contradiction.
Qed.
Lemma other_spec c : other c = true <-> is_digit c = false /\ ~ In c spaces.
Proof.
  unfold other. rewrite Bool.negb_true_iff, Bool.orb_false_iff, <- space_spec. destruct (is_space c); intuition congruence.
Qed.
Lemma plain_spec y : plain y <-> Forall (fun c => other c = true) y.
Proof. unfold plain. rewrite !Forall_forall. split; intros H x I; apply other_spec, H, I. Qed.
Lemma other_lf : other 10 = false. Proof. reflexivity. Qed.
Lemma other_not_digit c : other c = true -> is_digit c = false.
Proof. intros H. apply other_spec in H. tauto. Qed.

(** ** the pieces of the pattern *)
Fixpoint tail (l : list N) : bool := match l with [] => true | c :: t => if other c then tail t else at_end l end.
Lemma star_tail l v : star other l (fun r => if at_end r then Some v else None) = if tail l then Some v else None.
Proof.
  induction l as [|x t IH]; [reflexivity|]. cbn [star tail]. destruct (other x) eqn:E; [|reflexivity].
  rewrite IH. destruct (tail t); [reflexivity|]. cbn [orelse].
  destruct t; [|reflexivity]. cbn. destruct (N.eqb_spec x 10); [subst; discriminate|reflexivity].
Qed.
Lemma tail_spec l : ~ In 10%N l -> tail l = true <-> plain l.
Proof.
  rewrite plain_spec. induction l as [|x t IH]; intros L; [split; [constructor|reflexivity]|].
  cbn [tail]. destruct (other x) eqn:E.
  - rewrite IH by (intros C; apply L; right; exact C). split; [constructor; auto|intros H; inversion H; auto].
  - split; intros H.
    + destruct t; [|discriminate]. apply N.eqb_eq in H. subst. exfalso. apply L. left. reflexivity.
    + inversion H. congruence.
Qed.
Lemma tail_digit d t : is_digit d = true -> tail (d :: t) = false.
Proof.
  intros D. cbn [tail]. rewrite (digit_not_other d D). destruct t; [|reflexivity]. cbn.
  destruct (N.eqb_spec d 10); [|reflexivity]. subst. discriminate.
Qed.

Definition mk b c := {| batch := b; case := c |}.
Definition case_at (b : option (list N)) (l : list N) : option captures :=
  match takew is_digit l with
  | [] => None
  | d => if tail (dropw is_digit l) then Some (mk b (Some d)) else None
  end.
Definition batch_at (l : list N) : option captures :=
  match takew is_digit l with
  | [] => None
  | d => match dropw is_digit l with
         | x :: t => if other x then case_at (Some d) (dropw other (x :: t)) else None
         | [] => None
         end
  end.
Definition at_place (total : nat) (l : list N) : option captures :=
  orelse (orelse (if length l =? total then batch_at l else None)
                 (match l with x :: t => if not_word x then batch_at t else None | [] => None end))
         (case_at None l).

Lemma run_case total s :
  run total (Seq (Named GCase (Plus is_digit)) (Seq (Star other) Eos)) s (fun s => Some (groups s)) = case_at (batch (groups s)) (rest s).
Proof.
  destruct s as [l [b c]]. cbn [run rest groups batch]. unfold case_at. destruct l as [|x t]; [reflexivity|]. cbn [takew].
  destruct (is_digit x) eqn:E; [|reflexivity].
  rewrite (star_ext _ _ _ (fun r => if tail r then Some (mk b (Some (taken (x :: t) r))) else None)).
  - rewrite star_max.
    + cbn [dropw]. rewrite E. pose proof (taken_drop is_digit (x :: t)) as T. cbn [dropw takew] in T. rewrite E in T. rewrite T. reflexivity.
    + intros y r D. rewrite tail_digit by exact D. reflexivity.
  - intros r. cbn [moved capture rest groups batch case]. rewrite star_tail. reflexivity.
Qed.
Lemma case_at_none b l : (forall x t, l = x :: t -> is_digit x = false) -> case_at b l = None.
Proof. intros H. unfold case_at. destruct l as [|x t]; [reflexivity|]. cbn. rewrite (H x t eq_refl). reflexivity. Qed.
Lemma run_batch total s :
  run total (Seq (Named GBatch (Plus is_digit)) (Plus other)) s
    (fun s' => run total (Seq (Named GCase (Plus is_digit)) (Seq (Star other) Eos)) s' (fun s => Some (groups s))) = batch_at (rest s).
Proof.
  destruct s as [l [b c]]. unfold batch_at. cbn [rest].
  change (run total (Seq (Named GBatch (Plus is_digit)) (Plus other)) ?s ?k) with (run total (Named GBatch (Plus is_digit)) s (fun s' => run total (Plus other) s' k)).
  cbn [run rest groups]. destruct l as [|x t]; [reflexivity|]. cbn [takew]. destruct (is_digit x) eqn:E; [|reflexivity].
  rewrite (star_ext _ _ _ (fun r => match r with y :: u => if other y then case_at (Some (taken (x :: t) r)) (dropw other r) else None | [] => None end)).
  - rewrite star_max.
    + cbn [dropw]. rewrite E. pose proof (taken_drop is_digit (x :: t)) as T. cbn [dropw takew] in T. rewrite E in T.
      destruct (dropw is_digit t) as [|y u] eqn:F; [reflexivity|]. destruct (other y) eqn:O; [|reflexivity]. cbn [dropw]. rewrite ?O, <- T. reflexivity.
    + intros y r D. rewrite (digit_not_other y D). reflexivity.
  - intros r. cbn [moved capture rest groups batch case]. destruct r as [|y u]; [reflexivity|]. destruct (other y) eqn:O; [|reflexivity].
    rewrite (star_ext _ _ _ (fun r => case_at (Some (taken (x :: t) (y :: u))) r)).
    + cbn [dropw]. rewrite O. apply star_max. intros z v Z. apply case_at_none. intros ? ? [= <- <-]. apply other_not_digit, Z.
    + intros r. apply (run_case total {| rest := r; groups := {| batch := Some (taken (x :: t) (y :: u)); case := c |} |}).
Qed.
Lemma run_numbers total l : run total numbers {| rest := l; groups := mk None None |} (fun s => Some (groups s)) = at_place total l.
Proof.
  unfold numbers, at_place.
  change (run total (Seq (Maybe ?a) ?b) ?s ?k) with (orelse (run total a s (fun s' => run total b s' k)) (run total b s k)).
  rewrite run_case. cbn [batch groups mk rest]. f_equal.
  change (run total (Seq (Or ?a ?b) ?c) ?s ?k) with (orelse (run total a s (fun s' => run total c s' k)) (run total b s (fun s' => run total c s' k))).
  f_equal.
  - change (run total Bos ?s ?k) with (if length (rest s) =? total then k s else None). cbn [rest]. rewrite run_batch. reflexivity.
  - cbn [run rest]. destruct l as [|x t]; [reflexivity|]. destruct (not_word x); [|reflexivity].
    apply (run_batch total {| rest := t; groups := mk None None |}).
Qed.

(** ** the marker *)
Definition starts (w l : list N) : bool := (fix go w l := match w, l with [], _ => true | c :: w', x :: t => same c x && go w' t | _, [] => false end) w l.
Lemma same_letter c x : same c x = true <-> letter c x.
Proof.
  unfold same, letter. rewrite !Bool.orb_true_iff, !Bool.andb_true_iff, Bool.orb_true_iff, !N.eqb_eq, N.leb_le.
  split; [intros [[A|[A C]]|[A C]]|intros [A|[[A C]|[A C]]]]; auto; try (right; left; lia). left. right. lia.
Qed.
Lemma starts_spec w l : starts w l = true <-> exists m z, l = m ++ z /\ written w m.
Proof.
  revert l. induction w as [|c w IH]; intros l; [split; [intros _; exists [], l; split; [reflexivity|constructor]|reflexivity]|].
  destruct l as [|x t].
  - split; [discriminate|]. intros (m & z & E & W). inversion W; subst. discriminate.
  - cbn. change ((fix go w l := match w, l with [], _ => true | c :: w', x :: t => same c x && go w' t | _, [] => false end) w t) with (starts w t).
    rewrite Bool.andb_true_iff, same_letter, IH. split.
    + intros (L & m & z & -> & W). exists (x :: m), z. split; [reflexivity|]. constructor; auto.
    + intros (m & z & E & W). inversion W as [|? y ? m' L W']; subst. injection E as <- ->. split; [exact L|]. exists m', z. auto.
Qed.
Lemma run_lits total w s k : w <> [] -> run total (lits w) s k = if starts w (rest s) then k (moved s (skipn (length w) (rest s))) else None.
Proof.
  intros _. revert s. induction w as [|c w IH]; intros s.
  - cbn. destruct s as [l g]. cbn. destruct l; reflexivity.
  - destruct w as [|c2 w].
    + cbn. destruct (rest s) as [|x t]; [reflexivity|]. rewrite Bool.andb_true_r. reflexivity.
    + change (run total (lits (c :: c2 :: w)) s k) with (run total (Lit c) s (fun s' => run total (lits (c2 :: w)) s' k)).
      cbn [run]. destruct (rest s) as [|x t] eqn:R; [reflexivity|].
      change (starts (c :: c2 :: w) (x :: t)) with (same c x && starts (c2 :: w) t). destruct (same c x); [|reflexivity].
      rewrite IH. reflexivity.
Qed.
Lemma lazy_some f l k : lazy f l k <> None <-> exists a z, l = a ++ z /\ Forall (fun c => f c = true) a /\ k z <> None.
Proof.
  induction l as [|x t IH]; cbn.
  - split.
    + intros H. exists [], []. repeat split; [constructor|]. destruct (k []); [discriminate|exact H].
    + intros (a & z & E & _ & K). destruct a; [|discriminate]. cbn in E. subst z. destruct (k []); [discriminate|congruence].
  - destruct (k (x :: t)) eqn:E; cbn.
    + split; [|discriminate]. intros _. exists [], (x :: t). repeat split; [constructor|congruence].
    + split.
      * intros H. destruct (f x) eqn:F; [|congruence]. apply IH in H as (a & z & -> & A & K). exists (x :: a), z. repeat split; auto.
      * intros (a & z & L & A & K). destruct a as [|y a]; [cbn in L; subst z; congruence|]. injection L as <- L. inversion A; subst.
        rewrite H1. apply IH. eauto.
Qed.
Lemma dot_all l : ~ In 10%N l -> Forall (fun c => dot c = true) l.
Proof. intros H. apply Forall_forall. intros x I. unfold dot. destruct (N.eqb_spec x 10); [subst; contradiction|reflexivity]. Qed.
Lemma run_ahead total w s : ~ In 10%N (rest s) -> w <> [] -> run total (marker w) s (fun s' => Some (groups s')) <> None <-> marked w (rest s).
Proof.
  intros L W. unfold marker. change (run total (Or ?a ?b) s ?k) with (orelse (run total a s k) (run total b s k)).
  assert (run total (lits w) s (fun s' => Some (groups s')) <> None <-> exists m z, rest s = m ++ z /\ written w m) as B2.
  { rewrite run_lits by exact W. rewrite <- starts_spec. destruct (starts w (rest s)); split; congruence. }
  assert (run total (Seq (Lazy dot) (lits (46%N :: w))) s (fun s' => Some (groups s')) <> None <-> exists a m z, rest s = a ++ m ++ z /\ written (46%N :: w) m) as B1.
  { change (run total (Seq (Lazy dot) ?b) s ?k) with (lazy dot (rest s) (fun l => run total b (moved s l) k)).
    rewrite lazy_some. split.
    - intros (a & z & E & _ & K). rewrite run_lits in K by discriminate. destruct (starts (46%N :: w) (rest (moved s z))) eqn:S; [|congruence].
      apply starts_spec in S as (m & z' & E' & M). cbn in E'. exists a, m, z'. split; [congruence|exact M].
    - intros (a & m & z & E & M). exists a, (m ++ z). split; [exact E|]. split.
      + apply dot_all. intros I. apply L. rewrite E. apply in_or_app. auto.
      + rewrite run_lits by discriminate. assert (starts (46%N :: w) (rest (moved s (m ++ z))) = true) as -> by (apply starts_spec; exists m, z; auto).
        discriminate. }
  unfold marked. rewrite <- B1, <- B2. clear B1 B2. destruct (run total (Seq (Lazy dot) (lits (46%N :: w))) s (fun s' => Some (groups s'))) as [g|].
  - split; [intros _; left; discriminate|intros _; discriminate].
  - cbn [orelse]. split; [auto|]. intros [A|A]; [congruence|exact A].
Qed.

(** ** leftmost place *)
Definition suffixes_fail (k : list N -> option captures) (a z : list N) : Prop :=
  forall a1 a2, a = a1 ++ a2 -> a2 <> [] -> k (a2 ++ z) = None.
Lemma lazy_first l k r : ~ In 10%N l -> lazy dot l k = Some r <-> exists a z, l = a ++ z /\ k z = Some r /\ suffixes_fail k a z.
Proof.
  induction l as [|x t IH]; intros L; cbn [lazy].
  - split.
    + intros H. exists [], []. split; [reflexivity|]. split; [destruct (k []); cbn in H; congruence|]. intros a1 a2 E F. destruct a1, a2; cbn in E; congruence.
    + intros (a & z & E & K & _). destruct a; [|discriminate]. cbn in E. subst z. rewrite K. reflexivity.
  - assert (dot x = true) as D by (unfold dot; destruct (N.eqb_spec x 10); [subst; exfalso; apply L; left; reflexivity|reflexivity]).
    rewrite D. assert (~ In 10%N t) as L' by (intros C; apply L; right; exact C). specialize (IH L').
    destruct (k (x :: t)) as [r'|] eqn:E; cbn [orelse].
    + split.
      * intros [= <-]. exists [], (x :: t). split; [reflexivity|]. split; [exact E|]. intros a1 a2 F G. destruct a1, a2; cbn in F; congruence.
      * intros (a & z & F & K & S). destruct a as [|y a]; [cbn in F; subst z; congruence|]. exfalso.
        specialize (S [] (y :: a) eq_refl ltac:(discriminate)). rewrite <- F in S. congruence.
    + rewrite IH. split.
      * intros (a & z & -> & K & S). exists (x :: a), z. split; [reflexivity|]. split; [exact K|].
        intros a1 a2 F G. destruct a1 as [|y a1]; [cbn in F; subst a2; exact E|]. injection F as <- F. exact (S a1 a2 F G).
      * intros (a & z & F & K & S). destruct a as [|y a]; [cbn in F; subst z; congruence|]. injection F as <- F. exists a, z. split; [exact F|]. split; [exact K|].
        intros a1 a2 G H. exact (S (x :: a1) a2 ltac:(cbn; congruence) H).
Qed.

Lemma matched_groups_run r name : ~ In 10%N name ->
  matched_groups r name <> None -> marked (word_of r) name /\ matched_groups r name = lazy dot name (at_place (length name)).
Proof.
  intros L. unfold matched_groups, default_pattern. set (s0 := {| rest := name; groups := {| batch := None; case := None |} |}).
  change (run ?t (Seq Bos ?b) s0 ?k) with (if length name =? t then run t b s0 k else None). rewrite Nat.eqb_refl.
  change (run ?t (Seq (Ahead ?a) ?b) s0 ?k) with (match run t a s0 (fun s' => Some (groups s')) with Some _ => run t b s0 k | None => None end).
  pose proof (run_ahead (length name) (word_of r) s0 L ltac:(destruct r; discriminate)) as A.
  destruct (run (length name) (marker (word_of r)) s0 (fun s' => Some (groups s'))); [|congruence].
  intros H. split; [apply A; discriminate|].
  change (run ?t (Seq (Lazy dot) ?b) s0 ?k) with (lazy dot name (fun l => run t b (moved s0 l) k)).
  apply lazy_ext. intros l. apply (run_numbers (length name) l).
Qed.
Lemma matched_groups_marked r name : ~ In 10%N name -> marked (word_of r) name -> matched_groups r name = lazy dot name (at_place (length name)).
Proof.
  intros L M. unfold matched_groups, default_pattern. set (s0 := {| rest := name; groups := {| batch := None; case := None |} |}).
  change (run ?t (Seq Bos ?b) s0 ?k) with (if length name =? t then run t b s0 k else None). rewrite Nat.eqb_refl.
  change (run ?t (Seq (Ahead ?a) ?b) s0 ?k) with (match run t a s0 (fun s' => Some (groups s')) with Some _ => run t b s0 k | None => None end).
  pose proof (run_ahead (length name) (word_of r) s0 L ltac:(destruct r; discriminate)) as A. apply A in M.
  destruct (run (length name) (marker (word_of r)) s0 (fun s' => Some (groups s'))); [|congruence].
  change (run ?t (Seq (Lazy dot) ?b) s0 ?k) with (lazy dot name (fun l => run t b (moved s0 l) k)).
  apply lazy_ext. intros l. apply (run_numbers (length name) l).
Qed.

(** ** what is found at a place *)
Lemma case_at_spec b l r : ~ In 10%N l -> case_at b l = Some r <-> exists d y, l = d ++ y /\ number d /\ plain y /\ r = mk b (Some d).
Proof.
  intros L. unfold case_at. split.
  - destruct (takew is_digit l) as [|x t] eqn:E; [discriminate|]. destruct (tail (dropw is_digit l)) eqn:T; [|discriminate]. intros [= <-].
    exists (x :: t), (dropw is_digit l). split; [rewrite <- E; apply take_drop|]. split; [split; [discriminate|rewrite <- E; apply takew_all]|].
    split; [|reflexivity]. apply tail_spec; [|exact T]. intros I. apply L. rewrite (take_drop is_digit l). apply in_or_app. auto.
  - intros (d & y & -> & [N0 D] & Y & ->).
    assert (forall x t, y = x :: t -> is_digit x = false) as H by (intros x t ->; inversion Y as [|? ? [F _] _]; exact F).
    destruct (takew_app is_digit d y D H) as [-> ->]. destruct d as [|x t]; [congruence|].
    assert (tail y = true) as ->; [|reflexivity]. apply tail_spec; [|exact Y]. intros I. apply L, in_or_app. auto.
Qed.
Lemma batch_at_spec l r : ~ In 10%N l ->
  batch_at l = Some r <-> exists b x d y, l = b ++ x ++ d ++ y /\ number b /\ plain x /\ x <> [] /\ number d /\ plain y /\ r = mk (Some b) (Some d).
Proof.
  intros L. unfold batch_at. split.
  - destruct (takew is_digit l) as [|c b] eqn:E; [discriminate|]. destruct (dropw is_digit l) as [|x t] eqn:F; [discriminate|].
    destruct (other x) eqn:O; [|discriminate]. intros H. pose proof (take_drop is_digit l) as T. rewrite E, F in T.
    pose proof (take_drop other (x :: t)) as T2.
    apply case_at_spec in H as (d & y & D & Nd & Y & ->).
    + exists (c :: b), (takew other (x :: t)), d, y. split; [rewrite T; f_equal; rewrite T2 at 1; f_equal; exact D|].
      split; [split; [discriminate|rewrite <- E; apply takew_all]|]. split; [apply plain_spec, takew_all|].
      split; [cbn; rewrite O; discriminate|]. auto.
    + intros I. apply L. rewrite T. apply in_or_app. right. rewrite T2. apply in_or_app. auto.
  - intros (b & x & d & y & -> & [Nb D] & X & Nx & [Nd D2] & Y & ->). destruct x as [|x0 x]; [congruence|].
    assert (forall z t, (x0 :: x) ++ d ++ y = z :: t -> is_digit z = false) as H.
    { intros z t [= <- _]. inversion X as [|? ? [F _] _]. exact F. }
    destruct (takew_app is_digit b _ D H) as [-> ->]. destruct b as [|c b]; [congruence|]. cbn [app].
    assert (other x0 = true) as O by (apply plain_spec in X; inversion X; auto). rewrite O.
    change (x0 :: x ++ d ++ y) with ((x0 :: x) ++ d ++ y).
    destruct d as [|e d]; [congruence|].
    assert (forall z t, (e :: d) ++ y = z :: t -> other z = false) as H2.
    { intros z t [= <- _]. apply digit_not_other. inversion D2; auto. }
    destruct (takew_app other (x0 :: x) _ (proj1 (plain_spec _) X) H2) as [_ ->].
    apply case_at_spec.
    + intros I. apply L. apply in_or_app. right. apply in_or_app. right. exact I.
    + exists (e :: d), y. repeat split; auto; discriminate.
Qed.

(** ** a name has one last number *)
Lemma last_number_unique name pre c pre' c' : last_number name pre c -> last_number name pre' c' -> pre = pre' /\ c = c'.
Proof.
  assert (forall name pre c, last_number name pre c ->
    c = rev (takew is_digit (dropw (fun x => negb (is_digit x)) (rev name))) /\ pre = rev (dropw is_digit (dropw (fun x => negb (is_digit x)) (rev name)))) as U.
  { clear. intros name pre c (y & -> & [N0 D] & Y & P). rewrite !rev_app_distr, <- app_assoc.
    assert (Forall (fun x => negb (is_digit x) = true) (rev y)) as A.
    { apply Forall_rev. eapply Forall_impl; [|exact Y]. intros a [E _]. rewrite E. reflexivity. }
    assert (Forall (fun x => is_digit x = true) (rev c)) as A2 by (apply Forall_rev, D).
    assert (forall z t, rev c ++ rev pre = z :: t -> negb (is_digit z) = false) as H.
    { intros z t E. assert (rev c <> []) as R by (intros R; apply N0; rewrite <- (rev_involutive c), R; reflexivity).
      destruct (rev c) as [|w u]; [congruence|]. injection E as <- _. inversion A2; subst. rewrite H1. reflexivity. }
    destruct (takew_app _ _ _ A H) as [_ ->].
    assert (forall z t, rev pre = z :: t -> is_digit z = false) as H2.
    { intros z t E. apply (P (rev t) z). rewrite <- (rev_involutive pre), E. reflexivity. }
    destruct (takew_app _ _ _ A2 H2) as [-> ->]. rewrite !rev_involutive. auto. }
  intros A C. destruct (U _ _ _ A) as [-> ->], (U _ _ _ C) as [-> ->]. auto.
Qed.
Lemma word_not_digit s : is_word s = false -> is_digit s = false.
Proof.
  intros W. destruct (is_digit s) eqn:E; [|reflexivity]. exfalso.
  unfold is_digit in E. apply Bool.orb_true_iff in E as [E|E].
  - unfold is_word in W. apply Bool.orb_false_iff in W as [W _]. rewrite E in W. discriminate.
  - unfold is_word in W. apply Bool.orb_false_iff in W as [_ W].
    unfold in_ranges in *. apply existsb_exists in E as (r & I & E).
    assert (forallb (fun r => existsb (fun q => (fst q <=? fst r) && (snd r <=? snd q))%N word_ranges) digit_ranges = true) as Sub by (vm_compute; reflexivity).
    rewrite forallb_forall in Sub. specialize (Sub r I). apply existsb_exists in Sub as (q & Iq & Q).
    assert (existsb (fun r => (fst r <=? s) && (s <=? snd r))%N word_ranges = true); [|congruence].
    apply existsb_exists. exists q. split; [exact Iq|]. apply Bool.andb_true_iff in E as [E1 E2], Q as [Q1 Q2].
    apply N.leb_le in E1, E2, Q1, Q2. apply Bool.andb_true_iff. split; apply N.leb_le; lia.
Qed.
Lemma own_number_unique pre b b' : own_number pre b -> own_number pre b' -> b = b'.
Proof.
  assert (forall pre b, own_number pre b -> exists q, last_number pre q b) as U.
  { clear. intros pre b (q & x & E & Nb & X & _ & Q). exists q, x. repeat split; auto; try apply Nb.
    intros p d ->. destruct Q as [Q|(q' & s & Q & W)]; [destruct p; discriminate|]. apply app_inj_tail in Q as [_ ->]. apply word_not_digit, W. }
  intros A C. destruct (U _ _ A) as [q Q], (U _ _ C) as [q' Q']. apply (last_number_unique _ _ _ _ _ Q Q').
Qed.
Lemma position_unique name b c b' c' : position name b c -> position name b' c' -> b = b' /\ c = c'.
Proof.
  intros (p & L & A) (p' & L' & A'). destruct (last_number_unique _ _ _ _ _ L L') as [<- <-]. split; [|reflexivity].
  destruct b as [n|], b' as [n'|]; auto; try (exfalso; eapply A; eassumption); try (exfalso; eapply A'; eassumption).
  f_equal. eapply own_number_unique; eassumption.
Qed.

(** ** the match and the position *)
Lemma snoc_case {A} (l : list A) : l = [] \/ exists p x, l = p ++ [x].
Proof. destruct l using rev_ind; [left; reflexivity|right; eauto]. Qed.
Lemma plain_app_hd y : plain y -> forall x t, y = x :: t -> is_digit x = false.
Proof. intros Y x t ->. inversion Y as [|? ? [F _] _]. exact F. Qed.
Lemma end_not_digit pre x : plain x -> x <> [] -> forall p d, pre ++ x = p ++ [d] -> is_digit d = false.
Proof.
  intros X Nx p d E. destruct (snoc_case x) as [->|(x' & e & ->)]; [congruence|].
  rewrite app_assoc in E. apply app_inj_tail in E as [_ <-]. unfold plain in X. rewrite Forall_app in X. destruct X as [_ X]. inversion X as [|? ? [F _] _]. exact F.
Qed.
Lemma batch_place total name q b x c y :
  total = length name -> ~ In 10%N name -> name = q ++ b ++ x ++ c ++ y -> number b -> plain x -> x <> [] -> number c -> plain y ->
  (q = [] \/ exists q' s, q = q' ++ [s] /\ is_word s = false) ->
  exists p z, name = p ++ z /\ at_place total z <> None /\ length p <= length q.
Proof.
  intros T L E Nb X Nx Nc Y Q.
  assert (batch_at (b ++ x ++ c ++ y) = Some (mk (Some b) (Some c))) as H.
  { apply batch_at_spec; [intros I; apply L; rewrite E; apply in_or_app; auto|]. exists b, x, c, y. repeat split; auto; try apply Nb; apply Nc. }
  destruct Q as [->|(q' & s & -> & W)].
  - exists [], name. split; [reflexivity|]. split; [|cbn; lia]. unfold at_place. rewrite T, Nat.eqb_refl, E. cbn [app]. rewrite H. discriminate.
  - exists q', (s :: b ++ x ++ c ++ y). rewrite <- app_assoc in E. split; [exact E|]. split; [|rewrite app_length; lia].
    unfold at_place. rewrite H. unfold not_word. rewrite W. cbn [negb].
    destruct (if length (s :: b ++ x ++ c ++ y) =? total then batch_at (s :: b ++ x ++ c ++ y) else None); discriminate.
Qed.
Lemma found_position name g : ~ In 10%N name -> lazy dot name (at_place (length name)) = Some g ->
  exists b c, position name b c /\ g = mk b (Some c).
Proof.
  intros L H. apply lazy_first in H as (p & z & E & K & F); [|exact L].
  assert (forall l, (exists a, name = a ++ l) -> ~ In 10%N l) as Ls by (intros l (a & Ea) I; apply L; rewrite Ea; apply in_or_app; auto).
  assert (forall q l, name = q ++ l -> (q = [] \/ exists q' s, q = q' ++ [s] /\ is_word s = false) -> batch_at l = Some g ->
          exists b c, position name b c /\ g = mk b (Some c)) as BB.
  { intros q l En Q H. apply batch_at_spec in H as (b & x & d & y & El & Nb & X & Nx & Nd & Y & ->); [|apply Ls; eauto].
    exists (Some b), d. split; [|reflexivity]. exists (q ++ b ++ x). split.
    - exists y. split; [rewrite En, El, <- !app_assoc; reflexivity|]. split; [exact Nd|]. split; [exact Y|].
      intros p0 d0 E0. rewrite app_assoc in E0. exact (end_not_digit _ _ X Nx _ _ E0).
    - exists q, x. repeat split; auto; apply Nb. }
  unfold at_place in K.
  destruct (if length z =? length name then batch_at z else None) as [g'|] eqn:K1.
  { cbn in K. injection K as ->. destruct (Nat.eqb_spec (length z) (length name)) as [Le|]; [|discriminate].
    assert (p = []) as ->. { rewrite E, app_length in Le. destruct p; [reflexivity|cbn in Le; lia]. }
    apply (BB [] z); auto. }
  destruct (match z with x :: t => if not_word x then batch_at t else None | [] => None end) as [g'|] eqn:K2.
  { cbn in K. injection K as ->. destruct z as [|s t]; [discriminate|]. destruct (not_word s) eqn:W; [|discriminate].
    apply (BB (p ++ [s]) t); [rewrite <- app_assoc; exact E| |exact K2]. right. exists p, s. split; [reflexivity|].
    unfold not_word in W. destruct (is_word s); [discriminate|reflexivity]. }
  cbn [orelse] in K. apply case_at_spec in K as (d & y & Ez & Nd & Y & ->); [|apply Ls; eauto].
  exists None, d. split; [|reflexivity].
  assert (forall p0 d0, p = p0 ++ [d0] -> is_digit d0 = false) as Pre.
  { intros p0 d0 ->. destruct (is_digit d0) eqn:D; [|reflexivity]. exfalso.
    specialize (F p0 [d0] eq_refl ltac:(discriminate)). cbn [app] in F. unfold at_place in F.
    destruct (if length (d0 :: z) =? length name then batch_at (d0 :: z) else None); [discriminate|].
    destruct (if not_word d0 then batch_at z else None); [discriminate|]. cbn [orelse] in F.
    assert (case_at None (d0 :: z) = Some (mk None (Some (d0 :: d)))) as C; [|congruence].
    apply case_at_spec; [apply Ls; exists p0; rewrite E, <- app_assoc; reflexivity|]. exists (d0 :: d), y. split; [rewrite Ez; reflexivity|].
    split; [split; [discriminate|constructor; [exact D|apply Nd]]|]. auto. }
  exists p. split.
  - exists y. split; [rewrite E, Ez; reflexivity|]. auto.
  - intros n (q & x & Ep & Nn & X & Nx & Q).
    assert (name = q ++ n ++ x ++ d ++ y) as En by (rewrite E, Ez, Ep, <- !app_assoc; reflexivity).
    destruct (batch_place (length name) name q n x d y eq_refl L En Nn X Nx Nd Y Q) as (p1 & z1 & E1 & K3 & Le).
    assert (length p1 < length p) as Lt. { rewrite Ep, !app_length. destruct n as [|? n]; [destruct Nn; congruence|]. cbn. lia. }
    assert (exists a2, p = p1 ++ a2) as (a2 & Ea).
    { rewrite E in E1. clear -E1 Lt. revert p E1 Lt. induction p1 as [|x p1 IH]; intros p E1 Lt; [exists p; reflexivity|].
      destruct p as [|y p]; [cbn in Lt; lia|]. injection E1 as <- E1. destruct (IH p E1 ltac:(cbn in Lt; lia)) as (a & ->). exists a. reflexivity. }
    assert (a2 <> []) as Na by (intros ->; rewrite app_nil_r in Ea; subst; lia).
    apply K3. rewrite <- (F p1 a2 Ea Na). f_equal. rewrite E, Ea, <- app_assoc in E1. apply app_inv_head in E1. symmetry. exact E1.
Qed.
Lemma position_found name b c : ~ In 10%N name -> position name b c -> lazy dot name (at_place (length name)) = Some (mk b (Some c)).
Proof.
  intros L P. assert (lazy dot name (at_place (length name)) <> None) as H.
  { apply lazy_some. destruct P as (pre & (y & E & Nc & Y & Pre) & Bt).
    exists pre, (c ++ y). split; [exact E|]. split; [apply dot_all; intros I; apply L; rewrite E; apply in_or_app; auto|].
    unfold at_place. assert (case_at None (c ++ y) = Some (mk None (Some c))) as ->.
    - apply case_at_spec; [intros I; apply L; rewrite E; apply in_or_app; auto|]. exists c, y. auto.
    - match goal with |- orelse ?a _ <> None => destruct a end; discriminate. }
  destruct (lazy dot name (at_place (length name))) as [g|] eqn:E; [|congruence].
  destruct (found_position name g L E) as (b' & c' & P' & ->). destruct (position_unique _ _ _ _ _ P P') as [<- <-]. reflexivity.
Qed.
Lemma mark_word r : word_of r = mark r. Proof. destruct r; reflexivity. Qed.
Theorem groups_spec r name b c : ~ In 10%N name ->
  matched_groups r name = Some {| batch := b; case := Some c |} <-> marked (mark r) name /\ position name b c.
Proof.
  intros L. rewrite <- mark_word. split.
  - intros H. assert (matched_groups r name <> None) as K by (rewrite H; discriminate). destruct (matched_groups_run r name L K) as [M E]. split; [exact M|]. rewrite H in E.
    destruct (found_position name _ L (eq_sym E)) as (b' & c' & P & [= -> ->]). exact P.
  - intros [M P]. rewrite (matched_groups_marked r name L M). apply position_found; assumption.
Qed.
Theorem groups_none r name : ~ In 10%N name ->
  matched_groups r name = None <-> ~ (marked (mark r) name /\ exists b c, position name b c).
Proof.
  intros L. split.
  - intros H (M & b & c & P). assert (matched_groups r name = Some {| batch := b; case := Some c |}) by (apply groups_spec; auto). congruence.
  - intros H. destruct (matched_groups r name) as [g|] eqn:E; [|reflexivity]. exfalso. apply H.
    assert (matched_groups r name <> None) as K by (rewrite E; discriminate). destruct (matched_groups_run r name L K) as [M E']. rewrite mark_word in M. split; [exact M|].
    rewrite E in E'. destruct (found_position name _ L (eq_sym E')) as (b' & c' & P & _). eauto.
Qed.

(** ** files named after a stem *)
Lemma plain_letters w m : Forall (fun c => 97 <= c)%N w -> written w m -> ~ In 46%N m.
Proof.
  intros G W I. induction W as [|c x w m L W IH]; [contradiction|]. inversion G; subst. destruct I as [->|I]; [|exact (IH H2 I)].
  unfold letter in L. lia.
Qed.
Definition letters (w : list N) : Prop := Forall (fun c => 97 <= c)%N w.
Lemma marked_stem w s e : letters w -> ~ In 46%N e -> (forall m z, e = m ++ z -> ~ written w m) -> marked w (s ++ 46%N :: e) -> marked w s.
Proof.
  intros Lw De Ne [(a & m & z & E & W)|(m & z & E & W)].
  - left. inversion W as [|? x ? m' L W']; subst. assert (x = 46%N) as -> by (unfold letter in L; lia).
    pose proof (plain_letters w m' Lw W') as D. cbn [app] in E.
    apply app_eq_app in E as [l [[E1 E2]|[E1 E2]]].
    + destruct l as [|c l]; [|].
      * cbn in E2. injection E2 as E2. exfalso. exact (Ne m' z (eq_sym E2) W').
      * injection E2 as <- E2. subst. exists a, (46%N :: m').
        apply eq_sym, app_eq_app in E2 as [k [[F1 F2]|[F1 F2]]].
        -- subst l. exists k. split; [reflexivity|]. constructor; auto.
        -- destruct k as [|d k].
           ++ rewrite app_nil_r in F1. subst. exists []. rewrite app_nil_r. split; [reflexivity|]. constructor; auto.
           ++ injection F2 as <- _. exfalso. apply D. rewrite F1. apply in_or_app. right. left. reflexivity.
    + destruct l as [|c l].
      * cbn in E2. injection E2 as E2. exfalso. exact (Ne m' z E2 W').
      * injection E2 as <- E2. exfalso. apply De. rewrite E2. apply in_or_app. right. left. reflexivity.
  - right. pose proof (plain_letters w m Lw W) as D.
    apply app_eq_app in E as [l [[E1 E2]|[E1 E2]]].
    + subst. exists m, l. auto.
    + destruct l as [|c l].
      * rewrite app_nil_r in E1. subst. exists s, []. rewrite app_nil_r. auto.
      * injection E2 as <- _. exfalso. apply D. rewrite E1. apply in_or_app. right. left. reflexivity.
Qed.

Lemma marked_end w s m z : written (46%N :: w) m -> marked w (s ++ m ++ z).
Proof. intros W. left. exists s, m, z. auto. Qed.
Lemma written_refl w : written w w.
Proof. induction w; constructor; auto. left. reflexivity. Qed.
Lemma position_suffix s e b c : plain e -> position (s ++ e) b c <-> position s b c.
Proof.
  intros P. split; intros (pre & (y & E & Nc & Y & Pre) & Bt); exists pre; (split; [|exact Bt]).
  - assert (exists y', s = pre ++ c ++ y' /\ plain y') as (y' & Es & Y').
    { rewrite app_assoc in E. apply app_eq_app in E as [l [[E1 E2]|[E1 E2]]].
      - exists l. rewrite app_assoc. split; [exact E1|]. subst y. unfold plain in *. rewrite Forall_app in Y. tauto.
      - destruct l as [|x l].
        + rewrite app_nil_r in E1. exists []. rewrite app_nil_r. split; [congruence|constructor].
        + exfalso. destruct (snoc_case (x :: l)) as [F|(l' & d & F)]; [discriminate|]. rewrite F in *.
          assert (exists c', c = c' ++ [d]) as (c' & Ec).
          { destruct (snoc_case c) as [->|(c' & d' & ->)]; [destruct Nc; congruence|]. rewrite !app_assoc in E1. apply app_inj_tail in E1 as [_ ->]. eauto. }
          destruct Nc as [_ Nc]. rewrite Ec in Nc. apply Forall_app in Nc as [_ Nc]. inversion Nc as [|? ? D _]; subst.
          unfold plain in P. rewrite !Forall_app in P. destruct P as [[_ P] _]. inversion P as [|? ? [D' _] _]. congruence. }
    exists y'. auto.
  - exists (y ++ e). split; [rewrite E, <- !app_assoc; reflexivity|]. split; [exact Nc|]. split; [|exact Pre]. unfold plain in *. rewrite Forall_app. auto.
Qed.
Definition suffix (r : role) : list N := match r with InputFile => B ".in" | OutputFile => B ".out" end.
Definition value_id (s : list N) : id := IInt (int_value s).
Lemma suffix_plain r : plain (suffix r).
Proof.
  destruct r; unfold plain; repeat constructor; try (rewrite digit_ascii by reflexivity; reflexivity);
    try (rewrite <- space_spec; discriminate).
Qed.
Lemma default_parse_spec r name b c : ~ In 10%N name ->
  (marked (mark r) name /\ position name b c) -> default_parse r name = Some (option_map value_id b, Some (value_id c)).
Proof. intros L H. apply (groups_spec r name b c L) in H. unfold default_parse. rewrite H. reflexivity. Qed.
Lemma default_parse_inv r name bi ci : ~ In 10%N name -> default_parse r name = Some (bi, ci) ->
  marked (mark r) name /\ exists b c, position name b c /\ bi = option_map value_id b /\ ci = Some (value_id c).
Proof.
  intros L. unfold default_parse. destruct (matched_groups r name) as [g|] eqn:E; [|discriminate]. intros [= <- <-].
  assert (matched_groups r name <> None) as K by (rewrite E; discriminate). destruct (matched_groups_run r name L K) as [M E']. rewrite mark_word in M. split; [exact M|].
  rewrite E in E'. destruct (found_position name _ L (eq_sym E')) as (b' & c' & P & ->). exists b', c'. auto.
Qed.
Lemma no_lf_app a b : ~ In 10%N a -> ~ In 10%N b -> ~ In 10%N (a ++ b).
Proof. intros A C I. apply in_app_or in I. tauto. Qed.
Lemma suffix_no_lf r : ~ In 10%N (suffix r).
Proof. destruct r; cbn; intuition discriminate. Qed.
(** a file named after a stem, in its own role *)
Lemma stem_parse r s b c : ~ In 10%N s -> position s b c -> default_parse r (s ++ suffix r) = Some (option_map value_id b, Some (value_id c)).
Proof.
  intros L P. apply default_parse_spec; [apply no_lf_app; [exact L|apply suffix_no_lf]|]. split.
  - rewrite <- (app_nil_r (suffix r)). apply marked_end. destruct r; apply written_refl.
  - apply position_suffix; [apply suffix_plain|exact P].
Qed.
Lemma letters_mark r : letters (mark r).
Proof. unfold letters. destruct r; apply Forall_forall; intros x I; cbn in I; intuition (subst; lia). Qed.
Lemma stem_other r r' s : r <> r' -> ~ In 10%N s -> ~ marked (mark r) s -> default_parse r (s ++ suffix r') = None.
Proof.
  intros D L M. destruct (default_parse r (s ++ suffix r')) as [[bi ci]|] eqn:E; [|reflexivity]. exfalso. apply M.
  apply default_parse_inv in E as [E _]; [|apply no_lf_app; [exact L|apply suffix_no_lf]].
  assert (exists e, suffix r' = 46%N :: e /\ ~ In 46%N e /\ forall m z, e = m ++ z -> ~ written (mark r) m) as (e & Es & De & Ne).
  { destruct r, r'; try congruence; (eexists; split; [reflexivity|]; split; [cbn; intuition discriminate|]); intros m z Em W.
    - inversion W as [|? x ? m1 L1 W1]; subst. injection Em as <- _. unfold letter in L1. lia.
    - inversion W as [|? x ? m1 L1 W1]; subst. injection Em as <- _. unfold letter in L1. lia. }
  rewrite Es in E. exact (marked_stem _ _ _ (letters_mark r) De Ne E).
Qed.

(** ** archives laid out by a plan *)
From Verif Require Import Model.Access Spec.Access.
From Verif Require Proofs.Access Proofs.Problem.
Lemma ascii_digit c : (48 <= c <= 57)%N -> is_digit c = true /\ digit_value c = (c - 48)%N.
Proof.
  intros H. assert (((48 <=? c) && (c <=? 57))%N = true) as E by (apply Bool.andb_true_iff; split; apply N.leb_le; lia).
  unfold is_digit, digit_value. rewrite E. auto.
Qed.
Lemma int_value_ascii s : Forall (fun c => (48 <= c <= 57)%N) s -> int_value s = Z.of_N (numeral_value s).
Proof.
  intros F. unfold int_value, numeral_value. f_equal. generalize 0%N. induction F as [|c s H F IH]; intros a; [reflexivity|].
  cbn [fold_left]. destruct (ascii_digit c H) as [_ ->]. apply IH.
Qed.
Lemma decimal_number n : number (decimal n) /\ value_id (decimal n) = IInt (Z.of_N n) /\ ~ In 10%N (decimal n).
Proof.
  destruct (Proofs.Access.decimal_spec n) as (V & F & Ne). split; [split; [exact Ne|]|split].
  - eapply Forall_impl; [|exact F]. intros c H. apply ascii_digit, H.
  - unfold value_id. rewrite int_value_ascii by exact F. rewrite V. reflexivity.
  - intros I. rewrite Forall_forall in F. specialize (F _ I). lia.
Qed.
Lemma sorted_unique (l l' : list id) : StronglySorted id_lt l -> StronglySorted id_lt l' -> (forall x, In x l <-> In x l') -> l = l'.
Proof.
  intros S. revert l'. induction S as [|x l S IH F]; intros l' S' E.
  - destruct l' as [|y l']; [reflexivity|]. exfalso. apply (E y). left. reflexivity.
  - destruct S' as [|y l' S' F']; [exfalso; apply (E x); left; reflexivity|].
    rewrite Forall_forall in F, F'.
    assert (x = y) as <-.
    { destruct (proj1 (E x) (or_introl eq_refl)) as [->|I]; [reflexivity|]. destruct (proj2 (E y) (or_introl eq_refl)) as [->|I']; [reflexivity|].
      exfalso. apply (Proofs.Problem.id_lt_irrefl x). eapply Proofs.Problem.id_lt_trans; [apply F, I'|apply F', I]. }
    f_equal. apply IH; [exact S'|]. intros z. split; intros I.
    + destruct (proj1 (E z) (or_intror I)) as [<-|I']; [exfalso; apply (Proofs.Problem.id_lt_irrefl x), F, I|exact I'].
    + destruct (proj2 (E z) (or_intror I)) as [<-|I']; [exfalso; apply (Proofs.Problem.id_lt_irrefl x), F', I|exact I'].
Qed.
Definition nid (n : N) : id := IInt (Z.of_N n).
Lemma nid_inj a b : nid a = nid b -> a = b.
Proof. unfold nid. intros [= H]. lia. Qed.
Lemma sorted_nid l : StronglySorted N.lt l -> StronglySorted id_lt (map nid l).
Proof.
  induction 1 as [|x l S IH F]; [constructor|]. cbn. constructor; [exact IH|]. rewrite Forall_forall in *. intros y I.
  apply in_map_iff in I as (z & <- & I). constructor. specialize (F z I). lia.
Qed.

Section Plan.
  Variables w sep : list N.
  Variable plan : list item.
  Variable names : list (list N).
  Notation single_name := (single_name decimal w). Notation batch_name := (batch_name decimal w sep).
  Notation case_names := (case_names decimal w sep).
  Hypothesis W_digit : Forall (fun c => is_digit c = false) w.
  Hypothesis W_lf : ~ In 10%N w.
  Hypothesis W_end : w = [] \/ exists q s, w = q ++ [s] /\ is_word s = false.
  Hypothesis S_plain : plain sep.
  Hypothesis S_some : sep <> [].
  Hypothesis sorted : StronglySorted N.lt (map number_of plan).
  Hypothesis batches : forall b cs, In (Batched b cs) plan -> (0 < b)%N /\ cs <> [] /\ StronglySorted N.lt cs.
  Hypothesis unmarked : forall i s r, In i plan -> In s (case_names i) -> ~ marked (mark r) s.
  Hypothesis there : forall i s r, In i plan -> In s (case_names i) -> In (s ++ suffix r) names.
  Hypothesis no_others : forall n, In n names ->
    (exists i s r, In i plan /\ In s (case_names i) /\ n = s ++ suffix r) \/ (forall r, default_parse r n = None).

  (** the place of a case of the plan: batch, number, name *)
  Definition placed (b : option N) (c : N) (s : list N) : Prop :=
    match b with
    | None => In (Single c) plan /\ s = single_name c
    | Some x => (exists cs, In (Batched x cs) plan /\ In c cs) /\ s = batch_name x c
    end.
  Lemma placed_item i s : In i plan -> In s (case_names i) -> exists b c, placed b c s.
  Proof using.
    intros I J. destruct i as [k|b cs].
    - destruct J as [<-|[]]. exists None, k. split; auto.
    - apply in_map_iff in J as (c & <- & J). exists (Some b), c. split; [eauto|reflexivity].
  Qed.
  Lemma placed_named b c s : placed b c s -> exists i, In i plan /\ In s (case_names i).
  Proof using.
    destruct b as [b|]; intros [A ->].
    - destruct A as (cs & A & C). exists (Batched b cs). split; [exact A|]. apply in_map. exact C.
    - exists (Single c). split; [exact A|]. left. reflexivity.
  Qed.
  Lemma no_digit_end l : Forall (fun c => is_digit c = false) l -> forall p d, l = p ++ [d] -> is_digit d = false.
  Proof using. intros F p d ->. apply Forall_app in F as [_ F]. inversion F; auto. Qed.
  Lemma placed_position b c s : placed b c s -> position s (option_map decimal b) (decimal c) /\ ~ In 10%N s.
  Proof using W_digit W_lf W_end S_plain S_some.
    clear there no_others unmarked.
    destruct (decimal_number c) as (Nc & _ & Lc). destruct b as [b|]; intros [A ->].
    - destruct (decimal_number b) as (Nb & _ & Lb). split.
      + exists (w ++ decimal b ++ sep). split.
        * exists []. split; [unfold Spec.CaseNames.batch_name; rewrite <- !app_assoc, app_nil_r; reflexivity|]. split; [exact Nc|]. split; [constructor|].
          intros p d E. rewrite app_assoc in E. exact (end_not_digit _ _ S_plain S_some p d E).
        * exists w, sep. repeat split; auto; apply Nb.
      + unfold Spec.CaseNames.batch_name. repeat apply no_lf_app; auto. intros I. unfold plain in S_plain. rewrite Forall_forall in S_plain.
        destruct (S_plain _ I) as [_ K]. apply K. cbn. tauto.
    - split; [|apply no_lf_app; auto]. exists w. split.
      + exists []. split; [rewrite app_nil_r; reflexivity|]. split; [exact Nc|]. split; [constructor|]. apply no_digit_end, W_digit.
      + intros n (q & x & E & [Nn F] & _). rewrite E, !Forall_app in W_digit. destruct W_digit as (_ & D & _).
        destruct n as [|d n]; [congruence|]. inversion F; inversion D; congruence.
  Qed.
  Lemma placed_parse b c s r : placed b c s -> default_parse r (s ++ suffix r) = Some (option_map nid b, Some (nid c)).
  Proof using W_digit W_lf W_end S_plain S_some.
    intros H. destruct (placed_position b c s H) as [P L]. rewrite (stem_parse r s _ _ L P).
    destruct (decimal_number c) as (_ & -> & _). destruct b as [b|]; [|reflexivity]. cbn [option_map]. destruct (decimal_number b) as (_ & -> & _). reflexivity.
  Qed.
  Lemma member_placed r b c n : member default_parse names r b c n <-> exists b' c' s, placed b' c' s /\ b = option_map nid b' /\ c = nid c' /\ n = s ++ suffix r.
  Proof using W_digit W_lf W_end S_plain S_some unmarked there no_others.
    split.
    - intros [I P]. destruct (no_others n I) as [(i & s & r' & Ii & Is & ->)|U]; [|rewrite U in P; discriminate].
      destruct (placed_item i s Ii Is) as (b' & c' & H). exists b', c', s.
      assert (r = r') as <-.
      { assert ({r = r'} + {r <> r'}) as [E|E] by decide equality; [exact E|]. exfalso.
        rewrite (stem_other r r' s E) in P; [discriminate|apply (placed_position b' c' s H)|exact (unmarked i s r Ii Is)]. }
      rewrite (placed_parse b' c' s r H) in P. injection P as <- <-. auto.
    - intros (b' & c' & s & H & -> & -> & ->). split; [|apply placed_parse; exact H].
      destruct (placed_named b' c' s H) as (i & Ii & Is). exact (there i s r Ii Is).
  Qed.
  Lemma keys_nodup i j : In i plan -> In j plan -> number_of i = number_of j -> i = j.
  Proof using sorted.
    clear -sorted. revert i j. induction plan as [|a l IH]; intros i j I J E; [contradiction|]. cbn in sorted.
    inversion sorted as [|? ? S F]; subst. rewrite Forall_forall in F.
    destruct I as [->|I], J as [->|J]; auto.
    - exfalso. specialize (F _ (in_map number_of _ _ J)). lia.
    - exfalso. specialize (F _ (in_map number_of _ _ I)). lia.
  Qed.
  Lemma group_nid b c : (forall x, b = Some x -> (0 < x)%N) -> group (option_map nid b) (nid c) = nid (match b with Some x => x | None => c end).
  Proof using.
    intros H. destruct b as [x|]; [|reflexivity]. cbn. specialize (H x eq_refl). clear -H. destruct x; [lia|]. reflexivity.
  Qed.
  Lemma placed_pos b c s : placed b c s -> forall x, b = Some x -> (0 < x)%N.
  Proof using batches. intros H x ->. destruct H as [(cs & I & _) _]. apply (batches x cs I). Qed.
  Lemma occurs_placed g c : occurs default_parse names g c <-> exists b c' s, placed b c' s /\ c = nid c' /\ g = nid (match b with Some x => x | None => c' end).
  Proof using W_digit W_lf W_end S_plain S_some unmarked there no_others batches.
    split.
    - intros (r & b & n & M & G). apply member_placed in M as (b' & c' & s & H & -> & -> & ->). exists b', c', s. split; [exact H|]. split; [reflexivity|].
      rewrite <- G. apply group_nid. exact (placed_pos b' c' s H).
    - intros (b & c' & s & H & -> & ->). exists InputFile, (option_map nid b), (s ++ suffix InputFile). split.
      + apply member_placed. exists b, c', s. auto.
      + apply group_nid. exact (placed_pos b c' s H).
  Qed.
  Lemma batch_placed g : is_batch_id default_parse names g <-> exists b cs, In (Batched b cs) plan /\ g = nid b.
  Proof using W_digit W_lf W_end S_plain S_some unmarked there no_others batches.
    split.
    - intros (r & c & n & M). apply member_placed in M as (b' & c' & s & H & E & _ & _). destruct b' as [b|]; [|discriminate].
      injection E as ->. destruct H as [(cs & I & _) _]. exists b, cs. auto.
    - intros (b & cs & I & ->). destruct (batches b cs I) as (_ & Ne & _). destruct cs as [|c cs]; [congruence|].
      exists InputFile, (nid c), (batch_name b c ++ suffix InputFile). apply member_placed. exists (Some b), c, (batch_name b c).
      split; [|auto]. split; [exists (c :: cs); split; [exact I|left; reflexivity]|reflexivity].
  Qed.
  Lemma placed_same b c s b' c' s' : placed b c s -> placed b' c' s' -> c = c' ->
    match b with Some x => x | None => c end = match b' with Some x => x | None => c' end -> s = s'.
  Proof using sorted.
    intros H H' <- E. destruct b as [b|], b' as [b'|]; cbn in *.
    - destruct H as [_ ->], H' as [_ ->]. congruence.
    - exfalso. destruct H as [(cs & I & _) _], H' as [I' _]. pose proof (keys_nodup _ _ I I' E). discriminate.
    - exfalso. destruct H' as [(cs & I & _) _], H as [I' _]. pose proof (keys_nodup _ _ I I' (eq_sym E)). discriminate.
    - destruct H as [_ ->], H' as [_ ->]. reflexivity.
  Qed.
  Lemma last_filed_all (f : list N -> bool) (l : list (list N)) x : (forall y, In y l -> f y = true -> y = x) -> In x l -> f x = true -> hd_error (rev (filter f l)) = Some x.
  Proof using.
    intros U I F. assert (In x (rev (filter f l))) as J by (apply -> in_rev; apply filter_In; auto).
    destruct (rev (filter f l)) as [|y t] eqn:E; [contradiction|]. cbn. f_equal.
    assert (In y (filter f l)) as K by (apply in_rev; rewrite E; left; reflexivity). apply filter_In in K as [K1 K2]. exact (U y K1 K2).
  Qed.
  Lemma files_placed b c s : placed b c s -> files_of default_parse names (nid (match b with Some x => x | None => c end)) (nid c) = files s.
  Proof using W_digit W_lf W_end S_plain S_some unmarked there no_others batches sorted.
    intros H. unfold files_of, files.
    assert (forall r, last_filed default_parse names r (nid (match b with Some x => x | None => c end)) (nid c) = Some (s ++ suffix r)) as F.
    { intros r. apply last_filed_all.
      - intros n I G. unfold filed in G. destruct (default_parse r n) as [[b1 [c1|]]|] eqn:P; try discriminate.
        apply Bool.andb_true_iff in G as [G1 G2].
        destruct (Proofs.Problem.id_eqb_spec (nid c) c1) as [<-|]; [|discriminate].
        destruct (Proofs.Problem.id_eqb_spec (nid (match b with Some x => x | None => c end)) (group b1 (nid c))) as [E|]; [|discriminate].
        assert (member default_parse names r b1 (nid c) n) as M by (split; auto).
        apply member_placed in M as (b' & c' & s' & H' & -> & Ec & ->). apply nid_inj in Ec as <-. f_equal.
        rewrite group_nid in E by exact (placed_pos b' c s' H'). apply nid_inj in E. exact (placed_same _ _ _ _ _ _ H' H eq_refl (eq_sym E)).
      - destruct (placed_named b c s H) as (i & Ii & Is). exact (there i s r Ii Is).
      - unfold filed. rewrite (placed_parse b c s r H). rewrite (group_nid b c (placed_pos b c s H)), !Proofs.Problem.id_eqb_refl. reflexivity. }
    rewrite !F. reflexivity.
  Qed.
  Theorem plan_result {P} (points : nat -> P) : exists l, match_test_cases default_parse names (fun i => Some (points i)) = Ok l /\
    length l = length plan /\ forall i it, nth_error plan i = Some it -> nth_error l i = Some (described decimal w sep it (points i)).
  Proof using W_digit W_lf W_end S_plain S_some unmarked there no_others batches sorted.
    assert (exists l, match_test_cases default_parse names (fun i => Some (points i)) = Ok l) as (l & R).
    { apply Proofs.Problem.match_accepts.
      - discriminate.
      - intros r n I. destruct (default_parse r n) as [[b c]|] eqn:E; [|left; reflexivity]. right. destruct c as [c|]; [eauto|].
        exfalso. unfold default_parse in E. destruct (no_others n I) as [(i & s & r' & Ii & Is & ->)|U]; [|specialize (U r); unfold default_parse in U; rewrite U in E; discriminate].
        destruct (placed_item i s Ii Is) as (b' & c' & H). destruct (placed_position b' c' s H) as [_ L].
        change (default_parse r (s ++ suffix r') = Some (b, None)) in E.
        apply default_parse_inv in E as (_ & ? & ? & _ & _ & E); [discriminate|]. apply no_lf_app; [exact L|apply suffix_no_lf].
      - intros g g' c c' O O'. apply occurs_placed in O as (? & ? & ? & _ & _ & ->). apply occurs_placed in O' as (? & ? & ? & _ & _ & ->). exact I.
      - intros g _ c c' O O'. apply occurs_placed in O as (? & ? & ? & _ & -> & _). apply occurs_placed in O' as (? & ? & ? & _ & -> & _). exact I.
      - intros g Nb c c' O O'. apply occurs_placed in O as (b1 & c1 & s1 & H1 & -> & ->). apply occurs_placed in O' as (b2 & c2 & s2 & H2 & -> & E).
        apply nid_inj in E. destruct b1 as [b1|].
        { exfalso. apply Nb. apply batch_placed. destruct H1 as [(cs & I1 & _) _]. eauto. }
        destruct b2 as [b2|]; [|congruence]. exfalso. subst. apply Nb. apply batch_placed. destruct H2 as [(cs & I2 & _) _]. eauto. }
    exists l. split; [exact R|]. destruct (Proofs.Problem.match_result _ _ _ _ R) as (gs & Sg & Eg & Le & Nth).
    assert (gs = map nid (map number_of plan)) as ->.
    { apply sorted_unique; [exact Sg|apply sorted_nid, sorted|]. intros g. rewrite Eg. split.
      - intros (c & O). apply occurs_placed in O as (b & c' & s & H & _ & ->). apply in_map. destruct b as [b|].
        + destruct H as [(cs & I & _) _]. exact (in_map number_of _ _ I).
        + destruct H as [I _]. exact (in_map number_of _ _ I).
      - intros I. apply in_map_iff in I as (k & <- & I). apply in_map_iff in I as (it & <- & I). destruct it as [k|b cs].
        + exists (nid k). apply occurs_placed. exists None, k, (single_name k). split; [split; auto|auto].
        + destruct (batches b cs I) as (_ & Ne & _). destruct cs as [|c cs]; [congruence|]. exists (nid c). apply occurs_placed.
          exists (Some b), c, (batch_name b c). split; [|auto]. split; [exists (c :: cs); split; [exact I|left; reflexivity]|reflexivity]. }
    split; [rewrite Le, !map_length; reflexivity|]. intros i it E.
    destruct (Nth i (nid (number_of it))) as (p & m & Ep & Em & F).
    { rewrite map_map. rewrite nth_error_map, E. reflexivity. }
    injection Ep as <-. rewrite Em. f_equal. pose proof (nth_error_In _ _ E) as Iit.
    destruct it as [k|b cs].
    - inversion F as [cs Bt _ _|c Nb O]; subst.
      + exfalso. apply batch_placed in Bt as (b & cs' & I & E'). apply nid_inj in E'. cbn in E'. pose proof (keys_nodup _ _ Iit I E'). discriminate.
      + assert (placed None k (single_name k)) as H by (split; auto). assert (c = nid k) as ->.
        { symmetry. apply O. apply occurs_placed. exists None, k, (single_name k). auto. }
        cbn [number_of described]. f_equal. exact (files_placed None k _ H).
    - destruct (batches b cs Iit) as (_ & Ne & Sc). inversion F as [cs' Bt S' O|c Nb O]; subst.
      + assert (cs' = map nid cs) as ->.
        { apply sorted_unique; [exact S'|apply sorted_nid, Sc|]. intros c. rewrite O. split.
          - intros K. apply occurs_placed in K as (b1 & c1 & s1 & H1 & -> & E1). apply nid_inj in E1. cbn in E1. apply in_map. destruct b1 as [b1|].
            + subst b1. destruct H1 as [(cs1 & I1 & J1) _]. pose proof (keys_nodup _ _ Iit I1 eq_refl) as K. injection K as <-. exact J1.
            + destruct H1 as [I1 _]. pose proof (keys_nodup _ _ Iit I1 E1). discriminate.
          - intros K. apply in_map_iff in K as (c1 & <- & K). apply occurs_placed. exists (Some b), c1, (batch_name b c1). split; [|auto]. split; [eauto|reflexivity]. }
        cbn [described number_of]. f_equal. rewrite map_map. apply map_ext_in. intros c K.
        apply (files_placed (Some b) c). split; [eauto|reflexivity].
      + exfalso. apply Nb. apply batch_placed. eauto.
  Qed.
End Plan.
