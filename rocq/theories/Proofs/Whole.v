From Coq Require Import String QArith Permutation Lia.
From Verif Require Import Model.Bytes Proofs.BytesLemmas Model.Result Model.Config Spec.Config Proofs.Config Model.Paths Model.Loading Spec.Loading Proofs.Loading.
From Verif Require Import Spec.Text Model.Whole Spec.Whole.
From Verif Require Model.Problem Spec.Problem Properties.Problem Model.Checkers Proofs.Checkers Model.Grading Spec.Grading Proofs.Grading Model.Worker Spec.Worker Proofs.Worker.
Local Open Scope list_scope.
Local Open Scope nat_scope.

(** ** Lookups *)
Lemma beqb_true a b : beqb a b = true <-> a = b.
Proof. apply beqb_eq. Qed.
Lemma static_list l x : static (VList l) -> In x l -> static x.
Proof. cbn. induction l as [|y l IH]; intros H Hi; [destruct Hi|]. destruct H as [H1 H2]. destruct Hi as [->|Hi]; [exact H1|exact (IH H2 Hi)]. Qed.
Lemma has_lacks k d : has k d = false <-> lacks k d.
Proof.
  unfold has, lacks. destruct (find k d) as [v|] eqn:E.
  - split; [discriminate|]. intros H. destruct (H v). apply find_In, E.
  - split; [|reflexivity]. intros _. apply find_None, E.
Qed.

Section Whole.
  Variable w : whole.
  Notation run := (dynamic w).

  Lemma attr_any c k : good c -> exists v home, attribute c k v /\ getattr run c k = Got (wrap v home) c [] /\ forall v', attribute c k v' -> v' = v.
  Proof.
    intros Hg. pose proof (good_unique _ Hg) as Hu.
    destruct (item_value run c k Hg) as (v & home & E & Hv). unfold Config.getattr. rewrite E.
    destruct (item_value run c (hyphens k) Hg) as (u & home' & E' & Hw).
    assert (v = Null \/ v <> Null) as [->|Hn] by (destruct v; auto; right; discriminate).
    - cbn [wrap is_container]. rewrite E'. exists u, home'. split; [|split; [reflexivity|]].
      + right. split; [destruct Hv as [Hv|[Hv _]]; [right; eauto|left; exact Hv]|]. destruct Hw as [Hw|[Hw ->]]; [left; eauto|right; auto].
      + intros v' [(h & H & Hne)|(_ & H)].
        * exfalso. destruct Hv as [Hv|[Hv _]]; [destruct (nearest_fun _ _ _ _ _ _ Hu Hv H); congruence|exact (nearest_nowhere _ _ _ _ H Hv)].
        * destruct H as [[h H]|[H ->]], Hw as [Hw|[Hw ->]]; auto.
          -- destruct (nearest_fun _ _ _ _ _ _ Hu Hw H). congruence.
          -- destruct (nearest_nowhere _ _ _ _ H Hw).
          -- destruct (nearest_nowhere _ _ _ _ Hw H).
    - destruct Hv as [Hv|[_ Hv]]; [|congruence].
      assert (match wrap v home with Plain Null => hyphens k | _ => k end = k) as -> by (destruct v; try reflexivity; congruence).
      rewrite E. exists v, home. split; [left; eauto|]. split; [reflexivity|].
      intros v' [(h & H & _)|([H|[h H]] & _)]; [destruct (nearest_fun _ _ _ _ _ _ Hu Hv H); congruence|destruct (nearest_nowhere _ _ _ _ Hv H)|destruct (nearest_fun _ _ _ _ _ _ Hu Hv H); congruence].
  Qed.
  Lemma attr_found c k v : good c -> attribute c k v -> exists home, found (getattr run c k) = Fine (wrap v home).
  Proof. intros Hg Ha. destruct (attr_any c k Hg) as (u & home & _ & E & U). rewrite (U v Ha), E. exists home. reflexivity. Qed.
  Lemma attr_item c k : good c -> hyphens k = k -> getattr run c k = getitem run c (Key k).
  Proof.
    intros Hg Hk. destruct (item_value run c k Hg) as (v & home & E & _). unfold Config.getattr. rewrite E, Hk.
    replace (match wrap v home with Plain Null => k | _ => k end) with k by (destruct (wrap v home) as [[]|]; reflexivity). rewrite E. reflexivity.
  Qed.

  (** ** Data *)
  Lemma read_stored z name raw : stored w z name raw -> read w z name = Some raw.
  Proof.
    intros H. unfold read.
    assert (problem_data (file w) (root w) z name = Found raw) as ->; [|reflexivity].
    apply (proj2 (data_spec (file w) (root w) z name (Found raw))). exact H.
  Qed.
  Lemma as_normal b raw d : as_data b raw d -> d = Problem.normalize b raw.
  Proof.
    destruct b; cbn; intros H.
    - rewrite Properties.Problem.C27_binary. exact H.
    - destruct H as (ls & HL & ->). symmetry. apply Properties.Problem.C27_lines, HL.
  Qed.
  Definition available z (b : bool) (s d : list N) : Prop :=
    (s = [] /\ d = []) \/ (s <> [] /\ exists raw, read w z s = Some raw /\ d = Problem.normalize b raw).
  Lemma name_under z c b k d : good c -> data_under w z c b k d -> exists s, data_name (getitem run c (Key k)) = Fine s /\ available z b s d.
  Proof.
    intros Hg [[Hu ->]|(s & home & raw & Hn & Hs & Hr & Hd)].
    - exists []. destruct (item_unset run c k Hg Hu) as (r & E & F). unfold data_name. rewrite E. cbn [found]. rewrite F. split; [reflexivity|left; auto].
    - exists s. unfold data_name. rewrite (lookup_nearest run c k _ _ Hg Hn). cbn [found]. rewrite wrap_truthy, wrap_plain by reflexivity. cbn [truthy].
      destruct s as [|x s]; [congruence|]. split; [reflexivity|]. right. split; [exact Hs|]. exists raw. split; [apply read_stored, Hr|apply as_normal, Hd].
  Qed.
  Lemma input_available z b i o d gen st : available z b i d ->
    Problem.input_data (read w z) gen {| Problem.in_name := i; Problem.out_name := o; Problem.has_gen := false; Problem.binary := b |} st = (Problem.Data d, st).
  Proof. intros H. apply Properties.Problem.C56_input_file; [left; reflexivity|]. exact H. Qed.
  Lemma output_available z b i o d gen st : available z b o d ->
    Problem.output_data (read w z) gen {| Problem.in_name := i; Problem.out_name := o; Problem.has_gen := false; Problem.binary := b |} st = (Problem.Data d, st).
  Proof.
    intros [[-> ->]|(Hn & raw & Hr & ->)]; [reflexivity|]. unfold Problem.output_data. cbn [Problem.out_name]. destruct o as [|x o]; [congruence|]. cbn [Problem.given].
    unfold Problem.from_file. rewrite Hr. reflexivity.
  Qed.

  (** ** Checkers *)
  Lemma argument_none k args : (forall v, ~ In (k, v) args) -> argument k args = None.
  Proof.
    induction args as [|[k' v] args IH]; intros H; [reflexivity|]. cbn. destruct (beqb k k') eqn:E.
    - apply beqb_true in E. subst k'. destruct (H v). left. reflexivity.
    - apply IH. intros u Hu. apply (H u). right. exact Hu.
  Qed.
  Definition decides (ck : Grading.check_ret) (P : Prop) : Prop :=
    (exists b, ck = Grading.CkBool b /\ (b = true <-> P)) \/ (exists fb, ck = Grading.CkResult false 0 fb None /\ ~ P).
  Lemma decides_bool o P : (exists b, o = Checkers.RBool b /\ (b = true <-> P)) -> decides (checked o) P.
  Proof. intros (b & -> & H). left. exists b. split; [reflexivity|exact H]. Qed.
  Lemma rule_decides name args eqv : rule name args eqv -> forall pos pts out ans inp,
    decides (apply_checker w (Builtin name) args pos pts out ans inp) (eqv out ans) /\ runs_on_error w (Builtin name) = false
    /\ ~ has_dot name /\ In name builtin_checkers.
  Proof.
    intros H pos pts out ans inp.
    assert (forall s, contains (B ".") s = false -> ~ has_dot s) as Hd by (intros s E X; apply has_dot_contains in X; congruence).
    split; [|destruct H; (split; [reflexivity|]; split; [apply Hd; vm_compute; reflexivity|apply in_builtin; vm_compute; reflexivity])].
    destruct H; unfold apply_checker.
    - change (beqb (B "standard") (B "standard")) with true. cbv iota. apply decides_bool, Proofs.Checkers.standard_check_spec.
    - change (beqb (B "identical") (B "standard")) with false. change (beqb (B "identical") (B "identical")) with true. cbv iota.
      destruct (Proofs.Checkers.identical_check_spec out ans (flag (B "pe_allowed") true args)) as [H1 H2].
      assert (out = ans \/ out <> ans) as [E|E] by (destruct (beqb out ans) eqn:E; [left; apply beqb_true, E|right; intros X; apply beqb_true in X; congruence]).
      + rewrite (H1 E). left. exists true. split; [reflexivity|tauto].
      + destruct (H2 E) as (fb & -> & _). right. exists fb. split; [reflexivity|exact E].
    - change (beqb (B "easy") (B "standard")) with false. change (beqb (B "easy") (B "identical")) with false. change (beqb (B "easy") (B "easy")) with true. cbv iota.
      apply decides_bool, Proofs.Checkers.easy_check_spec.
    - change (beqb (B "unordered") (B "standard")) with false. change (beqb (B "unordered") (B "identical")) with false. change (beqb (B "unordered") (B "easy")) with false.
      change (beqb (B "unordered") (B "rstripped")) with false. change (beqb (B "unordered") (B "unordered")) with true. cbv iota.
      apply decides_bool, Proofs.Checkers.sorted_ws_spec.
    - change (beqb (B "rstripped") (B "standard")) with false. change (beqb (B "rstripped") (B "identical")) with false. change (beqb (B "rstripped") (B "easy")) with false.
      change (beqb (B "rstripped") (B "rstripped")) with true. cbv iota. unfold flag. rewrite (argument_none _ _ H).
      apply decides_bool. exact (Proofs.Checkers.rstripped_check_spec out ans false).
    - apply decides_bool. exact (Proofs.Checkers.rstripped_check_spec out ans true).
    - change (beqb (B "sorted") (B "standard")) with false. change (beqb (B "sorted") (B "identical")) with false. change (beqb (B "sorted") (B "easy")) with false.
      change (beqb (B "sorted") (B "rstripped")) with false. change (beqb (B "sorted") (B "unordered")) with false. change (beqb (B "sorted") (B "linecount")) with false.
      change (beqb (B "sorted") (B "sorted")) with true. cbv iota. rewrite (argument_none _ _ H). apply decides_bool, Proofs.Checkers.sorted_lines_spec.
    - apply decides_bool. exact (Proofs.Checkers.sorted_ws_spec out ans).
  Qed.

  (** ** One case *)
  Lemma clean_dec io p : Result.returncode p <> None -> Spec.Grading.clean io p \/ ~ Spec.Grading.clean io p.
  Proof.
    intros Hr. assert (exists f, Grading.populate_flags (mono w) (Grading.io_error io) (Grading.mark_ole io p) = Some f) as [f Ef].
    { unfold Grading.populate_flags, Result.is_ir. assert (Result.returncode (Grading.mark_ole io p) = Result.returncode p) as -> by (destruct io; reflexivity).
      destruct (Result.returncode p); [eauto|congruence]. }
    pose proof (Proofs.Grading.flags_zero (parse_feedback w) (strsignal w) _ _ _ _ Ef) as Z. destruct (N.eq_dec f 0) as [E|E]; rewrite Z in E; auto.
  Qed.
  Lemma graded_deserves ck pts (always : bool) io p : started (io, p) -> (Spec.Grading.clean io p \/ always = true -> sensible ck) ->
    exists r, Grading.standard_grade (parse_feedback w) (strsignal w) (mono w) always ck (inject_Z pts) io p = Grading.Graded r /\
      forall rep, Spec.Worker.rep_flag rep = Grading.result_flag r -> Spec.Worker.rep_points rep = Grading.points r -> deserves pts always ck (io, p) rep.
  Proof.
    intros [Hi Hr] Hc. cbn [snd] in Hi, Hr.
    assert (exists r, Grading.standard_grade (parse_feedback w) (strsignal w) (mono w) always ck (inject_Z pts) io p = Grading.Graded r) as [r E].
    { assert (sensible ck -> (exists b, ck = Grading.CkBool b) \/ (exists b q f e, ck = Grading.CkResult b q f e) \/ ck = Grading.CkUnicodeDecodeError) as HS.
      { destruct ck; cbn; intros []; eauto 8. }
      destruct (clean_dec io p Hr) as [C|C]; [apply Proofs.Grading.standard_total; auto|]. destruct always; [apply Proofs.Grading.standard_total; auto|].
      rewrite (Proofs.Grading.standard_not_run _ _ _ ck (Grading.CkBool false) _ _ _ C). apply Proofs.Grading.standard_total; eauto. }
    exists r. split; [exact E|]. intros rep Ef Ep. pose proof (Proofs.Grading.standard_accept _ _ _ _ _ _ _ _ _ E) as Ha.
    pose proof (Proofs.Grading.flags_exact_io _ _ _ _ _ _ _ _ E) as (F1 & F2 & F3 & F4 & F5 & F6).
    destruct (Proofs.Grading.wa_exact _ _ _ _ _ _ _ _ E) as (f & Ef0 & HW & HP & _).
    pose proof (Proofs.Grading.flags_zero (parse_feedback w) (strsignal w) _ _ _ _ Ef0) as Z.
    assert (Spec.Grading.flagged (Grading.result_flag r) Result.WA <-> N.testbit (Grading.result_flag r) 0 = true) as HB.
    { unfold Spec.Grading.flagged. cbn. split; [intros (b & Eb & H); injection Eb as <-; exact H|eauto]. }
    unfold deserves, Spec.Worker.wrong. rewrite Ef, Ep. cbn [fst snd]. rewrite <- HB. split; [exact Ha|]. split; [|split; [|split; [|split; [|split; [|split]]]]]; auto; try (rewrite F5; auto).
    - intros HA. assert (fst (Grading.standard_check_result f always ck) = match ck with Grading.CkUnicodeDecodeError => Grading.CkResult false 0 (Some (B "invalid unicode")) None | c => c end) as Ec.
      { unfold Grading.standard_check_result. destruct HA as [C|A]; [apply Z in C; subst f; reflexivity|]. rewrite A, Bool.orb_true_r. reflexivity. }
      rewrite HW, HP, Ec. destruct ck; cbn; split; try reflexivity; split; intros X; try exact X; try discriminate; intros Y; try discriminate; contradiction.
    - intros NA. assert (fst (Grading.standard_check_result f always ck) = Grading.CkBool false) as Ec.
      { unfold Grading.standard_check_result. destruct always; [exfalso; apply NA; auto|]. rewrite Bool.orb_false_r. unfold Result.truthy. destruct (N.eqb_spec f 0) as [E0|E0]; [exfalso; apply NA; left; apply Z, E0|reflexivity]. }
      rewrite HW, HP, Ec. cbn. split; [discriminate|reflexivity].
  Qed.
  (** A yes or no makes a verdict of its own. *)
  Lemma deserves_deserved ck pts right r rep : Result.returncode (snd r) <> None -> decides ck (right (output_of r)) -> deserves pts false ck r rep -> deserved pts right r rep.
  Proof.
    intros Hrc Hd (D1 & D2 & D3 & D4). destruct r as [io p]. cbn [fst snd] in *.
    assert (solves right (io, p) <-> Spec.Grading.clean io p /\ Spec.Grading.passes ck) as Hs.
    { unfold solves. cbn [fst snd]. split.
      - intros (Hc & out & err & -> & HR). split; [exact Hc|]. cbn in Hd. destruct Hd as [(b & -> & Hb)|(fb & -> & Hb)]; [cbn; apply Hb, HR|destruct (Hb HR)].
      - intros (Hc & HP). split; [exact Hc|]. destruct io as [[out err]|]; [|destruct Hc as (_ & _ & _ & Ho); destruct Ho; left; reflexivity].
        exists out, err. split; [reflexivity|]. cbn in Hd. destruct Hd as [(b & -> & Hb)|(fb & -> & Hb)]; cbn in HP; [apply Hb, HP|discriminate]. }
    assert (Spec.Grading.passes ck \/ ~ Spec.Grading.passes ck) as PD by (destruct Hd as [([|] & -> & _)|(fb & -> & _)]; cbn; auto; right; discriminate).
    assert (Spec.Grading.worth (inject_Z pts) ck = inject_Z pts \/ ~ Spec.Grading.passes ck) as W1 by (destruct Hd as [([|] & -> & _)|(fb & -> & _)]; cbn; auto; right; discriminate).
    assert (~ Spec.Grading.passes ck -> Spec.Grading.worth (inject_Z pts) ck = 0%Q) as W2 by (destruct Hd as [([|] & -> & _)|(fb & -> & _)]; cbn; auto; intros X; destruct X; reflexivity).
    unfold deserved. cbn [fst snd]. split; [|split; [|exact D4]].
    - rewrite Hs. intros [C P]. split; [apply D1; auto|]. destruct D2 as [E _]; [auto|]. rewrite E. destruct W1; [assumption|contradiction].
    - rewrite Hs. intros HN. destruct PD as [P|P].
      + apply D3. intros [C|X]; [apply HN; auto|discriminate X].
      + destruct (clean_dec io p Hrc) as [C|C].
        * destruct D2 as [E W]; [auto|]. split; [apply W, P|]. rewrite E. apply W2, P.
        * apply D3. intros [X|X]; [auto|discriminate X].
  Qed.
  Lemma grade_deserves z c pts input answer name args ch b pos : good c -> asked w z c pts input answer name args -> attribute c (B "binary_data") b ->
    fst (checker run (fun _ => execute w) c no_checkers) = Fine (ch, args) -> started (program w pos input) ->
    let ck := apply_checker w ch args pos (inject_Z pts) (output_of (program w pos input)) answer input in
    (Spec.Grading.clean (fst (program w pos input)) (snd (program w pos input)) \/ runs_on_error w ch = true -> sensible ck) ->
    exists fl q, grade_case w z pos (GradedCase c (inject_Z pts) (Config.truthy b)) = Worker.GResult fl q /\
      forall rep, Spec.Worker.rep_flag rep = fl -> Spec.Worker.rep_points rep = q -> deserves pts (runs_on_error w ch) ck (program w pos input) rep.
  Proof.
    intros Hg [Hp (b' & Hb & (g & Hgen & Tg) & Hi & Ho) Ha] Hb' Hch Hst ck Hse.
    assert (b' = b) as -> by (destruct (attr_any c (B "binary_data") Hg) as (v & home & _ & _ & U); rewrite (U _ Hb), (U _ Hb'); reflexivity).
    destruct (name_under z c _ _ _ Hg Hi) as (i & Ei & Ai). destruct (name_under z c _ _ _ Hg Ho) as (o & Eo & Ao).
    unfold grade_case, source_of. cbn [at_node is_binary worth].
    rewrite Ei, (attr_item c (B "out") Hg eq_refl), Eo. destruct (attr_found c _ _ Hg Hgen) as (home & ->). rewrite wrap_truthy, Tg.
    rewrite (input_available z _ i o input _ _ Ai). revert Hst Hse. subst ck. destruct (program w pos input) as [io p] eqn:Epr. intros Hst Hse.
    rewrite Hch. rewrite (output_available z _ i o answer _ _ Ao), (input_available z _ i o input _ _ Ai).
    change (output_of (io, p)) with (Grading.io_output io) in *.
    destruct (graded_deserves _ pts (runs_on_error w ch) io p Hst Hse) as (r & -> & Hrep). eauto.
  Qed.
  Lemma rule_replies name args eqv : rule name args eqv -> forall i pts input answer out,
    replies w i pts input answer args out name false (apply_checker w (Builtin name) args i (inject_Z pts) out answer input).
  Proof.
    intros H i pts input answer out. destruct (rule_decides name args eqv H i (inject_Z pts) out answer input) as (Hd & _).
    destruct Hd as [([|] & -> & Hb)|(fb & -> & Hb)].
    - apply (re_right w i pts input answer args out name eqv H). apply Hb. reflexivity.
    - apply (re_wrong w i pts input answer args out name eqv H). intros X. apply Hb in X. discriminate X.
    - exact (re_wrong_why w i pts input answer args out name eqv fb H Hb).
  Qed.
  Lemma lines_replies args i pts input answer out :
    replies w i pts input answer args out (B "linecount") true (apply_checker w (Builtin (B "linecount")) args i (inject_Z pts) out answer input).
  Proof.
    change (apply_checker w (Builtin (B "linecount")) args i (inject_Z pts) out answer input) with (checked (Checkers.linecount_check out answer (inject_Z pts) (flag (B "feedback") true args))).
    destruct (Proofs.Checkers.linecount_check_spec out answer (inject_Z pts) (flag (B "feedback") true args)) as (L1 & L2 & L3).
    destruct (Nat.lt_ge_cases (length (nonempty_lines answer)) (length (nonempty_lines out))) as [Hl|Hl].
    - rewrite (L1 Hl). exact (re_long w i pts input answer args out Hl).
    - destruct (nonempty_lines answer) as [|x l] eqn:Ej.
      + assert (nonempty_lines out = []) as Ep by (destruct (nonempty_lines out); [reflexivity|cbn in Hl; lia]). rewrite (L2 Ep eq_refl). exact (re_none w i pts input answer args out Ep Ej).
      + rewrite <- Ej in *. destruct (L3 Hl ltac:(congruence)) as (k & passed & q & cases & A1 & -> & A2 & A3 & _).
        apply (re_lines w i pts input answer args out k passed q _ Hl ltac:(congruence) A1 A2 A3).
  Qed.
  Lemma replied c name args i pts input answer out always ck : good c -> asks c name args -> replies w i pts input answer args out name always ck ->
    exists ch, fst (checker run (fun _ => execute w) c no_checkers) = Fine (ch, args) /\
      forall out', replies w i pts input answer args out' name (runs_on_error w ch) (apply_checker w ch args i (inject_Z pts) out' answer input).
  Proof.
    intros Hg Ha H.
    assert (forall n, ~ has_dot n -> In n builtin_checkers -> name = n -> fst (checker run (fun _ => execute w) c no_checkers) = Fine (Builtin n, args)) as HB.
    { intros n Hd Hi ->. rewrite (builtin_always run (fun _ => execute w) c no_checkers n args Hg Ha Hd Hi). reflexivity. }
    assert (forall s, contains (B ".") s = false -> ~ has_dot s) as Hdot by (intros s E X; apply has_dot_contains in X; congruence).
    assert (forall eqv, rule name args eqv -> exists ch, fst (checker run (fun _ => execute w) c no_checkers) = Fine (ch, args) /\
      forall out', replies w i pts input answer args out' name (runs_on_error w ch) (apply_checker w ch args i (inject_Z pts) out' answer input)) as HRu.
    { intros eqv Hr. destruct (rule_decides name args eqv Hr i (inject_Z pts) out answer input) as (_ & Hroe & Hd & Hi). exists (Builtin name).
      split; [apply HB; auto|]. intros out'. rewrite Hroe. eapply rule_replies, Hr. }
    destruct H as [name eqv Hr _|name eqv Hr _|name eqv fb Hr _| | | |name Hd He|name Hn]; eauto.
    - exists (Builtin (B "linecount")). split; [apply HB; [apply Hdot; reflexivity|apply in_builtin; reflexivity|reflexivity]|]. intros out'. apply lines_replies.
    - exists (Builtin (B "linecount")). split; [apply HB; [apply Hdot; reflexivity|apply in_builtin; reflexivity|reflexivity]|]. intros out'. apply lines_replies.
    - exists (Builtin (B "linecount")). split; [apply HB; [apply Hdot; reflexivity|apply in_builtin; reflexivity|reflexivity]|]. intros out'. apply lines_replies.
    - exists (FromFile name 0). split.
      + apply (choice_fine run (fun _ => execute w) c no_checkers _ args Hg). exists name. split; [exact Ha|]. right. split; [exact Hd|]. exists 0. split; [|reflexivity].
        unfold load_checker. cbn. rewrite He. reflexivity.
      + intros out'. exact (re_file w i pts input answer args out' name Hd He).
    - exists (Builtin name). cbn [In] in Hn.
      assert (~ has_dot name /\ In name builtin_checkers) as [Hd Hi].
      { repeat (destruct Hn as [<-|Hn]; [split; [apply Hdot; reflexivity|apply in_builtin; reflexivity]|]). destruct Hn. }
      split; [apply HB; auto|]. intros out'. pose proof (re_other w i pts input answer args out' name Hn) as HO.
      repeat (destruct Hn as [<-|Hn]; [exact HO|]). destruct Hn.
  Qed.

  (** ** The list of cases *)
  Lemma wrap_dict d c : wrap (VDict d) c = Sub (VDict d :: c).
  Proof. destruct d; reflexivity. Qed.
  Lemma wrap_members l c : members (wrap (VList l) c) = Fine (map (fun v => wrap v (VList l :: c)) l).
  Proof. destruct l; reflexivity. Qed.
  Lemma all_fine_map {A X} (f : A -> loading X) l xs : Forall2 (fun a x => f a = Fine x) l xs -> all_fine f l = Fine xs.
  Proof. induction 1 as [|a x l xs H _ IH]; [reflexivity|]. cbn. rewrite H, IH. reflexivity. Qed.
  Lemma own_item d up k v : good (VDict d :: up) -> In (k, v) d -> getitem run (VDict d :: up) (Key k) = Got (wrap v (VDict d :: up)) (VDict d :: up) [].
  Proof. intros Hg H. apply (lookup_nearest run _ k v _ Hg). exists [], (VDict d), up. repeat split; auto. constructor. exact H. Qed.
  Lemma listed_node up v n : good (v :: up) -> listed up v n -> as_node w (wrap v up) = Fine n.
  Proof.
    intros Hg H. destruct H as [d Hl|d cs Hi Hl]; rewrite wrap_dict; cbn [as_node holds_batch].
    - apply has_lacks in Hl. rewrite Hl. reflexivity.
    - assert (has (B "batched") d = true) as ->.
      { destruct (has (B "batched") d) eqn:E; [reflexivity|]. apply has_lacks in E. destruct (E _ Hi). }
      rewrite (own_item d up _ _ Hg Hi). cbn [found]. rewrite wrap_members, map_map.
      rewrite (all_fine_map _ _ (map (fun x => VDict x :: VList (map VDict cs) :: VDict d :: up) cs)); [reflexivity|].
      remember (VList (map VDict cs) :: VDict d :: up) as home. clear -Hl. induction Hl as [|x cs Hx _ IH]; [constructor|]. cbn [map]. constructor; [|exact IH].
      rewrite wrap_dict. cbn [inner_node holds_batch]. apply has_lacks in Hx. rewrite Hx. reflexivity.
  Qed.
  Lemma good_member c l x : good (VList l :: c) -> In x l -> good (x :: VList l :: c).
  Proof.
    intros [Hs Hf] Hi. inversion Hf as [|? ? H1 H2]; subst. split; [|constructor; [eapply static_list; eauto|exact Hf]].
    unfold solid in *. cbn [tl] in *. constructor; [|exact Hs]. destruct l; [destruct Hi|reflexivity].
  Qed.
  Lemma good_item d c k v : good (VDict d :: c) -> In (k, v) d -> good (v :: VDict d :: c).
  Proof. intros Hg H. apply (nearest_good (VDict d :: c) k v (VDict d :: c) Hg). exists [], (VDict d), c. repeat split; auto. constructor. exact H. Qed.
  Lemma listed_good up v n c : good (v :: up) -> listed up v n -> In c (nodes_of n) -> good c.
  Proof.
    intros Hg H. destruct H as [d Hl|d cs Hi Hl]; cbn [nodes_of].
    - intros [<-|[]]. exact Hg.
    - intros X. apply in_map_iff in X as (x & <- & Hx). apply good_member; [|apply in_map, Hx]. eapply good_item; eauto.
  Qed.

  (** What is asked of a case, with what its construction needs. *)
  Definition settled z (i : nat) (c : chain) pts input answer args ch : Prop :=
    exists name, asked w z c pts input answer name args /\ fst (checker run (fun _ => execute w) c no_checkers) = Fine (ch, args).
  Definition replying (i : nat) (pts : Z) input answer args ch : Prop :=
    Spec.Grading.clean (fst (program w i input)) (snd (program w i input)) \/ runs_on_error w ch = true ->
    sensible (apply_checker w ch args i (inject_Z pts) (output_of (program w i input)) answer input).
  Definition fair z (i : nat) (c : chain) : Prop := exists pts input answer args ch,
    settled z i c pts input answer args ch /\ started (program w i input) /\ replying i pts input answer args ch.
  Lemma points_one c q q' : good c -> points_of c q -> points_of c q' -> q = q'.
  Proof.
    intros Hg (v & Hv & Cv) (v' & Hv' & Cv'). destruct (attr_any c (B "points") Hg) as (u & home & _ & _ & U). rewrite (U _ Hv) in Cv. rewrite (U _ Hv') in Cv'.
    destruct Cv; inversion Cv'; reflexivity.
  Qed.
  Lemma make_posed z c pts input answer name args : good c -> asked w z c pts input answer name args ->
    exists b, attribute c (B "binary_data") b /\ make_case w c = Fine (GradedCase c (inject_Z pts) (Config.truthy b)).
  Proof.
    intros Hg [(v & Hv & Cv) (b & Hb & _) _]. exists b. split; [exact Hb|]. unfold make_case, points_at, binary_at.
    destruct (attr_found c _ _ Hg Hv) as (h1 & ->). destruct (attr_found c _ _ Hg Hb) as (h2 & ->). rewrite wrap_truthy. destruct Cv; reflexivity.
  Qed.
  Definition made (z : option entries) (c : chain) (t : graded_case) : Prop :=
    exists pts b, points_of c pts /\ attribute c (B "binary_data") b /\ t = GradedCase c (inject_Z pts) (Config.truthy b) /\ make_case w c = Fine t.
  Lemma make_items z ns : (forall c, In c (flat_map nodes_of ns) -> good c /\ exists i, fair z i c) -> (forall n c cs, In n ns -> n = Batch c cs -> good c) ->
    exists items, all_fine (make_item w) ns = Fine items /\ Forall2 weighs ns (map entry_of items) /\
      Forall2 (made z) (flat_map nodes_of ns) (flat_map cases_in items).
  Proof.
    assert (forall c, good c /\ (exists i, fair z i c) -> exists t, made z c t) as Hmk.
    { intros c (Hg & i & pts & input & answer & args & ch & (name & Hp & _) & _). destruct (make_posed z c pts input answer name args Hg Hp) as (b & Hb & E). eexists. exists pts, b. split; [exact (as_points _ _ _ _ _ _ _ _ Hp)|]. eauto. }
    induction ns as [|n ns IH]; intros H HB; [exists []; repeat split; constructor|].
    destruct IH as (items & E & W & M). { intros c Hc. apply H. cbn. apply in_or_app. auto. } { intros n' c cs Hn. apply (HB n' c cs). right. exact Hn. }
    destruct n as [c|c cs].
    - destruct (Hmk c) as (t & pts & b & Hp & Hb & Et & Em). { apply H. left. reflexivity. }
      exists (OneCase t :: items). cbn [all_fine make_item]. rewrite Em, E. split; [reflexivity|]. split.
      + cbn [map entry_of]. constructor; [|exact W]. subst t. cbn [worth]. constructor. exact Hp.
      + cbn [flat_map nodes_of cases_in app]. constructor; [|exact M]. exists pts, b. auto.
    - assert (exists ts qs, all_fine (make_case w) cs = Fine ts /\ Forall2 (made z) cs ts /\ map worth ts = map inject_Z qs /\ Forall2 points_of cs qs) as (ts & qs & Ec & Mc & Eq & Fq).
      { assert (forall c, In c cs -> good c /\ exists i, fair z i c) as Hcs by (intros c' Hc'; apply H; cbn; apply in_or_app; auto).
        clear -Hcs Hmk. induction cs as [|c cs IH]; [exists [], []; repeat split; constructor|].
        destruct IH as (ts & qs & E & M & Q & F). { intros c' Hc. apply Hcs. right. exact Hc. }
        destruct (Hmk c) as (t & pts & b & Hp & Hb & Et & Em). { apply Hcs. left. reflexivity. }
        exists (t :: ts), (pts :: qs). cbn [all_fine]. rewrite Em, E. split; [reflexivity|]. split; [constructor; [exists pts, b; auto|exact M]|]. split; [cbn; rewrite Q, Et; reflexivity|constructor; assumption]. }
      exists (Batched ts :: items). cbn [all_fine make_item]. rewrite Ec.
      destruct (attr_any c (B "points") (HB _ c cs (or_introl eq_refl) eq_refl)) as (v & home & _ & Ev & _). rewrite Ev. cbn [found]. rewrite E. split; [reflexivity|]. split.
      + cbn [map entry_of]. rewrite Eq. constructor; [constructor; exact Fq|exact W].
      + cbn [flat_map nodes_of cases_in]. apply Forall2_app; assumption.
  Qed.

  Lemma nth_Forall2 {A X} (R : A -> X -> Prop) l xs i a : Forall2 R l xs -> nth_error l i = Some a -> exists x, nth_error xs i = Some x /\ R a x.
  Proof. intros H. revert i. induction H as [|y x l xs H _ IH]; intros [|i] E; try discriminate E; [injection E as ->; cbn; eauto|exact (IH i E)]. Qed.
  Lemma forall2_length {A X} (R : A -> X -> Prop) l xs : Forall2 R l xs -> length l = length xs.
  Proof. induction 1; cbn; congruence. Qed.
  Lemma weighs_total ns l : Forall2 weighs ns l -> Spec.Worker.total l = length (flat_map nodes_of ns).
  Proof.
    unfold Spec.Worker.total, Spec.Worker.all_points. induction 1 as [|n e ns l H _ IH]; [reflexivity|]. cbn [flat_map]. rewrite !app_length, IH. f_equal.
    destruct H as [|c cs qs F]; [reflexivity|]. cbn. rewrite map_length. symmetry. exact (forall2_length _ _ _ F).
  Qed.

  Lemma standard_grader D ps : lacks (B "custom_judge") D -> lacks (B "signature_grader") D -> lacks (B "interactive") D -> grader_class (VDict D :: ps) = StandardGrader.
  Proof.
    assert (forall k, lacks k D -> in_node k (VDict D :: ps) = false) as Hn.
    { intros k Hk. destruct (in_node k (VDict D :: ps)) eqn:E; [|reflexivity]. apply in_node_dict in E. apply in_map_iff in E as ((k' & v) & Ek & Hi). cbn in Ek. subst k'. destruct (Hk v Hi). }
    intros H1 H2 H3. unfold grader_class. rewrite (Hn _ H1), (Hn _ H2), (Hn _ H3). reflexivity.
  Qed.
  Lemma pretests D (pre : bool) : static (VDict D) -> static (meta w) -> (pre = true <-> wants_pretests (meta w) D) -> is_pretested w [VDict D] = Fine pre.
  Proof.
    intros HD Hm Hp. unfold is_pretested. assert (good [or_empty (meta w)]) as Hg.
    { split; [constructor|]. constructor; [|constructor]. unfold or_empty. destruct (Config.truthy (meta w)); [exact Hm|]. cbn. repeat split; constructor. }
    destruct (attr_any _ (B "pretests_only") Hg) as (v & home & Ha & E & U). rewrite E. cbn [found]. rewrite wrap_truthy. f_equal.
    assert (in_node (B "pretest_test_cases") [VDict D] = true <-> ~ lacks (B "pretest_test_cases") D) as Hi.
    { rewrite in_node_dict, in_map_iff. rewrite <- has_lacks. unfold has. split.
      - intros ((k & x) & Ek & Hx). cbn in Ek. subst k. destruct (find (B "pretest_test_cases") D) eqn:Ef; [discriminate|]. destruct (proj1 (find_None _ _) Ef x Hx).
      - intros H. destruct (find (B "pretest_test_cases") D) as [x|] eqn:Ef; [|congruence]. exists (B "pretest_test_cases", x). split; [reflexivity|apply find_In, Ef]. }
    assert ((Config.truthy v && in_node (B "pretest_test_cases") [VDict D])%bool = true <-> wants_pretests (meta w) D) as HB.
    { rewrite Bool.andb_true_iff, Hi. unfold wants_pretests. split; intros [H1 H2]; (split; [|exact H2]); [eauto|]. destruct H1 as (v' & Hv & T). rewrite (U _ Hv) in T. exact T. }
    destruct (Config.truthy v && in_node (B "pretest_test_cases") [VDict D])%bool, pre; tauto || (symmetry; tauto) || (exfalso; intuition congruence).
  Qed.

  (** ** The whole *)
  Section Judged.
    Variables (p : problem) (D : dict) (pre : bool) (vs : list value) (ns : list node).
    Hypothesis Hprep : prepared w = Fine (p, [VDict D]).
    Hypothesis HD : static (VDict D).
    Hypothesis Hmeta : static (meta w).
    Hypothesis Hc : lacks (B "custom_judge") D.
    Hypothesis Hsg : lacks (B "signature_grader") D.
    Hypothesis Hin : lacks (B "interactive") D.
    Hypothesis Hpre : pre = true <-> wants_pretests (meta w) D.
    Hypothesis Hvs : In (case_list pre, VList vs) D.
    Hypothesis Hns : Forall2 (listed [VList vs; VDict D]) vs ns.
    Notation cases := (flat_map nodes_of ns).
    Hypothesis Hfair : forall i c, nth_error cases i = Some c -> fair (archive p) i c.

    Lemma root_good : good [VDict D].
    Proof. split; [constructor|constructor; [exact HD|constructor]]. Qed.
    Lemma list_good : good [VList vs; VDict D].
    Proof. eapply good_item; [apply root_good|exact Hvs]. Qed.
    Lemma nodes_good : (forall c, In c cases -> good c) /\ forall n c cs, In n ns -> n = Batch c cs -> good c.
    Proof.
      assert (forall l ns', Forall2 (listed [VList vs; VDict D]) l ns' -> incl l vs ->
        (forall c, In c (flat_map nodes_of ns') -> good c) /\ forall n c cs, In n ns' -> n = Batch c cs -> good c) as H.
      { induction 1 as [|v n l ns' H _ IH]; intros Hi; [split; [intros c []|intros n c cs []]|].
        destruct IH as [I1 I2]. { intros x Hx. apply Hi. right. exact Hx. }
        assert (good (v :: [VList vs; VDict D])) as Hg by (apply good_member; [apply list_good|apply Hi; left; reflexivity]).
        split.
        - intros c Hx. cbn in Hx. apply in_app_or in Hx as [Hx|Hx]; [eapply listed_good; eauto|auto].
        - intros n' c cs [<-|Hn] E; [|eauto]. destruct H; [discriminate E|]. injection E as <- _. exact Hg. }
      apply (H vs ns Hns). apply incl_refl.
    Qed.
    Lemma listing_spec : exists items, listing w pre [VDict D] = Fine items /\ Forall2 weighs ns (map entry_of items) /\ Forall2 (made (archive p)) cases (flat_map cases_in items).
    Proof.
      destruct nodes_good as [G1 G2].
      destruct (make_items (archive p) ns) as (items & E & W & M); [|exact G2|].
      { intros c Hx. split; [apply G1, Hx|]. apply In_nth_error in Hx as (i & Hx). exists i. apply Hfair, Hx. }
      exists items. split; [|auto]. unfold listing, list_nodes. fold (case_list pre). rewrite (own_item D [] _ _ root_good Hvs). cbn [found]. rewrite wrap_members.
      rewrite (all_fine_map (as_node w) _ ns); [exact E|].
      assert (forall l ns', Forall2 (listed [VList vs; VDict D]) l ns' -> incl l vs -> Forall2 (fun a x => as_node w a = Fine x) (map (fun v => wrap v [VList vs; VDict D]) l) ns') as H.
      { induction 1 as [|v n l ns' H _ IH]; intros Hi; [constructor|]. cbn [map]. constructor; [|apply IH; intros x Hx; apply Hi; right; exact Hx].
        apply listed_node; [|exact H]. apply good_member; [apply list_good|apply Hi; left; reflexivity]. }
      apply H; [exact Hns|apply incl_refl].
    Qed.

    Definition verdict short l rs rep i pts input answer args ch : Prop :=
      ((exists j, Spec.Worker.stops short l rs j i) -> Spec.Worker.reported_skipped rep) /\
      (~ (exists j, Spec.Worker.stops short l rs j i) -> Spec.Worker.ran rep = true /\ (started (program w i input) -> replying i pts input answer args ch ->
        deserves pts (runs_on_error w ch) (apply_checker w ch args i (inject_Z pts) (output_of (program w i input)) answer input) (program w i input) rep)).
    Theorem verdicts warning abort_at short :
      exists l rs last, Forall2 weighs ns l /\ length rs <= length cases /\
        Worker.worker_stream (fun _ => Worker.Sent) (judged w (Some warning) abort_at short)
          = Worker.Hello :: Spec.Worker.preamble warning pre ++ Spec.Worker.transcript 0 0 l rs ++ [last; Worker.Bye] /\
        ((last = Worker.GradingEnd /\ length rs = length cases) \/ (last = Worker.GradingAborted /\ abort_at <> None)) /\
        forall i c pts input answer args ch rep, nth_error cases i = Some c -> settled (archive p) i c pts input answer args ch -> nth_error rs i = Some rep ->
          verdict short l rs rep i pts input answer args ch.
    Proof.
      destruct listing_spec as (items & EL & W & M). pose proof (weighs_total _ _ W) as HT. destruct nodes_good as [G1 _].
      assert (forall i c t pts input answer args ch, nth_error cases i = Some c -> nth_error (flat_map cases_in items) i = Some t -> settled (archive p) i c pts input answer args ch ->
        started (program w i input) -> replying i pts input answer args ch ->
        forall tc, Worker.position tc = i -> exists fl q, nth_grade w [VDict D] (archive p) (flat_map cases_in items) tc = Worker.GResult fl q /\
          forall rep, Spec.Worker.rep_flag rep = fl -> Spec.Worker.rep_points rep = q ->
            deserves pts (runs_on_error w ch) (apply_checker w ch args i (inject_Z pts) (output_of (program w i input)) answer input) (program w i input) rep) as HG.
      { intros i c t pts input answer args ch Ec Et (name & Hp & Hch) Hs Hre tc <-. unfold nth_grade. rewrite Et, (standard_grader D [] Hc Hsg Hin).
        assert (good c) as Hg by (eapply G1, nth_error_In, Ec).
        destruct (nth_Forall2 _ _ _ _ _ M Ec) as (t' & Et' & pts' & b & Hpt & Hb & -> & _). rewrite Et in Et'. injection Et' as ->.
        assert (pts' = pts) as -> by exact (points_one c _ _ Hg Hpt (as_points _ _ _ _ _ _ _ _ Hp)).
        eapply grade_deserves; eauto. }
      assert (forall tc, Worker.position tc < length cases -> nth_grade w [VDict D] (archive p) (flat_map cases_in items) tc <> Worker.GRaise) as HN.
      { intros tc Hlt. destruct (nth_error cases (Worker.position tc)) as [c|] eqn:Ec; [|apply nth_error_None in Ec; lia].
        destruct (nth_Forall2 _ _ _ _ _ M Ec) as (t & Et & _). destruct (Hfair _ _ Ec) as (pts & input & answer & args & ch & Hp & Hs & Hre).
        destruct (HG _ _ _ _ _ _ _ _ Ec Et Hp Hs Hre tc eq_refl) as (fl & q & -> & _). discriminate. }
      unfold judged. rewrite Hprep, (pretests D pre HD Hmeta Hpre), EL.
      destruct (Worker.grade_cases (nth_grade w [VDict D] (archive p) (flat_map cases_in items)) abort_at short (Worker.Compiled warning pre (Some (map entry_of items)))) as [e st] eqn:E.
      apply Proofs.Worker.cases_unfold in E as (e' & E & Em & _). destruct (Proofs.Worker.graded _ _ _ _ _ _ E) as (rs & H1 & H2 & H3).
      assert (length rs <= length cases) as Hlen by (rewrite <- HT; exact H1).
      assert (forall last, Worker.messages e' = Spec.Worker.transcript 0 0 (map entry_of items) rs ++ [last] ->
        Spec.Worker.preamble warning pre ++ Spec.Worker.transcript 0 0 (map entry_of items) rs ++ [last; Worker.Bye] = Worker.messages e ++ [Worker.Bye]) as HM.
      { intros last El. rewrite Em, El, <- !app_assoc. reflexivity. }
      assert (forall ms tl i, Worker.send_all (fun _ => Worker.Sent) i ms tl = ms ++ tl) as HS by (induction ms as [|m ms IH]; intros; cbn; [|rewrite IH]; reflexivity).
      assert (forall i c pts input answer args ch rep, nth_error cases i = Some c -> settled (archive p) i c pts input answer args ch -> nth_error rs i = Some rep ->
          verdict short (map entry_of items) rs rep i pts input answer args ch) as HR.
      { intros i c pts input answer args ch rep Ec Hp Er. destruct (H2 i rep Er) as (K1 & K2 & K3). split; [intros X; apply K2, K1, X|].
        intros NX. destruct (Spec.Worker.ran rep) eqn:Ran; [|destruct (NX (proj1 K1 eq_refl))]. split; [reflexivity|]. intros Hs Hre.
        destruct (K3 eq_refl) as (_ & tc & Et & _ & Eg). destruct (nth_Forall2 _ _ _ _ _ M Ec) as (t & Ett & _).
        destruct (HG _ _ _ _ _ _ _ _ Ec Ett Hp Hs Hre tc Et) as (fl & q & Eg' & Hd). rewrite Eg in Eg'. injection Eg' as E1 E2. apply Hd; assumption. }
      destruct st as [s| |].
      - destruct H3 as (L & El & _). exists (map entry_of items), rs, Worker.GradingEnd. split; [exact W|]. split; [exact Hlen|]. split; [|split; [left; split; [reflexivity|congruence]|exact HR]].
        rewrite (HM _ El). unfold Worker.worker_stream. rewrite HS. reflexivity.
      - destruct H3 as (L & El & _ & (a & Ea & _) & _). exists (map entry_of items), rs, Worker.GradingAborted. split; [exact W|]. split; [exact Hlen|]. split; [|split; [right; split; [reflexivity|congruence]|exact HR]].
        rewrite (HM _ El). unfold Worker.worker_stream. rewrite HS. reflexivity.
      - destruct H3 as (L & _ & _ & _ & tc & Et & Eg). exfalso. apply (HN tc); [|exact Eg]. rewrite Et, <- HT. exact L.
    Qed.
  End Judged.

  Lemma nth_ext_error {A} (l l' : list A) : (forall i, nth_error l i = nth_error l' i) -> l = l'.
  Proof.
    revert l'. induction l as [|x l IH]; intros [|y l'] H; [reflexivity|discriminate (H 0)|discriminate (H 0)|].
    pose proof (H 0) as H0. injection H0 as ->. f_equal. apply IH. intros i. exact (H (S i)).
  Qed.
  Section General.
    Variables (p : problem) (D : dict) (pre : bool) (ns : list node).
    Hypothesis HS : gradeable w p D pre ns.
    Notation cases := (flat_map nodes_of ns).
    Lemma all_scored warning abort_at short :
      exists l rs last, Forall2 weighs ns l /\ length rs <= length cases /\
        Worker.worker_stream (fun _ => Worker.Sent) (judged w (Some warning) abort_at short)
          = Worker.Hello :: Spec.Worker.preamble warning pre ++ Spec.Worker.transcript 0 0 l rs ++ [last; Worker.Bye] /\
        ((last = Worker.GradingEnd /\ length rs = length cases) \/ (last = Worker.GradingAborted /\ abort_at <> None)) /\
        forall i c rep, nth_error cases i = Some c -> nth_error rs i = Some rep ->
          ((exists j, Spec.Worker.stops short l rs j i) -> Spec.Worker.reported_skipped rep) /\
          (~ (exists j, Spec.Worker.stops short l rs j i) -> Spec.Worker.ran rep = true /\
             exists pts input answer name args always ck, asked w (archive p) c pts input answer name args /\
               replies w i pts input answer args (output_of (program w i input)) name always ck /\ deserves pts always ck (program w i input) rep).
    Proof.
      destruct HS as [H1 H2 H3 (H4 & H5 & H6) H7 (vs & H8 & H9) H10].
      assert (forall i c, nth_error cases i = Some c -> exists pts input answer name args ch, asked w (archive p) c pts input answer name args /\
        fst (checker run (fun _ => execute w) c no_checkers) = Fine (ch, args) /\ started (program w i input) /\ replying i pts input answer args ch /\
        replies w i pts input answer args (output_of (program w i input)) name (runs_on_error w ch) (apply_checker w ch args i (inject_Z pts) (output_of (program w i input)) answer input)) as HC.
      { intros i c Ec. destruct (H10 i c Ec) as (pts & input & answer & name & args & Ha & Hs & (always & ck & Hr) & Hse).
        assert (good c) as Hg. { apply (proj1 (nodes_good D pre vs ns H2 H8 H9)). eapply nth_error_In, Ec. }
        destruct (replied c name args i pts input answer _ always ck Hg (as_checker _ _ _ _ _ _ _ _ Ha) Hr) as (ch & Hch & Hre).
        exists pts, input, answer, name, args, ch. split; [exact Ha|]. split; [exact Hch|]. split; [exact Hs|]. split; [|apply Hre]. intros X. eapply Hse; [apply Hre|exact X]. }
      destruct (verdicts p D pre vs ns H1 H2 H3 H4 H5 H6 H7 H8 H9) with (warning := warning) (abort_at := abort_at) (short := short) as (l & rs & last & W & HL & E & Hlast & HR).
      { intros i c Ec. destruct (HC i c Ec) as (pts & input & answer & name & args & ch & X1 & X2 & X3 & X4 & _). exists pts, input, answer, args, ch. split; [exists name; auto|auto]. }
      exists l, rs, last. split; [exact W|]. split; [exact HL|]. split; [exact E|]. split; [exact Hlast|]. intros i c rep Ec Er.
      destruct (HC i c Ec) as (pts & input & answer & name & args & ch & X1 & X2 & X3 & X4 & X5).
      destruct (HR i c pts input answer args ch rep Ec (ex_intro _ name (conj X1 X2)) Er) as [V1 V2]. split; [exact V1|]. intros NX. destruct (V2 NX) as [V3 V4]. split; [exact V3|].
      exists pts, input, answer, name, args. eexists. eexists. split; [exact X1|]. split; [exact X5|]. exact (V4 X3 X4).
    Qed.
  End General.
  Section Perfect.
    Variables (p : problem) (D : dict) (pre : bool) (ns : list node).
    Hypothesis HS : standard w p D pre ns.
    Notation cases := (flat_map nodes_of ns).
    Lemma all_verdicts warning abort_at short :
      exists l rs last, Forall2 weighs ns l /\ length rs <= length cases /\
        Worker.worker_stream (fun _ => Worker.Sent) (judged w (Some warning) abort_at short)
          = Worker.Hello :: Spec.Worker.preamble warning pre ++ Spec.Worker.transcript 0 0 l rs ++ [last; Worker.Bye] /\
        ((last = Worker.GradingEnd /\ length rs = length cases) \/ (last = Worker.GradingAborted /\ abort_at <> None)) /\
        forall i c pts input right rep, nth_error cases i = Some c -> poses w (archive p) c pts input right -> nth_error rs i = Some rep ->
          ((exists j, Spec.Worker.stops short l rs j i) -> Spec.Worker.reported_skipped rep) /\
          (~ (exists j, Spec.Worker.stops short l rs j i) -> Spec.Worker.ran rep = true /\ (started (program w i input) -> deserved pts right (program w i input) rep)).
    Proof.
      destruct HS as [H1 H2 H3 (H4 & H5 & H6) H7 (vs & H8 & H9) H10].
      assert (forall i c pts input right, nth_error cases i = Some c -> poses w (archive p) c pts input right -> exists answer args ch, settled (archive p) i c pts input answer args ch /\
        runs_on_error w ch = false /\ replying i pts input answer args ch /\
        decides (apply_checker w ch args i (inject_Z pts) (output_of (program w i input)) answer input) (right (output_of (program w i input)))) as HC.
      { intros i c pts input right Ec (answer & name & args & eqv & Ha & Hr & ->).
        assert (good c) as Hg. { apply (proj1 (nodes_good D pre vs ns H2 H8 H9)). eapply nth_error_In, Ec. }
        destruct (rule_decides name args eqv Hr i (inject_Z pts) (output_of (program w i input)) answer input) as (Hd & Hroe & Hdot & Hi).
        exists answer, args, (Builtin name). split.
        { exists name. split; [exact Ha|]. rewrite (builtin_always run (fun _ => execute w) c no_checkers name args Hg (as_checker _ _ _ _ _ _ _ _ Ha) Hdot Hi). reflexivity. }
        split; [exact Hroe|]. split; [|exact Hd]. intros _. destruct Hd as [(b & -> & _)|(fb & -> & _)]; exact I. }
      destruct (verdicts p D pre vs ns H1 H2 H3 H4 H5 H6 H7 H8 H9) with (warning := warning) (abort_at := abort_at) (short := short) as (l & rs & last & W & HL & E & Hlast & HR).
      { intros i c Ec. destruct (H10 i c Ec) as (pts & input & right & Hp & Hs). destruct (HC i c pts input right Ec Hp) as (answer & args & ch & X1 & _ & X2 & _).
        exists pts, input, answer, args, ch. auto. }
      exists l, rs, last. split; [exact W|]. split; [exact HL|]. split; [exact E|]. split; [exact Hlast|]. intros i c pts input right rep Ec Hp Er.
      destruct (HC i c pts input right Ec Hp) as (answer & args & ch & X1 & X2 & X3 & X4).
      destruct (HR i c pts input answer args ch rep Ec X1 Er) as [V1 V2]. split; [exact V1|]. intros NX. destruct (V2 NX) as [V3 V4]. split; [exact V3|].
      intros Hs. specialize (V4 Hs X3). rewrite X2 in V4. exact (deserves_deserved _ pts right _ rep (proj2 Hs) X4 V4).
    Qed.

    Lemma weighs_nth l i c pts : (forall c, In c cases -> good c) -> Forall2 weighs ns l -> nth_error cases i = Some c -> points_of c pts ->
      nth_error (Spec.Worker.all_points l) i = Some (inject_Z pts).
    Proof.
      clear HS. intros HG H. unfold Spec.Worker.all_points. revert i HG. induction H as [|n e ns' l H _ IH]; intros i HG Ec Hp; [destruct i; discriminate Ec|].
      assert (exists qs, Forall2 points_of (nodes_of n) qs /\ Spec.Worker.points_in e = map inject_Z qs) as (qs & F & Eq).
      { destruct H as [c' q Hq|c' cs qs F]; [exists [q]; split; [constructor; [exact Hq|constructor]|reflexivity]|exists qs; auto]. }
      cbn [flat_map] in *. rewrite Eq. pose proof (forall2_length _ _ _ F) as FL.
      destruct (Nat.lt_ge_cases i (length (nodes_of n))) as [Hlt|Hge].
      - rewrite nth_error_app1 in Ec by assumption. rewrite nth_error_app1 by (rewrite map_length; lia). destruct (nth_Forall2 _ _ _ _ _ F Ec) as (q & Eq' & Hq).
        rewrite nth_error_map, Eq'. cbn. assert (good c) as Hg by (apply HG, in_or_app; left; eapply nth_error_In, Ec).
        rewrite (points_one c _ _ Hg Hq Hp). reflexivity.
      - rewrite nth_error_app2 in Ec by assumption. rewrite nth_error_app2 by (rewrite map_length; lia). rewrite map_length, <- FL. apply IH; auto.
        intros c' Hc'. apply HG, in_or_app. auto.
    Qed.

    Definition full (q : Q) : Spec.Worker.report := Spec.Worker.Report true 0 q.
    Theorem perfect warning short :
      (forall i c, nth_error cases i = Some c -> exists pts input right, poses w (archive p) c pts input right /\ started (program w i input) /\ solves right (program w i input)) ->
      exists l, Forall2 weighs ns l /\
        Worker.worker_stream (fun _ => Worker.Sent) (judged w (Some warning) None short)
          = Worker.Hello :: Spec.Worker.preamble warning pre ++ Spec.Worker.transcript 0 0 l (map full (Spec.Worker.all_points l)) ++ [Worker.GradingEnd; Worker.Bye].
    Proof.
      intros Hall. destruct (all_verdicts warning None short) as (l & rs & last & W & HL & E & [(-> & Hlen)|(_ & X)] & HR); [|congruence].
      exists l. split; [exact W|]. rewrite E. do 4 f_equal. assert (forall c, In c cases -> good c) as HG.
      { destruct HS as [H1 H2 H3 _ H7 (vs & H8 & H9) _]. exact (proj1 (nodes_good D pre vs ns H2 H8 H9)). }
      assert (forall i, i < length rs -> exists q, nth_error (Spec.Worker.all_points l) i = Some q /\ nth_error rs i = Some (full q)) as HA.
      { intros i. induction (lt_wf i) as [i _ IH]. intros Hi. destruct (nth_error rs i) as [rep|] eqn:Er; [|apply nth_error_None in Er; lia].
        destruct (nth_error cases i) as [c|] eqn:Ec; [|apply nth_error_None in Ec; lia]. destruct (Hall i c Ec) as (pts & input & right & Hp & Hs & Hsol).
        destruct (HR i c pts input right rep Ec Hp Er) as [_ K]. destruct K as [Kr Kd].
        { intros (j & Hj & (r & Er' & Hw) & _). destruct (IH j Hj ltac:(lia)) as (q & _ & Eq). rewrite Er' in Eq. injection Eq as ->. discriminate Hw. }
        assert (points_of c pts) as Hpt by (destruct Hp as (? & ? & ? & ? & Hp & _); exact (as_points _ _ _ _ _ _ _ _ Hp)).
        destruct (proj1 (Kd Hs) Hsol) as [F1 F2]. exists (inject_Z pts). split; [exact (weighs_nth l i c pts HG W Ec Hpt)|].
        f_equal. destruct rep. cbn in *. subst. reflexivity. }
      assert (length (Spec.Worker.all_points l) = length rs) as Lp by (fold (Spec.Worker.total l); rewrite (weighs_total _ _ W); lia).
      apply nth_ext_error. intros i. destruct (Nat.lt_ge_cases i (length rs)) as [Hlt|Hge].
      - destruct (HA i Hlt) as (q & E1 & E2). rewrite nth_error_map, E1, E2. reflexivity.
      - rewrite (proj2 (nth_error_None rs i) Hge). symmetry. apply nth_error_None. rewrite map_length. lia.
    Qed.
  End Perfect.

  (** ** From the document *)
  Section Document.
    Variables (text : list N) (doc : dict).
    Hypothesis Hfile : file w (join (root w) (B "init.yml")) = Some text.
    Hypothesis Hyaml : yaml w text = Document (VDict doc).
    Hypothesis Hdoc : static (VDict doc).
    Hypothesis Hmeta : static (meta w).
    Notation D0 := (update (defaults (has (B "signature_grader") doc) (meta w)) doc).
    Lemma D0_stands k v : In (k, v) D0 <-> stands doc (meta w) k v.
    Proof. rewrite <- defines_In. fold (the_config doc (meta w)). apply config_stands; assumption. Qed.
    Lemma D0_static : static (VDict D0).
    Proof. apply static_update; [apply static_defaults, Hmeta|exact Hdoc]. Qed.
    Lemma root_nearest k v : In (k, v) D0 -> nearest [VDict D0] k v [VDict D0].
    Proof. intros H. exists [], (VDict D0), []. repeat split; auto. constructor. exact H. Qed.
    Lemma root_nowhere k : lacks k doc -> (forall v, ~ usual doc (meta w) k v) -> nowhere [VDict D0] k.
    Proof. intros H1 H2. constructor; [|constructor]. intros v Hv. apply defines_In, D0_stands in Hv. destruct Hv as [Hv|[_ Hv]]; [exact (H1 _ Hv)|exact (H2 _ Hv)]. Qed.
    Lemma root_attribute k v : v <> Null -> stands doc (meta w) k v -> attribute [VDict D0] k v.
    Proof. intros Hv H. left. exists [VDict D0]. split; [apply root_nearest, D0_stands, H|exact Hv]. Qed.
    Lemma archive_known z : archive_of w doc z -> archived (zip w) (root w) [VDict D0] z.
    Proof.
      intros [(Hl & ->)|(s & e & Hi & Hs & Hz & ->)].
      - left. exists Null. assert (nowhere [VDict D0] (B "archive")) as Hn.
        { apply root_nowhere; [exact Hl|]. intros v U. unfold usual in U. repeat (destruct U as [[U _]|U]; [discriminate U|]); destruct U as [U _]; discriminate U. }
        split; [|auto]. right. split; [left; exact Hn|right]. split; [exact Hn|reflexivity].
      - right. exists s, e. split; [|auto]. apply root_attribute; [discriminate|left; exact Hi].
    Qed.
    Theorem from_list v vs z : In (B "test_cases", VList (v :: vs)) doc -> archive_of w doc z ->
      exists p d, prepared w = Fine (p, [VDict d]) /\ archive p = z /\ static (VDict d) /\ forall k x, In (k, x) d <-> stands doc (meta w) k x.
    Proof.
      intros Hv Hz. exists (Problem [VDict D0] z Listed), D0. split; [|split; [reflexivity|split; [apply D0_static|apply D0_stands]]].
      unfold prepared. rewrite (proj2 (load_spec run (file w) (yaml w) (zip w) (compiles w) (root w) text doc (meta w) (Problem [VDict D0] z Listed) Hfile Hyaml Hdoc Hmeta)); [reflexivity|].
      cbn [config archive test_cases]. split; [intros ->; destruct Hv|]. split; [reflexivity|]. split; [apply archive_known, Hz|].
      apply (arr_listed _ _ _ v vs). apply root_attribute; [discriminate|left; exact Hv].
    Qed.

    Lemma plain_key k : existsb (fun x => N.eqb x 43) k = false -> ~ ends_in_plus k.
    Proof. intros Hk [a ->]. rewrite existsb_app in Hk. apply Bool.orb_false_iff in Hk. destruct Hk as [_ Hk]. discriminate Hk. Qed.
    Lemma name_static n : static (name_value n).
    Proof. destruct n; exact I. Qed.
    Lemma files_static e : static (VDict (files_value e)).
    Proof. split; [|split; [|split; [apply name_static|split; [apply name_static|exact I]]]].
      - constructor; [|constructor; [|constructor]]; cbn -[B]; [|tauto]. intros [X|[]]. discriminate X.
      - constructor; [|constructor; [|constructor]]; apply plain_key; reflexivity. Qed.
    Lemma matched_static m : static (raw_of (match m with Problem.MCase _ p | Problem.MBatch _ p => p end)) -> static (matched_value m).
    Proof.
      destruct m as [e p|es p]; intros Hp; cbn [matched_value].
      - destruct (files_static e) as (A1 & A2 & A3). split; [|split].
        + cbn -[B]. constructor; [|constructor; [|constructor; [|constructor]]]; cbn -[B]; try tauto; intros X; repeat (destruct X as [X|X]; [discriminate X|]); exact X.
        + cbn -[B]. repeat (apply Forall_cons; [apply plain_key; reflexivity|]). constructor.
        + cbn -[B]. repeat (split; [apply name_static|]). split; [exact Hp|exact I].
      - split; [|split].
        + cbn -[B]. constructor; [|constructor; [|constructor]]; cbn -[B]; [|tauto]. intros [X|[]]. discriminate X.
        + cbn -[B]. repeat (apply Forall_cons; [apply plain_key; reflexivity|]). constructor.
        + split; [|split; [exact Hp|exact I]]. induction es as [|e es IH]; [exact I|]. split; [apply files_static|exact IH].
    Qed.
    Lemma matched_listed up m : exists n, listed up (matched_value m) n.
    Proof.
      destruct m as [e p|es p]; cbn [matched_value].
      - eexists. apply l_case. intros v H. cbn -[B] in H. repeat (destruct H as [H|H]; [discriminate H|]). exact H.
      - eexists. rewrite <- (map_map files_value VDict). apply l_batch; [left; reflexivity|]. apply Forall_forall. intros d Hd. apply in_map_iff in Hd as (e & <- & _).
        intros v H. cbn -[B] in H. repeat (destruct H as [H|H]; [discriminate H|]). exact H.
    Qed.
    Lemma each_listed up ms : exists ns, Forall2 (listed up) (map matched_value ms) ns.
    Proof. induction ms as [|m ms (ns & IH)]; [exists []; constructor|]. destruct (matched_listed up m) as (n & H). exists (n :: ns). constructor; assumption. Qed.

    Theorem from_names e pts ms : lacks (B "test_cases") doc -> lacks (B "test-cases") doc -> archive_of w doc (Some e) ->
      stands doc (meta w) (B "points") (VInt pts) -> compiles w default_input = true -> compiles w default_output = true -> doc <> [] ->
      Problem.match_test_cases (fun r => matches w (match r with Problem.InputFile => default_input | Problem.OutputFile => default_output end)) (map fst e) (fun _ => Some (Plain (VInt pts))) = Problem.Ok ms ->
      exists p d vs ns, prepared w = Fine (p, [VDict d]) /\ archive p = Some e /\ static (VDict d) /\
        (forall k x, k <> B "test_cases" -> In (k, x) d <-> stands doc (meta w) k x) /\
        Forall2 (written pts) ms vs /\ In (B "test_cases", VList vs) d /\ Forall2 (listed [VList vs; VDict d]) vs ns.
    Proof.
      intros Ht Ht' Hz Hp Ci Co Hd Hm.
      assert (Forall (fun m => match m with Problem.MCase _ p | Problem.MBatch _ p => p end = Plain (VInt pts)) ms) as Hpts.
      { apply Proofs.Problem.match_result in Hm as (gs & _ & _ & Hl & He). apply Forall_forall. intros m Im. apply In_nth_error in Im as (i & Ei).
        destruct (nth_error gs i) as [g|] eqn:Eg; [|apply nth_error_None in Eg; assert (nth_error ms i <> None) as X by congruence; apply nth_error_Some in X; lia].
        destruct (He i g Eg) as (q & m' & Eq & Em & F). injection Eq as <-. rewrite Ei in Em. injection Em as <-. inversion F; reflexivity. }
      set (p := Problem [VDict D0] (Some e) (Guessed (map fst e) default_input default_output (Always (Plain (VInt pts))))).
      set (d := store (B "test_cases") (VList (map matched_value ms)) D0). destruct (each_listed [VList (map matched_value ms); VDict d] ms) as (ns & Hns). exists p, d, (map matched_value ms), ns.
      assert (forall k, k = B "test_cases" \/ k = B "test-cases" -> nowhere [VDict D0] k) as Hn.
      { intros k Hk. apply root_nowhere; [destruct Hk as [->| ->]; assumption|]. intros v U. unfold usual in U. destruct Hk as [->| ->]; repeat (destruct U as [[U _]|U]; [discriminate U|]); destruct U as [U _]; discriminate U. }
      assert (static (VDict d)) as Hs.
      { apply static_store; [apply D0_static| |apply plain_key; reflexivity]. clear -Hpts. induction Hpts as [|m ms Em _ IH]; [exact I|]. split; [|exact IH]. apply matched_static. rewrite Em. exact I. }
      split; [|split; [reflexivity|split; [exact Hs|split; [|split; [|split; [apply find_In, find_store_same|exact Hns]]]]]].
      - unfold prepared. rewrite (proj2 (load_spec run (file w) (yaml w) (zip w) (compiles w) (root w) text doc (meta w) p Hfile Hyaml Hdoc Hmeta)).
        + unfold with_cases, p. cbn [test_cases config]. unfold nth_points. rewrite Hm. reflexivity.
        + unfold p. cbn [config archive test_cases]. split; [exact Hd|]. split; [reflexivity|]. split; [apply archive_known, Hz|].
          assert (forall k, nowhere [] k) as Hno by (intros k; constructor).
          apply (arr_guessed _ _ _ Null [] e default_input default_output (VInt pts)); auto.
          * right. split; [left; apply Hn; auto|right]. split; [apply Hn; right; reflexivity|reflexivity].
          * left. split; [left; apply Hno|reflexivity].
          * left. split; [left; apply Hno|reflexivity].
          * apply root_attribute; [discriminate|exact Hp].
          * left. split; [left; apply Hno|reflexivity].
      - intros k x Hk. rewrite <- D0_stands. pose proof (proj1 Hs) as N1. pose proof (proj1 D0_static) as N2. split; intros H.
        + apply (In_find _ _ _ N1) in H. unfold d in H. rewrite find_store_other in H by exact Hk. apply find_In, H.
        + apply (In_find _ _ _ N2) in H. apply find_In. unfold d. rewrite find_store_other by exact Hk. exact H.
      - clear -Hpts. induction Hpts as [|m ms Em _ IH]; [constructor|]. cbn [map]. constructor; [|exact IH]. destruct m as [e q|es q]; subst q; constructor.
    Qed.
  End Document.
End Whole.

(** ** Finding settings by computation *)
Fixpoint near (c : chain) (k : list N) : option (value * chain) :=
  match c with [] => None | raw :: ps => match raw_item raw (Key k) with Some v => Some (v, raw :: ps) | None => near ps k end end.
Lemma near_spec c k : match near c k with Some (v, home) => nearest c k v home | None => nowhere c k end.
Proof.
  induction c as [|raw c IH]; cbn [near]; [constructor|]. destruct (raw_item raw (Key k)) as [v|] eqn:E.
  - exists [], raw, c. repeat split; auto. apply defines_raw_item, E.
  - apply raw_item_undefined in E. destruct (near c k) as [[v home]|]; [|constructor; assumption].
    destruct IH as (b & r & a & -> & -> & Hd & Hu). exists (raw :: b), r, a. repeat split; auto.
Qed.
Lemma near_nearest c k v home : near c k = Some (v, home) -> nearest c k v home.
Proof. intros E. pose proof (near_spec c k) as H. rewrite E in H. exact H. Qed.
Lemma near_nowhere c k : near c k = None -> nowhere c k.
Proof. intros E. pose proof (near_spec c k) as H. rewrite E in H. exact H. Qed.
Lemma near_attribute c k v home : near c k = Some (v, home) -> v <> Null -> attribute c k v.
Proof. intros E Hn. left. exists home. split; [apply near_nearest, E|exact Hn]. Qed.
Lemma near_none c k : near c k = None -> near c (hyphens k) = None -> attribute c k Null.
Proof. intros E E'. right. split; [left; apply near_nowhere, E|right]. split; [apply near_nowhere, E'|reflexivity]. Qed.
