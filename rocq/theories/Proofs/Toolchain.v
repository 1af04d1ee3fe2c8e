From Coq Require Import String.
From Verif Require Import Model.Bytes Model.Executors Model.Feedback Model.Sources Model.Paths Model.Toolchain.
From Verif Require Import Spec.Text Spec.Access Spec.Feedback Spec.Toolchain Proofs.BytesLemmas Proofs.Executors Proofs.Feedback Proofs.Compile.
Local Open Scope nat_scope.
Local Open Scope list_scope.

(** ** Paths *)
Lemma join_within d n : usable_dir d -> starts_slash n = false -> join d n = within d n.
Proof.
  intros [[r ->] E] H. unfold join. rewrite H. cbn [app B]. destruct (ends_slash _) eqn:X; [|reflexivity].
  exfalso. unfold ends_slash in X. destruct (rev _) as [|c q] eqn:Y; [discriminate|]. cbn in X. unfold is_slash, slash in X.
  apply N.eqb_eq in X. subst. apply (f_equal (@rev N)) in Y. rewrite rev_involutive in Y. cbn [rev] in Y. exact (E _ Y).
Qed.
Lemma name_no_slash n : usable_name n -> forall t, starts_slash (n ++ t) = false.
Proof.
  intros [E H] t. destruct n as [|c n]; [destruct (E eq_refl)|]. cbn. unfold is_slash, slash.
  apply N.eqb_neq. intros ->. apply H. left. reflexivity.
Qed.
Lemma file_within i n : usable i -> starts_slash n = false -> file i n = within (dir i) n.
Proof. intros [H _] E. apply join_within; assumption. Qed.
Lemma source_no_slash l n : usable_name n -> starts_slash (source_name l n) = false.
Proof. intros H. unfold source_name. destruct l; try (rewrite (name_no_slash _ H); reflexivity). reflexivity. Qed.
Lemma code_within l i : usable i -> code l i = within (dir i) (source_name l (problem i)).
Proof. intros H. apply file_within; [exact H|]. apply source_no_slash, H. Qed.
Lemma resolved_name d n : usable_name n -> forall t, resolved d (n ++ t) = within d (n ++ t).
Proof.
  intros [E H] t. destruct n as [|c n]; [destruct (E eq_refl)|]. cbn [app]. unfold resolved.
  destruct (N.eq_dec c 47) as [->|D]; [exfalso; apply H; left; reflexivity|].
  destruct c as [|p]; [reflexivity|]. do 6 (destruct p as [p|p|]; try reflexivity; try (exfalso; apply D; reflexivity)).
Qed.
Lemma resolved_dir d n : usable_dir d -> resolved d (within d n) = within d n.
Proof. intros [[r ->] _]. reflexivity. Qed.
Lemma within_not_flag d n f : usable_dir d -> match f with 47%N :: _ => False | _ => True end -> beqb (within d n) f = false.
Proof.
  intros [[r ->] _] H. apply beqb_neq. intros E. subst f. exact H.
Qed.
Lemma within_not_prefix d n c f : usable_dir d -> c <> 47%N -> starting (c :: f) (within d n) = None.
Proof.
  intros [[r ->] _] H. cbn. destruct (N.eqb_spec c 47); [contradiction|reflexivity].
Qed.
Lemma starting_app p s : starting p (p ++ s) = Some s.
Proof. induction p as [|c p IH]; [reflexivity|]. cbn. rewrite N.eqb_refl. exact IH. Qed.
Lemma ends_with_app e s : ends_with e (s ++ e) = true.
Proof. unfold ends_with. rewrite rev_app_distr, starting_app. reflexivity. Qed.
Lemma without_ext_app e s : without_ext e (s ++ e) = s.
Proof.
  unfold without_ext. rewrite app_length. replace (length s + length e - length e) with (length s) by lia.
  rewrite firstn_app, firstn_all, Nat.sub_diag, firstn_O. apply app_nil_r.
Qed.

(** ** The program that is started is the one the compiler was asked for *)
Lemma within_app d n t : within d (n ++ t) = within d n ++ t.
Proof. unfold within. rewrite <- !app_assoc. reflexivity. Qed.
Lemma source_code l i : usable i -> l <> D -> code l i = within (dir i) (problem i) ++ B "." ++ ext l.
Proof.
  intros H E. rewrite (code_within l i H). unfold source_name. rewrite <- within_app.
  destruct l; try reflexivity. destruct (E eq_refl).
Qed.
Lemma file_problem i t : usable i -> file i (problem i ++ t) = within (dir i) (problem i ++ t).
Proof. intros H. apply file_within; [exact H|]. apply name_no_slash, H. Qed.
Lemma file_problem0 i : usable i -> file i (problem i) = within (dir i) (problem i).
Proof. intros H. rewrite <- (app_nil_r (problem i)). apply file_problem, H. Qed.
Lemma resolved0 d n : usable_name n -> resolved d n = within d n.
Proof. intros H. rewrite <- (app_nil_r n). apply resolved_name, H. Qed.

Lemma built_is_run l i c : usable i -> convention_of l = Some c -> exists path,
  placed c (dir i) (compile_args l i) = Some path /\
  launched (starter_of l) (run_executable l i) (run_args l i) (dir i) = Some path.
Proof.
  intros H E. pose proof (proj1 H) as Hd. pose proof (proj2 H) as Hn.
  destruct l; cbn [convention_of] in E; try discriminate E;
    apply (f_equal (fun o => match o with Some x => x | None => c end)) in E; cbv beta iota in E; subst c.
  - (* CBL *) exists (within (dir i) (problem i)). split.
    + unfold placed, source_told. cbn [compile_args tl find]. rewrite (source_code CBL i H) by discriminate.
      change (ends_with (B ".cbl") (B "-x")) with false. change (ends_with (B ".cbl") (B "-free")) with false. cbv iota.
      change (B "." ++ ext CBL) with (B ".cbl"). rewrite ends_with_app. cbn [option_map].
      rewrite without_ext_app, app_nil_r. reflexivity.
    + unfold launched. cbn [starter_of run_executable compiled_file]. rewrite (file_problem0 i H). reflexivity.
  - (* D *) exists (within (dir i) (problem i)). split.
    + unfold placed. cbn [compile_args tl told_by]. rewrite (code_within D i H).
      change (starting (B "-of") (B "-O")) with (@None bytes). change (starting (B "-of") (B "-inline")) with (@None bytes).
      change (starting (B "-of") (B "-release")) with (@None bytes). change (starting (B "-of") (B "-w")) with (@None bytes). cbv iota.
      change (starting (B "-of")) with (starting (45%N :: B "of")). rewrite within_not_prefix by (exact Hd || discriminate).
      change (B "-of") with (45%N :: B "of"). rewrite starting_app. cbn [option_map]. rewrite (resolved0 _ _ Hn). reflexivity.
    + unfold launched. cbn [starter_of run_executable compiled_file]. rewrite (file_problem0 i H). reflexivity.
  - (* DART *) exists (within (dir i) (problem i)). split.
    + unfold placed. cbn [compile_args tl told_by]. rewrite starting_app. cbn [option_map compiled_file]. rewrite (file_problem0 i H).
      rewrite (resolved_dir _ _ Hd). reflexivity.
    + unfold launched. cbn [starter_of run_args last compiled_file]. rewrite (file_problem0 i H), (resolved_dir _ _ Hd). reflexivity.
  - (* GO *) exists (within (dir i) (problem i)). split.
    + unfold placed, source_told. cbn [compile_args tl find]. rewrite (source_code GO i H) by discriminate.
      change (ends_with (B ".go") (B "build")) with false. cbv iota.
      change (B "." ++ ext GO) with (B ".go"). rewrite ends_with_app. cbn [option_map].
      rewrite without_ext_app, app_nil_r. reflexivity.
    + unfold launched. cbn [starter_of run_executable compiled_file]. rewrite (file_problem0 i H). reflexivity.
  - (* HASK *) exists (within (dir i) (problem i)). split.
    + unfold placed. cbn [compile_args tl told_after]. change (beqb (B "-O2") (B "-o")) with false. cbv iota.
      rewrite beqb_refl. cbn [option_map]. rewrite (resolved0 _ _ Hn). reflexivity.
    + unfold launched. cbn [starter_of run_executable compiled_file]. rewrite (file_problem0 i H). reflexivity.
  - (* ICK *) exists (within (dir i) (problem i)). split.
    + unfold placed, source_told. cbn [compile_args tl]. rewrite (source_code ICK i H) by discriminate.
      change (B "." ++ ext ICK) with (B ".i").
      match goal with |- context [find ?f ?l] => assert (X : find f l = Some (within (dir i) (problem i) ++ B ".i")) end.
      { destruct (beqb _ _); cbn [app find].
        - change (ends_with (B ".i") (B "-b")) with false. change (ends_with (B ".i") (B "-O")) with false. cbv iota. rewrite ends_with_app. reflexivity.
        - change (ends_with (B ".i") (B "-O")) with false. cbv iota. rewrite ends_with_app. reflexivity. }
      rewrite X. cbn [option_map]. rewrite without_ext_app, app_nil_r. reflexivity.
    + unfold launched. cbn [starter_of run_executable compiled_file]. rewrite (file_problem0 i H). reflexivity.
  - (* MONOCS *) exists (within (dir i) (problem i ++ B ".exe")). split.
    + unfold placed. cbn [compile_args tl told_by]. rewrite (code_within MONOCS i H).
      change (starting (B "-out:")) with (starting (45%N :: B "out:")). rewrite within_not_prefix by (exact Hd || discriminate).
      change (starting (45%N :: B "out:") (B "-r:System.Numerics.dll")) with (@None bytes). cbv iota.
      change (B "-out:") with (45%N :: B "out:"). rewrite starting_app. cbn [option_map compiled_file]. rewrite (file_problem i _ H).
      rewrite (resolved_dir _ _ Hd). reflexivity.
    + unfold launched. cbn [starter_of run_args last compiled_file]. rewrite (file_problem i _ H), (resolved_dir _ _ Hd). reflexivity.
  - (* MONOFS *) exists (within (dir i) (problem i ++ B ".exe")). split.
    + unfold placed. cbn [compile_args tl told_by].
      change (starting (B "--out:") (B "--nologo")) with (@None bytes). change (starting (B "--out:") (B "--optimize")) with (@None bytes).
      change (starting (B "--out:") (B "--tailcalls")) with (@None bytes). cbv iota.
      rewrite starting_app. cbn [option_map compiled_file]. rewrite (file_problem i _ H), (resolved_dir _ _ Hd). reflexivity.
    + unfold launched. cbn [starter_of run_args last compiled_file]. rewrite (file_problem i _ H), (resolved_dir _ _ Hd). reflexivity.
  - (* MONOVB *) exists (within (dir i) (problem i ++ B ".exe")). split.
    + unfold placed. cbn [compile_args tl told_by].
      change (starting (B "/out:") (B "/nologo")) with (@None bytes). change (starting (B "/out:") (B "/quiet")) with (@None bytes).
      change (starting (B "/out:") (B "/optimize+")) with (@None bytes). cbv iota.
      rewrite starting_app. cbn [option_map compiled_file]. rewrite (file_problem i _ H), (resolved_dir _ _ Hd). reflexivity.
    + unfold launched. cbn [starter_of run_args last compiled_file]. rewrite (file_problem i _ H), (resolved_dir _ _ Hd). reflexivity.
  - (* OCAML *) exists (within (dir i) (problem i)). split.
    + unfold placed. cbn [compile_args tl]. rewrite (code_within OCAML i H).
      cbn [told_after]. repeat match goal with |- context [beqb (B ?a) (B "-o")] => change (beqb (B a) (B "-o")) with false end. cbv iota.
      rewrite within_not_flag by (exact Hd || exact I). rewrite beqb_refl. cbn [option_map]. rewrite (resolved0 _ _ Hn). reflexivity.
    + unfold launched. cbn [starter_of run_executable compiled_file]. rewrite (file_problem0 i H). reflexivity.
  - (* PAS *) exists (within (dir i) (problem i)). split.
    + unfold placed, source_told. cbn [compile_args tl find]. rewrite (source_code PAS i H) by discriminate.
      change (ends_with (B ".pas") (B "-Fe/dev/stderr")) with false. change (ends_with (B ".pas") (B "-So")) with false.
      change (ends_with (B ".pas") (B "-O2")) with false. cbv iota.
      change (B "." ++ ext PAS) with (B ".pas"). rewrite ends_with_app. cbn [option_map].
      rewrite without_ext_app, app_nil_r. reflexivity.
    + unfold launched. cbn [starter_of run_executable compiled_file]. rewrite (file_problem0 i H). reflexivity.
  - (* RUST *) exists (within (dir i) (B "target/release/user_submission")). split; [reflexivity|].
    unfold launched. cbn [starter_of run_executable compiled_file]. rewrite file_within by (exact H || reflexivity). reflexivity.
  - (* SBCL *) exists (within (dir i) (problem i ++ B ".fasl")). split.
    + unfold placed. cbn [compile_args tl told_by].
      change (starting (B "(compile-file """) (B "--eval")) with (@None bytes). cbv iota.
      rewrite starting_app. cbn [option_map]. rewrite without_ext_app, (source_code SBCL i H) by discriminate.
      change (B "." ++ ext SBCL) with (B ".cl"). rewrite without_ext_app, within_app. reflexivity.
    + unfold launched. cbn [starter_of run_args tl].
      assert (X : forall x, told_after (B "--load") [B "--dynamic-space-size"; decimal x; B "--noinform"; B "--no-sysinit";
             B "--no-userinit"; B "--load"; problem i ++ B ".fasl"; B "--quit"; B "--end-toplevel-options"] = Some (problem i ++ B ".fasl")).
      { intros x. cbn [told_after]. change (beqb (B "--dynamic-space-size") (B "--load")) with false. cbv iota.
        assert (Y : beqb (decimal x) (B "--load") = false).
        { apply beqb_neq. intros Y. unfold decimal in Y. cbn [dec_digits] in Y. apply (f_equal (fun l => last l 0%N)) in Y.
          rewrite last_last in Y. change (last (B "--load") 0%N) with 100%N in Y.
          assert (Z : (x mod 10 < 10)%N) by (apply N.mod_lt; discriminate). clear -Y Z. generalize dependent (x mod 10)%N. intros m Y Z. lia. }
        rewrite Y. repeat match goal with |- context [beqb (B ?a) (B "--load")] => change (beqb (B a) (B "--load")) with false end. cbv iota.
        rewrite beqb_refl. reflexivity. }
      rewrite X. cbn [option_map]. rewrite (resolved_name _ _ Hn). reflexivity.
  - (* SCM *) exists (within (dir i) (problem i)). split.
    + unfold placed, source_told. cbn [compile_args tl find]. rewrite (source_code SCM i H) by discriminate.
      change (B "." ++ ext SCM) with (B ".scm"). rewrite ends_with_app. cbn [option_map].
      rewrite without_ext_app, app_nil_r. reflexivity.
    + unfold launched. cbn [starter_of run_executable compiled_file]. rewrite (file_problem0 i H). reflexivity.
  - (* SWIFT *) exists (within (dir i) (problem i)). split.
    + unfold placed, source_told. cbn [compile_args tl find]. rewrite (source_code SWIFT i H) by discriminate.
      change (B "." ++ ext SWIFT) with (B ".swift"). rewrite ends_with_app. cbn [option_map].
      rewrite without_ext_app, app_nil_r. reflexivity.
    + unfold launched. cbn [starter_of run_executable compiled_file]. rewrite (file_problem0 i H). reflexivity.
  - (* TUR *) exists (within (dir i) (problem i) ++ B ".tbc"). split.
    + unfold placed, source_told. cbn [compile_args tl find]. rewrite (source_code TUR i H) by discriminate.
      change (B "." ++ ext TUR) with (B ".t"). rewrite ends_with_app. cbn [option_map].
      rewrite without_ext_app. reflexivity.
    + unfold launched. cbn [starter_of run_args last]. rewrite (source_code TUR i H) by discriminate.
      rewrite <- !app_assoc. change (B "." ++ ext TUR ++ B "bc") with (B ".tbc"). rewrite <- within_app, (resolved_dir _ _ Hd). reflexivity.
  - (* ZIG *) exists (within (dir i) (problem i)). split.
    + unfold placed. cbn [compile_args tl told_after]. rewrite (code_within ZIG i H).
      change (beqb (B "build-exe") (B "--name")) with false. change (beqb (B "--release-safe") (B "--name")) with false. cbv iota.
      rewrite within_not_flag by (exact Hd || exact I). rewrite beqb_refl. cbn [option_map]. rewrite (resolved0 _ _ Hn). reflexivity.
    + unfold launched. cbn [starter_of run_executable compiled_file]. rewrite (file_problem0 i H). reflexivity.
Qed.

(** ** Newlines *)
Lemma cleanup_lf s : zig_cleanup (LF :: s) = LF :: zig_cleanup s.
Proof. unfold zig_cleanup. destruct s as [|d r]; reflexivity. Qed.
Lemma cleanup_other c s : c <> CR -> zig_cleanup (c :: s) = c :: zig_cleanup s.
Proof.
  intros H. unfold zig_cleanup. apply N.eqb_neq in H. destruct s as [|d r].
  - cbn [replace_crlf map]. rewrite H. reflexivity.
  - change (replace_crlf (c :: d :: r)) with (if (c =? CR)%N && (d =? LF)%N then CR :: replace_crlf r else c :: replace_crlf (d :: r)).
    rewrite H. cbn [andb map]. rewrite H. reflexivity.
Qed.
Lemma cleanup_crlf s : zig_cleanup (CR :: LF :: s) = LF :: zig_cleanup s.
Proof. reflexivity. Qed.
Lemma cleanup_cr s : (forall r, s <> LF :: r) -> zig_cleanup (CR :: s) = LF :: zig_cleanup s.
Proof.
  intros H. unfold zig_cleanup. destruct s as [|d r]; [reflexivity|].
  change (replace_crlf (CR :: d :: r)) with (if (CR =? CR)%N && (d =? LF)%N then CR :: replace_crlf r else CR :: replace_crlf (d :: r)).
  destruct (N.eqb_spec d LF) as [->|D]; [destruct (H r eq_refl)|]. reflexivity.
Qed.
Lemma cleanup_newlines n : forall s, length s <= n -> newlines s (zig_cleanup s).
Proof.
  induction n as [|n IH]; intros s L.
  - destruct s; [constructor|cbn in L; lia].
  - destruct s as [|c s]; [constructor|]. cbn in L.
    destruct (N.eq_dec c CR) as [->|D].
    + destruct s as [|d r].
      * rewrite cleanup_cr by discriminate. apply nl_cr; [constructor|discriminate].
      * destruct (N.eq_dec d LF) as [->|E].
        -- rewrite cleanup_crlf. apply nl_crlf, IH. cbn in L. lia.
        -- assert (X : forall q, d :: r <> LF :: q) by (intros q X; injection X as X _; contradiction).
           rewrite (cleanup_cr _ X). apply nl_cr; [apply IH; lia|exact X].
    + destruct (N.eq_dec c LF) as [->|E].
      * rewrite cleanup_lf. apply nl_lf, IH. lia.
      * rewrite (cleanup_other _ _ D). apply nl_char; [exact D|exact E|apply IH; lia].
Qed.
Lemma newlines_fun s t : newlines s t -> forall t', newlines s t' -> t = t'.
Proof.
  induction 1 as [|s t H IH|s t H IH X|s t H IH|c s t A1 A2 H IH]; intros t' H'; inversion H'; subst; try contradiction; try congruence;
    f_equal; try (apply IH; assumption);
    try (match goal with A : forall r, 10%N :: ?s <> 10%N :: r |- _ => destruct (A s eq_refl) end);
    try (match goal with A : forall r, _ <> 10%N :: r |- _ => destruct (A _ eq_refl) end).
Qed.
Lemma zig_iff s t : zig_cleanup s = t <-> newlines s t.
Proof.
  split; [intros <-; apply (cleanup_newlines (length s)); lia|].
  intros H. exact (newlines_fun _ _ (cleanup_newlines (length s) s (le_n _)) _ H).
Qed.
Lemma newlines_no_cr s t : newlines s t -> ~ In 13%N t.
Proof.
  induction 1 as [|s t H IH|s t H IH X|s t H IH|c s t A1 A2 H IH]; cbn; [tauto| | | |]; intros [Y|Y]; try discriminate Y; try tauto; congruence.
Qed.

(** ** Files *)
Lemma holds_one path text : holds [(path, text)] path text.
Proof. exact (holds_last [] path text). Qed.
Lemma plain_reaches l i fs : Written [(code l i, source i)] = Written fs ->
  reads l (dir i) (compile_args l i) (code l i) -> same_program l (source i) (source i) ->
  exists path text, reads l (dir i) (compile_args l i) path /\ holds fs path text /\ same_program l (source i) text.
Proof. intros E R P. injection E as <-. exists (code l i), (source i). split; [exact R|]. split; [apply holds_one|exact P]. Qed.
Lemma source_reaches l lock i fs : usable i -> (l = PYTHON -> problem i <> B "-loader") ->
  create_files l lock i = Written fs ->
  exists path text, reads l (dir i) (compile_args l i) path /\ holds fs path text /\ same_program l (source i) text.
Proof.
  intros H P E. pose proof (proj2 H) as Hn.
  destruct l; cbn [create_files] in E;
    try (refine (plain_reaches _ _ _ E _ eq_refl); cbn [reads compile_args In]; clear; tauto).
  - destruct (go_accepts (source i)); [|discriminate]. refine (plain_reaches _ _ _ E _ eq_refl). cbn [reads compile_args In]. clear; tauto.
  - refine (plain_reaches _ _ _ E _ eq_refl). cbn [reads compile_args]. right. apply in_or_app. right. cbn [In]. clear; tauto.
  - apply (f_equal (fun c => match c with Written f => f | Refused _ => [] end)) in E. cbv beta iota in E. subst fs.
    exists (code PYTHON i), (bom ++ source i). split; [|split; [|reflexivity]].
    + cbn [reads]. exists (dir i), (source_name PYTHON (problem i)). split; [cbn [compile_args In]; tauto|]. apply code_within, H.
    + change [(code PYTHON i, bom ++ source i); (file i (B "-loader.py"), if unbuffered i then unbuffered_loader_script else loader_script)]
        with ([(code PYTHON i, bom ++ source i)] ++ [(file i (B "-loader.py"), if unbuffered i then unbuffered_loader_script else loader_script)]).
      apply holds_other; [|apply holds_one].
      rewrite (code_within PYTHON i H), (file_within i _ H) by reflexivity. unfold within, source_name. intros X.
      apply app_inv_head in X. apply app_inv_head in X. change (B "-loader.py") with (B "-loader" ++ B "." ++ ext PYTHON) in X.
      apply app_inv_tail in X. exact (P eq_refl (eq_sym X)).
  - apply (f_equal (fun c => match c with Written f => f | Refused _ => [] end)) in E. cbv beta iota in E. subst fs.
    exists (within (dir i) (B "src/main.rs")), (source i). split; [reflexivity|]. split; [|reflexivity].
    rewrite !(file_within i _ H) by reflexivity.
    change [(within (dir i) (B "src/main.rs"), source i); (within (dir i) (B "Cargo.toml"), cargo_toml); (within (dir i) (B "Cargo.lock"), lock)]
      with (([(within (dir i) (B "src/main.rs"), source i)] ++ [(within (dir i) (B "Cargo.toml"), cargo_toml)]) ++ [(within (dir i) (B "Cargo.lock"), lock)]).
    apply holds_other; [intros X; apply app_inv_head in X; apply app_inv_head in X; vm_compute in X; discriminate X|].
    apply holds_other; [intros X; apply app_inv_head in X; apply app_inv_head in X; vm_compute in X; discriminate X|]. apply holds_one.
  - injection E as <-. exists (code ZIG i), (zig_cleanup (source i)). split; [|split; [apply holds_one|]].
    + cbn [reads compile_args In]. tauto.
    + apply zig_iff. reflexivity.
Qed.
Lemma script_run l lock i fs : usable i -> l = PYTHON \/ l = RKT -> (l = PYTHON -> problem i <> B "-loader") ->
  create_files l lock i = Written fs -> exists path text,
    launched LastArgument (run_executable l i) (run_args l i) (dir i) = Some path /\ run_executable l i = command i /\
    holds fs path text /\ same_program l (source i) text.
Proof.
  intros H [->| ->] P E.
  - destruct (source_reaches PYTHON lock i fs H P E) as (path & text & (d & n & _) & _ & _). clear path text d n.
    exists (code PYTHON i), (bom ++ source i).
    split; [unfold launched; cbn [run_args last]; rewrite (code_within PYTHON i H), (resolved_dir _ _ (proj1 H)); reflexivity|].
    split; [reflexivity|]. split; [|reflexivity].
    apply (f_equal (fun c => match c with Written f => f | Refused _ => [] end)) in E. cbv beta iota in E. subst fs. cbn [create_files].
    change [(code PYTHON i, bom ++ source i); (file i (B "-loader.py"), if unbuffered i then unbuffered_loader_script else loader_script)]
        with ([(code PYTHON i, bom ++ source i)] ++ [(file i (B "-loader.py"), if unbuffered i then unbuffered_loader_script else loader_script)]).
    apply holds_other; [|apply holds_one].
    rewrite (code_within PYTHON i H), (file_within i _ H) by reflexivity. unfold within, source_name. intros X.
    apply app_inv_head in X. apply app_inv_head in X. change (B "-loader.py") with (B "-loader" ++ B "." ++ ext PYTHON) in X.
    apply app_inv_tail in X. exact (P eq_refl (eq_sym X)).
  - exists (code RKT i), (source i).
    split; [unfold launched; cbn [run_args last]; rewrite (code_within RKT i H), (resolved_dir _ _ (proj1 H)); reflexivity|].
    split; [reflexivity|]. split; [|reflexivity]. injection E as <-. apply holds_one.
Qed.
Lemma python_loader lock i fs : create_files PYTHON lock i = Written fs ->
  exists loader, nth_error (run_args PYTHON i) 2 = Some loader /\
    holds fs loader (if unbuffered i then unbuffered_loader_script else loader_script) /\
    nth_error (run_args PYTHON i) 1 = Some (if unbuffered i then B "-BSu" else B "-BS").
Proof.
  intros E. apply (f_equal (fun c => match c with Written f => f | Refused _ => [] end)) in E. cbv beta iota in E. subst fs. cbn [create_files].
  exists (file i (B "-loader.py")). split; [reflexivity|]. split; [|cbn [run_args nth_error]; destruct (unbuffered i); reflexivity].
  apply (holds_last [(code PYTHON i, bom ++ source i)]).
Qed.

(** ** Environment *)
Lemma value_put k k' v d : value_of k (put k' v d) = if beqb k k' then Some v else value_of k d.
Proof.
  induction d as [|[q w] d IH]; cbn [put value_of]; [reflexivity|].
  destruct (beqb k' q) eqn:E.
  - apply beqb_eq in E. subst q. cbn [value_of]. destruct (beqb k k'); reflexivity.
  - cbn [value_of]. rewrite IH. destruct (beqb k q) eqn:F; [|reflexivity].
    apply beqb_eq in F. subst q. destruct (beqb k k') eqn:G; [|reflexivity].
    apply beqb_eq in G. subst k'. rewrite beqb_refl in E. discriminate.
Qed.
Lemma env_spec own environ k : value_of k (compile_env own environ) =
  if beqb k (B "TERM") then Some (B "xterm")
  else match own with Some (e :: r) => value_of k (e :: r) | _ => value_of k environ end.
Proof. unfold compile_env. rewrite value_put. destruct own as [[|e r]|]; reflexivity. Qed.
Lemma environment l i environ k v : k <> B "TERM" -> l <> GO ->
  (value_of k (compile_env (own_env l i) environ) = Some v <-> value_of k environ = Some v).
Proof.
  intros H L. rewrite env_spec, (proj2 (beqb_neq _ _) H). destruct l; try reflexivity. destruct (L eq_refl).
Qed.
Lemma terminal_set l i environ : value_of (B "TERM") (compile_env (own_env l i) environ) = Some (B "xterm").
Proof. rewrite env_spec, beqb_refl. reflexivity. Qed.
Lemma go_environment i environ k v : usable_dir (dir i) ->
  value_of k (compile_env (own_env GO i) environ) = Some v <->
  In (k, v) [(B "CGO_ENABLED", B "0"); (B "GOCACHE", within (dir i) (B ".cache")); (B "TERM", B "xterm")].
Proof.
  intros H. rewrite env_spec. cbn [own_env]. rewrite (join_within _ _ H) by reflexivity. cbn [value_of In].
  destruct (beqb k (B "TERM")) eqn:E1.
  - apply beqb_eq in E1. subst k. split; [intros X; apply (f_equal (fun o => match o with Some x => x | None => v end)) in X; cbv beta iota in X; subst v; tauto|].
    intros [X|[X|[X|[]]]]; apply pair_equal_spec in X; destruct X as [X1 X2]; [vm_compute in X1; discriminate X1|vm_compute in X1; discriminate X1|].
    rewrite <- X2. reflexivity.
  - apply beqb_neq in E1. destruct (beqb k (B "CGO_ENABLED")) eqn:E2.
    + apply beqb_eq in E2. subst k. split; [intros X; apply (f_equal (fun o => match o with Some x => x | None => v end)) in X; cbv beta iota in X; subst v; tauto|].
      intros [X|[X|[X|[]]]]; apply pair_equal_spec in X; destruct X as [X1 X2]; [rewrite <- X2; reflexivity|vm_compute in X1; discriminate X1|destruct (E1 (eq_sym X1))].
    + apply beqb_neq in E2. destruct (beqb k (B "GOCACHE")) eqn:E3.
      * apply beqb_eq in E3. subst k. split; [intros X; apply (f_equal (fun o => match o with Some x => x | None => v end)) in X; cbv beta iota in X; subst v; tauto|].
        intros [X|[X|[X|[]]]]; apply pair_equal_spec in X; destruct X as [X1 X2]; [vm_compute in X1; discriminate X1|rewrite <- X2; reflexivity|destruct (E1 (eq_sym X1))].
      * apply beqb_neq in E3. split; [discriminate|].
        intros [X|[X|[X|[]]]]; apply pair_equal_spec in X; destruct X as [X1 X2]; [destruct (E2 (eq_sym X1))|destruct (E3 (eq_sym X1))|destruct (E1 (eq_sym X1))].
Qed.

(** ** What is read from a compiler *)
Lemma onlcr_terminal s : terminal s (onlcr s).
Proof.
  induction s as [|c s IH]; [constructor|]. unfold onlcr in *. cbn [flat_map].
  destruct (N.eqb_spec c LF) as [->|D]; [apply term_nl|apply term_char]; assumption.
Qed.
Lemma terminal_fun s t : terminal s t -> forall t', terminal s t' -> t = t'.
Proof. induction 1; intros t' H'; inversion H'; subst; try congruence; f_equal; auto. f_equal. auto. Qed.
Lemma onlcr_iff s t : onlcr s = t <-> terminal s t.
Proof. split; [intros <-; apply onlcr_terminal|intros H; exact (terminal_fun _ _ (onlcr_terminal s) _ H)]. Qed.
Definition all_text (w : list (channel * bytes)) : bytes := concat (map snd w).
Definition error_text (w : list (channel * bytes)) : bytes := concat (map snd (filter (fun p => match fst p with Err => true | Out => false end) w)).
Lemma filter_true {A} (f : A -> bool) l : (forall x, f x = true) -> filter f l = l.
Proof. intros H. induction l as [|x l IH]; [reflexivity|]. cbn. rewrite H, IH. reflexivity. Qed.
Lemma filter_false {A} (f : A -> bool) l : (forall x, f x = false) -> filter f l = [].
Proof. intros H. induction l as [|x l IH]; [reflexivity|]. cbn. rewrite H. exact IH. Qed.
Lemma filter_same {A} (f g : A -> bool) l : (forall x, f x = g x) -> filter f l = filter g l.
Proof. intros H. induction l as [|x l IH]; [reflexivity|]. cbn. rewrite H, IH. reflexivity. Qed.
Section Output.
  Variables (args : list bytes) (d : bytes) (own : option dict) (environ : dict) (limit : option N) (w : list (channel * bytes)).
  Definition output_of (m : maker) (quiet : bool) : bytes :=
    read_output (create_compile_process args d own environ limit (popen_kwargs m quiet)) (output_index m) w.
  Lemma output_plain m t : m <> Merged -> (output_of m false = t <-> terminal (all_text w) t).
  Proof.
    intros H. rewrite <- onlcr_iff. unfold output_of, read_output.
    assert (X : arrives (create_compile_process args d own environ limit (popen_kwargs m false)) Pty w = all_text w).
    { unfold arrives, all_text. rewrite filter_true; [reflexivity|]. intros [[] x]; destruct m; try reflexivity; destruct (H eq_refl). }
    destruct m; cbn [output_index]; try (rewrite X; reflexivity). destruct (H eq_refl).
  Qed.
  Lemma output_quiet m t : m <> Merged -> (output_of m true = t <-> terminal (error_text w) t).
  Proof.
    intros H. rewrite <- onlcr_iff. unfold output_of, read_output.
    assert (X : arrives (create_compile_process args d own environ limit (popen_kwargs m true)) Pty w = error_text w).
    { unfold arrives, error_text. f_equal. f_equal. apply filter_same. intros [[] x]; destruct m; try reflexivity; destruct (H eq_refl). }
    destruct m; cbn [output_index]; try (rewrite X; reflexivity). destruct (H eq_refl).
  Qed.
  Lemma output_merged : output_of Merged false = all_text w.
  Proof.
    unfold output_of, read_output, arrives, all_text. cbn [output_index popen_kwargs own_kwargs create_compile_process s_stdout k_stdout or_else].
    rewrite filter_true; [reflexivity|]. intros [[] x]; reflexivity.
  Qed.
  Lemma output_merged_quiet : output_of Merged true = [].
  Proof. reflexivity. Qed.
End Output.

(** ** Warnings *)
Lemma prefix_iff p s : prefix p s = true <-> exists r, s = p ++ r.
Proof.
  revert s. induction p as [|a p IH]; intros s; cbn [prefix].
  - split; [intros _; exists s; reflexivity|reflexivity].
  - destruct s as [|b s]; [split; [discriminate|intros [r E]; discriminate]|].
    rewrite andb_true_iff, N.eqb_eq, IH. split.
    + intros [-> [r ->]]. exists r. reflexivity.
    + intros [r E]. cbn [app] in E. injection E as -> ->. split; [reflexivity|exists r; reflexivity].
Qed.
Lemma contains_iff p s : contains p s = true <-> occurs p s.
Proof.
  induction s as [|c s IH]; cbn [contains].
  - rewrite orb_false_r, prefix_iff. split.
    + intros [r E]. exists [], r. exact E.
    + intros (a & b & E). destruct a; [exists b; exact E|discriminate].
  - rewrite orb_true_iff, prefix_iff, IH. split.
    + intros [[r E]|(a & b & ->)]; [exists [], r; exact E|exists (c :: a), b; reflexivity].
    + intros (a & b & E). destruct a as [|x a]; [left; exists b; exact E|].
      right. cbn [app] in E. injection E as _ E. exists a, b. exact E.
Qed.
Lemma pas_warning o : o <> [] -> (warning PAS o = o <-> occurs (B "Fatal:") o \/ occurs (B "Warning:") o \/ occurs (B "Note:") o) /\
  (warning PAS o = o \/ warning PAS o = []).
Proof.
  intros H. rewrite <- !contains_iff. unfold warning.
  destruct (contains (B "Fatal:") o), (contains (B "Warning:") o), (contains (B "Note:") o); cbn [orb];
    (split; [split; [|]|]; [intuition congruence|intuition congruence|auto]).
Qed.
Lemma cbl_warning o : o <> [] -> (warning CBL o = o <-> exists p, In p [B "Error:"; B "error:"; B "Note:"; B "note:"; B "Warning:"; B "warning:"] /\ occurs p o) /\
  (warning CBL o = o \/ warning CBL o = []).
Proof.
  intros H. unfold warning.
  assert (X : existsb (fun p => contains p o || contains (lower p) o) [B "Error:"; B "Note:"; B "Warning:"] = true <->
              exists p, In p [B "Error:"; B "error:"; B "Note:"; B "note:"; B "Warning:"; B "warning:"] /\ occurs p o).
  { rewrite existsb_exists. split.
    - intros (p & I & E). apply orb_true_iff in E. rewrite !contains_iff in E.
      destruct I as [<-|[<-|[<-|[]]]]; (destruct E as [E|E]; [|]); eexists; (split; [|exact E]); cbn; tauto.
    - intros (p & I & E). apply contains_iff in E.
      destruct I as [<-|[<-|[<-|[<-|[<-|[<-|[]]]]]]].
      1, 2: exists (B "Error:"); split; [left; reflexivity|apply orb_true_iff; auto].
      1, 2: exists (B "Note:"); split; [right; left; reflexivity|apply orb_true_iff; auto].
      1, 2: exists (B "Warning:"); split; [right; right; left; reflexivity|apply orb_true_iff; auto]. }
  rewrite <- X. destruct (existsb _ _); (split; [split; [|]|]; [intuition congruence|intuition congruence|auto]).
Qed.

(** ** Limits *)
Lemma limited size writable p q : descends (limit_executable size writable p) q ->
  group q = pid p /\ fsize q = Some (size, size) /\ (writable = true -> oom q = 1000%Z).
Proof.
  remember (limit_executable size writable p) as r eqn:E. intros H. induction H as [r|r q n H IH].
  - subst r. unfold limit_executable. cbn [oom_score_adj]. destruct writable; cbn; repeat split; discriminate.
  - destruct (IH E) as (A & F & O). cbn [group fsize oom fork]. auto.
Qed.
Lemma killed size writable p l q : In q (killpg (pid p) l) -> In q l /\ ~ descends (limit_executable size writable p) q.
Proof.
  unfold killpg. rewrite filter_In. intros [I E]. split; [exact I|]. intros X. destruct (limited _ _ _ _ X) as [G _].
  rewrite G, N.eqb_refl in E. discriminate.
Qed.
Lemma spared p l q : In q l -> group q <> pid p -> In q (killpg (pid p) l).
Proof. intros I E. unfold killpg. apply filter_In. split; [exact I|]. apply negb_true_iff, N.eqb_neq, E. Qed.

(** ** Assemblers *)
Section Features.
  Variables word_beyond space_beyond : N -> bool.
  Notation aw := (aword word_beyond). Notation sp := (aspace space_beyond).
  Lemma listed_iff c : listed word_beyond space_beyond c = true <-> part_of_list aw sp c.
  Proof. unfold listed, part_of_list, separator. rewrite !orb_true_iff. tauto. Qed.
  Lemma marker_iff c : marker c = true <-> comment_sign c.
  Proof.
    unfold marker, comment_sign. rewrite existsb_exists. split.
    - intros (x & I & E). apply N.eqb_eq in E. subst. exact I.
    - intros I. exists c. split; [exact I|apply N.eqb_refl].
  Qed.
  Definition here (s g : bytes) : Prop := exists sign blanks post,
    s = [sign] ++ blanks ++ B "features:" ++ g ++ post /\ comment_sign sign /\ Forall (fun c => sp c = true) blanks /\
    g <> [] /\ Forall (part_of_list aw sp) g /\ (post = [] \/ exists c r, post = c :: r /\ ~ part_of_list aw sp c).
  Lemma f_not_space : sp 102%N = false.
  Proof. reflexivity. Qed.
  Lemma here_iff s g : features_here word_beyond space_beyond s = Some g <-> here s g.
  Proof.
    split.
    - intros H. unfold features_here in H. destruct s as [|c r]; [discriminate|].
      destruct (marker c) eqn:M; [|discriminate].
      pose proof (span_spec sp r) as S1. destruct (span sp r) as [blanks t] eqn:E1. cbn [snd] in H. destruct S1 as (-> & F1 & _).
      destruct (after (B "features:") t) as [u|] eqn:E2; [|discriminate]. apply after_iff in E2. subst t.
      pose proof (span_spec (listed word_beyond space_beyond) u) as S2. destruct (span _ u) as [g' post] eqn:E3. cbn [fst] in H. destruct S2 as (-> & F2 & F3).
      destruct g' as [|x g']; [discriminate|]. injection H as <-.
      exists c, blanks, post. split; [reflexivity|]. split; [apply marker_iff, M|]. split; [exact F1|]. split; [discriminate|].
      split; [apply Forall_forall; intros y Y; apply listed_iff; exact (proj1 (Forall_forall _ _) F2 y Y)|].
      destruct post as [|y post]; [left; reflexivity|]. right. exists y, post. split; [reflexivity|]. intros Y. apply listed_iff in Y. congruence.
    - intros (sign & blanks & post & -> & M & F1 & G & F2 & P). cbn [app]. unfold features_here. rewrite (proj2 (marker_iff _) M).
      rewrite (span_app sp blanks (B "features:" ++ g ++ post) F1) by exact f_not_space. cbn [snd].
      rewrite (proj2 (after_iff _ _ _) eq_refl).
      rewrite (span_app (listed word_beyond space_beyond) g post).
      + cbn [fst]. destruct g; [destruct (G eq_refl)|reflexivity].
      + apply Forall_forall. intros y Y. apply listed_iff. exact (proj1 (Forall_forall _ _) F2 y Y).
      + destruct P as [->|(c & r & -> & P)]; [exact I|]. destruct (listed _ _ c) eqn:L; [apply listed_iff in L; contradiction|reflexivity].
  Qed.
  Definition at_start (b : bool) (pre : bytes) : Prop := (pre = [] /\ b = true) \/ exists q, pre = q ++ [10%N].
  Definition decl (b : bool) (s pre g : bytes) : Prop := exists t, s = pre ++ t /\ at_start b pre /\ here t g.
  Lemma search_spec s : forall b,
    match features_search word_beyond space_beyond b s with
    | Some g => exists pre, decl b s pre g /\ forall pre' g', decl b s pre' g' -> length pre <= length pre'
    | None => forall pre g, ~ decl b s pre g
    end.
  Proof.
    induction s as [|c s IH]; intros b.
    - cbn [features_search]. destruct b; cbn [features_here]; intros pre g (t & E & _ & (sg & bl & po & E' & _)).
      + symmetry in E. apply app_eq_nil in E. destruct E as [_ ->]. discriminate E'.
      + symmetry in E. apply app_eq_nil in E. destruct E as [_ ->]. discriminate E'.
    - cbn [features_search].
      destruct (if b then features_here word_beyond space_beyond (c :: s) else None) as [g|] eqn:F.
      + destruct b; [|discriminate]. apply here_iff in F. exists []. split; [|intros; cbn; lia].
        exists (c :: s). split; [reflexivity|]. split; [left; split; reflexivity|exact F].
      + assert (N0 : forall g, ~ (b = true /\ here (c :: s) g)).
        { intros g [-> X]. apply here_iff in X. congruence. }
        assert (Step : forall pre g, decl b (c :: s) pre g <-> exists pre', pre = c :: pre' /\ decl (c =? LF)%N s pre' g).
        { intros pre g. split.
          - intros (t & E & A & X). destruct pre as [|x pre].
            + cbn [app] in E. subst t. destruct A as [[_ ->]|[q Q]]; [destruct (N0 g (conj eq_refl X))|destruct q; discriminate Q].
            + cbn [app] in E. injection E as <- ->. exists pre. split; [reflexivity|]. exists t. split; [reflexivity|]. split; [|exact X].
              destruct A as [[Q _]|[q Q]]; [discriminate Q|]. destruct q as [|y q].
              * cbn [app] in Q. injection Q as -> ->. left. split; reflexivity.
              * cbn [app] in Q. injection Q as _ ->. right. exists q. reflexivity.
          - intros (pre' & -> & t & -> & A & X). exists t. split; [reflexivity|]. split; [|exact X].
            destruct A as [[-> Q]|[q ->]]; right.
            + apply N.eqb_eq in Q. subst c. exists []. reflexivity.
            + exists (c :: q). reflexivity. }
        specialize (IH (c =? LF)%N). destruct (features_search _ _ (c =? LF)%N s) as [g|].
        * destruct IH as (pre & D & Min). exists (c :: pre). split; [apply Step; exists pre; auto|].
          intros pre' g' D'. apply Step in D'. destruct D' as (q & -> & D'). apply Min in D'. cbn. lia.
        * intros pre g D. apply Step in D. destruct D as (q & -> & D). exact (IH q g D).
  Qed.
  Lemma decl_iff s pre g : decl true s pre g <-> declaration aw sp s pre g.
  Proof.
    split.
    - intros (t & -> & A & (sg & bl & po & -> & M & F1 & G & F2 & P)). exists sg, bl, po. split; [reflexivity|].
      split; [destruct A as [[-> _]|X]; [left; reflexivity|right; exact X]|]. split; [exact M|]. split; [exact F1|]. split; [exact G|]. split; [exact F2|exact P].
    - intros (sg & bl & po & -> & A & M & F1 & G & F2 & P). exists ([sg] ++ bl ++ B "features:" ++ g ++ po). split; [reflexivity|].
      split; [destruct A as [->|X]; [left; split; reflexivity|right; exact X]|]. exists sg, bl, po. split; [reflexivity|]. split; [exact M|]. split; [exact F1|]. split; [exact G|]. split; [exact F2|exact P].
  Qed.
  Lemma here_fun s g g' : here s g -> here s g' -> g = g'.
  Proof. intros H H'. apply here_iff in H, H'. congruence. Qed.
  Lemma features_iff s w : In w (find_features word_beyond space_beyond s) <-> requested aw sp s w.
  Proof.
    unfold find_features, requested. pose proof (search_spec s true) as X.
    assert (Cut : forall g, filter_none (re_split (fun c => sp c || (c =? 44)%N) g) = filter nonnil (cut (separator sp) g)).
    { intros g. rewrite re_split_cut. rewrite filter_none_nonnil. reflexivity. }
    destruct (features_search _ _ true s) as [g|].
    - destruct X as (pre & D & Min). rewrite Cut. split.
      + intros I. exists pre, g. split; [apply decl_iff, D|]. split; [|exact I].
        intros pre' g' D'. apply (Min pre' g'). apply decl_iff, D'.
      + intros (pre' & g' & D' & Min' & I).
        assert (L : length pre = length pre').
        { apply Nat.le_antisymm; [apply (Min pre' g'), decl_iff, D'|apply (Min' pre g), decl_iff, D]. }
        destruct D as (t & E & _ & Ht). apply decl_iff in D'. destruct D' as (t' & E' & _ & Ht').
        assert (T : t = t').
        { subst s. apply (f_equal (skipn (length pre))) in E'. rewrite skipn_app, skipn_all, Nat.sub_diag in E'.
          rewrite L, skipn_app, skipn_all, Nat.sub_diag in E'. exact E'. }
        subst t'. rewrite (here_fun _ _ _ Ht Ht'). exact I.
    - split; [intros []|]. intros (pre & g & D & _). apply decl_iff in D. destruct (X _ _ D).
  Qed.
  Lemma nasm_features_iff s w : In w (nasm_features word_beyond space_beyond s) <->
    requested aw sp s w \/ (w = B "libc" /\ exists r, s = B "; libc" ++ r).
  Proof.
    unfold nasm_features. rewrite in_app_iff, features_iff. destruct (prefix (B "; libc") s) eqn:E.
    - apply prefix_iff in E. cbn [In]. split; [intros [[<-|[]]|H]; [right; split; [reflexivity|exact E]|left; exact H]|].
      intros [H|[-> _]]; [right; exact H|left; left; reflexivity].
    - cbn [In]. split; [intros [[]|H]; left; exact H|]. intros [H|[_ X]]; [right; exact H|].
      apply prefix_iff in X. congruence.
  Qed.
End Features.
Lemma libc_iff (features : list (list N)) : existsb (beqb (B "libc")) features = true <-> In (B "libc") features.
Proof.
  rewrite existsb_exists. split.
  - intros (x & I & E). apply beqb_eq in E. subst. exact I.
  - intros I. exists (B "libc"). split; [exact I|apply beqb_refl].
Qed.
Lemma linked p ld exe obj features :
  ld_args p ld exe obj features = [ld; B "-s"; B "-o"; exe; B "-m"; ld_m p] ++ [obj] /\ ~ In (B "libc") features \/
  ld_args p ld exe obj features = [ld; B "-s"; B "-o"; exe; B "-m"; ld_m p] ++ [B "-dynamic-linker"; dynamic_linker p]
     ++ crt_pre p ++ [B "-lc"; obj] ++ crt_post p /\ In (B "libc") features.
Proof.
  unfold ld_args. destruct (existsb (beqb (B "libc")) features) eqn:E.
  - right. split; [|apply libc_iff, E]. reflexivity.
  - left. split; [reflexivity|]. intros I. apply libc_iff in I. congruence.
Qed.

Lemma dec_digits_value f : forall n, (n < 10 ^ N.of_nat f)%N -> (0 < f)%nat -> numeral_value (dec_digits f n) = n.
Proof.
  unfold numeral_value. induction f as [|f IH]; intros n Hn Hf; [lia|]. cbn [dec_digits].
  assert (Hm : (n mod 10 < 10)%N) by (apply N.mod_lt; discriminate).
  assert (Hd : n = (10 * (n / 10) + n mod 10)%N) by (apply N.div_mod; discriminate).
  rewrite fold_left_app. destruct (N.ltb_spec n 10).
  - cbn [fold_left]. rewrite N.mod_small by lia. lia.
  - rewrite Nat2N.inj_succ, N.pow_succ_r' in Hn. rewrite IH.
    + cbn [fold_left]. replace (48 + n mod 10 - 48)%N with (n mod 10)%N by lia. symmetry. exact Hd.
    + apply N.div_lt_upper_bound; lia.
    + destruct f; [|lia]. cbn in Hn. lia.
Qed.
Lemma decimal_value n : numeral_value (decimal n) = n.
Proof.
  unfold decimal. apply dec_digits_value; [|lia]. rewrite Nat2N.inj_succ, N2Nat.id.
  destruct (N.eq_dec n 0) as [->|Hn]; [reflexivity|].
  apply N.lt_le_trans with (2 ^ N.succ (N.log2 n))%N; [apply N.log2_spec; lia|]. apply N.pow_le_mono_l. lia.
Qed.
Lemma gas_args flag as_path object code : exists f, as_args (Gas flag) as_path object code = [as_path; B "-o"; object; code] ++ f /\
  forall x, In x f <-> flag = Some x /\ x <> [] /\ Spec.Compile.names as_path (B "as").
Proof.
  unfold as_args. exists (if beqb (basename as_path) (B "as") then match flag with Some (c :: r) => [c :: r] | _ => [] end else []).
  split; [reflexivity|]. intros x. change basename with Model.Compile.basename. rewrite <- Compile.basename_names.
  destruct (beqb_spec (Model.Compile.basename as_path) (B "as")) as [E|E].
  - destruct flag as [[|c r]|]; cbn [In]; (split; [try (intros [<-|[]]; repeat split; [discriminate|exact E]); intros []|]).
    + intros (X & Y & _). injection X as <-. destruct Y. reflexivity.
    + intros (X & _ & _). injection X as <-. left. reflexivity.
    + intros (X & _). discriminate.
  - cbn [In]. split; [intros []|]. intros (_ & _ & X). exact (E X).
Qed.

(** ** Options *)
Lemma options_given l i : exists rest, compile_args l i = compiler_of l i :: subcommand l ++ rest /\
  (forall o, In o (options l) -> In (B o) rest) /\
  (l = OCAML -> forall p, In p packages -> exists before after, rest = before ++ [B "-package"; B p] ++ after) /\
  (forall o, In o (run_options l) -> In (B o) (run_args l i)).
Proof.
  exists (skipn (S (length (subcommand l))) (compile_args l i)). split; [destruct l; reflexivity|]. split; [|split].
  - intros o Io. destruct l; cbn [options] in Io; repeat (destruct Io as [<-|Io]); try destruct Io; cbn [subcommand length skipn compile_args];
      rewrite ?in_app_iff; cbn [In]; auto 20.
  - intros -> p Ip. cbn [subcommand length skipn compile_args]. repeat (destruct Ip as [<-|Ip]); [| | | | |destruct Ip].
    + exists [], [B "-package"; B "base"; B "-package"; B "core"; B "-package"; B "stdio"; B "-package"; B "zarith"; B "-thread"; B "-linkpkg"; code OCAML i; B "-o"; problem i]. reflexivity.
    + exists [B "-package"; B "str"]. eexists. reflexivity.
    + exists [B "-package"; B "str"; B "-package"; B "base"]. eexists. reflexivity.
    + exists [B "-package"; B "str"; B "-package"; B "base"; B "-package"; B "core"]. eexists. reflexivity.
    + exists [B "-package"; B "str"; B "-package"; B "base"; B "-package"; B "core"; B "-package"; B "stdio"]. eexists. reflexivity.
  - intros o Io. destruct l; cbn [run_options] in Io; repeat (destruct Io as [<-|Io]); try destruct Io; cbn [run_args In]; auto 12.
Qed.
Lemma intercal i : usable i -> In (B "-b") (tl (compile_args ICK i)) <-> problem i = test_name i.
Proof.
  intros [Hd [Hn Hs]]. cbn [compile_args tl]. rewrite in_app_iff. split.
  - intros [I|I].
    + destruct (beqb_spec (problem i) (test_name i)) as [E|E]; [exact E|destruct I].
    + destruct I as [I|[I|[]]]; [discriminate I|]. exfalso. unfold code, file in I. rewrite join_within in I; [|exact Hd|].
      * destruct Hd as [[q Hq] _]. unfold within in I. rewrite Hq in I. discriminate I.
      * destruct (problem i) as [|c r]; [destruct Hn; reflexivity|]. cbn. unfold is_slash. destruct (N.eqb_spec c slash) as [->|]; [|reflexivity].
        destruct Hs. left. reflexivity.
  - intros ->. rewrite beqb_refl. left. left. reflexivity.
Qed.

Lemma turing i d base : tool i (B "tprologc") = d ++ B "/" ++ base -> ~ In 47%N base -> d <> [] -> (forall r, d <> r ++ B "/") ->
  compile_args TUR i = [tool i (B "tprologc"); code TUR i; d].
Proof.
  intros E Nb Nd Ns. unfold compile_args. do 2 f_equal. f_equal. rewrite E. unfold dirname.
  change (B "/" ++ base) with ([47%N] ++ base). rewrite !rev_app_distr. cbn [rev app]. rewrite <- app_assoc. cbn [app].
  assert (~ In 47%N (rev base)) as Nr by (intros I; apply Nb, in_rev, I).
  induction (rev base) as [|c r IH]; cbn [app].
  - change (is_slash 47) with true. cbv iota. destruct (rev d) as [|c r] eqn:Er.
    + apply (f_equal (@rev N)) in Er. rewrite rev_involutive in Er. destruct (Nd Er).
    + assert (is_slash c = false) as X.
      { unfold is_slash, slash. apply N.eqb_neq. intros ->. apply (Ns (rev r)). apply (f_equal (@rev N)) in Er. rewrite rev_involutive in Er. exact Er. }
      rewrite X. transitivity (rev (c :: r)); [reflexivity|]. rewrite <- Er. apply rev_involutive.
  - assert (is_slash c = false) as -> by (unfold is_slash, slash; apply N.eqb_neq; intros ->; apply Nr; left; reflexivity).
    apply IH. intros I. apply Nr. right. exact I.
Qed.
