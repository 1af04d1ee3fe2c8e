(** Proofs about signature grading. *)
From Coq Require Import String Lia.
From Verif Require Import Model.Bytes Spec.Text Model.Compile Model.Signature Spec.Signature Proofs.BytesLemmas Proofs.TextFacts.
From Verif Require Proofs.Compile.
Import Model.Signature Spec.Signature.
Local Open Scope nat_scope.
Local Open Scope list_scope.

Lemma siggrader_lang language : In language siggraders <-> exists l, (c_like l \/ cpp_like l) /\ module_name l = language.
Proof.
  unfold siggraders, c_like, cpp_like. split.
  - intros I. repeat (destruct I as [<-|I]); [exists C|exists C11|exists CPP03|exists CPP11|exists CPP14|exists CPP17|exists CPP20|exists CLANG|exists CLANGX|destruct I];
      cbn [In]; split; try reflexivity; auto 12.
  - intros (l & [I|I] & <-); cbn [In] in I; repeat (destruct I as [<-|I]); try destruct I; cbn [module_name In]; auto 12.
Qed.
Lemma generated loaded p language source hex main aux defines :
  generate_binary loaded p language source hex = Made main aux defines <->
  In language siggraders /\ loaded language = true /\ defines = [B "-DSIGNATURE_GRADER"] /\
  exists e h header_text, entry p = Some e /\ header p = Some h /\ data p e = Some main /\ data p h = Some header_text /\
    aux = dict_set h header_text [(id p ++ B "_submission", prefix p h hex ++ source)].
Proof.
  unfold generate_binary. cbn [dict_set]. split.
  - destruct (existsb (beqb language) siggraders) eqn:E; [|discriminate]. apply existsb_exists in E as (x & I & E). apply beqb_eq in E. subst x.
    destruct (entry p) as [e|] eqn:Ee; [|discriminate]. destruct (header p) as [h|] eqn:Eh; [|discriminate].
    destruct (data p e) as [et|] eqn:E1; [|discriminate]. destruct (data p h) as [ht|] eqn:E2; [|discriminate].
    destruct (loaded language) eqn:L; [|discriminate]. intros [= <- <- <-]. split; [exact I|]. split; [reflexivity|]. split; [reflexivity|].
    exists e, h, ht. auto.
  - intros (I & L & -> & e & h & ht & -> & -> & -> & -> & ->). rewrite L.
    assert (existsb (beqb language) siggraders = true) as -> by (apply existsb_exists; exists language; split; [exact I|apply beqb_refl]). reflexivity.
Qed.

Lemma dot_neither (n : bytes) : ~ In 46%N n -> existsb (N.eqb 46) n = false.
Proof. intros H. destruct (existsb (N.eqb 46) n) eqn:E; [|reflexivity]. apply existsb_exists in E as (x & I & E). apply N.eqb_eq in E. subst x. destruct (H I). Qed.
Lemma dot_there (n : bytes) : In 46%N n -> existsb (N.eqb 46) n = true.
Proof. intros H. apply existsb_exists. exists 46%N. split; [exact H|reflexivity]. Qed.
Lemma ext_no_dot l : ~ In 46%N (ext l).
Proof. destruct l; cbn; intuition discriminate. Qed.
Lemma name_submission l p : ~ In 46%N (id p) -> file_name (ext l) (id p ++ B "_submission") = id p ++ B "_submission." ++ ext l.
Proof.
  intros H. unfold file_name. rewrite dot_neither.
  - rewrite <- !app_assoc. reflexivity.
  - intros I. apply in_app_or in I as [I|I]; [exact (H I)|]. cbn in I. intuition discriminate.
Qed.
Lemma name_entry l p : ~ In 46%N (id p) -> file_name (ext l) (id p ++ ext l) = id p ++ ext l ++ B "." ++ ext l.
Proof.
  intros H. unfold file_name. rewrite dot_neither; [rewrite <- !app_assoc; reflexivity|].
  intros I. apply in_app_or in I as [I|I]; [exact (H I)|exact (ext_no_dot l I)].
Qed.
Lemma sub_not_entry l p : id p ++ B "_submission." ++ ext l <> id p ++ ext l ++ B "." ++ ext l.
Proof. intros E. apply app_inv_head in E. destruct l; discriminate E. Qed.

Section Files.
Variables (l : lang) (p : problem) (h hex source main header_text : bytes).
Hypothesis Hu : usable l p h main.
Let aux := dict_set h header_text [(id p ++ B "_submission", prefix p h hex ++ source)].
Lemma aux_is : aux = [(id p ++ B "_submission", prefix p h hex ++ source); (h, header_text)].
Proof using Hu.
  unfold aux. cbn [dict_set]. destruct (beqb_spec h (id p ++ B "_submission")) as [E|_]; [|reflexivity]. exfalso.
  pose proof (dot _ _ _ _ Hu) as D. rewrite E in D. apply in_app_or in D as [D|D]; [exact (no_dot _ _ _ _ Hu D)|]. cbn in D. intuition discriminate.
Qed.
Lemma sources_are : sources l p main aux = [(id p ++ B "_submission", prefix p h hex ++ source); (h, header_text); (id p ++ ext l, main)].
Proof using Hu.
  unfold sources, source_dict. rewrite aux_is. destruct main as [|c r] eqn:Em; [destruct (not_empty _ _ _ _ Hu eq_refl)|].
  cbn [dict_set]. destruct (beqb_spec (id p ++ ext l) (id p ++ B "_submission")) as [E|_].
  { apply app_inv_head in E. destruct l; discriminate E. }
  destruct (beqb_spec (id p ++ ext l) h) as [E|_]; [|reflexivity]. exfalso.
  pose proof (dot _ _ _ _ Hu) as D. rewrite <- E in D. apply in_app_or in D as [D|D]; [exact (no_dot _ _ _ _ Hu D)|exact (ext_no_dot l D)].
Qed.
Lemma paths_are : source_paths (ext l) (sources l p main aux) = [id p ++ B "_submission." ++ ext l; h; id p ++ ext l ++ B "." ++ ext l].
Proof using Hu.
  rewrite sources_are. unfold source_paths. cbn [map fst]. rewrite name_submission, name_entry by exact (no_dot _ _ _ _ Hu).
  unfold file_name at 1. rewrite (dot_there h (dot _ _ _ _ Hu)). reflexivity.
Qed.
Lemma files_are k x : dict_get k (written (ext l) (sources l p main aux)) = Some x <->
  (k = id p ++ B "_submission." ++ ext l /\ x = prefix p h hex ++ source) \/ (k = h /\ x = header_text) \/
  (k = id p ++ ext l ++ B "." ++ ext l /\ x = main).
Proof using Hu.
  rewrite sources_are. unfold written. cbv [fold_left]. cbn [fst snd].
  assert (file_name (ext l) h = h) as -> by (unfold file_name; rewrite (dot_there h (dot _ _ _ _ Hu)); reflexivity).
  rewrite name_submission, name_entry by exact (no_dot _ _ _ _ Hu). cbn [dict_set].
  destruct (beqb_spec h (id p ++ B "_submission." ++ ext l)) as [E|N1]; [destruct (not_submission _ _ _ _ Hu E)|]. cbn [dict_set].
  destruct (beqb_spec (id p ++ ext l ++ B "." ++ ext l) (id p ++ B "_submission." ++ ext l)) as [E|N2]; [destruct (sub_not_entry l p (eq_sym E))|].
  destruct (beqb_spec (id p ++ ext l ++ B "." ++ ext l) h) as [E|N3]; [destruct (not_entry _ _ _ _ Hu (eq_sym E))|]. cbn [dict_get].
  destruct (beqb_spec k (id p ++ B "_submission." ++ ext l)) as [->|K1]; [split; [intros [= <-]; auto|intros [[_ ->]|[[X _]|[X _]]]; [reflexivity|congruence|congruence]]|].
  destruct (beqb_spec k h) as [->|K2]; [split; [intros [= <-]; auto|intros [[X _]|[[_ ->]|[X _]]]; [congruence|reflexivity|congruence]]|].
  destruct (beqb_spec k (id p ++ ext l ++ B "." ++ ext l)) as [->|K3]; [split; [intros [= <-]; auto|intros [[X _]|[[X _]|[_ ->]]]; [congruence|congruence|reflexivity]]|].
  split; [discriminate|]. intros [[X _]|[[X _]|[X _]]]; congruence.
Qed.
End Files.

(** ** The preprocessor *)
Lemma cut_line a s : ~ In 10%N a -> text_lines (a ++ 10%N :: s) = a :: text_lines s.
Proof.
  intros H. unfold text_lines. induction a as [|c a IH]; cbn [app cut].
  - reflexivity.
  - destruct (N.eqb_spec 10 c) as [<-|D]; [destruct H; left; reflexivity|]. rewrite IH by (intros I; apply H; right; exact I). reflexivity.
Qed.
Lemma define_silent l now : ~ speaks_of_main l -> define_main l now = now.
Proof.
  intros H. unfold define_main. destruct (directive l) eqn:D; [|reflexivity].
  destruct (identifiers l) as [|d [|m [|r [|x y]]]] eqn:E; try reflexivity.
  - destruct (beqb_spec d (B "undef")) as [->|_]; [|reflexivity]. destruct (beqb_spec m (B "main")) as [->|_]; [|reflexivity].
    destruct H. split; [exact D|]. left. exact E.
  - destruct (beqb_spec d (B "define")) as [->|_]; [|reflexivity]. destruct (beqb_spec m (B "main")) as [->|_]; [|reflexivity].
    destruct H. split; [exact D|]. right. exists r. exact E.
Qed.
Lemma compiled_no_main r lines : r <> B "main" -> Forall (fun l => ~ speaks_of_main l) lines -> ~ In (B "main") (compiled (Some r) lines).
Proof.
  intros Hr F. induction F as [|l rest D F IH]; cbn [compiled]; [intros []|]. rewrite (define_silent _ _ D). intros I. apply in_app_or in I as [I|I]; [|exact (IH I)].
  destruct (directive l); [destruct I|]. apply in_map_iff in I as (w & E & _). unfold expanded in E. destruct (beqb_spec w (B "main")) as [_|N0]; congruence.
Qed.
Lemma expanded_none w : expanded None w = w.
Proof. unfold expanded. destruct (beqb w (B "main")); reflexivity. Qed.
Lemma compiled_same r lines : Forall (fun l => ~ speaks_of_main l) lines ->
  compiled (Some r) lines = map (expanded (Some r)) (compiled None lines).
Proof.
  intros F. induction F as [|l rest D F IH]; cbn [compiled map]; [reflexivity|]. rewrite !(define_silent _ _ D), IH, map_app. f_equal.
  destruct (directive l); [reflexivity|]. rewrite map_map. apply map_ext. intros w. rewrite expanded_none. reflexivity.
Qed.
Lemma word_no_cut (w : bytes) : w <> [] -> Forall (fun c => word_char c = true) w -> cut (fun c => negb (word_char c)) w = [w].
Proof.
  intros _ F. induction F as [|c w Hc F IH]; cbn [cut]; [reflexivity|]. rewrite Hc. cbn [negb]. destruct w as [|d w]; [reflexivity|].
  rewrite IH. reflexivity.
Qed.
Lemma define_line hex : Forall (fun c => word_char c = true) hex -> identifiers (B "#define main main_" ++ hex) = [B "define"; B "main"; B "main_" ++ hex].
Proof.
  intros F. unfold identifiers. assert (forall a w s, Forall (fun c => word_char c = true) w -> word_char a = false ->
    cut (fun c => negb (word_char c)) (w ++ a :: s) = w :: cut (fun c => negb (word_char c)) s) as K.
  { intros a w s Fw Ha. rewrite (cut_app_clean _ w) by (revert Fw; apply Forall_impl; intros c ->; reflexivity). cbn [cut]. rewrite Ha. cbn [negb].
    rewrite app_nil_r. reflexivity. }
  change (B "#define main main_" ++ hex) with ([] ++ 35%N :: (B "define" ++ 32%N :: (B "main" ++ 32%N :: (B "main_" ++ hex)))).
  rewrite !K by (reflexivity || (repeat constructor)). rewrite word_no_cut; [reflexivity|discriminate|].
  apply Forall_app. split; [repeat constructor|exact F].
Qed.
Lemma cut_word a w s : Forall (fun c => word_char c = true) w -> word_char a = false ->
  cut (fun c => negb (word_char c)) (w ++ a :: s) = w :: cut (fun c => negb (word_char c)) s.
Proof.
  intros Fw Ha. rewrite (cut_app_clean _ w) by (revert Fw; apply Forall_impl; intros c ->; reflexivity). cbn [cut]. rewrite Ha. cbn [negb].
  rewrite app_nil_r. reflexivity.
Qed.
Lemma include_line h : exists r, identifiers (B "#include " ++ quote ++ h ++ quote) = B "include" :: r.
Proof.
  unfold identifiers.
  change (B "#include " ++ quote ++ h ++ quote) with ([] ++ 35%N :: (B "include" ++ 32%N :: ([] ++ 34%N :: (h ++ quote)))).
  rewrite !cut_word by (reflexivity || (repeat constructor)). cbn [filter nonnil]. eexists. reflexivity.
Qed.
Lemma include_silent h now : define_main (B "#include " ++ quote ++ h ++ quote) now = now.
Proof.
  apply define_silent. intros [_ [E|[r E]]]; destruct (include_line h) as [x X]; rewrite X in E; discriminate E.
Qed.
Lemma include_directive h : directive (B "#include " ++ quote ++ h ++ quote) = true.
Proof. reflexivity. Qed.
Lemma hex_no_nl hex : Forall (fun c => word_char c = true) hex -> ~ In 10%N hex.
Proof. intros F I. rewrite Forall_forall in F. specialize (F _ I). discriminate F. Qed.
Lemma seen p h hex source : ~ In 10%N h -> Forall (fun c => word_char c = true) hex ->
  names_seen (prefix p h hex ++ source) = compiled (if allow_main p then None else Some (B "main_" ++ hex)) (text_lines source).
Proof.
  intros Hh F. unfold names_seen, prefix.
  replace ((B "#include " ++ quote ++ h ++ quote ++ nl ++ (if allow_main p then [] else B "#define main main_" ++ hex ++ nl)) ++ source)
    with ((B "#include " ++ quote ++ h ++ quote) ++ 10%N :: ((if allow_main p then [] else B "#define main main_" ++ hex ++ nl) ++ source))
    by (rewrite <- !app_assoc; reflexivity).
  rewrite cut_line.
  2:{ intros I. repeat (apply in_app_or in I as [I|I]); [cbn in I; intuition discriminate|cbn in I; intuition discriminate|exact (Hh I)|cbn in I; intuition discriminate]. }
  cbn [compiled]. rewrite include_silent, include_directive. cbn [app]. destruct (allow_main p); [reflexivity|].
  replace ((B "#define main main_" ++ hex ++ nl) ++ source) with ((B "#define main main_" ++ hex) ++ 10%N :: source) by (rewrite <- !app_assoc; reflexivity).
  rewrite cut_line.
  2:{ intros I. apply in_app_or in I as [I|I]; [cbn in I; intuition discriminate|exact (hex_no_nl hex F I)]. }
  cbn [compiled]. change (directive (B "#define main main_" ++ hex)) with true. cbn [app]. unfold define_main at 1.
  change (directive (B "#define main main_" ++ hex)) with true. rewrite (define_line hex F). reflexivity.
Qed.
Lemma renamed_not_main hex : B "main_" ++ hex <> B "main".
Proof. intros E. change (B "main") with (B "main" ++ []) in E. change (B "main_" ++ hex) with (B "main" ++ 95%N :: hex) in E. apply app_inv_head in E. discriminate E. Qed.

(** ** The command lines *)
Lemma flags_std l o s : l <> CLANGX -> l <> BF -> In (B "-std=" ++ s) (get_flags l o) -> (exists t, standard l = Some t /\ s = B t) \/ In (B "-std=" ++ s) o.
Proof.
  intros N1 N2 I. destruct l; try congruence; cbn [get_flags class_flags class_std gcc_flags app standard] in *; try (cbn [In] in I);
    try (destruct I as [I|[I|[]]]; [left; eexists; split; [reflexivity|]; apply (app_inv_head (B "-std=")); symmetry; exact I|discriminate I]);
    try (destruct I as [I|[]]; discriminate I).
  apply in_app_or in I as [I|[I|[]]]; [right; exact I|discriminate I].
Qed.
Lemma flags_ask l o s : l <> CLANGX -> standard l = Some s -> In (B "-std=" ++ B s) (get_flags l o).
Proof. intros N1 E. destruct l; try congruence; try discriminate E; injection E as <-; left; reflexivity. Qed.
Lemma ldflags_objc l o a : In a (get_ldflags l o) -> In a o.
Proof. destruct l; cbn [get_ldflags In]; tauto. Qed.
Lemma args_not_bf l i paths : l <> BF -> Signature.compile_args l i paths =
      [compiler i; B "-Wall"] ++ (if color i then [B "-fdiagnostics-color=always"] else []) ++ paths
      ++ (B "-DONLINE_JUDGE" :: more_defines i) ++ [B "-O2"; B "-lm"; march_flag (target i)]
      ++ get_flags l (objc_flags i) ++ get_ldflags l (objc_ldflags i) ++ [B "-s"; B "-o"; output i].
Proof. intros H. destruct l; try congruence; reflexivity. Qed.
