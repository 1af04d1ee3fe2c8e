(** C98, C99: signature grading and the C family's compilers. *)
From Coq Require Import String Lia.
From Verif Require Import Model.Bytes Spec.Text Model.Compile Model.Signature Spec.Signature Proofs.BytesLemmas.
From Verif Require Proofs.Signature.
Import Model.Signature Spec.Signature.
Local Open Scope nat_scope.
Local Open Scope list_scope.

(** ** C98: a function asked for by its signature *)
(** A problem is graded so in C and C++ alone; any other language is an internal error. *)
Theorem C98_languages : forall loaded p language source hex,
  generate_binary loaded p language source hex = NoRuntime <-> ~ exists l, (c_like l \/ cpp_like l) /\ module_name l = language.
Proof.
  intros loaded p language source hex. rewrite <- Proofs.Signature.siggrader_lang. unfold generate_binary. split.
  - destruct (existsb (beqb language) siggraders) eqn:E.
    + destruct (entry p), (header p); try discriminate. destruct (data p b), (data p b0); try discriminate. destruct (loaded language); discriminate.
    + intros _ I. apply not_true_iff_false in E. apply E. apply existsb_exists. exists language. split; [exact I|apply beqb_refl].
  - intros N0. destruct (existsb (beqb language) siggraders) eqn:E; [|reflexivity]. exfalso. apply N0.
    apply existsb_exists in E as (x & I & E). apply beqb_eq in E. subst x. exact I.
Qed.
Print Assumptions C98_languages.

(** There is something to compile exactly when the language is there and the problem names an entry point and a header
    that are among its files; and then the grader is told of with -DSIGNATURE_GRADER. *)
Theorem C98_needs : forall loaded p l source hex, c_like l \/ cpp_like l ->
  ((exists main aux defines, generate_binary loaded p (module_name l) source hex = Made main aux defines) <->
   loaded (module_name l) = true /\ exists e h, entry p = Some e /\ header p = Some h /\ data p e <> None /\ data p h <> None) /\
  forall main aux defines, generate_binary loaded p (module_name l) source hex = Made main aux defines ->
    defines = [B "-DSIGNATURE_GRADER"] /\ exists e, entry p = Some e /\ data p e = Some main.
Proof.
  intros loaded p l source hex L. split; [split|].
  - intros (main & aux & defines & G). apply Proofs.Signature.generated in G as (_ & Ld & _ & e & h & t & E1 & E2 & E3 & E4 & _). split; [exact Ld|].
    exists e, h. repeat split; congruence.
  - intros (Ld & e & h & E1 & E2 & E3 & E4). destruct (data p e) as [m|] eqn:M; [|congruence]. destruct (data p h) as [t|] eqn:T; [|congruence].
    exists m, (dict_set h t [(id p ++ B "_submission", prefix p h hex ++ source)]), [B "-DSIGNATURE_GRADER"]. apply Proofs.Signature.generated.
    split; [apply Proofs.Signature.siggrader_lang; exists l; auto|]. repeat split; auto. exists e, h, t. auto.
  - intros main aux defines G. apply Proofs.Signature.generated in G as (_ & _ & -> & e & h & t & E1 & E2 & E3 & E4 & _). split; [reflexivity|]. exists e. auto.
Qed.
Print Assumptions C98_needs.

(** What is compiled: the contestant's program below the header's inclusion, the header, the entry point, each as it
    stands, and nothing else. *)
Theorem C98_files : forall loaded p l source hex main aux defines h,
  generate_binary loaded p (module_name l) source hex = Made main aux defines -> header p = Some h -> usable l p h main ->
  forall name text, dict_get name (written (ext l) (sources l p main aux)) = Some text <->
    (name = id p ++ B "_submission" ++ ending l /\ text = (B "#include " ++ quote ++ h ++ quote ++ nl ++
       (if allow_main p then [] else B "#define main main_" ++ hex ++ nl)) ++ source) \/
    (name = h /\ data p h = Some text) \/
    (name = id p ++ ext l ++ ending l /\ text = main).
Proof.
  intros loaded p l source hex main aux defines h G Hh Hu name text.
  apply Proofs.Signature.generated in G as (_ & _ & _ & e & h0 & t & E1 & E2 & E3 & E4 & ->). rewrite Hh in E2. injection E2 as <-.
  rewrite (Proofs.Signature.files_are l p h hex source main t Hu). rewrite E4.
  replace (id p ++ B "_submission." ++ ext l) with (id p ++ B "_submission" ++ ending l) by (destruct l; reflexivity).
  replace (id p ++ ext l ++ B "." ++ ext l) with (id p ++ ext l ++ ending l) by (destruct l; reflexivity).
  split; (intros [H|[[-> H]|H]]; [left; exact H|right; left; split; [reflexivity|congruence]|right; right; exact H]).
Qed.
Print Assumptions C98_files.

(** The compiler is given all three, the contestant's program first. *)
Theorem C98_compiled : forall loaded p l source hex main aux defines h i,
  generate_binary loaded p (module_name l) source hex = Made main aux defines -> header p = Some h -> usable l p h main ->
  more_defines i = defines ->
  exists before after, Signature.compile_args l i (source_paths (ext l) (sources l p main aux)) =
      compiler i :: before ++ [id p ++ B "_submission" ++ ending l; h; id p ++ ext l ++ ending l] ++ after /\
    In (B "-DSIGNATURE_GRADER") after /\ In (B "-DONLINE_JUDGE") after.
Proof.
  intros loaded p l source hex main aux defines h i G Hh Hu Hd.
  apply Proofs.Signature.generated in G as (I & _ & Ed & e & h0 & t & E1 & E2 & E3 & E4 & ->). rewrite Hh in E2. injection E2 as <-.
  rewrite (Proofs.Signature.paths_are l p h hex source main t Hu). unfold Signature.compile_args. rewrite Hd, Ed.
  exists ([B "-Wall"] ++ (if color i then [B "-fdiagnostics-color=always"] else [])),
    (([B "-DONLINE_JUDGE"; B "-DSIGNATURE_GRADER"]) ++ [B "-O2"; B "-lm"; march_flag (target i)]
     ++ get_flags l (objc_flags i) ++ get_ldflags l (objc_ldflags i) ++ [B "-s"; B "-o"; output i]).
  split; [|split; [right; left; reflexivity|left; reflexivity]].
  assert (l <> BF) as NB by (intros ->; cbn in I; repeat (destruct I as [I|I]; [discriminate I|]); destruct I).
  destruct l; try congruence; cbn [ext ending app]; rewrite <- ?app_assoc; reflexivity.
Qed.
Print Assumptions C98_compiled.

(** Unless the problem allows it, a contestant's [main] is no [main] to the compiler: no line of theirs says what
    [main] stands for, so every one is renamed; and nothing else is touched. *)
Theorem C98_main_hidden : forall p h hex source, ~ In 10%N h -> Forall (fun c => word_char c = true) hex -> allow_main p = false ->
  Forall (fun l => ~ speaks_of_main l) (text_lines source) ->
  ~ In (B "main") (names_seen (prefix p h hex ++ source)) /\
  names_seen (prefix p h hex ++ source) = map (fun w => if beqb w (B "main") then B "main_" ++ hex else w) (names_seen source).
Proof.
  intros p h hex source Hh F A S0. rewrite (Proofs.Signature.seen p h hex source Hh F), A. split.
  - apply Proofs.Signature.compiled_no_main; [apply Proofs.Signature.renamed_not_main|exact S0].
  - rewrite (Proofs.Signature.compiled_same _ _ S0). reflexivity.
Qed.
Print Assumptions C98_main_hidden.

(** Where the problem allows it, the program is seen as it was written. *)
Theorem C98_main_allowed : forall p h hex source, ~ In 10%N h -> Forall (fun c => word_char c = true) hex -> allow_main p = true ->
  names_seen (prefix p h hex ++ source) = names_seen source.
Proof. intros p h hex source Hh F A. rewrite (Proofs.Signature.seen p h hex source Hh F), A. reflexivity. Qed.
Print Assumptions C98_main_allowed.

(** The renaming is no defence: a program can take it back. *)
Definition sly : bytes := B "#undef main" ++ nl ++ B "int main() { return 0; }".
Definition asks : problem :=
  Problem (B "sum") (Some (B "entry.c")) (Some (B "sum.h")) false
    (fun f => if beqb f (B "entry.c") then Some (B "int main() { return sum(1, 2); }") else if beqb f (B "sum.h") then Some (B "int sum(int, int);") else None).
Theorem C98_main_hidden_refuted :
  exists p h hex source, ~ In 10%N h /\ Forall (fun c => word_char c = true) hex /\ allow_main p = false /\
    In (B "main") (names_seen (prefix p h hex ++ source)).
Proof.
  exists asks, (B "sum.h"), (B "0123abcd"), sly. split; [cbn; intuition discriminate|]. split; [repeat constructor|]. split; [reflexivity|].
  vm_compute. auto.
Qed.
Print Assumptions C98_main_hidden_refuted.

(** A problem whose name has a dot: the contestant's program is handed to the compiler under a name without the ending
    by which it would know the language. *)
Theorem C98_dotted : forall loaded p l source hex main aux defines,
  generate_binary loaded p (module_name l) source hex = Made main aux defines -> In 46%N (id p) ->
  In (id p ++ B "_submission") (source_paths (ext l) (sources l p main aux)) \/ header p = Some (id p ++ B "_submission").
Proof.
  intros loaded p l source hex main aux defines G D.
  apply Proofs.Signature.generated in G as (_ & _ & _ & e & h & t & E1 & E2 & E3 & E4 & ->).
  assert (existsb (N.eqb 46) (id p ++ B "_submission") = true) as X by (apply Proofs.Signature.dot_there; apply in_or_app; left; exact D).
  cbn [dict_set]. destruct (beqb_spec h (id p ++ B "_submission")) as [->|_]; [right; exact E2|]. left.
  unfold sources, source_dict, source_paths. destruct main as [|c r].
  - cbn [map fst]. left. unfold file_name. rewrite X. reflexivity.
  - cbn [dict_set]. destruct (beqb_spec (id p ++ ext l) (id p ++ B "_submission")) as [E|_].
    + exfalso. apply app_inv_head in E. destruct l; discriminate E.
    + destruct (beqb (id p ++ ext l) h); cbn [map fst]; left; unfold file_name; rewrite X; reflexivity.
Qed.
Print Assumptions C98_dotted.

(** A header whose name has no dot is written under another name than the one that is included. *)
Theorem C98_plain_header : forall loaded p l source hex main aux defines h,
  generate_binary loaded p (module_name l) source hex = Made main aux defines -> header p = Some h -> ~ In 46%N h ->
  ~ In h (source_paths (ext l) (sources l p main aux)).
Proof.
  intros loaded p l source hex main aux defines h G Hh D I. unfold source_paths in I. apply in_map_iff in I as ([k v] & E & _). cbn [fst] in E.
  unfold file_name in E. destruct (existsb (N.eqb 46) k) eqn:X.
  - subst k. rewrite (Proofs.Signature.dot_neither h D) in X. discriminate X.
  - apply D. rewrite <- E. apply in_or_app. right. left. reflexivity.
Qed.
Print Assumptions C98_plain_header.

Example C98_case : exists main aux defines,
  generate_binary (fun _ => true) asks (module_name C11) (B "int sum(int a, int b) { return a + b; } int main() {}") (B "0123abcd") = Made main aux defines /\
  usable C11 asks (B "sum.h") main /\ source_paths (ext C11) (sources C11 asks main aux) = [B "sum_submission.c"; B "sum.h"; B "sumc.c"] /\
  Forall (fun l => ~ speaks_of_main l) (text_lines (B "int sum(int a, int b) { return a + b; } int main() {}")).
Proof.
  do 3 eexists. split; [vm_compute; reflexivity|]. split; [split; cbn; intuition discriminate|]. split; [reflexivity|].
  vm_compute. repeat constructor. intros [E _]. discriminate E.
Qed.
Example C98_other : generate_binary (fun _ => true) asks (B "PY3") [] [] = NoRuntime. Proof. reflexivity. Qed.

(** ** C99: the C family's compilers *)
(** Every language but CLANGX is compiled to the standard it is named after, and to no other. *)
Theorem C99_standard : forall l i paths, l <> CLANGX -> l <> BF ->
  (forall s, standard l = Some s -> asks_standard s (Signature.compile_args l i paths)) /\
  forall a, standard_option a -> In a (Signature.compile_args l i paths) ->
    (exists s, standard l = Some s /\ a = B "-std=" ++ B s) \/
    In a (compiler i :: output i :: paths ++ more_defines i ++ objc_flags i ++ objc_ldflags i).
Proof.
  intros l i paths N1 N2. rewrite (Proofs.Signature.args_not_bf l i paths N2). split.
  - intros s E. unfold asks_standard. do 5 (apply in_or_app; right). apply in_or_app. left. apply Proofs.Signature.flags_ask; assumption.
  - intros a [s ->] I.
    assert (march_flag (target i) <> B "-std=" ++ s) as NM by (unfold march_flag; destruct (target i) as [[[|c r]|]|]; discriminate).
    assert (forall x, In x paths \/ In x (more_defines i) \/ In x (objc_flags i) \/ In x (objc_ldflags i) ->
      In x (compiler i :: output i :: paths ++ more_defines i ++ objc_flags i ++ objc_ldflags i)) as K
      by (intros x H; right; right; rewrite !in_app_iff; exact H).
    apply in_app_or in I as [I|I]; [destruct I as [I|[I|[]]]; [right; left; exact I|discriminate I]|].
    apply in_app_or in I as [I|I]; [destruct (color i); [destruct I as [I|[]]; discriminate I|destruct I]|].
    apply in_app_or in I as [I|I]; [right; apply K; auto|].
    apply in_app_or in I as [I|I]; [destruct I as [I|I]; [discriminate I|right; apply K; auto]|].
    apply in_app_or in I as [I|I]; [destruct I as [I|[I|[I|[]]]]; [discriminate I|discriminate I|destruct (NM I)]|].
    apply in_app_or in I as [I|I].
    { destruct (Proofs.Signature.flags_std l _ s N1 N2 I) as [(t & Et & ->)|O]; [left; exists t; auto|right; apply K; auto]. }
    apply in_app_or in I as [I|I]; [right; apply K; right; right; right; exact (Proofs.Signature.ldflags_objc _ _ _ I)|].
    destruct I as [I|[I|[I|[]]]]; [discriminate I|discriminate I|right; right; left; exact I].
Qed.
Print Assumptions C99_standard.

(** CLANGX is meant to be C++11 as well, but is compiled to whatever the compiler takes for granted: its standard is never
    asked for. *)
Theorem C99_standard_refuted : standard CLANGX = Some "c++11"%string /\
  forall i paths a, standard_option a -> In a (Signature.compile_args CLANGX i paths) -> In a (compiler i :: output i :: paths ++ more_defines i).
Proof.
  split; [reflexivity|]. intros i paths a [s ->] I.
  assert (march_flag (target i) <> B "-std=" ++ s) as NM by (unfold march_flag; destruct (target i) as [[[|c r]|]|]; discriminate).
  rewrite Proofs.Signature.args_not_bf in I by discriminate. cbn [get_flags get_ldflags class_flags] in I.
  apply in_app_or in I as [I|I]; [destruct I as [I|[I|[]]]; [left; exact I|discriminate I]|].
  apply in_app_or in I as [I|I]; [destruct (color i); [destruct I as [I|[]]; discriminate I|destruct I]|].
  apply in_app_or in I as [I|I]; [right; right; apply in_or_app; left; exact I|].
  apply in_app_or in I as [I|I]; [destruct I as [I|I]; [discriminate I|right; right; apply in_or_app; right; exact I]|].
  apply in_app_or in I as [I|I]; [destruct I as [I|[I|[I|[]]]]; [discriminate I|discriminate I|destruct (NM I)]|].
  apply in_app_or in I as [I|I]; [destruct I as [I|[]]; discriminate I|].
  destruct I as [I|[I|[I|[]]]]; [discriminate I|discriminate I|right; left; exact I].
Qed.
Print Assumptions C99_standard_refuted.

(** At most five errors are reported, in the way the compiler wants it said. *)
Theorem C99_errors : forall l i paths, l <> BF ->
  In (if clang_dec l then B "-ferror-limit=5" else B "-fmax-errors=5") (Signature.compile_args l i paths).
Proof.
  intros l i paths N2. rewrite (Proofs.Signature.args_not_bf l i paths N2). do 5 (apply in_or_app; right). apply in_or_app. left.
  destruct l; cbn [clang_dec get_flags gcc_flags class_flags class_std app]; try congruence; try (left; reflexivity); try (right; left; reflexivity).
  apply in_or_app. right. left. reflexivity.
Qed.
Print Assumptions C99_errors.

(** The compiler comes first, the program's file last; the sources are compiled with optimisation and before the
    mathematics library they may need; and for the machine that is configured. *)
Theorem C99_order : forall l i paths, l <> BF ->
  exists before after, Signature.compile_args l i paths = compiler i :: before ++ paths ++ after ++ [B "-o"; output i] /\
    In (B "-lm") after /\ In (B "-O2") after /\ In (B "-DONLINE_JUDGE") after /\ (forall d, In d (more_defines i) -> In d after) /\
    (target i = None -> In (B "-march=native") after) /\
    (forall m, target i = Some (Some m) -> m <> [] -> In (B "-march=" ++ m) after) /\
    (forall f, In f (objc_flags i) \/ In f (objc_ldflags i) -> l = OBJC -> In f after).
Proof.
  intros l i paths N2. rewrite (Proofs.Signature.args_not_bf l i paths N2).
  exists (B "-Wall" :: (if color i then [B "-fdiagnostics-color=always"] else [])),
    ((B "-DONLINE_JUDGE" :: more_defines i) ++ [B "-O2"; B "-lm"; march_flag (target i)] ++ get_flags l (objc_flags i) ++ get_ldflags l (objc_ldflags i) ++ [B "-s"]).
  split; [rewrite <- !app_assoc; cbn [app]; rewrite <- ?app_assoc; reflexivity|].
  assert (forall x, In x [B "-O2"; B "-lm"; march_flag (target i)] -> In x ((B "-DONLINE_JUDGE" :: more_defines i) ++ [B "-O2"; B "-lm"; march_flag (target i)] ++ get_flags l (objc_flags i) ++ get_ldflags l (objc_ldflags i) ++ [B "-s"])) as K
    by (intros x H; apply in_or_app; right; apply in_or_app; left; exact H).
  split; [apply K; right; left; reflexivity|]. split; [apply K; left; reflexivity|]. split; [left; reflexivity|].
  split; [intros d H; right; apply in_or_app; left; exact H|].
  split; [intros E; apply K; rewrite E; right; right; left; reflexivity|].
  split; [intros m E Nm; apply K; rewrite E; destruct m; [congruence|]; right; right; left; reflexivity|].
  intros f H ->. apply in_or_app. right. apply in_or_app. right. cbn [get_flags get_ldflags]. rewrite !in_app_iff. destruct H; auto.
Qed.
Print Assumptions C99_order.

(** A program is written under the ending of its language, whatever the problem's name, as long as it has no dot. *)
Theorem C99_ending : forall l name main, ~ In 46%N name -> main <> [] ->
  source_paths (ext l) (source_dict name (ext l) (Some main) []) = [name ++ ext l ++ ending l] /\
  forall k, dict_get k (written (ext l) (source_dict name (ext l) (Some main) [])) =
    if beqb k (name ++ ext l ++ ending l) then Some main else None.
Proof.
  intros l name main D Nm. destruct main as [|c r]; [congruence|]. unfold source_dict, source_paths, written. cbn [dict_set map fst fold_left snd].
  assert (file_name (ext l) (name ++ ext l) = name ++ ext l ++ ending l) as ->.
  { unfold file_name. rewrite Proofs.Signature.dot_neither.
    - rewrite <- app_assoc. destruct l; reflexivity.
    - intros I. apply in_app_or in I as [I|I]; [exact (D I)|exact (Proofs.Signature.ext_no_dot l I)]. }
  split; [reflexivity|]. intros k. cbn [dict_set dict_get]. reflexivity.
Qed.
Print Assumptions C99_ending.

(** Brainfuck is compiled as C, without optimisation and with nothing else asked for. *)
Theorem C99_bf : forall i paths, Signature.compile_args BF i paths = [compiler i; B "-O0"] ++ paths ++ [B "-o"; output i] /\ ending BF = B ".c".
Proof. intros i paths. split; reflexivity. Qed.
Print Assumptions C99_bf.

(** Every language's compiler is configured under a name of its own, but for C and Brainfuck. *)
Theorem C99_keys : forall l m, command_key l = command_key m -> l = m \/ (l = C /\ m = BF) \/ (l = BF /\ m = C).
Proof. intros l m E. destruct l, m; try discriminate E; auto. Qed.
Print Assumptions C99_keys.
(** These are the documented names. *)
Theorem C99_settings : forall l, command_key l = B (setting l).
Proof. intros l. destruct l; reflexivity. Qed.
Print Assumptions C99_settings.

Example C99_case : Signature.compile_args CPP17 (Instance (B "/usr/bin/g++") true [] None [] [] (B "/tmp/a/sum")) [B "sumcpp.cpp"] =
  map (fun s => B s) ["/usr/bin/g++"; "-Wall"; "-fdiagnostics-color=always"; "sumcpp.cpp"; "-DONLINE_JUDGE"; "-O2"; "-lm"; "-march=native";
   "-std=c++17"; "-fmax-errors=5"; "-s"; "-o"; "/tmp/a/sum"]%string.
Proof. reflexivity. Qed.
