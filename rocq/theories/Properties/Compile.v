(** C70: the outcome of a compilation. C71: the files and arguments of the C and C++
    compilers. C72: helper programs. *)
From Coq Require Import String.
From Verif Require Import Model.Bytes Model.Compile Spec.Compile Proofs.Compile.
From Verif Require Spec.Startup.
Local Open Scope nat_scope.
Local Open Scope list_scope.

(** *** C70 *)
(** Whatever the order of events, a compilation succeeds only if the compiler's output was
    read to its end and it ended with code 0; and then it does succeed, with that output. *)
Theorem C70_success : forall limit now h o, finished limit now h (Compiled o) ->
  said limit now h (Ended o) /\ ended limit now h 0.
Proof. exact result_success. Qed.
Theorem C70_success_always : forall limit now h r o, finished limit now h r ->
  said limit now h (Ended o) -> ended limit now h 0 -> r = Compiled o.
Proof. exact result_of_success. Qed.
(** A failed compilation shows the compiler's output, or that it was too long, or that time
    ran out: this last only after more than the limit has passed. *)
Theorem C70_error : forall limit now h m, finished limit now h (CompileError m) ->
  (said limit now h TooLong /\ m = B "compiler output too long (> 64kb)") \/
  (exists c, said limit now h (Ended m) /\ ended limit now h c /\ c <> 0%Z) \/
  (exists n, limit = Some n /\ n <> 0%N /\ (n < elapsed limit now h)%N /\ out_of_time n m /\ ~ ended limit now h 0) \/
  (exists n, limit = Some n /\ n <> 0%N /\ (n < elapsed limit now h)%N /\ out_of_time n m /\ said limit now h TooLong).
Proof.
  intros limit now h m F. destruct (result_error limit now h m F) as [H|[H|[(n & E & Nz & L & -> & H)|(n & E & Nz & L & -> & H)]]]; [auto|auto| |].
  - right. right. left. exists n. pose proof (out_of_time_message n). auto.
  - right. right. right. exists n. pose proof (out_of_time_message n). auto.
Qed.
(** A compiler that ended within the limit, or had none, ended by itself. *)
Theorem C70_not_killed_early : forall limit now h c, ended limit now h c ->
  In (Exit c) h \/ (c = (-9)%Z /\ exists n, limit = Some n /\ n <> 0%N /\ (n < elapsed limit now h)%N).
Proof. exact killed_late. Qed.
(** Once more than the limit has passed since the killer thread began, four of its steps end
    the compiler, whatever else happens. *)
Theorem C70_killed : forall limit now n h1 h2 h3, limit = Some n -> n <> 0%N -> 1 <= killer_steps h1 ->
  (n < clock (after limit now (h1 ++ h2)) - clock (after limit now h1))%N -> 4 <= killer_steps h3 ->
  p (after limit now (h1 ++ h2 ++ h3)) <> Alive.
Proof. exact kill_when_up. Qed.
(** The judge always comes to a result when the compiler has ended and its output is read. *)
Theorem C70_decides : forall limit now h, p (after limit now h) <> Alive -> (exists t, said limit now h t) ->
  exists r, finished limit now (h ++ [Wait; Assign; Decide]) r.
Proof. exact judge_decides. Qed.
(** No compiler is left over: true when its output was read to the end. *)
Theorem C70_reaped : forall limit now h r o, finished limit now h r -> said limit now h (Ended o) -> p (after limit now h) = Gone.
Proof. exact result_reaped. Qed.
(** Refuted otherwise: the result is given while the compiler goes on. *)
Theorem C70_left_running_refuted : forall limit now, exists h r, finished limit now h r /\ p (after limit now h) = Alive.
Proof. intros limit now. exists [Talk TooLong; Decide], (CompileError too_long). split; reflexivity. Qed.
(** The signal goes to the compiler only: refuted, between reaping and noting the code the
    process number may be another's. At most one such signal is sent, and only after the limit. *)
Theorem C70_stray_refuted : forall now, exists h, strays (after (Some 10%N) now h) = 1 /\ ended (Some 10%N) now h 0.
Proof.
  intros now. exists [Killer; Killer; Exit 0; Talk (Ended []); Tick 11; Wait; Killer; Killer]. split.
  - cbn -[N.sub N.add N.ltb]. replace (now + 11 - now)%N with 11%N by lia. reflexivity.
  - exists [Killer; Killer; Exit 0], [Talk (Ended []); Tick 11; Wait; Killer; Killer]. split; reflexivity.
Qed.
Theorem C70_stray_bound : forall limit now h, strays (after limit now h) = 0 \/
  (strays (after limit now h) = 1 /\ exists n, limit = Some n /\ n <> 0%N /\ (n < elapsed limit now h)%N).
Proof. intros limit now h. destruct (strays_bound limit now h) as [H|(H & _ & O)]; [left; exact H|right; split; [exact H|exact O]]. Qed.
Example C70_ex :
  finished (Some 10%N) 100%N [Killer; Tick 3; Killer; Exit 0; Talk (Ended (B "warning")); Wait; Killer; Assign; Killer; Decide] (Compiled (B "warning")) /\
  finished (Some 10%N) 100%N [Killer; Killer; Tick 12; Killer; Killer; Talk (Ended []); Wait; Assign; Decide] (CompileError (B "compiler timed out (> 10 seconds)")) /\
  finished None 100%N [Tick 1000; Killer; Exit 1; Talk (Ended (B "error: x")); Wait; Assign; Decide] (CompileError (B "error: x")).
Proof. vm_compute. repeat split. Qed.
Example C70_killed_ex : p (after (Some 10%N) 0%N ([Killer] ++ [Tick 4; Killer; Tick 8] ++ [Killer; Killer; Killer; Killer])) <> Alive.
Proof. apply (C70_killed _ _ 10%N); [reflexivity|discriminate|cbn; lia|reflexivity|cbn; lia]. Qed.

(** *** C71 *)
(** When the files' names differ, each file holds its own source, and nothing else is written. *)
Theorem C71_files : forall ext srcs, NoDup (source_paths ext srcs) -> forall n x, In (n, x) srcs ->
  dict_get (file_name ext n) (written ext srcs) = Some x.
Proof. exact written_all. Qed.
Theorem C71_files_only : forall ext srcs k x, dict_get k (written ext srcs) = Some x -> exists n, In (n, x) srcs /\ file_name ext n = k.
Proof. exact written_only. Qed.
(** A name with a dot is kept; any other gets the language's extension. *)
Theorem C71_name : forall ext n, (In 46%N n -> file_name ext n = n) /\ (~ In 46%N n -> file_name ext n = n ++ 46%N :: ext).
Proof. intros ext n. split; [apply file_name_dot|apply file_name_plain]. Qed.
(** The compiler is given exactly the sources, in order: when no name or setting looks like
    something else, these are its arguments that are not options, before the output file. *)
Theorem C71_arguments : forall c ext srcs, let paths := source_paths ext srcs in
  ~ is_option (command c) -> ~ is_option (compiled_file c) -> (forall a, In a paths -> ~ is_option a) ->
  (forall a, In a (defines c ++ flags c ++ ldflags c) -> is_option a) -> is_option (march c) ->
  exists plain, (forall a, In a plain <-> In a (compile_args c paths) /\ ~ is_option a) /\
    plain = command c :: paths ++ [compiled_file c] /\
    exists before, compile_args c paths = before ++ [B "-o"; compiled_file c].
Proof.
  intros c ext srcs paths H1 H2 H3 H4 H5. exists (filter (fun a => negb (optionb a)) (compile_args c paths)). split; [|split].
  - intros a. rewrite filter_In, negb_true_iff. rewrite <- optionb_iff. destruct (optionb a); intuition congruence.
  - apply plain_arguments; assumption.
  - exists ([command c; B "-Wall"] ++ (if has_color c then [B "-fdiagnostics-color=always"] else []) ++ paths
  ++ (B "-DONLINE_JUDGE" :: defines c) ++ [B "-O2"; B "-lm"; march c]
  ++ (flags c ++ [B "-fmax-errors=5"]) ++ ldflags c ++ [B "-s"]).
    unfold compile_args. rewrite <- !app_assoc. reflexivity.
Qed.
(** The submission itself is among the sources. *)
Theorem C71_main : forall problem ext main aux, main <> [] ->
  dict_get (problem ++ ext) (source_dict problem ext (Some main) aux) = Some main.
Proof. intros problem ext [|c r] aux H; [congruence|]. cbn. rewrite dict_get_set, BytesLemmas.beqb_refl. reflexivity. Qed.
Theorem C71_aux : forall problem ext main aux k, k <> problem ++ ext ->
  dict_get k (source_dict problem ext main aux) = dict_get k aux.
Proof.
  intros problem ext [[|c r]|] aux k H; try reflexivity. cbn. rewrite dict_get_set.
  destruct (beqb k (problem ++ ext)) eqn:E; [apply BytesLemmas.beqb_eq in E; congruence|reflexivity].
Qed.
(** Every submission is compiled under a name with the extension: refuted for an empty one
    (no file at all) and when the problem's name has a dot. *)
Theorem C71_empty_refuted : forall problem ext, source_paths ext (source_dict problem ext (Some []) []) = [].
Proof. reflexivity. Qed.
Theorem C71_extension_refuted : exists problem ext main, source_paths ext (source_dict problem ext (Some main) []) = [B "abc1.0cpp"].
Proof. exists (B "abc1.0"), (B "cpp"), (B "int main(){}"). reflexivity. Qed.
(** Sources of different names are both kept: refuted, the later overwrites the earlier and is compiled twice. *)
Theorem C71_collision_refuted : exists ext x y, x <> y /\
  source_paths ext [(B "grader", x); (B "grader.cpp", y)] = [B "grader.cpp"; B "grader.cpp"] /\
  written ext [(B "grader", x); (B "grader.cpp", y)] = [(B "grader.cpp", y)].
Proof. exists (B "cpp"), (B "1"), (B "2"). split; [discriminate|split; reflexivity]. Qed.
(** The target's architecture: [native] unless configured; configured off, an empty argument is passed. *)
Theorem C71_march : march_flag None = B "-march=native" /\ (forall c r, march_flag (Some (Some (c :: r))) = B "-march=" ++ c :: r) /\
  march_flag (Some None) = [] /\ march_flag (Some (Some [])) = [].
Proof. repeat split. Qed.
Definition gcc_ex := GccConfig (B "/usr/bin/g++") true [] (B "-march=native") [B "-std=c++17"] [] (B "/tmp/x/aplusb").
Example C71_ex : compile_args gcc_ex (source_paths (B "cpp") (source_dict (B "aplusb") (B "cpp") (Some (B "int main(){}")) [(B "lib.h", B "x")])) =
  map B ["/usr/bin/g++"; "-Wall"; "-fdiagnostics-color=always"; "lib.h"; "aplusbcpp.cpp"; "-DONLINE_JUDGE"; "-O2"; "-lm"; "-march=native";
         "-std=c++17"; "-fmax-errors=5"; "-s"; "-o"; "/tmp/x/aplusb"]%string.
Proof. reflexivity. Qed.
Example C71_hyp_ex : let srcs := source_dict (B "aplusb") (B "cpp") (Some (B "int main(){}")) [(B "lib.h", B "x")] in
  NoDup (source_paths (B "cpp") srcs) /\ (forall a, In a (source_paths (B "cpp") srcs) -> ~ is_option a) /\
  (forall a, In a (defines gcc_ex ++ flags gcc_ex ++ ldflags gcc_ex) -> is_option a) /\ is_option (march gcc_ex).
Proof.
  split; [|split; [|split]].
  - vm_compute. constructor; [intros [H|[]]; discriminate|constructor; [intros []|constructor]].
  - intros a [<-|[<-|[]]] [r [=]].
  - intros a [<-|[]]. eexists. reflexivity.
  - eexists. reflexivity.
Qed.

(** *** C72 *)
(** The language: the one asked for, or else the newest C++ standard available if some file
    is C++ by name, or else the newest C. *)
Theorem C72_language : forall executors read files fl lang limit cache l srcs lim bf cd,
  build executors read files fl lang limit cache = Built l srcs lim bf cd ->
  executors l <> None /\
  match lang with
  | Some asked => l = asked
  | None => let cpp := exists f, In f files /\ (has_suffix f (B ".cpp") \/ has_suffix f (B ".cc")) in
      (cpp -> first_of (fun x => executors x <> None) [B "CPP20"; B "CPP17"; B "CPP14"; B "CPP11"; B "CPP03"] l) /\
      (~ cpp -> first_of (fun x => executors x <> None) [B "C11"; B "C"] l)
  end.
Proof.
  intros executors read files fl lang limit cache l srcs lim bf cd H. apply build_lang in H as (C & e & E & _).
  split; [congruence|]. unfold choice in C. destruct lang as [asked|]; [congruence|]. cbn zeta.
  apply find_first in C. assert (W : forall L, first_of (fun y => available executors y = true) L l -> first_of (fun x => executors x <> None) L l).
  { intros L (a & b & Q & X & Y). exists a, b. split; [exact Q|]. split; [apply available_iff; exact X|]. intros y I K. apply (Y y I), available_iff, K. }
  unfold best_choices in C. rewrite <- use_cpp_iff. destruct (use_cpp files); split; intros Q; try congruence; apply W; exact C.
Qed.
(** Every file's contents reach the compiler under its own name, when the names differ, and nothing else does. *)
Theorem C72_sources : forall executors read files fl lang limit cache l srcs lim bf cd,
  build executors read files fl lang limit cache = Built l srcs lim bf cd ->
  (forall f g, In f files -> In g files -> forall b, names f b -> names g b -> f = g) -> NoDup files ->
  (forall f b, In f files -> names f b -> exists s, read f = Some s /\ dict_get b srcs = Some s) /\
  (forall b s, In (b, s) srcs -> exists f, In f files /\ names f b /\ read f = Some s).
Proof.
  intros executors read files fl lang limit cache l srcs lim bf cd H Hd Nd. apply build_lang in H as (_ & e & _ & _ & _ & S).
  assert (R : read_all read files [] = Some srcs) by (destruct (use_cpp files || use_c files); [tauto|destruct S as (s & -> & S & _); exact S]).
  assert (ND : NoDup (map basename files)).
  { clear -Hd Nd. induction files as [|f files IH]; [constructor|]. inversion Nd; subst. cbn. constructor.
    - intros I. apply in_map_iff in I as (g & E & I). apply H1.
      rewrite (Hd f g (or_introl eq_refl) (or_intror I) (basename f)); [exact I| |]; apply basename_names; [reflexivity|exact E].
    - apply IH; [|assumption]. intros a b Ia Ib. apply Hd; right; assumption. }
  split.
  - intros f b I Nm. apply basename_names in Nm as <-. exact (read_all_get _ _ _ _ R ND f I).
  - intros b s I. destruct (read_all_keys _ _ _ _ R (NoDup_nil _)) as [Nk Kk].
    assert (Ib : In b (map basename files)) by (destruct (proj1 (Kk b) (in_map fst _ _ I)) as [[]|Q]; exact Q).
    apply in_map_iff in Ib as (f & Eb & If). destruct (read_all_get _ _ _ _ R ND f If) as (s' & Rs & G).
    exists f. split; [exact If|]. split; [apply basename_names; exact Eb|]. rewrite Rs. rewrite Eb in G.
    enough (dict_get b srcs = Some s) by congruence. clear -I Nk. induction srcs as [|[k x] srcs IH]; [destruct I|]. cbn in *. inversion Nk; subst.
    destruct I as [[= -> ->]|I]; [rewrite BytesLemmas.beqb_refl; reflexivity|].
    destruct (beqb b k) eqn:E; [|apply IH; assumption]. apply BytesLemmas.beqb_eq in E as ->. exfalso. apply H1. exact (in_map fst _ _ I).
Qed.
(** A file that cannot be read, no available language, or several files in another language
    are errors, never a program built from less. *)
Theorem C72_unreadable : forall executors read files fl lang limit cache f, In f files -> read f = None ->
  build executors read files fl lang limit cache = NoSuchFile.
Proof. intros executors read files fl lang limit cache f I R. unfold build. rewrite (read_all_none read files [] f I R). reflexivity. Qed.
Theorem C72_unavailable : forall executors read files fl lang limit cache, (forall f, In f files -> read f <> None) ->
  match lang with Some l => executors l = None | None => forall l, In l (best_choices files) -> executors l = None end ->
  build executors read files fl lang limit cache = NoExecutor.
Proof.
  intros executors read files fl lang limit cache R H. unfold build. destruct (read_all_some read files [] R) as [s ->].
  destruct lang as [l|]; [rewrite H; reflexivity|].
  destruct (find (available executors) (best_choices files)) as [l|] eqn:F; [|reflexivity].
  apply find_some in F as [I A]. rewrite (H l I). reflexivity.
Qed.
Theorem C72_multi : forall executors read files fl lang limit cache l srcs lim bf cd,
  build executors read files fl lang limit cache = Built l srcs lim bf cd ->
  (forall f, In f files -> ~ has_suffix f (B ".cpp") /\ ~ has_suffix f (B ".cc") /\ ~ has_suffix f (B ".c")) ->
  exists b s, srcs = [(b, s)] /\ (forall f, In f files -> names f b) /\ cd = false.
Proof.
  intros executors read files fl lang limit cache l srcs lim bf cd H Hs. apply build_lang in H as (_ & e & _ & _ & _ & S).
  destruct (use_cpp files) eqn:U; [apply use_cpp_iff in U as (f & I & U); destruct (Hs f I) as (? & ? & ?); tauto|].
  destruct (use_c files) eqn:U'; [apply use_c_iff in U' as (f & I & U'); destruct (Hs f I) as (? & ? & ?); tauto|].
  cbn in S. destruct S as ([b s] & -> & R & ->). exists b, s. split; [reflexivity|]. split; [|reflexivity].
  intros f I. destruct (read_all_keys _ _ _ _ R (NoDup_nil _)) as [_ K]. apply basename_names.
  assert (In (basename f) (map fst [(b, s)])) as [Q|[]] by (apply K; right; apply in_map; exact I). symmetry. exact Q.
Qed.
(** The limit asked for and the caller's flags, before the language's own, are used. *)
Theorem C72_settings : forall executors read files fl lang limit cache l srcs lim bf cd e,
  build executors read files fl lang limit cache = Built l srcs lim bf cd -> executors l = Some e ->
  lim = (if compiled e then Some limit else None) /\
  match class_flags e, bf with Some own, Some f => f = fl ++ own | None, None => True | _, _ => False end.
Proof.
  intros executors read files fl lang limit cache l srcs lim bf cd e H E. apply build_lang in H as (_ & e' & E' & L & F & _).
  assert (e' = e) by congruence. subst. split; [reflexivity|]. destruct (class_flags e); [reflexivity|exact I].
Qed.
(** Only C and C++ programs are kept, and only if asked to. *)
Theorem C72_cached : forall executors read files fl lang limit cache l srcs lim bf cd,
  build executors read files fl lang limit cache = Built l srcs lim bf cd ->
  (cd = true <-> cache = true /\ exists f, In f files /\ (has_suffix f (B ".cpp") \/ has_suffix f (B ".cc") \/ has_suffix f (B ".c"))).
Proof.
  intros executors read files fl lang limit cache l srcs lim bf cd H. apply build_lang in H as (_ & e & _ & _ & _ & S).
  assert (K : use_cpp files || use_c files = true <-> exists f, In f files /\ (has_suffix f (B ".cpp") \/ has_suffix f (B ".cc") \/ has_suffix f (B ".c"))).
  { rewrite orb_true_iff, use_cpp_iff, use_c_iff. split.
    - intros [(f & I & Q)|(f & I & Q)]; exists f; tauto.
    - intros (f & I & [Q|[Q|Q]]); [left|left|right]; exists f; tauto. }
  rewrite <- K. destruct (use_cpp files || use_c files).
  - destruct S as (_ & _ & ->). tauto.
  - destruct S as (s & _ & _ & ->). split; [discriminate|]. intros [_ [=]].
Qed.
(** Refuted corners: files of the same name in different directories, one is lost; C++ files
    with a language that takes no further sources, an unexpected error. *)
Theorem C72_same_name_refuted : exists executors read files l srcs,
  build executors read files [] None (Some 10%N) true = Built l srcs (Some (Some 10%N)) (Some []) true /\
  length files = 2 /\ NoDup files /\ length srcs = 1.
Proof.
  exists (fun l => if beqb l (B "CPP17") then Some (ExecClass true (Some []) true) else None), (fun f => Some f), [B "a/x.cpp"; B "b/x.cpp"], (B "CPP17"), [(B "x.cpp", B "b/x.cpp")].
  split; [reflexivity|]. split; [reflexivity|]. split; [|reflexivity]. constructor; [intros [H|[]]; discriminate|constructor; [intros []|constructor]].
Qed.
Theorem C72_no_aux_refuted : exists executors read, build executors read [B "check.cpp"] [] (Some (B "PY3")) None true = BadArgument.
Proof. exists (fun l => Some (ExecClass false None false)), (fun f => Some f). reflexivity. Qed.
(** Generators and submissions are always compiled under a time limit, unless configured to 0. *)
Theorem C72_limited : forall own env_limit, env_limit <> 0%N ->
  exists n, generator_limit own env_limit = Some n /\ n <> 0%N /\ has_killer (generator_limit own env_limit) = true /\
  (forall m, own = Some m -> m <> 0%N -> n = m).
Proof.
  intros [m|] e He; cbn.
  - destruct (N.eqb_spec m 0) as [->|Hm].
    + exists e. repeat split; [exact He|apply negb_true_iff, N.eqb_neq; exact He|intros m [= <-]; congruence].
    + exists m. repeat split; [exact Hm|apply negb_true_iff, N.eqb_neq; exact Hm|intros m' [= <-] _; reflexivity].
  - exists e. repeat split; [exact He|apply negb_true_iff, N.eqb_neq; exact He|discriminate].
Qed.
Theorem C72_submission_limited : has_killer (submission_limit default_env) = true.
Proof. reflexivity. Qed.
(** The limits of a judge without configuration are the standard settings that are numbers. *)
Theorem C72_defaults : forall k n, env_get k default_env = Some n <-> In (k, Config.VInt (Z.of_N n)) Spec.Startup.standard.
Proof. exact Proofs.Compile.defaults. Qed.
(** So are checkers and interactors: refuted, without a limit of their own they have none. *)
Theorem C72_unlimited_refuted : has_killer (checker_limit None default_env) = false /\ has_killer (interactor_limit None) = false.
Proof. split; reflexivity. Qed.
(** Caching can be switched off: refuted for generators and interactors. *)
Theorem C72_cached_refuted : generator_cached (Some false) = true /\ interactor_cached (Some false) = true.
Proof. split; reflexivity. Qed.
Example C72_ex : build (fun l => if beqb l (B "CPP17") then Some (ExecClass true (Some [B "-std=c++17"]) true) else None)
  (fun f => Some f) [B "/p/check.cpp"; B "/p/testlib.h"] [B "-DX"] None (Some 30%N) true =
  Built (B "CPP17") [(B "check.cpp", B "/p/check.cpp"); (B "testlib.h", B "/p/testlib.h")] (Some (Some 30%N)) (Some [B "-DX"; B "-std=c++17"]) true.
Proof. reflexivity. Qed.

Print Assumptions C70_success.
Print Assumptions C70_success_always.
Print Assumptions C70_error.
Print Assumptions C70_not_killed_early.
Print Assumptions C70_killed.
Print Assumptions C70_decides.
Print Assumptions C70_reaped.
Print Assumptions C70_left_running_refuted.
Print Assumptions C70_stray_refuted.
Print Assumptions C70_stray_bound.
Print Assumptions C71_files.
Print Assumptions C71_files_only.
Print Assumptions C71_name.
Print Assumptions C71_arguments.
Print Assumptions C71_main.
Print Assumptions C71_aux.
Print Assumptions C71_empty_refuted.
Print Assumptions C71_extension_refuted.
Print Assumptions C71_collision_refuted.
Print Assumptions C71_march.
Print Assumptions C72_language.
Print Assumptions C72_sources.
Print Assumptions C72_unreadable.
Print Assumptions C72_unavailable.
Print Assumptions C72_multi.
Print Assumptions C72_settings.
Print Assumptions C72_same_name_refuted.
Print Assumptions C72_no_aux_refuted.
Print Assumptions C72_limited.
Print Assumptions C72_submission_limited.
Print Assumptions C72_unlimited_refuted.
Print Assumptions C72_cached_refuted.

Print Assumptions C72_cached.
Print Assumptions C72_defaults.
