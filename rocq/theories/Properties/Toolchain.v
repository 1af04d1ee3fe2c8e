(** C89: compilers get the submission, are started and watched as documented, and what they make is what runs. *)
From Coq Require Import String.
From Verif Require Import Model.Bytes Model.Executors Model.Feedback Model.Sources Model.Toolchain Spec.Text Spec.Access Spec.Feedback Spec.Toolchain Proofs.Toolchain.
Local Open Scope nat_scope.
Local Open Scope list_scope.

(** The compiler is told of a file that holds the submission. *)
Theorem C89_source : forall l lock i fs, usable i -> (l = PYTHON -> problem i <> B "-loader") ->
  create_files l lock i = Written fs ->
  exists path text, reads l (dir i) (compile_args l i) path /\ holds fs path text /\ same_program l (source i) text.
Proof. exact source_reaches. Qed.
(** Only a Go program that is not in package main (C74) is refused before it is compiled. *)
Theorem C89_refused : forall l lock i m, create_files l lock i = Refused m -> l = GO /\ go_accepts (source i) = false.
Proof.
  intros l lock i m E. destruct l; cbn [create_files] in E; try discriminate E.
  split; [reflexivity|]. destruct (go_accepts (source i)); [discriminate E|reflexivity].
Qed.
(** The clean-up of Zig sources rewrites line ends and nothing else, and leaves no carriage return. *)
Theorem C89_zig : forall s t, (zig_cleanup s = t <-> newlines s t) /\ ~ In 13%N (zig_cleanup s).
Proof. intros s t. split; [apply zig_iff|]. apply (newlines_no_cr s), zig_iff. reflexivity. Qed.
(** The program that is started is the one the compiler was asked to make. *)
Theorem C89_built_is_run : forall l i c, usable i -> convention_of l = Some c -> exists path,
  placed c (dir i) (compile_args l i) = Some path /\
  launched (starter_of l) (run_executable l i) (run_args l i) (dir i) = Some path.
Proof. exact built_is_run. Qed.
(** Each compiler is given its subcommand and options; OCaml's, the packages that may be used. *)
Theorem C89_options : forall l i, exists rest, compile_args l i = compiler_of l i :: subcommand l ++ rest /\
  (forall o, In o (options l) -> In (B o) rest) /\
  (l = OCAML -> forall p, In p packages -> exists before after, rest = before ++ [B "-package"; B p] ++ after) /\
  (forall o, In o (run_options l) -> In (B o) (run_args l i)).
Proof. exact Proofs.Toolchain.options_given. Qed.
(** INTERCAL's random compiler bug is switched off exactly in the self-test. *)
Theorem C89_intercal : forall i, usable i -> In (B "-b") (tl (compile_args ICK i)) <-> problem i = test_name i.
Proof. exact Proofs.Toolchain.intercal. Qed.
(** What is not a native program is started by the language's own virtual machine. *)
Theorem C89_interpreter : forall l i, starter_of l <> Native -> run_executable l i =
  match l with MONOCS | MONOFS | MONOVB => tool i (B "mono") | _ => command i end.
Proof. intros l i H. destruct l; try reflexivity; destruct H; reflexivity. Qed.
(** Python and Racket run the file that holds the submission. *)
Theorem C89_script : forall l lock i fs, usable i -> l = PYTHON \/ l = RKT -> (l = PYTHON -> problem i <> B "-loader") ->
  create_files l lock i = Written fs -> exists path text,
    launched LastArgument (run_executable l i) (run_args l i) (dir i) = Some path /\ run_executable l i = command i /\
    holds fs path text /\ same_program l (source i) text.
Proof. exact script_run. Qed.
(** Python's streams are buffered by the loader exactly when they should be. *)
Theorem C89_python : forall lock i fs, create_files PYTHON lock i = Written fs ->
  exists loader, nth_error (run_args PYTHON i) 2 = Some loader /\
    holds fs loader (if unbuffered i then unbuffered_loader_script else loader_script) /\
    nth_error (run_args PYTHON i) 1 = Some (if unbuffered i then B "-BSu" else B "-BS").
Proof. exact python_loader. Qed.
(** A compiler has the judge's environment, on a terminal; Go's has three variables only. *)
Theorem C89_environment : forall l i environ,
  value_of (B "TERM") (compile_env (own_env l i) environ) = Some (B "xterm") /\
  (forall k v, k <> B "TERM" -> l <> GO -> (value_of k (compile_env (own_env l i) environ) = Some v <-> value_of k environ = Some v)) /\
  (forall k v, usable_dir (dir i) -> value_of k (compile_env (own_env GO i) environ) = Some v <->
     In (k, v) [(B "CGO_ENABLED", B "0"); (B "GOCACHE", within (dir i) (B ".cache")); (B "TERM", B "xterm")]).
Proof.
  intros l i environ. split; [apply terminal_set|]. split; [intros k v; apply environment|intros k v H; apply go_environment, H].
Qed.
(** What an executor configures for its compiler ([own]) is used instead of the judge's environment
    unless it is empty. *)
Theorem C89_own_environment : forall own environ k, k <> B "TERM" ->
  value_of k (compile_env own environ) =
  match own with Some (e :: r) => value_of k (e :: r) | _ => value_of k environ end.
Proof. intros own environ k H. rewrite env_spec, (proj2 (BytesLemmas.beqb_neq _ _) H). reflexivity. Qed.
(** It runs in the submission's directory with its input on the terminal, under the language's time
    limit. *)
Theorem C89_started : forall l i environ configured quiet,
  let s := create_compile_process (compile_args l i) (dir i) (own_env l i) environ (time_limit l configured) (popen_kwargs (maker_of l) quiet) in
  s_args s = compile_args l i /\ s_cwd s = dir i /\ s_stdin s = Pty /\ s_executable s = None /\
  s_time s = match l with RUST | MONOFS => Some 20%N | _ => configured end.
Proof. intros l i environ configured quiet. destruct l, quiet; repeat split. Qed.
(** What is read from it: all it writes on both streams, in order, as a terminal shows it; without
    the ordinary output for the classes that drop it; as it is for those that ask for a pipe. *)
Theorem C89_output : forall args d own environ limit w m,
  let output quiet := read_output (create_compile_process args d own environ limit (popen_kwargs m quiet)) (output_index m) w in
  (m <> Merged -> forall t, output false = t <-> terminal (concat (map snd w)) t) /\
  (m <> Merged -> forall t, output true = t <->
     terminal (concat (map snd (filter (fun p => match fst p with Err => true | Out => false end) w))) t) /\
  (m = Merged -> output false = concat (map snd w)).
Proof.
  intros args d own environ limit w m output. split; [intros H t; exact (output_plain args d own environ limit w m t H)|].
  split; [intros H t; exact (output_quiet args d own environ limit w m t H)|]. intros ->. exact (output_merged args d own environ limit w).
Qed.
(** Of a successful compilation everything is shown, except for Pascal and Cobol: all or nothing, all
    when it says that there is a warning, a note or an error. *)
Theorem C89_warning : forall l o,
  (l <> PAS -> l <> CBL -> warning l o = o) /\ warning l [] = [] /\
  (o <> [] -> (warning PAS o = o <-> occurs (B "Fatal:") o \/ occurs (B "Warning:") o \/ occurs (B "Note:") o) /\
     (warning PAS o = o \/ warning PAS o = [])) /\
  (o <> [] -> (warning CBL o = o <-> exists p, In p [B "Error:"; B "error:"; B "Note:"; B "note:"; B "Warning:"; B "warning:"] /\ occurs p o) /\
     (warning CBL o = o \/ warning CBL o = [])).
Proof.
  intros l o. split; [intros H1 H2; destruct l; try reflexivity; contradiction|].
  split; [destruct l; reflexivity|]. split; [apply pas_warning|apply cbl_warning].
Qed.
(** The compiler and everything it starts are in a group of their own, may write files of at most the
    configured size and are the first to be killed when memory runs out; the killer's signal ends them
    all and nothing else. *)
Theorem C89_limits : forall kb writable p q, descends (limit_executable (executable_size kb) writable p) q ->
  group q = pid p /\ fsize q = Some (kb * 1024, kb * 1024)%N /\ (writable = true -> oom q = 1000%Z).
Proof. intros kb writable p q. exact (limited (executable_size kb) writable p q). Qed.
Theorem C89_killed : forall kb writable p l q,
  (In q (killpg (pid p) l) -> In q l /\ ~ descends (limit_executable (executable_size kb) writable p) q) /\
  (In q l -> group q <> pid p -> In q (killpg (pid p) l)).
Proof. intros kb writable p l q. split; [apply killed|apply spared]. Qed.
(** cargo works without the network exactly when told so. *)
Theorem C89_offline : forall v i, (bool_env (Some v) = true <-> In (map Text.fold_case v) [B "true"; B "yes"; B "1"; B "y"; B "t"]) /\
  bool_env None = false /\ (In (B "--offline") (tl (compile_args RUST i)) <-> offline i = true).
Proof.
  intros v i. split; [|split; [reflexivity|]].
  - unfold bool_env. change (lower v) with (map Text.fold_case v). rewrite existsb_exists. split.
    + intros (x & I & E). apply BytesLemmas.beqb_eq in E. rewrite E. exact I.
    + intros I. exists (map Text.fold_case v). split; [exact I|apply BytesLemmas.beqb_refl].
  - cbn [compile_args tl app In]. destruct (offline i); cbn [In].
    + split; [reflexivity|]. intros _. right. right. left. reflexivity.
    + split; [|discriminate]. intros [X|[X|[]]]; vm_compute in X; discriminate X.
Qed.
(** SBCL's heap (in MiB) has room for the memory limit (in KiB), and less than one MiB more. *)
Theorem C89_sbcl_heap : forall i, exists d, told_after (B "--dynamic-space-size") (tl (run_args SBCL i)) = Some d /\
  (memory i < 1024 * numeral_value d <= memory i + 1024)%N.
Proof.
  intros i. exists (decimal (memory i / 1024 + 1)). split; [reflexivity|]. rewrite decimal_value.
  pose proof (N.div_mod (memory i) 1024 ltac:(discriminate)). pose proof (N.mod_lt (memory i) 1024 ltac:(discriminate)). lia.
Qed.
(** What is read from each language's compiler. *)
Theorem C89_messages : forall l i environ configured w,
  let output := read_output (create_compile_process (compile_args l i) (dir i) (own_env l i) environ (time_limit l configured)
                               (popen_kwargs (maker_of l) (quiet_class l))) (output_index (maker_of l)) w in
  let both := concat (map snd w) in
  let errors := concat (map snd (filter (fun p => match fst p with Err => true | Out => false end) w)) in
  match l with
  | CBL | MONOVB => output = both
  | HASK | PAS | SBCL => terminal errors output
  | _ => terminal both output
  end.
Proof.
  intros l i environ configured w output both errors.
  pose proof (fun m => C89_output (compile_args l i) (dir i) (own_env l i) environ (time_limit l configured) w m) as O.
  assert (P : Plain <> Merged) by discriminate.
  destruct l; first [exact (proj1 (proj1 (O Plain) P output) eq_refl) | exact (proj1 (proj1 (proj2 (O Plain)) P output) eq_refl)
    | exact (proj2 (proj2 (O Merged)) eq_refl)].
Qed.

(** ** Assemblers *)
(** The features are those of the first declaration. *)
Theorem C89_features : forall wb sb s w, In w (find_features wb sb s) <-> requested (aword wb) (aspace sb) s w.
Proof. exact features_iff. Qed.
Theorem C89_nasm_features : forall wb sb s w, In w (nasm_features wb sb s) <->
  requested (aword wb) (aspace sb) s w \/ (w = B "libc" /\ exists r, s = B "; libc" ++ r).
Proof. exact nasm_features_iff. Qed.
(** The C library is linked, with its start files around the program, exactly when it is asked for. *)
Theorem C89_linked : forall p ld exe obj features,
  ld_args p ld exe obj features = [ld; B "-s"; B "-o"; exe; B "-m"; ld_m p] ++ [obj] /\ ~ In (B "libc") features \/
  ld_args p ld exe obj features = [ld; B "-s"; B "-o"; exe; B "-m"; ld_m p] ++ [B "-dynamic-linker"; dynamic_linker p]
     ++ crt_pre p ++ [B "-lc"; obj] ++ crt_post p /\ In (B "libc") features.
Proof. exact linked. Qed.
(** The program is there only if both tools succeeded; the linker is given what the assembler made,
    and is not started if the assembler fails; what is started is what the linker made. *)
Theorem C89_assembled : forall run a p as_path ld_path dir problem code features r cmds,
  compile_asm run a p as_path ld_path dir problem code features = (r, cmds) ->
  let assembling := as_args a as_path (object_file dir problem) code in
  let linking := ld_args p ld_path (executable_file dir problem) (object_file dir problem) features in
  told_after (B "-o") (tl linking) = Some (executable_file dir problem) /\ In (object_file dir problem) linking /\
  (match a with
   | Gas flag => exists f, assembling = [as_path; B "-o"; object_file dir problem; code] ++ f /\
       forall x, In x f <-> flag = Some x /\ x <> [] /\ Spec.Compile.names as_path (B "as")
   | Nasm format => assembling = [as_path; B "-f"; format; code; B "-o"; object_file dir problem]
   end) /\
  ((forall m, run assembling = Fails m -> r = Error m /\ cmds = [assembling]) /\
   (forall o m, run assembling = Succeeds o -> run linking = Fails m -> r = Error m /\ cmds = [assembling; linking]) /\
   (forall o o', run assembling = Succeeds o -> run linking = Succeeds o' ->
      (exists w, r = Built (executable_file dir problem) w /\ (w = None <-> o = [] /\ o' = [])) /\ cmds = [assembling; linking])) /\
  asm_executable None (executable_file dir problem) = executable_file dir problem /\
  (forall q, asm_executable (Some q) (executable_file dir problem) = q /\ last (asm_cmdline (Some q) (executable_file dir problem) problem) [] = executable_file dir problem).
Proof.
  intros run a p as_path ld_path dir problem code features r cmds E assembling linking.
  split; [unfold linking, ld_args; cbn [app tl told_after]; change (beqb (B "-s") (B "-o")) with false; cbv iota; rewrite BytesLemmas.beqb_refl; reflexivity|].
  split; [unfold linking; destruct (linked p ld_path (executable_file dir problem) (object_file dir problem) features) as [[-> _]|[-> _]];
          repeat (rewrite ?in_app_iff; cbn [In]); tauto|].
  split; [unfold assembling; destruct a; [apply gas_args|reflexivity]|].
  split; [|split; [reflexivity|intros q; split; reflexivity]].
  unfold compile_asm in E. fold assembling linking in E. split; [|split].
  - intros m R. rewrite R in E. injection E as <- <-. auto.
  - intros o m R1 R2. rewrite R1, R2 in E. injection E as <- <-. auto.
  - intros o o' R1 R2. rewrite R1, R2 in E. apply pair_equal_spec in E. destruct E as [<- <-]. split; [|reflexivity].
    exists (match o, o' with [], [] => None | _, _ => Some (py_strip (o ++ nl ++ o')) end). split; [reflexivity|].
    destruct o, o'; split; intros X; try discriminate X; try (split; reflexivity); try reflexivity; destruct X as [X1 X2]; discriminate.
Qed.

(** An assembler is available exactly when it can run what it makes, is configured, every file it needs is
    there, and its self-test passes or is not asked for. *)
Theorem C89_asm_ready : forall qemu can_debug as_path ld_path linker pre post isfile skip test,
  asm_initialize qemu can_debug as_path ld_path linker pre post isfile skip test = true <->
  (qemu <> None \/ can_debug = true) /\
  (exists a l d pr po, as_path = Some a /\ ld_path = Some l /\ linker = Some d /\ pre = Some pr /\ post = Some po /\
     (forall f, In f (a :: l :: d :: pr ++ po) -> isfile f = true)) /\
  (skip = true \/ test = true).
Proof.
  intros qemu can_debug as_path ld_path linker pre post isfile skip test. unfold asm_initialize.
  assert (Ex : forall l, existsb (fun f => negb (isfile f)) l = false <-> forall f, In f l -> isfile f = true).
  { intros l. rewrite <- Bool.not_true_iff_false, existsb_exists. split.
    - intros H f I. destruct (isfile f) eqn:F; [reflexivity|]. destruct H. exists f. rewrite F. auto.
    - intros H (f & I & F). rewrite (H f I) in F. discriminate. }
  split.
  - destruct (match qemu with Some _ => false | None => negb can_debug end) eqn:Q; [discriminate|].
    destruct as_path as [a|]; [|discriminate]. destruct ld_path as [l|]; [|discriminate]. destruct linker as [d|]; [|discriminate].
    destruct pre as [pr|]; [|discriminate]. destruct post as [po|]; [|discriminate].
    destruct (existsb _ [a; l; d]) eqn:E1; [discriminate|].
    destruct (existsb _ pr) eqn:E2; [discriminate|]. destruct (existsb _ po) eqn:E3; [discriminate|]. cbn [orb]. intros O.
    split; [destruct qemu; [left; discriminate|right; destruct can_debug; [reflexivity|discriminate]]|].
    split; [|apply Bool.orb_true_iff, O].
    exists a, l, d, pr, po. do 5 (split; [reflexivity|]). intros f I. rewrite Ex in E1, E2, E3.
    change (a :: l :: d :: pr ++ po) with ([a; l; d] ++ pr ++ po) in I. rewrite !in_app_iff in I. destruct I as [I|[I|I]]; auto.
  - intros (Q & (a & l & d & pr & po & -> & -> & -> & -> & -> & F) & O).
    replace (match qemu with Some _ => false | None => negb can_debug end) with false
      by (destruct qemu; [reflexivity|]; destruct Q as [Q|Q]; [destruct Q; reflexivity|rewrite Q; reflexivity]).
    change (a :: l :: d :: pr ++ po) with ([a; l; d] ++ pr ++ po) in F.
    rewrite (proj2 (Ex [a; l; d])) by (intros f I; apply F; rewrite in_app_iff; auto).
    rewrite (proj2 (Ex pr)) by (intros f I; apply F; rewrite !in_app_iff; auto).
    rewrite (proj2 (Ex po)) by (intros f I; apply F; rewrite !in_app_iff; auto).
    apply Bool.orb_true_iff, O.
Qed.
(** Under an emulator, and only there, it gets 64 MiB more address space. *)
Theorem C89_asm_grace : forall qemu own, asm_grace qemu own = match qemu with Some _ => own + 64 * 1024 | None => own end%N.
Proof. intros [q|] own; reflexivity. Qed.

(** ** Findings *)
(** The newline an assembly source is given for assemblers that need one is not in the file they read. *)
Theorem C89_newline_refuted : forall given, fst (asm_source given) = given ++ [10%N] /\ snd (asm_source given) = given.
Proof. intros given. split; reflexivity. Qed.
(** A declaration does not end with its line: words of the next line count. *)
Theorem C89_feature_line_refuted : forall wb sb,
  In (B "libc") (find_features wb sb (B "; features: foo" ++ [10%N] ++ B "libc" ++ [10%N] ++ B "(x)")).
Proof. intros wb sb. vm_compute. right. left. reflexivity. Qed.
(** Messages are not what the compiler wrote: a terminal has added carriage returns. *)
Theorem C89_verbatim_refuted : forall args d own environ limit,
  read_output (create_compile_process args d own environ limit (popen_kwargs Plain false)) (output_index Plain) [(Err, B "a.d(1): Error" ++ [10%N])] = B "a.d(1): Error" ++ [13; 10]%N.
Proof. intros. reflexivity. Qed.
(** Cobol and Visual Basic lose all messages when ordinary output is dropped (as auto-configuration does). *)
Theorem C89_quiet_merged_refuted : forall args d own environ limit w,
  read_output (create_compile_process args d own environ limit (popen_kwargs Merged true)) (output_index Merged) w = [].
Proof. exact output_merged_quiet. Qed.

(** ** Cases *)
Definition here : instance := {| dir := B "/tmp/x1"; problem := B "aplusb"; source := B "main" ++ [13; 10]%N ++ B "end"; unbuffered := false;
  command := B "/usr/bin/tool"; tool := fun _ => B "/usr/bin/lib"; offline := true; test_name := B "self_test"; memory := 65536%N |}.
Example C89_here : usable here /\ problem here <> B "-loader".
Proof.
  split; [|intros X; vm_compute in X; discriminate X]. split; split.
  - exists (B "tmp/x1"). reflexivity.
  - intros r X. apply (f_equal (@List.rev _)) in X. rewrite List.rev_app_distr in X. vm_compute in X. discriminate X.
  - intros X. vm_compute in X. discriminate X.
  - vm_compute. intros X. repeat (destruct X as [X|X]; [discriminate X|]). exact X.
Qed.
Example C89_pascal : compile_args PAS here <> [] /\ placed (BesideSource (B ".pas") []) (dir here) (compile_args PAS here) = Some (B "/tmp/x1/aplusb")
  /\ run_executable PAS here = B "/tmp/x1/aplusb".
Proof. split; [discriminate|]. split; vm_compute; reflexivity. Qed.
Example C89_zig_text : zig_cleanup (source here) = B "main" ++ [10%N] ++ B "end".
Proof. vm_compute. reflexivity. Qed.
Example C89_python_files : forall lock, exists fs, create_files PYTHON lock here = Written fs /\ List.length fs = 2.
Proof. intros lock. eexists. split; [reflexivity|vm_compute; reflexivity]. Qed.
Example C89_declared : forall wb sb, find_features wb sb (B "mov eax, 1" ++ [10%N] ++ B "; features: libc, foo") = [B "libc"; B "foo"].
Proof. intros wb sb. vm_compute. reflexivity. Qed.
Example C89_limited : forall writable,
  descends (limit_executable (executable_size 131072) writable (Process 10 1 0 None)) (fork 11 (limit_executable (executable_size 131072) writable (Process 10 1 0 None)))
  /\ killpg 10 [Process 1 1 0 None; fork 11 (limit_executable (executable_size 131072) writable (Process 10 1 0 None))] = [Process 1 1 0 None].
Proof. intros writable. split; [apply forked, self|]. destruct writable; reflexivity. Qed.
Example C89_asm_case : forall p, compile_asm (fun _ => Succeeds []) (Nasm (B "elf64")) p (B "/usr/bin/nasm") (B "/usr/bin/ld") (B "/tmp/x1") (B "aplusb") (B "/tmp/x1/aplusb.asm") []
  = (Built (B "/tmp/x1/aplusb") None, [as_args (Nasm (B "elf64")) (B "/usr/bin/nasm") (B "/tmp/x1/aplusb.o") (B "/tmp/x1/aplusb.asm");
       ld_args p (B "/usr/bin/ld") (B "/tmp/x1/aplusb") (B "/tmp/x1/aplusb.o") []]).
Proof. intros p. reflexivity. Qed.

Print Assumptions C89_source.
Print Assumptions C89_refused.
Print Assumptions C89_zig.
Print Assumptions C89_built_is_run.
Print Assumptions C89_interpreter.
Print Assumptions C89_script.
Print Assumptions C89_python.
Print Assumptions C89_environment.
Print Assumptions C89_own_environment.
Print Assumptions C89_started.
Print Assumptions C89_output.
Print Assumptions C89_warning.
Print Assumptions C89_limits.
Print Assumptions C89_killed.
Print Assumptions C89_offline.
Print Assumptions C89_sbcl_heap.
Print Assumptions C89_messages.
Print Assumptions C89_features.
Print Assumptions C89_nasm_features.
Print Assumptions C89_linked.
Print Assumptions C89_assembled.
Print Assumptions C89_asm_ready.
Print Assumptions C89_asm_grace.
Print Assumptions C89_newline_refuted.
Print Assumptions C89_feature_line_refuted.
Print Assumptions C89_verbatim_refuted.
Print Assumptions C89_quiet_merged_refuted.
Print Assumptions C89_options.
Print Assumptions C89_intercal.

(** Turing's compiler is told the directory it is installed in. *)
Theorem C89_turing : forall i d base, tool i (B "tprologc") = d ++ B "/" ++ base -> ~ In 47%N base -> d <> [] -> (forall r, d <> r ++ B "/") ->
  compile_args TUR i = [tool i (B "tprologc"); code TUR i; d].
Proof. exact Proofs.Toolchain.turing. Qed.
Print Assumptions C89_turing.
