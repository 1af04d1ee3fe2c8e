(** Property theorems for launching a submission (C86). *)
From Coq Require Import String.
From Verif Require Import Model.Bytes Model.Child Model.Launch Spec.Launch.
From Verif Require Proofs.Launch.
Local Open Scope list_scope.
Local Open Scope nat_scope.

(** ** The process *)
(** A program only ever starts confined: in a process group of its own, traced and stopped
    once for the tracer, unable to gain privileges, with the filter, limits, streams and
    directory it was launched with; and it is the program asked for, with the arguments and
    environment asked for. *)
Theorem C86_confined : forall sys c judge f a e p, spawn sys c judge = Runs f a e p ->
  f = file c /\ a = argv c /\ e = envp c /\ confined sys c judge p.
Proof. exact Proofs.Launch.runs_confined. Qed.
Print Assumptions C86_confined.
(** It starts exactly when nothing failed ... *)
Theorem C86_starts : forall sys c judge, (exists f a e p, spawn sys c judge = Runs f a e p) <-> forall g, ~ fails sys c g.
Proof. exact Proofs.Launch.runs_iff. Qed.
Print Assumptions C86_starts.
(** ... and otherwise the exit code names the first thing that did. *)
Theorem C86_failed : forall sys c judge,
  (exists f a e p, spawn sys c judge = Runs f a e p) \/
  exists f, first_failure sys c f /\
    match exit_code f with None => spawn sys c judge = NotForked | Some code => exists p, spawn sys c judge = Exits code p end.
Proof.
  intros sys c judge. destruct (Proofs.Launch.some_failure sys c) as [A|[f A]].
  - left. apply Proofs.Launch.runs_iff. exact A.
  - right. exists f. split; [exact A|]. exact (Proofs.Launch.failure_code sys c judge f A).
Qed.
Print Assumptions C86_failed.
(** The judge tells these codes apart. *)
Theorem C86_told_apart : forall f code, exit_code f = Some code ->
  wait_error_of code = Some (match f with NewPrivs => NoNewPrivs | Filtering => Seccomp | Tracing => Traceme | _ => Execve end).
Proof. intros f code. destruct f; cbn [exit_code]; intros [= <-]; reflexivity. Qed.
Print Assumptions C86_told_apart.
(** Another code is reported as it is; a process that a signal ended is not an error of the launch. *)
Theorem C86_other_codes : forall code, (forall f, exit_code f <> Some code) ->
  wait_error_of code = if (code <? 0)%Z then None else Some (UnknownCode code).
Proof.
  intros code H. unfold wait_error_of.
  destruct (Z.eqb_spec code FAIL_NO_NEW_PRIVS) as [->|_]; [destruct (H NewPrivs eq_refl)|].
  destruct (Z.eqb_spec code FAIL_SECCOMP) as [->|_]; [destruct (H Filtering eq_refl)|].
  destruct (Z.eqb_spec code FAIL_TRACEME) as [->|_]; [destruct (H Tracing eq_refl)|].
  destruct (Z.eqb_spec code FAIL_EXECVE) as [->|_]; [destruct (H Executing eq_refl)|].
  rewrite Z.ltb_antisym. destruct (0 <=? code)%Z; reflexivity.
Qed.
Print Assumptions C86_other_codes.
(** A launch with a security policy that does not forbid it uses the filter wherever there is
    one. *)
Theorem C86_filter_wanted : forall built has_security avoid,
  wants_seccomp built has_security avoid = true <-> built = true /\ has_security = true /\ avoid = false.
Proof. intros [] [] []; cbn; intuition discriminate. Qed.
Print Assumptions C86_filter_wanted.

(** ** The environment and the command *)
(** A variable has the value the executor gives it, or else the one of the launch; a variable
    without value is absent, and so is everything else the judge's own environment has. *)
Theorem C86_environment : forall k locale unb ld agent o x,
  proper (added k) -> ~ In 0%N locale -> (forall s, ld = Some s -> ~ In 0%N s) -> ~ In 0%N agent ->
  (forall s, stdout_buffer_size o = Text s -> ~ In 0%N s) -> (forall s, stderr_buffer_size o = Text s -> ~ In 0%N s) -> ~ In 61%N x ->
  getenv x (map c_string (env_list (launch_env ld agent o (get_env k locale unb)))) = text (variable k locale unb ld agent o x).
Proof. exact Proofs.Launch.environment. Qed.
Print Assumptions C86_environment.
(** The sizes of the buffers reach the streams of the program; an executor that asks for no
    buffering of the standard output gets that. *)
Theorem C86_buffers : forall k locale unb ld agent o,
  proper (added k) -> ~ In 0%N locale -> (forall s, ld = Some s -> ~ In 0%N s) -> ~ In 0%N agent ->
  size (stdout_buffer_size o) -> size (stderr_buffer_size o) ->
  says (added k) (B "CPTBOX_STDOUT_BUFFER_SIZE") = None -> says (added k) (B "CPTBOX_STDERR_BUFFER_SIZE") = None ->
  let env := map c_string (env_list (launch_env ld agent o (get_env k locale unb))) in
  setbuffer (B "CPTBOX_STDOUT_BUFFER_SIZE") env = (if unb then Unbuffered else as_asked (stdout_buffer_size o)) /\
  setbuffer (B "CPTBOX_STDERR_BUFFER_SIZE") env = as_asked (stderr_buffer_size o).
Proof. exact Proofs.Launch.buffers. Qed.
Print Assumptions C86_buffers.
(** The program's arguments are those of the command and then those of the launch. *)
Theorem C86_arguments : forall cmdline args exe env dir i o e c p sec wl, Forall (fun s => ~ In 0%N s) (cmdline ++ args) ->
  argv (spawn_setup exe (launch_args cmdline args) env dir i o e c p sec wl) = cmdline ++ args.
Proof.
  intros cmdline args exe env dir i o e c p sec wl F. cbn [argv spawn_setup]. unfold launch_args. transitivity (map (fun s => s) (cmdline ++ args)); [|apply map_id]. apply map_ext_in.
  intros s I. rewrite Forall_forall in F. apply Proofs.Launch.c_string_id, F, I.
Qed.
Print Assumptions C86_arguments.
(** A command that is a bare name is the first executable of that name on the path. *)
Theorem C86_path : forall abspath access dirs p, ~ In 47%N p ->
  match find_exe_in_path abspath access dirs p with
  | Some q => exists before d after, dirs = before ++ d :: after /\ sits d p q /\ access q = true /\ forall d' q', In d' before -> sits d' p q' -> access q' = false
  | None => forall d q, In d dirs -> sits d p q -> access q = false
  end.
Proof. exact Proofs.Launch.path_search. Qed.
Print Assumptions C86_path.
(** A path is taken as it is, made absolute if it is not. *)
Theorem C86_path_given : forall abspath access dirs p, In 47%N p ->
  (hd_error p = Some 47%N -> find_exe_in_path abspath access dirs p = Some p) /\
  (hd_error p <> Some 47%N -> find_exe_in_path abspath access dirs p = Some (abspath p)).
Proof.
  intros abspath access dirs p I. unfold find_exe_in_path. destruct p as [|c r]; [destruct I|]. cbn [hd_error starts_slash].
  split; [intros [= ->]; reflexivity|]. intros X. destruct (N.eqb_spec c 47) as [->|_]; [congruence|].
  assert (existsb (N.eqb 47) (c :: r) = true) as ->; [|reflexivity]. apply existsb_exists. exists 47%N. split; [exact I|reflexivity].
Qed.
Print Assumptions C86_path_given.

(** ** Examples *)
Definition sys_ok : system := {| fork_ok := true; nnp_ok := true; traceme_ok := true; init_ok := true; rule_ok := fun c => negb (c =? 3)%N;
  load_ok := true; personality_ok := true; chdir_ok := fun d => beqb d (B "/tmp/x"); execve_ok := true; privileged := true; close_rest := fun t n => if n <? 3 then t n else None |}.
Definition some_limits : Child.config := {| c_memory := 65536; c_address := 0; c_cpu := 2; c_nproc := 0%Z; c_fsize := 0%Z |}.
Definition some_setup : child_setup := spawn_setup (B "/tmp/x/a") [B "a"; B "b"] [B "LANG=C"] (B "/tmp/x") 5 6 7 some_limits 0 true (fun c => (c <? 4)%N).
Definition a_judge : process := {| own_group := false; persona_set := None; no_new_privs := false; fds := fun n => Some (Other n); traced := false; stops := 0;
  filter := None; rlimits := fun _ => (0%N, 0%N); cwd := B "/judge" |}.
(** It runs; the filter lets 0, 1 and 2 pass, not 3, whose rule was refused, nor 4. *)
Example C86_runs : match spawn sys_ok some_setup a_judge with
  | Runs f a e p => (f, a, e) = (B "/tmp/x/a", [B "a"; B "b"], [B "LANG=C"]) /\ cwd p = B "/tmp/x" /\ stops p = 1 /\
      map (fds p) [0; 1; 2; 3; 5] = [Some (Other 5); Some (Other 6); Some (Other 7); None; None] /\
      match filter p with Some f => map f [0; 1; 2; 3; 4; 500]%N = [true; true; true; false; false; false] | None => False end
  | _ => False
  end.
Proof. vm_compute. repeat split. Qed.
Example C86_traceme : match spawn {| fork_ok := true; nnp_ok := true; traceme_ok := false; init_ok := false; rule_ok := fun _ => true;
  load_ok := true; personality_ok := true; chdir_ok := fun d => true; execve_ok := false; privileged := true; close_rest := fun t => t |} some_setup a_judge with
  | Exits code p => code = 204%Z /\ wait_error_of code = Some Traceme /\ stops p = 0
  | _ => False
  end.
Proof. vm_compute. repeat split. Qed.
Definition some_options : options := {| stdout_buffer_size := Num 65536; stderr_buffer_size := NoValue |}.
(** A Mono program, buffered, and a Python one, not. *)
Example C86_mono : env_list (launch_env (Some (B "/opt/lib")) (B "/tmp/x/setbufsize.so") some_options (get_env Mono (B "C.UTF-8") false)) =
  [B "LD_LIBRARY_PATH=/opt/lib"; B "LD_PRELOAD=/tmp/x/setbufsize.so"; B "CPTBOX_STDOUT_BUFFER_SIZE=65536";
   B "LANG=C.UTF-8"; B "MONO_DISABLE_SHARED_AREA=1"; B "MONO_CRASH_NOFILE=1"].
Proof. reflexivity. Qed.
Example C86_script : let env := env_list (launch_env None (B "/s.so") some_options (get_env (Script [(B "HOME", Text (B "/")); (B "LANG", NoValue)]) (B "C") true)) in
  env = [B "LD_LIBRARY_PATH="; B "LD_PRELOAD=/s.so"; B "CPTBOX_STDOUT_BUFFER_SIZE=0"; B "HOME=/"] /\
  setbuffer (B "CPTBOX_STDOUT_BUFFER_SIZE") env = Unbuffered /\ setbuffer (B "CPTBOX_STDERR_BUFFER_SIZE") env = Untouched.
Proof. vm_compute. repeat split. Qed.
Example C86_buffered : let env := env_list (launch_env None (B "/s.so") some_options (get_env Base (B "C") false)) in
  setbuffer (B "CPTBOX_STDOUT_BUFFER_SIZE") env = Full 65536 /\ proper (added (Script [(B "HOME", Text (B "/")); (B "LANG", NoValue)])).
Proof.
  vm_compute. split; [reflexivity|]. split.
  - repeat constructor; cbn; intuition discriminate.
  - intros k v [[= <- <-]|[[= <- <-]|[]]]; repeat split; try (cbn; intuition discriminate). intros s [= <-]. cbn. intuition discriminate.
Qed.
Example C86_found : find_exe_in_path (fun p => p) (fun p => beqb p (B "/usr/bin/gcc")) [B "/bin"; B "/usr/bin/"] (B "gcc") = Some (B "/usr/bin/gcc").
Proof. reflexivity. Qed.

(** ** What is not promised *)
(** A directory that cannot be entered is not noticed: the program runs in the judge's. *)
Theorem C86_directory_refuted : exists sys c judge f a e p, dir c <> [] /\ spawn sys c judge = Runs f a e p /\ cwd p <> dir c.
Proof.
  set (c := spawn_setup (B "/a") [] [] (B "/gone") 0 1 2 some_limits 0 true (fun _ => false)).
  assert (match spawn sys_ok c a_judge with Runs _ _ _ p => cwd p = B "/judge" | _ => False end) as M by (vm_compute; reflexivity).
  exists sys_ok, c, a_judge. destruct (spawn sys_ok c a_judge) as [| |f a e p]; [destruct M|destruct M|].
  exists f, a, e, p. split; [discriminate|]. split; [reflexivity|]. rewrite M. discriminate.
Qed.
Print Assumptions C86_directory_refuted.
(** A refused rule of the filter is not an error; the call traps. *)
Theorem C86_rule_refuted : exists sys c judge f a e p fl, spawn sys c judge = Runs f a e p /\ filter p = Some fl /\ whitelisted c 3 = true /\ fl 3%N = false.
Proof.
  assert (match spawn sys_ok some_setup a_judge with Runs _ _ _ p => match filter p with Some fl => fl 3%N = false | None => False end | _ => False end)
    as M by (vm_compute; reflexivity).
  exists sys_ok, some_setup, a_judge. destruct (spawn sys_ok some_setup a_judge) as [| |f a e p]; [destruct M|destruct M|].
  destruct (filter p) as [fl|] eqn:E; [|destruct M]. exists f, a, e, p, fl. split; [reflexivity|]. split; [exact E|]. split; [reflexivity|exact M].
Qed.
Print Assumptions C86_rule_refuted.
(** The settings of a runtime can replace even the library that sets the buffers. *)
Theorem C86_preload_refuted : exists k ld agent o, getenv (B "LD_PRELOAD") (env_list (launch_env ld agent o (get_env k (B "C") false))) <> Some agent.
Proof.
  exists (Gcc [(B "LD_PRELOAD", Text (B "/x.so"))]), None, (B "/agent.so"), some_options. vm_compute. discriminate.
Qed.
Print Assumptions C86_preload_refuted.
(** A buffer size that is an empty string means no buffering, a negative one a buffer of
    enormous size, and one followed by anything else nothing. *)
Theorem C86_sizes_refuted : setbuffer (B "X") [B "X="] = Unbuffered /\ setbuffer (B "X") [B "X=-1"] = Full (2 ^ 64 - 1) /\ setbuffer (B "X") [B "X=8k"] = Untouched.
Proof. vm_compute. repeat split. Qed.
Print Assumptions C86_sizes_refuted.
(** An argument is cut at a NUL. *)
Theorem C86_cut : forall exe args env dir i o e c p sec wl,
  Forall2 (fun given had => ~ In 0%N had /\ (had = given \/ exists rest, given = had ++ 0%N :: rest))
    args (argv (spawn_setup exe args env dir i o e c p sec wl)).
Proof. intros. exact (Proofs.Launch.cut args). Qed.
Print Assumptions C86_cut.
Theorem C86_nul_refuted : exists args, argv (spawn_setup [] args [] [] 0 1 2 some_limits 0 true (fun _ => true)) <> args.
Proof. exists [[97%N; 0%N; 98%N]]. vm_compute. discriminate. Qed.
Print Assumptions C86_nul_refuted.
