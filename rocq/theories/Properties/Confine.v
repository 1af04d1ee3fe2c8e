(** C96: what the kernel executes for a submission, whatever it does. *)
From Coq Require Import String.
From Verif Require Import Model.Bytes Model.Paths Model.Regex Model.Access Model.SyscallTables Model.Tracer Model.Monitor Model.Policies
  Model.FileRules Model.Confine Spec.Regex Spec.Access Spec.Tracer Spec.Policies Spec.FileRules Spec.Confine.
From Verif Require Spec.Paths Proofs.Access Proofs.Tracer Proofs.FileRules Proofs.Policies Proofs.Confine Properties.FileRules.
Local Open Scope list_scope.

Section Any.
  Variables (lang : string) (own : list (string * hval own_handler)) (pl : place) (extra : list (list N)) (supported : list nat)
    (tabs : tables own_handler) (filter : N -> bool) (allowed : list (option (list N))) (getpid : nat -> Z).
  Let new : box := (start, language_tracer lang pl extra).
  Let done := ran tabs allowed getpid filter new.
  (** Calls that are executed are in the table of the program's kind of call and the policy says something about them. *)
  Theorem C96_known : sandboxed lang own pl extra supported tabs filter ->
    forall before h after x, execs h -> Forall steady after -> In x (done before h after) ->
    (x_nr x < 0)%Z
    \/ exists n name v, x_nr x = Z.of_N n /\ In (x_abi x) supported /\ In (n, name) (table_of (x_abi x)) /\ governs (policy_with own) name v.
  Proof.
    intros SB before h after x Hx F I. apply (Proofs.Confine.known lang own pl extra supported tabs filter allowed SB).
    exact (Proofs.Confine.all_passed lang own pl extra supported tabs filter allowed getpid SB before h after x Hx F I).
  Qed.
  (** Those with a path name only files the language may read, or write. *)
  Theorem C96_files : sandboxed lang own pl extra supported tabs filter ->
    forall before h after x n name is_dir, execs h -> Forall steady after -> In x (done before h after) ->
    x_nr x = Z.of_N n -> In (n, name) (table_of (x_abi x)) -> In name file_naming ->
    unchecked lang name \/ (lang = "BASH" /\ name = "execve")%string /\ in_commands allowed (x_view x)
    \/ exists c, checked_as name = Some c /\ forall q, names_file is_dir (x_view x) c q ->
         if wants_write (x_view x) c then writable lang pl (Spec.Paths.spelled q)
         else readable lang pl extra (pid (x_view x)) (Spec.Paths.spelled q).
  Proof.
    intros SB before h after x n name is_dir Hx F I. apply (Proofs.Confine.files lang own pl extra supported tabs filter allowed SB).
    exact (Proofs.Confine.all_passed lang own pl extra supported tabs filter allowed getpid SB before h after x Hx F I).
  Qed.
  Theorem C96_others : sandboxed lang own pl extra supported tabs filter ->
    forall before h after x n name, execs h -> Forall steady after -> In x (done before h after) ->
    x_nr x = Z.of_N n -> In (n, name) (table_of (x_abi x)) ->
    (In name network -> (name = "socketpair" /\ In lang ("PIKE" :: jvm_languages))%string \/ (lang = "TCL" /\ In name ["connect"; "getsockname"])%string)
    /\ (In name privileged -> (name = "setrlimit" /\ In lang ("COFFEE" :: jvm_languages))%string
          \/ (name = "sched_setscheduler" /\ In lang mono_languages)%string \/ (name = "personality" /\ lang = "SBCL")%string)
    /\ (In name spawning -> (name = "fork" /\ lang = "BASH")%string)
    /\ (In name signalling -> uarg (x_view x) 0 = pid (x_view x)).
  Proof.
    intros SB before h after x n name Hx F I. exact (Proofs.Confine.others lang own pl extra supported tabs filter allowed getpid SB before h after x n name Hx F I).
  Qed.
  (** Private files, and writing. *)
  Theorem C96_private : sandboxed lang own pl extra supported tabs filter -> extra = [] -> ~ In lang ["DART"; "PHP"; "RKT"]%string ->
    forall before h after x n name is_dir c q w, execs h -> Forall steady after -> In x (done before h after) ->
    x_nr x = Z.of_N n -> In (n, name) (table_of (x_abi x)) -> In name file_naming -> ~ unchecked lang name ->
    checked_as name = Some c -> names_file is_dir (x_view x) c q -> wants_write (x_view x) c = false ->
    In w private -> below w (Spec.Paths.spelled q) ->
    below (directory pl) (Spec.Paths.spelled q) \/ configured pl (Spec.Paths.spelled q).
  Proof.
    intros SB Ee NL before h after x n name is_dir c q w Hx F I En Hn Hf NU Hc Hq Hw Pw Bq.
    destruct (C96_files SB before h after x n name is_dir Hx F I En Hn Hf) as [X|[((_ & X) & _)|(c' & E & X)]]; [contradiction|subst name; discriminate Hc|].
    rewrite Hc in E. injection E as <-. specialize (X q Hq). rewrite Hw in X. destruct X as [X|[X|[X|(r & X & _)]]].
    - destruct (Proofs.Access.hidden (decimal (pid (x_view x))) w (Spec.Paths.spelled q) Pw Bq X).
    - left. exact X.
    - destruct (Proofs.FileRules.private_files lang pl w _ Pw Bq X) as [Y|[(Y & _)|Y]]; [|subst; destruct NL; cbn; auto|right; exact Y].
      destruct NL. cbn in Y |- *. tauto.
    - rewrite Ee in X. destruct X.
  Qed.
  Theorem C96_writes : sandboxed lang own pl extra supported tabs filter -> ~ In lang jvm_languages ->
    forall before h after x n name is_dir c q, execs h -> Forall steady after -> In x (done before h after) ->
    x_nr x = Z.of_N n -> In (n, name) (table_of (x_abi x)) -> In name file_naming -> ~ unchecked lang name ->
    checked_as name = Some c -> names_file is_dir (x_view x) c q -> wants_write (x_view x) c = true ->
    exists w, In w [B "/dev/stdout"; B "/dev/stderr"; B "/dev/null"] /\ exactly w (Spec.Paths.spelled q).
  Proof.
    intros SB NL before h after x n name is_dir c q Hx F I En Hn Hf NU Hc Hq Hw.
    destruct (C96_files SB before h after x n name is_dir Hx F I En Hn Hf) as [X|[((_ & X) & _)|(c' & E & X)]]; [contradiction|subst name; discriminate Hc|].
    rewrite Hc in E. injection E as <-. specialize (X q Hq). rewrite Hw in X. destruct X as [X|(X & _)]; [exact X|contradiction].
  Qed.
  (** And every such file can be opened, as long as the main process [m] lives: no earlier call takes anything away. *)
  Theorem C96_granted : sandboxed lang own pl extra supported tabs filter ->
    forall m sg before h after tid e d kept ok n name c is_dir q,
    (forall status, ~ In (Stop m (Ended status)) (before ++ h :: after)) -> execs h ->
    (forall rax, e <> Int80_from64 rax) -> executes e = (fst (executes e), Z.of_N n) -> In (fst (executes e)) supported ->
    In (n, name) (table_of (fst (executes e))) -> In name file_naming ->
    checked_as name = Some c -> names_file is_dir d c q ->
    (if wants_write d c then writable lang pl (Spec.Paths.spelled q) else readable lang pl extra (pid d) (Spec.Paths.spelled q)) ->
    snd (kernel_step tabs allowed getpid filter
          (fst (kernel_run tabs allowed getpid filter new (Stop m (SignalStop sg) :: before ++ h :: after)))
          (Call tid e d kept ok)) = [Executed (fst (executes e)) (Z.of_N n) kept].
  Proof.
    intros SB. exact (Proofs.Confine.granted_run lang own pl extra supported tabs filter allowed getpid SB).
  Qed.
End Any.

(** ** A C++ program *)
Definition place0 : place := Properties.FileRules.here.
Example C96_ex_sandbox : exists tabs filter, sandboxed "CPP17" [] place0 [] Proofs.Tracer.x64_abis tabs filter.
Proof.
  assert (He : In ("CPP17"%string, @nil (string * hval own_handler)) executors) by (unfold executors; repeat (try (left; reflexivity); right)).
  destruct (Proofs.Policies.policies_build "CPP17" [] Proofs.Tracer.x64_abis X64 He Proofs.Policies.x64_linux) as (sec & tabs & w & E1 & E2 & E3).
  { apply Proofs.Policies.x64_linux. right. left. reflexivity. }
  exists tabs, w. split; [exact He|]. split; [exact Proofs.Policies.x64_linux|]. split; [right; left; reflexivity|].
  split; [exists sec; auto|]. split; [exact Properties.FileRules.C76_ex_place|]. split.
  - intros H. exfalso. revert H. cbn. intuition discriminate.
  - intros p. constructor.
Qed.
(** openat(AT_FDCWD, path, O_RDONLY) by process 12 *)
Definition opening (path : list N) : debugger :=
  {| pid := 12; uarg := fun k => match k with 1 => 77%N | _ => 0%N end; arg0 := (-100)%Z;
     readstr := fun a => if (a =? 77)%N then Str path else NoStr; cwd := B "/tmp/tmpabc"; fds := fun _ => None |}.
Definition openat_of (seen kept : list N) : happening := Call 12 (Syscall64 257) (opening seen) (opening kept) true.
Definition begin : list happening := [Stop 12 (SignalStop 19)].
Definition exec0 : happening := Call 12 (Syscall64 59) (opening []) (opening []) true.
Lemma names a b : Spec.Paths.name_ok a -> Spec.Paths.name_ok b ->
  names_file (fun _ => true) (opening (47%N :: a ++ 47%N :: b)) Openat [a; b].
Proof.
  intros Ha Hb. exists (47%N :: a ++ 47%N :: b), [B "tmp"; B "tmpabc"]. split; [reflexivity|].
  assert (K : forall l, existsb (N.eqb 47) l = false -> ~ In 47%N l).
  { intros l H I. assert (existsb (N.eqb 47) l = true) by (apply existsb_exists; exists 47%N; split; [exact I|reflexivity]). congruence. }
  split; [repeat apply Forall_cons; try apply Forall_nil; (split; [discriminate|]; split; [apply K; reflexivity|split; discriminate])|].
  split; [left; split; reflexivity|]. apply (Spec.Paths.d_abs _ _ _ _ [a; b]).
  - apply Spec.Paths.comp_more; [apply Ha|]. apply Spec.Paths.comp_last. apply Hb.
  - apply Spec.Paths.w_down; [exact Ha|reflexivity|]. apply Spec.Paths.w_down; [exact Hb|reflexivity|]. apply Spec.Paths.w_done.
Qed.
Lemma ok_name l : existsb (N.eqb 47) l = false -> beqb l [] = false -> beqb l (B ".") = false -> beqb l (B "..") = false -> Spec.Paths.name_ok l.
Proof.
  intros H1 H2 H3 H4. split; [intros ->; discriminate H2|]. split; [|split; [intros ->; discriminate H3|intros ->; discriminate H4]].
  intros I. assert (existsb (N.eqb 47) l = true) by (apply existsb_exists; exists 47%N; split; [exact I|reflexivity]). congruence.
Qed.
Lemma reads_libc kept tabs filter : sandboxed "CPP17" [] place0 [] Proofs.Tracer.x64_abis tabs filter ->
  snd (kernel_step tabs [] (fun _ => 39%Z) filter
        (fst (kernel_run tabs [] (fun _ => 39%Z) filter (start, language_tracer "CPP17" place0 []) (begin ++ [exec0])))
        (openat_of (B "/usr/libc") kept)) = [Executed X64 257 (opening kept)].
Proof.
  intros SB.
  assert (Hn : In (257%N, "openat"%string) (table_of X64)) by (apply Proofs.Tracer.in_table; vm_compute; reflexivity).
  refine (C96_granted "CPP17" [] place0 [] Proofs.Tracer.x64_abis tabs filter [] (fun _ => 39%Z) SB 12 19 [] exec0 [] 12 (Syscall64 257)
    (opening (B "/usr/libc")) (opening kept) true 257 "openat" Openat (fun _ => true) [B "usr"; B "libc"] _ _ _ _ _ Hn _ _ _ _).
  - intros st [H|[]]. discriminate H.
  - reflexivity.
  - discriminate.
  - reflexivity.
  - right. left. reflexivity.
  - right. left. reflexivity.
  - reflexivity.
  - apply (names (B "usr") (B "libc")); apply ok_name; reflexivity.
  - left. right. right. split; [exists (B "libc"); reflexivity|]. intros (r & E). discriminate E.
Qed.
Lemma run_two tabs allowed getpid filter b l h : snd (kernel_run tabs allowed getpid filter b (l ++ [h]))
  = snd (kernel_run tabs allowed getpid filter b l) ++ snd (kernel_step tabs allowed getpid filter (fst (kernel_run tabs allowed getpid filter b l)) h).
Proof.
  revert b. induction l as [|k l IH]; intros b; cbn [app kernel_run].
  - cbn [fst snd app]. destruct (kernel_step tabs allowed getpid filter b h) as [b1 x1]. cbn. rewrite app_nil_r. reflexivity.
  - destruct (kernel_step tabs allowed getpid filter b k) as [b1 x1]. specialize (IH b1).
    destruct (kernel_run tabs allowed getpid filter b1 (l ++ [h])), (kernel_run tabs allowed getpid filter b1 l). cbn [fst snd] in *.
    rewrite IH, app_assoc. reflexivity.
Qed.
(** The hypotheses of the theorems are met: a library is opened. *)
Example C96_ex : forall tabs filter, sandboxed "CPP17" [] place0 [] Proofs.Tracer.x64_abis tabs filter ->
  In (Executed X64 257 (opening (B "/usr/libc")))
    (ran tabs [] (fun _ => 39%Z) filter (start, language_tracer "CPP17" place0 []) begin exec0 [openat_of (B "/usr/libc") (B "/usr/libc")])
  /\ execs exec0 /\ Forall steady [openat_of (B "/usr/libc") (B "/usr/libc")] /\ In (257%N, "openat"%string) (table_of X64) /\ In "openat"%string file_naming
  /\ names_file (fun _ => true) (opening (B "/usr/libc")) Openat [B "usr"; B "libc"].
Proof.
  intros tabs filter SB. split; [|split; [|split; [|split; [|split]]]].
  - pose proof (reads_libc (B "/usr/libc") tabs filter SB) as R. unfold ran. cbn [kernel_run].
    assert (E : fst (kernel_step tabs [] (fun _ => 39%Z) filter
                  (fst (kernel_run tabs [] (fun _ => 39%Z) filter (start, language_tracer "CPP17" place0 []) begin)) exec0)
              = fst (kernel_run tabs [] (fun _ => 39%Z) filter (start, language_tracer "CPP17" place0 []) (begin ++ [exec0]))).
    { unfold begin. cbn [app kernel_run].
      destruct (kernel_step tabs [] (fun _ => 39%Z) filter (start, language_tracer "CPP17" place0 []) (Stop 12 (SignalStop 19))) as [b1 x1]. cbn [fst].
      destruct (kernel_step tabs [] (fun _ => 39%Z) filter b1 exec0). reflexivity. }
    rewrite E. destruct (kernel_step tabs [] (fun _ => 39%Z) filter _ (openat_of (B "/usr/libc") (B "/usr/libc"))) as [b1 x1]. cbn [snd] in *. rewrite R. left. reflexivity.
  - reflexivity.
  - repeat apply Forall_cons; [|apply Forall_nil]. split; [reflexivity|]. discriminate.
  - apply Proofs.Tracer.in_table; vm_compute; reflexivity.
  - right. left. reflexivity.
  - apply (names (B "usr") (B "libc")); apply ok_name; reflexivity.
Qed.
(** A second thread can change the path between the check and the call: then any file can be opened. *)
Theorem C96_race_refuted : exists tabs filter l x, sandboxed "CPP17" [] place0 [] Proofs.Tracer.x64_abis tabs filter
  /\ In x (snd (kernel_run tabs [] (fun _ => 39%Z) filter (start, language_tracer "CPP17" place0 []) l))
  /\ x_abi x = X64 /\ x_nr x = 257%Z /\ In (257%N, "openat"%string) (table_of X64) /\ checked_as "openat" = Some Openat
  /\ names_file (fun _ => true) (x_view x) Openat [B "etc"; B "shadow"]
  /\ ~ readable "CPP17" place0 [] (pid (x_view x)) (Spec.Paths.spelled [B "etc"; B "shadow"]).
Proof.
  destruct C96_ex_sandbox as (tabs & filter & SB). exists tabs, filter, ((begin ++ [exec0]) ++ [openat_of (B "/usr/libc") (B "/etc/shadow")]).
  exists (Executed X64 257 (opening (B "/etc/shadow"))). split; [exact SB|]. split.
  - rewrite run_two. apply in_or_app. right. rewrite (reads_libc (B "/etc/shadow") tabs filter SB). left. reflexivity.
  - split; [reflexivity|]. split; [reflexivity|]. split; [apply Proofs.Tracer.in_table; vm_compute; reflexivity|]. split; [reflexivity|].
    split; [apply (names (B "etc") (B "shadow")); apply ok_name; reflexivity|].
    intros [H|[H|[H|(r & [] & _)]]].
    + revert H. apply (Proofs.Access.hidden _ (B "/etc/shadow")); [unfold private; cbn; tauto|]. exists []. reflexivity.
    + destruct H as (r & E). discriminate E.
    + apply Proofs.FileRules.plain_languages in H. revert H. cbn. intuition discriminate.
Qed.

Print Assumptions C96_known.
Print Assumptions C96_files.
Print Assumptions C96_others.
Print Assumptions C96_private.
Print Assumptions C96_writes.
Print Assumptions C96_granted.
Print Assumptions C96_race_refuted.
