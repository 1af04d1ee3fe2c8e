(** C37, C38, C59: which system calls of a sandboxed program run. *)
From Coq Require Import String.
From Verif Require Import Model.Bytes Model.Access Model.SyscallTables Model.Tracer Model.Monitor
  Spec.Tracer Spec.Monitor Proofs.Tracer Proofs.Monitor.
From Verif Require Proofs.Policies.
Local Open Scope list_scope.

(** ** C37: default deny *)
(** Any policy over known call names gives tables and a whitelist. *)
Theorem C37_total : forall {F} (policy : list (string * hval F)) supported native,
  (forall a, In a supported -> Linux_or_bsd a) -> Linux_or_bsd native ->
  (forall n h, In (n, h) policy -> known_call n) ->
  exists sec t w, security_of syscalls policy = Some sec /\ build syscalls sec supported = Some t
    /\ whitelist syscalls sec native = Some w.
Proof. exact @tables_total. Qed.
(** A call is treated as the last policy entry about it says. *)
Theorem C37_named : forall {F} run (policy : list (string * hval F)) sec supported t abi n name h arg0,
  (forall a, In a supported -> Linux_or_bsd a) ->
  security_of syscalls policy = Some sec -> build syscalls sec supported = Some t ->
  In abi supported -> In (n, name) (table_of abi) -> governs policy name h ->
  decide run t abi (Z.of_N n) arg0 = meaning run h arg0.
Proof. exact @named_call. Qed.
(** A call the policy does not mention, a number without a call, or an ABI that is not
    supported: the program is killed. *)
Theorem C37_unmentioned : forall {F} run (policy : list (string * hval F)) sec supported t abi n name arg0,
  (forall a, In a supported -> Linux_or_bsd a) ->
  security_of syscalls policy = Some sec -> build syscalls sec supported = Some t ->
  In abi supported -> In (n, name) (table_of abi) -> unmentioned policy name ->
  decide run t abi (Z.of_N n) arg0 = Verdict Kill.
Proof. exact @unmentioned_call. Qed.
Theorem C37_default_deny : forall {F} run (policy : list (string * hval F)) sec supported t abi s arg0,
  (forall a, In a supported -> Linux_or_bsd a) ->
  security_of syscalls policy = Some sec -> build syscalls sec supported = Some t ->
  (0 <= s \/ s < -568)%Z -> ~ (abi = ARM /\ 0xF0000 < s < 0xF0006)%Z ->
  decide run t abi s arg0 <> Verdict Kill ->
  exists n name h, s = Z.of_N n /\ In abi supported /\ In (n, name) (table_of abi) /\ governs policy name h
    /\ decide run t abi s arg0 = meaning run h arg0.
Proof. exact @default_deny. Qed.
(** The two exceptions: ARM's private calls always run ... *)
Theorem C37_arm : forall {F} run (policy : list (string * hval F)) sec supported t s arg0,
  security_of syscalls policy = Some sec -> build syscalls sec supported = Some t ->
  (0xF0000 < s < 0xF0006)%Z -> decide run t ARM s arg0 = Verdict Run.
Proof. exact @arm_private. Qed.
(** ... and a negative number is handed to the handler of the call 568 above it. *)
Theorem C37_negative_refuted :
  exists (policy : list (string * hval unit)) sec t run,
    security_of syscalls policy = Some sec /\ build syscalls sec x64_abis = Some t
    /\ decide run t X86 (-273) 0 = Verdict Run
    /\ forall n name, In (n, name) linux_x86 -> Z.of_N n <> (-273)%Z.
Proof. exact negative_refuted. Qed.
(** The kernel filter lets through exactly the calls allowed without conditions, except the
    two exit calls, and never one the monitor would stop. *)
Theorem C37_whitelist : forall {F} (policy : list (string * hval F)) sec native,
  Linux_or_bsd native -> security_of syscalls policy = Some sec ->
  exists w, whitelist syscalls sec native = Some w
    /\ forall n, w n = true <->
         exists name, In (n, name) (table_of native) /\ governs policy name ALLOW
                      /\ name <> "exit"%string /\ name <> "exit_group"%string.
Proof. exact @whitelist_spec. Qed.
Theorem C37_whitelist_agrees : forall {F} run (policy : list (string * hval F)) sec supported t native w n arg0,
  (forall a, In a supported -> Linux_or_bsd a) -> In native supported ->
  security_of syscalls policy = Some sec -> build syscalls sec supported = Some t ->
  whitelist syscalls sec native = Some w -> w n = true -> decide run t native (Z.of_N n) arg0 = Verdict Run.
Proof. exact @whitelist_agrees. Qed.
(** The policy every executor starts from, on every Linux interface, call by call: it runs freely
    the calls of one list, asks the rule of the call for those of another, and kills for all others. *)
Theorem C37_base : forall run sec supported t abi n name arg0,
  (forall a, In a supported -> In a [X86; X64; X32; ARM; ARM64]) ->
  security_of syscalls base_policy = Some sec -> build syscalls sec supported = Some t ->
  In abi supported -> In (n, name) (table_of abi) ->
  (In name freely -> decide run t abi (Z.of_N n) arg0 = Verdict Run)
  /\ (forall f, In (name, f) by_rule -> decide run t abi (Z.of_N n) arg0 = Verdict (run f))
  /\ (~ In name freely -> (forall f, ~ In (name, f) by_rule) -> decide run t abi (Z.of_N n) arg0 = Verdict Kill).
Proof. exact Proofs.Policies.base_decides. Qed.
(** Which call the monitor sees is the one the kernel executes ... *)
Theorem C37_sees : forall e, (forall rax, e <> Int80_from64 rax) -> monitor_sees e = executes e.
Proof. exact sees_what_executes. Qed.
(** ... unless 64-bit code uses the 32-bit entry: then execve passes as munmap. *)
Theorem C37_int80_refuted :
  exists sec t e n, security_of syscalls base_policy = Some sec /\ build syscalls sec x64_abis = Some t
    /\ executes e = (X86, Z.of_N n) /\ In (n, "execve"%string) linux_x86 /\ unmentioned base_policy "execve"%string
    /\ forall run arg0, decide run t (fst (monitor_sees e)) (snd (monitor_sees e)) arg0 = Verdict Run.
Proof. exact int80_refuted. Qed.
Example C37_ex_known : forall n h, In (n, h) base_policy -> known_call n.
Proof. exact base_known. Qed.
Example C37_ex : forall sec t run, security_of syscalls base_policy = Some sec -> build syscalls sec x64_abis = Some t ->
  decide run t X64 0 7 = Verdict Run                       (* read *)
  /\ decide run t X64 257 7 = Verdict (run Openat)         (* openat *)
  /\ decide run t X86 295 7 = Verdict (run Openat)
  /\ decide run t X64 82 7 = Verdict Kill                  (* rename *)
  /\ decide run t X64 567 7 = Verdict Kill                 (* no such call *)
  /\ decide run t ARM 5 7 = Verdict Kill.                  (* not supported here *)
Proof.
  intros sec t run Es Eb.
  assert (NM : forall abi n name h p q, In abi x64_abis -> existsb (fun r => (fst r =? n)%N && String.eqb (snd r) name) (table_of abi) = true ->
     base_policy = p ++ (name, h) :: q ->
     existsb (fun line => existsb (fun k => String.eqb k name) line) aliases_list = false ->
     existsb (fun e => String.eqb (fst e) name) q = false -> decide run t abi (Z.of_N n) 7 = meaning run h 7).
  { intros abi n name h p q A B C D E. apply (C37_named run base_policy sec x64_abis t abi n name h 7 x64_abis_ok Es Eb A).
    - apply in_table. exact B.
    - exact (governs_dec base_policy name h p q C D E). }
  split; [apply (NM X64 0%N "read"%string ALLOW (firstn 16 base_policy) (skipn 17 base_policy)); vm_compute; tauto|].
  split; [apply (NM X64 257%N "openat"%string (Fn Openat) [] (skipn 1 base_policy)); vm_compute; tauto|].
  split; [apply (NM X86 295%N "openat"%string (Fn Openat) [] (skipn 1 base_policy)); vm_compute; tauto|].
  split; [apply (C37_unmentioned run base_policy sec x64_abis t X64 82%N "rename"%string 7 x64_abis_ok Es Eb);
          [right; left; reflexivity|apply in_table; vm_compute; reflexivity|apply mentions_dec; vm_compute; reflexivity]|].
  split.
  - destruct (decide run t X64 567 7) as [[|e|]|] eqn:D; try reflexivity; exfalso;
      (destruct (C37_default_deny run base_policy sec x64_abis t X64 567 7 x64_abis_ok Es Eb) as (n & name & h & E & _ & Hin & _);
       [left; lia|intros [X _]; discriminate X|rewrite D; discriminate|]);
      (assert (n = 567%N) by lia; subst n; apply (in_map fst) in Hin; cbn [fst] in Hin;
       assert (C : existsb (N.eqb 567) (map fst (table_of X64)) = false) by (vm_compute; reflexivity);
       assert (C' : existsb (N.eqb 567) (map fst (table_of X64)) = true) by (apply existsb_exists; exists 567%N; split; [exact Hin|reflexivity]);
       congruence).
  - destruct (decide run t ARM 5 7) as [[|e|]|] eqn:D; try reflexivity; exfalso;
      (destruct (C37_default_deny run base_policy sec x64_abis t ARM 5 7 x64_abis_ok Es Eb) as (n & name & h & _ & Ha & _);
       [left; lia|intros [_ X]; lia|rewrite D; discriminate|]); cbn in Ha; intuition discriminate.
Qed.

(** ** C38: the monitor *)
(** With the kernel filter: after the program's first execve call, for every history of
    stops of any number of threads. *)
Theorem C38_seccomp : forall decide getpid m l tid r w, alive m l -> called_execve l ->
  let acts := snd (step true decide getpid (run true decide getpid start l) tid (CallStop (Got r) w)) in
  match decide r with
  | Verdict Run => acts = [Go tid None 0%N]
  | Verdict (Fail e) =>
      if w then acts = [Go tid (Some {| r_abi := r_abi r; r_nr := -1; r_arg0 := r_arg0 r; r_result := - Z.of_N e |}) 0%N]
      else acts = [Fault (-1); KillGroup]
  | Verdict Kill => acts = [Fault (r_nr r); KillGroup]
  | FaultAndRun => acts = [Fault (r_nr r); KillGroup; Go tid None 0%N]
  end.
Proof. exact seccomp_call. Qed.
(** Only the thread that stopped is ever resumed. *)
Theorem C38_resumes_own : forall seccomp decide getpid s tid st t x g,
  In (Go t x g) (snd (step seccomp decide getpid s tid st)) -> t = tid.
Proof. exact step_go. Qed.
(** Without the filter, as long as clone, fork and exit events do not stop a thread inside a
    call: every entry is decided ... *)
Theorem C38_ptrace : forall decide getpid m l ph tid r w, alive m l -> kernel false l = Some ph -> execve_returned false l ->
  ph tid = Outside ->
  let acts := snd (step false decide getpid (run false decide getpid start l) tid (CallStop (Got r) w)) in
  match decide r with
  | Verdict Run => acts = [Go tid None 0%N]
  | Verdict (Fail e) =>
      if w then acts = [Go tid (Some {| r_abi := r_abi r; r_nr := getpid (r_abi r); r_arg0 := r_arg0 r; r_result := r_result r |}) 0%N]
      else acts = [Fault (getpid (r_abi r)); KillGroup]
  | Verdict Kill => acts = [Fault (r_nr r); KillGroup]
  | FaultAndRun => acts = [Fault (r_nr r); KillGroup; Go tid None 0%N]
  end.
Proof. exact ptrace_entry. Qed.
(** ... and a denied call returns its error when no other call stops in between. *)
Theorem C38_ptrace_result : forall decide getpid m l l2 ph tid r r2 e,
  alive m (l ++ (tid, CallStop (Got r) true) :: l2) ->
  kernel false (l ++ (tid, CallStop (Got r) true) :: l2) = Some ph -> no_calls l2 ->
  execve_returned false l ->
  (exists ph0, kernel false l = Some ph0 /\ ph0 tid = Outside) -> ph tid = Inside ->
  decide r = Verdict (Fail e) ->
  snd (step false decide getpid (run false decide getpid start (l ++ (tid, CallStop (Got r) true) :: l2)) tid (CallStop (Got r2) true))
  = [Go tid (Some {| r_abi := r_abi r2; r_nr := r_nr r2; r_arg0 := r_arg0 r2; r_result := - Z.of_N e |}) 0%N].
Proof. exact ptrace_result. Qed.
(** With the clone event where the kernel puts it, the next entry of that thread is not
    checked: under the base policy a program gets execve through. *)
Theorem C38_ptrace_clone_refuted :
  exists sec t m l ph r, security_of syscalls base_policy = Some sec /\ build syscalls sec x64_abis = Some t
    /\ alive m l /\ kernel true l = Some ph /\ execve_returned true l /\ ph m = Outside
    /\ forall run_handler getpid,
         let dec r := decide run_handler t (r_abi r) (r_nr r) (r_arg0 r) in
         dec r = Verdict Kill
         /\ snd (step false dec getpid (run false dec getpid start l) m (CallStop (Got r) true)) = [Go m None 0%N].
Proof.
  destruct (C37_total base_policy x64_abis X64 x64_abis_ok (proj1 (proj2 abis_ok)) base_known) as (sec & t & w & Es & Eb & _).
  destruct clone_kernel as (ph & K & P).
  exists sec, t, 1%N, (clone_trace 1), ph, (rg X64 59 0). split; [exact Es|]. split; [exact Eb|]. split; [exact clone_alive|].
  split; [exact K|]. split; [apply exec_returned|]. split; [exact P|]. intros rh getpid dec. split.
  - apply (C37_unmentioned rh base_policy sec x64_abis t X64 59%N "execve"%string 0 x64_abis_ok Es Eb).
    + right. left. reflexivity.
    + apply in_table. vm_compute. reflexivity.
    + apply mentions_dec; vm_compute; reflexivity.
  - assert (D : forall res, dec (rg X64 56 res) = Verdict Run).
    { intro res. apply (C37_named rh base_policy sec x64_abis t X64 56%N "clone"%string ALLOW 0 x64_abis_ok Es Eb).
      - right. left. reflexivity.
      - apply in_table. vm_compute. reflexivity.
      - apply (governs_dec base_policy "clone"%string ALLOW (firstn 85 base_policy) (skipn 86 base_policy)); vm_compute; reflexivity. }
    exact (clone_bypass dec getpid (rg X64 59 0) (D 0%Z) (D 2%Z)).
Qed.
(** And with two threads inside denied calls the errors get mixed up: the first thread gets
    the second's, the second gets none. *)
Theorem C38_ptrace_result_refuted :
  alive 1 two_trace /\ execve_returned false two_trace
  /\ (exists ph, kernel false two_trace = Some ph /\ ph 1%N = Inside /\ ph 2%N = Inside)
  /\ snd (step false two_decide (fun _ => 39%Z) (run false two_decide (fun _ => 39%Z) start two_trace) 1 (CallStop (Got (rg X64 39 1)) true))
     = [Go 1 (Some (rg X64 39 (- Z.of_N EPERM))) 0]
  /\ snd (step false two_decide (fun _ => 39%Z)
         (run false two_decide (fun _ => 39%Z) start (two_trace ++ [(1%N, CallStop (Got (rg X64 39 1)) true)])) 2 (CallStop (Got (rg X64 39 1)) true))
     = [Go 2 None 0].
Proof. exact two_threads. Qed.
(** When the main process ends the monitor stops, and kills exactly the processes reported
    as forked that have not ended; the end of any other thread changes nothing else. *)
Theorem C38_end : forall seccomp decide getpid m l status, alive m l ->
  let acts := snd (step seccomp decide getpid (run seccomp decide getpid start l) m (Ended status)) in
  In (Finish status) acts /\ (forall c, In (KillOne c) acts <-> outstanding c l)
  /\ forall tid st, snd (step seccomp decide getpid (fst (step seccomp decide getpid (run seccomp decide getpid start l) m (Ended status))) tid st) = [].
Proof. exact end_kills. Qed.
Theorem C38_other_end : forall seccomp decide getpid m l tid status, alive m l -> tid <> m ->
  snd (step seccomp decide getpid (run seccomp decide getpid start l) tid (Ended status)) = []
  /\ over (fst (step seccomp decide getpid (run seccomp decide getpid start l) tid (Ended status))) = false.
Proof. exact other_end. Qed.
Example C38_ex_alive : alive 1 two_trace /\ called_execve two_trace /\ execve_returned false two_trace.
Proof.
  split; [exact (proj1 two_threads)|]. split; [|apply exec_returned].
  exists 1%N, (rg X64 59 0), true. split; [right; left; reflexivity|reflexivity].
Qed.
Example C38_ex_denied :
  snd (step true two_decide (fun _ => 39%Z) (run true two_decide (fun _ => 39%Z) start two_trace) 2 (CallStop (Got (rg X64 62 5)) true))
  = [Go 2 (Some (rg X64 (-1) (- 1))) 0].
Proof. reflexivity. Qed.
Example C38_ex_forked :
  snd (step true two_decide (fun _ => 39%Z) (run true two_decide (fun _ => 39%Z) start
    (exec_trace 1 ++ [(1%N, EventStop (EvFork 7)); (1%N, EventStop (EvVfork 8)); (7%N, Ended 0)])) 1 (Ended 0))
  = [KillOne 8; Finish 0].
Proof. reflexivity. Qed.
(** A process made by clone rather than fork is not in that list. *)
Example C38_ex_cloned :
  snd (step true two_decide (fun _ => 39%Z) (run true two_decide (fun _ => 39%Z) start adopt_trace) 1 (Ended 0)) = [Finish 0].
Proof. reflexivity. Qed.

(** ** C59: a program that never started *)
(** Without the filter the monitor counts the program as started exactly when an execve has
    returned 0; an exit before that is reported as an error. *)
Theorem C59_started : forall decide getpid m l ph, alive m l -> kernel false l = Some ph ->
  (spawned (run false decide getpid start l) = true <-> execve_returned false l).
Proof. exact spawned_iff. Qed.
Theorem C59_wait : forall initialized code,
  wait_result initialized code = None <-> initialized = false /\ (0 <= code)%Z.
Proof.
  intros [|] code; unfold wait_result; [split; [discriminate|intros [X _]; discriminate X]|].
  rewrite Z.geb_leb. destruct (0 <=? code)%Z eqn:E; [apply Z.leb_le in E|apply Z.leb_gt in E].
  - split; [intros _; split; [reflexivity|exact E]|reflexivity].
  - split; [discriminate|]. intros [_ X]. lia.
Qed.
(** With the filter the entry of execve already counts, so an execve that fails and makes the
    child exit with 205 looks like the program's own exit code. *)
Theorem C59_seccomp_refuted :
  alive 1 failed_exec
  /\ (forall tid r w, In (tid, CallStop (Got r) w) failed_exec -> r_nr r = 59%Z -> r_result r <> 0%Z)
  /\ forall decide getpid, wait_result (spawned (run true decide getpid start failed_exec)) 205 = Some 205%Z.
Proof.
  split; [split; [exists 19%N; eexists; reflexivity|intros status H; cbn in H; repeat (destruct H as [H|H]; [discriminate|]); exact H]|].
  split.
  - intros tid r w H E. cbn in H. repeat (destruct H as [H|H]; [try discriminate H; injection H as <- <- <-; cbn in *; try discriminate E; discriminate|]). destruct H.
  - intros decide getpid. unfold failed_exec. cbn [run].
    set (s2 := fst (step true decide getpid (fst (step true decide getpid start 1%N (SignalStop 19))) 1%N (CallStop (Got (rg X64 59 (-38))) true))).
    rewrite (step_spawned decide getpid s2 1%N (CallStop (Got (rg X64 231 (-38))) true)); reflexivity.
Qed.
Example C59_ex : wait_result false 205 = None /\ wait_result false (-9) = Some (-9)%Z /\ wait_result true 205 = Some 205%Z.
Proof. repeat split. Qed.

Print Assumptions C37_total.
Print Assumptions C37_named.
Print Assumptions C37_unmentioned.
Print Assumptions C37_default_deny.
Print Assumptions C37_arm.
Print Assumptions C37_negative_refuted.
Print Assumptions C37_whitelist.
Print Assumptions C37_whitelist_agrees.
Print Assumptions C37_base.
Print Assumptions C37_sees.
Print Assumptions C37_int80_refuted.
Print Assumptions C38_seccomp.
Print Assumptions C38_resumes_own.
Print Assumptions C38_ptrace.
Print Assumptions C38_ptrace_result.
Print Assumptions C38_ptrace_clone_refuted.
Print Assumptions C38_ptrace_result_refuted.
Print Assumptions C38_end.
Print Assumptions C38_other_end.
Print Assumptions C59_started.
Print Assumptions C59_wait.
Print Assumptions C59_seccomp_refuted.

(** ** C38: a call whose registers cannot be read *)
(** A program whose registers cannot be read, other than because it is gone, is killed, and nothing of it runs; one
    that is gone is left alone. *)
Theorem C38_unreadable : forall seccomp decide getpid s tid w, over s = false ->
  snd (step seccomp decide getpid s tid (CallStop ReadError w)) = [Fault (-1); KillGroup] /\
  snd (step seccomp decide getpid s tid (CallStop Vanished w)) = [].
Proof. intros seccomp decide getpid s tid w O. unfold step. rewrite O. split; reflexivity. Qed.
Print Assumptions C38_unreadable.
