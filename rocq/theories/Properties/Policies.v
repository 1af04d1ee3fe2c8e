(** C75: what the sandbox lets programs of each shipped executor do. *)
From Coq Require Import String.
From Verif Require Import Model.Bytes Model.Paths Model.Regex Model.Access Model.SyscallTables Model.Tracer Model.Policies
  Spec.Regex Spec.Access Spec.Tracer Spec.Policies Proofs.Tracer Proofs.Policies.
Local Open Scope list_scope.

(** Every executor's policy names known calls only: launching never fails on it. *)
Theorem C75_builds : forall e own supported native, In (e, own) executors ->
  (forall a, In a supported -> linux a) -> linux native ->
  exists sec t w, security_of syscalls (policy_with own) = Some sec /\ build syscalls sec supported = Some t
    /\ whitelist syscalls sec native = Some w.
Proof. exact policies_build. Qed.
(** A call that names a file runs only if the path passes the file rules (which C34 and C35
    describe), with four exceptions. *)
Theorem C75_files : forall e own supported allowed tr d abi n name,
  In (e, own) executors -> (forall a, In a supported -> linux a) -> In abi supported ->
  In (n, name) (table_of abi) -> In name file_naming ->
  passes own supported allowed tr d abi n ->
  (exists c, checked_as name = Some c /\ fst (handle tr d c) = Run)
  \/ In name ["statfs"; "statfs64"]%string
  \/ (e = "COFFEE" /\ name = "statx")%string \/ (e = "TCL" /\ name = "access")%string
  \/ (e = "BASH" /\ name = "execve")%string /\ in_commands allowed d.
Proof. exact files_checked. Qed.
(** Three of the exceptions are unchecked accesses to any path. *)
Theorem C75_files_unchecked_refuted :
  (forall allowed tr d, passes tcl x64_abis allowed tr d X64 21)
  /\ (forall allowed tr d, passes coffee x64_abis allowed tr d X64 332)
  /\ (forall e own allowed tr d, In (e, own) executors -> passes own x64_abis allowed tr d X64 137)
  /\ In (21%N, "access"%string) linux_x64 /\ In (332%N, "statx"%string) linux_x64 /\ In (137%N, "statfs"%string) linux_x64
  /\ In ("TCL"%string, tcl) executors /\ In ("COFFEE"%string, coffee) executors.
Proof. exact unchecked_refuted. Qed.
(** No executor can open a socket to the outside. *)
Theorem C75_network : forall e own supported allowed tr d abi n name,
  In (e, own) executors -> (forall a, In a supported -> linux a) -> In abi supported ->
  In (n, name) (table_of abi) -> In name network ->
  passes own supported allowed tr d abi n ->
  (name = "socketpair" /\ In e ("PIKE" :: jvm_languages))%string
  \/ (e = "TCL" /\ In name ["connect"; "getsockname"])%string.
Proof. exact network_checked. Qed.
Theorem C75_privileged : forall e own supported allowed tr d abi n name,
  In (e, own) executors -> (forall a, In a supported -> linux a) -> In abi supported ->
  In (n, name) (table_of abi) -> In name privileged ->
  passes own supported allowed tr d abi n ->
  (name = "setrlimit" /\ In e ("COFFEE" :: jvm_languages))%string
  \/ (name = "sched_setscheduler" /\ In e mono_languages)%string
  \/ (name = "personality" /\ e = "SBCL")%string.
Proof. exact privileged_checked. Qed.
Theorem C75_processes : forall e own supported allowed tr d abi n name,
  In (e, own) executors -> (forall a, In a supported -> linux a) -> In abi supported ->
  In (n, name) (table_of abi) -> In name spawning ->
  passes own supported allowed tr d abi n -> (name = "fork" /\ e = "BASH")%string.
Proof. exact spawn_checked. Qed.
Theorem C75_signals : forall e own supported allowed tr d abi n name,
  In (e, own) executors -> (forall a, In a supported -> linux a) -> In abi supported ->
  In (n, name) (table_of abi) -> In name signalling ->
  passes own supported allowed tr d abi n -> uarg d 0 = pid d.
Proof. exact signal_checked. Qed.
(** Shell programs start exactly the commands that are installed and listed. *)
Theorem C75_commands : forall supported allowed tr d abi n,
  (forall a, In a supported -> linux a) -> In abi supported -> In (n, "execve"%string) (table_of abi) ->
  (passes shell supported allowed tr d abi n <-> in_commands allowed d).
Proof. exact shell_exec. Qed.
Theorem C75_commands_killed : forall allowed d, ~ in_commands allowed d -> handle_execve allowed d = Kill.
Proof. intros allowed d H. apply execve_kill. intro X. apply H, execve_spec, X. Qed.
(** Calls an executor lists run; all the others are treated as in the base policy. *)
Theorem C75_listed : forall e own name supported allowed tr d abi n,
  In (e, own) executors -> In (name, ALLOW) own -> (forall a, In a supported -> linux a) -> In abi supported ->
  In (n, name) (table_of abi) -> passes own supported allowed tr d abi n.
Proof. exact own_granted. Qed.
Theorem C75_rest : forall own supported sec t sec0 t0 allowed tr d abi n name a,
  (forall a, In a supported -> linux a) -> In abi supported -> In (n, name) (table_of abi) -> not_own own name ->
  security_of syscalls (policy_with own) = Some sec -> build syscalls sec supported = Some t ->
  security_of syscalls base_policy = Some sec0 -> build syscalls sec0 supported = Some t0 ->
  decide (fun h => fst (handle_own allowed tr d h)) t abi (Z.of_N n) a
  = decide (fun c => fst (handle tr d c)) t0 abi (Z.of_N n) a.
Proof. exact rest_as_base. Qed.

(** Language by language and call by call: those its row of the table lists run, some fail as it says, commands of a shell
    start if they are listed; for everything else the base policy decides. *)
Theorem C75_each : forall e own supported sec t allowed tr d abi n name a,
  In (e, own) executors -> (forall a, In a supported -> linux a) -> In abi supported -> In (n, name) (table_of abi) ->
  security_of syscalls (policy_with own) = Some sec -> build syscalls sec supported = Some t ->
  let ruling := decide (fun h => fst (handle_own allowed tr d h)) t abi (Z.of_N n) a in
  (may_call e name -> ruling = Verdict Run)
  /\ (forall errno, fails_with e name errno -> ruling = Verdict (Fail errno))
  /\ (e = "BASH"%string -> name = "execve"%string -> (in_commands allowed d -> ruling = Verdict Run) /\ (~ in_commands allowed d -> ruling = Verdict Kill))
  /\ (~ may_call e name -> (forall errno, ~ fails_with e name errno) -> ~ (e = "BASH" /\ name = "execve")%string ->
        forall sec0 t0, security_of syscalls base_policy = Some sec0 -> build syscalls sec0 supported = Some t0 ->
        ruling = decide (fun c => fst (handle tr d c)) t0 abi (Z.of_N n) a).
Proof. exact each_call. Qed.
Theorem C75_languages : (forall e, In e languages <-> exists own, In (e, own) executors)
  /\ forall e own own', In (e, own) executors -> In (e, own') executors -> own = own'.
Proof. split; [exact all_languages|exact one_list_each]. Qed.
(** On FreeBSD a Java virtual machine may ask about its own process. *)
Theorem C75_procctl : forall d, (uarg d 1 < 2 ^ 64)%N -> (uarg d 2 < 2 ^ 64)%N -> (pid d < 2 ^ 63)%N ->
  (handle_procctl d = Run <-> arg0 d = 0%Z /\ uarg d 1 = pid d /\ (uarg d 2 = 17 \/ uarg d 2 = 18)%N)
  /\ (handle_procctl d <> Run -> handle_procctl d = Kill).
Proof. exact procctl_own. Qed.

Definition shell_call (s : list N) : debugger :=
  {| pid := 12; uarg := fun _ => 77%N; arg0 := 77; readstr := fun a => if (a =? 77)%N then Str s else NoStr;
     cwd := B "/tmp/abc"; fds := fun _ => None |}.
Example C75_ex_shell : forall tr,
  passes shell x64_abis [Some (B "/bin/cat"); None] tr (shell_call (B "/usr/../bin/cat")) X64 59
  /\ ~ passes shell x64_abis [Some (B "/bin/cat"); None] tr (shell_call (B "cat")) X64 59.
Proof.
  intro tr. assert (T : In (59%N, "execve"%string) (table_of X64)) by (apply in_table; vm_compute; reflexivity).
  assert (A : In X64 x64_abis) by (right; left; reflexivity).
  split.
  - apply (C75_commands x64_abis _ tr _ X64 59 x64_linux A T). exists (B "/usr/../bin/cat"), (B "/bin/cat").
    split; [reflexivity|]. split; [reflexivity|]. left. reflexivity.
  - intro P. apply (C75_commands x64_abis _ tr _ X64 59 x64_linux A T) in P.
    destruct P as (p & f & E1 & E2 & H). injection E1 as <-. vm_compute in E2. injection E2 as <-.
    destruct H as [H|[H|[]]]; discriminate.
Qed.
Example C75_ex_own : In ("GO"%string, go) executors /\ In ("mlock"%string, ALLOW) go
  /\ In (149%N, "mlock"%string) (table_of X64) /\ not_own go "execve" /\ In (39%N, "mkdir"%string) (table_of X86).
Proof.
  split; [unfold executors; repeat (try (left; reflexivity); right)|].
  split; [unfold go; vm_compute; tauto|].
  split; [apply in_table; vm_compute; reflexivity|].
  split; [|apply in_table; vm_compute; reflexivity].
  apply entry_for_none. vm_compute. reflexivity.
Qed.

Print Assumptions C75_builds.
Print Assumptions C75_files.
Print Assumptions C75_files_unchecked_refuted.
Print Assumptions C75_network.
Print Assumptions C75_privileged.
Print Assumptions C75_processes.
Print Assumptions C75_signals.
Print Assumptions C75_commands.
Print Assumptions C75_commands_killed.
Print Assumptions C75_listed.
Print Assumptions C75_rest.
Print Assumptions C75_each.
Print Assumptions C75_languages.
Print Assumptions C75_procctl.
