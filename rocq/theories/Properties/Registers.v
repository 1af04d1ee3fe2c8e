(** Property theorems for the registers of stopped processes (C81).

    [wide] says which of a 64-bit system's two register sets the kernel handed out. *)
From Coq Require Import String ZArith.
From Verif Require Import Model.Bytes Model.Registers Spec.Registers.
From Verif Require Proofs.Registers.
Local Open Scope list_scope.
Local Open Scope Z_scope.

(** ** C81 *)
(** At a stop, every argument and the result are read from the register Linux keeps them in, for
    every interface a judge of any build supports; the unsigned reading is the register itself,
    the signed one agrees with it. *)
Theorem C81_reads : forall b wide d x, let d' := pre_syscall b (Some wide) d in let a := abi_ d' in
  entering a (real d) -> sound b x -> py_uget b d' x = real d (conv a x) /\ agree (long_bits b) (py_get b d' x) (real d (conv a x))
  /\ - 2 ^ (long_bits b - 1) <= py_get b d' x < 2 ^ (long_bits b - 1).
Proof. exact Proofs.Registers.reads. Qed.
Print Assumptions C81_reads.

(** The number of the call is the low half of the register it is kept in, without the mark of
    X32; every number below 2^30 is read exactly. *)
Theorem C81_call : forall b wide d, let d' := pre_syscall b (Some wide) d in let a := abi_ d' in sized a (real d) ->
  - 2 ^ 31 <= syscall b d' < 2 ^ 31 /\ agree 32 (syscall b d') (real d (conv_call a) - match a with X32 => x32_bit | _ => 0 end).
Proof. exact Proofs.Registers.call. Qed.
Print Assumptions C81_call.
Theorem C81_call_exact : forall b wide d n, let d' := pre_syscall b (Some wide) d in let a := abi_ d' in 0 <= n < 2 ^ 30 ->
  real d (conv_call a) = n + match a with X32 => x32_bit | _ => 0 end -> syscall b d' = n.
Proof. exact Proofs.Registers.call_exact. Qed.
Print Assumptions C81_call_exact.

(** The interface is one the judge supports: the narrow set of registers means the 32-bit one,
    and the mark tells X32 from X64. *)
Theorem C81_interface : forall b wide d, let a := abi_ (pre_syscall b (Some wide) d) in supports_abi b a = true
  /\ (b = Amd64 -> (a = X86 <-> wide = false) /\ (a = X32 <-> wide = true /\ Z.testbit (real d (B "orig_rax")) 30 = true))
  /\ (b = Aarch64 -> (a = ARM <-> wide = false)).
Proof. exact Proofs.Registers.interface. Qed.
Print Assumptions C81_interface.

(** Writing an argument or the result and reading it again gives what was written, as wide as the
    register is; nothing else that can be read changes; numbers that do not fit raise. *)
Theorem C81_writes : forall b d x v, supports_abi b (abi_ d) = true -> sound b x ->
  (- 2 ^ (long_bits b - 1) <= v < 2 ^ (long_bits b - 1) -> exists d', py_set b d x v = Ok d'
     /\ abi_ d' = abi_ d /\ py_uget b d' x = v mod 2 ^ reg_bits (abi_ d)
     /\ (forall y, y <> x -> py_get b d' y = py_get b d y) /\ syscall b d' = syscall b d)
  /\ (~ (- 2 ^ (long_bits b - 1) <= v < 2 ^ (long_bits b - 1)) -> py_set b d x v = Overflow).
Proof. exact Proofs.Registers.writes. Qed.
Print Assumptions C81_writes.

(** After a stop, whatever was read and written in it, each register of the process has the value
    last written to it, or the one it had. *)
Theorem C81_stop : forall b seccomp noop wide l d, b = Amd64 \/ b = I386 -> let a := abi_ (pre_syscall b (Some wide) d) in
  exists d', stop b seccomp noop (Some wide) l d = Some d' /\ told d' = told d
  /\ forall n, final (changes b a seccomp noop) n (real d n) l (real d' n).
Proof. exact Proofs.Registers.stops. Qed.
Print Assumptions C81_stop.
(** That value is determined. *)
Theorem C81_stop_one : forall b a seccomp noop n old l v w,
  final (changes b a seccomp noop) n old l v -> final (changes b a seccomp noop) n old l w -> v = w.
Proof. exact Proofs.Registers.final_fun. Qed.
Print Assumptions C81_stop_one.
(** If the registers cannot be read none is written, whatever is attempted. *)
Theorem C81_unread : forall b seccomp noop l d, stop b seccomp noop None l d = None
  /\ real (uses b seccomp noop (pre_syscall b None d) l) = real d.
Proof. exact Proofs.Registers.unread. Qed.
Print Assumptions C81_unread.

(** Refusing a call with an error code replaces its number by -1, which the kernel skips, puts the
    negative code where the result is expected, and leaves every other register alone. *)
Theorem C81_refused : forall b code wide d, b = Amd64 \/ b = I386 -> 0 < code < 4096 -> let a := abi_ (pre_syscall b (Some wide) d) in
  exists d', refuse b code wide d = Some d' /\ real d' (conv_call a) = 2 ^ reg_bits a - 1 /\ real d' (conv a Result) = 2 ^ reg_bits a - code
  /\ forall n, n <> conv_call a -> n <> conv a Result -> real d' n = real d n.
Proof. exact Proofs.Registers.refused. Qed.
Print Assumptions C81_refused.
Theorem C81_refused_arm : forall code wide d, 0 < code < 4096 ->
  exists d', refuse Arm32 code wide d = Some d' /\ told d' = Some (-1) /\ real d' (conv ARM Result) = 2 ^ 32 - code
  /\ forall n, n <> conv ARM Result -> real d' n = real d n.
Proof. exact Proofs.Registers.refused_arm. Qed.
Print Assumptions C81_refused_arm.
(** Without seccomp the call is replaced by getpid ([noop]) when it is entered, and the code put
    in place when getpid returns; [after] is what the kernel does in between. *)
Theorem C81_refused_traced : forall b code noop wide after d, b = Amd64 \/ b = I386 -> 0 < code < 4096 -> 0 <= noop < 2 ^ 30 ->
  let a := abi_ (pre_syscall b (Some wide) d) in (forall e, real (after e) (conv_call a) = real e (conv_call a)) ->
  exists d1 d', stop b false noop (Some wide) [WriteCall (-1)] d = Some d1 /\ refuse_traced b code noop wide after d = Some d'
  /\ real d1 (conv_call a) = noop + match a with X32 => x32_bit | _ => 0 end /\ (forall n, n <> conv_call a -> real d1 n = real d n)
  /\ real d' (conv a Result) = 2 ^ reg_bits a - code /\ (forall n, n <> conv a Result -> real d' n = real (after d1) n).
Proof. exact Proofs.Registers.refused_traced. Qed.
Print Assumptions C81_refused_traced.

(** On AArch64 the error code is put in the register of the call number instead of that of the
    result: the program sees its first argument as the result of the refused call. *)
Theorem C81_refused_refuted : forall code d, 0 < code < 4096 ->
  exists d', refuse Aarch64 code true d = Some d' /\ real d' (conv ARM64 Result) = real d (conv ARM64 Arg0) /\ real d' (conv_call ARM64) = 2 ^ 64 - code.
Proof. exact Proofs.Registers.refused_aarch64. Qed.
Print Assumptions C81_refused_refuted.
(** On i386 the sixth argument is always zero. *)
Theorem C81_sixth_refuted : forall wide d, py_uget I386 (pre_syscall I386 (Some wide) d) Arg5 = 0.
Proof. intros. vm_compute. reflexivity. Qed.
Print Assumptions C81_sixth_refuted.
(** An X32 call replaced by -1 does not read back as -1. *)
Theorem C81_x32_refuted : exists d d', abi_ d = X32 /\ py_set_syscall Amd64 true 39 d (-1) = Ok d' /\ syscall Amd64 d' = -1073741825.
Proof. exists (Debugger X32 (fun _ => 0) false (fun _ => 0) None), (Debugger X32 (put (fun _ => 0) (B "orig_rax") (unsigned 64 (Z.lor (-1) x32_bit))) true (fun _ => 0) None).
  split; [reflexivity|]. split; [reflexivity|vm_compute; reflexivity].
Qed.
Print Assumptions C81_x32_refuted.
(** When the program counts as started, so that its calls are policed from then on.  With seccomp:
    when the call at hand is execve of the judge's own interface. *)
Theorem C81_started_seccomp : forall b wide enter d, let d' := pre_syscall b (Some wide) d in let a := abi_ d' in sized a (real d) ->
  is_end_of_first_execve b true enter d' = true <-> agree 32 (real d (conv_call a)) (execve_number (native b) + mark a).
Proof. exact Proofs.Registers.started_seccomp. Qed.
Print Assumptions C81_started_seccomp.
(** Without: when execve returns zero, for programs of every interface but X32 (below). *)
Theorem C81_started : forall b wide enter d, let d' := pre_syscall b (Some wide) d in let a := abi_ d' in sized a (real d) -> b <> Aarch64 -> a <> X32 ->
  is_end_of_first_execve b false enter d' = true <->
  enter = false /\ agree 32 (real d (conv_call a)) (execve_left a) /\ real d (conv a Result) = 0.
Proof. exact Proofs.Registers.started_ptrace. Qed.
Print Assumptions C81_started.
(** An X32 program started without seccomp never counts as started by its execve: the number Linux
    leaves is that of X32's execve, which is not the one looked for. *)
Theorem C81_started_x32_refuted : forall d r, let d' := pre_syscall Amd64 (Some true) d in
  real d = r -> r (B "orig_rax") = execve_left X32 + mark X32 ->
  abi_ d' = X32 /\ syscall Amd64 d' = execve_number X32 /\ is_end_of_first_execve Amd64 false false d' = false.
Proof. exact Proofs.Registers.started_x32. Qed.
Print Assumptions C81_started_x32_refuted.
(** On AArch64 without seccomp a process counts as started whatever its last call returned. *)
Theorem C81_started_refuted : exists d, abi_ d = ARM64 /\ held d (conv ARM64 Result) <> 0 /\ is_end_of_first_execve Aarch64 false false d = true.
Proof. exists (Debugger ARM64 (fun n => if beqb n (B "x0") then 5 else 0) false (fun _ => 0) None). split; [reflexivity|]. split; [vm_compute; discriminate|vm_compute; reflexivity]. Qed.
Print Assumptions C81_started_refuted.

(** An x64 process in openat(AT_FDCWD, ...), a 32-bit one, and an X32 one. *)
Definition sample : regs := fun n =>
  if beqb n (B "orig_rax") then 257 else if beqb n (B "rdi") then 2 ^ 64 - 100 else if beqb n (B "rsi") then 4096 else 0.
Definition sample32 : regs := fun n => if beqb n (B "orig_eax") then 295 else if beqb n (B "ebx") then 2 ^ 32 - 100 else 0.
Definition at_stop (r : regs) : debugger := Debugger NoAbi (fun _ => 0) false r None.
Example C81_ex_reads : let d := pre_syscall Amd64 (Some true) (at_stop sample) in let e := pre_syscall Amd64 (Some false) (at_stop sample32) in
  abi_ d = X64 /\ syscall Amd64 d = 257 /\ py_get Amd64 d Arg0 = -100 /\ py_uget Amd64 d Arg1 = 4096 /\
  abi_ e = X86 /\ syscall Amd64 e = 295 /\ py_get Amd64 e Arg0 = 4294967196.
Proof. vm_compute. repeat split. Qed.
Example C81_ex_entering : entering X64 sample /\ entering X86 sample32.
Proof.
  split; (split; [intros n|discriminate]); unfold sample, sample32; cbn [reg_bits];
    repeat match goal with |- context [beqb ?n ?k] => destruct (beqb n k) end; split; vm_compute; congruence.
Qed.
Example C81_ex_refused : match refuse Amd64 13 true (at_stop sample) with
  | Some d => real d (B "rax") = 2 ^ 64 - 13 /\ real d (B "orig_rax") = 2 ^ 64 - 1 /\ real d (B "rsi") = 4096
  | None => False
  end.
Proof. vm_compute. repeat split. Qed.
(** The stop after execve of an x64, a 32-bit and an X32 program. *)
Definition execed (k : list N) (v : Z) : debugger := at_stop (fun n => if beqb n k then v else 0).
Example C81_ex_started : let f s b w d := is_end_of_first_execve b s false (pre_syscall b (Some w) d) in
  f false Amd64 true (execed (B "orig_rax") 59) = true /\ f false Amd64 false (execed (B "orig_eax") 11) = true
  /\ f false Amd64 true (execed (B "orig_rax") (520 + x32_bit)) = false /\ f true Aarch64 true (execed (B "x8") 221) = true
  /\ f true I386 false (execed (B "orig_eax") 11) = true /\ f false Arm32 false (execed (B "r7") 0) = true.
Proof. vm_compute. repeat split. Qed.
