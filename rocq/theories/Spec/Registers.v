(** Linux's calling conventions, and what reading and writing registers should come to. *)
From Coq Require Import String ZArith.
From Verif Require Import Model.Bytes Model.Registers.
Local Open Scope list_scope.
Local Open Scope Z_scope.

(** syscall(2): where each interface keeps the number of the call, its arguments and its result.
    (On ARM the kernel keeps a copy of the first argument in [orig_r0].) *)
Definition conv_call (a : abi) : list N :=
  match a with X86 => B "orig_eax" | X64 | X32 => B "orig_rax" | ARM64 => B "x8" | _ => B "r7" end.
Definition conv (a : abi) (x : accessor) : list N :=
  match a with
  | X86 => match x with Result => B "eax" | Arg0 => B "ebx" | Arg1 => B "ecx" | Arg2 => B "edx" | Arg3 => B "esi" | Arg4 => B "edi" | Arg5 => B "ebp" end
  | X64 | X32 => match x with Result => B "rax" | Arg0 => B "rdi" | Arg1 => B "rsi" | Arg2 => B "rdx" | Arg3 => B "r10" | Arg4 => B "r8" | Arg5 => B "r9" end
  | ARM64 => match x with Result => B "x0" | Arg0 => B "x0" | Arg1 => B "x1" | Arg2 => B "x2" | Arg3 => B "x3" | Arg4 => B "x4" | Arg5 => B "x5" end
  | _ => match x with Result => B "r0" | Arg0 => B "r0" | Arg1 => B "r1" | Arg2 => B "r2" | Arg3 => B "r3" | Arg4 => B "r4" | Arg5 => B "r5" end
  end.
(** Registers of a process that enters a call: each has its width, and on ARM the copy is fresh. *)
Definition sized (a : abi) (r : regs) : Prop := forall n, 0 <= r n < 2 ^ reg_bits a.
Definition entering (a : abi) (r : regs) : Prop := sized a r /\ (a = ARM -> r (B "orig_r0") = r (B "r0")).

(** The accessors that do what their name says: all, but for the sixth argument on i386 and the
    result on AArch64. *)
Definition sound (b : build) (x : accessor) : Prop :=
  match b, x with I386, Arg5 => False | Aarch64, Result => False | _, _ => True end.

(** [v] and [w] agree in the low [bits] bits. *)
Definition agree (bits v w : Z) : Prop := (v - w) mod 2 ^ bits = 0.

(** The register a use changes and its new value, on an x86 judge looking at interface [a]. *)
Inductive changes (b : build) (a : abi) (seccomp : bool) (noop : Z) : use -> list N -> Z -> Prop :=
| ch_write : forall x v n, sound b x -> - 2 ^ (long_bits b - 1) <= v < 2 ^ (long_bits b - 1) -> n = conv a x ->
    changes b a seccomp noop (Write x v) n (v mod 2 ^ reg_bits a)
| ch_uwrite : forall x v n, sound b x -> 0 <= v < 2 ^ long_bits b -> n = conv a x ->
    changes b a seccomp noop (UWrite x v) n (v mod 2 ^ reg_bits a)
| ch_call : forall v v' n, - 2 ^ 31 <= v < 2 ^ 31 -> v' = (if seccomp then v else if v =? -1 then noop else v) -> n = conv_call a ->
    changes b a seccomp noop (WriteCall v) n ((match a with X32 => Z.lor v' x32_bit | _ => v' end) mod 2 ^ reg_bits a).
(** The value of register [n] after the uses [l]: that of the last one to change it. *)
Inductive final (ch : use -> list N -> Z -> Prop) (n : list N) (old : Z) : list use -> Z -> Prop :=
| f_none : final ch n old [] old
| f_change : forall l u v w, final ch n old l w -> ch u n v -> final ch n old (l ++ [u]) v
| f_keep : forall l u w, final ch n old l w -> (forall v, ~ ch u n v) -> final ch n old (l ++ [u]) w.

(** The number of execve (unistd.h of each interface), and the one left where the number is kept
    once execve has replaced the program: Linux puts the number of the new program's interface
    there on x86, and clears the registers on ARM. *)
Definition execve_number (a : abi) : Z := match a with X64 => 59 | X32 => 520 | ARM64 => 221 | _ => 11 end.
Definition execve_left (a : abi) : Z := match a with ARM | ARM64 => 0 | _ => execve_number a end.
(** The interface of the judge itself. *)
Definition native (b : build) : abi := match b with Amd64 => X64 | I386 => X86 | Arm32 => ARM | Aarch64 => ARM64 end.
Definition mark (a : abi) : Z := match a with X32 => x32_bit | _ => 0 end.
