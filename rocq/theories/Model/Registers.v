(** Reading and changing the registers of a stopped process: dmoj/cptbox/ptdebug_x64.cpp,
    ptdebug_x86.cpp, ptdebug_arm.cpp, ptdebug_arm64.cpp, ptdebug.cpp (pre_syscall and
    post_syscall), the Debugger class of _cptbox.pyx and handlers.py.  FreeBSD is left out. *)
From Coq Require Import String ZArith.
From Verif Require Import Model.Bytes.
Local Open Scope list_scope.
Local Open Scope Z_scope.

(** The machine the judge was built for, and the interface a call is made through
    (ptbox.h:53-62). *)
Inductive build := Amd64 | I386 | Arm32 | Aarch64.
Inductive abi := X86 | X64 | X32 | ARM | ARM64 | NoAbi.
(** ptdebug_x64.cpp:13-21, ptdebug_x86.cpp:12-14, ptdebug_arm.cpp:12-14, ptdebug_arm64.cpp:15-22 *)
Definition supports_abi (b : build) (a : abi) : bool :=
  match b, a with
  | Amd64, X86 | Amd64, X64 | Amd64, X32 | I386, X86 | Arm32, ARM | Aarch64, ARM | Aarch64, ARM64 => true
  | _, _ => false
  end.

(** The width of C's long, and of the registers of an interface (the unions of ptdebug_x64.h:7-28 and
    ptdebug_arm64.h:6-28; the system's structures otherwise). *)
Definition long_bits (b : build) : Z := match b with Amd64 | Aarch64 => 64 | I386 | Arm32 => 32 end.
Definition reg_bits (a : abi) : Z := match a with X64 | X32 | ARM64 => 64 | _ => 32 end.
(** The registers by name.  Simplification: the two members of the unions are kept apart; one
    stop uses only one of them, except for telling X32 from X64. *)
Definition regs := list N -> Z.
Definition put (r : regs) (n : list N) (v : Z) : regs := fun m => if beqb m n then v else r m.

(** Conversions of C: to an unsigned and to a signed number of so many bits. *)
Definition unsigned (bits v : Z) : Z := v mod 2 ^ bits.
Definition signed (bits v : Z) : Z := let u := v mod 2 ^ bits in if u <? 2 ^ (bits - 1) then u else u - 2 ^ bits.

(** The macros of ptdebug_x64.cpp:79-116, ptdebug_x86.cpp:62-92, ptdebug_arm.cpp:51-84 and
    ptdebug_arm64.cpp:66-101. *)
Inductive accessor := Result | Arg0 | Arg1 | Arg2 | Arg3 | Arg4 | Arg5.
Definition register (b : build) (a : abi) (x : accessor) : option (list N) :=
  match b, a with
  | Amd64, X86 => Some match x with Result => B "eax" | Arg0 => B "ebx" | Arg1 => B "ecx" | Arg2 => B "edx" | Arg3 => B "esi" | Arg4 => B "edi" | Arg5 => B "ebp" end
  | Amd64, X64 | Amd64, X32 => Some match x with Result => B "rax" | Arg0 => B "rdi" | Arg1 => B "rsi" | Arg2 => B "rdx" | Arg3 => B "r10" | Arg4 => B "r8" | Arg5 => B "r9" end
  | I386, X86 => match x with Result => Some (B "eax") | Arg0 => Some (B "ebx") | Arg1 => Some (B "ecx") | Arg2 => Some (B "edx") | Arg3 => Some (B "esi") | Arg4 => Some (B "edi") | Arg5 => None end
  | Arm32, ARM => Some match x with Result => B "r0" | Arg0 => B "orig_r0" | Arg1 => B "r1" | Arg2 => B "r2" | Arg3 => B "r3" | Arg4 => B "r4" | Arg5 => B "r5" end
  | Aarch64, ARM => Some match x with Result => B "r7" | Arg0 => B "r0" | Arg1 => B "r1" | Arg2 => B "r2" | Arg3 => B "r3" | Arg4 => B "r4" | Arg5 => B "r5" end
  | Aarch64, ARM64 => Some match x with Result => B "x8" | Arg0 => B "x0" | Arg1 => B "x1" | Arg2 => B "x2" | Arg3 => B "x3" | Arg4 => B "x4" | Arg5 => B "x5" end
  | _, _ => None
  end.
(** The register with the call number: ptdebug_x64.cpp:43-76, ptdebug_x86.cpp:30-51,
    ptdebug_arm.cpp:30-40, ptdebug_arm64.cpp:37-48. *)
Definition call_register (b : build) (a : abi) : list N :=
  match b, a with
  | Amd64, X86 | I386, X86 => B "orig_eax"
  | Amd64, X64 | Amd64, X32 => B "orig_rax"
  | Aarch64, ARM64 => B "x8"
  | _, _ => B "r7"
  end.
(** __X32_SYSCALL_BIT *)
Definition x32_bit : Z := 1073741824.

(** ptbox.h:187-222, with the process it looks at: its registers as the kernel has them, and the
    number the kernel was told to use instead of the one in a register. *)
Record debugger := Debugger { abi_ : abi; held : regs; changed : bool; real : regs; told : option Z }.

Section Build.
  Variable b : build.

  (** ptdebug_x64.cpp:27-35, ptdebug_x86.cpp:20-22, ptdebug_arm.cpp:20-22, ptdebug_arm64.cpp:28-30;
      [wide] says that as many bytes were given as the wider interface has.  No process of an
      i386 or ARM system has another interface. *)
  Definition abi_from_reg_size (wide : bool) (r : regs) : abi :=
    match b with
    | Amd64 => if negb wide then X86 else if Z.testbit (r (B "orig_rax")) 30 then X32 else X64
    | I386 => X86
    | Arm32 => ARM
    | Aarch64 => if negb wide then ARM else ARM64
    end.
  (** ptdebug.cpp:59-85.  [wide] is [None] if the registers cannot be read. *)
  Definition pre_syscall (wide : option bool) (d : debugger) : debugger :=
    match wide with
    | None => Debugger NoAbi (held d) (changed d) (real d) (told d)
    | Some w => Debugger (abi_from_reg_size w (real d)) (real d) false (real d) (told d)
    end.
  (** ptdebug.cpp:87-110; [None] is the failed assertion.  Simplification: the write succeeds. *)
  Definition post_syscall (d : debugger) : option debugger :=
    match abi_ d with
    | NoAbi => None
    | _ => Some (if changed d then Debugger (abi_ d) (held d) (changed d) (held d) (told d) else d)
    end.

  (** The getters: what C's long makes of the register. *)
  Definition get (d : debugger) (x : accessor) : Z :=
    match abi_ d with
    | NoAbi => match b, x with I386, Arg5 => 0 | _, _ => -1 end
    | a => match register b a x with Some n => signed (long_bits b) (held d n) | None => 0 end
    end.
  Definition set (d : debugger) (x : accessor) (v : Z) : debugger :=
    match abi_ d with
    | NoAbi => match b, x with I386, Arg5 => d | _, _ => Debugger (abi_ d) (held d) true (real d) (told d) end
    | a => match register b a x with
           | Some n => Debugger a (put (held d) n (unsigned (reg_bits a) v)) true (real d) (told d)
           | None => d
           end
    end.
  (** The call number: [& ~__X32_SYSCALL_BIT] for X32. *)
  Definition syscall (d : debugger) : Z :=
    match abi_ d with
    | NoAbi => -1
    | X32 => signed 32 (Z.land (held d (call_register b X32)) (Z.lnot x32_bit))
    | a => signed 32 (held d (call_register b a))
    end.
  (** [None] is EINVAL.  On the ARMs the kernel is told at once. *)
  Definition set_syscall (d : debugger) (id : Z) : option debugger :=
    match b with
    | Arm32 | Aarch64 => Some (Debugger (abi_ d) (held d) (changed d) (real d) (Some id))
    | _ =>
        match abi_ d with
        | NoAbi => None
        | X32 => Some (Debugger X32 (put (held d) (call_register b X32) (unsigned 64 (Z.lor id x32_bit))) true (real d) (told d))
        | a => Some (Debugger a (put (held d) (call_register b a) (unsigned (reg_bits a) id)) true (real d) (told d))
        end
    end.

  (** ** _cptbox.pyx:221-356: what Python sees *)
  Inductive answer (A : Type) := Ok (a : A) | Overflow | OsError.
  Arguments Ok {A}. Arguments Overflow {A}. Arguments OsError {A}.
  Definition py_get (d : debugger) (x : accessor) : Z := get d x.
  Definition py_uget (d : debugger) (x : accessor) : Z := unsigned (long_bits b) (get d x).
  Definition py_set (d : debugger) (x : accessor) (v : Z) : answer debugger :=
    if (- 2 ^ (long_bits b - 1) <=? v) && (v <? 2 ^ (long_bits b - 1)) then Ok (set d x v) else Overflow.
  Definition py_uset (d : debugger) (x : accessor) (v : Z) : answer debugger :=
    if (0 <=? v) && (v <? 2 ^ long_bits b) then Ok (set d x (signed (long_bits b) v)) else Overflow.
  (** _cptbox.pyx:239-248; [noop] is the number of getpid. *)
  Definition py_set_syscall (seccomp : bool) (noop : Z) (d : debugger) (v : Z) : answer debugger :=
    if (- 2 ^ 31 <=? v) && (v <? 2 ^ 31) then
      match set_syscall d (if negb seccomp && (v =? -1) then noop else v) with
      | Some d' => Ok d'
      | None => OsError
      end
    else Overflow.

  (** What the handlers do with the registers between reading and writing them. *)
  Inductive use := Read (x : accessor) | Write (x : accessor) (v : Z) | UWrite (x : accessor) (v : Z) | ReadCall | WriteCall (v : Z).
  Definition used (seccomp : bool) (noop : Z) (d : debugger) (u : use) : debugger :=
    match u with
    | Read _ | ReadCall => d
    | Write x v => match py_set d x v with Ok d' => d' | _ => d end
    | UWrite x v => match py_uset d x v with Ok d' => d' | _ => d end
    | WriteCall v => match py_set_syscall seccomp noop d v with Ok d' => d' | _ => d end
    end.
  Definition uses (seccomp : bool) (noop : Z) (d : debugger) (l : list use) : debugger := fold_left (used seccomp noop) l d.
  (** One stop of the process: ptproc.cpp:196-294. *)
  Definition stop (seccomp : bool) (noop : Z) (wide : option bool) (l : list use) (d : debugger) : option debugger :=
    post_syscall (uses seccomp noop (pre_syscall wide d) l).

  (** handlers.py:9-18 with ptproc.cpp:282-288 in seccomp mode: the call is replaced and its result
      set in one stop. *)
  Definition refuse (code : Z) (wide : bool) (d : debugger) : option debugger :=
    stop true 0 (Some wide) [WriteCall (-1); Write Result (- code)] d.
  (** The same without seccomp: the call is replaced when it is entered, and the result set when
      it returns; [after] is what the kernel makes of the registers in between. *)
  Definition refuse_traced (code noop : Z) (wide : bool) (after : debugger -> debugger) (d : debugger) : option debugger :=
    match stop false noop (Some wide) [WriteCall (-1)] d with
    | Some d1 => stop false noop (Some wide) [Write Result (- code)] (after d1)
    | None => None
    end.

  (** ptdebug_x64.cpp:119-129, ptdebug_x86.cpp:93-99, ptdebug_arm.cpp:86-94, ptdebug_arm64.cpp:103-111 *)
  Definition is_end_of_first_execve (seccomp enter : bool) (d : debugger) : bool :=
    match b with
    | Amd64 =>
        if seccomp then syscall d =? 59
        else if enter then false
        else match abi_ d with X86 => (syscall d =? 11) && (get d Result =? 0) | _ => (syscall d =? 59) && (get d Result =? 0) end
    | I386 => if seccomp then syscall d =? 11 else negb enter && (syscall d =? 11) && (get d Result =? 0)
    | Arm32 => if seccomp then syscall d =? 11 else negb enter && (syscall d =? 0) && (get d Result =? 0)
    | Aarch64 => if seccomp then syscall d =? 221 else negb enter && (syscall d =? 0) && (get d Result =? 0)
    end.
End Build.
Arguments Ok {A}. Arguments Overflow {A}. Arguments OsError {A}.
