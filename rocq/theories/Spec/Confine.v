(** What the kernel executes for a sandboxed program, and which files that concerns. *)
From Coq Require Import String.
From Verif Require Import Model.Bytes Model.Paths Model.Regex Model.Access Model.SyscallTables Model.Tracer Model.Monitor Model.Policies
  Model.FileRules Model.Confine Spec.Regex Spec.Access Spec.Tracer Spec.Policies Spec.FileRules.
From Verif Require Spec.Paths.
Local Open Scope list_scope.

(** ** The kernel's side *)
(** Things that happen to the program's threads: a thread makes a call ([seen]: its registers, memory and directories while it is stopped;
    [kept]: what the kernel finds there when it executes the call; [ok]: registers can be written), or something else stops it. *)
Inductive happening :=
| Call (tid : N) (e : entry) (seen kept : debugger) (ok : bool)
| Stop (tid : N) (st : stop).
(** Calls the kernel executes. *)
Record executed := Executed { x_abi : nat; x_nr : Z; x_view : debugger }.
Section Kernel.
  Variable tabs : tables own_handler.
  Variable allowed : list (option (list N)).
  Variable getpid : nat -> Z.
  Variable filter : N -> bool.             (* the calls the seccomp filter lets through, by their 64-bit numbers *)
  Definition registers (e : entry) (d : debugger) : regs :=
    {| r_abi := fst (monitor_sees e); r_nr := snd (monitor_sees e); r_arg0 := arg0 d; r_result := (-38)%Z |}.
  (** A resumed thread executes the call it stopped in, or the one written over it. *)
  Definition resumed (e : entry) (kept : debugger) (tid : N) (a : action) : list executed :=
    match a with
    | Go t set _ => if (t =? tid)%N then
                      match set with
                      | None => [Executed (fst (executes e)) (snd (executes e)) kept]
                      | Some r => [Executed (r_abi r) (r_nr r) kept]
                      end
                    else []
    | _ => []
    end.
  Definition kernel_step (b : box) (h : happening) : box * list executed :=
    match h with
    | Call tid e seen kept ok =>
        let (abi, nr) := executes e in
        if (abi =? X64) && (0 <=? nr)%Z && filter (Z.to_N nr) then (b, [Executed abi nr kept])
        else let (b', acts) := box_step tabs allowed getpid b tid (CallStop (Got (registers e seen)) ok) seen in
             (b', flat_map (resumed e kept tid) acts)
    | Stop tid st => match st with
                     | CallStop (Got _) _ => (b, [])
                     | _ => (fst (box_step tabs allowed getpid b tid st
                                   {| pid := tid; uarg := fun _ => 0%N; arg0 := 0; readstr := fun _ => NoStr; cwd := []; fds := fun _ => None |}), [])
                     end
    end.
  Fixpoint kernel_run (b : box) (l : list happening) : box * list executed :=
    match l with
    | [] => (b, [])
    | h :: r => let (b1, x1) := kernel_step b h in let (b2, x2) := kernel_run b1 r in (b2, x1 ++ x2)
    end.
  (** The calls executed after the execve [h]. *)
  Definition ran (b : box) (before : list happening) (h : happening) (after : list happening) : list executed :=
    snd (kernel_run (fst (kernel_step (fst (kernel_run b before)) h)) after).
End Kernel.

(** No thread changes another's arguments between the check and the call; 64-bit code does not use the 32-bit entry. *)
Definition steady (h : happening) : Prop :=
  match h with Call _ e seen kept _ => kept = seen /\ (forall rax, e <> Int80_from64 rax) | Stop _ _ => True end.
(** The program's first execve. *)
Definition execs (h : happening) : Prop := match h with Call _ e _ _ _ => e = Syscall64 59 | Stop _ _ => False end.

(** ** A program of a language in its sandbox *)
Definition sandboxed (lang : string) (own : list (string * hval own_handler)) (pl : place) (extra : list (list N)) (supported : list nat)
    (tabs : tables own_handler) (filter : N -> bool) : Prop :=
  In (lang, own) executors /\ (forall a, In a supported -> linux a) /\ In X64 supported
  /\ (exists sec, security_of syscalls (policy_with own) = Some sec /\ build syscalls sec supported = Some tabs /\ whitelist syscalls sec X64 = Some filter)
  /\ tame_place pl /\ (In lang jvms -> dotted (directory pl)) /\ (forall p, Forall (rule_ok p) extra).

(** ** Files *)
(** In a tree without symbolic links, a call names the file [q]. *)
Definition names_file (is_dir : Spec.Paths.place -> bool) (d : debugger) (c : handled) (q : Spec.Paths.place) : Prop :=
  exists path dir, path_of d c = Str path /\ Forall Spec.Paths.name_ok dir
    /\ (((dir_of d c) mod 2 ^ 32 = 2 ^ 32 - 100)%Z /\ cwd d = Spec.Paths.spelled dir
        \/ exists n, (- 2 ^ 31 <= n < 2 ^ 31)%Z /\ (n mod 2 ^ 32 = dir_of d c mod 2 ^ 32)%Z /\ n <> (-100)%Z /\ fds d n = Some (Spec.Paths.spelled dir))
    /\ Spec.Paths.Denotes is_dir (fun _ => None) dir path q.
Definition readable (lang : string) (pl : place) (extra : list (list N)) (p : N) (path : list N) : Prop :=
  base_readable (decimal p) path \/ below (directory pl) path \/ language_readable lang pl path
  \/ exists rule, In rule extra /\ covers p rule path.
Definition writable (lang : string) (pl : place) (path : list N) : Prop :=
  (exists w, In w [B "/dev/stdout"; B "/dev/stderr"; B "/dev/null"] /\ exactly w path)
  \/ (In lang jvms /\ begins_like (directory pl ++ B "/submission_jvm_crash.log") path).
(** The calls with a path that are let through without a check of the path (C75). *)
Definition unchecked (lang name : string) : Prop :=
  In name ["statfs"; "statfs64"]%string \/ (lang = "COFFEE" /\ name = "statx")%string \/ (lang = "TCL" /\ name = "access")%string.
