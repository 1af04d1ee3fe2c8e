(** The tools that turn a source into a program: what the executors of compiled languages write
    to disk, the command lines they use, how a compiler is started and what is read from it
    (dmoj/executors/compiled_executor.py:134-218, the executors named below, mixins.py:142-160),
    and the assembler executors (asm_executor.py). *)
From Coq Require Import String.
From Verif Require Import Model.Bytes Model.Executors Model.Feedback Model.Sources Model.Paths.
Local Open Scope nat_scope.
Local Open Scope list_scope.

(** ** The languages whose executor is a CompiledExecutor of its own (not gcc, java or assembler) *)
Inductive lang := CBL | D | DART | GO | HASK | ICK | MONOCS | MONOFS | MONOVB | OCAML | PAS | PYTHON | RKT | RUST
                | SBCL | SCM | SWIFT | TUR | ZIG.
(** the class attribute ext of each *)
Definition ext (l : lang) : bytes :=
  match l with
  | CBL => B "cbl" | D => B "d" | DART => B "dart" | GO => B "go" | HASK => B "hs" | ICK => B "i"
  | MONOCS => B "cs" | MONOFS => B "fs" | MONOVB => B "vb" | OCAML => B "ml" | PAS => B "pas" | PYTHON => B "py"
  | RKT => B "rkt" | RUST => B "rs" | SBCL => B "cl" | SCM => B "scm" | SWIFT => B "swift" | TUR => B "t" | ZIG => B "zig"
  end.
(** base_executor.py:36 source_filename_format; D.py:16 *)
Definition source_name (l : lang) (problem : bytes) : bytes :=
  match l with D => B "main" | _ => problem end ++ B "." ++ ext l.

(** An executor's instance.  [command]: get_command(); [tool k]: runtime_dict[k]. *)
Record instance := Instance {
  dir : bytes; problem : bytes; source : bytes; unbuffered : bool; command : bytes; tool : bytes -> bytes;
  offline : bool (* DMOJ_CARGO_OFFLINE *); test_name : bytes; memory : N (* KB *) }.
(** base_executor.py:78-83 *)
Definition file (i : instance) (name : bytes) : bytes := join (dir i) name.
(** self._code, compiled_executor.py:135 *)
Definition code (l : lang) (i : instance) : bytes := file i (source_name l (problem i)).

(** ** The files *)
Fixpoint replace_crlf (s : bytes) : bytes :=
  match s with
  | [] => []
  | c :: r => match r with
              | d :: r' => if (c =? CR)%N && (d =? LF)%N then CR :: replace_crlf r' else c :: replace_crlf r
              | [] => [c]
              end
  end.
(** ZIG.py:26: .replace(b'\r\n', b'\r').replace(b'\r', b'\n') *)
Definition zig_cleanup (s : bytes) : bytes := map (fun c => if (c =? CR)%N then LF else c) (replace_crlf s).
Definition bom : bytes := [239; 187; 191]%N.
(** python_executor.py:11-23 *)
Definition nl : bytes := [LF].
Definition loader_script : bytes :=
  B "import runpy, sys, os" ++ nl ++ B "del sys.argv[0]" ++ nl ++ B "sys.stdin = os.fdopen(0, 'r', 65536)" ++ nl
  ++ B "sys.stdout = os.fdopen(1, 'w', 65536)" ++ nl ++ B "runpy.run_path(sys.argv[0], run_name='__main__')" ++ nl.
Definition unbuffered_loader_script : bytes :=
  B "import runpy, sys" ++ nl ++ B "del sys.argv[0]" ++ nl ++ B "runpy.run_path(sys.argv[0], run_name='__main__')" ++ nl.
(** RUST.py:6-14 *)
Definition cargo_toml : bytes :=
  B "[package]" ++ nl ++ B "name = ""user_submission""" ++ nl ++ B "version = ""1.0.0""" ++ nl ++ nl
  ++ B "[dependencies]" ++ nl ++ B "dmoj = ""0.1""" ++ nl ++ B "rand = ""0.3""" ++ nl.
Inductive created := Written (files : list (bytes * bytes)) | Refused (message : bytes).
(** create_files: compiled_executor.py:134-137; GO.py:54-58, ZIG.py:23-27, python_executor.py:37-46 and
    RUST.py:81-90 ([lock] stands for CARGO_LOCK).  The last file written under a name counts. *)
Definition create_files (l : lang) (lock : bytes) (i : instance) : created :=
  match l with
  | GO => if go_accepts (source i) then Written [(code l i, source i)]
          else Refused (B "Your code must be defined in package main." ++ nl)
  | ZIG => Written [(code l i, zig_cleanup (source i))]
  | PYTHON => Written [(code l i, bom ++ source i);
                       (file i (B "-loader.py"), if unbuffered i then unbuffered_loader_script else loader_script)]
  | RUST => Written [(file i (B "src/main.rs"), source i); (file i (B "Cargo.toml"), cargo_toml); (file i (B "Cargo.lock"), lock)]
  | _ => Written [(code l i, source i)]
  end.

(** ** The command lines *)
(** get_compiled_file: compiled_executor.py:237-238, mono_executor.py:57-58, RUST.py:102-103 *)
Definition compiled_file (l : lang) (i : instance) : bytes :=
  match l with
  | MONOCS | MONOFS | MONOVB => file i (problem i ++ B ".exe")
  | RUST => file i (B "target/release/user_submission")
  | _ => file i (problem i)
  end.
(** os_ext.py:51-53; the five words and what lower() makes them are ASCII *)
Definition lower (s : bytes) : bytes := map (fun c => if (65 <=? c)%N && (c <=? 90)%N then (c + 32)%N else c) s.
Definition bool_env (value : option bytes) : bool :=
  let v := lower (match value with Some v => v | None => [] end) in
  existsb (beqb v) [B "true"; B "yes"; B "1"; B "y"; B "t"].
(** os.path.dirname *)
Definition dirname (p : bytes) : bytes :=
  let fix cut (s : bytes) := match s with [] => [] | c :: r => if is_slash c then s else cut r end in
  let head := cut (rev p) in
  let fix strip (s : bytes) := match s with [] => [] | c :: r => if is_slash c then strip r else s end in
  match strip head with [] => rev head | t => rev t end.
(** get_compile_args of each executor; ICK.py:31-36 *)
Definition compile_args (l : lang) (i : instance) : list bytes :=
  match l with
  | CBL => [command i; B "-x"; B "-free"; code l i]
  | D => [command i; B "-O"; B "-inline"; B "-release"; B "-w"; code l i; B "-of" ++ problem i]
  | DART => [command i; B "--snapshot=" ++ compiled_file l i; code l i]
  | GO => [command i; B "build"; code l i]
  | HASK => [command i; B "-O2"; B "-o"; problem i; code l i]
  | ICK => command i :: (if beqb (problem i) (test_name i) then [B "-b"] else []) ++ [B "-O"; code l i]
  | MONOCS => [command i; code l i; B "-r:System.Numerics.dll"; B "-out:" ++ compiled_file l i]
  | MONOFS => [command i; B "--nologo"; B "--optimize"; B "--tailcalls"; B "--out:" ++ compiled_file l i; code l i]
  | MONOVB => [command i; B "/nologo"; B "/quiet"; B "/optimize+"; B "/out:" ++ compiled_file l i; code l i]
  | OCAML => [tool i (B "ocamlfind"); B "opt"; B "-package"; B "str"; B "-package"; B "base"; B "-package"; B "core";
              B "-package"; B "stdio"; B "-package"; B "zarith"; B "-thread"; B "-linkpkg"; code l i; B "-o"; problem i]
  | PAS => [command i; B "-Fe/dev/stderr"; B "-So"; B "-O2"; code l i]
  | PYTHON => [command i; B "-m"; B "compileall"; B "-q"; dir i]
  | RKT => [tool i (B "raco"); B "make"; code l i]
  | RUST => [command i; B "build"; B "--release"] ++ (if offline i then [B "--offline"] else [])
  | SBCL => [command i; B "--eval"; B "(compile-file """ ++ code l i ++ B """)"; B "--quit"]
  | SCM | SWIFT => [command i; code l i]
  | TUR => [tool i (B "tprologc"); code l i; dirname (tool i (B "tprologc"))]
  | ZIG => [command i; B "build-exe"; code l i; B "--release-safe"; B "--name"; problem i]
  end.
(** decimal digits, for str of an integer *)
Fixpoint dec_digits (fuel : nat) (n : N) : bytes :=
  match fuel with
  | O => []
  | S f => (if (n <? 10)%N then [] else dec_digits f (n / 10)%N) ++ [(48 + n mod 10)%N]
  end.
Definition decimal (n : N) : bytes := dec_digits (S (N.to_nat (N.log2 n))) n.
(** get_cmdline, get_executable: compiled_executor.py:255-260 and the overrides.  SBCL.py:30: int(memory / 1024.0 + 1) *)
Definition run_args (l : lang) (i : instance) : list bytes :=
  match l with
  | DART => [command i; compiled_file l i]
  | MONOCS | MONOFS | MONOVB => [B "mono"; compiled_file l i]
  | PYTHON => [command i; B "-BS" ++ (if unbuffered i then B "u" else []); file i (B "-loader.py"); code l i]
  | RKT => [command i; code l i]
  | SBCL => [command i; B "--dynamic-space-size"; decimal (memory i / 1024 + 1); B "--noinform"; B "--no-sysinit";
             B "--no-userinit"; B "--load"; problem i ++ B ".fasl"; B "--quit"; B "--end-toplevel-options"]
  | TUR => [tool i (B "tprolog"); code l i ++ B "bc"]
  | _ => [problem i]
  end.
Definition run_executable (l : lang) (i : instance) : bytes :=
  match l with
  | DART | PYTHON | RKT | SBCL | TUR => command i
  | MONOCS | MONOFS | MONOVB => tool i (B "mono")
  | _ => compiled_file l i
  end.

(** ** Starting a compiler, compiled_executor.py:171-218 *)
Definition dict := list (bytes * bytes).
Fixpoint put (k v : bytes) (d : dict) : dict :=
  match d with
  | [] => [(k, v)]
  | (k', v') :: r => if beqb k k' then (k', v) :: r else (k', v') :: put k v r
  end.
(** get_compile_env: compiled_executor.py:142-143; GO.py:38-45 *)
Definition own_env (l : lang) (i : instance) : option dict :=
  match l with
  | GO => Some [(B "CGO_ENABLED", B "0"); (B "GOCACHE", join (dir i) (B ".cache"))]
  | _ => None
  end.
(** compiled_executor.py:179-180: an empty dictionary counts as none *)
Definition compile_env (own : option dict) (environ : dict) : dict :=
  put (B "TERM") (B "xterm") (match own with Some (e :: r) => e :: r | _ => environ end).

(** Where a standard stream of the compiler is connected. *)
Inductive stream := Pty | Pipe | DevNull | AsStdout.
Record kwargs := Kwargs { k_stdout : option stream; k_stderr : option stream; k_executable : option bytes }.
Definition no_kwargs : kwargs := Kwargs None None None.
(** get_compile_popen_kwargs: compiled_executor.py:145-146, CBL.py:23-24, MONOVB.py:25-26, java_executor.py:
    {'executable': compiler} *)
Inductive maker := Plain (* most *) | Merged (* CBL, MONOVB *) | Java (compiler : bytes).
Definition own_kwargs (m : maker) : kwargs :=
  match m with Plain => no_kwargs | Merged => Kwargs (Some Pipe) (Some AsStdout) None | Java c => Kwargs None None (Some c) end.
(** NullStdoutMixin, mixins.py:157-160 *)
Definition null_stdout (k : kwargs) : kwargs := Kwargs (Some DevNull) (k_stderr k) (k_executable k).
Definition popen_kwargs (m : maker) (quiet : bool) : kwargs :=
  if quiet then null_stdout (own_kwargs m) else own_kwargs m.
(** The classes: HASK, PAS and SBCL have the mixin themselves. *)
Definition maker_of (l : lang) : maker := match l with CBL | MONOVB => Merged | _ => Plain end.
Definition quiet_class (l : lang) : bool := match l with HASK | PAS | SBCL => true | _ => false end.
(** compile_output_index: compiled_executor.py:118, CBL.py:11, MONOVB.py:10 *)
Definition output_index (m : maker) : nat := match m with Merged => 0 | _ => 1 end.

Record started := Started {
  s_args : list bytes; s_executable : option bytes; s_cwd : bytes; s_env : dict; s_time : option N;
  s_stdin : stream; s_stdout : stream; s_stderr : stream }.
Definition or_else {A} (o : option A) (d : A) : A := match o with Some x => x | None => d end.
(** compiled_executor.py:182-194 *)
Definition create_compile_process (args : list bytes) (dir : bytes) (own : option dict) (environ : dict) (limit : option N)
    (k : kwargs) : started :=
  Started args (k_executable k) dir (compile_env own environ) limit Pty (or_else (k_stdout k) Pty) (or_else (k_stderr k) Pty).
(** compiler_time_limit: compiled_executor.py:117; MONOFS.py:8, RUST.py:79 *)
Definition time_limit (l : lang) (configured : option N) : option N :=
  match l with MONOFS | RUST => Some 20%N | _ => configured end.

(** What the compiler writes: pieces on standard output or standard error, in the order written. *)
Inductive channel := Out | Err.
Definition connected (s : started) (c : channel) : stream :=
  match c with
  | Out => s_stdout s
  | Err => match s_stderr s with AsStdout => s_stdout s | x => x end
  end.
(** The kernel's terminal (a new pseudo-terminal has OPOST and ONLCR set): a newline written by the
    program is read as carriage return and newline. *)
Definition onlcr (s : bytes) : bytes := flat_map (fun c => if (c =? LF)%N then [CR; LF] else [c]) s.
Definition is_stream (a b : stream) : bool :=
  match a, b with Pty, Pty | Pipe, Pipe | DevNull, DevNull | AsStdout, AsStdout => true | _, _ => false end.
Definition arrives (s : started) (at_ : stream) (w : list (channel * bytes)) : bytes :=
  concat (map snd (filter (fun p => is_stream (connected s (fst p)) at_) w)).
(** safe_communicate (see Communicate.v): b'' for a stream that is not a pipe; proc.stderr is the
    terminal's other end, compiled_executor.py:196-218.  get_compile_output: 226 *)
Definition read_output (s : started) (index : nat) (w : list (channel * bytes)) : bytes :=
  match index with
  | O => match s_stdout s with Pipe => arrives s Pipe w | _ => [] end
  | _ => onlcr (arrives s Pty w)
  end.

(** ** What is shown of a successful compiler's output *)
Fixpoint prefix (p s : bytes) : bool :=
  match p, s with
  | [], _ => true
  | a :: p', b :: s' => (a =? b)%N && prefix p' s'
  | _, [] => false
  end.
Fixpoint contains (p s : bytes) : bool :=
  prefix p s || match s with [] => false | _ :: r => contains p r end.
(** PAS.py:20-22, CBL.py:26-33; otherwise all of it, compiled_executor.py:251 *)
Definition warning (l : lang) (output : bytes) : bytes :=
  match l with
  | PAS => if contains (B "Fatal:") output || contains (B "Warning:") output || contains (B "Note:") output then output else []
  | CBL => if existsb (fun p => contains p output || contains (lower p) output) [B "Error:"; B "Note:"; B "Warning:"]
           then output else []
  | _ => output
  end.

(** ** The compiler's limits and its process group, compiled_executor.py:148-169, os_ext.py:8-20 *)
Record process := Process { pid : N; group : N; oom : Z; fsize : option (N * N) }.
Definition OOM_SCORE_ADJ_MAX : Z := 1000.
Definition oom_score_adj (writable : bool) (score : Z) (p : process) : option process :=
  if (-1000 <=? score)%Z && (score <=? 1000)%Z && writable then Some (Process (pid p) (group p) score (fsize p)) else None.
Definition executable_size (compiler_size_limit : N) : N := (compiler_size_limit * 1024)%N.
Definition limit_executable (size : N) (writable : bool) (p : process) : process :=
  let p1 := Process (pid p) (pid p) (oom p) (fsize p) in
  let p2 := or_else (oom_score_adj writable OOM_SCORE_ADJ_MAX p1) p1 in
  Process (pid p2) (group p2) (oom p2) (Some (size, size)).
(** fork: the child inherits the rest (kernel) *)
Definition fork (child : N) (p : process) : process := Process child (group p) (oom p) (fsize p).
(** os.killpg, compiled_executor.py:107 *)
Definition killpg (g : N) (l : list process) : list process := filter (fun p => negb (group p =? g)%N) l.

(** ** Assemblers: asm_executor.py *)
Section Features.
  (** \w and \s on characters outside ASCII *)
  Variables word_beyond space_beyond : N -> bool.
  Definition aword (c : N) : bool := word word_beyond c.
  Definition aspace (c : N) : bool := jspace space_beyond c.
  Definition marker (c : N) : bool := existsb (N.eqb c) (B "#;@|!").
  Definition listed (c : N) : bool := aword c || aspace c || (c =? 44)%N.
  (** asm_executor.py:10 at one position: the whole text of group 1 and the blanks before it.  The
      blanks that the group gives back, when nothing else follows, change no feature. *)
  Definition features_here (s : list N) : option (list N) :=
    match s with
    | c :: r =>
        if marker c then
          match after (B "features:") (snd (span aspace r)) with
          | Some t => match fst (span listed t) with [] => None | g => Some g end
          | None => None
          end
        else None
    | [] => None
    end.
  (** refeatures.search: at the start of each line, asm_executor.py:34-38 *)
  Fixpoint features_search (at_line_start : bool) (s : list N) : option (list N) :=
    match (if at_line_start then features_here s else None) with
    | Some g => Some g
    | None => match s with [] => None | c :: r => features_search (c =? LF)%N r end
    end.
  Definition find_features (s : list N) : list (list N) :=
    match features_search true s with
    | Some g => filter_none (re_split (fun c => aspace c || (c =? 44)%N) g)
    | None => []
    end.
  (** asm_executor.py:147-151 *)
  Definition nasm_features (s : list N) : list (list N) :=
    (if prefix (B "; libc") s then [B "libc"] else []) ++ find_features s.
End Features.

(** A platform: asm_executor.py:167-195, GASARM.py *)
Record platform := Platform { ld_m : bytes; dynamic_linker : bytes; crt_pre : list bytes; crt_post : list bytes }.
Inductive assembler := Gas (flag : option bytes) (* as_platform_flag *) | Nasm (format : bytes).
(** os.path.basename *)
Definition basename (f : bytes) : bytes := fold_left (fun acc c => if (c =? 47)%N then [] else acc ++ [c]) f [].
(** get_as_args, asm_executor.py:126-130 and 153-154 *)
Definition as_args (a : assembler) (as_path object code : bytes) : list bytes :=
  match a with
  | Gas flag => [as_path; B "-o"; object; code]
                ++ (if beqb (basename as_path) (B "as") then match flag with Some (c :: r) => [c :: r] | _ => [] end else [])
  | Nasm format => [as_path; B "-f"; format; code; B "-o"; object]
  end.
(** asm_executor.py:57-64 *)
Definition ld_args (p : platform) (ld_path executable object : bytes) (features : list (list N)) : list bytes :=
  [ld_path; B "-s"; B "-o"; executable; B "-m"; ld_m p]
  ++ (if existsb (beqb (B "libc")) features
      then [B "-dynamic-linker"; dynamic_linker p] ++ crt_pre p ++ [B "-lc"] ++ [object] ++ crt_post p
      else [object]).
(** One run of a tool: what it prints, and whether it succeeds (get_compile_output raises otherwise). *)
Inductive tool_result := Succeeds (output : bytes) | Fails (message : bytes).
Inductive asm_result := Built (executable : bytes) (warning : option bytes) | Error (message : bytes).
(** compile and assemble, asm_executor.py:51-70; [run] is what a command line does; the commands run *)
Section Assemble.
  Variable run : list bytes -> tool_result.
  Variable a : assembler.
  Variable p : platform.
  Variables as_path ld_path dir problem code : bytes.
  Variable features : list (list N).
  Definition object_file : bytes := join dir (problem ++ B ".o").
  Definition executable_file : bytes := join dir problem.
  Definition compile_asm : asm_result * list (list bytes) :=
    let ac := as_args a as_path object_file code in
    match run ac with
    | Fails m => (Error m, [ac])
    | Succeeds as_output =>
        let lc := ld_args p ld_path executable_file object_file features in
        match run lc with
        | Fails m => (Error m, [ac; lc])
        | Succeeds ld_output =>
            (Built executable_file
               (match as_output, ld_output with [], [] => None | _, _ => Some (py_strip (as_output ++ nl ++ ld_output)) end),
             [ac; lc])
        end
    end.
End Assemble.
(** The source: the constructor adds a newline for itself (asm_executor.py:28-32), but the file is written by
    create_files with the constructor's own arguments (compiled_executor.py:63): self.source, and the file *)
Definition asm_source (given : bytes) : bytes * bytes := (given ++ nl, given).

(** get_cmdline and get_executable, asm_executor.py:72-80: [qemu] is set when qemu_path is a file (29) *)
Definition asm_cmdline (qemu : option bytes) (executable problem : bytes) : list bytes :=
  match qemu with Some q => [q; executable] | None => [problem] end.
Definition asm_executable (qemu : option bytes) (executable : bytes) : bytes :=
  match qemu with Some q => q | None => executable end.
(** get_address_grace, asm_executor.py:88-92 *)
Definition asm_grace (qemu : option bytes) (own : N) : N := match qemu with Some _ => (own + 65536)%N | None => own end.
(** initialize, asm_executor.py:95-108; [as_path], [ld_path]: the configuration has them *)
Definition asm_initialize (qemu_path : option bytes) (can_debug : bool) (as_path ld_path : option bytes)
    (linker : option bytes) (pre post : option (list bytes)) (isfile : bytes -> bool) (skip test : bool) : bool :=
  if match qemu_path with None => negb can_debug | Some _ => false end then false
  else match as_path, ld_path, linker, pre, post with
       | Some a, Some l, Some d, Some pr, Some po =>
           if existsb (fun f => negb (isfile f)) [a; l; d] then false
           else if existsb (fun f => negb (isfile f)) pr || existsb (fun f => negb (isfile f)) po then false
           else skip || test
       | _, _, _, _, _ => false
       end.
