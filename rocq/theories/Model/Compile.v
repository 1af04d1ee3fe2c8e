(** Compiling: dmoj/executors/compiled_executor.py (TimedPopen, get_compile_output),
    gcc_executor.py (files and command line) and dmoj/utils/helper_files.py
    (compile_with_auxiliary_files) with its callers. *)
From Coq Require Import String.
From Verif Require Import Model.Bytes.
Local Open Scope nat_scope.
Local Open Scope list_scope.

(** ** One run of a compiler, compiled_executor.py:72-112 and 220-235

    The judge's thread talks to the compiler and then waits for it; the killer thread runs
    beside it if there is a time limit.  Time is a clock in any unit. *)
Inductive proc := Alive | Zombie (code : Z) (* ended, not reaped *) | Gone.
Inductive talk := Ended (output : bytes) | TooLong.                    (* safe_communicate: returns / OutputLimitExceeded *)
Inductive mphase :=
| MTalk                                                               (* in safe_communicate's loop *)
| MWait (output : bytes)                                              (* communicate.py:96: proc.wait() *)
| MReaped (output : bytes) (code : Z)                                 (* waitpid returned, returncode not assigned yet *)
| MTalked (t : talk)                                                  (* get_compile_output, after the try *)
| MResult (r : result)
with result := Compiled (output : bytes) | CompileError (message : bytes).
Inductive kphase := KNone | KStart | KLoop | KTime | KKill | KSleep | KDone.
Record run_state := RunState {
  clock : N; p : proc; returncode : option Z (* Popen.returncode *); timed_out : bool;
  kph : kphase; started : N (* start_time *); mph : mphase;
  strays : nat (* signals sent to a process group that is not the compiler's *)
}.
Inductive event := Tick (d : N) | Exit (code : Z) | Killer | Talk (t : talk) | Wait | Assign | Decide.

(** the truth value of [time_limit]: None and 0 mean no thread, compiled_executor.py:79 *)
Definition has_killer (limit : option N) : bool := match limit with Some n => negb (n =? 0)%N | None => false end.
Definition run_init (limit : option N) (now : N) : run_state :=
  RunState now Alive None false (if has_killer limit then KStart else KNone) now MTalk 0.
(** decimal digits, for '%d' *)
Fixpoint dec_digits (fuel : nat) (n : N) : bytes :=
  match fuel with
  | O => []
  | S f => (if (n <? 10)%N then [] else dec_digits f (n / 10)%N) ++ [(48 + n mod 10)%N]
  end.
Definition decimal (n : N) : bytes := dec_digits (S (N.to_nat (N.log2 n))) n.
Definition too_long : bytes := B "compiler output too long (> 64kb)".
Definition timed_out_message (limit : N) : bytes := B "compiler timed out (> " ++ decimal limit ++ B " seconds)".

Section Run.
  Variable limit : option N.
  Definition limit_value : N := match limit with Some n => n | None => 0%N end.
  (** the killer's loop, compiled_executor.py:103-112 *)
  Definition killer_step (s : run_state) : run_state :=
    match kph s with
    | KNone | KDone => s
    | KStart => RunState (clock s) (p s) (returncode s) (timed_out s) KLoop (clock s) (mph s) (strays s)
    | KLoop => RunState (clock s) (p s) (returncode s) (timed_out s)
                        (match returncode s with None => KTime | Some _ => KDone end) (started s) (mph s) (strays s)
    | KTime => if (limit_value <? clock s - started s)%N
               then RunState (clock s) (p s) (returncode s) true KKill (started s) (mph s) (strays s)
               else RunState (clock s) (p s) (returncode s) (timed_out s) KSleep (started s) (mph s) (strays s)
    | KKill => match p s with
               | Alive => RunState (clock s) (Zombie (-9)) (returncode s) (timed_out s) KDone (started s) (mph s) (strays s)
               | Zombie c => RunState (clock s) (Zombie c) (returncode s) (timed_out s) KDone (started s) (mph s) (strays s)
               | Gone => RunState (clock s) Gone (returncode s) (timed_out s) KDone (started s) (mph s) (S (strays s))
               end
    | KSleep => RunState (clock s) (p s) (returncode s) (timed_out s) KLoop (started s) (mph s) (strays s)
    end.
  Definition with_mph (s : run_state) (m : mphase) : run_state :=
    RunState (clock s) (p s) (returncode s) (timed_out s) (kph s) (started s) m (strays s).
  (** compiled_executor.py:220-235 *)
  Definition decide (s : run_state) (t : talk) : result :=
    let output := match t with Ended o => o | TooLong => too_long end in
    if match returncode s with Some 0%Z => false | _ => true end
    then CompileError (if timed_out s then timed_out_message limit_value else output)
    else Compiled output.
  Definition run_step (s : run_state) (e : event) : run_state :=
    match e with
    | Tick d => RunState (clock s + d) (p s) (returncode s) (timed_out s) (kph s) (started s) (mph s) (strays s)
    | Exit c => match p s with
                | Alive => RunState (clock s) (Zombie c) (returncode s) (timed_out s) (kph s) (started s) (mph s) (strays s)
                | _ => s
                end
    | Killer => killer_step s
    | Talk (Ended o) => match mph s with MTalk => with_mph s (MWait o) | _ => s end
    | Talk TooLong => match mph s with MTalk => with_mph s (MTalked TooLong) | _ => s end
    | Wait => match mph s, p s with
              | MWait o, Zombie c => RunState (clock s) Gone (returncode s) (timed_out s) (kph s) (started s) (MReaped o c) (strays s)
              | _, _ => s
              end
    | Assign => match mph s with
                | MReaped o c => RunState (clock s) (p s) (Some c) (timed_out s) (kph s) (started s) (MTalked (Ended o)) (strays s)
                | _ => s
                end
    | Decide => match mph s with MTalked t => with_mph s (MResult (decide s t)) | _ => s end
    end.
  Definition run_all (s : run_state) (l : list event) : run_state := fold_left run_step l s.
End Run.

(** ** gcc_executor.py: the sources and the command line *)
Fixpoint dict_set (k v : bytes) (d : list (bytes * bytes)) : list (bytes * bytes) :=
  match d with
  | [] => [(k, v)]
  | (k', v') :: r => if beqb k k' then (k', v) :: r else (k', v') :: dict_set k v r
  end.
Fixpoint dict_get (k : bytes) (d : list (bytes * bytes)) : option bytes :=
  match d with [] => None | (k', v) :: r => if beqb k k' then Some v else dict_get k r end.
(** gcc_executor.py:28-31: the main source joins the auxiliary ones under problem_id + ext *)
Definition source_dict (problem ext : bytes) (main : option bytes) (aux : list (bytes * bytes)) : list (bytes * bytes) :=
  match main with Some (c :: r) => dict_set (problem ++ ext) (c :: r) aux | _ => aux end.
(** gcc_executor.py:39-40 *)
Definition file_name (ext name : bytes) : bytes :=
  if existsb (N.eqb 46) name then name else name ++ B "." ++ ext.
(** gcc_executor.py:36-43: the files written into the directory, and source_paths *)
Definition source_paths (ext : bytes) (srcs : list (bytes * bytes)) : list bytes := map (fun s => file_name ext (fst s)) srcs.
Definition written (ext : bytes) (srcs : list (bytes * bytes)) : list (bytes * bytes) :=
  fold_left (fun d s => dict_set (file_name ext (fst s)) (snd s) d) srcs [].
(** gcc_executor.py:53-75 *)
Record gcc_config := GccConfig {
  command : bytes; has_color : bool; defines : list bytes; march : bytes; flags : list bytes; ldflags : list bytes;
  compiled_file : bytes }.
Definition compile_args (c : gcc_config) (paths : list bytes) : list bytes :=
  [command c; B "-Wall"] ++ (if has_color c then [B "-fdiagnostics-color=always"] else []) ++ paths
  ++ (B "-DONLINE_JUDGE" :: defines c) ++ [B "-O2"; B "-lm"; march c]
  ++ (flags c ++ [B "-fmax-errors=5"]) ++ ldflags c ++ [B "-s"; B "-o"; compiled_file c].
(** gcc_executor.py:92-98: the outer option: is the key configured; the inner: None *)
Definition march_flag (conf : option (option bytes)) : bytes :=
  match conf with
  | None => B "-march=native"
  | Some (Some (c :: r)) => B "-march=" ++ c :: r
  | Some _ => []
  end.

(** ** helper_files.py:17-61 *)
(** os.path.basename: after the last slash *)
Definition basename (f : bytes) : bytes :=
  fold_left (fun acc c => if (c =? 47)%N then [] else acc ++ [c]) f [].
(** os.path.splitext(f)[1]: from the last dot of the last component, unless only dots precede it *)
Fixpoint from_last_dot (s : bytes) : option bytes :=
  match s with
  | [] => None
  | c :: r => match from_last_dot r with Some x => Some x | None => if (c =? 46)%N then Some s else None end
  end.
Fixpoint strip_dots (s : bytes) : bytes := match s with c :: r => if (c =? 46)%N then strip_dots r else s | [] => [] end.
Definition extension (f : bytes) : bytes :=
  match from_last_dot (strip_dots (basename f)) with Some x => x | None => [] end.
Definition use_cpp (files : list bytes) : bool := existsb (fun f => beqb (extension f) (B ".cpp") || beqb (extension f) (B ".cc")) files.
Definition use_c (files : list bytes) : bool := existsb (fun f => beqb (extension f) (B ".c")) files.

(** An executor class: subclass of CompiledExecutor? its [flags] if it has any; does its
    constructor take aux_sources (the GCC and Clang ones)? *)
Record exec_class := ExecClass { compiled : bool; class_flags : option (list bytes); takes_aux : bool }.
Inductive built :=
| Built (lang : bytes) (sources : list (bytes * bytes)) (limit : option (option N) (* None: not set *))
        (bflags : option (list bytes)) (cached : bool)
| NoSuchFile                                      (* IOError: a file cannot be read *)
| NoExecutor                                      (* IOError *)
| MultiFile                                       (* InternalError *)
| BadArgument                                     (* TypeError: unexpected keyword argument *)
| NoFiles.                                        (* IndexError *)
Definition best_choices (files : list bytes) : list bytes :=
  if use_cpp files then [B "CPP20"; B "CPP17"; B "CPP14"; B "CPP11"; B "CPP03"] else [B "C11"; B "C"].
Section Helpers.
  Variable executors : bytes -> option exec_class.     (* executors/__init__.py: executors *)
  Variable read : bytes -> option bytes.               (* open(f, 'rb').read() *)
  Definition available (l : bytes) : bool := match executors l with Some _ => true | None => false end.
  (** helper_files.py:23-25 *)
  Fixpoint read_all (files : list bytes) (acc : list (bytes * bytes)) : option (list (bytes * bytes)) :=
    match files with
    | [] => Some acc
    | f :: r => match read f with Some s => read_all r (dict_set (basename f) s acc) | None => None end
    end.
  Definition build (files : list bytes) (fl : list bytes) (lang : option bytes) (limit : option N) (should_cache : bool) : built :=
    match read_all files [] with
    | None => NoSuchFile
    | Some sources =>
        match (match lang with Some l => Some l | None => find available (best_choices files) end) with
        | None => NoExecutor
        | Some l =>
            match executors l with
            | None => NoExecutor
            | Some e =>
                let lim := if compiled e then Some limit else None in
                let fls := option_map (fun own => fl ++ own) (class_flags e) in
                if use_cpp files || use_c files then
                  if takes_aux e then Built l sources lim fls should_cache else BadArgument
                else match sources with
                     | [] => NoFiles
                     | [s] => Built l [s] lim fls false
                     | _ => MultiFile
                     end
            end
        end
    end.
End Helpers.

(** ** What the callers pass *)
(** ConfigNode.get(key, default): a missing or false value gives the default, config.py:66-67 *)
Definition config_get_bool (value : option bool) (default : bool) : bool :=
  match value with Some true => true | _ => default end.
(** problem.py:264, 288-289: the generator's own limit or else the configured one *)
Definition generator_limit (own : option N) (env_limit : N) : option N :=
  match own with Some n => if (n =? 0)%N then Some env_limit else Some n | None => Some env_limit end.
Definition generator_cached (value : option bool) : bool := config_get_bool value true.
(** graders/bridged.py:101-104 *)
Definition interactor_limit (own : option N) : option N := own.
Definition interactor_cached (value : option bool) : bool := config_get_bool value true.
(** judgeenv.py:17-26: the limits configured unless the administrator says otherwise *)
Definition default_env : list (bytes * N) :=
  [(B "selftest_time_limit", 10); (B "selftest_memory_limit", 131072); (B "generator_compiler_time_limit", 30);
   (B "generator_time_limit", 20); (B "generator_memory_limit", 524288); (B "compiler_time_limit", 10);
   (B "compiler_size_limit", 131072); (B "compiler_output_character_limit", 65536); (B "compiled_binary_cache_size", 100)]%N.
Fixpoint env_get (k : bytes) (e : list (bytes * N)) : option N :=
  match e with [] => None | (k', v) :: r => if beqb k k' then Some v else env_get k r end.
(** checkers/bridged.py:34: the default of the checker's argument *)
Definition checker_limit (given : option (option N)) (env : list (bytes * N)) : option N :=
  match given with Some l => l | None => env_get (B "generator_compiler_limit") env end.
(** a submission's own compiler: compiled_executor.py:117 *)
Definition submission_limit (env : list (bytes * N)) : option N := env_get (B "compiler_time_limit") env.
