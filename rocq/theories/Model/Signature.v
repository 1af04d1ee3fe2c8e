(** Signature grading (dmoj/graders/signature.py) and the languages compiled by GCC or Clang
    (dmoj/executors/gcc_executor.py, clang_executor.py and the executors built on them). *)
From Coq Require Import String.
From Verif Require Import Model.Bytes Model.Compile.
Local Open Scope nat_scope.
Local Open Scope list_scope.

(** ** The languages: the executors whose class derives from GCCExecutor *)
Inductive lang := ADA | BF | C | C11 | CLANG | CLANGX | CPP03 | CPP11 | CPP14 | CPP17 | CPP20 | F95 | OBJC.
Definition module_name (l : lang) : bytes :=
  match l with
  | ADA => B "ADA" | BF => B "BF" | C => B "C" | C11 => B "C11" | CLANG => B "CLANG" | CLANGX => B "CLANGX" | CPP03 => B "CPP03"
  | CPP11 => B "CPP11" | CPP14 => B "CPP14" | CPP17 => B "CPP17" | CPP20 => B "CPP20" | F95 => B "F95" | OBJC => B "OBJC"
  end.
(** the class attribute ext: ADA.py:7, C.py:7, C11.py:8, CPP03.py:9, F95.py:7, OBJC.py:10; the others inherit it *)
Definition ext (l : lang) : bytes :=
  match l with
  | ADA => B "adb" | F95 => B "f95" | OBJC => B "m"
  | BF | C | C11 | CLANG => B "c"
  | CLANGX | CPP03 | CPP11 | CPP14 | CPP17 | CPP20 => B "cpp"
  end.
(** the class attribute command, under which the compiler is configured *)
Definition command_key (l : lang) : bytes :=
  match l with
  | ADA => B "gnatmake" | BF | C => B "gcc" | C11 => B "gcc11" | CLANG => B "clang" | CLANGX => B "clang++" | CPP03 => B "g++"
  | CPP11 => B "g++11" | CPP14 => B "g++14" | CPP17 => B "g++17" | CPP20 => B "g++20" | F95 => B "gfortran" | OBJC => B "gobjc"
  end.
(** arch: gcc_executor.py:23, clang_executor.py:5 *)
Definition arch_key (l : lang) : bytes :=
  match l with CLANG | CLANGX => B "clang_target_arch" | _ => B "gcc_target_arch" end.
(** the class attributes flags (C.py:6, C11.py:6; CLANG inherits C's) and std (CPP11.py:7 and so on;
    CLANGX inherits CPP11's) *)
Definition class_flags (l : lang) : list bytes :=
  match l with BF | C | CLANG => [B "-std=c99"] | C11 => [B "-std=c11"] | _ => [] end.
Definition class_std (l : lang) : option bytes :=
  match l with
  | CPP11 | CLANGX => Some (B "c++11") | CPP14 => Some (B "c++14") | CPP17 => Some (B "c++17") | CPP20 => Some (B "c++20")
  | _ => None
  end.
(** get_flags as the method resolution order has it: gcc_executor.py:56-57 below CPP03.py:20-21 and
    OBJC.py:30-31; clang_executor.py:7-8 comes before CPP03's and does not call it *)
Definition gcc_flags (l : lang) : list bytes := class_flags l ++ [B "-fmax-errors=5"].
Definition get_flags (l : lang) (objc : list bytes) : list bytes :=
  match l with
  | CLANG | CLANGX => class_flags l ++ [B "-ferror-limit=5"]
  | CPP03 | CPP11 | CPP14 | CPP17 | CPP20 => (match class_std l with Some s => [B "-std=" ++ s] | None => [] end) ++ gcc_flags l
  | OBJC => objc ++ gcc_flags l
  | _ => gcc_flags l
  end.
(** gcc_executor.py:53-54, OBJC.py:33-34 *)
Definition get_ldflags (l : lang) (objc : list bytes) : list bytes := match l with OBJC => objc | _ => [] end.

(** What is configured and what an instance was made with.  [target]: the setting of [arch_key]. *)
Record instance := Instance {
  compiler : bytes; color : bool; more_defines : list bytes; target : option (option bytes);
  objc_flags : list bytes; objc_ldflags : list bytes; output : bytes }.
(** get_compile_args: gcc_executor.py:62-74; BF.py:53-56 *)
Definition compile_args (l : lang) (i : instance) (paths : list bytes) : list bytes :=
  match l with
  | BF => [compiler i; B "-O0"] ++ paths ++ [B "-o"; output i]
  | _ =>
      [compiler i; B "-Wall"] ++ (if color i then [B "-fdiagnostics-color=always"] else []) ++ paths
      ++ (B "-DONLINE_JUDGE" :: more_defines i) ++ [B "-O2"; B "-lm"; march_flag (target i)]
      ++ get_flags l (objc_flags i) ++ get_ldflags l (objc_ldflags i) ++ [B "-s"; B "-o"; output i]
  end.

(** ** graders/signature.py *)
(** signature.py:11 *)
Definition siggraders : list bytes :=
  [B "C"; B "C11"; B "CPP03"; B "CPP11"; B "CPP14"; B "CPP17"; B "CPP20"; B "CLANG"; B "CLANGX"].
(** The problem: its id, the settings of signature_grader that are there (texts), whether allow_main is
    true, and the problem's files. *)
Record problem := Problem {
  id : bytes; entry : option bytes; header : option bytes; allow_main : bool; data : bytes -> option bytes }.
Definition nl : bytes := [10%N].
Definition quote : bytes := [34%N].
(** signature.py:20-22 *)
Definition prefix (p : problem) (h hex : bytes) : bytes :=
  B "#include " ++ quote ++ h ++ quote ++ nl
  ++ (if allow_main p then [] else B "#define main main_" ++ hex ++ nl).
Inductive made :=
| NoRuntime                                                   (* InternalError *)
| Missing                                                     (* a KeyError: no such setting, file or executor *)
| Made (main : bytes) (aux : list (bytes * bytes)) (defines : list bytes).
(** signature.py:10-33.  [loaded]: the executors there are; [hex]: uuid4().hex *)
Definition generate_binary (loaded : bytes -> bool) (p : problem) (language source hex : bytes) : made :=
  if existsb (beqb language) siggraders then
    match entry p, header p with
    | Some e, Some h =>
        match data p e, data p h with
        | Some entry_point, Some header_text =>
            let aux := dict_set (id p ++ B "_submission") (prefix p h hex ++ source) [] in
            let aux := dict_set h header_text aux in
            if loaded language then Made entry_point aux [B "-DSIGNATURE_GRADER"] else Missing
        | _, _ => Missing
        end
    | _, _ => Missing
    end
  else NoRuntime.
(** The executor that is made then: gcc_executor.py:28-43 *)
Definition sources (l : lang) (p : problem) (main : bytes) (aux : list (bytes * bytes)) : list (bytes * bytes) :=
  source_dict (id p) (ext l) (Some main) aux.
