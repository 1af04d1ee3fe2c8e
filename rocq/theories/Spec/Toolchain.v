(** Compilers as their users know them: where they put the program, what reaches the reader. *)
From Coq Require Import String.
From Verif Require Import Model.Bytes Spec.Text Model.Toolchain.
Local Open Scope list_scope.

(** ** Newlines *)
(** [newlines s t]: [t] is [s] with every line end (CR LF, CR or LF) written as LF. *)
Inductive newlines : bytes -> bytes -> Prop :=
| nl_end : newlines [] []
| nl_crlf s t : newlines s t -> newlines (13 :: 10 :: s)%N (10 :: t)%N
| nl_cr s t : newlines s t -> (forall r, s <> 10%N :: r) -> newlines (13 :: s)%N (10 :: t)%N
| nl_lf s t : newlines s t -> newlines (10 :: s)%N (10 :: t)%N
| nl_char c s t : c <> 13%N -> c <> 10%N -> newlines s t -> newlines (c :: s) (c :: t).

(** ** Files *)
(** What a file holds when the writes are done in this order. *)
Inductive holds : list (bytes * bytes) -> bytes -> bytes -> Prop :=
| holds_last l path text : holds (l ++ [(path, text)]) path text
| holds_other l path text other t : other <> path -> holds l path text -> holds (l ++ [(other, t)]) path text.
(** A directory and a name in it. *)
Definition within (dir name : bytes) : bytes := dir ++ B "/" ++ name.
(** A usable directory (absolute, as tempfile makes it) and a usable name. *)
Definition usable_dir (d : bytes) : Prop := (exists r, d = B "/" ++ r) /\ (forall r, d <> r ++ B "/").
Definition usable_name (n : bytes) : Prop := n <> [] /\ ~ In 47%N n.
(** A path given to a program that runs in [cwd]. *)
Definition resolved (cwd p : bytes) : bytes := match p with 47%N :: _ => p | _ => within cwd p end.

(** ** Where the compilers put the program *)
(** -o NAME *)
Fixpoint told_after (flag : bytes) (args : list bytes) : option bytes :=
  match args with
  | f :: r => if beqb f flag then match r with o :: _ => Some o | [] => None end else told_after flag r
  | [] => None
  end.
(** -out:NAME *)
Fixpoint starting (p s : bytes) : option bytes :=
  match p, s with
  | [], _ => Some s
  | a :: p', b :: s' => if (a =? b)%N then starting p' s' else None
  | _, [] => None
  end.
Fixpoint told_by (p : bytes) (args : list bytes) : option bytes :=
  match args with
  | f :: r => match starting p f with Some o => Some o | None => told_by p r end
  | [] => None
  end.
(** the one source among the arguments: the first that ends in the language's extension *)
Definition ends_with (e s : bytes) : bool := match starting (rev e) (rev s) with Some _ => true | None => false end.
Definition source_told (e : bytes) (args : list bytes) : option bytes := find (ends_with e) args.
Definition without_ext (e s : bytes) : bytes := firstn (length s - length e) s.
(** How a compiler is told. *)
Inductive convention :=
| AfterFlag (flag : bytes)               (* the next argument, in the current directory *)
| InFlag (prefix : bytes)                (* the rest of the argument, in the current directory *)
| BesideSource (ext new_ext : bytes)     (* the source's path with another extension *)
| InForm (opening closing ext new_ext : bytes)  (* an argument that is an expression naming the source *)
| Always (name : bytes).                 (* this name in the current directory *)
Definition placed (c : convention) (cwd : bytes) (args : list bytes) : option bytes :=
  match c with
  | AfterFlag f => option_map (resolved cwd) (told_after f (tl args))
  | InFlag p => option_map (resolved cwd) (told_by p (tl args))
  | BesideSource e n => option_map (fun s => without_ext e s ++ n) (source_told e (tl args))
  | InForm o c e n => option_map (fun s => without_ext e (without_ext c s) ++ n) (told_by o (tl args))
  | Always n => Some (within cwd n)
  end.
(** How the program is started. *)
Inductive starter := Native | LastArgument | LoadedBy (flag : bytes).
Definition launched (s : starter) (executable : bytes) (args : list bytes) (cwd : bytes) : option bytes :=
  match s with
  | Native => Some executable
  | LastArgument => match args with [] => None | a :: r => Some (resolved cwd (last r a)) end
  | LoadedBy f => option_map (resolved cwd) (told_after f (tl args))
  end.

(** The compilers' manuals.  Python and Racket run the source itself. *)
Definition convention_of (l : lang) : option convention :=
  match l with
  | HASK | OCAML => Some (AfterFlag (B "-o")) | ZIG => Some (AfterFlag (B "--name"))
  | D => Some (InFlag (B "-of")) | DART => Some (InFlag (B "--snapshot=")) | MONOCS => Some (InFlag (B "-out:"))
  | MONOFS => Some (InFlag (B "--out:")) | MONOVB => Some (InFlag (B "/out:"))
  | CBL => Some (BesideSource (B ".cbl") []) | GO => Some (BesideSource (B ".go") []) | ICK => Some (BesideSource (B ".i") [])
  | PAS => Some (BesideSource (B ".pas") []) | SCM => Some (BesideSource (B ".scm") []) | SWIFT => Some (BesideSource (B ".swift") [])
  | TUR => Some (BesideSource (B ".t") (B ".tbc"))
  | SBCL => Some (InForm (B "(compile-file """) (B """)") (B ".cl") (B ".fasl"))
  | RUST => Some (Always (B "target/release/user_submission"))
  | PYTHON | RKT => None
  end.
Definition starter_of (l : lang) : starter :=
  match l with
  | DART | MONOCS | MONOFS | MONOVB | TUR | PYTHON | RKT => LastArgument
  | SBCL => LoadedBy (B "--load")
  | _ => Native
  end.
(** What each compiler is asked to do: the program that is started, its subcommand and the options it
    is given besides the names of files. *)
Definition compiler_of (l : lang) (i : instance) : bytes :=
  match l with OCAML => tool i (B "ocamlfind") | RKT => tool i (B "raco") | TUR => tool i (B "tprologc") | _ => command i end.
Definition subcommand (l : lang) : list bytes :=
  match l with
  | GO => [B "build"] | OCAML => [B "opt"] | PYTHON => [B "-m"; B "compileall"] | RKT => [B "make"]
  | RUST => [B "build"; B "--release"] | ZIG => [B "build-exe"] | _ => []
  end.
Definition options (l : lang) : list string :=
  match l with
  | CBL => ["-x"; "-free"]                            (* a program, not a module; columns do not matter *)
  | D => ["-O"; "-inline"; "-release"; "-w"]
  | HASK => ["-O2"]
  | ICK => ["-O"]
  | MONOCS => ["-r:System.Numerics.dll"]
  | MONOFS => ["--nologo"; "--optimize"; "--tailcalls"]
  | MONOVB => ["/nologo"; "/quiet"; "/optimize+"]
  | OCAML => ["-thread"; "-linkpkg"]
  | PAS => ["-Fe/dev/stderr"; "-So"; "-O2"]
  | PYTHON => ["-q"]
  | SBCL => ["--quit"]
  | ZIG => ["--release-safe"]
  | _ => []
  end%string.
Definition packages : list string := ["str"; "base"; "core"; "stdio"; "zarith"]%string.
(** Options of the program that runs what was made: no greeting, no files of the user's, no prompt. *)
Definition run_options (l : lang) : list string :=
  match l with SBCL => ["--noinform"; "--no-sysinit"; "--no-userinit"; "--quit"; "--end-toplevel-options"] | _ => [] end%string.
(** Where a compiler finds the source: a file it is told of, or one under the directory it is told of,
    or (cargo) the one of the package it is started in. *)
Definition reads (l : lang) (cwd : bytes) (args : list bytes) (path : bytes) : Prop :=
  match l with
  | RUST => path = within cwd (B "src/main.rs")
  | PYTHON => exists d n, In d args /\ path = within d n
  | SBCL => In (B "(compile-file """ ++ path ++ B """)") args
  | _ => In path args
  end.
(** The text the compiler sees is the submission's: the same bytes, except that Zig's line ends are
    written as LF and Python's text is marked as UTF-8. *)
Definition same_program (l : lang) (source text : bytes) : Prop :=
  match l with
  | ZIG => newlines source text
  | PYTHON => text = [239; 187; 191]%N ++ source
  | _ => text = source
  end.
Definition usable (i : instance) : Prop := usable_dir (dir i) /\ usable_name (problem i).

(** ** Environments *)
Fixpoint value_of (k : bytes) (d : list (bytes * bytes)) : option bytes :=
  match d with [] => None | (k', v) :: r => if beqb k k' then Some v else value_of k r end.

(** ** Text read from a terminal *)
(** every newline is preceded by a carriage return *)
Inductive terminal : bytes -> bytes -> Prop :=
| term_end : terminal [] []
| term_nl s t : terminal s t -> terminal (10 :: s)%N (13 :: 10 :: t)%N
| term_char c s t : c <> 10%N -> terminal s t -> terminal (c :: s) (c :: t).

(** ** Features asked for in a comment *)
Section Features.
  Variables word space : N -> bool.
  Definition comment_sign (c : N) : Prop := In c (B "#;@|!").
  Definition separator (c : N) : bool := space c || (c =? 44)%N.
  Definition part_of_list (c : N) : Prop := word c = true \/ separator c = true.
  (** after [pre], at the start of a line, comes the mark, and then the list [g], as long as possible *)
  Definition declaration (s pre g : bytes) : Prop := exists sign blanks post,
    s = pre ++ [sign] ++ blanks ++ B "features:" ++ g ++ post /\
    (pre = [] \/ exists q, pre = q ++ [10%N]) /\ comment_sign sign /\ Forall (fun c => space c = true) blanks /\
    g <> [] /\ Forall part_of_list g /\ (post = [] \/ exists c r, post = c :: r /\ ~ part_of_list c).
  Definition requested (s w : bytes) : Prop := exists pre g,
    declaration s pre g /\ (forall pre' g', declaration s pre' g' -> length pre <= length pre')%nat /\
    In w (filter nonnil (cut separator g)).
End Features.

(** ** Processes *)
(** A process and all it starts, directly or not. *)
Inductive descends : process -> process -> Prop :=
| self p : descends p p
| forked p q n : descends p q -> descends p (fork n q).
