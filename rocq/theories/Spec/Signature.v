(** Signature grading and the C family as their users know them. *)
From Coq Require Import String.
From Verif Require Import Model.Bytes Spec.Text Model.Signature.
Local Open Scope nat_scope.
Local Open Scope list_scope.

(** ** The languages in which a function can be asked for *)
Definition c_like (l : lang) : Prop := In l [C; C11; CLANG].
Definition cpp_like (l : lang) : Prop := In l [CPP03; CPP11; CPP14; CPP17; CPP20; CLANGX].
(** A problem that can be compiled: a name without a dot, a header whose name has a dot and that is not the name of
    another file of the compilation, and an entry point with something in it. *)
Record usable (l : lang) (p : problem) (h : bytes) (entry_text : bytes) : Prop := {
  no_dot : ~ In 46%N (id p);
  dot : In 46%N h;
  not_submission : h <> id p ++ B "_submission." ++ ext l;
  not_entry : h <> id p ++ ext l ++ B "." ++ ext l;
  not_empty : entry_text <> [] }.

(** ** A little of the preprocessor: identifiers, and the lines that define the name [main] or forget it.
    Literals, comments and continued lines are not told apart, nor other directives that take effect. *)
Definition word_char (c : N) : bool :=
  ((48 <=? c) && (c <=? 57) || (65 <=? c) && (c <=? 90) || (97 <=? c) && (c <=? 122) || (c =? 95))%N.
(** the identifiers (and numbers) of a line *)
Definition identifiers (line : bytes) : list bytes := filter nonnil (cut (fun c => negb (word_char c)) line).
Definition is_blank (c : N) : bool := ((c =? 32) || (c =? 9))%N.
Fixpoint unindented (s : bytes) : bytes := match s with c :: r => if is_blank c then unindented r else s | [] => [] end.
Definition directive (line : bytes) : bool := match unindented line with 35%N :: _ => true | _ => false end.
(** What [main] stands for after a line. *)
Definition define_main (line : bytes) (now : option bytes) : option bytes :=
  if directive line then
    match identifiers line with
    | [d; m; r] => if beqb d (B "define") && beqb m (B "main") then Some r else now
    | [d; m] => if beqb d (B "undef") && beqb m (B "main") then None else now
    | _ => now
    end
  else now.
(** A line that says what [main] stands for. *)
Definition speaks_of_main (line : bytes) : Prop :=
  directive line = true /\ (identifiers line = [B "undef"; B "main"] \/ exists r, identifiers line = [B "define"; B "main"; r]).
Definition expanded (now : option bytes) (w : bytes) : bytes :=
  if beqb w (B "main") then match now with Some r => r | None => w end else w.
(** The identifiers the compiler proper sees, line by line. *)
Fixpoint compiled (now : option bytes) (lines : list bytes) : list bytes :=
  match lines with
  | [] => []
  | l :: r => (if directive l then [] else map (expanded now) (identifiers l)) ++ compiled (define_main l now) r
  end.
Definition text_lines (s : bytes) : list bytes := cut (N.eqb 10) s.
Definition names_seen (s : bytes) : list bytes := compiled None (text_lines s).

(** ** The C family *)
(** The standard each language is named after; the others leave it to the compiler. *)
Definition standard (l : lang) : option string :=
  match l with
  | C => Some "c99" | C11 => Some "c11" | CLANG => Some "c99"
  | CPP11 => Some "c++11" | CPP14 => Some "c++14" | CPP17 => Some "c++17" | CPP20 => Some "c++20" | CLANGX => Some "c++11"
  | _ => None
  end%string.
(** The setting of the configuration that names a language's compiler. *)
Definition setting (l : lang) : string :=
  match l with
  | ADA => "gnatmake" | F95 => "gfortran" | OBJC => "gobjc" | BF | C => "gcc" | C11 => "gcc11"
  | CPP03 => "g++" | CPP11 => "g++11" | CPP14 => "g++14" | CPP17 => "g++17" | CPP20 => "g++20"
  | CLANG => "clang" | CLANGX => "clang++"
  end%string.
Definition clang_dec (l : lang) : bool := match l with CLANG | CLANGX => true | _ => false end.
Definition asks_standard (s : string) (args : list bytes) : Prop := In (B "-std=" ++ B s) args.
Definition standard_option (a : bytes) : Prop := exists s, a = B "-std=" ++ s.
(** The ending by which a compiler tells the language of a source. *)
Definition ending (l : lang) : bytes :=
  match l with
  | ADA => B ".adb" | F95 => B ".f95" | OBJC => B ".m" | C | C11 | CLANG | BF => B ".c"
  | CPP03 | CPP11 | CPP14 | CPP17 | CPP20 | CLANGX => B ".cpp"
  end.
