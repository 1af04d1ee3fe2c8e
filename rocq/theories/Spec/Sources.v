(** Sources as a reader sees them. *)
From Coq Require Import String.
From Verif Require Import Model.Bytes Model.Utf8 Spec.Feedback Spec.Text.
Local Open Scope list_scope.

(** The inside of a string literal: characters and escapes. *)
Inductive literal (quote : N) : text -> Prop :=
| lit_end : literal quote []
| lit_plain c r : c <> quote -> c <> 92%N -> literal quote r -> literal quote (c :: r)
| lit_escape c r : literal quote r -> literal quote (92%N :: c :: r).
(** The pieces of a program's text. *)
Inductive piece :=
| Code (t : text)                  (* anything without slashes and quotes *)
| Slash (c : N)                    (* a slash that begins no comment, and the character after it *)
| Block (t : text)
| Line (t : text) (newline : N)
| Str (t : text)
| Chr (t : text).
Definition render (p : piece) : text :=
  match p with
  | Code t => t
  | Slash c => [47%N; c]
  | Block t => B "/*" ++ t ++ B "*/"
  | Line t n => B "//" ++ t ++ [n]
  | Str t => 34%N :: t ++ [34%N]
  | Chr t => 39%N :: t ++ [39%N]
  end.
(** What is left when comments and literals are taken out. *)
Definition visible (p : piece) : text :=
  match p with Code t => t | Slash c => [47%N; c] | Line _ n => [n] | _ => [] end.
Definition text_of (l : list piece) : text := concat (map render l).
Definition code_of (l : list piece) : text := concat (map visible l).
(** The pieces are what they say, and do not contain what looks like the beginning of a
    block comment, or (line comments) like a literal. *)
Definition tame (p : piece) : Prop :=
  match p with
  | Code t => ~ In 47%N t /\ ~ In 34%N t /\ ~ In 39%N t
  | Slash c => c <> 47%N /\ c <> 42%N /\ c <> 34%N /\ c <> 39%N
  | Block t => ~ occurs (B "*/") (t ++ [42%N])
  | Line t n => ~ In 13%N t /\ ~ In 10%N t /\ ~ In 34%N t /\ ~ In 39%N t /\ ~ occurs (B "/*") (47%N :: t) /\ (n = 13%N \/ n = 10%N)
  | Str t => literal 34 t /\ ~ occurs (B "/*") t
  | Chr t => ((exists c, t = [c] /\ c <> 39%N /\ c <> 92%N) \/ (exists c, t = [92%N; c])) /\ ~ occurs (B "/*") t
  end.

Section Java.
  Variables word space : N -> Prop.
  Definition blank_run (w : text) : Prop := w <> [] /\ Forall space w.
  (** The word is not part of a longer one: [pre] comes before it. *)
  Definition word_starts (pre : text) : Prop := pre = [] \/ exists q c, pre = q ++ [c] /\ ~ word c.
  Definition modifier (choices : list text) (m : text) : Prop := m = [] \/ exists w b, In w choices /\ blank_run b /\ m = w ++ b.
  (** public [strictfp] [abstract|final] [strictfp] class *)
  Definition public_class (k : text) : Prop := exists b1 m1 m2 m3 b2,
    k = B "public" ++ b1 ++ m1 ++ m2 ++ m3 ++ B "class" ++ b2 /\ blank_run b1 /\
    modifier [B "strictfp"] m1 /\ modifier [B "abstract"; B "final"] m2 /\ modifier [B "strictfp"] m3 /\ blank_run b2.
  (** The name read: a word, or the dollar signs before one. *)
  Definition name_read (n post : text) : Prop :=
    n <> [] /\ ((Forall word n /\ (post = [] \/ exists c r, post = c :: r /\ ~ word c)) \/
                (Forall (eq 36%N) n /\ exists c r, post = c :: r /\ word c)).
  Definition declares (s pre n : text) : Prop := exists k post,
    s = pre ++ k ++ n ++ post /\ word_starts pre /\ public_class k /\ name_read n post.
  (** the first class declared *)
  Definition first_class (s n : text) : Prop := exists pre, declares s pre n /\
    forall pre' n', declares s pre' n' -> (length pre <= length pre')%nat.
  (** a package: dotted, to the next semicolon *)
  Definition has_package (s : text) : Prop := exists pre b p parts post,
    s = pre ++ B "package" ++ b ++ p ++ concat (map (cons 46%N) parts) ++ 59%N :: post /\ word_starts pre /\
    blank_run b /\ Forall (fun q => q <> [] /\ ~ In 46%N q /\ ~ In 59%N q) (p :: parts).
End Java.
(** Go: the text begins (after blanks) with [package main], on one line. *)
Definition go_word (c : N) : Prop := letter c \/ digit c \/ c = 95%N.
Definition package_main (s : bytes) : Prop := exists a w rest,
  s = a ++ B "package" ++ w ++ B "main" ++ rest /\ Text.all_white a /\ w <> [] /\ Text.all_white w /\ ~ In 10%N w /\
  (rest = [] \/ exists c r, rest = c :: r /\ ~ go_word c).
