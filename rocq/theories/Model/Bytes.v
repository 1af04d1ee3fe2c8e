(** Byte strings and the Python/C text primitives the judge relies on.

    A byte (or a Unicode code point) is an [N]; a byte string is a [list N].
    Nothing here restricts an element to be below 256: the code only ever
    compares bytes for equality/order and tests membership in fixed sets, so the
    theorems hold for the larger alphabet too. *)
From Coq Require Import String Ascii.
From Coq Require Export List Bool Arith NArith ZArith Lia.
Export ListNotations.

Definition bytes := list N.

(** Literal helper: the bytes of an ASCII string literal. *)
Fixpoint B (s : string) : bytes :=
  match s with
  | EmptyString => []
  | String c r => N_of_ascii c :: B r
  end.

Arguments B s%string.

Definition LF : N := 10.
Definition CR : N := 13.
Definition SP : N := 32.

(** Equality of byte strings: Python's [==] on bytes. *)
Fixpoint beqb (a b : bytes) : bool :=
  match a, b with
  | [], [] => true
  | x :: a', y :: b' => (x =? y)%N && beqb a' b'
  | _, _ => false
  end.

(** ASCII whitespace: Python's [bytes.split()], [bytes.strip()], [bytes.rstrip()]
    and the class [\s] of a bytes regex all use {space, \t, \n, \v, \f, \r}
    (CPython's Py_ISSPACE). *)
Definition py_isspace (c : N) : bool :=
  ((c =? 32) || ((9 <=? c) && (c <=? 13)))%N.

(** [re.split(b'[...]', s)] for a one-character class: CPython's loop over
    successive matches, pushing the slice between two matches, then the rest.
    [cur] is the slice read since the last match, reversed. *)
Fixpoint re_split_acc (sep : N -> bool) (cur : bytes) (s : bytes) : list bytes :=
  match s with
  | [] => [rev cur]
  | c :: r => if sep c then rev cur :: re_split_acc sep [] r
              else re_split_acc sep (c :: cur) r
  end.
Definition re_split (sep : N -> bool) (s : bytes) : list bytes := re_split_acc sep [] s.

(** The class [[\r\n]] used by the checkers. *)
Definition is_crlf (c : N) : bool := ((c =? 13) || (c =? 10))%N.

(** [filter(None, l)] on a list of byte strings: drop the empty (falsy) ones. *)
Definition nonempty {A} (s : list A) : bool := match s with [] => false | _ => true end.
Definition filter_none {A} (l : list (list A)) : list (list A) := filter nonempty l.

(** [bytes.split()] without arguments: CPython's stringlib split_whitespace: skip
    whitespace, take the maximal non-white run, repeat.  [cur] is the current
    run, reversed. *)
Fixpoint py_split_acc (cur : bytes) (s : bytes) : list bytes :=
  match s with
  | [] => match cur with [] => [] | _ => [rev cur] end
  | c :: r =>
      if py_isspace c
      then match cur with [] => py_split_acc [] r | _ => rev cur :: py_split_acc [] r end
      else py_split_acc (c :: cur) r
  end.
Definition py_split (s : bytes) : list bytes := py_split_acc [] s.

(** [bytes.lstrip()]. *)
Fixpoint py_lstrip (s : bytes) : bytes :=
  match s with
  | [] => []
  | c :: r => if py_isspace c then py_lstrip r else s
  end.
(** [bytes.rstrip()]. *)
Definition py_rstrip (s : bytes) : bytes := rev (py_lstrip (rev s)).
(** [bytes.strip()]. *)
Definition py_strip (s : bytes) : bytes := py_rstrip (py_lstrip s).

(** [bytes.lower()]: ASCII letters only. *)
Definition ascii_lower (c : N) : N := if ((65 <=? c) && (c <=? 90))%N then (c + 32)%N else c.
Definition py_lower (s : bytes) : bytes := map ascii_lower s.

(** Lexicographic order, Python's [<=] on bytes and on lists. *)
Section Lex.
  Context {A : Type} (eqb leb : A -> A -> bool).
  Fixpoint lex_leb (a b : list A) : bool :=
    match a, b with
    | [], _ => true
    | _ :: _, [] => false
    | x :: a', y :: b' => if eqb x y then lex_leb a' b' else leb x y
    end.
  Fixpoint list_eqb (a b : list A) : bool :=
    match a, b with
    | [], [] => true
    | x :: a', y :: b' => eqb x y && list_eqb a' b'
    | _, _ => false
    end.
End Lex.
Definition bytes_leb : bytes -> bytes -> bool := lex_leb N.eqb N.leb.
Definition tokens_leb : list bytes -> list bytes -> bool := lex_leb beqb bytes_leb.

(** [list.sort()]: Timsort is replaced by insertion sort; both are stable sorts by
    the same total order, whose result is unique. *)
Section Sort.
  Context {A : Type} (leb : A -> A -> bool).
  Fixpoint insert (x : A) (l : list A) : list A :=
    match l with
    | [] => [x]
    | y :: r => if leb x y then x :: l else y :: insert x r
    end.
  Definition sort (l : list A) : list A := fold_right insert [] l.
End Sort.

(** [bytes.startswith], [x in bytes]. *)
Fixpoint starts_with (p s : bytes) : bool :=
  match p, s with
  | [], _ => true
  | x :: p', y :: s' => (x =? y)%N && starts_with p' s'
  | _ :: _, [] => false
  end.
Fixpoint contains (p s : bytes) : bool :=
  starts_with p s || match s with [] => false | _ :: r => contains p r end.
