(** Model of the Brainf*** executor (dmoj/executors/BF.py): a source is translated to C. *)
From Coq Require Import String.
From Verif Require Import Model.Bytes.
Local Open Scope list_scope.
Local Open Scope nat_scope.

(** BF.py:66-76: _has_invalid_brackets; [n] is open_brackets. *)
Fixpoint invalid_from (n : nat) (source : bytes) : bool :=
  match source with
  | [] => negb (n =? 0)
  | c :: rest =>
      if (c =? 91)%N then invalid_from (S n) rest
      else if (c =? 93)%N then match n with 0 => true | S m => invalid_from m rest end
      else invalid_from n rest
  end.
Definition has_invalid_brackets (source : bytes) : bool := invalid_from 0 source.

(** BF.py:34-43: trans.get with b'' as the default *)
Definition trans (c : N) : bytes :=
  if (c =? 62)%N then B "++p;"
  else if (c =? 60)%N then B "--p;"
  else if (c =? 43)%N then B "++*p;"
  else if (c =? 45)%N then B "--*p;"
  else if (c =? 46)%N then B "putchar(*p);"
  else if (c =? 44)%N then B "*p=getchar();"
  else if (c =? 91)%N then B "while(*p){"
  else if (c =? 93)%N then B "}"
  else [].
Definition translated (source : bytes) : bytes := concat (map trans source).

(** bytes.replace: every occurrence from the left, not overlapping.  [fuel]: the length of s. *)
Fixpoint starts (p s : bytes) : bool :=
  match p, s with
  | [], _ => true
  | a :: p', b :: s' => (a =? b)%N && starts p' s'
  | _, [] => false
  end.
Fixpoint replace_from (fuel : nat) (old new s : bytes) : bytes :=
  match fuel with
  | 0 => s
  | S f => if starts old s then new ++ replace_from f old new (skipn (length old) s)
           else match s with [] => [] | c :: r => c :: replace_from f old new r end
  end.
Definition replace (old new s : bytes) : bytes := replace_from (length s) old new s.

(** BF.py:7-32: the template; [nl] is a newline, [bs] a backslash, [dq] a double quote. *)
Definition nl : bytes := [10%N].
Definition bs : bytes := [92%N].
Definition dq : bytes := [34%N].
Definition template : bytes :=
  B "#define _GNU_SOURCE" ++ nl ++
  B "#include <errno.h>" ++ nl ++
  B "#include <stdio.h>" ++ nl ++
  B "#include <stdlib.h>" ++ nl ++
  B "#include <sys/mman.h>" ++ nl ++ nl ++
  B "int main(int argc, char **argv) {" ++ nl ++
  B "    char *p;" ++ nl ++
  B "    size_t size;" ++ nl ++ nl ++
  B "    errno = 0;" ++ nl ++
  B "    if (argc != 2 || (size = strtoull(argv[1], NULL, 10), errno)) {" ++ nl ++
  B "        fprintf(stderr, " ++ dq ++ B "%s <bytes to allocate>" ++ bs ++ B "n" ++ dq ++ B ", argv[0]);" ++ nl ++
  B "        return 2;" ++ nl ++
  B "    }" ++ nl ++ nl ++
  B "    p = mmap(NULL, size, PROT_READ | PROT_WRITE, MAP_PRIVATE | MAP_ANONYMOUS, -1, 0);" ++ nl ++
  B "    if (p == MAP_FAILED) {" ++ nl ++
  B "        perror(" ++ dq ++ B "mmap" ++ dq ++ B ");" ++ nl ++
  B "        return 2;" ++ nl ++
  B "    }" ++ nl ++ nl ++
  B "    {code}" ++ nl ++
  B "}" ++ nl.

Inductive compiled := CompileError (message : bytes) | Program (code : bytes).
(** BF.py:50-54: __init__ up to the C executor's. *)
Definition construct (source : bytes) : compiled :=
  if has_invalid_brackets source then CompileError (B "Unmatched brackets" ++ nl)
  else Program (replace (B "{code}") (translated source) template).
