(** The replacement of int: dmoj/utils/builtin_int_patch.py. *)
From Coq Require Import String.
From Verif Require Import Model.Bytes.
Local Open Scope list_scope.

(** Classes: object; the interpreter's int (int_, builtin_int_patch.py:4); patched_int
    (builtin_int_patch.py:26); any other, by a name and its base class (bool is one below int).
    Simplification: one base class each. *)
Inductive cls := CObject | CInt | CPatched | CClass (name : N) (base : cls).
(** Identity of classes ([is]). *)
Fixpoint same (a b : cls) : bool :=
  match a, b with
  | CObject, CObject | CInt, CInt | CPatched, CPatched => true
  | CClass n x, CClass m y => (n =? m)%N && same x y
  | _, _ => false
  end.
(** The inheritance of the interpreter: patched_int derives from int_ (builtin_int_patch.py:26). *)
Fixpoint derives (a b : cls) : bool :=
  same a b ||
  match a with
  | CObject => false
  | CInt => same b CObject
  | CPatched => same b CInt || same b CObject
  | CClass _ x => derives x b
  end.
(** The class's own metaclass is patched_int_meta, which is inherited
    (builtin_int_patch.py:12, 26). *)
Definition meta (c : cls) : bool := derives c CPatched.

(** isinstance(x, c) for an x of class [t]: the interpreter answers True for the very class, else asks
    the metaclass (builtin_int_patch.py:13-14). *)
Definition isinstance (t c : cls) : bool := if same t c then true else if meta c then derives t CInt else derives t c.
(** issubclass(t, c) (builtin_int_patch.py:16-17). *)
Definition issubclass (t c : cls) : bool := if meta c then derives t CInt else derives t c.
(** a == b on classes: the metaclass's __eq__ (builtin_int_patch.py:19-20), the right operand's first if
    only that one has it. *)
Definition class_eq (a b : cls) : bool :=
  if meta a then same a b || same b CInt
  else if meta b then same b a || same a CInt
  else same a b.
(** hash(c), as the class whose identity is hashed (builtin_int_patch.py:22-23). *)
Definition class_hash (c : cls) : cls := if meta c then CInt else c.

(** What int() is given: text (code points), bytes, a number of a class, anything else. *)
Inductive value := Str (cs : list N) | Bts (bs : bytes) | Num (c : cls) (z : Z) | Other (n : N).
(** What comes back: an object of a class, or an exception. *)
Inductive exc := ValueError (m : bytes) | TypeError | OtherError (n : N).
Inductive outcome := Made (c : cls) (z : Z) | Raised (e : exc).

(** builtin_int_patch.py:3 *)
Definition max_digits : N := 10000.

Section Call.
  (** int_.__new__ on these arguments, the class of the result aside. *)
  Variable plain : list value -> Z + exc.

  (** int_.__new__ for a class. *)
  Definition plain_new (c : cls) (args : list value) : outcome :=
    match plain args with inl z => Made c z | inr e => Raised e end.
  (** patched_int.__new__ (builtin_int_patch.py:27-32).  Simplification: positional arguments only. *)
  Definition patched_new (c : cls) (args : list value) : outcome :=
    match args with
    | [] => Raised TypeError
    | s :: _ =>
        let convert := plain_new (if same c CPatched then CInt else c) args in
        match s with
        | Str cs => if (max_digits <? N.of_nat (length cs))%N then Raised (ValueError (B "integer is too long")) else convert
        | _ => convert
        end
    end.
  (** Calling an int class: its __new__ is patched_int's if it derives from that
      (builtin_int_patch.py:26-32). *)
  Definition call (c : cls) (args : list value) : outcome := if meta c then patched_new c args else plain_new c args.
End Call.

(** The built-in names. *)
Definition names := list N -> option cls.
Definition bind (b : names) (k : bytes) (c : cls) : names := fun n => if beqb n k then Some c else b n.
(** apply (builtin_int_patch.py:35-36) and unapply (builtin_int_patch.py:39-40). *)
Definition apply (b : names) : names := bind (bind b (B "int") CPatched) (B "int_") CInt.
Definition unapply (b : names) : names := bind b (B "int") CInt.
