From Verif Require Import Model.Bytes Model.IntPatch.
Local Open Scope list_scope.

(** The interpreter's own notion of inheritance. *)
Inductive below : cls -> cls -> Prop :=
| below_refl c : below c c
| below_int : below CInt CObject
| below_patched : below CPatched CInt
| below_base n c : below (CClass n c) c
| below_trans a b c : below a b -> below b c -> below a c.
(** Text longer than ten thousand characters, as the first argument. *)
Definition too_long (args : list value) : Prop :=
  match args with Str cs :: _ => (10000 < N.of_nat (length cs))%N | _ => False end.
