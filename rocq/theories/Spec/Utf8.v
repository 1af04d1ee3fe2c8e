(** UTF-8, from RFC 3629 section 3.  Independent of the model. *)
From Coq Require Import List NArith.
Import ListNotations.
Local Open Scope N_scope.

(** Unicode scalar values: code points that are not surrogates. *)
Definition scalar (c : N) : Prop := c < 0xD800 \/ 0xDFFF < c < 0x110000.

(** One character and its bytes:
      0xxxxxxx / 110aaaaa 10bbbbbb / 1110aaaa 10bbbbbb 10cccccc /
      11110aaa 10bbbbbb 10cccccc 10dddddd, always the shortest form. *)
Inductive utf8_char : N -> list N -> Prop :=
| one c : c < 0x80 -> utf8_char c [c]
| two c a b : a < 32 -> b < 64 -> c = a * 64 + b -> 0x80 <= c ->
    utf8_char c [0xC0 + a; 0x80 + b]
| three c a b d : a < 16 -> b < 64 -> d < 64 -> c = a * 4096 + b * 64 + d -> 0x800 <= c -> scalar c ->
    utf8_char c [0xE0 + a; 0x80 + b; 0x80 + d]
| four c a b d e : a < 8 -> b < 64 -> d < 64 -> e < 64 ->
    c = a * 262144 + b * 4096 + d * 64 + e -> 0x10000 <= c -> scalar c ->
    utf8_char c [0xF0 + a; 0x80 + b; 0x80 + d; 0x80 + e].

(** A text and its bytes. *)
Inductive utf8 : list N -> list N -> Prop :=
| utf8_nil : utf8 [] []
| utf8_cons c b t s : utf8_char c b -> utf8 t s -> utf8 (c :: t) (b ++ s).

(** U+FFFD, the replacement character. *)
Definition unknown : N := 0xFFFD.
Definition is_ascii (c : N) : bool := c <? 0x80.
