(** JSON texts, from RFC 8259, and what they stand for.  Only the type of values is taken from the model. *)
From Coq Require Import String ZArith NArith List Bool.
From Verif Require Import Model.Bytes Model.Json.
From Verif Require Spec.Utf8.
Import ListNotations.
Local Open Scope N_scope.
Local Open Scope list_scope.

(** ** Strings (section 7) *)
(** A character written out, or a \u escape: one unit of UTF-16. *)
Inductive item := Raw (c : N) | Unit (u : N).
Definition hex_digit (c d : N) : Prop :=
  (48 <= c <= 57 /\ d = c - 48) \/ (65 <= c <= 70 /\ d = c - 55) \/ (97 <= c <= 102 /\ d = c - 87).
Definition short_escapes : list (N * N) := [(34, 34); (92, 92); (47, 47); (98, 8); (102, 12); (110, 10); (114, 13); (116, 9)].
Inductive spells : list N -> list item -> Prop :=
| sp_end : spells [] []
| sp_raw c s l : 32 <= c -> c <> 34 -> c <> 92 -> spells s l -> spells (c :: s) (Raw c :: l)
| sp_short e c s l : In (e, c) short_escapes -> spells s l -> spells (92 :: e :: s) (Raw c :: l)
| sp_unit a b c d a' b' c' d' s l : hex_digit a a' -> hex_digit b b' -> hex_digit c c' -> hex_digit d d' -> spells s l ->
    spells (92 :: 117 :: a :: b :: c :: d :: s) (Unit (a' * 4096 + b' * 256 + c' * 16 + d') :: l).
Definition lead (u : N) : bool := (0xD800 <=? u) && (u <=? 0xDBFF).
Definition trail (u : N) : bool := (0xDC00 <=? u) && (u <=? 0xDFFF).
(** Two escapes that form a surrogate pair are one character. *)
Fixpoint characters (l : list item) : list N :=
  match l with
  | [] => []
  | Raw c :: r => c :: characters r
  | Unit u :: r =>
      match r with
      | Unit v :: r' => if lead u && trail v then (0x10000 + (u - 0xD800) * 0x400 + (v - 0xDC00)) :: characters r' else u :: characters r
      | _ => u :: characters r
      end
  end.
Definition json_string (t : list N) (s : list N) : Prop := exists body l, t = [34] ++ body ++ [34] /\ spells body l /\ characters l = s.

(** ** Numbers (section 6) *)
Definition digit_chars (ds : list N) : Prop := ds <> [] /\ Forall (fun c => 48 <= c <= 57) ds.
Definition natural (ds : list N) : Prop := ds = [48] \/ (digit_chars ds /\ hd 48 ds <> 48).
Definition natural_value (ds : list N) : N := fold_left (fun acc c => 10 * acc + (c - 48)) ds 0.
Definition optional_minus (t : list N) : Prop := t = [] \/ t = [45].
Definition optional_fraction (t : list N) : Prop := t = [] \/ exists ds, t = [46] ++ ds /\ digit_chars ds.
Definition optional_exponent (t : list N) : Prop :=
  t = [] \/ exists e sg ds, t = [e] ++ sg ++ ds /\ In e [101; 69] /\ In sg [[]; [45]; [43]] /\ digit_chars ds.
(** A number that is not a whole number in digits. *)
Definition real_text (t : list N) : Prop :=
  exists sg ds f e, t = sg ++ ds ++ f ++ e /\ optional_minus sg /\ natural ds /\ optional_fraction f /\ optional_exponent e /\ f ++ e <> [].

(** ** Objects: what a list of members stands for *)
(** Each name once, where it first occurs ... *)
Fixpoint firsts (ks : list (list N)) : list (list N) :=
  match ks with [] => [] | k :: r => k :: filter (fun k' => negb (beqb k k')) (firsts r) end.
(** ... with the value it is given last. *)
Definition last_value {A} (l : list (list N * A)) (k : list N) (v : A) : Prop :=
  exists a b, l = a ++ (k, v) :: b /\ ~ In k (map fst b).
Definition object {A} (l d : list (list N * A)) : Prop :=
  map fst d = firsts (map fst l) /\ forall k v, In (k, v) d -> last_value l k v.

Section Grammar.
  Context {float : Type}.
  Variable to_float : bytes -> float.
  (** Are NaN, Infinity and -Infinity taken as numbers?  They are not JSON, but Python writes and reads them. *)
  Variable lenient : bool.
  Definition gap (w : list N) : Prop := Forall (fun c => In c [32; 9; 10; 13]) w.

  Inductive json : list N -> value float -> Prop :=
  | j_null : json (B "null") (VNull _)
  | j_true : json (B "true") (VBool _ true)
  | j_false : json (B "false") (VBool _ false)
  | j_nan : lenient = true -> json (B "NaN") (VNaN _)
  | j_inf : lenient = true -> json (B "Infinity") (VInf _ false)
  | j_minus_inf : lenient = true -> json (B "-Infinity") (VInf _ true)
  | j_natural ds : natural ds -> json ds (VInt _ (Z.of_N (natural_value ds)))
  | j_negative ds : natural ds -> json ([45] ++ ds) (VInt _ (- Z.of_N (natural_value ds)))
  | j_real t : real_text t -> json t (VFloat _ (to_float t))
  | j_string t s : json_string t s -> json t (VStr _ s)
  | j_empty_list w : gap w -> json ([91] ++ w ++ [93]) (VList _ [])
  | j_list t l : elements t l -> json ([91] ++ t ++ [93]) (VList _ l)
  | j_empty_object w : gap w -> json ([123] ++ w ++ [125]) (VDict _ [])
  | j_object t l d : members t l -> object l d -> json ([123] ++ t ++ [125]) (VDict _ d)
  with elements : list N -> list (value float) -> Prop :=
  | e_last w t v w' : gap w -> json t v -> gap w' -> elements (w ++ t ++ w') [v]
  | e_more w t v w' r l : gap w -> json t v -> gap w' -> elements r l -> elements (w ++ t ++ w' ++ [44] ++ r) (v :: l)
  with members : list N -> list (list N * value float) -> Prop :=
  | m_last w k s w1 w2 t v w' : gap w -> json_string k s -> gap w1 -> gap w2 -> json t v -> gap w' ->
      members (w ++ k ++ w1 ++ [58] ++ w2 ++ t ++ w') [(s, v)]
  | m_more w k s w1 w2 t v w' r l : gap w -> json_string k s -> gap w1 -> gap w2 -> json t v -> gap w' -> members r l ->
      members (w ++ k ++ w1 ++ [58] ++ w2 ++ t ++ w' ++ [44] ++ r) ((s, v) :: l).
  Definition json_text (t : list N) (v : value float) : Prop :=
    exists w body w', t = w ++ body ++ w' /\ gap w /\ gap w' /\ json body v.
End Grammar.

(** ** Values *)
Section Values.
  Context {float : Type}.
  (** [P] of a value and of everything in it. *)
  Inductive everywhere (P : value float -> Prop) : value float -> Prop :=
  | ev_list l : P (VList _ l) -> Forall (everywhere P) l -> everywhere P (VList _ l)
  | ev_dict d : P (VDict _ d) -> Forall (fun kv => everywhere P (snd kv)) d -> everywhere P (VDict _ d)
  | ev_other v : P v -> match v with VList _ _ | VDict _ _ => False | _ => True end -> everywhere P v.
  (** Neither bytes nor anything else JSON has no form for. *)
  Definition expressible (v : value float) : Prop := match v with VBytes _ _ | VOther _ => False | _ => True end.
  Definition standard (v : value float) : Prop := match v with VNaN _ | VInf _ _ => False | _ => True end.
  (** Text: code points, without two surrogates that form a pair. *)
  Definition sound_text (s : list N) : Prop :=
    Forall (fun c => c < 0x110000) s /\ forall a u v b, s = a ++ u :: v :: b -> lead u && trail v = false.
  Definition sound (v : value float) : Prop :=
    match v with
    | VStr _ s => sound_text s
    | VDict _ d => NoDup (map fst d) /\ Forall (fun kv => sound_text (fst kv)) d
    | _ => True
    end.
  (** float(repr(f)) is [f], and repr writes a JSON number with a fraction or an exponent. *)
  Definition faithful (repr : float -> bytes) (to_float : bytes -> float) : Prop :=
    forall f, real_text (repr f) /\ to_float (repr f) = f.
  (** What the site is meant to get of a value that was put into a packet: itself, or for bytes a text,
      the very text they are the UTF-8 form of if they are that. *)
  Inductive arrives : value float -> value float -> Prop :=
  | ar_bytes b s : Forall Utf8.scalar s -> (forall t, Utf8.utf8 t b -> s = t) -> arrives (VBytes _ b) (VStr _ s)
  | ar_same v : match v with VBytes _ _ => False | _ => True end -> arrives v v.
  Definition packet_arrives (p q : list (list N * value float)) : Prop :=
    Forall2 (fun kv kv' => fst kv = fst kv' /\ arrives (snd kv) (snd kv')) p q.
  (** What a packet may hold: different keys; bytes, or values without bytes (or other things JSON lacks) inside. *)
  Definition packet_value (v : value float) : Prop :=
    match v with VBytes _ _ => True | _ => everywhere expressible v /\ everywhere sound v end.
  Definition packet_like (p : list (list N * value float)) : Prop :=
    NoDup (map fst p) /\ Forall (fun kv => sound_text (fst kv) /\ packet_value (snd kv)) p.
End Values.
