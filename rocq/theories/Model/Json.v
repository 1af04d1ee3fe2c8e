(** The text of a packet: json.dumps as packet.py:234-248 calls it and json.loads as packet.py:177-183 does
    (the standard library's encoder and decoder with their default settings).

    Characters are code points.  Finite floats are an abstract type with their [repr] and with float() of a
    string: CPython's conversion between binary and decimal is not modelled.  Not modelled: the recursion limit,
    keys that are not strings, subclasses of the basic types. *)
From Coq Require Import String ZArith NArith List Bool Arith.
From Verif Require Import Model.Bytes Model.Utf8.
From Verif Require Model.Access.
Import ListNotations.
Local Open Scope N_scope.
Local Open Scope list_scope.

Section Json.
  Variable float : Type.
  Variable repr : float -> bytes.
  Variable to_float : bytes -> float.

  (** A Python value.  [VBytes] and [VOther] (a Decimal, a Fraction, an object) are what json.dumps refuses. *)
  Inductive value :=
  | VNull | VBool (b : bool) | VInt (z : Z) | VFloat (f : float) | VNaN | VInf (negative : bool)
  | VStr (s : text) | VList (l : list value) | VDict (l : list (text * value))
  | VBytes (b : bytes) | VOther.

  (** ** Writing *)
  Definition hex (d : N) : N := if d <? 10 then 48 + d else 87 + d.
  Definition u4 (c : N) : bytes := B "\u" ++ [hex (c / 4096 mod 16); hex (c / 256 mod 16); hex (c / 16 mod 16); hex (c mod 16)].
  (** json/encoder.py py_encode_basestring_ascii *)
  Definition esc (c : N) : bytes :=
    if c =? 34 then B "\""" else if c =? 92 then B "\\" else if c =? 10 then B "\n" else if c =? 13 then B "\r"
    else if c =? 9 then B "\t" else if c =? 12 then B "\f" else if c =? 8 then B "\b"
    else if (32 <=? c) && (c <=? 126) then [c]
    else if c <? 65536 then u4 c
    else u4 (55296 + (c - 65536) / 1024 mod 1024) ++ u4 (56320 + (c - 65536) mod 1024).
  Definition quote (s : text) : bytes := [34] ++ flat_map esc s ++ [34].
  Definition int_text (z : Z) : bytes := if (z <? 0)%Z then [45] ++ Access.decimal (Z.to_N (- z)) else Access.decimal (Z.to_N z).
  Fixpoint separated (l : list bytes) : bytes :=
    match l with [] => [] | [t] => t | t :: r => t ++ B ", " ++ separated r end.
  Fixpoint all_or_none {A} (l : list (option A)) : option (list A) :=
    match l with [] => Some [] | Some a :: r => option_map (cons a) (all_or_none r) | None :: _ => None end.
  (** [None] = TypeError. *)
  Fixpoint dumps (v : value) : option bytes :=
    match v with
    | VNull => Some (B "null")
    | VBool b => Some (if b then B "true" else B "false")
    | VInt z => Some (int_text z)
    | VFloat f => Some (repr f)
    | VNaN => Some (B "NaN")
    | VInf n => Some (if n then B "-Infinity" else B "Infinity")
    | VStr s => Some (quote s)
    | VList l => option_map (fun ts => [91] ++ separated ts ++ [93]) (all_or_none (map dumps l))
    | VDict l =>
        option_map (fun ts => [123] ++ separated ts ++ [125])
                   (all_or_none (map (fun kv => option_map (fun t => quote (fst kv) ++ B ": " ++ t) (dumps (snd kv))) l))
    | VBytes _ | VOther => None
    end.

  (** ** Reading *)
  Definition blank (c : N) : bool := (c =? 32) || (c =? 9) || (c =? 10) || (c =? 13).
  Fixpoint ws (s : text) : text := match s with c :: r => if blank c then ws r else s | [] => [] end.
  Definition is_digit (c : N) : bool := (48 <=? c) && (c <=? 57).
  Definition unhex (c : N) : option N :=
    if is_digit c then Some (c - 48) else if (97 <=? c) && (c <=? 102) then Some (c - 87)
    else if (65 <=? c) && (c <=? 70) then Some (c - 55) else None.
  Definition hex4 (a b c d : N) : option N :=
    match unhex a, unhex b, unhex c, unhex d with
    | Some a, Some b, Some c, Some d => Some (((a * 16 + b) * 16 + c) * 16 + d)
    | _, _, _, _ => None
    end.
  Definition high (u : N) : bool := (55296 <=? u) && (u <=? 56319).
  Definition low (u : N) : bool := (56320 <=? u) && (u <=? 57343).
  Definition pair (u v : N) : N := 65536 + (u - 55296) * 1024 + (v - 56320).
  Definition after (c : N) (x : option (text * text)) : option (text * text) :=
    match x with Some (t, r) => Some (c :: t, r) | None => None end.
  (** the character a one-letter escape stands for, json/decoder.py BACKSLASH *)
  Definition short (e : N) : option N :=
    if e =? 34 then Some 34 else if e =? 92 then Some 92 else if e =? 47 then Some 47 else if e =? 98 then Some 8
    else if e =? 102 then Some 12 else if e =? 110 then Some 10 else if e =? 114 then Some 13 else if e =? 116 then Some 9
    else None.
  (** json/decoder.py py_scanstring, from behind the opening quote; strict *)
  Fixpoint scanstring (s : text) : option (text * text) :=
    match s with
    | [] => None
    | c :: r =>
        if c =? 34 then Some ([], r)
        else if c =? 92 then
          match r with
          | [] => None
          | e :: r1 =>
              if e =? 117 then
                match r1 with
                | a :: b :: x :: d :: r2 =>
                    match hex4 a b x d with
                    | None => None
                    | Some u =>
                        if high u then
                          match r2 with
                          | p :: q :: a' :: b' :: x' :: d' :: r3 =>
                              if (p =? 92) && (q =? 117) then
                                match hex4 a' b' x' d' with
                                | None => None
                                | Some u' => if low u' then after (pair u u') (scanstring r3) else after u (scanstring r2)
                                end
                              else after u (scanstring r2)
                          | _ => after u (scanstring r2)
                          end
                        else after u (scanstring r2)
                    end
                | _ => None
                end
              else match short e with Some x => after x (scanstring r1) | None => None end
          end
        else if c <? 32 then None
        else after c (scanstring r)
    end.

  Fixpoint digits (s : text) : text * text :=
    match s with
    | c :: r => if is_digit c then let (d, r') := digits r in (c :: d, r') else ([], s)
    | [] => ([], [])
    end.
  Definition number_of (ds : text) : N := fold_left (fun acc c => 10 * acc + (c - 48)) ds 0.
  (** a whole number without superfluous zeros: its digits, and what follows *)
  Definition whole (s : text) : option (text * text) :=
    match s with
    | c :: r => if c =? 48 then Some ([48], r) else if is_digit c then Some (digits s) else None
    | [] => None
    end.
  (** an optional point and digits *)
  Definition fraction (s : text) : text * text :=
    match s with
    | c :: r => if c =? 46 then match digits r with ([], _) => ([], s) | (d, r') => (c :: d, r') end else ([], s)
    | [] => ([], [])
    end.
  (** an optional exponent *)
  Definition exponent (s : text) : text * text :=
    match s with
    | c :: r =>
        if (c =? 101) || (c =? 69) then
          let (sg, r1) := match r with x :: r' => if (x =? 45) || (x =? 43) then ([x], r') else ([], r) | [] => ([], []) end in
          match digits r1 with ([], _) => ([], s) | (d, r') => (c :: sg ++ d, r') end
        else ([], s)
    | [] => ([], [])
    end.
  Definition minus (s : text) : text * text := match s with c :: r => if c =? 45 then ([45], r) else ([], s) | [] => ([], []) end.
  (** json/scanner.py match_number: an int, or a float if there is a fraction or an exponent *)
  Definition scan_number (s : text) : option (value * text) :=
    let (sg, r) := minus s in
    match whole r with
    | None => None
    | Some (w, r1) =>
        let (f, r2) := fraction r1 in
        let (e, r3) := exponent r2 in
        match f ++ e with
        | [] => Some (VInt (match sg with [] => Z.of_N (number_of w) | _ => - Z.of_N (number_of w) end), r3)
        | fe => Some (VFloat (to_float (sg ++ w ++ fe)), r3)
        end
    end.
  Definition literal (t : string) (v : value) (s : text) : option (value * text) :=
    if starts_with (B t) s then Some (v, skipn (List.length (B t)) s) else None.

  (** dict(pairs): a later value replaces an earlier one, in its place *)
  Fixpoint dict_set (k : text) (v : value) (d : list (text * value)) : list (text * value) :=
    match d with
    | [] => [(k, v)]
    | (k', v') :: r => if beqb k k' then (k, v) :: r else (k', v') :: dict_set k v r
    end.
  Definition dict (l : list (text * value)) : list (text * value) := fold_left (fun d kv => dict_set (fst kv) (snd kv) d) l [].

  (** json/scanner.py scan_once, json/decoder.py JSONArray and JSONObject; [scan_list] and [scan_members] start at a value
      and at the quote of a key *)
  Fixpoint scan (fuel : nat) (s : text) : option (value * text) :=
    match fuel with
    | O => None
    | S k =>
        match s with
        | [] => None
        | c :: r =>
            if c =? 34 then match scanstring r with Some (t, r') => Some (VStr t, r') | None => None end
            else if c =? 123 then
              match ws r with
              | [] => None
              | x :: r1 => if x =? 125 then Some (VDict [], r1)
                           else match scan_members k (x :: r1) with Some (l, r') => Some (VDict (dict l), r') | None => None end
              end
            else if c =? 91 then
              match ws r with
              | [] => None
              | x :: r1 => if x =? 93 then Some (VList [], r1)
                           else match scan_list k (x :: r1) with Some (l, r') => Some (VList l, r') | None => None end
              end
            else if c =? 110 then literal "null" VNull s
            else if c =? 116 then literal "true" (VBool true) s
            else if c =? 102 then literal "false" (VBool false) s
            else if c =? 78 then literal "NaN" VNaN s
            else if c =? 73 then literal "Infinity" (VInf false) s
            else if starts_with (B "-Infinity") s then literal "-Infinity" (VInf true) s
            else scan_number s
        end
    end
  with scan_list (fuel : nat) (s : text) : option (list value * text) :=
    match fuel with
    | O => None
    | S k =>
        match scan k s with
        | None => None
        | Some (v, r) =>
            match ws r with
            | [] => None
            | x :: r1 =>
                if x =? 93 then Some ([v], r1)
                else if x =? 44 then match scan_list k (ws r1) with Some (l, r') => Some (v :: l, r') | None => None end
                else None
            end
        end
    end
  with scan_members (fuel : nat) (s : text) : option (list (text * value) * text) :=
    match fuel with
    | O => None
    | S k =>
        match s with
        | [] => None
        | q :: r0 =>
            if q =? 34 then
              match scanstring r0 with
              | None => None
              | Some (key, r1) =>
                  match ws r1 with
                  | [] => None
                  | x :: r2 =>
                      if x =? 58 then
                        match scan k (ws r2) with
                        | None => None
                        | Some (v, r) =>
                            match ws r with
                            | [] => None
                            | y :: r3 =>
                                if y =? 125 then Some ([(key, v)], r3)
                                else if y =? 44 then match scan_members k (ws r3) with Some (l, r') => Some ((key, v) :: l, r') | None => None end
                                else None
                            end
                        end
                      else None
                  end
              end
            else None
        end
    end.
  (** json.loads of a str; [None] = JSONDecodeError.  [fuel] is enough for any text of that length (proved). *)
  Definition loads (s : text) : option value :=
    match s with
    | 65279 :: _ => None                                             (* a byte order mark *)
    | _ => match scan (2 * List.length s + 2) (ws s) with
           | Some (v, r) => match ws r with [] => Some v | _ => None end
           | None => None
           end
    end.

  (** ** Packets *)
  (** packet.py:235-242: values that are bytes, in the packet itself and no deeper, become text *)
  Definition clean (p : list (text * value)) : list (text * value) :=
    map (fun kv => (fst kv, match snd kv with VBytes b => VStr (utf8text_replace b) | v => v end)) p.
  (** packet.py:242: what is compressed *)
  Definition packet_text (p : list (text * value)) : option bytes :=
    match dumps (VDict (clean p)) with Some t => utf8bytes t | None => None end.
End Json.
