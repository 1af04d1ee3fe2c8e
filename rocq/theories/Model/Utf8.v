(** UTF-8 as the judge uses it (dmoj/utils/unicode.py: utf8bytes, utf8text).

    A [str] is the list of its code points, [bytes] the list of its bytes.  CPython's
    codec (Objects/stringlib/codecs.h: utf8_decode, utf8_encoder) is modelled because
    the judge's promises about sources, feedback and output prefixes rest on it. *)
From Verif Require Import Model.Bytes.
Local Open Scope N_scope.
Local Open Scope list_scope.

Definition text := list N.
Definition REPLACEMENT : N := 65533.

(** A continuation byte 10xxxxxx. *)
Definition is_cont (c : N) : bool := (128 <=? c) && (c <=? 191).
(** The second byte of a three-byte sequence: no overlong forms, no surrogates. *)
Definition second3 (b0 b1 : N) : bool :=
  is_cont b1 && negb ((b0 =? 224) && (b1 <? 160)) && negb ((b0 =? 237) && (160 <=? b1)).
(** The second byte of a four-byte sequence: no overlong forms, nothing above 0x10FFFF. *)
Definition second4 (b0 b1 : N) : bool :=
  is_cont b1 && negb ((b0 =? 240) && (b1 <? 144)) && negb ((b0 =? 244) && (144 <=? b1)).

(** What the decoder finds at the front of a non-empty string: a character and how many
    bytes it took, or an error and how many bytes the error handler is given. *)
Inductive found := Char (c : N) (len : nat) | Bad (len : nat).
Definition decode1 (s : bytes) : found :=
  match s with
  | [] => Bad 1
  | b0 :: r =>
      if b0 <? 128 then Char b0 1
      else if b0 <? 194 then Bad 1
      else if b0 <? 224 then
        match r with
        | b1 :: _ => if is_cont b1 then Char ((b0 - 192) * 64 + (b1 - 128)) 2 else Bad 1
        | [] => Bad 1
        end
      else if b0 <? 240 then
        match r with
        | b1 :: r1 =>
            if second3 b0 b1 then
              match r1 with
              | b2 :: _ => if is_cont b2 then Char ((b0 - 224) * 4096 + (b1 - 128) * 64 + (b2 - 128)) 3 else Bad 2
              | [] => Bad 2
              end
            else Bad 1
        | [] => Bad 1
        end
      else if b0 <? 245 then
        match r with
        | b1 :: r1 =>
            if second4 b0 b1 then
              match r1 with
              | b2 :: r2 =>
                  if is_cont b2 then
                    match r2 with
                    | b3 :: _ =>
                        if is_cont b3
                        then Char ((b0 - 240) * 262144 + (b1 - 128) * 4096 + (b2 - 128) * 64 + (b3 - 128)) 4
                        else Bad 3
                    | [] => Bad 3
                    end
                  else Bad 2
              | [] => Bad 2
              end
            else Bad 1
        | [] => Bad 1
        end
      else Bad 1
  end.

(** bytes.decode('utf-8', 'strict'), unicode.py:34-39; [None] = UnicodeDecodeError.
    [skip] counts the bytes of the current character still to be passed over. *)
Fixpoint decode_from (skip : nat) (s : bytes) : option text :=
  match s with
  | [] => Some []
  | _ :: r =>
      match skip with
      | S k => decode_from k r
      | O => match decode1 s with
             | Char c n => match decode_from (pred n) r with Some t => Some (c :: t) | None => None end
             | Bad _ => None
             end
      end
  end.
Definition utf8text (s : bytes) : option text := decode_from 0 s.

(** bytes.decode('utf-8', 'replace'), unicode.py:34-39: each error becomes U+FFFD. *)
Fixpoint replace_from (skip : nat) (s : bytes) : text :=
  match s with
  | [] => []
  | _ :: r =>
      match skip with
      | S k => replace_from k r
      | O => match decode1 s with
             | Char c n => c :: replace_from (pred n) r
             | Bad n => REPLACEMENT :: replace_from (pred n) r
             end
      end
  end.
Definition utf8text_replace (s : bytes) : text := replace_from 0 s.

(** str.encode('utf-8'), unicode.py:16-21; [None] = UnicodeEncodeError (surrogates). *)
Definition encode1 (c : N) : option bytes :=
  if c <? 128 then Some [c]
  else if c <? 2048 then Some [192 + c / 64; 128 + c mod 64]
  else if c <? 65536 then
    if (55296 <=? c) && (c <=? 57343) then None
    else Some [224 + c / 4096; 128 + c / 64 mod 64; 128 + c mod 64]
  else if c <? 1114112 then
    Some [240 + c / 262144; 128 + c / 4096 mod 64; 128 + c / 64 mod 64; 128 + c mod 64]
  else None. (* no such code point *)
Fixpoint utf8bytes (t : text) : option bytes :=
  match t with
  | [] => Some []
  | c :: r => match encode1 c, utf8bytes r with Some b, Some s => Some (b ++ s) | _, _ => None end
  end.

(** result.py:69-71: the part of the output shown to the user. *)
Definition output_prefix (proc_output : bytes) (output_prefix_length : nat) : text :=
  utf8text_replace (firstn output_prefix_length proc_output).
