(** C64: text and bytes. *)
From Coq Require Import String.
From Verif Require Import Model.Bytes Model.Utf8.
From Verif Require Import Spec.Utf8.
From Verif Require Proofs.Utf8.
Local Open Scope N_scope.
Local Open Scope list_scope.

(** Reading bytes as text succeeds exactly on UTF-8 and yields the text they stand for. *)
Theorem C64_decode s t : utf8text s = Some t <-> utf8 t s.
Proof. exact (Proofs.Utf8.utf8text_iff s t). Qed.

(** Writing text as bytes yields its UTF-8 form and succeeds exactly without surrogates. *)
Theorem C64_encode t :
  (forall s, utf8bytes t = Some s <-> utf8 t s) /\ ((exists s, utf8bytes t = Some s) <-> Forall scalar t).
Proof. exact (conj (Proofs.Utf8.utf8bytes_iff t) (Proofs.Utf8.utf8bytes_some t)). Qed.

(** Nothing is lost on the way there and back, in either direction. *)
Theorem C64_round_trip :
  (forall t, Forall scalar t -> exists s, utf8bytes t = Some s /\ utf8text s = Some t) /\
  (forall s t, utf8text s = Some t -> utf8bytes t = Some s).
Proof. exact (conj Proofs.Utf8.utf8_round_trip Proofs.Utf8.utf8_round_trip_bytes). Qed.

(** The lenient reading always gives text that can be sent, agrees with the strict one
    on UTF-8, and keeps every ASCII character of the bytes, in order, adding none. *)
Theorem C64_lenient s :
  Forall scalar (utf8text_replace s) /\
  (forall t, utf8 t s -> utf8text_replace s = t) /\
  filter is_ascii (utf8text_replace s) = filter is_ascii s.
Proof.
  exact (conj (Proofs.Utf8.replace_scalar s 0)
          (conj (fun t => Proofs.Utf8.replace_valid t s) (Proofs.Utf8.replace_ascii (length s) s (le_n _)))).
Qed.

(** The shown prefix of a UTF-8 output, cut after any number of bytes: all the characters
    that fit, then one U+FFFD exactly when the cut goes through a character. *)
Theorem C64_prefix t s : utf8 t s -> forall n,
  exists t1 t2 s1, t = t1 ++ t2 /\ utf8 t1 s1 /\ (length s1 <= n)%nat /\
    ((firstn n s = s1 /\ output_prefix s n = t1) \/
     ((length s1 < n)%nat /\ firstn n s <> s1 /\ output_prefix s n = t1 ++ [unknown] /\
      exists c t3 b, t2 = c :: t3 /\ utf8_char c b /\ (n < length s1 + length b)%nat)).
Proof. exact (Proofs.Utf8.prefix_of_text t s). Qed.

(** "aé€😀" and its bytes. *)
Definition ex_text : list N := [97; 233; 8364; 128512].
Definition ex_bytes : list N := [97; 195; 169; 226; 130; 172; 240; 159; 152; 128].
Example C64_ex : utf8bytes ex_text = Some ex_bytes /\ utf8text ex_bytes = Some ex_text /\
  utf8 ex_text ex_bytes /\ output_prefix ex_bytes 5 = [97; 233; 65533] /\
  utf8text [97; 237; 160; 128] = None /\ utf8text_replace [97; 237; 160; 128; 98] = [97; 65533; 65533; 65533; 98] /\
  utf8text [192; 128] = None /\ utf8bytes [55296] = None.
Proof.
  split; [reflexivity|]. split; [reflexivity|]. split; [apply C64_decode; reflexivity|]. repeat split.
Qed.

Print Assumptions C64_decode.
Print Assumptions C64_encode.
Print Assumptions C64_round_trip.
Print Assumptions C64_lenient.
Print Assumptions C64_prefix.
