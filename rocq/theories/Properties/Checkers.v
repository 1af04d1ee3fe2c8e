(** Property theorems for the built-in checkers (C01-C07). *)
From Coq Require Import String QArith Permutation.
From Verif Require Import Model.Bytes Model.Checkers Spec.Text.
From Verif Require Proofs.Standard Proofs.Checkers Proofs.TextFacts.
Local Open Scope nat_scope.
Local Open Scope list_scope.

(** C01: the default checker accepts exactly when both outputs have the same
    non-blank lines of words. *)
Theorem C01_standard_decides_layout : forall process judge,
  exists b, standard_check process judge = RBool b /\ (b = true <-> layout process = layout judge).
Proof. exact Proofs.Checkers.standard_check_spec. Qed.
Print Assumptions C01_standard_decides_layout.

(** The specification means what it says: rendering any structure of words and
    lines and splitting it again gives the structure back. *)
Theorem C01_layout_render : forall ls : list (list bytes),
  Forall (fun l => l <> [] /\ Forall (fun w => w <> [] /\ Forall (fun c => ~ whitespace c) w) l) ls ->
  layout (TextFacts.join 10 (map (TextFacts.join 32) ls)) = ls.
Proof. exact Proofs.TextFacts.layout_render. Qed.
Print Assumptions C01_layout_render.
Example C01_layout_render_ex :
  layout (B "ab  c
   
 d ") = [[B "ab"; B "c"]; [B "d"]].
Proof. reflexivity. Qed.

Theorem C01_standard_equivalence :
  (forall a, standard_check a a = RBool true) /\
  (forall a b, standard_check a b = RBool true -> standard_check b a = RBool true) /\
  (forall a b c, standard_check a b = RBool true -> standard_check b c = RBool true -> standard_check a c = RBool true).
Proof. exact Proofs.Checkers.standard_equivalence. Qed.
Print Assumptions C01_standard_equivalence.

(** Leading/trailing whitespace and CRLF line ends never matter. *)
Theorem C01_standard_ignores_whitespace : forall judge w,
  all_white w ->
  standard_check (judge ++ w) judge = RBool true /\ standard_check (w ++ judge) judge = RBool true /\
  standard_check (flat_map (fun c => if (c =? 10)%N then [13; 10]%N else [c]) judge) judge = RBool true.
Proof. exact Proofs.Checkers.standard_ignores_whitespace. Qed.
Print Assumptions C01_standard_ignores_whitespace.
Example C01_ex_accept : standard_check (B "1  2
3
") (B "1 2

3") = RBool true.
Proof. reflexivity. Qed.
Example C01_ex_reject_line : standard_check (B "1 2 3") (B "1 2
3") = RBool false.
Proof. reflexivity. Qed.
Example C01_ex_reject_prefix : standard_check (B "12") (B "123") = RBool false /\ standard_check (B "123") (B "12") = RBool false.
Proof. split; reflexivity. Qed.

(** C02: no read outside either buffer, and the scan terminates. *)
Theorem C02_standard_memory_safe : forall judge process,
  check_standard judge (length judge) process (length process) <> OOB /\
  check_standard judge (length judge) process (length process) <> NoFuel.
Proof. exact Proofs.Checkers.standard_safe. Qed.
Print Assumptions C02_standard_memory_safe.
(** The check is not vacuous: with a wrong length the model does report the over-read. *)
Example C02_detects_overread : check_standard (B "ab") 3 (B "ab ") 3 = OOB.
Proof. reflexivity. Qed.

(** C03 *)
Theorem C03_identical : forall process judge pe_allowed,
  (process = judge -> identical_check process judge pe_allowed = RBool true) /\
  (process <> judge ->
     exists fb, identical_check process judge pe_allowed = RResult false 0 fb /\
       (fb = Some (B "Presentation Error, check your whitespace") <->
          pe_allowed = true /\ layout process = layout judge) /\
       (fb = None <-> ~ (pe_allowed = true /\ layout process = layout judge))).
Proof. exact Proofs.Checkers.identical_check_spec. Qed.
Print Assumptions C03_identical.
Example C03_ex : identical_check (B "a ") (B "a") true = RResult false 0 (Some pe_message)
  /\ identical_check (B "a ") (B "a") false = RResult false 0 None /\ identical_check (B "a") (B "a") true = RBool true.
Proof. repeat split. Qed.

(** C04 *)
Theorem C04_sorted_lines : forall process judge,
  exists b, sorted_check process judge (B "lines") = RBool b /\
    (b = true <-> Permutation (map words (nonempty_lines process)) (map words (nonempty_lines judge))).
Proof. exact Proofs.Checkers.sorted_lines_spec. Qed.
Print Assumptions C04_sorted_lines.
Theorem C04_sorted_whitespace : forall process judge,
  exists b, sorted_check process judge (B "whitespace") = RBool b /\
    (b = true <-> Permutation (words process) (words judge)).
Proof. exact Proofs.Checkers.sorted_ws_spec. Qed.
Print Assumptions C04_sorted_whitespace.
Theorem C04_unordered : forall process judge,
  exists b, unordered_check process judge = RBool b /\ (b = true <-> Permutation (words process) (words judge)).
Proof. exact Proofs.Checkers.sorted_ws_spec. Qed.
Print Assumptions C04_unordered.
Theorem C04_sorted_bad_mode : forall process judge mode,
  mode <> B "lines" -> mode <> B "whitespace" -> sorted_check process judge mode = RInternalError.
Proof. exact Proofs.Checkers.sorted_other_spec. Qed.
Print Assumptions C04_sorted_bad_mode.
Example C04_ex : sorted_check (B "b a
c") (B "c
b  a") (B "lines") = RBool true /\ sorted_check (B "a b
c") (B "c
b  a") (B "lines") = RBool false
  /\ unordered_check (B "3 1
2") (B "1 2 3") = RBool true /\ unordered_check (B "3 1 1") (B "1 3 3") = RBool false
  /\ sorted_check [] [] (B "words") = RInternalError.
Proof. repeat split. Qed.

(** C05 *)
Theorem C05_easy : forall process judge,
  exists b, easy_check process judge = RBool b /\
    (b = true <-> Permutation (visible_folded process) (visible_folded judge)).
Proof. exact Proofs.Checkers.easy_check_spec. Qed.
Print Assumptions C05_easy.
Example C05_ex : easy_check (B "Listen ") (B "si
LENT") = RBool true /\ easy_check (B "aab") (B "abb") = RBool false.
Proof. split; reflexivity. Qed.

(** C06 *)
Theorem C06_rstripped : forall process judge (filter_new_line : bool),
  exists b, rstripped_check process judge filter_new_line = RBool b /\
    (b = true <-> Forall2 same_upto_trailing
                    (if filter_new_line then nonempty_lines process else lines process)
                    (if filter_new_line then nonempty_lines judge else lines judge)).
Proof. exact Proofs.Checkers.rstripped_check_spec. Qed.
Print Assumptions C06_rstripped.
Example C06_ex : rstripped_check (B "a  
 b") (B "a
 b ") false = RBool true /\ rstripped_check (B "a
b") (B "a
 b") false = RBool false /\ rstripped_check (B "a

b") (B "a
b") true = RBool true /\ rstripped_check (B "a

b") (B "a
b") false = RBool false.
Proof. repeat split. Qed.

(** C07 (exact-arithmetic version; 10003 is U+2713, the check mark). *)
Theorem C07_linecount : forall process judge (pv : Q) (fb : bool),
  let pl := nonempty_lines process in
  let jl := nonempty_lines judge in
  (length jl < length pl -> linecount_check process judge pv fb = RBool false) /\
  (pl = [] -> jl = [] -> linecount_check process judge pv fb = RBool true) /\
  (length pl <= length jl -> jl <> [] ->
     exists k passed points cases,
       agree_count pl jl k /\
       linecount_check process judge pv fb = RResult passed points (Some (if fb then cases else [])) /\
       (passed = true <-> Forall2 same_upto_surrounding pl jl) /\
       (points == pv * (inject_Z (Z.of_nat k) / inject_Z (Z.of_nat (length jl))))%Q /\
       ((0 <= pv)%Q -> (0 <= points <= pv)%Q) /\
       ((0 <= pv)%Q -> passed = true -> (points == pv)%Q) /\
       length cases = length jl /\
       (forall i, nth_error cases i = Some 10003%N <->
          exists p j, nth_error pl i = Some p /\ nth_error jl i = Some j /\ same_upto_surrounding p j)).
Proof. exact Proofs.Checkers.linecount_check_spec. Qed.
Print Assumptions C07_linecount.
Theorem C07_agree_count_functional : forall ps js k k',
  agree_count ps js k -> agree_count ps js k' -> k = k'.
Proof. exact (fun ps js k k' H H' => Proofs.Checkers.agree_count_fun ps js k H k' H'). Qed.
Print Assumptions C07_agree_count_functional.
Example C07_ex : linecount_check (B "a
x
c") (B "a
b
 c
d") 8 true = RResult false (8 * (2#1) / (4#1)) (Some [10003; 10007; 10003; 10007]%N).
Proof. reflexivity. Qed.
