(** C73, C74: the class a Java program is run by, the package a Go program is in. *)
From Coq Require Import String.
From Verif Require Import Model.Bytes Model.Utf8 Model.Executors Model.Feedback Model.Sources.
From Verif Require Import Spec.Text Spec.Utf8 Spec.Feedback Spec.Sources.
From Verif Require Proofs.Utf8 Proofs.Sources.
Local Open Scope nat_scope.
Local Open Scope list_scope.

(** \w and \s beyond ASCII share no character. *)
Definition apart (word_beyond space_beyond : N -> bool) : Prop :=
  forall c, (128 <= c)%N -> word_beyond c = true -> space_beyond c = true -> False.

(** ** C73 *)
(** A program is compiled and run by the first public class declared outside comments and
    literals, unless it names a package. *)
Theorem C73_class : forall wb sb l n, apart wb sb -> Forall tame l ->
  (find_class wb sb (text_of l) = Class n <->
   first_class (fun c => jword wb c = true) (fun c => jspace sb c = true) (code_of l) n /\
   ~ has_package (fun c => jword wb c = true) (fun c => jspace sb c = true) (code_of l)).
Proof. intros wb sb l n A T. rewrite <- (Proofs.Sources.java_code_tame l T). exact (Proofs.Sources.find_class_iff wb sb A _ _). Qed.
(** The characters of words and the blanks: ASCII as Python has them, others as the tables say. *)
Theorem C73_characters : forall wb sb c,
  (jword wb c = true <-> letter c \/ digit c \/ c = 95%N \/ (128 <= c /\ wb c = true)%N)
  /\ (jspace sb c = true <-> In c [9; 10; 11; 12; 13; 28; 29; 30; 31; 32]%N \/ (128 <= c /\ sb c = true)%N).
Proof. exact Proofs.Sources.characters. Qed.
(** It is refused for want of a class exactly when it declares none. *)
Theorem C73_no_class : forall wb sb l, apart wb sb -> Forall tame l ->
  (find_class wb sb (text_of l) = NoClass <->
   forall pre n, ~ declares (fun c => jword wb c = true) (fun c => jspace sb c = true) (code_of l) pre n).
Proof. intros wb sb l A T. rewrite <- (Proofs.Sources.java_code_tame l T). exact (Proofs.Sources.find_class_none wb sb A _). Qed.
(** What is in comments and literals does not matter. *)
Theorem C73_hidden : forall wb sb l l', Forall tame l -> Forall tame l' -> code_of l = code_of l' ->
  find_class wb sb (text_of l) = find_class wb sb (text_of l').
Proof. intros wb sb l l' T T' E. unfold find_class. rewrite !Proofs.Sources.java_code_tame, E by assumption. reflexivity. Qed.

(** Whatever the source, the name is a file name in the directory and no option. *)
Theorem C73_safe_name : forall wb sb source n, find_class wb sb source = Class n ->
  n <> [] /\ Forall (fun c => jword wb c = true \/ c = 36%N) n /\
  ~ In 47%N n /\ ~ In 0%N n /\ ~ In 46%N n /\ (forall r, n <> 45%N :: r).
Proof.
  intros wb sb source n H. apply Proofs.Sources.class_name_safe in H as [Hn F]. split; [exact Hn|]. split; [exact F|].
  assert (K : forall c, (c = 47 \/ c = 0 \/ c = 46 \/ c = 45)%N -> ~ In c n).
  { intros c Hc I. rewrite Forall_forall in F. specialize (F c I). destruct Hc as [->|[->|[->| ->]]]; cbn in F; destruct F; discriminate. }
  split; [apply K; tauto|]. split; [apply K; tauto|]. split; [apply K; tauto|]. intros r ->. apply (K 45%N); cbn; tauto.
Qed.

(** The files made: the class's file has the submission in it, byte for byte, and is not the
    security policy's; the compiler is given that file and the machine that class. *)
Theorem C73_files : forall wb sb problem policy source opens files f n,
  java_files wb sb problem policy source opens = Created files f n ->
  (exists t, utf8 t source /\ find_class wb sb t = Class n) /\
  f = n ++ B ".java" /\ opens f = Opens /\ f <> B "security.policy" /\
  files = [(problem ++ B ".java", source); (B "security.policy", policy); (f, source)].
Proof.
  intros wb sb problem policy source opens files f n. unfold java_files.
  destruct (utf8text source) as [t|] eqn:U; [|discriminate]. destruct (find_class wb sb t) as [|g|n'] eqn:C; [discriminate..|]. cbn zeta.
  destruct (opens (n' ++ B ".java")) eqn:O; [|discriminate..]. apply Proofs.Utf8.utf8text_iff in U. pose proof U as U'. apply Proofs.Utf8.utf8bytes_iff in U' as ->.
  intros [= <- <- <-]. split; [exists t; split; assumption|]. split; [reflexivity|]. split; [exact O|]. split; [|reflexivity].
  destruct (C73_safe_name _ _ _ _ C) as (_ & _ & _ & _ & Hd & _). intros E.
  assert (K : exists k, n' ++ B ".java" = B "security" ++ k /\ length n' = 10) by (exists (B ".policy"); split; [exact E|apply (f_equal (@length N)) in E; rewrite app_length in E; cbn in E; Lia.lia]).
  destruct K as (k & _ & L). apply (f_equal (firstn 10)) in E. rewrite firstn_app, <- L, firstn_all, Nat.sub_diag, L in E. cbn in E. rewrite app_nil_r in E. subst n'. apply Hd. cbn. tauto.
Qed.
(** And when no files come out, the reason told is the right one. *)
Theorem C73_refused : forall wb sb problem policy source opens,
  (java_files wb sb problem policy source opens = BadUtf8 <-> forall t, ~ utf8 t source) /\
  (java_files wb sb problem policy source opens = NoPublicClass <-> exists t, utf8 t source /\ find_class wb sb t = NoClass) /\
  (forall g, java_files wb sb problem policy source opens = InvalidPackage g <-> exists t, utf8 t source /\ find_class wb sb t = Package g) /\
  (java_files wb sb problem policy source opens = NameTooLong <->
   exists t n, utf8 t source /\ find_class wb sb t = Class n /\ opens (n ++ B ".java") = BadName) /\
  (java_files wb sb problem policy source opens = Raised <->
   exists t n, utf8 t source /\ find_class wb sb t = Class n /\ opens (n ++ B ".java") = OtherError).
Proof.
  intros wb sb problem policy source opens. unfold java_files. destruct (utf8text source) as [t|] eqn:U.
  - assert (K : forall t', utf8 t' source -> t' = t) by (intros t' H; apply Proofs.Utf8.utf8text_iff in H; congruence).
    apply Proofs.Utf8.utf8text_iff in U. pose proof U as U'. apply Proofs.Utf8.utf8bytes_iff in U' as ->.
    assert (J : forall P : text -> Prop, (exists t', utf8 t' source /\ P t') <-> P t) by (intros P; split; [intros (t' & H & Q); rewrite <- (K t' H); exact Q|intros Q; exists t; split; assumption]).
    assert (J2 : forall P : text -> text -> Prop, (exists t' n, utf8 t' source /\ P t' n) <-> exists n, P t n).
    { intros P; split; [intros (t' & n & H & Q); exists n; rewrite <- (K t' H); exact Q|intros (n & Q); exists t, n; split; assumption]. }
    split; [|split; [rewrite J|split; [intros g; rewrite J|split; [rewrite (J2 (fun t' n => find_class wb sb t' = Class n /\ opens (n ++ B ".java") = BadName))|rewrite (J2 (fun t' n => find_class wb sb t' = Class n /\ opens (n ++ B ".java") = OtherError))]]]];
    clear J J2; (destruct (find_class wb sb t) as [|g'|n']; cbn zeta; [| |destruct (opens (n' ++ B ".java")) eqn:O]); split; intros H;
      try discriminate; try (exfalso; exact (H t U)); try reflexivity; try congruence;
      try (exists n'; split; [reflexivity|exact O]); destruct H as (m & E & Om); (discriminate || (injection E as <-; congruence)).
  - assert (K : forall t, ~ utf8 t source) by (intros t H; apply Proofs.Utf8.utf8text_iff in H; congruence).
    split; [split; [intros _; exact K|reflexivity]|]. split; [|split; [intros g|split]]; (split; [discriminate|]);
      [intros (t & H & _)|intros (t & H & _)|intros (t & n & H & _)|intros (t & n & H & _)]; exfalso; exact (K t H).
Qed.
Theorem C73_command : forall wb sb source n compiler dir mode agent memory, find_class wb sb source = Class n ->
  last (javac_args compiler dir (n ++ B ".java")) [] = dir ++ B "/" ++ n ++ B ".java" /\
  last (java_args mode agent memory n) [] = n /\ (forall r, n <> 45%N :: r).
Proof. intros wb sb source n compiler dir mode agent memory H. apply C73_safe_name in H. repeat split; try reflexivity. apply H. Qed.

(** Left as they are in the code: texts that are not tame. *)
(** A string holding the beginning of a comment hides the code up to the next end of one. *)
Theorem C73_string_refuted : find_class (fun _ => false) (fun _ => false) (B "class A { String s = ""/*""; } public class Main { } /* */") = NoClass.
Proof. vm_compute. reflexivity. Qed.
(** A line comment that ends the file without a newline is read as code. *)
Theorem C73_last_line_refuted : find_class (fun _ => false) (fun _ => false) (B "public class Main { } // package x;") = Package (B "x").
Proof. vm_compute. reflexivity. Qed.
(** The dollar sign, allowed in names, ends them. *)
Theorem C73_dollar_refuted :
  find_class (fun _ => false) (fun _ => false) (B "public class A$B { }") = Class (B "A") /\
  find_class (fun _ => false) (fun _ => false) (B "public class $A { }") = Class (B "$").
Proof. split; vm_compute; reflexivity. Qed.

(** ** C74 *)
(** Comments first, then the package clause on one line: accepted exactly if it is main. *)
Theorem C74_package : forall l w x rest, Forall tame l -> Forall (fun p => match p with Str _ | Chr _ => False | _ => True end) l ->
  all_white (code_of l) -> w <> [] -> all_white w -> ~ In 10%N w ->
  x <> [] -> Forall go_word x -> (rest = [] \/ exists c r, rest = c :: r /\ ~ go_word c /\ c <> 47%N) ->
  (go_accepts (text_of l ++ B "package" ++ w ++ x ++ rest) = true <-> x = B "main").
Proof. exact Proofs.Sources.go_leading. Qed.
(** Every source: what is looked at is the text without comments. *)
Theorem C74_every : forall source, go_accepts source = true <-> package_main (decomment source).
Proof. exact Proofs.Sources.go_accepts_iff. Qed.
(** The clause may be on two lines in Go; it is refused. *)
Theorem C74_two_lines_refuted : go_accepts (B "package" ++ [10%N] ++ B "main" ++ [10%N]) = false.
Proof. reflexivity. Qed.
(** A text that is not tame gets past the check: Go sees [package foo]. *)
Theorem C74_bypass_refuted : go_accepts (B "//*" ++ [10%N] ++ B "package foo" ++ [10%N] ++ B "var x = `*//" ++ [10%N] ++ B "package main" ++ [10%N] ++ B "`" ++ [10%N]) = true.
Proof. vm_compute. reflexivity. Qed.

(** ** Concrete cases *)
Definition ex_pieces : list piece :=
  [Line (B " public class No { }") 10%N; Block (B " package x; * "); Code (B "import java.util.*; "); Code (B "class A { String s = ");
   Str (B "public class B \"" // "); Code (B "; int x = 4 "); Slash 32%N; Code (B "2; char c = "); Chr (B "\'"); Code (B "; } public final  class M4in { }")].
Example C73_ex : Forall tame ex_pieces /\ find_class (fun _ => false) (fun _ => false) (text_of ex_pieces) = Class (B "M4in").
Proof.
  split; [|vm_compute; reflexivity]. unfold ex_pieces.
  assert (D : forall m s, contains m s = false -> ~ occurs m s) by (intros m s H1 H2; apply Proofs.Feedback.contains_occurs in H2; congruence).
  repeat (apply Forall_cons; [|]); [..|apply Forall_nil]; cbn [tame].
  - repeat split; try (apply D; reflexivity); cbn; intuition discriminate.
  - apply D; reflexivity.
  - cbn; intuition discriminate.
  - cbn; intuition discriminate.
  - split; [|apply D; reflexivity]. repeat first [apply lit_end|apply lit_escape|apply lit_plain; [discriminate..|]].
  - cbn; intuition discriminate.
  - repeat split; discriminate.
  - cbn; intuition discriminate.
  - split; [right; eexists; reflexivity|apply D; reflexivity].
  - cbn; intuition discriminate.
Qed.
Example C73_ex_files : exists files, java_files (fun _ => false) (fun _ => false) (B "aplusb") (B "grant") (B "public class Main { }") (fun _ => Opens) =
  Created files (B "Main.java") (B "Main").
Proof. eexists. vm_compute. reflexivity. Qed.
Example C74_ex : Forall tame [Block (B " hello "); Line (B " package foo") 10%N; Code (B " ")] /\
  all_white (code_of [Block (B " hello "); Line (B " package foo") 10%N; Code (B " ")]) /\
  go_accepts (text_of [Block (B " hello "); Line (B " package foo") 10%N; Code (B " ")] ++ B "package  main" ++ [10%N]) = true.
Proof.
  split; [|split; [|vm_compute; reflexivity]].
  - assert (D : forall m s, contains m s = false -> ~ occurs m s) by (intros m s H1 H2; apply Proofs.Feedback.contains_occurs in H2; congruence).
    repeat constructor; cbn [tame]; repeat split; try (apply D; reflexivity); cbn; intuition discriminate.
  - vm_compute. repeat constructor; Lia.lia.
Qed.

Print Assumptions C73_class.
Print Assumptions C73_no_class.
Print Assumptions C73_hidden.
Print Assumptions C73_safe_name.
Print Assumptions C73_files.
Print Assumptions C73_refused.
Print Assumptions C73_command.
Print Assumptions C73_string_refuted.
Print Assumptions C73_last_line_refuted.
Print Assumptions C73_dollar_refuted.
Print Assumptions C74_package.
Print Assumptions C74_every.
Print Assumptions C74_two_lines_refuted.
Print Assumptions C74_bypass_refuted.

Print Assumptions C73_characters.
