(** Property theorems for the default names of test case files (C85). *)
From Coq Require Import String Sorted.
From Verif Require Import Model.Bytes Model.Regex Model.Problem Model.CaseNames Spec.Problem Spec.CaseNames.
From Verif Require Model.Access Spec.Access Proofs.CaseNames.
Local Open Scope list_scope.

(** A file is an input (output) with a batch and a case exactly when its name is marked as one
    and has these numbers: the case is the last number, the batch the number before it that
    stands for itself. *)
Theorem C85_position : forall r name b c, ~ In 10%N name ->
  (matched_groups r name = Some {| batch := b; case := Some c |} <-> marked (mark r) name /\ position name b c).
Proof. exact Proofs.CaseNames.groups_spec. Qed.
Print Assumptions C85_position.
(** Any other name is left alone. *)
Theorem C85_ignored : forall r name, ~ In 10%N name ->
  (default_parse r name = None <-> ~ (marked (mark r) name /\ exists b c, position name b c)).
Proof.
  intros r name L. rewrite <- (Proofs.CaseNames.groups_none r name L). unfold default_parse.
  destruct (matched_groups r name); split; congruence.
Qed.
Print Assumptions C85_ignored.
(** A name has one position at most. *)
Theorem C85_one_position : forall name b c b' c', position name b c -> position name b' c' -> b = b' /\ c = c'.
Proof. exact Proofs.CaseNames.position_unique. Qed.
Print Assumptions C85_one_position.
(** The numbers are read as numbers: leading zeros do not matter. *)
Theorem C85_numbers : forall r name b c, ~ In 10%N name -> marked (mark r) name -> position name b c ->
  Forall (fun x => (48 <= x <= 57)%N) c -> (forall n, b = Some n -> Forall (fun x => (48 <= x <= 57)%N) n) ->
  default_parse r name = Some (option_map (fun n => IInt (Z.of_N (Spec.Access.numeral_value n))) b, Some (IInt (Z.of_N (Spec.Access.numeral_value c)))).
Proof.
  intros r name b c L M P C Bn. rewrite (Proofs.CaseNames.default_parse_spec r name b c L (conj M P)).
  unfold Proofs.CaseNames.value_id. rewrite (Proofs.CaseNames.int_value_ascii c C). destruct b as [n|]; [|reflexivity].
  cbn [option_map]. rewrite (Proofs.CaseNames.int_value_ascii n (Bn n eq_refl)). reflexivity.
Qed.
Print Assumptions C85_numbers.
(** "x.in" and "x.out" belong to the same case. *)
Theorem C85_pair : forall s, ~ In 10%N s -> default_parse InputFile (s ++ B ".in") = default_parse OutputFile (s ++ B ".out").
Proof.
  intros s L. pose proof (Proofs.CaseNames.stem_parse InputFile s) as A. pose proof (Proofs.CaseNames.stem_parse OutputFile s) as C.
  cbn [Proofs.CaseNames.suffix] in A, C.
  assert (forall r, ~ In 10%N (s ++ Proofs.CaseNames.suffix r)) as Ls by (intros r; apply Proofs.CaseNames.no_lf_app; [exact L|apply Proofs.CaseNames.suffix_no_lf]).
  destruct (default_parse InputFile (s ++ B ".in")) as [[bi ci]|] eqn:E.
  - apply (Proofs.CaseNames.default_parse_inv InputFile) in E as (_ & b & c & P & -> & ->); [|exact (Ls InputFile)].
    apply (Proofs.CaseNames.position_suffix s (B ".in") b c (Proofs.CaseNames.suffix_plain InputFile)) in P. symmetry. exact (C b c L P).
  - destruct (default_parse OutputFile (s ++ B ".out")) as [[bi ci]|] eqn:F; [|reflexivity].
    apply (Proofs.CaseNames.default_parse_inv OutputFile) in F as (_ & b & c & P & -> & ->); [|exact (Ls OutputFile)].
    apply (Proofs.CaseNames.position_suffix s (B ".out") b c (Proofs.CaseNames.suffix_plain OutputFile)) in P.
    pose proof (A b c L P) as X. discriminate X.
Qed.
Print Assumptions C85_pair.

(** An archive laid out by a plan becomes that plan: the cases and batches come in the order of
    their numbers, whatever the order of the archive; each has its own input and output; the
    points go to them in this order; other files do not matter. *)
Theorem C85_archive : forall w sep plan names,
  Forall (fun c => is_digit c = false) w -> ~ In 10%N w -> (w = [] \/ exists q s, w = q ++ [s] /\ is_word s = false) ->
  plain sep -> sep <> [] ->
  StronglySorted N.lt (map number_of plan) ->
  (forall b cs, In (Batched b cs) plan -> (0 < b)%N /\ cs <> [] /\ StronglySorted N.lt cs) ->
  (forall i s r, In i plan -> In s (case_names Model.Access.decimal w sep i) -> ~ marked (mark r) s) ->
  (forall i s, In i plan -> In s (case_names Model.Access.decimal w sep i) -> In (s ++ B ".in") names /\ In (s ++ B ".out") names) ->
  (forall n, In n names ->
     (exists i s, In i plan /\ In s (case_names Model.Access.decimal w sep i) /\ (n = s ++ B ".in" \/ n = s ++ B ".out")) \/
     (forall r, default_parse r n = None)) ->
  forall P (points : nat -> P), exists l,
    match_test_cases default_parse names (fun i => Some (points i)) = Ok l /\ length l = length plan /\
    forall i it, nth_error plan i = Some it -> nth_error l i = Some (described Model.Access.decimal w sep it (points i)).
Proof.
  intros w sep plan names A1 A2 A3 A4 A5 A6 A7 A8 A9 A10 P points.
  apply Proofs.CaseNames.plan_result; auto.
  - intros i s r I J. destruct (A9 i s I J) as [X Y]. destruct r; assumption.
  - intros n I. destruct (A10 n I) as [(i & s & Ii & Is & [->| ->])|U]; [left; exists i, s, InputFile; auto|left; exists i, s, OutputFile; auto|right; exact U].
Qed.
Print Assumptions C85_archive.

(** ** Cases *)
Example C85_case :
  map (default_parse InputFile) [B "1.in"; B "sum.in.04"; B "tests/2-10.IN"; B "a1b2.in"; B "in7.txt"; B "data/in7.txt"; B "1 2.in"; B "notes.in"] =
  [Some (None, Some (IInt 1)); Some (None, Some (IInt 4)); Some (Some (IInt 2), Some (IInt 10)); Some (None, Some (IInt 2));
   Some (None, Some (IInt 7)); None; Some (None, Some (IInt 2)); None].
Proof. vm_compute. reflexivity. Qed.
Example C85_case_position : marked (mark InputFile) (B "tests/2-10.in") /\ position (B "tests/2-10.in") (Some (B "2")) (B "10").
Proof. apply C85_position; [cbn; intuition discriminate|vm_compute; reflexivity]. Qed.
Definition demo_plan : list item := [Single 1; Batched 2 [1; 10]; Single 10]%N.
Definition demo_names : list (list N) :=
  [B "t-10.out"; B "t-2.10.in"; B "t-1.in"; B "t-10.in"; B "README"; B "t-2.1.out"; B "t-2.1.in"; B "t-1.out"; B "t-2.10.out"].
Example C85_case_archive : match_test_cases default_parse demo_names (fun i => Some (S i)) =
  Ok [MCase {| input_file := Some (B "t-1.in"); output_file := Some (B "t-1.out") |} 1;
      MBatch [{| input_file := Some (B "t-2.1.in"); output_file := Some (B "t-2.1.out") |};
              {| input_file := Some (B "t-2.10.in"); output_file := Some (B "t-2.10.out") |}] 2;
      MCase {| input_file := Some (B "t-10.in"); output_file := Some (B "t-10.out") |} 3].
Proof. vm_compute. reflexivity. Qed.
(** The demonstration meets the hypotheses of the theorem. *)
Definition is_some {A} (o : option A) : bool := match o with Some _ => true | None => false end.
Lemma not_marked r s : ~ In 10%N s -> default_parse r (s ++ B "1") = None -> is_some (default_parse InputFile (s ++ B "1.in")) = true -> ~ marked (mark r) s.
Proof.
  intros L E F M.
  assert (marked (mark r) (s ++ B "1")) as M1.
  { destruct M as [(a & m & z & -> & W)|(m & z & -> & W)].
    - left. exists a, m, (z ++ B "1"). split; [rewrite <- !app_assoc; reflexivity|exact W].
    - right. exists m, (z ++ B "1"). split; [rewrite <- app_assoc; reflexivity|exact W]. }
  destruct (default_parse InputFile (s ++ B "1.in")) as [[bi ci]|] eqn:G; [|discriminate].
  assert (~ In 10%N (s ++ B "1.in")) as L1 by (apply Proofs.CaseNames.no_lf_app; [exact L|cbn; intuition discriminate]).
  apply (Proofs.CaseNames.default_parse_inv InputFile) in G as (_ & b & c & P & _); [|exact L1].
  change (B "1.in") with (B "1" ++ B ".in") in P. rewrite app_assoc in P. apply (Proofs.CaseNames.position_suffix (s ++ B "1") (B ".in") b c (Proofs.CaseNames.suffix_plain InputFile)) in P.
  assert (~ In 10%N (s ++ B "1")) as L2 by (apply Proofs.CaseNames.no_lf_app; [exact L|cbn; intuition discriminate]).
  apply (C85_ignored r (s ++ B "1") L2) in E. apply E. eauto.
Qed.
Example C85_case_plan :
  Forall (fun c => is_digit c = false) (B "t-") /\ ~ In 10%N (B "t-") /\ (exists q s, B "t-" = q ++ [s] /\ is_word s = false) /\
  plain (B ".") /\ StronglySorted N.lt (map number_of demo_plan) /\
  (forall b cs, In (Batched b cs) demo_plan -> (0 < b)%N /\ cs <> [] /\ StronglySorted N.lt cs) /\
  (forall i s r, In i demo_plan -> In s (case_names Model.Access.decimal (B "t-") (B ".") i) -> ~ marked (mark r) s) /\
  (forall i s, In i demo_plan -> In s (case_names Model.Access.decimal (B "t-") (B ".") i) -> In (s ++ B ".in") demo_names /\ In (s ++ B ".out") demo_names) /\
  (forall n, In n demo_names ->
     (exists i s, In i demo_plan /\ In s (case_names Model.Access.decimal (B "t-") (B ".") i) /\ (n = s ++ B ".in" \/ n = s ++ B ".out")) \/
     (forall r, default_parse r n = None)).
Proof.
  split; [repeat constructor|]. split; [cbn; intuition discriminate|]. split; [exists (B "t"), 45%N; split; reflexivity|].
  split; [constructor; [split; [reflexivity|cbn; intuition discriminate]|constructor]|].
  split; [repeat constructor|].
  split.
  { intros b cs [H|[H|[H|[]]]]; try discriminate. injection H as <- <-. split; [reflexivity|]. split; [discriminate|repeat constructor]. }
  assert (forall i s, In i demo_plan -> In s (case_names Model.Access.decimal (B "t-") (B ".") i) -> In s [B "t-1"; B "t-2.1"; B "t-2.10"; B "t-10"]) as Names.
  { intros i s [<-|[<-|[<-|[]]]] I; vm_compute in I; vm_compute; tauto. }
  split.
  { intros i s r I J. specialize (Names i s I J). assert (~ In 10%N s) as L by (destruct Names as [<-|[<-|[<-|[<-|[]]]]]; cbn; intuition discriminate).
    apply (not_marked r s L); destruct Names as [<-|[<-|[<-|[<-|[]]]]], r; vm_compute; reflexivity. }
  split.
  { intros i s I J. specialize (Names i s I J). destruct Names as [<-|[<-|[<-|[<-|[]]]]]; vm_compute; tauto. }
  intros n I.
  assert (forall i s, In i demo_plan -> In s (case_names Model.Access.decimal (B "t-") (B ".") i) -> forall m, m = s ++ B ".in" \/ m = s ++ B ".out" ->
    (exists i s, In i demo_plan /\ In s (case_names Model.Access.decimal (B "t-") (B ".") i) /\ (m = s ++ B ".in" \/ m = s ++ B ".out")) \/ (forall r, default_parse r m = None)) as K.
  { intros i s Ii Is m E. left. exists i, s. auto. }
  destruct I as [<-|[<-|[<-|[<-|[<-|[<-|[<-|[<-|[<-|[]]]]]]]]]].
  - apply (K (Single 10) (B "t-10")); [cbn; tauto|vm_compute; tauto|vm_compute; tauto].
  - apply (K (Batched 2 [1; 10]%N) (B "t-2.10")); [cbn; tauto|vm_compute; tauto|vm_compute; tauto].
  - apply (K (Single 1) (B "t-1")); [cbn; tauto|vm_compute; tauto|vm_compute; tauto].
  - apply (K (Single 10) (B "t-10")); [cbn; tauto|vm_compute; tauto|vm_compute; tauto].
  - right. intros r. destruct r; vm_compute; reflexivity.
  - apply (K (Batched 2 [1; 10]%N) (B "t-2.1")); [cbn; tauto|vm_compute; tauto|vm_compute; tauto].
  - apply (K (Batched 2 [1; 10]%N) (B "t-2.1")); [cbn; tauto|vm_compute; tauto|vm_compute; tauto].
  - apply (K (Single 1) (B "t-1")); [cbn; tauto|vm_compute; tauto|vm_compute; tauto].
  - apply (K (Batched 2 [1; 10]%N) (B "t-2.10")); [cbn; tauto|vm_compute; tauto|vm_compute; tauto].
Qed.

(** ** What goes wrong *)
(** Names that start with "in" are inputs whatever they end in: a problem called "inversions"
    is judged with the expected output as its input. *)
Theorem C85_input_refuted : exists names e, match_test_cases default_parse names (fun i => Some i) = Ok [MCase e 0] /\
  names = [B "inversions.1.in"; B "inversions.1.out"] /\ input_file e = Some (B "inversions.1.out") /\ output_file e = Some (B "inversions.1.out").
Proof.
  exists [B "inversions.1.in"; B "inversions.1.out"], {| input_file := Some (B "inversions.1.out"); output_file := Some (B "inversions.1.out") |}.
  split; [vm_compute; reflexivity|]. auto.
Qed.
Print Assumptions C85_input_refuted.
(** A number stuck to a word is no batch: the cases of "sub1" and "sub2" are taken for the same
    one, and one of them is dropped. *)
Theorem C85_batch_refuted : exists names e, match_test_cases default_parse names (fun i => Some i) = Ok [MCase e 0] /\
  names = [B "sub1/3.in"; B "sub1/3.out"; B "sub2/3.in"; B "sub2/3.out"] /\ e = {| input_file := Some (B "sub2/3.in"); output_file := Some (B "sub2/3.out") |}.
Proof.
  exists [B "sub1/3.in"; B "sub1/3.out"; B "sub2/3.in"; B "sub2/3.out"], {| input_file := Some (B "sub2/3.in"); output_file := Some (B "sub2/3.out") |}.
  split; [vm_compute; reflexivity|]. auto.
Qed.
Print Assumptions C85_batch_refuted.
(** A case whose output is missing is a case all the same. *)
Theorem C85_missing_refuted : exists e, match_test_cases default_parse [B "1.in"] (fun i => Some i) = Ok [MCase e 0] /\ output_file e = None.
Proof. exists {| input_file := Some (B "1.in"); output_file := None |}. split; [vm_compute; reflexivity|reflexivity]. Qed.
Print Assumptions C85_missing_refuted.
