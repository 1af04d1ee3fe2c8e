(** Property theorems for problem data (C27, C28, C56, C58). *)
From Coq Require Import String Sorted.
From Verif Require Import Model.Bytes Model.Problem Spec.Problem.
From Verif Require Proofs.Problem.
Local Open Scope list_scope.

(** ** C27 *)
(** Text becomes its lines (ended by LF, CR or CRLF), each ended by LF; every byte string
    has such a reading as lines. *)
Theorem C27_lines : forall d ls, Lines d ls -> normalize false d = unix ls.
Proof. exact Proofs.Problem.normalize_lines. Qed.
Print Assumptions C27_lines.
Theorem C27_lines_exist : forall d, exists ls, Lines d ls.
Proof. exact Proofs.Problem.lines_exist. Qed.
Print Assumptions C27_lines_exist.
Theorem C27_no_carriage_return : forall d, ~ In CR (normalize false d).
Proof. exact Proofs.Problem.normalize_no_cr. Qed.
Print Assumptions C27_no_carriage_return.
Theorem C27_ends_in_newline : forall d, d <> [] -> exists p, normalize false d = p ++ [LF].
Proof. exact Proofs.Problem.normalize_ends. Qed.
Print Assumptions C27_ends_in_newline.
Theorem C27_idempotent : forall b d, normalize b (normalize b d) = normalize b d.
Proof. exact Proofs.Problem.normalize_idem. Qed.
Print Assumptions C27_idempotent.
(** Text that is already so, and binary and empty data, are not changed. *)
Theorem C27_unchanged : forall p, ~ In CR p -> normalize false (p ++ [LF]) = p ++ [LF].
Proof. exact Proofs.Problem.normalize_fixed. Qed.
Print Assumptions C27_unchanged.
Theorem C27_binary : forall d, normalize true d = d.
Proof. exact Proofs.Problem.normalize_binary. Qed.
Print Assumptions C27_binary.
Example C27_case :
  let d := B "a" ++ [CR; LF] ++ B "b" ++ [CR; CR; LF; LF] ++ B "c" in
  normalize false d = B "a" ++ [LF] ++ B "b" ++ [LF; LF; LF] ++ B "c" ++ [LF] /\
  Lines d [B "a"; B "b"; []; []; B "c"].
Proof.
  split; [reflexivity|]. change (Lines (B "a" ++ CR :: LF :: (B "b" ++ CR :: ([] ++ CR :: LF :: ([] ++ LF :: B "c")))) [B "a"; B "b"; []; []; B "c"]).
  apply L_crlf; [cbn; intuition discriminate|cbn; intuition discriminate|]. apply L_cr; [cbn; intuition discriminate|cbn; intuition discriminate|discriminate|].
  apply L_crlf; [intros []|intros []|]. apply L_lf; [intros []|intros []|]. apply L_last; [discriminate|cbn; intuition discriminate|cbn; intuition discriminate].
Qed.

(** ** C28 *)
(** The resulting list has one entry per group, in strictly increasing order; a group that
    is a batch lists its cases in strictly increasing order; each case names the last input
    and the last output filed under it; points are handed out in order. *)
Theorem C28_matched : forall parse P (points : nat -> option P) names l, match_test_cases parse names points = Ok l ->
  exists gs, StronglySorted id_lt gs /\ (forall g, In g gs <-> exists c, occurs parse names g c) /\ length l = length gs /\
  forall i g, nth_error gs i = Some g -> exists p m, points i = Some p /\ nth_error l i = Some m /\ entry_for parse names g p m.
Proof. intros parse P points names l. exact (Proofs.Problem.match_result parse points names l). Qed.
Print Assumptions C28_matched.

(** A strictly increasing list is determined by its elements, so the result does not depend
    on the order of the archive, but for which of two files claiming the same place is
    used. *)
Theorem C28_order_is_total : (forall a b c, id_lt a b -> id_lt b c -> id_lt a c) /\ (forall a, ~ id_lt a a) /\
  (forall a b, comparable a b -> id_lt a b \/ a = b \/ id_lt b a).
Proof.
  split; [exact Proofs.Problem.id_lt_trans|]. split; [exact Proofs.Problem.id_lt_irrefl|].
  intros a b C. pose proof (Proofs.Problem.comparable_ltb a b C) as H. destruct (id_ltb a b) as [[|]|] eqn:E; [left; apply Proofs.Problem.id_lt_ltb, E| |congruence].
  right. exact (Proofs.Problem.id_total a b E).
Qed.
Print Assumptions C28_order_is_total.

(** Accepted are exactly the archives in which every matching name has a case number, ids
    to be ordered are all numbers or all words, and only batches hold more than one case
    (given enough points). *)
Theorem C28_accepted_iff : forall parse P (points : nat -> option P) names, (forall i, points i <> None) ->
  ((exists l, match_test_cases parse names points = Ok l) <->
   (forall r n b, In n names -> parse r n <> Some (b, None)) /\
   (forall g g' c c', occurs parse names g c -> occurs parse names g' c' -> comparable g g') /\
   (forall g, is_batch_id parse names g -> forall c c', occurs parse names g c -> occurs parse names g c' -> comparable c c') /\
   (forall g, ~ is_batch_id parse names g -> forall c c', occurs parse names g c -> occurs parse names g c' -> c = c')).
Proof.
  intros parse P points names HP. split.
  - intros [l H]. exact (Proofs.Problem.match_rejects parse points names l H).
  - intros [A [C [D E]]]. apply (Proofs.Problem.match_accepts parse points names HP); auto.
    intros r n X. destruct (parse r n) as [[b [c|]]|] eqn:F; [right; eauto| |auto]. exfalso. exact (A r n b X F).
Qed.
Print Assumptions C28_accepted_iff.

(** A small archive: batch 1 with cases 1 and 2, a single case 2. *)
Definition demo_parse (r : role) (n : list N) : option (option id * option id) :=
  if beqb n (B "1-2.in") then match r with InputFile => Some (Some (IInt 1), Some (IInt 2)) | _ => None end
  else if beqb n (B "1-2.out") then match r with OutputFile => Some (Some (IInt 1), Some (IInt 2)) | _ => None end
  else if beqb n (B "1-1.in") then match r with InputFile => Some (Some (IInt 1), Some (IInt 1)) | _ => None end
  else if beqb n (B "1-1.out") then match r with OutputFile => Some (Some (IInt 1), Some (IInt 1)) | _ => None end
  else if beqb n (B "2.in") then match r with InputFile => Some (None, Some (IInt 2)) | _ => None end
  else if beqb n (B "2.out") then match r with OutputFile => Some (None, Some (IInt 2)) | _ => None end
  else if beqb n (B "a/2.in") then match r with InputFile => Some (None, Some (IInt 2)) | _ => None end
  else if beqb n (B "1.in") then match r with InputFile => Some (None, Some (IInt 1)) | _ => None end
  else if beqb n (B "0-2.in") then match r with InputFile => Some (Some (IInt 0), Some (IInt 2)) | _ => None end
  else None.
Example C28_case :
  match_test_cases demo_parse [B "2.out"; B "1-2.in"; B "1-1.out"; B "readme"; B "2.in"; B "1-2.out"; B "1-1.in"] (fun i => Some (10 + i)) =
  Ok [MBatch [{| input_file := Some (B "1-1.in"); output_file := Some (B "1-1.out") |};
              {| input_file := Some (B "1-2.in"); output_file := Some (B "1-2.out") |}] 10;
      MCase {| input_file := Some (B "2.in"); output_file := Some (B "2.out") |} 11].
Proof. vm_compute. reflexivity. Qed.

(** Two files claiming the same place are not noticed: one is dropped. *)
Theorem C28_duplicates_refuted : exists parse names l, match_test_cases parse names (fun i => Some i) = Ok l /\
  exists n1 n2 c, n1 <> n2 /\ member parse names InputFile None c n1 /\ member parse names InputFile None c n2.
Proof.
  exists demo_parse, [B "2.in"; B "a/2.in"], [MCase {| input_file := Some (B "a/2.in"); output_file := None |} 0].
  split; [vm_compute; reflexivity|]. exists (B "2.in"), (B "a/2.in"), (IInt 2). repeat split; try discriminate; cbn; auto.
Qed.
Print Assumptions C28_duplicates_refuted.
(** A single case with the number of a batch is silently made part of that batch. *)
Theorem C28_single_case_in_batch_refuted : exists parse names cs p, match_test_cases parse names (fun i => Some i) = Ok [MBatch cs p] /\
  exists n c, member parse names InputFile None c n /\ In {| input_file := Some n; output_file := None |} cs.
Proof.
  exists demo_parse, [B "1.in"; B "1-2.in"], [{| input_file := Some (B "1.in"); output_file := None |}; {| input_file := Some (B "1-2.in"); output_file := None |}], 0.
  split; [vm_compute; reflexivity|]. exists (B "1.in"), (IInt 1). split; [split; [cbn; auto|reflexivity]|left; reflexivity].
Qed.
Print Assumptions C28_single_case_in_batch_refuted.
(** Batch 0 is not a batch: its cases are taken for single ones. *)
Theorem C28_batch_zero_refuted : exists parse names e p, match_test_cases parse names (fun i => Some i) = Ok [MCase e p] /\
  exists n c, member parse names InputFile (Some (IInt 0)) c n /\ input_file e = Some n.
Proof.
  exists demo_parse, [B "0-2.in"], {| input_file := Some (B "0-2.in"); output_file := None |}, 0.
  split; [vm_compute; reflexivity|]. exists (B "0-2.in"), (IInt 2). split; [split; [cbn; auto|reflexivity]|reflexivity].
Qed.
Print Assumptions C28_batch_zero_refuted.

(** ** C58 *)
(** A helper program is believed only if it ended by itself with exit code 0. *)
Theorem C58_helper_failures : forall p,
  parse_helper_file_error p = None <-> is_tle p = false /\ is_mle p = false /\ fault p = false /\ returncode p = 0%Z.
Proof.
  intros [t m f r]. unfold parse_helper_file_error. cbn. destruct t, m, f, (Z.eqb_spec r 0); split; try discriminate; try (intros [A [C [D E]]]; congruence); auto.
Qed.
Print Assumptions C58_helper_failures.
Example C58_case : parse_helper_file_error {| is_tle := false; is_mle := false; fault := false; returncode := (-9) |} = Some (HSignal 9) /\
  parse_helper_file_error {| is_tle := false; is_mle := false; fault := false; returncode := 0 |} = None.
Proof. split; reflexivity. Qed.

(** ** C56 *)
(** [file] is the problem's data files, [launch] what each run of the generator does. *)
(** While nothing is freed the generator is run at most once more, and not at all if it
    was run since the data was last freed. *)
Theorem C56_once : forall file launch s st ops, ~ In Free ops ->
  runs (data_run file launch s st ops) <= S (runs st) /\
  (generated st <> None -> runs (data_run file launch s st ops) <= runs st).
Proof.
  intros file launch s st ops H. pose proof (Proofs.Problem.runs_at_most_once file launch s ops H st) as K.
  destruct (generated st); split; try (intros; congruence); try lia.
Qed.
Print Assumptions C56_once.
Theorem C56_both_files_never : forall file launch s st ops, in_name s <> [] -> out_name s <> [] ->
  runs (data_run file launch s st ops) = runs st.
Proof. intros file launch s st ops A C. apply Proofs.Problem.both_files_no_run; unfold given; [destruct (in_name s)|destruct (out_name s)]; congruence. Qed.
Print Assumptions C56_both_files_never.
(** An output file is used whenever there is one, whatever was done before. *)
Theorem C56_output_file : forall file launch s st d, out_name s <> [] -> file (out_name s) = Some d ->
  output_data file launch s st = (Data (normalize (binary s) d), st).
Proof. intros file launch s st d A C. unfold output_data, given, from_file. destruct (out_name s); [congruence|]. rewrite C. reflexivity. Qed.
Print Assumptions C56_output_file.
(** Otherwise input and output are those of one and the same run, which was given the
    input file, if there is one. *)
Theorem C56_generated : forall file launch s st o e p, has_gen s = true -> out_name s = [] -> generated st = None ->
  launch (runs st) (match in_name s with [] => None | n => file n end) = Some (o, e, p) -> parse_helper_file_error p = None -> o <> [] ->
  exists st', input_data file launch s st = (Data (normalize (binary s) o), st') /\ runs st' = S (runs st) /\
              output_data file launch s st' = (Data (normalize (binary s) e), st') /\
              input_data file launch s st' = (Data (normalize (binary s) o), st').
Proof.
  intros file launch s st o e p G O N L E NE. exists {| generated := Some (normalize (binary s) o, normalize (binary s) e); runs := S (runs st) |}.
  assert (exists c d, normalize (binary s) o = c :: d) as [c [d X]].
  { destruct (binary s). - rewrite Proofs.Problem.normalize_binary. destruct o; [congruence|eauto].
    - destruct (Proofs.Problem.normalize_ends o NE) as [q ->]. destruct q; cbn; eauto. }
  unfold input_data, output_data, ensure. rewrite G, O, N. cbn [given negb orb andb generated]. unfold run_generator.
  replace (if given (in_name s) then file (in_name s) else None) with (match in_name s with [] => None | n => file n end) by (destruct (in_name s); reflexivity).
  rewrite L, E. cbn [generated]. rewrite X. auto.
Qed.
Print Assumptions C56_generated.
(** Without a generator, or with both files, input is the input file or nothing. *)
Theorem C56_input_file : forall file launch s st d, has_gen s = false \/ (out_name s <> [] /\ in_name s <> []) ->
  (in_name s = [] /\ d = [] \/ in_name s <> [] /\ exists raw, file (in_name s) = Some raw /\ d = normalize (binary s) raw) ->
  input_data file launch s st = (Data d, st).
Proof.
  intros file launch s st d H K. unfold input_data.
  replace (has_gen s && (negb (given (out_name s)) || negb (given (in_name s)))) with false.
  - destruct K as [[-> ->]|[NE [raw [F ->]]]]; [reflexivity|]. unfold given, from_file. destruct (in_name s); [congruence|]. rewrite F. reflexivity.
  - destruct H as [->|[A C]]; [reflexivity|]. unfold given. destruct (out_name s), (in_name s); try congruence. cbn. rewrite andb_false_r. reflexivity.
Qed.
Print Assumptions C56_input_file.
(** What a failed generator printed is used if the data is asked for again. *)
Theorem C56_failure_forgotten_refuted : exists file launch s st', 
  input_data file launch s fresh = (GeneratorFailed, st') /\ input_data file launch s st' = (Data (B "partial" ++ [LF]), st').
Proof.
  exists (fun _ => None), (fun _ _ => Some (B "partial", [], {| is_tle := true; is_mle := false; fault := false; returncode := 0 |})),
    {| in_name := []; out_name := []; has_gen := true; binary := false |}, {| generated := Some (B "partial" ++ [LF], []); runs := 1 |}.
  split; reflexivity.
Qed.
Print Assumptions C56_failure_forgotten_refuted.
Example C56_case :
  let s := {| in_name := []; out_name := B "1.out"; has_gen := true; binary := false |} in
  let file := fun n => if beqb n (B "1.out") then Some (B "42") else None in
  let launch := fun _ _ => Some (B "7", B "49", {| is_tle := false; is_mle := false; fault := false; returncode := 0 |}) in
  fst (input_data file launch s fresh) = Data (B "7" ++ [LF]) /\ fst (output_data file launch s fresh) = Data (B "42" ++ [LF]) /\
  runs (data_run file launch s fresh [Input; Output; Input; Free; Output; Input]) = 2.
Proof. vm_compute. auto. Qed.
