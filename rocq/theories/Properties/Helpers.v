(** Property theorems for the helper programs of a problem (C87). *)
From Coq Require Import String QArith Lia.
From Verif Require Import Model.Bytes Model.Child Model.Helpers Spec.Child Spec.Helpers Proofs.BytesLemmas.
From Verif Require Model.Paths Proofs.Helpers.
Local Open Scope list_scope.

(** ** Arguments *)
(** One argument per word of the template, with the names of the files put in, whatever
    characters these have. *)
Theorem C87_arguments : forall f ws s, spelled ws s -> helper_args f s = Arguments (map (flat_map (meaning f)) ws).
Proof. exact Proofs.Helpers.spelled_args. Qed.
Print Assumptions C87_arguments.
(** Without a template of its own, a checker finds the case's input, the submission's output and
    the expected output in the files its type has in this order (for peg, in the other order). *)
Theorem C87_checker : forall root temp c t inp out ans, distinct temp -> filenames root (c_files c) <> None ->
  contrib_named (c_type c) = Some t -> c_template c = None ->
  exists args made, run_checker root temp c inp out ans = Started args made (c_time c) (c_memory c)
    /\ map (content made) args = match t with Peg => [Some ans; Some out; Some inp] | _ => [Some inp; Some out; Some ans] end.
Proof.
  intros root temp c t inp out ans D F T W. unfold run_checker. destruct (filenames root (c_files c)); [|congruence]. rewrite T, W. cbn [template_of].
  rewrite Proofs.Helpers.checker_default. do 2 eexists. split; [reflexivity|].
  assert (forall i j, i <> j -> beqb (temp i) (temp j) = false) as N0.
  { intros i j X. destruct (beqb_spec (temp i) (temp j)) as [E|]; [exfalso; apply X, D, E|reflexivity]. }
  destruct t; cbn [Proofs.Helpers.checker_files map file_of input_file output_file answer_file content]; rewrite ?beqb_refl, ?(N0 1%nat 0%nat), ?(N0 2%nat 0%nat), ?(N0 2%nat 1%nat) by discriminate; reflexivity.
Qed.
Print Assumptions C87_checker.
(** An interactor finds the case's input and the expected output, testlib's a file to write to
    between them, which leads nowhere. *)
Theorem C87_interactor : forall root temp c t time gen inp ans, distinct temp -> (forall i, temp i <> B "/dev/null") -> filenames root (i_files c) <> None ->
  contrib_named (match i_type c with Some t => t | None => B "default" end) = Some t -> i_template c = None ->
  exists args made, run_interactor root temp c time gen inp ans = Started args made (interactor_time (i_preprocessing c) time) (interactor_memory (i_memory c) gen)
    /\ map (content made) args = match t with Testlib => [Some inp; None; Some ans] | _ => [Some inp; Some ans] end
    /\ (t = Testlib -> nth_error args 1 = Some (B "/dev/null")).
Proof.
  intros root temp c t time gen inp ans D Nn F T W. unfold run_interactor. destruct (filenames root (i_files c)); [|congruence].
  assert (contrib_named (type_or_default (i_type c)) = Some t) as ->.
  { unfold type_or_default. destruct (i_type c) as [[|x s]|]; [cbn in T; discriminate|exact T|exact T]. }
  rewrite W. cbn [template_of]. rewrite Proofs.Helpers.interactor_default. do 2 eexists. split; [reflexivity|].
  assert (forall i j, i <> j -> beqb (temp i) (temp j) = false) as N0.
  { intros i j X. destruct (beqb_spec (temp i) (temp j)) as [E|]; [exfalso; apply X, D, E|reflexivity]. }
  assert (forall i, beqb (B "/dev/null") (temp i) = false) as N1.
  { intros i. destruct (beqb_spec (B "/dev/null") (temp i)) as [E|]; [exfalso; exact (Nn i (eq_sym E))|reflexivity]. }
  split.
  - destruct t; cbn [Proofs.Helpers.interactor_files map file_of input_file output_file answer_file content]; rewrite ?beqb_refl, ?(N0 1%nat 0%nat), ?N1 by discriminate; reflexivity.
  - intros ->. reflexivity.
Qed.
Print Assumptions C87_interactor.
(** A template of its own is used instead. *)
Theorem C87_own_template : forall root temp c t ws s inp out ans, filenames root (c_files c) <> None -> contrib_named (c_type c) = Some t ->
  c_template c = Some s -> s <> [] -> spelled ws s ->
  exists made, run_checker root temp c inp out ans =
    Started (map (flat_map (meaning {| input_file := temp 0%nat; output_file := temp 1%nat; answer_file := temp 2%nat |})) ws) made (c_time c) (c_memory c).
Proof.
  intros root temp c t ws s inp out ans F T W Ne Sp. unfold run_checker. destruct (filenames root (c_files c)); [|congruence]. rewrite T, W.
  destruct s as [|x s]; [congruence|]. cbn [template_of]. rewrite (Proofs.Helpers.spelled_args _ _ _ Sp). eexists. reflexivity.
Qed.
Print Assumptions C87_own_template.
(** A type that does not exist is an internal error, nothing is started. *)
Theorem C87_unknown_type : forall root temp c inp out ans, filenames root (c_files c) <> None ->
  ~ In (c_type c) [B "default"; B "peg"; B "testlib"; B "coci"] -> run_checker root temp c inp out ans = BadType.
Proof.
  intros root temp c inp out ans F Nn. unfold run_checker. destruct (filenames root (c_files c)); [|congruence].
  assert (contrib_named (c_type c) = None) as ->; [|reflexivity]. unfold contrib_named.
  destruct (beqb_spec (c_type c) (B "default")) as [E|]; [exfalso; apply Nn; left; symmetry; exact E|].
  destruct (beqb_spec (c_type c) (B "peg")) as [E|]; [exfalso; apply Nn; right; left; symmetry; exact E|].
  destruct (beqb_spec (c_type c) (B "testlib")) as [E|]; [exfalso; apply Nn; do 2 right; left; symmetry; exact E|].
  destruct (beqb_spec (c_type c) (B "coci")) as [E|]; [exfalso; apply Nn; do 3 right; left; symmetry; exact E|reflexivity].
Qed.
Print Assumptions C87_unknown_type.
(** The program is made of the files named, in the problem's directory. *)
Theorem C87_files : forall root f l, root <> [] -> (forall d, root <> d ++ B "/") -> Forall (fun x => forall y, x <> B "/" ++ y) (f :: l) ->
  filenames root (OneFile f) = Some [root ++ B "/" ++ f] /\ filenames root (ManyFiles l) = Some (map (fun x => root ++ B "/" ++ x) l).
Proof.
  intros root f l R E F.
  assert (forall x, (forall y, x <> B "/" ++ y) -> Paths.join root x = root ++ B "/" ++ x) as J.
  { intros x X. unfold Paths.join. assert (Paths.starts_slash x = false) as ->.
    { destruct x as [|c x]; [reflexivity|]. cbn. unfold Paths.is_slash. apply N.eqb_neq. intros ->. exact (X x eq_refl). }
    destruct root as [|c r]; [congruence|]. assert (Paths.ends_slash (c :: r) = false) as ->; [|reflexivity].
    unfold Paths.ends_slash. destruct (rev (c :: r)) as [|a q] eqn:Q; [reflexivity|]. apply (f_equal (@rev _)) in Q. rewrite rev_involutive in Q.
    cbn. unfold Paths.is_slash. apply N.eqb_neq. intros ->. exact (E (rev q) Q). }
  inversion F as [|? ? Ff Fl]; subst. cbn [filenames]. rewrite (J f Ff). split; [reflexivity|]. f_equal. apply map_ext_in. intros x I. apply J. rewrite Forall_forall in Fl. exact (Fl x I).
Qed.
Print Assumptions C87_files.

(** ** Limits of the interactor *)
(** It always has more time than the submission: what is set for its preparations, or two
    seconds. *)
Theorem C87_interactor_time : forall pre time, (forall p, pre = Some p -> (0 <= p)%Q) ->
  (time < interactor_time pre time)%Q /\
  (interactor_time pre time == match pre with Some p => if Qeq_bool p 0 then 2 + time else p + time | None => 2 + time end)%Q.
Proof.
  intros pre time H. unfold interactor_time. destruct pre as [p|].
  - specialize (H p eq_refl). destruct (Qeq_bool p 0) eqn:E.
    + split; [|reflexivity]. rewrite <- (Qplus_0_l time) at 1. apply Qplus_lt_le_compat; [reflexivity|apply Qle_refl].
    + split; [|reflexivity]. rewrite <- (Qplus_0_l time) at 1. apply Qplus_lt_le_compat; [|apply Qle_refl].
      apply Qle_lteq in H as [H|H]; [exact H|]. apply Qeq_sym, Qeq_bool_iff in H. congruence.
  - split; [|reflexivity]. rewrite <- (Qplus_0_l time) at 1. apply Qplus_lt_le_compat; [reflexivity|apply Qle_refl].
Qed.
Print Assumptions C87_interactor_time.
(** Its memory is what is set for it, or what generators have. *)
Theorem C87_interactor_memory : forall own gen,
  interactor_memory own gen = match own with None | Some 0%N => gen | Some n => n end.
Proof. intros [[|n]|] gen; reflexivity. Qed.
Print Assumptions C87_interactor_memory.

(** ** Pipes *)
(** The submission reads what the interactor writes and the other way round; neither has another
    descriptor, and the judge keeps no end of the two pipes (so each sees the other one's end) but
    everything it had. *)
Theorem C87_pipes : forall t b max_fd fit, bounded t b -> standard_open t -> without 3 t -> without 4 t ->
  (forall j, exists k, fit j = Some (S k)) ->
  let c := connect t b in
  (exists ts, child_table true max_fd fit (b + 10) (submission_start c) (s_in c) (s_out c) (s_err c) = Some ts
     /\ ts 0%nat = Some (PipeRead 4) /\ ts 1%nat = Some (PipeWrite 3) /\ ts 2%nat = Some (PipeWrite 2) /\ forall n, (3 <= n)%nat -> ts n = None)
  /\ (exists ti, child_table true max_fd fit (b + 16) (interactor_start c) (i_in c) (i_out c) (i_err c) = Some ti
     /\ ti 0%nat = Some (PipeRead 3) /\ ti 1%nat = Some (PipeWrite 4) /\ ti 2%nat = Some (PipeWrite 2) /\ forall n, (3 <= n)%nat -> ti n = None)
  /\ without 3 (judge_after c) /\ without 4 (judge_after c) /\ (forall n, t n <> None -> judge_after c n = t n).
Proof. exact Proofs.Helpers.connected_right. Qed.
Print Assumptions C87_pipes.

(** ** Examples *)
Example C87_odd_names : helper_args {| input_file := B "/tmp/a b/it's"; output_file := B "/tmp/o"; answer_file := [] |} (B " -i {input_file}  x={output_file}/ {answer_file}") =
  Arguments [B "-i"; B "/tmp/a b/it's"; B "x=/tmp/o/"; []].
Proof. reflexivity. Qed.
Example C87_spelled : spelled [[Text (B "-i")]; [File Input]; [Text (B "x="); File Output; Text (B "/")]] (B " -i {input_file} x={output_file}/").
Proof.
  assert (forall s, forallb (fun c => negb (existsb (N.eqb c) [32; 9; 13; 10; 39; 34; 92; 123; 125]%N)) s = true -> Forall plain s) as P.
  { intros s H. apply Forall_forall. intros c I K. rewrite forallb_forall in H. specialize (H c I). apply Bool.negb_true_iff, Bool.not_true_iff_false in H. apply H.
    apply existsb_exists. exists c. split; [exact K|apply N.eqb_refl]. }
  apply (next_word (B " ") [Text (B "-i")] 32%N).
  - repeat constructor.
  - split; [discriminate|]. constructor; [split; [discriminate|apply P; reflexivity]|constructor].
  - left. reflexivity.
  - apply (next_word [] [File Input] 32%N).
    + constructor.
    + split; [discriminate|repeat constructor].
    + left. reflexivity.
    + apply (last_word [] [Text (B "x="); File Output; Text (B "/")]); [constructor|]. split; [discriminate|].
      constructor; [split; [discriminate|apply P; reflexivity]|]. constructor; [exact I|]. constructor; [split; [discriminate|apply P; reflexivity]|constructor].
Qed.
Definition temps (i : nat) : bytes := B "/tmp/t" ++ repeat 97%N i.
Example C87_run : run_checker (B "/p") temps {| c_files := OneFile (B "check.cpp"); c_type := B "peg"; c_template := None; c_time := 20; c_memory := 524288 |} (B "1 2") (B "3") (B "3 ") =
  Started [B "/tmp/taa"; B "/tmp/ta"; B "/tmp/t"] [(B "/tmp/t", B "1 2"); (B "/tmp/ta", B "3"); (B "/tmp/taa", B "3 ")] 20 524288.
Proof. reflexivity. Qed.
Example C87_temps : distinct temps.
Proof.
  intros i j H. apply (f_equal (@length _)) in H. unfold temps in H. rewrite !app_length, !repeat_length in H. lia.
Qed.
Example C87_connected : let c := connect (fun n => if (n <? 3)%nat then Some (Other n) else None) 3 in
  (s_in c, s_out c, i_in c, i_out c) = (5, 4, 3, 6)%Z /\ map (judge_after c) (seq 0 10) =
  [Some (Other 0); Some (Other 1); Some (Other 2); None; Some (PipeRead 2); None; None; Some (PipeRead 2); None; None].
Proof. vm_compute. split; reflexivity. Qed.

(** ** What is not promised *)
(** A template that puts a name in quotation marks loses when the name needs quoting. *)
Theorem C87_quoted_refuted : exists f args, helper_args f (B "'{input_file}'") = Arguments args /\ args <> [input_file f].
Proof.
  exists {| input_file := B "/tmp/a b"; output_file := []; answer_file := [] |}. eexists. split; [reflexivity|]. vm_compute. discriminate.
Qed.
Print Assumptions C87_quoted_refuted.
(** A files setting that is a mapping, or no setting at all, ends in an exception that names
    neither. *)
Theorem C87_files_refuted : forall root, filenames root Mapping = None /\ filenames root NoSetting = None.
Proof. split; reflexivity. Qed.
Print Assumptions C87_files_refuted.
(** Names may lead outside the problem's directory. *)
Theorem C87_outside_refuted : exists root f, filenames root (OneFile f) = Some [f] /\ root <> [].
Proof. exists (B "/p"), (B "/etc/x.cpp"). split; [reflexivity|discriminate]. Qed.
Print Assumptions C87_outside_refuted.

(** A template that names anything else fails: nothing is started with arguments that are not meant. *)
Theorem C87_unknown_name : forall f lead name rest, Forall (fun c => c <> 123 /\ c <> 125)%N lead -> name <> [] ->
  Forall (fun c => ~ In c (B "!:.[{}")) name -> ~ In name [B "input_file"; B "output_file"; B "answer_file"] ->
  helper_args f (lead ++ [123%N] ++ name ++ [125%N] ++ rest) = Failed.
Proof.
  intros f lead name rest L Ne F Nn. unfold helper_args, format. rewrite Proofs.Helpers.format_text by exact L.
  assert (field f name = None) as E.
  { unfold field. destruct (beqb_spec name (B "input_file")) as [->|_]; [destruct Nn; left; reflexivity|].
    destruct (beqb_spec name (B "output_file")) as [->|_]; [destruct Nn; right; left; reflexivity|].
    destruct (beqb_spec name (B "answer_file")) as [->|_]; [destruct Nn; right; right; left; reflexivity|reflexivity]. }
  assert (forall t pre, Forall (fun c => ~ In c (B "!:.[{}")) t -> format_from (field f) (Field pre) (t ++ 125%N :: rest) =
    match field f (pre ++ t) with Some v => before v (format_from (field f) Literal rest) | None => Raises end) as K.
  { induction t as [|c t IH]; intros pre Ft; cbn [app format_from].
    - rewrite app_nil_r. reflexivity.
    - inversion Ft as [|? ? Hc Ft']; subst. destruct (N.eqb_spec c 125) as [->|_]; [destruct Hc; cbn; auto 10|].
      destruct (existsb (N.eqb c) (B "!:.[{")) eqn:X.
      + exfalso. apply existsb_exists in X as (x & I & X). apply N.eqb_eq in X. subst x. apply Hc. cbn in I |- *. intuition auto.
      + rewrite IH by exact Ft'. rewrite <- app_assoc. reflexivity. }
  destruct name as [|c t]; [congruence|]. inversion F as [|? ? Hc Ft]; subst. cbn [app format_from].
  change (123 =? 123)%N with true. cbv iota. destruct (N.eqb_spec c 123) as [->|_]; [destruct Hc; cbn; auto 10|].
  destruct (N.eqb_spec c 125) as [->|_]; [destruct Hc; cbn; auto 10|].
  destruct (existsb (N.eqb c) (B "!:.[")) eqn:X.
  { exfalso. apply existsb_exists in X as (x & I & X). apply N.eqb_eq in X. subst x. apply Hc. cbn in I |- *. intuition auto. }
  rewrite (K t [c] Ft). cbn [app]. rewrite E. reflexivity.
Qed.
Print Assumptions C87_unknown_name.
Example C87_unknown_case : helper_args {| input_file := B "i"; output_file := B "o"; answer_file := B "a" |} (B "-x {judge_file}") = Failed. Proof. reflexivity. Qed.
