(** Property theorems for standard grading as a whole (C97): from the files of a problem and the runs of a program
    to the messages of the worker.

    [w] holds the files, the libraries and the program: any functions.  Points are numbers without a fractional part
    or booleans; in C97_verdicts and C97_perfect the checkers are those built-in ones that answer yes or no ([rule]), in C97_scored any. *)
From Coq Require Import String QArith Permutation.
From Verif Require Import Model.Bytes Model.Result Model.Config Spec.Config Model.Paths Model.Loading Spec.Loading Spec.Text Model.Whole Spec.Whole.
From Verif Require Model.Problem Spec.Problem Model.Grading Spec.Grading Model.Worker Spec.Worker Proofs.Loading Proofs.Whole.
Local Open Scope list_scope.
Local Open Scope nat_scope.

(** The worker reports the cases of the problem in order, in their batches, each under its points.  A case is skipped exactly
    if an earlier one went wrong that counts for it; every other case is run on its own input, gets full points and a
    clean status if the program ended well within its limits with an output that is right by the checker of the case, no points
    and a wrong answer otherwise, and the reasons for that.  The grading ends with the last case, or at an abort. *)
Theorem C97_verdicts : forall w p d pre ns warning abort_at short, standard w p d pre ns ->
  exists l rs last, Forall2 weighs ns l /\ length rs <= length (flat_map nodes_of ns) /\
    Worker.worker_stream (fun _ => Worker.Sent) (judged w (Some warning) abort_at short)
      = Worker.Hello :: Spec.Worker.preamble warning pre ++ Spec.Worker.transcript 0 0 l rs ++ [last; Worker.Bye] /\
    ((last = Worker.GradingEnd /\ length rs = length (flat_map nodes_of ns)) \/ (last = Worker.GradingAborted /\ abort_at <> None)) /\
    forall i c pts input right rep, nth_error (flat_map nodes_of ns) i = Some c -> poses w (archive p) c pts input right -> nth_error rs i = Some rep ->
      ((exists j, Spec.Worker.stops short l rs j i) -> Spec.Worker.reported_skipped rep) /\
      (~ (exists j, Spec.Worker.stops short l rs j i) -> Spec.Worker.ran rep = true /\ (started (program w i input) -> deserved pts right (program w i input) rep)).
Proof. intros w p d pre ns warning abort_at short H. exact (Proofs.Whole.all_verdicts w p d pre ns H warning abort_at short). Qed.
Print Assumptions C97_verdicts.

(** A program that solves every case is reported as just that, with all the points. *)
Theorem C97_perfect : forall w p d pre ns warning short, standard w p d pre ns ->
  (forall i c, nth_error (flat_map nodes_of ns) i = Some c ->
     exists pts input right, poses w (archive p) c pts input right /\ started (program w i input) /\ solves right (program w i input)) ->
  exists l, Forall2 weighs ns l /\
    Worker.worker_stream (fun _ => Worker.Sent) (judged w (Some warning) None short)
      = Worker.Hello :: Spec.Worker.preamble warning pre
        ++ Spec.Worker.transcript 0 0 l (map (Spec.Worker.Report true 0%N) (Spec.Worker.all_points l)) ++ [Worker.GradingEnd; Worker.Bye].
Proof. intros w p d pre ns warning short H. exact (Proofs.Whole.perfect w p d pre ns H warning short). Qed.
Print Assumptions C97_perfect.

(** With any checkers, those that give part of the points and those the problem brings along included: the report of a case
    that is not skipped is the one its checker's reply deserves.  A checker is asked about a run that went wrong only if it wants to be. *)
Theorem C97_scored : forall w p d pre ns warning abort_at short, gradeable w p d pre ns ->
  exists l rs last, Forall2 weighs ns l /\ length rs <= length (flat_map nodes_of ns) /\
    Worker.worker_stream (fun _ => Worker.Sent) (judged w (Some warning) abort_at short)
      = Worker.Hello :: Spec.Worker.preamble warning pre ++ Spec.Worker.transcript 0 0 l rs ++ [last; Worker.Bye] /\
    ((last = Worker.GradingEnd /\ length rs = length (flat_map nodes_of ns)) \/ (last = Worker.GradingAborted /\ abort_at <> None)) /\
    forall i c rep, nth_error (flat_map nodes_of ns) i = Some c -> nth_error rs i = Some rep ->
      ((exists j, Spec.Worker.stops short l rs j i) -> Spec.Worker.reported_skipped rep) /\
      (~ (exists j, Spec.Worker.stops short l rs j i) -> Spec.Worker.ran rep = true /\
         exists pts input answer name args always ck, asked w (archive p) c pts input answer name args /\
           replies w i pts input answer args (output_of (program w i input)) name always ck /\ deserves pts always ck (program w i input) rep).
Proof. intros w p d pre ns warning abort_at short H. exact (Proofs.Whole.all_scored w p d pre ns H warning abort_at short). Qed.
Print Assumptions C97_scored.

(** The settings come from the document of the problem if that lists cases ... *)
Theorem C97_listed : forall w text doc v vs z, file w (join (root w) (B "init.yml")) = Some text -> yaml w text = Document (VDict doc) ->
  static (VDict doc) -> static (meta w) -> In (B "test_cases", VList (v :: vs)) doc -> archive_of w doc z ->
  exists p d, prepared w = Fine (p, [VDict d]) /\ archive p = z /\ static (VDict d) /\ forall k x, In (k, x) d <-> stands doc (meta w) k x.
Proof. intros w text doc v vs z H1 H2 H3 H4. exact (Proofs.Whole.from_list w text doc H1 H2 H3 H4 v vs z). Qed.
Print Assumptions C97_listed.
(** ... and if it does not, from the document and the names in its archive (C28, C85 tell what those come to). *)
Theorem C97_guessed : forall w text doc e pts ms, file w (join (root w) (B "init.yml")) = Some text -> yaml w text = Document (VDict doc) ->
  static (VDict doc) -> static (meta w) -> lacks (B "test_cases") doc -> lacks (B "test-cases") doc -> archive_of w doc (Some e) ->
  stands doc (meta w) (B "points") (VInt pts) -> compiles w default_input = true -> compiles w default_output = true -> doc <> [] ->
  Problem.match_test_cases (fun r => matches w (match r with Problem.InputFile => default_input | Problem.OutputFile => default_output end)) (map fst e) (fun _ => Some (Plain (VInt pts))) = Problem.Ok ms ->
  exists p d vs ns, prepared w = Fine (p, [VDict d]) /\ archive p = Some e /\ static (VDict d) /\
    (forall k x, k <> B "test_cases" -> In (k, x) d <-> stands doc (meta w) k x) /\
    Forall2 (written pts) ms vs /\ In (B "test_cases", VList vs) d /\ Forall2 (listed [VList vs; VDict d]) vs ns.
Proof. intros w text doc e pts ms H1 H2 H3 H4. exact (Proofs.Whole.from_names w text doc H1 H2 H3 H4 e pts ms). Qed.
Print Assumptions C97_guessed.

(** All of this is a grading in the sense of C94: what is said there about the way to the site holds of it. *)
Theorem C97_grading : forall w compiled abort_at short, exists grade set, judged w compiled abort_at short = Worker.grade_cases grade abort_at short set.
Proof.
  intros w compiled abort_at short. unfold judged. destruct (prepared w) as [[p c]|f]; [|eauto]. destruct compiled as [warning|]; [|eauto].
  destruct (is_pretested w c) as [pre|f]; [|eauto]. destruct (listing w pre c) as [items|f]; eauto.
Qed.
Print Assumptions C97_grading.

(** ** A case *)
(** A problem with a plain case, a batch of two and another plain one, some of its data in an archive; and a program that adds,
    but takes too long for one input. *)
Definition cs (i o : string) (more : dict) : dict := [(B "in", VStr (B i)); (B "out", VStr (B o))] ++ more.
Definition demo_list : list value :=
  [VDict (cs "1.in" "1.out" [(B "points", VInt 3)]);
   VDict [(B "batched", VList (map VDict [cs "2a.in" "2a.out" []; cs "2b.in" "2b.out" []])); (B "points", VInt 5); (B "checker", VStr (B "identical"))];
   VDict (cs "3.in" "3.out" [])].
Definition demo_doc : dict := [(B "archive", VStr (B "data.zip")); (B "test_cases", VList demo_list)].
Definition demo_zip : entries := [(B "1.in", Some (B "1 2")); (B "1.out", Some (B "3")); (B "2a.in", Some (B "4 4")); (B "2a.out", Some (B "8"));
  (B "2b.in", Some (B "5 5")); (B "2b.out", Some (B "10")); (B "3.in", Some (B "6 6"))].
Definition demo_file (n : list N) : option (list N) :=
  if beqb n (B "/p/a/init.yml") then Some (B "y") else if beqb n (B "/p/a/3.out") then Some (B "12" ++ [13; 10]%N) else None.
Definition ends (t : bool) : process := Process (Some (if t then -9 else 0)%Z) None t false 65536 1024 true None None.
Definition adds (slow : list N -> bool) (i : nat) (input : list N) : option (list N * list N) * process :=
  let out := if beqb input (B "1 2" ++ [10%N]) then B " 3" else if beqb input (B "4 4" ++ [10%N]) then B "8" ++ [10%N]
             else if beqb input (B "5 5" ++ [10%N]) then B "10" ++ [10%N] else B "12" in
  (Some (out, []), ends (slow input)).
Definition demo (slow : list N -> bool) : whole := {|
  dynamic := fun _ _ _ => None; file := demo_file; yaml := fun t => if beqb t (B "y") then Document (VDict demo_doc) else BadSyntax;
  zip := fun n => if beqb n (B "/p/a/data.zip") then Archive demo_zip else NoArchive; compiles := fun _ => true; matches := fun _ _ => None;
  root := B "/p/a"; meta := Null; execute := fun _ => NoModule; on_error := fun _ => false; judgement := fun _ _ _ _ _ _ => Grading.CkBool false;
  special := fun _ _ => Worker.GRaise; generator := fun _ _ _ => None; program := adds slow; parse_feedback := fun _ => None; strsignal := fun _ => []; mono := false |}.
Example C97_ex_stream : Worker.worker_stream (fun _ => Worker.Sent) (judged (demo (fun i => beqb i (B "4 4" ++ [10%N]))) (Some false) None false)
  = [Worker.Hello; Worker.GradingBegin false; Worker.CaseResult None 1 0 3; Worker.BatchBegin 1;
     Worker.CaseResult (Some 1) 2 7 0; Worker.CaseResult (Some 1) 3 32 0; Worker.BatchEnd 1; Worker.CaseResult None 4 0 1; Worker.GradingEnd; Worker.Bye].
Proof. vm_compute. reflexivity. Qed.
Example C97_ex_perfect : Worker.worker_stream (fun _ => Worker.Sent) (judged (demo (fun _ => false)) (Some true) None false)
  = [Worker.Hello; Worker.CompileMessage; Worker.GradingBegin false; Worker.CaseResult None 1 0 3; Worker.BatchBegin 1;
     Worker.CaseResult (Some 1) 2 0 5; Worker.CaseResult (Some 1) 3 0 5; Worker.BatchEnd 1; Worker.CaseResult None 4 0 1; Worker.GradingEnd; Worker.Bye].
Proof. vm_compute. reflexivity. Qed.

(** It is a standard problem. *)
Definition demo_settings : dict := Model.Loading.update (defaults false Null) demo_doc.
Definition up : chain := [VList demo_list; VDict demo_settings].
Definition in_batch : chain := VList (map VDict [cs "2a.in" "2a.out" []; cs "2b.in" "2b.out" []]) :: nth 1 demo_list Null :: up.
Definition demo_nodes : list node :=
  [Lone (VDict (cs "1.in" "1.out" [(B "points", VInt 3)]) :: up);
   Batch (nth 1 demo_list Null :: up) [VDict (cs "2a.in" "2a.out" []) :: in_batch; VDict (cs "2b.in" "2b.out" []) :: in_batch];
   Lone (VDict (cs "3.in" "3.out" []) :: up)].
Ltac absent := let v := fresh in let H := fresh in intros v H; vm_compute in H; repeat (destruct H as [H|H]; [discriminate H|]); exact H.
Ltac lone := eapply Proofs.Whole.near_attribute; [vm_compute; reflexivity|discriminate].
Ltac zipped a := right; split; [reflexivity|]; eexists; split; [reflexivity|]; exists (firstn a demo_zip), (skipn (S a) demo_zip); split; [reflexivity|];
  vm_compute; let X := fresh in intros X; repeat (destruct X as [X|X]; [discriminate X|]); exact X.
Ltac not_in := let X := fresh in intros X; vm_compute in X; repeat (destruct X as [X|X]; [discriminate X|]); exact X.
Ltac data raw := right; eexists; eexists; exists raw; split; [apply Proofs.Whole.near_nearest; vm_compute; reflexivity|]; split; [discriminate|]; split;
  [|exists [raw]; split; [apply Spec.Problem.L_last; [discriminate|not_in|not_in]|reflexivity]].
Ltac given := eexists; split; [lone|]; split; [exists Null; split; [apply Proofs.Whole.near_none; vm_compute; reflexivity|reflexivity]|].
Ltac opening q := exists q; eexists; eexists; split; [do 4 eexists; split; [split; [exists (VInt q); split; [lone|constructor]|given|]|]|].
Ltac closing := split; [split; [reflexivity|cbn; match goal with |- context [if ?b then _ else _] => destruct b end; discriminate]|];
  let Hs := fresh in intros Hs; unfold program, demo, adds; rewrite Hs; split;
  [split; [reflexivity|]; split; [discriminate|]; split; [intros [_ X]; discriminate X|intros [X|X]; discriminate X]|do 2 eexists; split; [reflexivity|vm_compute; reflexivity]].
Ltac keys := cbn -[B]; repeat (split || (constructor; [apply Proofs.Whole.plain_key; reflexivity|])); repeat constructor; not_in.
Example C97_ex_cases slow : forall i c, nth_error (flat_map nodes_of demo_nodes) i = Some c ->
  exists pts input right, poses (demo slow) (Some demo_zip) c pts input right /\ started (program (demo slow) i input) /\
    (slow input = false -> solves right (program (demo slow) i input)).
Proof.
  intros [|[|[|[|i]]]] c E; cbn in E; [| | | |destruct i; discriminate E]; injection E as <-.
  - opening (3%Z).
    + split; [data (B "1 2"); zipped 0|data (B "3"); zipped 1].
    + apply asks_nothing; left; apply Proofs.Whole.near_nowhere; vm_compute; reflexivity.
    + split; [apply r_standard|reflexivity].
    + closing.
  - opening (5%Z).
    + split; [data (B "4 4"); zipped 2|data (B "8"); zipped 3].
    + eapply asks_name; [apply Proofs.Whole.near_nearest; vm_compute; reflexivity|discriminate].
    + split; [apply r_identical|reflexivity].
    + closing.
  - opening (5%Z).
    + split; [data (B "5 5"); zipped 4|data (B "10"); zipped 5].
    + eapply asks_name; [apply Proofs.Whole.near_nearest; vm_compute; reflexivity|discriminate].
    + split; [apply r_identical|reflexivity].
    + closing.
  - opening (1%Z).
    + split; [data (B "6 6"); zipped 6|].
      right. eexists. eexists. exists (B "12" ++ [13; 10]%N). split; [apply Proofs.Whole.near_nearest; vm_compute; reflexivity|]. split; [discriminate|].
      split; [left; reflexivity|]. exists [B "12"]. split; [|reflexivity]. apply (Spec.Problem.L_crlf (B "12") [] []); [not_in|not_in|constructor].
    + apply asks_nothing; left; apply Proofs.Whole.near_nowhere; vm_compute; reflexivity.
    + split; [apply r_standard|reflexivity].
    + closing.
Qed.
Example C97_ex_standard slow : exists p, archive p = Some demo_zip /\ standard (demo slow) p demo_settings false demo_nodes.
Proof.
  eexists (Problem _ _ _). split; [cbn [archive]; reflexivity|]. split.
  - vm_compute. reflexivity.
  - unfold demo_settings. apply Proofs.Loading.static_update; [apply Proofs.Loading.static_defaults; exact I|]. keys.
  - exact I.
  - repeat split; absent.
  - split; [discriminate|]. intros [_ H]. exfalso. apply H. absent.
  - exists demo_list. split; [vm_compute; auto 12|]. unfold demo_nodes. constructor; [apply l_case; absent|]. constructor.
    + apply (l_batch up _ [cs "2a.in" "2a.out" []; cs "2b.in" "2b.out" []]); [left; reflexivity|]. constructor; [absent|]. constructor; [absent|]. constructor.
    + constructor; [apply l_case; absent|constructor].
  - intros i c E. destruct (C97_ex_cases slow i c E) as (pts & input & right & H1 & H2 & _). exists pts, input, right. split; assumption.
Qed.
(** And the faster program solves it. *)
Example C97_ex_solved : forall i c, nth_error (flat_map nodes_of demo_nodes) i = Some c -> let w := demo (fun _ => false) in
  exists pts input right, poses w (Some demo_zip) c pts input right /\ started (program w i input) /\ solves right (program w i input).
Proof. intros i c E w. destruct (C97_ex_cases (fun _ => false) i c E) as (pts & input & right & H1 & H2 & H3). exists pts, input, right. split; [exact H1|]. split; [exact H2|]. apply H3. reflexivity. Qed.

(** A problem with a checker that counts lines, one of its own, and a case worth [true] points; the program's first answer has one line right of two. *)
Definition part_list : list value :=
  [VDict (cs "1.in" "1.out" [(B "checker", VStr (B "linecount")); (B "points", VInt 10)]);
   VDict (cs "2.in" "2.out" [(B "checker", VStr (B "mine.py")); (B "points", VBool true)])].
Definition part_doc : dict := [(B "archive", VStr (B "data.zip")); (B "test_cases", VList part_list)].
Definition part_zip : entries := [(B "1.in", Some (B "1 2")); (B "1.out", Some (B "3" ++ [10%N] ++ B "4")); (B "2.in", Some (B "6 6")); (B "2.out", Some (B "12"))].
Definition part : whole := {|
  dynamic := fun _ _ _ => None; file := demo_file; yaml := fun t => if beqb t (B "y") then Document (VDict part_doc) else BadSyntax;
  zip := fun n => if beqb n (B "/p/a/data.zip") then Archive part_zip else NoArchive; compiles := fun _ => true; matches := fun _ _ => None;
  root := B "/p/a"; meta := Null; execute := fun _ => Module true; on_error := fun _ => true; judgement := fun _ _ _ _ _ _ => Grading.CkResult true (1 # 2) None None;
  special := fun _ _ => Worker.GRaise; generator := fun _ _ _ => None; program := adds (fun i => beqb i (B "6 6" ++ [10%N]));
  parse_feedback := fun _ => None; strsignal := fun _ => []; mono := false |}.
Example C97_ex_part : Worker.worker_stream (fun _ => Worker.Sent) (judged part (Some false) None false)
  = [Worker.Hello; Worker.GradingBegin false; Worker.CaseResult None 1 1 (10 # 2); Worker.CaseResult None 2 6 (1 # 2); Worker.GradingEnd; Worker.Bye].
Proof. vm_compute. reflexivity. Qed.
Definition part_settings : dict := Model.Loading.update (defaults false Null) part_doc.
Definition part_up : chain := [VList part_list; VDict part_settings].
Definition part_nodes : list node := map (fun v => Lone (v :: part_up)) part_list.
Ltac packed a := right; split; [reflexivity|]; eexists; split; [reflexivity|]; exists (firstn a part_zip), (skipn (S a) part_zip); split; [reflexivity|]; not_in.
Ltac dress := split; [eapply Proofs.Whole.near_attribute; [vm_compute; reflexivity|discriminate]|constructor].
Example C97_ex_gradeable : exists p, gradeable part p part_settings false part_nodes.
Proof.
  eexists (Problem _ _ _). split.
  - vm_compute. reflexivity.
  - unfold part_settings. apply Proofs.Loading.static_update; [apply Proofs.Loading.static_defaults; exact I|]. keys.
  - exact I.
  - repeat split; absent.
  - split; [discriminate|]. intros [_ H]. exfalso. apply H. absent.
  - exists part_list. split; [vm_compute; auto 12|]. unfold part_nodes, part_list. cbn [map]. constructor; [apply l_case; absent|]. constructor; [apply l_case; absent|constructor].
  - intros [|[|i]] c E; cbn in E; [| |destruct i; discriminate E]; injection E as <-.
    + exists (10%Z). do 4 eexists. split; [split; [exists (VInt 10); dress|given|]|].
      * split; [data (B "1 2"); packed 0|]. right. eexists. eexists. exists (B "3" ++ [10%N] ++ B "4"). split; [apply Proofs.Whole.near_nearest; vm_compute; reflexivity|].
        split; [discriminate|]. split; [packed 1|]. exists [B "3"; B "4"]. split; [|reflexivity].
        apply (Spec.Problem.L_lf (B "3") (B "4") [B "4"]); [not_in|not_in|]. apply Spec.Problem.L_last; [discriminate|not_in|not_in].
      * eapply asks_name; [apply Proofs.Whole.near_nearest; vm_compute; reflexivity|discriminate].
      * split; [split; [reflexivity|discriminate]|]. split; [eexists; eexists; apply (Proofs.Whole.lines_replies part)|]. intros always ck H _.
        inversion H as [? ? R| ? ? R| ? ? ? R| | | |? D|? O]; subst; try exact I.
    + exists (1%Z). do 4 eexists. split; [split; [exists (VBool true); dress|given|]|].
      * split; [data (B "6 6"); packed 2|data (B "12"); packed 3].
      * eapply asks_name; [apply Proofs.Whole.near_nearest; vm_compute; reflexivity|discriminate].
      * split; [split; [reflexivity|discriminate]|]. split; [eexists; eexists; apply re_file; [exists (B "mine"), (B "py"); reflexivity|reflexivity]|]. intros always ck H _.
        inversion H as [? ? R| ? ? R| ? ? ? R| | | |? D|? O]; subst; try exact I.
Qed.
