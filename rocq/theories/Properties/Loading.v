(** Property theorems for loading problems (C79) and choosing checkers (C80).

    [file], [zip] and [yaml] are the file system and the two libraries, [compiles] says which
    patterns the regular expression library accepts, [execute n] is what the n-th execution of a
    checker module gives: any functions.  The results about settings are for documents without
    dynamic keys ([static]). *)
From Coq Require Import String.
From Verif Require Import Model.Bytes Model.Config Spec.Config Model.Paths Model.Loading Spec.Loading.
From Verif Require Proofs.Config Proofs.Loading.
Local Open Scope list_scope.
Local Open Scope nat_scope.

(** ** C79 *)
(** The settings of a loaded problem are those of its document, and for the ones it leaves out
    the usual ones; loading succeeds exactly if the archive it names can be opened and its cases
    are listed, or can be found by name in the archive. *)
Theorem C79_loads : forall run file yaml zip compiles root text doc meta,
  file (join root (B "init.yml")) = Some text -> yaml text = Document (VDict doc) -> doc <> [] -> static (VDict doc) -> static meta ->
  exists d, NoDup (map fst d) /\ (forall k v, In (k, v) d <-> stands doc meta k v) /\
  forall p, load run file yaml zip compiles root meta = Fine p <->
    config p = [VDict d] /\ archived zip root [VDict d] (archive p) /\ arranged compiles [VDict d] (archive p) (test_cases p).
Proof. exact Proofs.Loading.loads. Qed.
Print Assumptions C79_loads.

(** There is no loaded problem without a document in its directory, whatever its archive holds. *)
Theorem C79_needs_document : forall run file yaml zip compiles root meta p, load run file yaml zip compiles root meta = Fine p ->
  exists text doc, file (join root (B "init.yml")) = Some text /\ yaml text = Document (VDict doc) /\ doc <> [].
Proof. exact Proofs.Loading.needs. Qed.
Print Assumptions C79_needs_document.

(** The errors a problem setter makes are reported as such: no document, one that is not YAML, an
    empty one, an archive that is missing or broken, and no list of cases without an archive. *)
Theorem C79_invalid : forall run file yaml zip compiles root meta,
  (file (join root (B "init.yml")) = None
   \/ (exists text, file (join root (B "init.yml")) = Some text /\ yaml text = BadSyntax)
   \/ (exists text v, file (join root (B "init.yml")) = Some text /\ yaml text = Document v /\ truthy v = false)
   \/ (exists text doc s, file (join root (B "init.yml")) = Some text /\ yaml text = Document (VDict doc) /\ doc <> []
        /\ static (VDict doc) /\ static meta /\ In (B "archive", VStr s) doc /\ s <> []
        /\ (zip (join root s) = NoArchive \/ zip (join root s) = BadArchive))
   \/ (exists text doc, file (join root (B "init.yml")) = Some text /\ yaml text = Document (VDict doc) /\ doc <> []
        /\ static (VDict doc) /\ static meta /\ (forall v, ~ In (B "archive", v) doc)
        /\ (forall v, ~ In (B "test_cases", v) doc) /\ (forall v, ~ In (B "test-cases", v) doc))) ->
  load run file yaml zip compiles root meta = Fails InvalidInit.
Proof. exact Proofs.Loading.invalid. Qed.
Print Assumptions C79_invalid.

(** A problem's data is the file in its directory; failing that the last entry of that name in
    its archive; failing that, it is missing. *)
Theorem C79_data : forall file root z k r, problem_data file root z k = r <->
  match r with
  | Found d => file (join root k) = Some d
               \/ (file (join root k) = None /\ exists e, z = Some e /\ last_entry e k (Some d))
  | Unreadable => file (join root k) = None /\ exists e, z = Some e /\ last_entry e k None
  | Missing => file (join root k) = None /\ (z = None \/ exists e, z = Some e /\ ~ In k (map fst e))
  end.
Proof. exact Proofs.Loading.data_spec. Qed.
Print Assumptions C79_data.

(** Not every bad document is reported as an invalid one. *)
Theorem C79_invalid_refuted : exists run file yaml zip compiles root meta text v, file (join root (B "init.yml")) = Some text /\
  yaml text = Document v /\ static v /\ v = VStr (B "archive") /\ load run file yaml zip compiles root meta = Fails Raised.
Proof.
  exists (fun _ _ _ => None), (fun _ => Some (B "archive")), (fun _ => Document (VStr (B "archive"))), (fun _ => NoArchive), (fun _ => true), (B "/p/a"), Null, (B "archive"), (VStr (B "archive")).
  vm_compute. auto.
Qed.
Print Assumptions C79_invalid_refuted.

(** An empty list of cases does not mean no cases: they are guessed from the archive. *)
Theorem C79_empty_list_refuted : exists run file yaml zip compiles root meta doc p, yaml (B "y") = Document (VDict doc) /\ In (B "test_cases", VList []) doc /\
  load run file yaml zip compiles root meta = Fine p /\ test_cases p = Guessed [B "a.1.in"] default_input default_output (Always (Plain (VInt 1))).
Proof.
  exists (fun _ _ _ => None), (fun _ => Some (B "y")), (fun _ => Document (VDict [(B "archive", VStr (B "a.zip")); (B "test_cases", VList [])])),
    (fun _ => Archive [(B "a.1.in", Some [])]), (fun _ => true), (B "/p/a"), Null, [(B "archive", VStr (B "a.zip")); (B "test_cases", VList [])].
  eexists. split; [reflexivity|]. split; [right; left; reflexivity|]. split; vm_compute; reflexivity.
Qed.
Print Assumptions C79_empty_list_refuted.

(** Data may be named outside the problem's directory. *)
Theorem C79_inside_refuted : exists file root d, problem_data file root None (B "/etc/passwd") = Found d /\ root = B "/problems/aplusb" /\
  (forall k, file (root ++ B "/" ++ k) = None).
Proof.
  exists (fun p => if beqb p (B "/etc/passwd") then Some (B "root") else None), (B "/problems/aplusb"), (B "root").
  split; [vm_compute; reflexivity|]. split; [reflexivity|]. intros k. reflexivity.
Qed.
Print Assumptions C79_inside_refuted.

Definition sample : dict :=
  [(B "archive", VStr (B "data.zip")); (B "points", VInt 5); (B "test_cases", VDict [(B "input_format", VStr (B "^(?P<case>\d+)\.in$")); (B "case_points", VList [VInt 2; VInt 3])])].
Definition sample_zip : entries := [(B "1.in", Some (B "1 2")); (B "1.out", Some (B "3")); (B "2.in", Some (B "4")); (B "1.in", Some (B "7"))].
Definition sample_file (p : list N) : option (list N) :=
  if beqb p (B "/problems/a/init.yml") then Some (B "y") else if beqb p (B "/problems/a/2.in") then Some (B "own") else None.
Definition sample_yaml (t : list N) : yaml_outcome := if beqb t (B "y") then Document (VDict sample) else BadSyntax.
Definition sample_zips (p : list N) : zip_outcome := if beqb p (B "/problems/a/data.zip") then Archive sample_zip else NoArchive.
Definition never : bool -> value -> chain -> option value := fun _ _ _ => None.
Example C79_ex_hypotheses : sample_file (join (B "/problems/a") (B "init.yml")) = Some (B "y") /\ sample_yaml (B "y") = Document (VDict sample) /\
  static (VDict sample) /\ sample <> [].
Proof.
  split; [reflexivity|]. split; [reflexivity|]. split; [|discriminate]. cbn -[B].
  assert (forall k, existsb (fun x => N.eqb x 43) k = false -> ~ ends_in_plus k) as H.
  { intros k Hk [a ->]. rewrite existsb_app in Hk. apply Bool.orb_false_iff in Hk. destruct Hk as [_ Hk]. discriminate Hk. }
  repeat split; repeat constructor; try (apply H; reflexivity); try (vm_compute; intuition discriminate).
Qed.
Example C79_ex_load : match load never sample_file sample_yaml sample_zips (fun _ => true) (B "/problems/a") (VDict []) with
  | Fine p => archive p = Some sample_zip /\
              test_cases p = Guessed [B "1.in"; B "1.out"; B "2.in"; B "1.in"] (B "^(?P<case>\d+)\.in$") default_output (Each [Plain (VInt 2); Plain (VInt 3)]) /\
              getattr never (config p) (B "points") = Got (Plain (VInt 5)) (config p) [] /\
              getattr never (config p) (B "output_prefix_length") = Got (Plain (VInt 64)) (config p) []
  | Fails _ => False
  end.
Proof. vm_compute. repeat split. Qed.
Example C79_ex_data : problem_data sample_file (B "/problems/a") (Some sample_zip) (B "1.in") = Found (B "7") /\
  problem_data sample_file (B "/problems/a") (Some sample_zip) (B "2.in") = Found (B "own") /\
  problem_data sample_file (B "/problems/a") (Some sample_zip) (B "3.in") = Missing /\
  load never (fun _ => None) sample_yaml sample_zips (fun _ => true) (B "/problems/a") Null = Fails InvalidInit.
Proof. vm_compute. repeat split. Qed.

(** ** C80 *)
(** Each case of a problem is checked by the checker it asks for, with the arguments it gives:
    the built-in one of that name, or the one in the file of that name, executed as a module. *)
Theorem C80_choice : forall run execute cs i c ch ps, let r := checkers_of run execute cs no_checkers in
  nth_error cs i = Some c -> reachable run c -> Forall static c -> nth_error (fst r) i = Some (Fine (ch, ps)) ->
  exists s, asks c s ps /\ ((~ has_dot s /\ In s provided /\ ch = Builtin s)
    \/ (has_dot s /\ exists n, ch = FromFile s n /\ nth_error (executed (snd r)) n = Some s /\ execute n s = Module true)).
Proof. exact Proofs.Loading.choice. Qed.
Print Assumptions C80_choice.

(** What a case asks for is determined by its configuration. *)
Theorem C80_one_choice : forall run c s ps s' ps', reachable run c -> Forall static c -> asks c s ps -> asks c s' ps' -> s = s' /\ ps = ps'.
Proof. intros run c s ps s' ps' R S. exact (Proofs.Loading.asks_fun run c s ps s' ps' (Proofs.Loading.reachable_good run c R S)). Qed.
Print Assumptions C80_one_choice.

(** A built-in checker is always available; so is one in a file that loads. *)
Theorem C80_builtin : forall run execute c st s ps, reachable run c -> Forall static c ->
  asks c s ps -> ~ has_dot s -> In s provided -> checker run execute c st = (Fine (Builtin s, ps), st).
Proof. intros run execute c st s ps R S. exact (Proofs.Loading.builtin_always run execute c st s ps (Proofs.Loading.reachable_good run c R S)). Qed.
Print Assumptions C80_builtin.
Theorem C80_file : forall run execute cs i c s ps, nth_error cs i = Some c -> reachable run c -> Forall static c ->
  asks c s ps -> has_dot s -> (forall n, execute n s = Module true) ->
  exists n, nth_error (fst (checkers_of run execute cs no_checkers)) i = Some (Fine (FromFile s n, ps)).
Proof. exact Proofs.Loading.file_checker. Qed.
Print Assumptions C80_file.

(** An unknown name, a file that is not there and a module without a check function are reported
    as errors of the problem; nothing else is used in their place. *)
Theorem C80_unknown : forall run execute c st s ps, reachable run c -> Forall static c ->
  asks c s ps -> ~ has_dot s -> ~ In s provided -> checker run execute c st = (Fails InvalidInit, st).
Proof. intros run execute c st s ps R S. exact (Proofs.Loading.choice_unknown run execute c st s ps (Proofs.Loading.reachable_good run c R S)). Qed.
Print Assumptions C80_unknown.
Theorem C80_bad_file : forall run execute cs i c s ps, nth_error cs i = Some c -> reachable run c -> Forall static c ->
  asks c s ps -> has_dot s -> (forall n, execute n s = NoModule) \/ (forall n, execute n s = Module false) ->
  nth_error (fst (checkers_of run execute cs no_checkers)) i = Some (Fails InvalidInit).
Proof. exact Proofs.Loading.bad_file. Qed.
Print Assumptions C80_bad_file.

(** All the cases of a problem that name one file share one module, which is executed once. *)
Theorem C80_shared : forall run execute cs s n ps m qs, let r := fst (checkers_of run execute cs no_checkers) in
  In (Fine (FromFile s n, ps)) r -> In (Fine (FromFile s m, qs)) r -> n = m.
Proof. exact Proofs.Loading.one_module. Qed.
Print Assumptions C80_shared.
Theorem C80_executed_once : forall run execute cs i j s b b', let st := snd (checkers_of run execute cs no_checkers) in
  nth_error (executed st) i = Some s -> nth_error (executed st) j = Some s -> execute i s = Module b -> execute j s = Module b' -> i = j.
Proof. exact Proofs.Loading.executed_once. Qed.
Print Assumptions C80_executed_once.

(** A checker section without a name takes that of whatever encloses it. *)
Theorem C80_own_name_refuted : exists run execute c, reachable run c /\ Forall static c /\
  c = [VDict [(B "name", VStr (B "identical")); (B "checker", VDict [(B "args", VDict [(B "precision", VInt 6)])])]] /\
  fst (checker run execute c no_checkers) = Fine (Builtin (B "identical"), [(B "precision", Plain (VInt 6))]).
Proof.
  exists never, (fun _ _ => NoModule). eexists. split; [apply r_root|]. split; [|split; [reflexivity|vm_compute; reflexivity]].
  constructor; [|constructor]. assert (forall k, existsb (fun x => N.eqb x 43) k = false -> ~ ends_in_plus k) as H.
  { intros k Hk [a ->]. rewrite existsb_app in Hk. apply Bool.orb_false_iff in Hk. destruct Hk as [_ Hk]. discriminate Hk. }
  cbn -[B]. repeat split; repeat constructor; try (apply H; reflexivity); try (vm_compute; intuition discriminate).
Qed.
Print Assumptions C80_own_name_refuted.
(** A checker that is not named by a string is an error of the judge, not of the problem. *)
Theorem C80_type_refuted : exists run execute c, reachable run c /\ c = [VDict [(B "checker", VInt 5)]] /\ fst (checker run execute c no_checkers) = Fails Raised.
Proof. exists never, (fun _ _ => NoModule). eexists. split; [apply r_root|]. split; [reflexivity|vm_compute; reflexivity]. Qed.
Print Assumptions C80_type_refuted.

Definition case_floats : chain := [VDict [(B "checker", VDict [(B "name", VStr (B "floats")); (B "args", VDict [(B "precision", VInt 9)])])]].
Definition case_own : chain := [VDict [(B "checker", VStr (B "check.py"))]].
Definition case_none : chain := [VDict [(B "points", VInt 3)]].
Example C80_ex : fst (checkers_of never (fun n s => if beqb s (B "check.py") then Module true else NoModule) [case_own; case_floats; case_none; case_own; [VDict [(B "checker", VStr (B "gone.py"))]]] no_checkers)
  = [Fine (FromFile (B "check.py") 0, []); Fine (Builtin (B "floats"), [(B "precision", Plain (VInt 9))]); Fine (Builtin (B "standard"), []);
     Fine (FromFile (B "check.py") 0, []); Fails InvalidInit].
Proof. vm_compute. reflexivity. Qed.
Example C80_ex_hypotheses : asks case_floats (B "floats") [(B "precision", Plain (VInt 9))] /\ asks case_own (B "check.py") [] /\ has_dot (B "check.py") /\ ~ has_dot (B "floats").
Proof.
  assert (forall raw k v, In (k, v) (match raw with VDict d => d | _ => [] end) -> nearest [raw] k v [raw]) as Hn.
  { intros raw k v H. destruct raw; try contradiction. exists [], (VDict d), []. repeat split; constructor. exact H. }
  split; [|split; [|split]].
  - apply (asks_args case_floats (VDict [(B "name", VStr (B "floats")); (B "args", VDict [(B "precision", VInt 9)])]) case_floats (B "floats")
      (VDict [(B "name", VStr (B "floats")); (B "args", VDict [(B "precision", VInt 9)])] :: case_floats) [(B "precision", VInt 9)]
      (VDict [(B "name", VStr (B "floats")); (B "args", VDict [(B "precision", VInt 9)])] :: case_floats)); try reflexivity; try discriminate.
    + apply Hn. left. reflexivity.
    + eexists [], _, _. split; [reflexivity|]. split; [reflexivity|]. split; [constructor; left; reflexivity|constructor].
    + eexists [], _, _. split; [reflexivity|]. split; [reflexivity|]. split; [constructor; right; left; reflexivity|constructor].
  - apply (asks_name case_own (B "check.py") case_own); [apply Hn; left; reflexivity|discriminate].
  - exists (B "check"), (B "py"). reflexivity.
  - intros H. apply Proofs.Loading.has_dot_contains in H. vm_compute in H. discriminate H.
Qed.
