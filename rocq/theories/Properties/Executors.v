(** C48, C65, C66, C67: which executors a judge offers, whether they pass their start-up
    test, where a launch may put symbolic links, and what versions are reported. *)
From Coq Require Import String.
From Verif Require Import Model.Bytes Model.Paths Model.Executors.
From Verif Require Import Spec.Text Spec.Executors Spec.Paths.
From Verif Require Proofs.Executors.
Local Open Scope nat_scope.
Local Open Scope list_scope.

(** ** C48 *)
(** The modules considered are those with a file in the directory, on the 'only' list if
    there is one, not excluded and supported.  (A file name may end in a newline.) *)
Theorem C48_available listing only exclude n :
  In n (available_executors listing only exclude) <->
  (exists f, In f listing /\ (executor_file f n \/ exists g, f = g ++ [10%N] /\ executor_file g n)) /\
  (only = [] \/ In n only) /\ ~ In n exclude /\ n <> B "BASH".
Proof.
  unfold available_executors. rewrite Proofs.Executors.available_iff, in_app_iff. cbn [unsupported In].
  split.
  - intros ((f & H1 & H2) & H3 & H4). apply Proofs.Executors.re_executor_iff in H2.
    split; [exists f; split; assumption|]. split; [exact H3|]. split; [tauto|]. intros ->. apply H4. right. left. reflexivity.
  - intros ((f & H1 & H2) & H3 & H4 & H5). apply Proofs.Executors.re_executor_iff in H2.
    split; [exists f; split; assumption|]. split; [exact H3|]. intros [K|[K|[]]]; [exact (H4 K)|exact (H5 (eq_sym K))].
Qed.
(** They are considered in order of name, each once, *)
Theorem C48_order listing only exclude : ascending (available_executors listing only exclude).
Proof. exact (Proofs.Executors.available_ascending re_executor listing only (exclude ++ unsupported)). Qed.
(** whatever the order in which the directory lists its files. *)
Theorem C48_listing_order l l' only exclude : (forall f, In f l <-> In f l') ->
  available_executors l only exclude = available_executors l' only exclude.
Proof. exact (Proofs.Executors.available_listing_order re_executor l l' only (exclude ++ unsupported)). Qed.

(** The formats of checkers and interactors considered are those with a file among the contributed
    ones, in alphabetical order. *)
Theorem C48_contrib listing n : In n (available_contrib listing) <-> exists f, In f listing /\ contrib_file f n.
Proof.
  unfold available_contrib. rewrite Proofs.Executors.available_iff. split.
  - intros ((f & H1 & H2) & _). exists f. split; [exact H1|]. apply Proofs.Executors.re_contrib_iff, H2.
  - intros (f & H1 & H2). split; [|split; [left; reflexivity|intros []]]. exists f. split; [exact H1|]. apply Proofs.Executors.re_contrib_iff, H2.
Qed.
Theorem C48_contrib_order listing : ascending (available_contrib listing).
Proof. exact (Proofs.Executors.available_ascending re_contrib listing [] []). Qed.
Example C48_contrib_ex : available_contrib [B "testlib.py"; B "__init__.py"; B "default.py"; B "coci.pyc"; B "Peg.py"] = [B "coci"; B "default"; B "testlib"].
Proof. reflexivity. Qed.

(** Module [n] offers [m] under the name [k]: it imports, has the attribute asked for, its
    start-up routine, if any, succeeds, and [k] is one of its aliases that is not
    excluded, or its own name if it has no aliases. *)
Definition offers {module} (import_module : bytes -> import module) (has_attr : module -> bool)
  (init : module -> Executors.init) (aliases : module -> option (list bytes)) (excluded : list bytes) (n k : bytes) (m : module) : Prop :=
  import_module n = Imported m /\ has_attr m = true /\ (init m = NoInit \/ init m = InitReturns true) /\
  match aliases m with Some al => In k al /\ ~ In k excluded | None => k = n end.

(** After loading, a name leads to the last module that offers it; a name no module
    offers leads where it led before. *)
Theorem C48_loaded {module} (import_module : bytes -> import module) has_attr init aliases ignored excluded names d d' :
  load_modules module import_module has_attr init aliases ignored names excluded d = Some d' ->
  forall k m, get module k d' = Some m <->
    (exists pre n post, names = pre ++ n :: post /\ offers import_module has_attr init aliases excluded n k m /\
       forall n' m', In n' post -> ~ offers import_module has_attr init aliases excluded n' k m') \/
    (get module k d = Some m /\ forall n' m', In n' names -> ~ offers import_module has_attr init aliases excluded n' k m').
Proof. exact (Proofs.Executors.load_modules_spec module import_module has_attr init aliases ignored excluded names d d'). Qed.
(** A module that is missing a dependency or fails its test never keeps the others out. *)
Theorem C48_loads {module} (import_module : bytes -> import module) has_attr init aliases ignored excluded names d :
  (forall n, In n names -> import_module n <> ImportRaises /\ forall m, import_module n = Imported m -> init m <> InitRaises) ->
  exists d', load_modules module import_module has_attr init aliases ignored names excluded d = Some d'.
Proof. exact (Proofs.Executors.load_modules_runs module import_module has_attr init aliases ignored excluded names d). Qed.

Example C48_ex :
  available_executors [B "__init__.py"; B "PY3.py"; B "BASH.py"; B "C.py"; B "base_executor.py"; B "C.py"] [] [] = [B "C"; B "PY3"] /\
  available_executors [B "PY3.py"; B "C.py"; B "RUBY.py"] [B "C"; B "RUBY"] [B "RUBY"] = [B "C"].
Proof. split; reflexivity. Qed.
Example C48_ex_load :
  let imp n := if beqb n (B "C") then Imported 1 else if beqb n (B "PY3") then Imported 2 else
               if beqb n (B "D") then ImportError (B "x") else Imported 3 in
  let al m := if m =? 3 then Some [B "C"; B "old"; B "new"] else None in
  load_modules nat imp (fun _ => true) (fun m => if m =? 2 then InitReturns false else NoInit) al []
    [B "C"; B "D"; B "PY3"; B "ZZ"] [B "old"] [] = Some [(B "C", 3); (B "new", 3)].
Proof. reflexivity. Qed.

(** ** C65 *)
(** An executor is offered exactly when its command is configured and is a file, and its
    test is skipped, is empty, or ran within limits, printed the message (up to
    surrounding blanks), wrote nothing to standard error, and its versions could be told. *)
Theorem C65_start_up command isfile skip program run versions :
  initialize command isfile skip program run versions = true <->
  exists c, command = Some c /\ isfile c = true /\
    (skip = true \/ program = [] \/
     exists r, run = Some r /\ t_tle r = false /\ t_mle r = false /\ t_stderr r = [] /\ versions = true /\
       same_upto_surrounding (t_stdout r) (B "echo: Hello, World!")).
Proof. exact (Proofs.Executors.initialize_iff command isfile skip program run versions). Qed.
Example C65_ex :
  let ok := TestRun false false (B "echo: Hello, World!" ++ [LF]) [] in
  initialize (Some (B "/usr/bin/gcc")) (fun _ => true) false (B "int main;") (Some ok) true = true /\
  initialize (Some (B "/usr/bin/gcc")) (fun _ => true) false (B "int main;") (Some (TestRun false false (B "Hello") [])) true = false /\
  initialize None (fun _ => true) true [] (Some ok) true = false.
Proof. repeat split. Qed.

(** ** C66 *)
(** A launch links at a path inside the submission's directory, or in a sibling directory
    whose name extends the directory's; never elsewhere, *)
Theorem C66_near d src p : d <> [] -> Forall name_ok d -> symlink (spelled d) src = Link p ->
  exists x q, p = spelled (removelast d ++ (last d [] ++ x) :: q) /\ Forall name_ok (removelast d ++ (last d [] ++ x) :: q).
Proof. exact (Proofs.Executors.symlink_near d src p). Qed.
(** and every relative path that leads inside is accepted, at the place it leads to. *)
Theorem C66_inside d src x is_dir : d <> [] -> Forall name_ok d -> hd_error src <> Some 47%N ->
  Denotes is_dir (fun _ => None) d src (d ++ x) -> symlink (spelled d) src = Link (spelled (d ++ x)).
Proof.
  intros Nd Hd Hs. apply Proofs.Executors.symlink_inside; try assumption.
  destruct (starts_slash src) eqn:E; [|reflexivity]. apply Proofs.Paths.starts_slash_hd in E. congruence.
Qed.
(** The sibling case is real: the link of one submission can land in another's directory. *)
Theorem C66_inside_only_refuted : exists d src p, Forall name_ok d /\ symlink (spelled d) src = Link p /\
  forall q, p <> spelled (d ++ q).
Proof.
  exists [B "tmp"; B "abc"], (B "../abcd/x"), (B "/tmp/abcd/x"). split; [|split; [reflexivity|]].
  - repeat (constructor; [repeat split; try discriminate; intros K; cbn in K; intuition discriminate|]). constructor.
  - intros [|n q]; [discriminate|]. cbn. discriminate.
Qed.
Example C66_ex : symlink (spelled [B "tmp"; B "abc"]) (B "lib/../data/./in.txt") = Link (B "/tmp/abc/data/in.txt") /\
  symlink (spelled [B "tmp"; B "abc"]) (B "../../etc/passwd") = RefuseLink /\
  symlink (spelled [B "tmp"; B "abc"]) (B "/etc/passwd") = RefuseLink.
Proof. repeat split. Qed.

(** ** C67 *)
(** The version told from a program's output is the first dotted number in it, *)
Theorem C67_version out v : parse_version out = Some v <-> first_version out v.
Proof. exact (Proofs.Executors.parse_version_iff out v). Qed.
(** which there is unless the output has no dotted number at all. *)
Theorem C67_no_version out : parse_version out = None <->
  forall pre num post v, out = pre ++ num ++ post -> ~ dotted num v.
Proof.
  pose proof (Proofs.Executors.parse_version_spec out) as P. destruct (parse_version out) as [v|].
  - split; [discriminate|]. intros H. destruct P as (pre & num & post & E & D & _). destruct (H _ _ _ _ E D).
  - split; [intros _; exact P|reflexivity].
Qed.
(** The version of a runtime comes from the first flag that makes it tell one. *)
Theorem C67_runtime outputs :
  (exists pre o post, outputs = pre ++ Some o :: post /\ first_version o (runtime_version outputs) /\
     forall x v, In (Some x) pre -> ~ first_version x v) \/
  (runtime_version outputs = [] /\ forall x v, In (Some x) outputs -> ~ first_version x v).
Proof. exact (Proofs.Executors.runtime_version_spec outputs). Qed.
Example C67_ex : parse_version (B "gcc 7 (Debian 12.2.0-14) 12.3") = Some [12%Z; 2%Z; 0%Z] /\
  parse_version (B "v1 no .5 dots 6.") = None /\
  runtime_version [None; Some (B "usage"); Some (B "Python 3.11.2"); Some (B "9.9")] = [3%Z; 11%Z; 2%Z].
Proof. repeat split. Qed.

Print Assumptions C48_available.
Print Assumptions C48_order.
Print Assumptions C48_listing_order.
Print Assumptions C48_loaded.
Print Assumptions C48_loads.
Print Assumptions C65_start_up.
Print Assumptions C66_near.
Print Assumptions C66_inside.
Print Assumptions C66_inside_only_refuted.
Print Assumptions C67_version.
Print Assumptions C67_no_version.
Print Assumptions C67_runtime.
Print Assumptions C48_contrib.
Print Assumptions C48_contrib_order.

(** A module that cannot be imported is left out, and the reason is shown unless it is one that is expected. *)
Theorem C48_reason {module} (import_module : bytes -> import module) ignored name :
  (forall shown, load_module module import_module ignored name = Some (None, shown) <->
    exists e, import_module name = ImportError e /\ (shown = true <-> ~ In e ignored)) /\
  (forall m shown, load_module module import_module ignored name = Some (Some m, shown) <-> import_module name = Imported m /\ shown = false).
Proof.
  unfold load_module. assert (forall e, mem e ignored = true <-> In e ignored) as M.
  { intros e. unfold mem. rewrite existsb_exists. split; [intros (x & I & E); apply Proofs.BytesLemmas.beqb_eq in E; subst x; exact I|].
    intros I. exists e. split; [exact I|apply Proofs.BytesLemmas.beqb_refl]. }
  split.
  - intros shown. destruct (import_module name) as [m|e|]; split; try discriminate; try (intros (x & X & _); discriminate X).
    + intros [= <-]. exists e. split; [reflexivity|]. rewrite <- M. destruct (mem e ignored); cbn; intuition congruence.
    + intros (x & [= <-] & H). rewrite <- M in H. destruct (mem e ignored), shown; cbn; try reflexivity; exfalso; intuition congruence.
  - intros m shown. destruct (import_module name) as [m'|e|]; split; try discriminate; try (intros [X _]; discriminate X).
    + intros [= <- <-]. auto.
    + intros [[= <-] ->]. reflexivity.
Qed.
Print Assumptions C48_reason.
