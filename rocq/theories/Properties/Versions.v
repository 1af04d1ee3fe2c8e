(** C105: the versions the judge reports. *)
From Coq Require Import String Lia.
From Verif Require Import Model.Bytes Model.Versions Spec.Versions.
From Verif Require Proofs.Versions Proofs.BytesLemmas Model.Executors.
Local Open Scope nat_scope.
Local Open Scope list_scope.

(** Until asking an executor's runtimes has worked, a call asks them: the result is a report naming
    every runtime with the first version learnt from its flags, or () - or an exception, if and only if
    there is no such report. *)
Theorem C105_asked parse h name w : not_yet parse name h ->
  forall r, fst (get_runtime_versions parse (after parse h) name w) = Some r <-> reports parse w r.
Proof.
  intros Y r. unfold get_runtime_versions, after. rewrite (Proofs.Versions.fold_unknown parse h [] name eq_refl Y).
  rewrite <- Proofs.Versions.asked_iff. destruct (asked parse w); cbn; tauto.
Qed.
Print Assumptions C105_asked.

(** The first report of an executor is the one it gives ever after, whatever the runtimes would now
    answer and whoever else is asked. *)
Theorem C105_kept parse h name w r later w' : not_yet parse name h -> reports parse w r ->
  fst (get_runtime_versions parse (after parse (h ++ (name, w) :: later)) name w') = Some r.
Proof.
  intros Y R. unfold after. rewrite fold_left_app. cbn [fold_left fst snd].
  pose proof (Proofs.Versions.fold_unknown parse h [] name eq_refl Y) as U.
  match type of U with lookup name ?x = None => set (c := x) in * end. clearbody c.
  assert (lookup name (snd (get_runtime_versions parse c name w)) = Some r) as L.
  { unfold get_runtime_versions. rewrite U. apply Proofs.Versions.asked_iff in R. rewrite R. cbn.
    rewrite Proofs.BytesLemmas.beqb_refl. reflexivity. }
  unfold get_runtime_versions at 1. rewrite (Proofs.Versions.fold_kept parse later _ _ _ L). reflexivity.
Qed.
Print Assumptions C105_kept.

(** Each runtime has one version, so that there is at most one report. *)
Theorem C105_one parse w r r' : reports parse w r -> reports parse w r' -> r = r'.
Proof. rewrite <- !Proofs.Versions.asked_iff. congruence. Qed.
Print Assumptions C105_one.

(** A PyPy that says which Python it implements and which PyPy it is gets both reported, whatever
    was asked before. *)
Theorem C105_pypy findall p command o rest a python z v more : findall o = python :: (z :: v) :: more ->
  pypy_versions findall p command (Printed o :: rest) a = Some [(command, z :: v); (B "implementing python", python)].
Proof.
  intros F. unfold pypy_versions. cbn [ask asked_attr]. unfold pypy_parse. rewrite F. cbn.
  destruct p; reflexivity.
Qed.
Print Assumptions C105_pypy.

(** As coded: a PyPy whose command prints no version is not reported as unknown: the call raises,
    and with it the report of all executors. *)
Theorem C105_pypy_refuted findall p command o a : findall o = [] ->
  pypy_versions findall p command [Printed o] a = None /\ ask (pypy_parse findall) [Printed o] = Some [].
Proof.
  intros F. unfold pypy_versions. cbn [ask asked_attr]. unfold pypy_parse. rewrite F. cbn. destruct p; split; reflexivity.
Qed.
Print Assumptions C105_pypy_refuted.

(** As coded: a PyPy 3 that cannot be asked is reported to implement the Python of PyPy 2. *)
Theorem C105_borrowed_refuted findall o python z v more rest : findall o = python :: (z :: v) :: more ->
  pypy_versions findall PYPY3 (B "pypy3") [Failed] (asked_attr findall PYPY (Printed o :: rest) (Attrs None None)) =
  Some [(B "pypy3", []); (B "implementing python", python)].
Proof. intros F. unfold pypy_versions. cbn [ask asked_attr]. unfold pypy_parse. rewrite F. reflexivity. Qed.
Print Assumptions C105_borrowed_refuted.

Example C105_ex : let gcc := [(B "gcc", [Failed; Printed (B "no idea"); Printed (B "gcc 10.2.1"); Broken]); (B "ld", [Failed])] in
  reports Executors.parse_version gcc [(B "gcc", [10; 2; 1]%Z); (B "ld", [])] /\
  not_yet Executors.parse_version (B "C") [(B "C", [(B "gcc", [Broken])]); (B "D", gcc)] /\
  fst (get_runtime_versions Executors.parse_version (after Executors.parse_version [(B "C", [(B "gcc", [Broken])]); (B "C", gcc); (B "D", gcc)]) (B "C") []) =
    Some [(B "gcc", [10; 2; 1]%Z); (B "ld", [])] /\
  pypy_versions (fun o => if beqb o (B "Python 3.6.9 [PyPy 7.3.1]") then [[3; 6; 9]; [7; 3; 1]]%Z else []) PYPY3 (B "pypy3") [Printed (B "Python 3.6.9 [PyPy 7.3.1]")] (Attrs None None) =
    Some [(B "pypy3", [7; 3; 1]%Z); (B "implementing python", [3; 6; 9]%Z)].
Proof.
  cbv zeta. split; [apply Proofs.Versions.asked_iff; vm_compute; reflexivity|].
  split; [|split; vm_compute; reflexivity].
  intros w [E|[E|[]]]; [|vm_compute in E; discriminate E]. injection E as <-. apply Proofs.Versions.asked_none. reflexivity.
Qed.
