(** C76: the files programs of each language may read and write. *)
From Coq Require Import String.
From Verif Require Import Model.Bytes Model.Paths Model.Regex Model.Access Model.FileRules Spec.Regex Spec.Access Spec.Policies Spec.FileRules.
From Verif Require Proofs.FileRules.
Local Open Scope list_scope.

Theorem C76_reads : forall e pl extra d c path, tame_place pl -> (In e jvm_languages -> dotted (directory pl)) ->
  Forall (rule_ok (pid d)) extra ->
  file_call c = true -> wants_write d c = false -> path_of d c = Str path ->
  (fst (handle (language_tracer e pl extra) d c) = Run <->
   exists full, get_full_path (cwd d) (fds d) path (dir_of d c) = Some full
     /\ (base_readable (decimal (pid d)) full \/ below (directory pl) full \/ language_readable e pl full
         \/ exists rule, In rule extra /\ covers (pid d) rule full)).
Proof. exact Proofs.FileRules.language_reads. Qed.
(** The classes of the rules, on ASCII. *)
Theorem C76_characters : forall c, (c < 128)%N ->
  (is_digit c = true <-> 48 <= c <= 57)%N
  /\ (word_or_dash c <-> (48 <= c <= 57 \/ 65 <= c <= 90 \/ 97 <= c <= 122)%N \/ In c (B "_-")).
Proof. exact Proofs.FileRules.characters. Qed.
Theorem C76_writes : forall e pl extra d c path, tame_place pl -> (In e jvm_languages -> dotted (directory pl)) ->
  Forall (rule_ok (pid d)) extra ->
  file_call c = true -> wants_write d c = true -> path_of d c = Str path ->
  (fst (handle (language_tracer e pl extra) d c) = Run <->
   exists full, get_full_path (cwd d) (fds d) path (dir_of d c) = Some full
     /\ ((exists w, In w [B "/dev/stdout"; B "/dev/stderr"; B "/dev/null"] /\ exactly w full)
         \/ (In e jvm_languages /\ begins_like (directory pl ++ B "/submission_jvm_crash.log") full))).
Proof. exact Proofs.FileRules.language_writes. Qed.
(** Everything else fails as if the file were missing; only a bad directory descriptor kills. *)
Theorem C76_refused : forall e pl extra d c, tame_place pl -> (In e jvm_languages -> dotted (directory pl)) ->
  Forall (rule_ok (pid d)) extra -> file_call c = true ->
  fst (handle (language_tracer e pl extra) d c) = Run
  \/ fst (handle (language_tracer e pl extra) d c) = Fail ENOENT
  \/ (fst (handle (language_tracer e pl extra) d c) = Kill
      /\ exists path, path_of d c = Str path /\ get_full_path (cwd d) (fds d) path (dir_of d c) = None).
Proof. exact Proofs.FileRules.language_refused. Qed.
(** The other languages get the base files and their directory only. *)
Theorem C76_plain_languages : forall e pl p, language_readable e pl p -> In e reading_more.
Proof. exact Proofs.FileRules.plain_languages. Qed.
(** A script's own file gives nothing outside its directory. *)
Theorem C76_code_inside : forall dir name p, Forall plain dir -> begins_like (dir ++ name) p -> below dir p.
Proof. exact Proofs.FileRules.code_inside. Qed.
Theorem C76_private : forall e pl w p, In w private -> below w p -> language_readable e pl p ->
  In e ["DART"; "PHP"]%string
  \/ (e = "RKT"%string /\ (exactly (B "/etc/passwd") p \/ begins_like (user_home pl) p))
  \/ configured pl p.
Proof. exact Proofs.FileRules.private_files. Qed.
(** A shell whose list of commands names one that is not installed cannot read any file. *)
Theorem C76_missing_command : forall pl extra d c path full, In None (commands pl) ->
  file_call c = true -> wants_write d c = false -> path_of d c = Str path ->
  get_full_path (cwd d) (fds d) path (dir_of d c) = Some full ->
  fst (handle (language_tracer "BASH" pl extra) d c) = Kill.
Proof. exact Proofs.FileRules.missing_command. Qed.

Definition here : place :=
  {| directory := B "/tmp/tmpabc"; code := B "/tmp/tmpabc/aplusb.php"; user_home := B "/home/judge";
     runtime_home := Some (B "/opt/rubies/2.7"); tool := B "/usr/lib/agent.jar"; program := B "/tmp/tmpabc/aplusb"; qemu := true;
     commands := [Some (B "/bin/cat"); Some (B "/bin/ls")] |}.
Example C76_ex_place : tame_place here.
Proof.
  assert (D : forall w, forallb (fun c => (c =? 46)%N || negb (existsb (N.eqb c) (B "()[]{}?*+|^$\."))) w = true -> dotted w).
  { intros w H. apply Forall_forall. intros c Hc. rewrite forallb_forall in H. specialize (H c Hc).
    apply orb_true_iff in H. destruct H as [H|H]; [right; apply N.eqb_eq; exact H|left].
    apply negb_true_iff in H. apply Proofs.FileRules.in_dec_false. exact H. }
  assert (F : forall c l, existsb (N.eqb c) l = false -> ~ In c l) by (exact Proofs.FileRules.in_dec_false).
  unfold tame_place. cbn [code user_home tool program directory commands runtime_home here].
  do 4 (split; [apply D; reflexivity|]). split; [split; apply F; reflexivity|]. split.
  - apply Forall_cons; [eexists; split; [reflexivity|apply D; reflexivity]|].
    apply Forall_cons; [eexists; split; [reflexivity|apply D; reflexivity]|apply Forall_nil].
  - intros home E. injection E as <-. split; [apply F; reflexivity|]. split; [apply F; reflexivity|].
    exists [B "opt"; B "rubies"; B "2.7"]. split; [reflexivity|].
    repeat (apply Forall_cons; [split; [discriminate|apply F; reflexivity]|]). apply Forall_nil.
Qed.
Definition asks (s : list N) (flags : N) : debugger :=
  {| pid := 12; uarg := fun k => match k with 1 => flags | _ => 77%N end; arg0 := 0;
     readstr := fun a => if (a =? 77)%N then Str s else NoStr; cwd := B "/tmp/tmpabc"; fds := fun _ => None |}.
Definition gets (e : string) (s : list N) : verdict := fst (handle (language_tracer e here []) (asks s 0) Open).
(** Rules that are not anchored or too wide: these files are the judge's or other programs'. *)
Theorem C76_private_refuted :
  gets "PHP" (B "/root/conf.d/secret.ini") = Run /\ gets "PHP" (B "/home/judge/conf_d/x.ini") = Run
  /\ gets "DART" (B "/root/vm-service") = Run /\ gets "OBJC" (B "/proc/1/cmdline") = Run
  /\ gets "RKT" (B "/etc/passwd") = Run /\ gets "SWIFT" (B "/libsecret") = Run
  /\ gets "CPP17" (B "/root/conf.d/secret.ini") = Fail ENOENT /\ gets "CPP17" (B "/proc/1/cmdline") = Fail ENOENT.
Proof. vm_compute. repeat split. Qed.
Example C76_ex_ruby : gets "RUBY2" (B "/opt/rubies") = Run /\ gets "RUBY2" (B "/proc/self/loginuid") = Run
  /\ gets "LUA" (B "/proc/self/loginuid") = Fail ENOENT.
Proof. vm_compute. repeat split. Qed.
Example C76_ex_shell : gets "BASH" (B "/bin/cat") = Run /\ gets "BASH" (B "/bin/rm") = Fail ENOENT
  /\ gets "PHP" (B "/etc/php/php-cli.ini") = Run /\ gets "PHP" (B "/etc/php/other.ini") = Fail ENOENT.
Proof. vm_compute. repeat split. Qed.
Example C76_ex_java : fst (handle (language_tracer "JAVA8" here []) (asks (B "submission_jvm_crash.log") 0x41) Open) = Run
  /\ fst (handle (language_tracer "JAVA8" here []) (asks (B "out.txt") 0x41) Open) = Fail ENOENT
  /\ fst (handle (language_tracer "PY3" here []) (asks (B "submission_jvm_crash.log") 0x41) Open) = Fail ENOENT.
Proof. vm_compute. repeat split. Qed.
Example C76_ex_qemu : gets "NASM" (B "/etc/qemu-binfmt/x") = Run /\ gets "TUR" (B "/tmp/tmpabc/aplusb.phpbc") = Run
  /\ gets "MONOCS" (B "/etc/mono/config") = Run /\ gets "JAVA8" (B "/usr/lib/agent.jar") = Run
  /\ gets "RKT" (B "/home/judge/.racket/x") = Run /\ gets "RKT" (B "/home/judge/.ssh/id") = Fail ENOENT.
Proof. vm_compute. repeat split. Qed.

Print Assumptions C76_reads.
Print Assumptions C76_writes.
Print Assumptions C76_refused.
Print Assumptions C76_plain_languages.
Print Assumptions C76_code_inside.
Print Assumptions C76_private.
Print Assumptions C76_missing_command.
Print Assumptions C76_private_refuted.

Print Assumptions C76_characters.
