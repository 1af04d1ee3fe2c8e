From Coq Require Import String.
From Verif Require Import Model.Bytes Model.Paths Model.Regex Model.Access Model.SyscallTables Model.Tracer Model.Policies
  Spec.Paths Spec.Regex Spec.Access Spec.Tracer Spec.Policies Proofs.BytesLemmas Proofs.Access Proofs.Tracer.
Local Open Scope list_scope.

Definition same_callb (a b : string) : bool :=
  String.eqb a b || existsb (fun line => existsb (fun k => String.eqb k a) line && existsb (fun k => String.eqb k b) line) aliases_list.
Lemma same_callb_spec : forall a b, same_callb a b = true <-> same_call aliases_list a b.
Proof.
  intros a b. unfold same_callb, same_call. rewrite orb_true_iff, String.eqb_eq, existsb_exists. split.
  - intros [E|(line & Hl & E)]; [left; exact E|right]. apply andb_true_iff in E.
    exists line. rewrite !existsb_name in E. tauto.
  - intros [E|(line & Hl & E)]; [left; exact E|right]. exists line. rewrite andb_true_iff, !existsb_name. tauto.
Qed.
Section E.
Context {F : Type}.
Fixpoint entry_for (policy : list (string * hval F)) (name : string) : option (hval F) :=
  match policy with
  | [] => None
  | (n, h) :: r => match entry_for r name with Some h' => Some h' | None => if same_callb n name then Some h else None end
  end.
Lemma entry_for_none : forall policy name, entry_for policy name = None -> unmentioned policy name.
Proof.
  induction policy as [|[n h] r IH]; intros name H n' h' Hin; [destruct Hin|].
  cbn [entry_for] in H. destruct (entry_for r name) eqn:E; [discriminate|].
  destruct (same_callb n name) eqn:S; [discriminate|]. destruct Hin as [Hin|Hin].
  - injection Hin as <- <-. intro X. apply same_callb_spec in X. congruence.
  - exact (IH _ E _ _ Hin).
Qed.
Lemma entry_for_some : forall policy name h, entry_for policy name = Some h -> governs policy name h.
Proof.
  induction policy as [|[n h0] r IH]; intros name h H; [discriminate|].
  cbn [entry_for] in H. destruct (entry_for r name) as [h'|] eqn:E.
  - injection H as <-. destruct (IH _ _ E) as (p & n' & q & -> & S & L).
    exists ((n, h0) :: p), n', q. split; [reflexivity|]. split; assumption.
  - destruct (same_callb n name) eqn:S; [|discriminate]. injection H as <-.
    exists [], n, r. split; [reflexivity|]. split; [apply same_callb_spec; exact S|]. exact (entry_for_none _ _ E).
Qed.
Lemma entry_for_app : forall p q name,
  entry_for (p ++ q) name = match entry_for q name with Some h => Some h | None => entry_for p name end.
Proof.
  induction p as [|[n h] r IH]; intros q name; cbn [entry_for app]; [destruct (entry_for q name); reflexivity|].
  rewrite IH. destruct (entry_for q name); reflexivity.
Qed.
Lemma entry_for_unmentioned : forall policy name, unmentioned policy name -> entry_for policy name = None.
Proof.
  intros policy name U. destruct (entry_for policy name) as [h|] eqn:E; [|reflexivity].
  destruct (entry_for_some _ _ _ E) as (p & n & q & -> & S & _). exfalso. apply (U n h); [|exact S].
  apply in_app_iff. right. left. reflexivity.
Qed.
(** The decision, by the last entry for the name. *)
Definition by_entry (run : F -> verdict) (e : option (hval F)) (arg0 : Z) : decision :=
  match e with Some h => meaning run h arg0 | None => Verdict Kill end.
Lemma decide_entry : forall run (policy : list (string * hval F)) sec supported t abi n name arg0,
  (forall a, In a supported -> Linux_or_bsd a) ->
  security_of syscalls policy = Some sec -> build syscalls sec supported = Some t ->
  In abi supported -> In (n, name) (table_of abi) ->
  decide run t abi (Z.of_N n) arg0 = by_entry run (entry_for policy name) arg0.
Proof.
  intros run policy sec supported t abi n name arg0 HS H1 H2 HA Hn. unfold by_entry.
  destruct (entry_for policy name) as [h|] eqn:E.
  - exact (named_call run policy sec supported t abi n name h arg0 HS H1 H2 HA Hn (entry_for_some _ _ _ E)).
  - exact (unmentioned_call run policy sec supported t abi n name arg0 HS H1 H2 HA Hn (entry_for_none _ _ E)).
Qed.
End E.

Definition knownb (name : string) : bool :=
  existsb (fun t => existsb (fun r => String.eqb (snd r) name) t)
    [linux_x86; linux_x64; linux_x32; linux_arm; linux_generic; freebsd].
Lemma knownb_spec : forall name, knownb name = true -> known_call name.
Proof.
  intros name X. left. apply existsb_exists in X. destruct X as (t & Ht & X). apply existsb_exists in X.
  destruct X as ([c nm] & Hr & E). cbn [snd] in E. apply String.eqb_eq in E. subst nm.
  apply In_nth with (d := []) in Ht. destruct Ht as (a & La & Ea). exists a, c. split.
  - unfold Linux_or_bsd. cbn [length] in La. cbn [In]. unfold X86, X64, X32, ARM, ARM64, FREEBSD_X64. lia.
  - unfold table_of. rewrite Ea. exact Hr.
Qed.
Lemma policies_known : forall e own n h, In (e, own) executors -> In (n, h) (policy_with own) -> known_call n.
Proof.
  assert (C : forallb (fun e => forallb (fun x => knownb (fst x)) (snd e)) executors = true) by (vm_compute; reflexivity).
  intros e own n h He Hin. unfold policy_with in Hin. apply in_app_iff in Hin. destruct Hin as [Hin|Hin].
  - apply in_map_iff in Hin. destruct Hin as ([n' h'] & E & Hin). injection E as <- <-. exact (base_known _ _ Hin).
  - pose proof (proj1 (forallb_forall _ _) C _ He) as X. cbn [snd] in X.
    pose proof (proj1 (forallb_forall _ _) X _ Hin) as Y. apply knownb_spec. exact Y.
Qed.
Lemma linux_abi : forall abi, linux abi -> Linux_or_bsd abi.
Proof. intros abi H. unfold linux, Linux_or_bsd in *. cbn [In] in *. tauto. Qed.
Lemma policies_build : forall e own supported native, In (e, own) executors ->
  (forall a, In a supported -> linux a) -> linux native ->
  exists sec t w, security_of syscalls (policy_with own) = Some sec /\ build syscalls sec supported = Some t
    /\ whitelist syscalls sec native = Some w.
Proof.
  intros e own supported native He HS HN. apply tables_total.
  - intros a Ha. apply linux_abi, HS, Ha.
  - apply linux_abi, HN.
  - intros n h. exact (policies_known e own n h He).
Qed.

Lemma passes_entry : forall own supported allowed tr d abi n name,
  (forall a, In a supported -> linux a) -> In abi supported -> In (n, name) (table_of abi) ->
  passes own supported allowed tr d abi n ->
  let v := by_entry (fun h => fst (handle_own allowed tr d h)) (entry_for (policy_with own) name) (arg0 d) in
  v = Verdict Run \/ v = FaultAndRun.
Proof.
  intros own supported allowed tr d abi n name HS HA Hn (sec & t & v & H1 & H2 & H3 & H4). cbv zeta.
  rewrite (decide_entry _ (policy_with own) sec supported t abi n name) in H3;
    [|intros a X; apply linux_abi, HS, X|exact H1|exact H2|exact HA|exact Hn].
  rewrite H3. exact H4.
Qed.
(** What an entry can let through. *)
Inductive kind := KAny | KFn (h : own_handler) | KNo.
Definition kind_of (e : option (hval own_handler)) : kind :=
  match e with
  | Some (Fn h) => KFn h
  | Some (Num n) => if (n =? 1)%N || (n =? 3)%N then KAny else KNo
  | None => KNo
  end.
Lemma passes_kind : forall own supported allowed tr d abi n name,
  (forall a, In a supported -> linux a) -> In abi supported -> In (n, name) (table_of abi) ->
  passes own supported allowed tr d abi n ->
  match kind_of (entry_for (policy_with own) name) with
  | KAny => True
  | KFn h => fst (handle_own allowed tr d h) = Run
  | KNo => False
  end.
Proof.
  intros own supported allowed tr d abi n name HS HA Hn P.
  pose proof (passes_entry _ _ _ _ _ _ _ _ HS HA Hn P) as V. cbv zeta in V. unfold by_entry in V. unfold kind_of.
  destruct (entry_for (policy_with own) name) as [[k|h]|]; cbn [meaning] in V.
  - destruct (k =? 1)%N; [exact I|]. destruct (k =? 3)%N; [exact I|]. destruct V; discriminate.
  - destruct V as [V|V]; [injection V as V; exact V|discriminate].
  - destruct V; discriminate.
Qed.
Definition mem (s : string) (l : list string) : bool := existsb (String.eqb s) l.
Lemma mem_in : forall s l, mem s l = true <-> In s l.
Proof.
  intros s l. unfold mem. rewrite existsb_exists. split.
  - intros (x & Hx & E). apply String.eqb_eq in E. subst. exact Hx.
  - intro H. exists s. split; [exact H|apply String.eqb_refl].
Qed.
Definition check (names : list string) (f : string -> string -> kind -> bool) : bool :=
  forallb (fun e => forallb (fun name => f (fst e) name (kind_of (entry_for (policy_with (snd e)) name))) names) executors.
Lemma check_spec : forall names f e own name, check names f = true -> In (e, own) executors -> In name names ->
  f e name (kind_of (entry_for (policy_with own) name)) = true.
Proof.
  intros names f e own name C He Hn. unfold check in C.
  pose proof (proj1 (forallb_forall _ _) C _ He) as X. cbv beta in X. exact (proj1 (forallb_forall _ _) X _ Hn).
Qed.

(** Files *)
Definition handled_eqb (a b : handled) : bool :=
  match a, b with
  | Openat, Openat | Open, Open | Faccessat, Faccessat | Access, Access | Readlink, Readlink | Readlinkat, Readlinkat
  | Stat, Stat | Stat64, Stat64 | Lstat, Lstat | Lstat64, Lstat64 | Fstatat, Fstatat => true
  | _, _ => false
  end.
Lemma handled_eqb_eq : forall a b, handled_eqb a b = true -> a = b.
Proof. intros [] []; cbn; congruence. Qed.
Definition file_check (e name : string) (k : kind) : bool :=
  match k with
  | KNo => true
  | KAny => mem name ["statfs"; "statfs64"]%string || (String.eqb e "COFFEE" && String.eqb name "statx")
            || (String.eqb e "TCL" && String.eqb name "access")
  | KFn (Base c) => match checked_as name with Some c' => handled_eqb c c' | None => match c with Mkdir | Unlink => true | _ => false end end
  | KFn (Refuse _) => true
  | KFn Procctl => false
  | KFn Exec => String.eqb e "BASH" && String.eqb name "execve"
  end.
Lemma file_checked : check file_naming file_check = true.
Proof. vm_compute. reflexivity. Qed.
Lemma execve_spec : forall allowed d, handle_execve allowed d = Run <-> in_commands allowed d.
Proof.
  intros allowed d. unfold handle_execve, in_commands. change AT_FDCWD with (-100)%Z. split.
  - destruct (readstr d (uarg d 0)) as [s| | |] eqn:R; try discriminate.
    destruct (get_full_path (cwd d) (fds d) s (-100)) as [f|] eqn:G; [|discriminate].
    match goal with |- context [existsb ?f allowed] => destruct (existsb f allowed) eqn:X end; [|discriminate]. intros _.
    apply existsb_exists in X. destruct X as ([w|] & Hw & E); [|discriminate]. apply beqb_eq in E. subst w.
    exists s, f. repeat split; assumption.
  - intros (s & f & R & G & Hin). rewrite R, G.
    assert (X : existsb (fun a => match a with Some w => beqb w f | None => false end) allowed = true).
    { apply existsb_exists. exists (Some f). split; [exact Hin|]. apply beqb_eq. reflexivity. }
    rewrite X. reflexivity.
Qed.
Lemma execve_kill : forall allowed d, handle_execve allowed d <> Run -> handle_execve allowed d = Kill.
Proof.
  intros allowed d. unfold handle_execve. destruct (readstr d (uarg d 0)); try reflexivity.
  destruct (get_full_path _ _ _ _); [|reflexivity]. match goal with |- context [existsb ?f allowed] => destruct (existsb f allowed) end; [congruence|reflexivity].
Qed.
Theorem files_checked : forall e own supported allowed tr d abi n name,
  In (e, own) executors -> (forall a, In a supported -> linux a) -> In abi supported ->
  In (n, name) (table_of abi) -> In name file_naming ->
  passes own supported allowed tr d abi n ->
  (exists c, checked_as name = Some c /\ fst (handle tr d c) = Run)
  \/ In name ["statfs"; "statfs64"]%string
  \/ (e = "COFFEE" /\ name = "statx")%string \/ (e = "TCL" /\ name = "access")%string
  \/ (e = "BASH" /\ name = "execve")%string /\ in_commands allowed d.
Proof.
  intros e own supported allowed tr d abi n name He HS HA Hn Hname P.
  pose proof (check_spec _ _ _ _ _ file_checked He Hname) as C.
  pose proof (passes_kind _ _ _ _ _ _ _ _ HS HA Hn P) as K.
  unfold file_check in C. destruct (kind_of (entry_for (policy_with own) name)) as [|[c|er| |]|] eqn:EK.
  - right. apply orb_true_iff in C. destruct C as [C|C]; [apply orb_true_iff in C; destruct C as [C|C]|].
    + left. apply mem_in. exact C.
    + right. left. apply andb_true_iff in C. rewrite !String.eqb_eq in C. exact C.
    + right. right. left. apply andb_true_iff in C. rewrite !String.eqb_eq in C. exact C.
  - left. destruct (checked_as name) as [c'|].
    + apply handled_eqb_eq in C. subst c'. exists c. split; [reflexivity|exact K].
    + exfalso. destruct c; try discriminate C; discriminate K.
  - discriminate K.
  - discriminate C.
  - right. right. right. right. apply andb_true_iff in C. rewrite !String.eqb_eq in C. split; [exact C|].
    apply execve_spec. exact K.
  - destruct K.
Qed.

(** Network, privileges, processes, signals *)
Definition network_check (e name : string) (k : kind) : bool :=
  match k with
  | KNo | KFn (Base Socket) | KFn (Base Socketcall) | KFn (Refuse _) => true
  | KAny => (String.eqb name "socketpair" && mem e ("PIKE" :: jvm_languages)%string)
            || (String.eqb e "TCL" && mem name ["connect"; "getsockname"]%string)
  | _ => false
  end.
Theorem network_checked : forall e own supported allowed tr d abi n name,
  In (e, own) executors -> (forall a, In a supported -> linux a) -> In abi supported ->
  In (n, name) (table_of abi) -> In name network ->
  passes own supported allowed tr d abi n ->
  (name = "socketpair" /\ In e ("PIKE" :: jvm_languages))%string
  \/ (e = "TCL" /\ In name ["connect"; "getsockname"])%string.
Proof.
  assert (X : check network network_check = true) by (vm_compute; reflexivity).
  intros e own supported allowed tr d abi n name He HS HA Hn Hname P.
  pose proof (check_spec _ _ _ _ _ X He Hname) as C. clear X.
  pose proof (passes_kind _ _ _ _ _ _ _ _ HS HA Hn P) as K.
  unfold network_check in C. destruct (kind_of (entry_for (policy_with own) name)) as [|[c|er| |]|]; try discriminate C.
  - apply orb_true_iff in C. destruct C as [C|C]; apply andb_true_iff in C;
      rewrite !String.eqb_eq, mem_in in C; [left|right]; exact C.
  - exfalso. destruct c; try discriminate C; discriminate K.
  - discriminate K.
  - destruct K.
Qed.
Definition privileged_check (e name : string) (k : kind) : bool :=
  match k with
  | KNo | KFn (Refuse _) => true
  | KAny => (String.eqb name "setrlimit" && mem e ("COFFEE" :: jvm_languages)%string)
            || (String.eqb name "sched_setscheduler" && mem e mono_languages)
            || (String.eqb name "personality" && String.eqb e "SBCL")
  | _ => false
  end.
Theorem privileged_checked : forall e own supported allowed tr d abi n name,
  In (e, own) executors -> (forall a, In a supported -> linux a) -> In abi supported ->
  In (n, name) (table_of abi) -> In name privileged ->
  passes own supported allowed tr d abi n ->
  (name = "setrlimit" /\ In e ("COFFEE" :: jvm_languages))%string
  \/ (name = "sched_setscheduler" /\ In e mono_languages)%string
  \/ (name = "personality" /\ e = "SBCL")%string.
Proof.
  assert (X : check privileged privileged_check = true) by (vm_compute; reflexivity).
  intros e own supported allowed tr d abi n name He HS HA Hn Hname P.
  pose proof (check_spec _ _ _ _ _ X He Hname) as C. clear X.
  pose proof (passes_kind _ _ _ _ _ _ _ _ HS HA Hn P) as K.
  unfold privileged_check in C. destruct (kind_of (entry_for (policy_with own) name)) as [|[c|er| |]|]; try discriminate C.
  - apply orb_true_iff in C. destruct C as [C|C]; [apply orb_true_iff in C; destruct C as [C|C]|];
      apply andb_true_iff in C; rewrite !String.eqb_eq, ?mem_in in C; tauto.
  - discriminate K.
  - destruct K.
Qed.
Definition spawn_check (e name : string) (k : kind) : bool :=
  match k with KNo | KFn (Refuse _) => true | KAny => String.eqb name "fork" && String.eqb e "BASH" | _ => false end.
Theorem spawn_checked : forall e own supported allowed tr d abi n name,
  In (e, own) executors -> (forall a, In a supported -> linux a) -> In abi supported ->
  In (n, name) (table_of abi) -> In name spawning ->
  passes own supported allowed tr d abi n -> (name = "fork" /\ e = "BASH")%string.
Proof.
  assert (X : check spawning spawn_check = true) by (vm_compute; reflexivity).
  intros e own supported allowed tr d abi n name He HS HA Hn Hname P.
  pose proof (check_spec _ _ _ _ _ X He Hname) as C. clear X.
  pose proof (passes_kind _ _ _ _ _ _ _ _ HS HA Hn P) as K.
  unfold spawn_check in C. destruct (kind_of (entry_for (policy_with own) name)) as [|[c|er| |]|]; try discriminate C.
  - apply andb_true_iff in C; rewrite !String.eqb_eq in C; exact C.
  - discriminate K.
  - destruct K.
Qed.
Definition signal_check (e name : string) (k : kind) : bool :=
  match k with KNo | KFn (Base Kill_) | KFn (Base Tgkill) => true | _ => false end.
Theorem signal_checked : forall e own supported allowed tr d abi n name,
  In (e, own) executors -> (forall a, In a supported -> linux a) -> In abi supported ->
  In (n, name) (table_of abi) -> In name signalling ->
  passes own supported allowed tr d abi n -> uarg d 0 = pid d.
Proof.
  assert (X : check signalling signal_check = true) by (vm_compute; reflexivity).
  intros e own supported allowed tr d abi n name He HS HA Hn Hname P.
  pose proof (check_spec _ _ _ _ _ X He Hname) as C. clear X.
  pose proof (passes_kind _ _ _ _ _ _ _ _ HS HA Hn P) as K.
  unfold signal_check in C. destruct (kind_of (entry_for (policy_with own) name)) as [|[c|er| |]|]; try discriminate C.
  - assert (D : do_kill d = Run) by (destruct c; try discriminate C; exact K).
    unfold do_kill in D. destruct (uarg d 0 =? pid d)%N eqn:E; [apply N.eqb_eq; exact E|discriminate D].
  - destruct K.
Qed.

(** Calls an executor does not name are treated as in the base policy. *)
Lemma entry_lift : forall (p : list (string * hval handled)) name,
  entry_for (map (fun e => (fst e, lift (snd e))) p) name = option_map lift (entry_for p name).
Proof.
  induction p as [|[n h] r IH]; intro name; [reflexivity|]. cbn [map entry_for fst snd]. rewrite IH.
  destruct (entry_for r name); [reflexivity|]. destruct (same_callb n name); reflexivity.
Qed.
Theorem rest_as_base : forall own supported sec t sec0 t0 allowed tr d abi n name a,
  (forall a, In a supported -> linux a) -> In abi supported -> In (n, name) (table_of abi) -> not_own own name ->
  security_of syscalls (policy_with own) = Some sec -> build syscalls sec supported = Some t ->
  security_of syscalls base_policy = Some sec0 -> build syscalls sec0 supported = Some t0 ->
  decide (fun h => fst (handle_own allowed tr d h)) t abi (Z.of_N n) a
  = decide (fun c => fst (handle tr d c)) t0 abi (Z.of_N n) a.
Proof.
  intros own supported sec t sec0 t0 allowed tr d abi n name a HS HA Hn NO H1 H2 H3 H4.
  assert (HL : forall a, In a supported -> Linux_or_bsd a) by (intros x X; apply linux_abi, HS, X).
  rewrite (decide_entry _ (policy_with own) sec supported t abi n name a HL H1 H2 HA Hn).
  rewrite (decide_entry _ base_policy sec0 supported t0 abi n name a HL H3 H4 HA Hn).
  unfold policy_with. rewrite entry_for_app, (entry_for_unmentioned own name NO), entry_lift.
  destruct (entry_for base_policy name) as [[k|c]|]; reflexivity.
Qed.
(** Exceptions are real. *)
Lemma any_passes : forall e own supported allowed tr d abi n name,
  In (e, own) executors -> (forall a, In a supported -> linux a) -> In abi supported ->
  In (n, name) (table_of abi) -> entry_for (policy_with own) name = Some ALLOW ->
  passes own supported allowed tr d abi n.
Proof.
  intros e own supported allowed tr d abi n name He HS HA Hn E.
  destruct (policies_build e own supported X64 He HS) as (sec & t & w & H1 & H2 & _); [cbn; unfold linux; cbn; tauto|].
  exists sec, t, (Verdict Run). split; [exact H1|]. split; [exact H2|]. split; [|left; reflexivity].
  rewrite (decide_entry _ (policy_with own) sec supported t abi n name (arg0 d));
    [rewrite E; reflexivity| |exact H1|exact H2|exact HA|exact Hn].
  intros a Ha. apply linux_abi, HS, Ha.
Qed.
Lemma x64_linux : forall a, In a x64_abis -> linux a.
Proof. intros a H. unfold linux, x64_abis in *. cbn [In] in *. tauto. Qed.
Theorem unchecked_refuted :
  (forall allowed tr d, passes tcl x64_abis allowed tr d X64 21)
  /\ (forall allowed tr d, passes coffee x64_abis allowed tr d X64 332)
  /\ (forall e own allowed tr d, In (e, own) executors -> passes own x64_abis allowed tr d X64 137)
  /\ In (21%N, "access"%string) linux_x64 /\ In (332%N, "statx"%string) linux_x64 /\ In (137%N, "statfs"%string) linux_x64
  /\ In ("TCL"%string, tcl) executors /\ In ("COFFEE"%string, coffee) executors.
Proof.
  assert (X : In X64 x64_abis) by (right; left; reflexivity).
  assert (T1 : In (21%N, "access"%string) linux_x64) by (apply in_table; vm_compute; reflexivity).
  assert (T2 : In (332%N, "statx"%string) linux_x64) by (apply in_table; vm_compute; reflexivity).
  assert (T3 : In (137%N, "statfs"%string) linux_x64) by (apply in_table; vm_compute; reflexivity).
  assert (E1 : In ("TCL"%string, tcl) executors) by (unfold executors; repeat (try (left; reflexivity); right)).
  assert (E2 : In ("COFFEE"%string, coffee) executors) by (unfold executors; repeat (try (left; reflexivity); right)).
  split; [|split; [|split; [|split; [exact T1|split; [exact T2|split; [exact T3|split; [exact E1|exact E2]]]]]]].
  - intros. apply (any_passes _ _ _ _ _ _ _ _ "access" E1 x64_linux X T1). vm_compute. reflexivity.
  - intros. apply (any_passes _ _ _ _ _ _ _ _ "statx" E2 x64_linux X T2). vm_compute. reflexivity.
  - intros e own allowed tr d He. apply (any_passes _ _ _ _ _ _ _ _ "statfs" He x64_linux X T3).
    assert (C : forallb (fun e => match entry_for (policy_with (snd e)) "statfs" with Some (Num 1) => true | _ => false end) executors = true)
      by (vm_compute; reflexivity).
    pose proof (proj1 (forallb_forall _ _) C _ He) as Y. cbn [snd] in Y.
    destruct (entry_for (policy_with own) "statfs") as [[[|[]]|]|]; try discriminate Y. reflexivity.
Qed.

Lemma own_granted : forall e own name supported allowed tr d abi n,
  In (e, own) executors -> In (name, ALLOW) own -> (forall a, In a supported -> linux a) -> In abi supported ->
  In (n, name) (table_of abi) -> passes own supported allowed tr d abi n.
Proof.
  intros e own name supported allowed tr d abi n He Hin HS HA Hn. apply (any_passes e own _ _ _ _ _ _ name He HS HA Hn).
  assert (C : forallb (fun e => forallb (fun x => match snd x with
              | Num 1 => match entry_for (policy_with (snd e)) (fst x) with Some (Num 1) => true | _ => false end
              | _ => true end) (snd e)) executors = true) by (vm_compute; reflexivity).
  pose proof (proj1 (forallb_forall _ _) C _ He) as Y. cbv beta in Y.
  pose proof (proj1 (forallb_forall _ _) Y _ Hin) as Z. cbn [snd fst ALLOW] in Z.
  destruct (entry_for (policy_with own) name) as [[[|[]]|]|]; try discriminate Z. reflexivity.
Qed.
Lemma shell_exec : forall supported allowed tr d abi n,
  (forall a, In a supported -> linux a) -> In abi supported -> In (n, "execve"%string) (table_of abi) ->
  (passes shell supported allowed tr d abi n <-> in_commands allowed d).
Proof.
  intros supported allowed tr d abi n HS HA Hn.
  assert (E : entry_for (policy_with shell) "execve" = Some (Fn Exec)) by (vm_compute; reflexivity).
  split; intro H.
  - pose proof (passes_kind _ _ _ _ _ _ _ _ HS HA Hn H) as K. rewrite E in K. cbn [kind_of] in K.
    apply execve_spec. exact K.
  - assert (He : In ("BASH"%string, shell) executors) by (unfold executors; repeat (try (left; reflexivity); right)).
    destruct (policies_build "BASH" shell supported X64 He HS) as (sec & t & w & H1 & H2 & _); [unfold linux; cbn; tauto|].
    exists sec, t, (Verdict Run). split; [exact H1|]. split; [exact H2|]. split; [|left; reflexivity].
    rewrite (decide_entry _ (policy_with shell) sec supported t abi n "execve" (arg0 d));
      [rewrite E| |exact H1|exact H2|exact HA|exact Hn].
    + cbn [by_entry meaning handle_own fst]. f_equal. apply execve_spec. exact H.
    + intros a Ha. apply linux_abi, HS, Ha.
Qed.

(** The base policy, call by call. *)
Lemma handled_eq_dec : forall f g : handled, {f = g} + {f <> g}.
Proof. decide equality. Defined.
Definition granted (name : string) : option (hval handled) :=
  if existsb (String.eqb name) freely then Some ALLOW
  else match find (fun e => String.eqb name (fst e)) by_rule with Some (_, f) => Some (Fn f) | None => None end.
Definition same_entry (x y : option (hval handled)) : bool :=
  match x, y with
  | None, None => true
  | Some (Num a), Some (Num b) => N.eqb a b
  | Some (Fn f), Some (Fn g) => if handled_eq_dec f g then true else false
  | _, _ => false
  end.
Lemma same_entry_spec : forall x y, same_entry x y = true -> x = y.
Proof.
  intros [[a|f]|] [[b|g]|]; cbn; try discriminate; auto.
  - intros H. apply N.eqb_eq in H. congruence.
  - destruct (handled_eq_dec f g); [congruence|discriminate].
Qed.
Lemma base_granted : forall abi n name, In abi [X86; X64; X32; ARM; ARM64] -> In (n, name) (table_of abi) -> entry_for base_policy name = granted name.
Proof.
  intros abi n name HA Hn. apply same_entry_spec.
  assert (C : forallb (fun a => forallb (fun r => same_entry (entry_for base_policy (snd r)) (granted (snd r))) (table_of a)) [X86; X64; X32; ARM; ARM64] = true)
    by (vm_compute; reflexivity).
  rewrite forallb_forall in C. specialize (C _ HA). rewrite forallb_forall in C. exact (C _ Hn).
Qed.
Lemma base_decides : forall run sec supported t abi n name arg0,
  (forall a, In a supported -> In a [X86; X64; X32; ARM; ARM64]) ->
  security_of syscalls base_policy = Some sec -> build syscalls sec supported = Some t ->
  In abi supported -> In (n, name) (table_of abi) ->
  (In name freely -> decide run t abi (Z.of_N n) arg0 = Verdict Run)
  /\ (forall f, In (name, f) by_rule -> decide run t abi (Z.of_N n) arg0 = Verdict (run f))
  /\ (~ In name freely -> (forall f, ~ In (name, f) by_rule) -> decide run t abi (Z.of_N n) arg0 = Verdict Kill).
Proof.
  intros run sec supported t abi n name arg0 HS H1 H2 HA Hn.
  assert (D : decide run t abi (Z.of_N n) arg0 = by_entry run (granted name) arg0).
  { rewrite <- (base_granted abi n name (HS _ HA) Hn). refine (decide_entry run base_policy sec supported t abi n name arg0 _ H1 H2 HA Hn).
    intros a X. apply linux_abi, HS, X. }
  rewrite D. unfold granted.
  assert (E : existsb (String.eqb name) freely = true <-> In name freely).
  { rewrite existsb_exists. split; [intros (x & I & Q); apply String.eqb_eq in Q; subst; auto|intros I; exists name; split; [auto|apply String.eqb_refl]]. }
  split; [|split].
  - intros I. apply E in I. rewrite I. reflexivity.
  - intros f I.
    assert (U : existsb (String.eqb name) freely = false /\ find (fun e => String.eqb name (fst e)) by_rule = Some (name, f)).
    { clear -I. cbn [by_rule In] in I. repeat (destruct I as [I|I]; [injection I as <- <-; split; vm_compute; reflexivity|]). destruct I. }
    destruct U as [-> ->]. reflexivity.
  - intros NF NR. destruct (existsb (String.eqb name) freely); [exfalso; apply NF, E; reflexivity|].
    destruct (find _ by_rule) as [[x f]|] eqn:Q; [|reflexivity]. exfalso. apply find_some in Q. destruct Q as [I Q]. apply String.eqb_eq in Q.
    cbn [fst] in Q. subst x. exact (NR f I).
Qed.

(** The entries of the executors, call by call. *)
Inductive word := WRun | WFail (n : N) | WExec | WBase.
Definition word_of (e name : string) : word :=
  if existsb (fun x => mem e (fst x) && mem name (snd x)) extra_calls then WRun
  else if mem e mono_languages && String.eqb name "fork" then WFail 11
  else if String.eqb e "PIKE" && String.eqb name "fstatfs" then WFail 13
  else if String.eqb e "BASH" && String.eqb name "execve" then WExec else WBase.
Definition agrees (w : word) (h : option (hval own_handler)) : bool :=
  match w, h with
  | WRun, Some (Num n) => N.eqb n 1
  | WFail n, Some (Fn (Refuse k)) => N.eqb k n
  | WExec, Some (Fn Exec) => true
  | WBase, None => true
  | _, _ => false
  end.
Lemma words : forall e own abi n name, In (e, own) executors -> linux abi -> In (n, name) (table_of abi) -> agrees (word_of e name) (entry_for own name) = true.
Proof.
  intros e own abi n name He HA Hn.
  assert (C : forallb (fun x => forallb (fun a => forallb (fun r => agrees (word_of (fst x) (snd r)) (entry_for (snd x) (snd r))) (table_of a)) [X86; X64; X32; ARM; ARM64]) executors = true)
    by (vm_compute; reflexivity).
  rewrite forallb_forall in C. specialize (C _ He). rewrite forallb_forall in C. specialize (C _ HA). rewrite forallb_forall in C. exact (C _ Hn).
Qed.
Lemma may_call_mem : forall e name, existsb (fun x => mem e (fst x) && mem name (snd x)) extra_calls = true <-> may_call e name.
Proof.
  intros e name. rewrite existsb_exists. unfold may_call. split.
  - intros ([es ns] & Hi & H). apply andb_true_iff in H. rewrite !mem_in in H. exists es, ns. tauto.
  - intros (es & ns & Hi & H). exists (es, ns). split; [exact Hi|]. rewrite andb_true_iff, !mem_in. exact H.
Qed.
Theorem each_call : forall e own supported sec t allowed tr d abi n name a,
  In (e, own) executors -> (forall a, In a supported -> linux a) -> In abi supported -> In (n, name) (table_of abi) ->
  security_of syscalls (policy_with own) = Some sec -> build syscalls sec supported = Some t ->
  let ruling := decide (fun h => fst (handle_own allowed tr d h)) t abi (Z.of_N n) a in
  (may_call e name -> ruling = Verdict Run)
  /\ (forall errno, fails_with e name errno -> ruling = Verdict (Fail errno))
  /\ (e = "BASH"%string -> name = "execve"%string -> (in_commands allowed d -> ruling = Verdict Run) /\ (~ in_commands allowed d -> ruling = Verdict Kill))
  /\ (~ may_call e name -> (forall errno, ~ fails_with e name errno) -> ~ (e = "BASH" /\ name = "execve")%string ->
        forall sec0 t0, security_of syscalls base_policy = Some sec0 -> build syscalls sec0 supported = Some t0 ->
        ruling = decide (fun c => fst (handle tr d c)) t0 abi (Z.of_N n) a).
Proof.
  intros e own supported sec t allowed tr d abi n name a He HS HA Hn H1 H2 ruling.
  assert (HL : forall a, In a supported -> Linux_or_bsd a) by (intros x X; apply linux_abi, HS, X).
  assert (ER : ruling = by_entry (fun h => fst (handle_own allowed tr d h)) (entry_for (policy_with own) name) a)
    by exact (decide_entry _ (policy_with own) sec supported t abi n name a HL H1 H2 HA Hn).
  pose proof (words e own abi n name He (HS _ HA) Hn) as W. unfold policy_with in ER. rewrite entry_for_app, entry_lift in ER.
  unfold word_of in W. destruct (existsb (fun x => mem e (fst x) && mem name (snd x)) extra_calls) eqn:Em.
  { assert (may_call e name) as M by (apply may_call_mem; exact Em).
    destruct (entry_for own name) as [[k|h]|] eqn:Eo; try discriminate W. apply N.eqb_eq in W. subst k. cbn in ER. rewrite ER.
    split; [reflexivity|]. split; [|split; [|intros X; destruct (X M)]].
    - intros errno [(X & Y & _)|(X & Y & _)]; exfalso; subst name.
      + cbn in X. repeat (destruct X as [X|X]; [subst e; vm_compute in Em; discriminate Em|]). exact X.
      + subst e. vm_compute in Em. discriminate Em.
    - intros X Y. subst e name. vm_compute in Em. discriminate Em. }
  assert (~ may_call e name) as M by (rewrite <- may_call_mem; congruence).
  split; [intros X; destruct (M X)|].
  destruct (mem e mono_languages && String.eqb name "fork") eqn:E1.
  { apply andb_true_iff in E1 as [E1 E2]. apply mem_in in E1. apply String.eqb_eq in E2.
    destruct (entry_for own name) as [[k|[| | |]]|] eqn:Eo; try discriminate W. apply N.eqb_eq in W. subst errno. cbn in ER. rewrite ER.
    assert (fails_with e name 11) as FW by (left; auto). split; [|split].
    - intros errno [(_ & _ & ->)|(_ & Y & _)]; [reflexivity|congruence].
    - intros _ Y. congruence.
    - intros _ X. destruct (X _ FW). }
  destruct (String.eqb e "PIKE" && String.eqb name "fstatfs") eqn:E2.
  { apply andb_true_iff in E2 as [E2 E3]. apply String.eqb_eq in E2, E3.
    destruct (entry_for own name) as [[k|[| | |]]|] eqn:Eo; try discriminate W. apply N.eqb_eq in W. subst errno. cbn in ER. rewrite ER.
    assert (fails_with e name 13) as FW by (right; auto). split; [|split].
    - intros errno [(_ & Y & _)|(_ & _ & ->)]; [congruence|reflexivity].
    - intros _ Y. congruence.
    - intros _ X. destruct (X _ FW). }
  assert (NF : forall errno, ~ fails_with e name errno).
  { intros errno [(X & Y & _)|(X & Y & _)].
    - apply mem_in in X. rewrite X in E1. apply String.eqb_eq in Y. rewrite Y in E1. discriminate E1.
    - apply String.eqb_eq in X, Y. rewrite X, Y in E2. discriminate E2. }
  split; [intros errno X; destruct (NF _ X)|].
  destruct (String.eqb e "BASH" && String.eqb name "execve") eqn:E3.
  { destruct (entry_for own name) as [[k|[| | |]]|] eqn:Eo; try discriminate W. cbn in ER. rewrite ER. split.
    - intros _ _. split; intros X; [apply execve_spec in X; rewrite X; reflexivity|]. rewrite execve_kill; [reflexivity|]. rewrite execve_spec. exact X.
    - intros _ _ X. apply andb_true_iff in E3. rewrite !String.eqb_eq in E3. destruct (X E3). }
  split; [intros -> ->; discriminate E3|]. intros _ _ _ sec0 t0 H3 H4.
  rewrite ER. rewrite (decide_entry _ base_policy sec0 supported t0 abi n name a HL H3 H4 HA Hn).
  destruct (entry_for own name); [discriminate W|]. destruct (entry_for base_policy name) as [[k|c]|]; reflexivity.
Qed.
Theorem all_languages : forall e, In e languages <-> exists own, In (e, own) executors.
Proof.
  intros e. change languages with (map fst executors). rewrite in_map_iff. split; [intros ([e' own] & E & H); cbn in E; subst; eauto|intros (own & H); exists (e, own); auto].
Qed.
Theorem one_list_each : forall e own own', In (e, own) executors -> In (e, own') executors -> own = own'.
Proof.
  assert (NoDup (map fst executors)) as ND.
  { assert (forall l, (fix f l := match l with [] => true | x :: r => negb (mem x r) && f r end) l = true -> NoDup l) as K.
    { induction l as [|x r IH]; intros H; constructor; apply andb_true_iff in H as [H1 H2]; [|apply IH, H2]. intros X. apply mem_in in X. rewrite X in H1. discriminate. }
    apply K. vm_compute. reflexivity. }
  revert ND. generalize executors. induction l as [|[e0 o0] l IH]; intros ND e own own' H H'; [destruct H|]. cbn in ND. inversion ND as [|? ? Nx N2]; subst.
  destruct H as [H|H], H' as [H'|H'].
  - congruence.
  - exfalso. injection H as <- <-. apply Nx, in_map_iff. exists (e0, own'). auto.
  - exfalso. injection H' as <- <-. apply Nx, in_map_iff. exists (e0, own). auto.
  - exact (IH N2 e own own' H H').
Qed.
(** The check of a JVM's procctl, a FreeBSD call. *)
Theorem procctl_own : forall d, (uarg d 1 < 2 ^ 64)%N -> (uarg d 2 < 2 ^ 64)%N -> (pid d < 2 ^ 63)%N ->
  (handle_procctl d = Run <-> arg0 d = 0%Z /\ uarg d 1 = pid d /\ (uarg d 2 = 17 \/ uarg d 2 = 18)%N)
  /\ (handle_procctl d <> Run -> handle_procctl d = Kill).
Proof.
  intros d U1 U2 P. unfold handle_procctl.
  assert (S : forall u k, (u < 2 ^ 64)%N -> (k < 2 ^ 63)%N -> (signed64 u = Z.of_N k <-> u = k)).
  { intros u k Hu Hk. unfold signed64. destruct (N.ltb_spec u (2 ^ 63)).
    - split; [apply N2Z.inj|congruence].
    - split; [|intros; subst; exfalso; apply (N.lt_irrefl k); eapply N.lt_le_trans; eassumption].
      intros E. exfalso. apply (Z.lt_irrefl 0). rewrite <- (Z.opp_involutive 0). change (2 ^ 64)%N with 18446744073709551616%N in Hu. lia. }
  split.
  - destruct (Z.eqb_spec (arg0 d) 0) as [A|A]; [|cbn; split; [discriminate|intros (X & _); contradiction]].
    destruct (Z.eqb_spec (signed64 (uarg d 1)) (Z.of_N (pid d))) as [Q|Q].
    + rewrite S in Q by assumption. cbn [andb existsb]. rewrite Bool.orb_false_r.
      change 17%Z with (Z.of_N 17). change 18%Z with (Z.of_N 18).
      destruct (Z.eqb_spec (signed64 (uarg d 2)) (Z.of_N 17)) as [R|R]; rewrite S in R by (assumption || reflexivity).
      { cbn. split; [auto|reflexivity]. }
      destruct (Z.eqb_spec (signed64 (uarg d 2)) (Z.of_N 18)) as [R'|R']; rewrite S in R' by (assumption || reflexivity); cbn; (split; [auto; discriminate|]); [reflexivity|].
      intros (_ & _ & [X|X]); contradiction.
    + rewrite S in Q by assumption. cbn. split; [discriminate|intros (_ & X & _); contradiction].
  - match goal with |- context [if ?b then _ else _] => destruct b end; [congruence|reflexivity].
Qed.
