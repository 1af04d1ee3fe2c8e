(** C42, C53, C60: how the sandboxed process is set up. *)
From Coq Require Import String QArith Qround.
From Verif Require Import Model.Bytes Model.Child Spec.Child Proofs.Child.
Local Open Scope list_scope.
Local Open Scope nat_scope.

(** ** C42: closing descriptors *)
(** Whatever is open and however the directory is listed, all and only the descriptors from [lowfd] on are closed,
    including the one the listing itself uses. *)
Theorem C42_closefrom : forall max_fd fit lowfd b t, bounded t b -> (forall j, exists k, fit j = Some (S k)) ->
  exists t', closefrom true max_fd fit lowfd b t = Some t' /\ forall n, t' n = if n <? lowfd then t n else None.
Proof. exact closefrom_spec. Qed.
(** Without /proc every number up to the limit is closed, and nothing else. *)
Theorem C42_brute : forall max_fd fit lowfd b t,
  exists t', closefrom false max_fd fit lowfd b t = Some t'
   /\ forall n, t' n = if (lowfd <=? n) && (n <=? match max_fd with Some m => m | None => Nat.pow 2 14 end) then None else t n.
Proof. exact brute_spec. Qed.
(** Every descriptor's name is read back as its number; any other name is no number. *)
Theorem C42_names : forall n, pos_int_from_ascii 0 (decimal n) = Some n.
Proof. exact parse_decimal. Qed.
Theorem C42_other_names : forall name, (exists c, In c name /\ digit c = false) -> forall num, pos_int_from_ascii num name = None.
Proof. exact parse_not_number. Qed.
(** If the listing itself fails half-way, what is left stays open: no fallback. *)
Theorem C42_listing_error_refuted :
  ~ forall max_fd fit lowfd b t, bounded t b -> exists t', closefrom true max_fd fit lowfd b t = Some t' /\ forall n, lowfd <= n -> t' n = None.
Proof.
  intro H. destruct getdents_fails as (t' & E & K). destruct (H None (fun _ => None) 3 5 three) as (t2 & E2 & K2).
  - intros n L. unfold three. destruct (n <? 5) eqn:X; [apply Nat.ltb_lt in X; lia|reflexivity].
  - assert (t' = t2) by congruence. subst t2. rewrite (K2 4) in K by lia. discriminate.
Qed.

(** ** C60: standard streams *)
(** The program finds in 0, 1 and 2 what the caller asked for, and nothing else is open. *)
Theorem C60_child : forall t b i o e tj ei eo ee max_fd fit,
  bounded t b -> standard_open t -> sensible t 0 i -> sensible t 1 o -> sensible t 2 e ->
  init_streams t b i o e = (tj, ei, eo, ee) -> (forall j, exists k, fit j = Some (S k)) ->
  exists tc, child_table true max_fd fit (b + 6) tj (child_fd ei) (child_fd eo) (child_fd ee) = Some tc
   /\ tc 0 = wanted t 0 0 i /\ tc 1 = wanted t 1 1 o /\ tc 2 = wanted t 2 2 e /\ forall n, 3 <= n -> tc n = None.
Proof. exact streams_child. Qed.
(** The judge holds the other end of each pipe, keeps what it had open, and keeps no copy of the program's ends
    (so it sees the end of the output when the program ends). *)
Theorem C60_judge : forall t b i o e tj ei eo ee,
  bounded t b -> standard_open t -> no_pipes t -> init_streams t b i o e = (tj, ei, eo, ee) ->
  let left := judge_table tj ei eo ee in
  holds_other_end left 0 0 i ei /\ holds_other_end left 1 1 o eo /\ holds_other_end left 2 2 e ee
  /\ (forall n, t n <> None -> left n = t n)
  /\ (forall n, left n <> Some (PipeRead 0) /\ left n <> Some (PipeWrite 1) /\ left n <> Some (PipeWrite 2)).
Proof. exact streams_judge. Qed.
(** Asking for the judge's stdout as stdin and its stdin as stdout does not swap them. *)
Theorem C60_crossed_refuted :
  ~ forall t i o, t i <> None -> t o <> None -> wire t (Z.of_nat i) (Z.of_nat o) (-1) 0 = t i /\ wire t (Z.of_nat i) (Z.of_nat o) (-1) 1 = t o.
Proof. intro H. destruct (H three 1 0 ltac:(discriminate) ltac:(discriminate)) as [_ K]. discriminate K. Qed.

(** ** C53: limits *)
Section C53.
  Context (p : bool) (time : Q) (memory address_grace data_grace : N) (nproc fsize : Z) (l : rlimits) (O : limits_ok l).
  Let r := apply_limits p (child_config time memory address_grace data_grace nproc fsize) l.
  (** CPU: above the time limit, by at most five seconds, and one more to the kill; never above that, whatever the
      judge inherited. *)
  Theorem C53_cpu : (0 < time)%Q ->
    let cpu := Z.to_N (Qfloor (time + 5)) in
    (fst (r CPU) <= cpu)%N /\ (p = true \/ (cpu + 1 <= snd (l CPU))%N -> r CPU = (cpu, (cpu + 1)%N))
    /\ (time < inject_Z (Z.of_N cpu))%Q /\ (inject_Z (Z.of_N cpu) <= time + 5)%Q.
  Proof. exact (cpu_bound p time memory address_grace data_grace nproc fsize l O). Qed.
  (** Memory: the limit and the grace, in bytes. *)
  Theorem C53_memory : (0 < memory)%N ->
    (fst (r AS) <= (memory + address_grace) * 1024)%N /\ (fst (r DATA) <= (memory + data_grace) * 1024)%N
    /\ (p = true \/ ((memory + address_grace) * 1024 <= snd (l AS))%N -> r AS = ((memory + address_grace) * 1024, (memory + address_grace) * 1024)%N)
    /\ (p = true \/ ((memory + data_grace) * 1024 <= snd (l DATA))%N -> r DATA = ((memory + data_grace) * 1024, (memory + data_grace) * 1024)%N).
  Proof. exact (memory_bound p time memory address_grace data_grace nproc fsize l O). Qed.
  (** No core dumps. *)
  Theorem C53_core : r CORE = (0, 0)%N.
  Proof. exact (core_zero p time memory address_grace data_grace nproc fsize l). Qed.
  (** Processes and file size, unless negative. *)
  Theorem C53_counts :
    (if (0 <=? nproc)%Z then (fst (r NPROC) <= Z.to_N nproc)%N else r NPROC = l NPROC)
    /\ (if (0 <=? fsize)%Z then (fst (r FSIZE) <= Z.to_N fsize)%N else r FSIZE = l FSIZE).
  Proof. exact (count_bounds p time memory address_grace data_grace nproc fsize l O). Qed.
  Theorem C53_hard_never_raised : p = false -> forall x, (snd (r x) <= snd (l x))%N.
  Proof. exact (hard_kept p time memory address_grace data_grace nproc fsize l). Qed.
  Theorem C53_well_formed : limits_ok r.
  Proof. exact (limits_kept p time memory address_grace data_grace nproc fsize l O). Qed.
  Theorem C53_stack : p = true \/ (INFINITY <= snd (l STACK))%N -> r STACK = (INFINITY, INFINITY).
  Proof. exact (stack_unlimited p time memory address_grace data_grace nproc fsize l). Qed.
  (** Limits of zero mean none. *)
  Theorem C53_no_time : (time == 0)%Q -> r CPU = l CPU.
  Proof. exact (no_cpu p time memory address_grace data_grace nproc fsize l). Qed.
  Theorem C53_no_memory : memory = 0%N -> r AS = l AS.
  Proof. exact (no_memory p time memory address_grace data_grace nproc fsize l). Qed.
End C53.
(** The wall-clock limit is three times the time limit unless given. *)
Theorem C53_wall : forall t, (0 < t)%Q -> (t < wall_limit t None)%Q /\ (wall_limit t None == 3 * t)%Q /\ forall w, wall_limit t (Some w) = w.
Proof. exact wall_default. Qed.
(** With no memory limit the data segment is still limited to the grace. *)
Theorem C53_grace_alone_refuted :
  ~ forall l data_grace, limits_ok l -> apply_limits true (child_config 1 0 0 data_grace (-1) (-1)) l DATA = l DATA.
Proof. intro H. specialize (H (fun _ => (INFINITY, INFINITY)) 1%N ltac:(intro; cbn; lia)). vm_compute in H. discriminate H. Qed.

(** Three pipes for a judge that has 0 to 4 open. *)
Example C60_ex :
  bounded three 5 /\ standard_open three /\ no_pipes three /\
  let '(tj, ei, eo, ee) := init_streams three 5 Pipe Pipe (Number 4) in
  judge_fd ei = Some 6 /\ child_fd ei = 5%Z /\ judge_fd eo = Some 7 /\ child_fd eo = 8%Z /\ child_fd ee = 4%Z
  /\ match child_table true None (fun _ => Some 3) 11 tj (child_fd ei) (child_fd eo) (child_fd ee) with
     | Some tc => map tc (seq 0 9) = [Some (PipeRead 0); Some (PipeWrite 1); Some (Other 4); None; None; None; None; None; None]
     | None => False
     end
  /\ map (judge_table tj ei eo ee) (seq 0 9) =
       [Some (Other 0); Some (Other 1); Some (Other 2); Some (Other 3); Some (Other 4); None; Some (PipeWrite 0); Some (PipeRead 1); None].
Proof.
  split; [|split; [|split]].
  - intros n L. unfold three. destruct (n <? 5) eqn:X; [apply Nat.ltb_lt in X; lia|reflexivity].
  - unfold three. split; [|split]; discriminate.
  - intros n id. unfold three. destruct (n <? 5); split; discriminate.
  - vm_compute. repeat split; reflexivity.
Qed.
Example C42_ex : map (fun o => match o with Some t => map t (seq 0 6) | None => [] end) [closefrom true None (fun _ => Some 2) 3 5 three]
  = [[Some (Other 0); Some (Other 1); Some (Other 2); None; None; None]].
Proof. vm_compute. reflexivity. Qed.
(** Half a second, 64 MiB, an unprivileged judge that inherited a hard CPU limit of three seconds: that one stays. *)
Example C53_ex :
  let l := fun x => match x with CPU => (3, 3)%N | _ => (INFINITY, INFINITY) end in
  let r := apply_limits false (child_config (1 # 2) 65536 0 1024 0 (-1)) l in
  limits_ok l /\ (r CPU, r AS, r DATA, r NPROC, r FSIZE, r CORE) =
   ((3, 3), (67108864, 67108864), (68157440, 68157440), (0, 0), (INFINITY, INFINITY), (0, 0))%N.
Proof. split; [intros []; cbn; lia|vm_compute; reflexivity]. Qed.

Print Assumptions C42_closefrom.
Print Assumptions C42_brute.
Print Assumptions C42_names.
Print Assumptions C42_other_names.
Print Assumptions C42_listing_error_refuted.
Print Assumptions C60_child.
Print Assumptions C60_judge.
Print Assumptions C60_crossed_refuted.
Print Assumptions C53_wall.
Print Assumptions C53_grace_alone_refuted.
