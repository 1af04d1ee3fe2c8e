(** C47, C63: where problems are. *)
From Coq Require Import String.
From Verif Require Import Model.Bytes Model.Paths Model.Roots Spec.Roots Proofs.Roots.
Local Open Scope list_scope.
Local Open Scope nat_scope.

(** In all of these, [after_requests h] is the state after any earlier lookups h, between which the file system and the
    roots may have changed.  A problem that some root has now is found, in a directory that has its init file now. *)
Theorem C47_present : forall h f roots id r, In r roots -> has f id r ->
  exists d, snd (get_problem_root f roots (after_requests h) id) = Some d /\ isfile f (join d init_yml) = true.
Proof. exact present. Qed.
(** Whatever is answered is, or was at an earlier lookup, root/id for the first of the roots that has the problem... *)
Theorem C47_from_a_root : forall h f roots id d, snd (get_problem_root f roots (after_requests h) id) = Some d ->
  exists f' roots' r, In (f', roots', id) (h ++ [(f, roots, id)]) /\ first_with f' id roots' r /\ d = join r id.
Proof. intros h f roots id d. exact (proj1 (answered h f roots id) d). Qed.
(** ...and the lookup fails exactly when no root has had it, now or at an earlier lookup. *)
Theorem C47_absent : forall h f roots id, snd (get_problem_root f roots (after_requests h) id) = None <->
  forall f' roots', In (f', roots', id) (h ++ [(f, roots, id)]) -> forall r, In r roots' -> ~ has f' id r.
Proof. intros h f roots id. exact (proj2 (answered h f roots id)). Qed.
(** While nothing changes it is exactly the first root that has the problem. *)
Theorem C47_first_root : forall h f roots id, (forall f' roots' id', In (f', roots', id') h -> f' = f /\ roots' = roots) ->
  forall d, snd (get_problem_root f roots (after_requests h) id) = Some d <-> exists r, first_with f id roots r /\ d = join r id.
Proof. exact unchanged. Qed.
(** The list for the server: every name in a root with a readable init file (and it can be made exactly when all roots can be listed). *)
Theorem C47_supported : forall f roots l, get_supported_problems f roots = Some l ->
  forall id, In id l <-> exists r names, In r roots /\ listdir f r = Some names /\ In id names /\ readable f (join (join r id) init_yml) = true.
Proof. exact supported. Qed.
Theorem C47_supported_defined : forall f roots, get_supported_problems f roots <> None <-> forall r, In r roots -> listdir f r <> None.
Proof. exact supported_defined. Qed.
(** Where init files are readable files, the problems listed are exactly those a lookup finds. *)
Theorem C47_supported_found : forall f roots l id, get_supported_problems f roots = Some l ->
  (forall r, In r roots -> isfile f (join (join r id) init_yml) = readable f (join (join r id) init_yml)) ->
  (forall r names, In r roots -> listdir f r = Some names -> has f id r -> In id names) ->
  In id l <-> exists d, snd (get_problem_root f roots (after_requests []) id) = Some d.
Proof. exact supported_found. Qed.

(** A small file system: root /p with the problem a. *)
Definition files (l : list path) : fs :=
  {| isdir := fun p => existsb (beqb p) [B "/p"; B "/p/a"; B "/s"; B "/s/x"]; isfile := fun p => existsb (beqb p) l;
     listdir := fun p => if beqb p (B "/p") then Some [B "a"; B "b"] else if beqb p (B "/s") then Some [B "x"; B "y"] else if beqb p (B "/s/x") then Some [] else None;
     readable := fun p => existsb (beqb p) l |}.
Definition with_a : fs := files [B "/p/a/init.yml"].
Definition empty : fs := files [].
(** A problem removed after it was once looked up is still "found", in a directory without an init file; *)
Theorem C47_removed_refuted : ~ forall h f roots id d, snd (get_problem_root f roots (after_requests h) id) = Some d -> isfile f (join d init_yml) = true.
Proof. intro H. specialize (H [(with_a, [B "/p"], B "a")] empty [B "/p"] (B "a") (B "/p/a") eq_refl). discriminate H. Qed.
(** the id of a problem is not confined to the roots; *)
Theorem C47_confined_refuted : ~ forall h f roots id d, snd (get_problem_root f roots (after_requests h) id) = Some d ->
  exists r, In r roots /\ d = r ++ 47%N :: id.
Proof.
  intro H. destruct (H [] with_a [B "/s"] (B "/p/a") (B "/p/a") eq_refl) as (r & [X|[]] & E). subst r. discriminate E.
Qed.
Example C47_ex : snd (get_problem_root with_a [B "/s"; B "/p"] (after_requests [(empty, [B "/p"], B "a")]) (B "a")) = Some (B "/p/a")
  /\ has with_a (B "a") (B "/p") /\ first_with with_a (B "a") [B "/s"; B "/p"] (B "/p")
  /\ get_supported_problems with_a [B "/s"; B "/p"] = Some [B "a"]
  /\ snd (get_problem_root with_a [B "/s"; B "/p"] [] (B "b")) = None.
Proof.
  split; [vm_compute; reflexivity|]. split; [vm_compute; reflexivity|]. split; [|split; vm_compute; reflexivity].
  exists [B "/s"], []. split; [reflexivity|]. split; [vm_compute; reflexivity|]. intros r' [X|[]]. subst r'. vm_compute. discriminate.
Qed.
Example C47_ex_agree : (forall r, In r [B "/s"; B "/p"] -> isfile with_a (join (join r (B "a")) init_yml) = readable with_a (join (join r (B "a")) init_yml))
  /\ forall r names, In r [B "/s"; B "/p"] -> listdir with_a r = Some names -> has with_a (B "a") r -> In (B "a") names.
Proof.
  split; [intros r [X|[X|[]]]; subst r; reflexivity|]. intros r names [X|[X|[]]] L H; subst r; [discriminate H|]. injection L as <-. left. reflexivity.
Qed.

(** C63.  At start-up the roots are exactly the directories the configuration names, and every single directory
    it names that is none is warned about. *)
Theorem C63_loaded : forall root f l g, load_env root f (Node l) = Some g ->
  exists roots, dirs_cache g = Some roots /\ (forall q, In q roots <-> exists e, In e l /\ names_dir root f e q)
  /\ (forall p, In (CannotAccess p) (warned g) <-> isdir f p = false /\ exists e, In (One e) l /\ p = normpath (join root e)).
Proof. exact loaded. Qed.
(** In its order: the roots of one list of entries after another are the roots of the first, then those of the second; a
    single directory stands for itself. *)
Theorem C63_order : forall root f a b g, load_env root f (Node (a ++ b)) = Some g ->
  exists ga gb ra rb, load_env root f (Node a) = Some ga /\ load_env root f (Node b) = Some gb
  /\ dirs_cache ga = Some ra /\ dirs_cache gb = Some rb /\ dirs_cache g = Some (ra ++ rb).
Proof. exact loaded_order. Qed.
Theorem C63_single : forall root f p, exists g, load_env root f (Node [One p]) = Some g
  /\ dirs_cache g = Some (if isdir f (normpath (join root p)) then [normpath (join root p)] else []).
Proof. intros root f p. eexists. split; [reflexivity|]. cbn. unfold get_path. destruct (isdir f (normpath (join root p))); reflexivity. Qed.
(** A depth of n stands for the directories exactly n levels down. *)
Theorem C63_depth : forall f n d l, find_directories_by_depth f d n = Some l -> forall p, In p l <-> down f d n p.
Proof. exact by_depth. Qed.
(** A problem update with nothing changed keeps the roots, if all single directories named are directories. *)
Theorem C63_update_same : forall root f l g roots, load_env root f (Node l) = Some g -> dirs_cache g = Some roots ->
  (forall e, In (One e) l -> isdir f (normpath (join root e)) = true) ->
  dirs_cache (fst (update root f g)) = Some roots /\ snd (update root f g) = get_supported_problems f roots.
Proof. exact updated_same. Qed.
(** If one is not, what start-up warns about makes every update fail; *)
Theorem C63_missing_refuted : ~ forall root f l g roots, load_env root f (Node l) = Some g -> dirs_cache g = Some roots ->
  snd (update root f g) = get_supported_problems f roots.
Proof.
  intro H. specialize (H (B "/j") with_a [One (B "/p"); One (B "/gone")] _ _ eq_refl eq_refl). vm_compute in H. discriminate H.
Qed.
(** and if the storage root is given as a string, start-up takes its subdirectories for roots, and the first update the
    directory itself. *)
Theorem C63_string_refuted : ~ forall root f p g roots, load_env root f (Str p) = Some g -> dirs_cache g = Some roots ->
  dirs_cache (fst (update root f g)) = Some roots.
Proof.
  intro H. specialize (H (B "/j") with_a (B "/s") _ _ eq_refl eq_refl). vm_compute in H. discriminate H.
Qed.
Example C63_ex : exists g, load_env (B "/j") with_a (Node [One (B "../p"); Depths [(Some 1%Z, B "/s"); (Some (-1)%Z, B "/s"); (None, B "/s")]; One (B "/gone")]) = Some g
  /\ dirs_cache g = Some [B "/p"; B "/s/x"] /\ warned g = [IllegalDepth; IllegalDepth; CannotAccess (B "/gone")]
  /\ down with_a (B "/s") 1 (B "/s/x").
Proof.
  eexists. split; [vm_compute; reflexivity|]. split; [reflexivity|]. split; [reflexivity|].
  apply down_S with (names := [B "x"; B "y"]) (c := B "x"); [reflexivity|left; reflexivity|reflexivity|]. apply down_0. reflexivity.
Qed.

Print Assumptions C47_present.
Print Assumptions C47_from_a_root.
Print Assumptions C47_absent.
Print Assumptions C47_first_root.
Print Assumptions C47_supported.
Print Assumptions C47_supported_defined.
Print Assumptions C47_supported_found.
Print Assumptions C47_removed_refuted.
Print Assumptions C47_confined_refuted.
Print Assumptions C63_loaded.
Print Assumptions C63_depth.
Print Assumptions C63_update_same.
Print Assumptions C63_missing_refuted.
Print Assumptions C63_string_refuted.

Print Assumptions C63_order.
Print Assumptions C63_single.
