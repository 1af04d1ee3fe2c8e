(** C43-C45, C62: the cache of compiled programs. *)
From Coq Require Import String.
From Verif Require Import Model.Bytes Model.Cache Spec.Cache Proofs.Cache.
Local Open Scope list_scope.
Local Open Scope nat_scope.

(** The cache holds at most its capacity, one entry per key, and what an entry has was compiled for its key. *)
Theorem C43_bounded : forall (job : Type) (key : job -> bytes) capacity, 0 < capacity -> forall l,
  length (cache (run key capacity l)) <= capacity /\ NoDup (map fst (cache (run key capacity l)))
  /\ forall k n j, In (k, n) (cache (run key capacity l)) -> artefact (run key capacity l) n = Some j -> key j = k.
Proof. intros job. exact bounded_cache. Qed.
(** Its keys are the most recently used ones. *)
Theorem C43_least_recently_used : forall (job : Type) (key : job -> bytes) capacity, 0 < capacity -> forall l,
  map fst (cache (run key capacity l)) = recent capacity (history key capacity l).
Proof. intros job. exact lru. Qed.
(** What a construction returns can be launched, was compiled for the key asked for, from the very job asked for
    unless the key was in the cache, and is never replaced by something else later. *)
Theorem C43_returned : forall (job : Type) (key : job -> bytes) capacity, 0 < capacity ->
  forall l j cached ok s' n, compile key capacity j cached ok (run key capacity l) = (s', Ready n) ->
  exists j', artefact s' n = Some j' /\ key j' = key j /\ (cached = false -> j' = j)
   /\ (~ In (key j) (map fst (cache (run key capacity l))) -> j' = j)
   /\ forall l2 x, artefact (fold_left (step key capacity) l2 s') n = Some x -> x = j'.
Proof. intros job. exact returned. Qed.
(** A failed compilation gives no object and no entry. *)
Theorem C43_failure_not_cached : forall (job : Type) (key : job -> bytes) capacity, 0 < capacity ->
  forall l j cached ok s', compile key capacity j cached ok (run key capacity l) = (s', Failed) ->
  ok = false /\ (forall k n, In (k, n) (cache s') <-> In (k, n) (cache (run key capacity l))) /\ held s' = held (run key capacity l).
Proof. intros job. exact failed_not_cached. Qed.

(** An object that compiled its own program can be launched for as long as its caller keeps it, whatever else is
    compiled, cached, evicted or dropped. *)
Theorem C44_own : forall (job : Type) (key : job -> bytes) capacity, 0 < capacity ->
  forall l j cached ok s' n l2, compile key capacity j cached ok (run key capacity l) = (s', Ready n) ->
  no_vanish l -> no_vanish l2 -> ~ In (Drop n) l2 -> cached = false \/ ~ In (key j) (map fst (cache (run key capacity l))) ->
  artefact (fold_left (step key capacity) l2 s') n = Some j.
Proof. intros job. exact own_kept. Qed.
(** One that came out of the cache can be launched while the object that compiled the program is referred to. *)
Theorem C44_from_cache : forall (job : Type) (key : job -> bytes) capacity, 0 < capacity ->
  forall l j ok s' n l2 e, compile key capacity j true ok (run key capacity l) = (s', Ready n) ->
  no_vanish l -> no_vanish l2 -> ~ In (Drop n) l2 -> In (key j, e) (cache (run key capacity l)) ->
  referred (fold_left (step key capacity) l2 s') e ->
  exists j', key j' = key j /\ artefact (fold_left (step key capacity) l2 s') n = Some j' /\ artefact (fold_left (step key capacity) l2 s') e = Some j'.
Proof. intros job. exact hit_kept. Qed.
(** But eviction removes it from under those that came out of the cache: capacity 1; program "a" is compiled and its
    object dropped, then obtained again from the cache and kept; program "b" is compiled. *)
Definition trace : list (op bytes) := [Compile (B "a") true true; Drop 0].
Theorem C44_from_cache_refuted :
  ~ forall (l : list (op bytes)) j s' n l2, compile (fun j => j) 1 j true true (run (fun j => j) 1 l) = (s', Ready n) ->
    no_vanish l -> no_vanish l2 -> ~ In (Drop n) l2 -> artefact (fold_left (step (fun j => j) 1) l2 s') n <> None.
Proof.
  intro H. apply (H trace (B "a") _ _ [Compile (B "b") true true] eq_refl); [| |intros [X|[]]; discriminate|vm_compute; reflexivity].
  - intros d [X|[X|[]]]; discriminate.
  - intros d [X|[]]; discriminate.
Qed.

(** Keys are hashes; [h] is a hash without collisions.  Same executor and problem: same source. *)
Theorem C45_plain : forall (h : bytes -> bytes) j j', (forall x y, h x = h y -> x = y) ->
  p_class j = p_class j' -> p_module j = p_module j' -> p_problem j = p_problem j' ->
  h (plain_material j) = h (plain_material j') -> p_source j = p_source j'.
Proof. exact plain_source. Qed.
(** For C and C++ a problem id without a slash is told apart from the compiler's absolute path that follows it... *)
Theorem C45_gcc_problem : forall (h : bytes -> bytes) j j', (forall x y, h x = h y -> x = y) ->
  g_class j = g_class j' -> g_module j = g_module j' ->
  ~ In 47%N (g_problem j) -> ~ In 47%N (g_problem j') -> (exists c, g_command j = 47%N :: c) -> (exists c, g_command j' = 47%N :: c) ->
  h (gcc_material j) = h (gcc_material j') -> g_problem j = g_problem j'.
Proof. exact gcc_problem. Qed.
(** ...and with the same problem, compiler and flags the texts, one after the other, are the same; with one text, that one is. *)
Theorem C45_gcc_sources : forall (h : bytes -> bytes) j j', (forall x y, h x = h y -> x = y) ->
  g_class j = g_class j' -> g_module j = g_module j' -> g_problem j = g_problem j' -> g_command j = g_command j' ->
  g_march j = g_march j' -> g_defines j = g_defines j' -> g_flags j = g_flags j' -> g_ldflags j = g_ldflags j' ->
  h (gcc_material j) = h (gcc_material j') ->
  concat (map snd (g_sources j)) = concat (map snd (g_sources j'))
  /\ forall n n' x x', g_sources j = [(n, x)] -> g_sources j' = [(n', x')] -> x = x'.
Proof.
  intros h j j' H E1 E2 E3 E4 E5 E6 E7 E8 E. pose proof (gcc_sources h j j' H E1 E2 E3 E4 E5 E6 E7 E8 E) as G. split; [exact G|].
  intros n n' x x' A A'. rewrite A, A' in G. cbn in G. rewrite !app_nil_r in G. exact G.
Qed.
(** So the same submission text for the same problem in the same language always gets its own binary back, and a
    cache whose key is this one never gives a program compiled from another text. *)
Theorem C45_cache : forall (h : bytes -> bytes) capacity, (forall x y, h x = h y -> x = y) -> 0 < capacity ->
  forall l j cached ok s' n x, compile (fun j => h (plain_material j)) capacity j cached ok (run (fun j => h (plain_material j)) capacity l) = (s', Ready n) ->
  artefact s' n = Some x -> p_class x = p_class j -> p_module x = p_module j -> p_problem x = p_problem j -> p_source x = p_source j.
Proof.
  intros h capacity H Cp l j cached ok s' n x E A E1 E2 E3. destruct (returned _ capacity Cp l j cached ok s' n E) as (j' & A' & K & _).
  rewrite A' in A. injection A as ->. exact (plain_source h x j H E1 E2 E3 K).
Qed.
(** The parts are not separated: problem "a" with source "bc" and problem "ab" with source "c" share a binary, *)
Theorem C45_problem_refuted : ~ forall j j', p_class j = p_class j' -> p_module j = p_module j' ->
  plain_material j = plain_material j' -> p_source j = p_source j'.
Proof.
  intro H. specialize (H {| p_class := B "E"; p_module := B "m"; p_problem := B "a"; p_source := B "bc" |} {| p_class := B "E"; p_module := B "m"; p_problem := B "ab"; p_source := B "c" |} eq_refl eq_refl eq_refl).
  discriminate H.
Qed.
(** and neither the names of helper files nor where one ends count. *)
Definition helper (s : list (bytes * bytes)) : gcc :=
  {| g_class := B "Executor"; g_module := B "CPP11"; g_problem := B "_aux_file"; g_command := B "/usr/bin/g++"; g_march := B "-march=native";
     g_defines := []; g_flags := [B "-O2"]; g_ldflags := []; g_sources := s |}.
Theorem C45_files_refuted : ~ forall s s', gcc_material (helper s) = gcc_material (helper s') -> map fst s = map fst s' \/ map snd s = map snd s'.
Proof.
  intro H. specialize (H [(B "a.h", B "int x;"); (B "m.cpp", B "int y;")] [(B "b.h", B "int x;int"); (B "n.cpp", B " y;")] eq_refl). destruct H as [H|H]; discriminate H.
Qed.

(** C62: without caching, the scratch directories on disk are exactly those of the objects the callers hold. *)
Theorem C62_uncached : forall (job : Type) (key : job -> bytes) capacity, 0 < capacity -> forall l, no_vanish l -> only_uncached l ->
  forall d, lookup d (disk (run key capacity l)) <> None <-> In d (held (run key capacity l)).
Proof. intros job. exact uncached_clean. Qed.
(** With it, the directory of a cached compilation that failed stays forever. *)
Theorem C62_cached_refuted : ~ forall l : list (op bytes), no_vanish l ->
  forall d, lookup d (disk (run (fun j => j) 1 l)) <> None -> referred (run (fun j => j) 1 l) d.
Proof.
  intro H. destruct (H [Compile (B "a") true false] ltac:(intros d [X|[]]; discriminate) 0 ltac:(vm_compute; discriminate)) as [X|(k & X)]; exact X.
Qed.

(** Capacity 2: "a", "b", "a" again (a hit), "c" evicts "b", a failing "d", then "b" compiled anew. *)
Definition story : list (op bytes) :=
  [Compile (B "a") true true; Compile (B "b") true true; Compile (B "a") true true; Compile (B "c") true true;
   Compile (B "d") true false; Drop 1; Compile (B "b") true true].
Example C43_ex : cache (run (fun j => j) 2 story) = [(B "b", 5); (B "c", 3)]
  /\ history (fun j => j) 2 story = [B "b"; B "c"; B "a"; B "b"; B "a"]
  /\ snd (compile (fun j => j) 2 (B "c") true false (run (fun j => j) 2 story)) = Ready 6
  /\ snd (compile (fun j => j) 2 (B "a") true false (run (fun j => j) 2 story)) = Failed
  /\ no_vanish story.
Proof. repeat split; try (vm_compute; reflexivity). intros d X. repeat (destruct X as [X|X]; [discriminate|]). destruct X. Qed.
Example C44_ex : artefact (run (fun j => j) 2 story) 0 = Some (B "a") /\ artefact (run (fun j => j) 2 story) 2 = Some (B "a")
  /\ artefact (run (fun j => j) 2 story) 1 = None
  /\ referred (run (fun j => j) 2 story) 0.
Proof. repeat split; try (vm_compute; reflexivity). left. vm_compute. auto 10. Qed.
Example C45_ex : forall x y : bytes, (fun z : bytes => z) x = (fun z : bytes => z) y -> x = y.
Proof. intros x y H. exact H. Qed.
Example C62_ex : no_vanish [Compile (B "a") false true; Compile (B "b") false true; Drop 0; Compile (B "c") false false]
  /\ held (run (fun j => j) 1 [Compile (B "a") false true; Compile (B "b") false true; Drop 0; Compile (B "c") false false]) = [1].
Proof. split; [|vm_compute; reflexivity]. intros d X. repeat (destruct X as [X|X]; [discriminate|]). destruct X. Qed.

Print Assumptions C43_bounded.
Print Assumptions C43_least_recently_used.
Print Assumptions C43_returned.
Print Assumptions C43_failure_not_cached.
Print Assumptions C44_own.
Print Assumptions C44_from_cache.
Print Assumptions C44_from_cache_refuted.
Print Assumptions C45_plain.
Print Assumptions C45_gcc_problem.
Print Assumptions C45_gcc_sources.
Print Assumptions C45_cache.
Print Assumptions C45_problem_refuted.
Print Assumptions C45_files_refuted.
Print Assumptions C62_uncached.
Print Assumptions C62_cached_refuted.
