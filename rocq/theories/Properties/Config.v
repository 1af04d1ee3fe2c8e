(** Property theorems for configuration (C29-C32, C57).

    [run] is what evaluating dynamic keys gives: any function. *)
From Coq Require Import String.
From Verif Require Import Model.Bytes Model.Config Spec.Config.
From Verif Require Proofs.Config.
Local Open Scope list_scope.

(** ** C29 *)
(** In every node a program can obtain, a key (or index) is answered by the nearest
    enclosing mapping or list that defines it. *)
Theorem C29_nearest : forall run before raw after it v, reachable run (before ++ raw :: after) ->
  Forall (fun r => undefined r it) before -> defines raw it v -> unique_keys raw ->
  Forall (plain_for it) (before ++ [raw]) ->
  getitem run (before ++ raw :: after) it = Got (wrap v (raw :: after)) (before ++ raw :: after) [].
Proof. intros run before raw after it v R. exact (Proofs.Config.nearest_solid run before raw after it v (proj1 (Proofs.Config.reachable_solid run _ R))). Qed.
Print Assumptions C29_nearest.

(** If none defines it the answer is nothing; the node is not changed. *)
Theorem C29_absent : forall run c it, reachable run c -> Forall (fun r => undefined r it) c -> Forall (plain_for it) c ->
  getitem run c it = Got (Plain Null) c [].
Proof. intros run c it R. exact (Proofs.Config.none_solid run c it (proj1 (Proofs.Config.reachable_solid run _ R))). Qed.
Print Assumptions C29_absent.

(** Attribute access is not nearest-first across the two spellings of a key: a hyphenated
    key in the case itself loses to an underscored one inherited from an ancestor. *)
Theorem C29_attribute_refuted : exists run c, reachable run c /\
  (exists v, defines (hd Null c) (Key (hyphens (B "output_prefix_length"))) v /\ v = VInt 0) /\
  undefined (hd Null c) (Key (B "output_prefix_length")) /\
  getattr run c (B "output_prefix_length") = Got (Plain (VInt 64)) c [].
Proof.
  pose (root := VDict [(B "output_prefix_length", VInt 64); (B "case", VDict [(B "output-prefix-length", VInt 0)])]).
  exists (fun _ _ _ => None), [VDict [(B "output-prefix-length", VInt 0)]; root].
  split; [apply (r_item _ [root] (Key (B "case")) _ [root] []); [constructor|reflexivity]|].
  split; [exists (VInt 0); split; [constructor; left; reflexivity|reflexivity]|].
  split; [|reflexivity]. apply Proofs.Config.raw_item_undefined. reflexivity.
Qed.
Print Assumptions C29_attribute_refuted.

(** The example of the documentation. *)
Definition doc : value :=
  VDict [(B "output_prefix_length", VInt 5);
         (B "test_cases", VList [VDict [(B "batched", VList [VDict [(B "in", VStr (B "ruby.1.in"))];
                                                            VDict [(B "in", VStr (B "ruby.2.in")); (B "output_prefix_length", VInt 0)]]);
                                        (B "out", VStr (B "ruby.out")); (B "points", VInt 10)];
                                 VDict [(B "in", VStr (B "ruby.4.in")); (B "out", VStr (B "ruby.4.out")); (B "points", VInt 15)]])].
Definition never : bool -> value -> chain -> option value := fun _ _ _ => None.
Definition walk (c : chain) (its : list item) : option result :=
  fold_left (fun r it => match r with
                         | Some (Sub c) => match getitem never c it with Got r' _ _ => Some r' | Invalid => None end
                         | _ => None end) its (Some (Sub c)).
Example C29_documentation :
  walk [doc] [Key (B "test_cases"); Index 0; Key (B "batched"); Index 0; Key (B "in")] = Some (Plain (VStr (B "ruby.1.in"))) /\
  walk [doc] [Key (B "test_cases"); Index 0; Key (B "batched"); Index 0; Key (B "out")] = Some (Plain (VStr (B "ruby.out"))) /\
  walk [doc] [Key (B "test_cases"); Index 0; Key (B "batched"); Index 0; Key (B "points")] = Some (Plain (VInt 10)) /\
  walk [doc] [Key (B "test_cases"); Index 1; Key (B "output_prefix_length")] = Some (Plain (VInt 5)) /\
  walk [doc] [Key (B "test_cases"); Index 0; Key (B "batched"); Index (-1); Key (B "output_prefix_length")] = Some (Plain (VInt 0)).
Proof. vm_compute. auto 10. Qed.

(** ** C30 *)
(** A configured value is used, if it is one Python counts as true. *)
Theorem C30_configured : forall run before raw after k v default, reachable run (before ++ raw :: after) ->
  Forall (fun r => undefined r (Key k)) before -> defines raw (Key k) v -> unique_keys raw ->
  Forall (plain_for (Key k)) (before ++ [raw]) -> truthy v = true ->
  get run (before ++ raw :: after) k default = Got (wrap v (raw :: after)) (before ++ raw :: after) [].
Proof.
  intros run before raw after k v default R U D K P T. unfold get. rewrite (C29_nearest run before raw after (Key k) v R U D K P).
  unfold wrap. destruct v as [|b|z|s|[|x l]|[|x l]]; try discriminate T; cbn [is_container]; unfold or_empty; rewrite ?T; cbn [res_truthy]; rewrite ?T; reflexivity.
Qed.
Print Assumptions C30_configured.

(** The default is used when the key is absent. *)
Theorem C30_absent : forall run c k default, reachable run c -> Forall (fun r => undefined r (Key k)) c -> Forall (plain_for (Key k)) c ->
  get run c k default = Got default c [].
Proof. intros run c k default R U P. unfold get. rewrite (C29_absent run c (Key k) R U P). reflexivity. Qed.
Print Assumptions C30_absent.

(** A configured false, zero or empty value is ignored in favour of the default: a
    generator with [cached: false] is cached all the same (problem.py:288). *)
Theorem C30_false_refuted : exists run c, reachable run c /\ defines (hd Null c) (Key (B "cached")) (VBool false) /\
  get run c (B "cached") (Plain (VBool true)) = Got (Plain (VBool true)) c [].
Proof.
  exists never, [VDict [(B "cached", VBool false)]]. split; [constructor|]. split; [constructor; left; reflexivity|reflexivity].
Qed.
Print Assumptions C30_false_refuted.

(** ** C31 *)
(** Over any history of reads, no dynamic key is evaluated twice, and only dynamic keys
    that were there are evaluated.  (Keys whose own name ends in a plus sign are not
    read.) *)
Theorem C31_once : forall run ks c, Forall unique_keys c -> Forall (fun k => ~ ends_in_plus k) ks ->
  NoDup (snd (reads run c ks)) /\
  forall depth key, In (depth, key) (snd (reads run c ks)) ->
    (exists before raw after, c = before ++ raw :: after /\ length after = depth /\ exists v, defines raw (Key key) v) /\ ends_in_plus key.
Proof.
  intros run ks c U K. destruct (Proofs.Config.once run ks c U K) as [A C]. split; [exact A|]. intros i kk H. destruct (C i kk H) as [[b [r [a [E [L D]]]]] P].
  split; [|exact P]. exists b, r, a. split; [exact E|]. split; [exact L|]. destruct r; cbn in D; try contradiction.
  destruct (find kk d) as [v|] eqn:F; [|contradiction]. exists v. constructor. apply Proofs.Config.find_In, F.
Qed.
Print Assumptions C31_once.

(** After a successful read, whatever is read in between, a later read gives the same
    value and evaluates nothing, provided no node has both dynamic forms of the key. *)
Theorem C31_same_later : forall run c k r c1 ev ks r2 c2 ev2, reachable run c -> Forall unique_keys c ->
  Forall (fun raw => undefined raw (Key (k ++ B "++")) \/ undefined raw (Key (k ++ B "+"))) c ->
  ~ ends_in_plus k -> Forall (fun k => ~ ends_in_plus k) ks ->
  getitem run c (Key k) = Got r c1 ev -> getitem run (fst (reads run c1 ks)) (Key k) = Got r2 c2 ev2 ->
  value_of r2 = value_of r /\ ev2 = [].
Proof.
  intros run c k r c1 ev ks r2 c2 ev2 R U NB. apply Proofs.Config.same_later; [exact (proj1 (Proofs.Config.reachable_solid run _ R))|exact U|].
  eapply Forall_impl; [|exact NB]. intros raw H [H1 H2]. destruct raw; cbn in H1, H2; try contradiction.
  destruct H as [H|H]; apply Proofs.Config.raw_item_undefined in H; [apply H1, H|apply H2, H].
Qed.
Print Assumptions C31_same_later.

(** With both forms present the second read evaluates the other one. *)
Theorem C31_same_later_refuted : exists run c k, reachable run c /\ Forall unique_keys c /\ ~ ends_in_plus k /\
  exists r c1 ev r2 c2 ev2, getitem run c (Key k) = Got r c1 ev /\ getitem run c1 (Key k) = Got r2 c2 ev2 /\ value_of r <> value_of r2.
Proof.
  exists (fun (blk : bool) _ _ => Some (VInt (if blk then 1 else 2))), [VDict [(B "k++", VStr []); (B "k+", VStr [])]], (B "k").
  split; [constructor|]. split; [repeat constructor; cbn; intuition discriminate|].
  split; [intros [p E]; destruct p as [|x [|y p]]; discriminate|].
  do 6 eexists. split; [vm_compute; reflexivity|]. split; [vm_compute; reflexivity|]. discriminate.
Qed.
Print Assumptions C31_same_later_refuted.

(** A computed key of an enclosing node, read from a child. *)
Example C31_case :
  let run := fun (blk : bool) (_ : value) (_ : chain) => Some (VInt 7) in
  let c := [VDict [(B "in", VStr (B "a"))]; VDict [(B "points+", VStr (B "3+4")); (B "cases", VList [])]] in
  match getitem run c (Key (B "points")) with
  | Got r c1 ev => r = Plain (VInt 7) /\ ev = [(0, B "points+")] /\
      match getitem run c1 (Key (B "points")) with Got r2 _ ev2 => r2 = Plain (VInt 7) /\ ev2 = [] | Invalid => False end
  | Invalid => False end.
Proof. vm_compute. auto. Qed.

(** ** C32 *)
(** The grader depends only on which keys the problem's configuration has. *)
Theorem C32_precedence : forall d,
  let key k := exists v, defines (VDict d) (Key k) v in
  (grader_class [VDict d] = CustomGrader <-> key (B "custom_judge")) /\
  (grader_class [VDict d] = SignatureGrader <-> key (B "signature_grader") /\ ~ key (B "custom_judge")) /\
  (grader_class [VDict d] = BridgedInteractiveGrader <-> key (B "interactive") /\ ~ key (B "signature_grader") /\ ~ key (B "custom_judge")) /\
  (grader_class [VDict d] = StandardGrader <-> ~ key (B "interactive") /\ ~ key (B "signature_grader") /\ ~ key (B "custom_judge")).
Proof.
  intros d key. assert (forall k, key k <-> in_node k [VDict d] = true) as H.
  { intros k. unfold key. rewrite Proofs.Config.in_node_dict. split.
    - intros [v D]. inversion D as [d0 k0 v0 I| |]; subst. exact (in_map fst _ _ I).
    - intros X. apply in_map_iff in X as [[k' v] [E X]]. cbn in E. subst. exists v. constructor. exact X. }
  rewrite !H. unfold grader_class. destruct (in_node (B "custom_judge") [VDict d]), (in_node (B "signature_grader") [VDict d]), (in_node (B "interactive") [VDict d]);
    clear; intuition (try discriminate).
Qed.
Print Assumptions C32_precedence.

Example C32_case : grader_class [VDict [(B "interactive", VDict []); (B "signature_grader", Null)]] = SignatureGrader /\
  grader_class [VDict [(B "custom_judge+", VStr []); (B "points", VInt 1)]] = StandardGrader.
Proof. split; reflexivity. Qed.

(** ** C57 *)
Theorem C57_numbering : forall A (l : list (case_cfg A)) ts, cases l = Some ts ->
  flat_map positions ts = seq 0 (length (flat_map positions ts)) /\
  flat_map batches ts = seq 1 (length (flat_map batches ts)) /\
  map erase ts = l /\ Forall in_own_batch ts.
Proof. exact (@Proofs.Config.numbering). Qed.
Print Assumptions C57_numbering.

Theorem C57_nested_batches_rejected : forall A (l : list (case_cfg A)), cases l <> None <-> Forall flat_batch l.
Proof. exact (@Proofs.Config.accepted_iff). Qed.
Print Assumptions C57_nested_batches_rejected.

Example C57_case : cases [CaseCfg 1; BatchCfg 2 [CaseCfg 3; CaseCfg 4]; CaseCfg 5; BatchCfg 6 []; BatchCfg 7 [CaseCfg 8]] =
  Some [Case 0 0 1; Batch 1 2 [Case 1 1 3; Case 2 1 4]; Case 3 0 5; Batch 2 6 []; Batch 3 7 [Case 4 3 8]].
Proof. reflexivity. Qed.
