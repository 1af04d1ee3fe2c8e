(** Property theorems for configuration nodes used as collections (C100). *)
From Coq Require Import String Lia.
From Verif Require Import Model.Bytes Model.Config Spec.Config Model.Nodes Spec.Nodes.
From Verif Require Proofs.Config Proofs.Nodes.
Local Open Scope nat_scope.
Local Open Scope list_scope.

(** ** C100 *)
(** The keys of a mapping are those it defines, in the document's order; [items] pairs each with
    what a lookup gives, for keys that are not computed. *)
Theorem C100_items d ps : exists l,
  items (VDict d :: ps) = Some l /\ keys (VDict d :: ps) = Some (map fst l) /\ map fst l = map fst d /\
  len (VDict d :: ps) = Some (length l) /\
  forall run k r, NoDup (map fst d) -> plain_for (Key k) (VDict d) ->
    (In (k, r) l <-> (exists v, defines (VDict d) (Key k) v) /\ getitem run (VDict d :: ps) (Key k) = Got r (VDict d :: ps) []).
Proof.
  exists (map (fun kv => (fst kv, wrap (snd kv) (VDict d :: ps))) d).
  split; [reflexivity|]. split; [cbn; rewrite map_map; reflexivity|]. split; [rewrite map_map; reflexivity|].
  split; [cbn; rewrite map_length; reflexivity|]. intros run k r U P. split.
  - intros I. apply in_map_iff in I as [[k' v] [E I]]. cbn in E. injection E as -> <-. split; [exists v; constructor; exact I|].
    apply Proofs.Nodes.hit; [|exact P]. exact (Proofs.Config.In_find k v d U I).
  - intros [[v D] G]. inversion D as [d0 k0 v0 I| |]; subst.
    rewrite (Proofs.Nodes.hit run (VDict d) ps (Key k) v (Proofs.Config.In_find k v d U I) P) in G. injection G as <-.
    apply in_map_iff. exists (k, v). split; [reflexivity|exact I].
Qed.
Print Assumptions C100_items.

(** Anything but a mapping refuses to list keys or pairs, and to be updated. *)
Theorem C100_not_mapping raw ps new : (forall d, raw <> VDict d) ->
  items (raw :: ps) = None /\ keys (raw :: ps) = None /\ update (raw :: ps) new = None.
Proof. intros H. destruct raw as [|b|z|s|l|d]; try (repeat split; reflexivity). exfalso. exact (H d eq_refl). Qed.
Print Assumptions C100_not_mapping.

(** A computed key is not computed by listing: the pair given is its code, under the name with
    the plus sign, and the name itself is not there. *)
Theorem C100_items_computed_refuted : exists run c l, items c = Some l /\
  In (B "points+", Plain (VStr (B "3 + 4"))) l /\ ~ In (B "points") (map fst l) /\
  exists c', getitem run c (Key (B "points")) = Got (Plain (VInt 7)) c' [(0, B "points+")].
Proof.
  exists (fun _ _ _ => Some (VInt 7)), [VDict [(B "points+", VStr (B "3 + 4"))]]. eexists. split; [reflexivity|].
  split; [left; reflexivity|]. split; [cbn; intuition discriminate|]. eexists. vm_compute. reflexivity.
Qed.
Print Assumptions C100_items_computed_refuted.

(** Iterating over a list gives what its indices give, in order. *)
Theorem C100_iterate run l ps : length (iterate (VList l :: ps)) = length l /\ len (VList l :: ps) = Some (length l) /\
  forall i r, nth_error (iterate (VList l :: ps)) i = Some r <->
    i < length l /\ getitem run (VList l :: ps) (Index (Z.of_nat i)) = Got r (VList l :: ps) [].
Proof.
  split; [cbn; apply map_length|]. split; [reflexivity|]. intros i r. cbn [iterate].
  assert (forall v, nth_error l i = Some v -> getitem run (VList l :: ps) (Index (Z.of_nat i)) = Got (wrap v (VList l :: ps)) (VList l :: ps) []) as G.
  { intros v H. apply Proofs.Nodes.hit; [|exact I]. cbn. unfold list_index. rewrite (proj2 (Z.leb_le 0 (Z.of_nat i))) by lia. rewrite Nat2Z.id. exact H. }
  rewrite nth_error_map. split.
  - destruct (nth_error l i) as [v|] eqn:H; [|discriminate]. cbn. intros E. injection E as <-.
    split; [apply nth_error_Some; rewrite H; discriminate|]. exact (G v eq_refl).
  - intros [L E]. destruct (nth_error l i) as [v|] eqn:H; [|apply nth_error_None in H; lia].
    rewrite (G v eq_refl) in E. injection E as <-. reflexivity.
Qed.
Print Assumptions C100_iterate.

(** After an update a lookup gives the new value where one was given and the old answer where
    not. *)
Theorem C100_update run d ps new : exists d', update (VDict d :: ps) new = Some (VDict d' :: ps) /\
  forall k, plain_for (Key k) (VDict d') ->
    (forall v, says new k v -> getitem run (VDict d' :: ps) (Key k) = Got (wrap v (VDict d' :: ps)) (VDict d' :: ps) []) /\
    (silent new k -> NoDup (map fst d) -> forall v, defines (VDict d) (Key k) v ->
       getitem run (VDict d' :: ps) (Key k) = Got (wrap v (VDict d' :: ps)) (VDict d' :: ps) []) /\
    (silent new k -> undefined (VDict d) (Key k) -> undefined (VDict d') (Key k)).
Proof.
  exists (merge d new). split; [reflexivity|]. intros k P. split; [|split].
  - intros v H. apply Proofs.Nodes.hit; [|exact P]. exact (Proofs.Nodes.merge_says d new k v H).
  - intros H U v D. apply Proofs.Nodes.hit; [|exact P]. cbn. rewrite (Proofs.Nodes.merge_silent d new k H).
    inversion D; subst. apply Proofs.Config.In_find; assumption.
  - intros H D. apply Proofs.Config.raw_item_undefined. apply Proofs.Config.raw_item_undefined in D. cbn in *.
    rewrite (Proofs.Nodes.merge_silent d new k H). exact D.
Qed.
Print Assumptions C100_update.

(** Storing one key is updating with it alone. *)
Theorem C100_store c k v : set_key c k v = update c [(k, v)].
Proof. destruct c as [|[]]; reflexivity. Qed.
Print Assumptions C100_store.

(** A value stored under a name that also has a computed form is lost at the next read. *)
Theorem C100_store_refuted : exists run d k v c c' ev, set_key [VDict d] k v = Some c /\ NoDup (map fst d) /\
  getitem run c (Key k) = Got (Plain (VInt 7)) c' ev /\ v = VInt 1.
Proof.
  exists (fun _ _ _ => Some (VInt 7)), [(B "points+", VStr (B "3 + 4"))], (B "points"), (VInt 1). do 3 eexists.
  split; [reflexivity|]. split; [repeat constructor; cbn; intuition discriminate|]. split; [vm_compute; reflexivity|reflexivity].
Qed.
Print Assumptions C100_store_refuted.

(** Storing at an index, from either end, changes that element and no other; an index outside
    the list is refused. *)
Theorem C100_store_index l ps z v :
  match set_index (VList l :: ps) z v with
  | Some c => exists l' i, c = VList l' :: ps /\ length l' = length l /\ i < length l /\
      (z = Z.of_nat i \/ z = (Z.of_nat i - Z.of_nat (length l))%Z) /\
      nth_error l' i = Some v /\ forall j, j <> i -> nth_error l' j = nth_error l j
  | None => (z < - Z.of_nat (length l) \/ Z.of_nat (length l) <= z)%Z
  end.
Proof.
  cbn [set_index]. destruct (0 <=? z)%Z eqn:E0.
  - apply Z.leb_le in E0. destruct (z <? Z.of_nat (length l))%Z eqn:E1; [|apply Z.ltb_ge in E1; lia]. apply Z.ltb_lt in E1.
    exists (replace_nth (Z.to_nat z) v l), (Z.to_nat z). split; [reflexivity|]. split; [apply Proofs.Nodes.replace_length|]. split; [lia|]. split; [left; lia|].
    split; [apply Proofs.Nodes.replace_same; lia|]. intros j J. apply Proofs.Nodes.replace_other. lia.
  - apply Z.leb_gt in E0. destruct (0 <=? z + Z.of_nat (length l))%Z eqn:E1; [|apply Z.leb_gt in E1; lia]. apply Z.leb_le in E1.
    exists (replace_nth (Z.to_nat (z + Z.of_nat (length l))) v l), (Z.to_nat (z + Z.of_nat (length l))).
    split; [reflexivity|]. split; [apply Proofs.Nodes.replace_length|]. split; [lia|]. split; [right; lia|].
    split; [apply Proofs.Nodes.replace_same; lia|]. intros j J. apply Proofs.Nodes.replace_other. lia.
Qed.
Print Assumptions C100_store_index.

(** A node made with defaults answers with its own value for each key it says something about,
    null included, and with the default for the others. *)
Theorem C100_defaults run defaults d : defaults <> [] -> NoDup (map fst defaults) -> exists raw, make (VDict d) defaults = Some [raw] /\
  forall k, plain_for (Key k) raw ->
    (forall v, says d k v -> getitem run [raw] (Key k) = Got (wrap v [raw]) [raw] []) /\
    (silent d k -> forall v, In (k, v) defaults -> getitem run [raw] (Key k) = Got (wrap v [raw]) [raw] []).
Proof.
  intros NE U. exists (VDict (merge defaults d)). split.
  { unfold make. destruct defaults; [contradiction NE; reflexivity|]. unfold or_empty. destruct d; reflexivity. }
  intros k P. split.
  - intros v H. apply Proofs.Nodes.hit; [|exact P]. exact (Proofs.Nodes.merge_says defaults d k v H).
  - intros H v D. apply Proofs.Nodes.hit; [|exact P]. cbn. rewrite (Proofs.Nodes.merge_silent defaults d k H).
    apply Proofs.Config.In_find; assumption.
Qed.
Print Assumptions C100_defaults.

(** An empty document is an empty mapping; with defaults, a list or a scalar is refused. *)
Theorem C100_made raw defaults :
  (truthy raw = false -> make raw defaults = Some [VDict defaults]) /\
  (truthy raw = true -> make raw [] = Some [raw]) /\
  (truthy raw = true -> (forall d, raw <> VDict d) -> defaults <> [] -> make raw defaults = None).
Proof.
  split; [|split].
  - intros T. unfold make, or_empty. rewrite T. destruct defaults; reflexivity.
  - intros T. unfold make, or_empty. rewrite T. reflexivity.
  - intros T D NE. unfold make, or_empty. rewrite T. destruct defaults; [contradiction NE; reflexivity|].
    destruct raw; try reflexivity. exfalso. exact (D _ eq_refl).
Qed.
Print Assumptions C100_made.

(** Two lists add up in order, whichever of them is a node. *)
Theorem C100_add a ps b qs : a ++ b <> [] ->
  add (VList a :: ps) (AList b) = ListOf (a ++ b) /\
  radd (AList a) (VList b :: qs) = ListOf (a ++ b) /\
  add (VList a :: ps) (ANode (VList b :: qs)) = NodeOf [VList (a ++ b)].
Proof. intros NE. unfold add, radd. cbn [unwrap]. unfold or_empty. destruct (a ++ b) eqn:E; [contradiction NE; reflexivity|]. repeat split; reflexivity. Qed.
Print Assumptions C100_add.

(** Nothing else adds up, mappings in particular. *)
Theorem C100_add_refused c o : add c o <> TypeErr ->
  (exists l, unwrap c = VList l) /\ ((exists l, o = AList l) \/ exists l ps, o = ANode (VList l :: ps)).
Proof.
  unfold add. intros H. destruct (unwrap c) as [| | | |l|]; try (contradiction H; reflexivity). split; [exists l; reflexivity|].
  destruct o as [b|d|[|[| | | |b|] qs]|]; try (contradiction H; reflexivity); [left; eexists; reflexivity|right; do 2 eexists; reflexivity].
Qed.
Print Assumptions C100_add_refused.

(** The sum of two nodes has no parent: its elements no longer inherit what both lists' elements
    inherited. *)
Theorem C100_add_inherits_refuted : exists run root c1 c2 c, let sub k c := getitem run [root] (Key k) = Got (Sub c) [root] [] in
  sub (B "easy") c1 /\ sub (B "hard") c2 /\ add c1 (ANode c2) = NodeOf c /\
  (forall e, In (Sub e) (iterate c1 ++ iterate c2) -> getitem run e (Key (B "points")) = Got (Plain (VInt 5)) e []) /\
  (forall e, In (Sub e) (iterate c) -> getitem run e (Key (B "points")) = Got (Plain Null) e []) /\ length (iterate c) = 2.
Proof.
  set (x := VDict [(B "in", VStr (B "1.in"))]). set (y := VDict [(B "in", VStr (B "2.in"))]).
  exists (fun _ _ _ => None), (VDict [(B "points", VInt 5); (B "easy", VList [x]); (B "hard", VList [y])]). do 3 eexists.
  split; [vm_compute; reflexivity|]. split; [vm_compute; reflexivity|]. split; [reflexivity|]. split; [|split; [|reflexivity]].
  - intros e [E|[E|[]]]; injection E as <-; vm_compute; reflexivity.
  - intros e [E|[E|[]]]; injection E as <-; vm_compute; reflexivity.
Qed.
Print Assumptions C100_add_inherits_refuted.

(** An empty list becomes an empty mapping when it is wrapped, and then no list can be added to
    it. *)
Theorem C100_add_empty_refuted : exists run root c, getitem run [root] (Key (B "extra")) = Got (Sub c) [root] [] /\
  defines root (Key (B "extra")) (VList []) /\ forall o, add c o = TypeErr.
Proof.
  exists (fun _ _ _ => None), (VDict [(B "extra", VList [])]). eexists. split; [vm_compute; reflexivity|].
  split; [constructor; left; reflexivity|]. intros o. destruct o as [b|d|[|[| | | |b|] qs]|]; reflexivity.
Qed.
Print Assumptions C100_add_empty_refuted.

Example C100_ex : says [(B "a", VInt 1); (B "b", Null); (B "a", VInt 2)] (B "a") (VInt 2) /\ silent [(B "a", VInt 1)] (B "c") /\
  make (VDict [(B "b", Null)]) [(B "a", VInt 1); (B "b", VInt 2)] = Some [VDict [(B "a", VInt 1); (B "b", Null)]] /\
  plain_for (Key (B "a")) (VDict [(B "a", VInt 1); (B "b+", VStr (B "0"))]).
Proof.
  split; [apply (says_here [(B "a", VInt 1); (B "b", Null)] (B "a") (VInt 2) []); intros []|].
  split; [intros v [E|[]]; discriminate E|]. split; [reflexivity|].
  split; apply Proofs.Config.raw_item_undefined; reflexivity.
Qed.
