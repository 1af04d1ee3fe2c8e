From Coq Require Import String Lia.
From Verif Require Import Model.Bytes Model.Config Spec.Config Model.Nodes Spec.Nodes Proofs.BytesLemmas.
From Verif Require Proofs.Config.
Local Open Scope nat_scope.
Local Open Scope list_scope.

Lemma hit run raw ps it v : raw_item raw it = Some v -> plain_for it raw ->
  getitem run (raw :: ps) it = Got (wrap v (raw :: ps)) (raw :: ps) [].
Proof.
  intros H P. cbn [getitem].
  assert (resolve run raw ps it = Some (raw, [])) as R.
  { unfold resolve. destruct raw as [|b|z|s|l|d]; try reflexivity. destruct it as [k|z]; [|reflexivity].
    destruct P as [P1 P2]. apply Proofs.Config.raw_item_undefined in P1. apply Proofs.Config.raw_item_undefined in P2.
    cbn [raw_item] in P1, P2. unfold block_key, expr_key. rewrite P1, P2. reflexivity. }
  rewrite R, H. reflexivity.
Qed.

Lemma find_merge new : forall d k, find k (merge d new) =
  match find k (rev new) with Some v => Some v | None => find k d end.
Proof.
  induction new as [|[k' v'] r IH] using rev_ind; intros d k; [reflexivity|].
  unfold merge in *. rewrite fold_left_app, rev_app_distr. cbn.
  destruct (beqb k k') eqn:E.
  - apply beqb_eq in E. subst. apply Proofs.Config.find_store_same.
  - rewrite Proofs.Config.find_store_other; [apply IH|]. intros ->. rewrite beqb_refl in E. discriminate.
Qed.

Lemma find_app k a b : find k (a ++ b) = match find k a with Some v => Some v | None => find k b end.
Proof. induction a as [|[k' v] r IH]; cbn; [reflexivity|]. destruct (beqb k k'); [reflexivity|exact IH]. Qed.

Lemma find_none_keys k d : ~ In k (map fst d) -> find k d = None.
Proof. intros H. apply Proofs.Config.find_None. intros v I. apply H. exact (in_map fst _ _ I). Qed.

Lemma says_find d k v : says d k v <-> find k (rev d) = Some v.
Proof.
  split.
  - intros [before k0 v0 after H]. rewrite rev_app_distr. cbn [rev]. rewrite <- app_assoc, find_app.
    rewrite (find_none_keys k0 (rev after)); [|rewrite map_rev, <- in_rev; exact H]. cbn. rewrite beqb_refl. reflexivity.
  - revert v. induction d as [|[k' v'] r IH]; intros v H; [discriminate|]. cbn [rev] in H. rewrite find_app in H.
    destruct (find k (rev r)) as [w|] eqn:F.
    + injection H as <-. destruct (IH w eq_refl) as [b k0 v0 a A]. exact (says_here ((k', v') :: b) k0 v0 a A).
    + cbn in H. destruct (beqb k k') eqn:E; [|discriminate]. injection H as <-. apply beqb_eq in E. subst.
      apply (says_here [] k' v' r). intros I. apply in_map_iff in I as [[k2 v2] [E2 I]]. cbn in E2. subst.
      apply (proj1 (Proofs.Config.find_None k' (rev r)) F v2). rewrite <- in_rev. exact I.
Qed.

Lemma silent_find d k : silent d k <-> find k (rev d) = None.
Proof.
  rewrite Proofs.Config.find_None. unfold silent. split; intros H v I; apply (H v); [rewrite in_rev|rewrite <- in_rev]; exact I.
Qed.

Lemma merge_says d new k v : says new k v -> find k (merge d new) = Some v.
Proof. intros H. rewrite find_merge. apply says_find in H. rewrite H. reflexivity. Qed.
Lemma merge_silent d new k : silent new k -> find k (merge d new) = find k d.
Proof. intros H. rewrite find_merge. apply silent_find in H. rewrite H. reflexivity. Qed.

Lemma nodup_merge new : forall d, NoDup (map fst d) -> NoDup (map fst (merge d new)).
Proof.
  induction new as [|[k v] r IH]; intros d H; [exact H|]. apply (IH (store k v d)). apply Proofs.Config.nodup_store, H.
Qed.

Lemma replace_same v l : forall i, i < length l -> nth_error (replace_nth i v l) i = Some v.
Proof. induction l as [|x r IH]; intros [|i] H; cbn in *; try lia; [reflexivity|]. apply IH. lia. Qed.
Lemma replace_other v l : forall i j, i <> j -> nth_error (replace_nth i v l) j = nth_error l j.
Proof. induction l as [|x r IH]; intros [|i] [|j] H; cbn; try reflexivity; try (contradiction H; reflexivity). apply IH. lia. Qed.
Lemma replace_length v l : forall i, length (replace_nth i v l) = length l.
Proof. induction l as [|x r IH]; intros [|i]; cbn; try reflexivity. rewrite IH. reflexivity. Qed.
