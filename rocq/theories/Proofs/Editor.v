From Coq Require Import String Lia.
From Verif Require Import Model.Bytes Proofs.BytesLemmas Model.Editor Spec.Editor.
Local Open Scope nat_scope.
Local Open Scope list_scope.

Lemma stop_iff s : beqb (py_strip s) (B ":q") = true <-> stop_line s.
Proof.
  rewrite beqb_eq. split.
  - intros E. destruct (strip_split s) as (l & r & H & Hl & Hr). exists l, r. rewrite E in H. repeat split; assumption.
  - intros (a & b & -> & Ha & Hb). rewrite strip_white by assumption. reflexivity.
Qed.
Lemma join_text l : text_of l (join_lines l).
Proof.
  induction l as [|x l IH]; [reflexivity|]. destruct l as [|y l].
  - cbn. rewrite app_nil_r. reflexivity.
  - unfold text_of in *. change (join_lines (x :: y :: l)) with (x ++ LF :: join_lines (y :: l)).
    change (flat_map (fun l0 => l0 ++ [LF]) (x :: y :: l)) with ((x ++ [LF]) ++ flat_map (fun l0 => l0 ++ [LF]) (y :: l)).
    rewrite <- IH, <- !app_assoc. reflexivity.
Qed.
Lemma stdin_lines lines : forall src rest, Forall (fun l => ~ stop_line l) lines ->
  from_stdin src (map Line lines ++ rest) = from_stdin (src ++ lines) rest.
Proof.
  induction lines as [|l lines IH]; intros src rest F; [rewrite app_nil_r; reflexivity|]. inversion F as [|? ? N F']; subst.
  cbn [map app from_stdin]. destruct (beqb (py_strip l) (B ":q")) eqn:E; [destruct (N (proj1 (stop_iff l) E))|].
  rewrite IH by exact F'. rewrite <- app_assoc. reflexivity.
Qed.
