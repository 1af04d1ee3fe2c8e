(** C106: the text of a submission typed at the console or written in an editor. *)
From Coq Require Import String Lia.
From Verif Require Import Model.Bytes Model.Editor Spec.Editor.
From Verif Require Proofs.Editor.
Local Open Scope nat_scope.
Local Open Scope list_scope.

(** Without an editor, the text is made of the very lines typed before the end of input or a line :q,
    and nothing after it is read. *)
Theorem C106_typed ext src lines stop rest : Forall (fun l => ~ stop_line l) lines ->
  stop = Eof \/ (exists s, stop = Line s /\ stop_line s) ->
  exists t, open_editor (Some ext) None src (map Line lines ++ stop :: rest) = (Source (Str t), rest) /\ text_of lines t.
Proof.
  intros F St. exists (join_lines lines). split; [|apply Proofs.Editor.join_text].
  cbn [open_editor]. rewrite Proofs.Editor.stdin_lines by exact F.
  destruct St as [->|(s & -> & E)]; cbn [from_stdin]; [reflexivity|]. apply Proofs.Editor.stop_iff in E. rewrite E. reflexivity.
Qed.
Print Assumptions C106_typed.

(** An error while reading makes the command invalid, with the error's text; an interrupt goes
    through.  In neither case is there a text. *)
Theorem C106_error ext src lines m rest : Forall (fun l => ~ stop_line l) lines ->
  open_editor (Some ext) None src (map Line lines ++ Error m :: rest) = (Invalid m, rest) /\
  open_editor (Some ext) None src (map Line lines ++ Interrupt :: rest) = (Raised, rest).
Proof. intros F. cbn [open_editor]. rewrite !Proofs.Editor.stdin_lines by exact F. split; reflexivity. Qed.
Print Assumptions C106_error.

(** Every sequence typed is one of these, or has not come to an end. *)
Theorem C106_all input : exists lines tail, input = map Line lines ++ tail /\ Forall (fun l => ~ stop_line l) lines /\
  match tail with [] => True | Line s :: _ => stop_line s | _ => True end.
Proof.
  induction input as [|x r (lines & tail & -> & F & T)]; [exists [], []; repeat split; constructor|].
  destruct x as [s| | |]; try (exists [], (Eof :: map Line lines ++ tail); repeat split; constructor);
    try (eexists [], (_ :: map Line lines ++ tail); repeat split; constructor).
  destruct (beqb (py_strip s) (B ":q")) eqn:E.
  - exists [], (Line s :: map Line lines ++ tail). repeat split; [constructor|]. apply Proofs.Editor.stop_iff. exact E.
  - exists (s :: lines), tail. repeat split; [|exact T]. constructor; [|exact F]. intros H. apply Proofs.Editor.stop_iff in H.
    rewrite H in E. discriminate E.
Qed.
Print Assumptions C106_all.

(** With an editor, nothing is read from the console; the editor is given a file with the language's
    suffix and the old text, and what it writes into that file is the text. *)
Theorem C106_edited ext editor s s' input : editor (B "." ++ ext) s = Writes s' ->
  open_editor (Some ext) (Some editor) (Bytes s) input = (Source (Bytes s'), input).
Proof. intros E. cbn in *. rewrite E. reflexivity. Qed.
Print Assumptions C106_edited.

(** As coded: an editor that saves by putting a new file in place of the old one has its text
    ignored, and the old text is submitted. *)
Theorem C106_replaced_refuted ext editor s s' input : editor (B "." ++ ext) s = Replaces s' ->
  open_editor (Some ext) (Some editor) (Bytes s) input = (Source (Bytes s), input).
Proof. intros E. cbn in *. rewrite E. reflexivity. Qed.
Print Assumptions C106_replaced_refuted.

(** As coded: a text that was typed, or read from a file, cannot be edited again. *)
Theorem C106_again_refuted ext editor lines rest input : Forall (fun l => ~ stop_line l) lines ->
  exists t, fst (open_editor (Some ext) None (Bytes []) (map Line lines ++ Eof :: rest)) = Source t /\
  open_editor (Some ext) (Some editor) t input = (Raised, input).
Proof.
  intros F. destruct (C106_typed ext (Bytes []) lines Eof rest F (or_introl eq_refl)) as (t & E & _). exists (Str t). rewrite E. split; reflexivity.
Qed.
Print Assumptions C106_again_refuted.

Example C106_ex :
  open_editor (Some (B "py")) None (Bytes []) [Line (B "x = 1"); Line (B "  print(x) "); Line []; Line (B " :q "); Line (B "next")] =
    (Source (Str (B "x = 1" ++ [LF] ++ B "  print(x) " ++ [LF])), [Line (B "next")]) /\
  stop_line (B " :q ") /\
  open_editor (Some (B "py")) (Some (fun suffix s => if beqb suffix (B ".py") then Writes (s ++ B "pass") else Removes)) (Bytes (B "# ")) [] =
    (Source (Bytes (B "# pass")), []).
Proof.
  split; [vm_compute; reflexivity|]. split; [|vm_compute; reflexivity].
  exists (B " "), (B " "). split; [reflexivity|]. split; (constructor; [left; reflexivity | constructor]).
Qed.
