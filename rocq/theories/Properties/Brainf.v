(** C46: Brainf*** sources. *)
From Coq Require Import String.
From Verif Require Import Model.Bytes Model.Brainf Spec.Brainf Proofs.Brainf.
Local Open Scope list_scope.
Local Open Scope nat_scope.

(** A source is refused at compile time exactly when its brackets are not balanced. *)
Theorem C46_refused : forall source, (exists m, construct source = CompileError m) <-> ~ balanced source.
Proof.
  intro source. rewrite <- brackets. unfold construct. destruct (has_invalid_brackets source); split.
  - intros _ H. discriminate.
  - intros _. eexists. reflexivity.
  - intros (m & H). discriminate.
  - intro H. exfalso. apply H. reflexivity.
Qed.
(** All others become the template with the translated statements, once, as the last thing main does: *)
Theorem C46_template : exists first, template = first ++ B "{code}" ++ nl ++ B "}" ++ nl /\
  forall source, balanced source -> construct source = Program (first ++ translated source ++ nl ++ B "}" ++ nl).
Proof.
  exists before. split; [vm_compute; reflexivity|]. intros source H. apply brackets in H. unfold construct. rewrite H, template_replaced. reflexivity.
Qed.
(** the statements are well-formed C (of a small fragment, in which blocks nest), can be read in only one way, and
    after any number of steps have done exactly what the source's commands have done in as many: same pointer, cells,
    input left and output; in particular they end when the source does, and never otherwise. *)
Theorem C46_translation : forall source, balanced source ->
  exists l, translated source = c_text l /\ (forall l', c_text l' = translated source -> l' = l)
  /\ (forall s n i t, steps (bf_step (commands source)) n (0, s) (i, t) ->
        exists f, steps c_step n ([l], s) (f, t) /\ (i = length (commands source) <-> c_finished f))
  /\ (forall s n f t, steps c_step n ([l], s) (f, t) ->
        exists i, steps (bf_step (commands source)) n (0, s) (i, t) /\ (i = length (commands source) <-> c_finished f)).
Proof.
  intros source H. destruct (translation source H) as (l & A & C & _ & D & E). exists l. split; [exact A|]. split; [exact C|]. split; [exact D|exact E].
Qed.
(** The source's own semantics is deterministic, and stops only at its end. *)
Theorem C46_deterministic : forall source, balanced source -> forall s n i t,
  steps (bf_step (commands source)) n (0, s) (i, t) ->
  (i = length (commands source) /\ forall x, ~ bf_step (commands source) (i, t) x)
  \/ exists x, bf_step (commands source) (i, t) x /\ forall y, bf_step (commands source) (i, t) y -> y = x.
Proof.
  intros source H s n i t S. destruct (translation source H) as (l & _ & _ & A & _). rewrite A in *.
  destruct (sim_bf _ _ _ _ _ (sim_start l s) S) as ([f t'] & _ & E & pre & suf & Ep & L & At). cbn [fst snd] in *. subst t' i.
  destruct (at_step _ pre suf f t Ep At) as [(X & Y)|(x1 & y1 & S1 & _ & _ & U & _)].
  - left. subst suf. rewrite app_nil_r in Ep. split; [rewrite Ep; reflexivity|]. intro x. apply bf_stuck. rewrite Ep. lia.
  - right. exists x1. split; assumption.
Qed.

(** ",[.,]x" is balanced (x is a comment); ",]" and "[[]" are not. *)
Example C46_ex_balanced : balanced (B ",[.,]x") /\ ~ balanced (B ",]") /\ ~ balanced (B "[[]").
Proof. split; [|split]; rewrite <- brackets; [reflexivity|discriminate|discriminate]. Qed.
Example C46_ex : translated (B "+[x.,]") = B "++*p;while(*p){putchar(*p);*p=getchar();}"
  /\ c_text [IncCell; While [Put; Get]] = translated (B "+[x.,]")
  /\ construct (B "]") = CompileError (B "Unmatched brackets" ++ [10%N]).
Proof. repeat split; vm_compute; reflexivity. Qed.
(** It runs: reads one byte, 7, writes it. *)
Example C46_ex_run : exists t, steps (bf_step (commands (B ",.x"))) 2 (0, {| ptr := 0; cell := fun _ => 0%N; input := [7%N]; output := [] |}) (2, t) /\ output t = [7%N].
Proof.
  eexists. split.
  - eapply steps_S; [apply bf_act with (c := 44%N); [reflexivity|discriminate|discriminate]|].
    eapply steps_S; [apply bf_act with (c := 46%N); [reflexivity|discriminate|discriminate]|apply steps_0].
  - reflexivity.
Qed.

Print Assumptions C46_refused.
Print Assumptions C46_template.
Print Assumptions C46_translation.
Print Assumptions C46_deterministic.
