(** Proofs about what reaches the site. *)
From Coq Require Import String ZArith NArith List Bool Arith Lia.
From Verif Require Import Model.Bytes Model.Utf8 Model.Json Model.Packets Model.Site Spec.Json Spec.Packets Spec.Site.
From Verif Require Model.Worker Spec.Worker Proofs.Json Proofs.Packets.
Import ListNotations.
Local Open Scope nat_scope.
Local Open Scope list_scope.

(** ** The queue *)
Section Poison.
  Context {payload : Type}.
  Variable sendable : payload -> bool.
  Variable tb : said.
  Notation step' := (step' sendable tb). Notation run' := (run' sendable tb).
  Notation state := (state payload). Notation op := (op payload).

  (** *** Without such a result nothing is different *)
  Definition fine (s : state) : Prop :=
    Forall (fun c => sendable (info _ c) = true) (queue _ s) /\
    Forall (fun o => match o with Append _ c => sendable (info _ c) = true | _ => True end) (program _ s).
  Lemma fine_raises p s : fine s -> raises sendable p s = false.
  Proof.
    intros [H _]. unfold raises. destruct p; try reflexivity. destruct (current _ s); [|reflexivity].
    apply negb_false_iff, forallb_forall. intros c I. exact (proj1 (Forall_forall _ _) H c I).
  Qed.
  Lemma fine_step s m : fine s -> fine (step _ s m).
  Proof.
    intros [Q P]. destruct s as [q lk cur w gp pr fp]. cbn [queue program] in *. unfold fine.
    destruct m as [| |n]; cbn [step].
    - unfold grader_step. cbn [program g_phase lock queue current]. destruct pr as [|[c|c| |c] pr]; [split; assumption| | | |]; inversion P as [|? ? P1 P2]; subst.
      + split; assumption.
      + destruct gp, lk; cbn; (split; try assumption); apply Forall_app; auto.
      + destruct gp; cbn; try (split; assumption); [destruct lk; cbn; split; assumption| |destruct cur; cbn; split; assumption|split; [constructor|assumption]].
        destruct q; cbn; split; assumption.
      + split; assumption.
    - unfold flusher_step. cbn [f_phase lock queue current]. destruct fp; cbn; try (split; assumption); [destruct lk; cbn; split; assumption|destruct q; cbn; split; assumption|destruct cur; cbn; split; assumption|split; [constructor|assumption]].
    - split; assumption.
  Qed.
  Lemma fine_run sch : forall s, fine s -> run' s sch = run _ s sch.
  Proof.
    induction sch as [|m sch IH]; intros s F; [reflexivity|]. cbn. assert (E : step' s m = step _ s m) by (destruct m; cbn [Site.step']; rewrite ?fine_raises by exact F; reflexivity).
    rewrite E. apply IH, fine_step, F.
  Qed.
  Lemma fine_init h : Forall (fun sm => Forall (fun r => sendable r = true) (results (snd sm))) h -> fine (init _ (history_ops payload h)).
  Proof.
    intros H. split; [constructor|]. cbn [program init]. unfold history_ops. apply Forall_forall. intros o I. apply in_flat_map in I as (sm & I & Io).
    rewrite Forall_forall in H. specialize (H _ I). unfold submission_ops in Io. destruct Io as [<-|Io]; [exact Logic.I|]. apply in_app_iff in Io as [Io|[<-|[]]]; [|exact Logic.I].
    apply in_flat_map in Io as (m & Im & Io). destruct o as [c|c| |c]; try exact Logic.I. rewrite Forall_forall in H.
    destruct m; cbn in Io; try solve [repeat (destruct Io as [Io|Io]; [discriminate Io|]); destruct Io].
    destruct Io as [Io|[]]. injection Io as <-. cbn. apply H. unfold results. apply in_flat_map. eexists. split; [exact Im|left; reflexivity].
  Qed.

  (** *** With one, nothing is reported any more *)
  Definition quiet (c : ctl) : Prop := match c with CompileError _ | CompileMessage _ | GradingBegin _ => True | _ => False end.
  Inductive wf : option nat -> list op -> Prop :=
  | wf_nil cur : wf cur []
  | wf_set cur c r : wf c r -> wf cur (SetCurrent _ c :: r)
  | wf_app cur c r : wf cur r -> wf cur (Append _ c :: r)
  | wf_send cur c r : quiet c -> wf cur r -> wf cur (Send _ c :: r)
  | wf_flush cur c r : cur <> None -> wf cur r -> wf cur (Flush _ :: Send _ c :: r).
  Definition lockd (s : state) : Prop :=
    match lock _ s with
    | None => g_phase _ s = Out /\ f_phase _ s = Out
    | Some Grader => g_phase _ s <> Out /\ f_phase _ s = Out
    | Some Flusher => g_phase _ s = Out /\ Proofs.Packets.in_flush (f_phase _ s)
    end.
  Definition allgood (s : state) : Prop := forallb (fun c => sendable (info _ c)) (queue _ s) = true.
  Definition progd (s : state) : Prop :=
    match g_phase _ s with
    | Out => wf (current _ s) (program _ s) \/ exists c r, program _ s = Send _ c :: r /\ wf (current _ s) r /\ allgood s
    | ApLocked | ApDone => exists c r, program _ s = Append _ c :: r /\ wf (current _ s) r
    | FlLocked | FlNonempty => exists c r, program _ s = Flush _ :: Send _ c :: r /\ wf (current _ s) r /\ current _ s <> None
    | FlSent | FlDone => exists c r, program _ s = Flush _ :: Send _ c :: r /\ wf (current _ s) r /\ allgood s
    end.
  Record J (s : state) : Prop := {
    j_lock : lockd s;
    j_prog : progd s;
    j_f : f_phase _ s = FlSent -> allgood s
  }.
  Lemma at_end_wf cur prog : wf cur prog -> at_end prog = [] \/ exists r, at_end prog = SetCurrent _ None :: r /\ wf None r.
  Proof.
    induction 1 as [cur|cur c r W IH|cur c r W IH|cur c r Q W IH|cur c r Hc W IH]; cbn [at_end]; auto.
    destruct c; eauto.
  Qed.
  Lemma at_end_any prog cur : wf cur prog -> forall cur', wf cur' (at_end prog).
  Proof. intros H cur'. destruct (at_end_wf cur prog H) as [->|(r & -> & W)]; [constructor|constructor; exact W]. Qed.
  Ltac expl := cbn [queue lock current wire g_phase program f_phase set_phase set_lock set_queue emit pop tl] in *.
  Lemma raises_nonempty p s : raises sendable p s = true -> p = FlNonempty /\ ~ allgood s.
  Proof. unfold raises, allgood. destruct p; try discriminate. destruct (current _ s); [|discriminate]. intros H. split; [reflexivity|]. intros E. rewrite E in H. discriminate. Qed.
  Lemma not_raises cur q lk w gp pr fp : raises sendable FlNonempty (State _ q lk (Some cur) w gp pr fp) = false -> forallb (fun c => sendable (info _ c)) q = true.
  Proof. unfold raises. cbn. apply negb_false_iff. Qed.
  Ltac unf := unfold lockd, progd, allgood, Proofs.Packets.in_flush; expl.
  Lemma J_step s m : J s -> J (step' s m).
  Proof.
    intros [L P Fs]. destruct s as [q lk cur w gp pr fp]. unfold lockd, progd, allgood in *. expl. destruct m as [| |n]; cbn [Site.step'].
    - expl. destruct (raises sendable gp _) eqn:R.
      + apply raises_nonempty in R as (-> & Na). destruct P as (c & r & -> & W & Hc).
        assert (fp = Out) as -> by (destruct lk as [[]|]; [apply L|destruct L; discriminate|destruct L; discriminate]).
        split; unf; [split; reflexivity| |discriminate]. left. cbn [recover]. destruct c; try exact W; cbn [app at_end]; (apply wf_flush; [exact Hc|apply (at_end_any r cur W)]).
      + cbn [step]. unfold grader_step. expl. destruct pr as [|[c|c| |c] pr].
        * split; unf; assumption.
        * (* SetCurrent *) destruct gp; try (destruct P as (? & ? & X & _); discriminate X). destruct P as [P|(? & ? & X & _)]; [|discriminate X]. inversion P; subst.
          split; unf; auto.
        * (* Append *) destruct gp; try (destruct P as (? & ? & X & _); discriminate X).
          -- destruct P as [P|(? & ? & X & _)]; [|discriminate X]. destruct lk as [t|]; [split; unf; auto|]. destruct L as [_ ->]. inversion P; subst.
             split; unf; [split; [discriminate|reflexivity]|eauto|discriminate].
          -- destruct P as (c' & r & X & W). injection X as <- <-. assert (fp = Out) as -> by (destruct lk as [[]|]; [apply L|destruct L; discriminate|destruct L; discriminate]).
             split; unf; [destruct lk as [[]|]; destruct L; split; congruence|eauto|discriminate].
          -- destruct P as (c' & r & X & W). injection X as <- <-. assert (fp = Out) as -> by (destruct lk as [[]|]; [apply L|destruct L; discriminate|destruct L; discriminate]).
             split; unf; [auto|left; exact W|discriminate].
        * (* Flush *) destruct gp; try (destruct P as (? & ? & X & _); discriminate X).
          -- destruct P as [P|(? & ? & X & _)]; [|discriminate X]. destruct lk as [t|]; [split; unf; auto|]. destruct L as [_ ->]. inversion P; subst.
             split; unf; [split; [discriminate|reflexivity]|eauto 6|discriminate].
          -- assert (fp = Out /\ lk = Some Grader) as [-> ->] by (destruct lk as [[]|]; [split; [apply L|reflexivity]|destruct L; discriminate|destruct L; discriminate]).
             cbn [flush_step]. expl. destruct P as (c & r & X & W & Hc). injection X as ->.
             destruct q; split; unf; try discriminate; try (split; [discriminate|reflexivity]); eauto 8.
          -- assert (fp = Out /\ lk = Some Grader) as [-> ->] by (destruct lk as [[]|]; [split; [apply L|reflexivity]|destruct L; discriminate|destruct L; discriminate]).
             cbn [flush_step]. expl. destruct P as (c & r & X & W & Hc). injection X as ->. destruct cur as [id|]; [|congruence]. apply not_raises in R.
             split; unf; try discriminate; try (split; [discriminate|reflexivity]); eauto 8.
          -- assert (fp = Out /\ lk = Some Grader) as [-> ->] by (destruct lk as [[]|]; [split; [apply L|reflexivity]|destruct L; discriminate|destruct L; discriminate]).
             cbn [flush_step]. expl. destruct P as (c & r & X & W & Hc). injection X as ->.
             split; unf; try discriminate; try (split; [discriminate|reflexivity]); eauto 8.
          -- assert (fp = Out /\ lk = Some Grader) as [-> ->] by (destruct lk as [[]|]; [split; [apply L|reflexivity]|destruct L; discriminate|destruct L; discriminate]).
             cbn [flush_step]. expl. destruct P as (c & r & X & W & Hc). injection X as ->.
             split; unf; try discriminate; auto. right. eauto 8.
        * (* Send *) destruct gp; try (destruct P as (? & ? & X & _); discriminate X). destruct P as [P|(c0 & r & X & W & Ag)].
          -- inversion P; subst. split; unf; auto.
          -- injection X as <- <-. split; unf; auto.
    - expl. destruct (raises sendable fp _) eqn:R.
      + apply raises_nonempty in R as (-> & Na). assert (lk = Some Flusher /\ gp = Out) as [-> ->] by (destruct lk as [[]|]; [destruct L; discriminate|destruct L; auto|destruct L; discriminate]).
        split; unf; auto. discriminate.
      + cbn [step]. unfold flusher_step. expl. destruct fp.
        * destruct lk as [t|]; [split; unf; auto|]. destruct L as [-> _]. split; unf; auto. discriminate.
        * exfalso. destruct lk as [[]|]; [destruct L as [_ X]|destruct L as [_ [X|[X|[X|X]]]]|destruct L as [_ X]]; discriminate X.
        * exfalso. destruct lk as [[]|]; [destruct L as [_ X]|destruct L as [_ [X|[X|[X|X]]]]|destruct L as [_ X]]; discriminate X.
        * assert (lk = Some Flusher /\ gp = Out) as [-> ->] by (destruct lk as [[]|]; [destruct L; discriminate|destruct L; auto|destruct L; discriminate]).
          cbn [flush_step]. expl. destruct q; split; unf; auto; discriminate.
        * assert (lk = Some Flusher /\ gp = Out) as [-> ->] by (destruct lk as [[]|]; [destruct L; discriminate|destruct L; auto|destruct L; discriminate]).
          cbn [flush_step]. expl. destruct cur as [id|]; [apply not_raises in R|]; split; unf; auto; try discriminate.
        * assert (lk = Some Flusher /\ gp = Out) as [-> ->] by (destruct lk as [[]|]; [destruct L; discriminate|destruct L; auto|destruct L; discriminate]).
          cbn [flush_step]. expl. split; unf; auto; try discriminate. destruct P as [P|(c & r & X & W & _)]; [auto|right; eauto 6].
        * assert (lk = Some Flusher /\ gp = Out) as [-> ->] by (destruct lk as [[]|]; [destruct L; discriminate|destruct L; auto|destruct L; discriminate]).
          cbn [flush_step]. expl. split; unf; auto; discriminate.
    - split; unf; auto.
  Qed.
  Lemma J_run sch : forall s, J s -> J (run' s sch).
  Proof. induction sch as [|m sch IH]; intros s H; [exact H|]. cbn. apply IH, J_step, H. Qed.
  Lemma wf_ops id ms r : wf (Some id) r -> wf (Some id) (flat_map (ops_of payload id) ms ++ r).
  Proof. intros W. induction ms as [|m ms IH]; [exact W|]. destruct m; cbn; repeat (constructor; [exact I || discriminate|]); try exact IH; constructor; exact IH. Qed.
  Lemma wf_history h : forall cur, wf cur (history_ops payload h).
  Proof.
    induction h as [|[id ms] h IH]; intros cur; [constructor|]. cbn. constructor. rewrite <- app_assoc. apply wf_ops. cbn. constructor. apply IH.
  Qed.
  Lemma J_init h : J (init _ (history_ops payload h)).
  Proof. split; unf; cbn; auto; try discriminate. left. apply wf_history. Qed.

  Lemma poisoned_bad s : poisoned sendable s <-> ~ allgood s.
  Proof.
    unfold poisoned, allgood. split.
    - intros (c & I & E) H. rewrite forallb_forall in H. rewrite (H c I) in E. discriminate.
    - intros H. induction (queue _ s) as [|c q IH]; [exfalso; apply H; reflexivity|]. cbn in H. destruct (sendable (info _ c)) eqn:E.
      + destruct IH as (c' & I & E'); [exact H|]. exists c'. split; [right; exact I|exact E'].
      + exists c. split; [left; reflexivity|exact E].
  Qed.
  Lemma poison_step s m : J s -> poisoned sendable s -> poisoned sendable (step' s m) /\ exists extra, wire _ (step' s m) = wire _ s ++ extra /\ Forall hollow extra.
  Proof.
    assert (N0 : forall (w : list (packet payload)), exists extra, w = w ++ extra /\ Forall hollow extra) by (intros w0; exists []; rewrite app_nil_r; split; [reflexivity|constructor]).
    intros [L P Fs] Po. assert (Ng := proj1 (poisoned_bad s) Po). destruct s as [q lk cur w gp pr fp]. unfold lockd, progd, allgood, poisoned in *. expl. destruct m as [| |n]; cbn [Site.step'].
    - expl. destruct (raises sendable gp _) eqn:R; [split; [exact Po|apply N0]|]. cbn [step]. unfold grader_step. expl. destruct pr as [|[c|c| |c] pr].
      + split; [exact Po|apply N0].
      + split; [exact Po|apply N0].
      + destruct gp; expl; try (split; [exact Po|apply N0]); [destruct lk; (split; [exact Po|apply N0])|]. split; [|apply N0].
        destruct Po as (c0 & I & E). exists c0. split; [apply in_app_iff; left; exact I|exact E].
      + destruct gp; cbn [flush_step]; expl; try (split; [exact Po|apply N0]).
        * destruct lk; (split; [exact Po|apply N0]).
        * destruct q; (split; [exact Po|apply N0]).
        * destruct P as (c & r & X & W & Hc). destruct cur as [id|]; [|congruence]. apply not_raises in R. congruence.
        * destruct P as (c & r & X & W & Hc). congruence.
      + destruct gp; try (destruct P as (? & ? & X & _); discriminate X). destruct P as [P|(c0 & r & X & W & Ag)]; [|congruence]. inversion P; subst.
        split; [exact Po|]. eexists. split; [reflexivity|]. constructor; [destruct c; try exact I; match goal with H : quiet _ |- _ => exact H end|constructor].
    - expl. destruct (raises sendable fp _) eqn:R; [split; [exact Po|apply N0]|]. cbn [step]. unfold flusher_step. expl. destruct fp; cbn [flush_step]; expl; try (split; [exact Po|apply N0]).
      + destruct lk; (split; [exact Po|apply N0]).
      + destruct q; (split; [exact Po|apply N0]).
      + destruct cur as [id|]; [apply not_raises in R; congruence|]. split; [exact Po|apply N0].
      + specialize (Fs eq_refl). congruence.
    - split; [exact Po|]. eexists. split; [reflexivity|]. constructor; [exact I|constructor].
  Qed.
  Lemma poison_run sch : forall s, J s -> poisoned sendable s -> poisoned sendable (run' s sch) /\ exists extra, wire _ (run' s sch) = wire _ s ++ extra /\ Forall hollow extra.
  Proof.
    induction sch as [|m sch IH]; intros s H Po.
    - split; [exact Po|]. exists []. rewrite app_nil_r. split; [reflexivity|constructor].
    - cbn. destruct (poison_step s m H Po) as (Po1 & e1 & E1 & F1). destruct (IH _ (J_step s m H) Po1) as (Po2 & e2 & E2 & F2).
      split; [exact Po2|]. exists (e1 ++ e2). unfold Site.run' in E2. rewrite E2, E1, app_assoc. split; [reflexivity|apply Forall_app; auto].
  Qed.
End Poison.

(** ** From the worker's messages *)
Section Worker.
  Context {float : Type}.
  Notation report := (report float).
  Definition opening (m : Worker.msg) : Prop := match m with Worker.CompileErr | Worker.CompileMessage | Worker.GradingBegin _ => True | _ => False end.
  Definition splits (l : list Worker.msg) : Prop := exists pre body, l = pre ++ body /\ Forall opening pre /\ Forall (fun m => ~ opening m) body.
  Lemma splits_prefix a b : splits (a ++ b) -> splits a.
  Proof.
    intros (pre & body & E & H & H'). revert pre body E H H'. induction a as [|m a IH]; intros pre body E H H'.
    - exists [], []. repeat split; constructor.
    - destruct pre as [|x pre].
      + cbn in E. subst body. exists [], (m :: a). split; [reflexivity|]. split; [constructor|]. change (m :: a ++ b) with ((m :: a) ++ b) in H'. apply Forall_app in H'. apply H'.
      + cbn in E. injection E as <- E. inversion H; subst. destruct (IH pre body E) as (p & q & -> & Hp & Hq); try assumption.
        exists (m :: p), q. split; [reflexivity|]. split; [constructor; assumption|exact Hq].
  Qed.
  Lemma case_not_opening m : Spec.Worker.case_message m -> ~ opening m.
  Proof. destruct m; cbn; auto. Qed.
  Lemma progress_splits body : Spec.Worker.in_progress body -> splits body.
  Proof.
    intros (rest & w & p & cs & E & H). apply (splits_prefix body rest). rewrite E. exists (Spec.Worker.preamble w p), cs. split; [reflexivity|]. split.
    - unfold Spec.Worker.preamble. destruct w; repeat constructor.
    - revert H. apply Forall_impl, case_not_opening.
  Qed.
  Lemma conveys_opening m i : conveys (float := float) m i -> (opening m <-> header i).
  Proof. destruct 1; cbn; tauto. Qed.
  Lemma conveys_case m i : conveys (float := float) m i -> (match m with Worker.CaseResult _ _ _ _ => True | _ => False end <-> is_case i).
  Proof. destruct 1; cbn; tauto. Qed.
  Lemma splits_told l told : splits l -> Forall2 (conveys (float := float)) l told ->
    exists pre body, told = pre ++ body /\ Forall header pre /\ Forall (fun m => ~ header m) body.
  Proof.
    intros (p & q & -> & Hp & Hq) F. apply Forall2_app_inv_l in F as (a & b & Fa & Fb & ->). exists a, b. split; [reflexivity|]. split.
    - clear -Fa Hp. induction Fa; [constructor|]. inversion Hp; subst. constructor; [apply (conveys_opening _ _ H); assumption|auto].
    - clear -Fb Hq. induction Fb; [constructor|]. inversion Hq; subst. constructor; [intros K; apply (conveys_opening _ _ H) in K; contradiction|auto].
  Qed.
  Notation greetless := (filter (fun m => match m with Worker.Hello => false | _ => true end)).
  Lemma greetless_body l : Spec.Worker.in_progress l -> greetless l = l.
  Proof.
    intros (rest & w & p & cs & E & H). assert (F : Forall (fun m => m <> Worker.Hello) (l ++ rest)).
    { rewrite E. apply Forall_app. split; [unfold Spec.Worker.preamble; destruct w; repeat constructor; discriminate|]. revert H. apply Forall_impl. intros m Hm ->. exact Hm. }
    apply Forall_app in F as [F _]. clear -F. induction F as [|m l Hm F IH]; [reflexivity|]. cbn. destruct m; try congruence; f_equal; exact IH.
  Qed.
  Lemma no_bye told (l : list Worker.msg) : Forall2 (conveys (float := float)) (greetless l) told -> ~ In Worker.Bye l.
  Proof.
    revert told; induction l as [|m l IH]; intros told F; [intros []|]. cbn in F. intros [->|I].
    - inversion F; subst. match goal with H : conveys _ _ |- _ => inversion H end.
    - destruct m; try (inversion F; subst; eapply IH; eassumption).
  Qed.
  Lemma handles_like stream ms : (Spec.Worker.finished_stream stream \/ exists body, stream = Worker.Hello :: body /\ Spec.Worker.in_progress body) ->
    handles (float := float) stream ms -> worker_like ms.
  Proof.
    intros St (part & rest & told & E & F & C).
    assert (Sp : splits (greetless part) /\ (rest = [Worker.Bye] -> greetless part = [] \/ greetless part = [Worker.CompileErr] \/ exists b t, greetless part = b ++ [t] /\ ~ opening t /\ (match t with Worker.CaseResult _ _ _ _ => False | _ => True end))).
    { destruct St as [(body & t & -> & T & Pr & Ce & _)|(body & -> & Pr)].
      - assert (G : greetless (Worker.Hello :: body ++ [t; Worker.Bye]) = body ++ [t; Worker.Bye]).
        { cbn. rewrite filter_app, (greetless_body _ Pr). destruct t; try destruct T; reflexivity. }
        assert (S0 : splits (body ++ [t])).
        { destruct t; try destruct T; [rewrite (Ce eq_refl); exists [Worker.CompileErr], []; repeat split; repeat constructor| | |];
            destruct (progress_splits _ Pr) as (p & q & -> & Hp & Hq); eexists p, (q ++ [_]); rewrite app_assoc; (split; [reflexivity|]); (split; [exact Hp|]); apply Forall_app; (split; [exact Hq|]); repeat constructor; intros []. }
        assert (K : exists more, body ++ [t] = greetless part ++ more /\ (rest = [Worker.Bye] -> more = [])).
        { pose proof (no_bye told part F) as Nb. assert (L : rest <> []). { intros ->. rewrite app_nil_r in E. apply Nb. rewrite <- E. right. apply in_app_iff. right. right. left. reflexivity. }
          destruct (exists_last L) as (r0 & z & Er). subst rest. change (Worker.Hello :: body ++ [t; Worker.Bye]) with (Worker.Hello :: (body ++ [t]) ++ [Worker.Bye]) in E || idtac.
          assert (E' : (Worker.Hello :: body ++ [t]) ++ [Worker.Bye] = (part ++ r0) ++ [z]) by (rewrite <- app_assoc, <- E; cbn; rewrite <- app_assoc; reflexivity).
          apply app_inj_tail in E' as (E1 & <-). exists (greetless r0). split.
          - rewrite <- filter_app, <- E1. cbn. rewrite filter_app, (greetless_body _ Pr). destruct t; try destruct T; reflexivity.
          - destruct r0; [reflexivity|]. intros X. apply (f_equal (@length _)) in X. rewrite app_length in X. cbn in X. lia. }
        destruct K as (more & K & Km). split; [apply (splits_prefix _ more); rewrite <- K; exact S0|]. intros R. rewrite (Km R), app_nil_r in K. rewrite <- K. right.
        destruct t; try destruct T; [left; rewrite (Ce eq_refl); reflexivity| | |]; right; eexists body, _; (split; [reflexivity|]); cbn; auto.
      - assert (K : exists more, body = greetless part ++ more).
        { pose proof (greetless_body _ Pr) as G. destruct part as [|m part]; [exists body; reflexivity|]. cbn in E. injection E as <- E. cbn. exists (greetless rest). rewrite <- filter_app, <- E, G. reflexivity. }
        destruct K as (more & K). split; [apply (splits_prefix _ more); rewrite <- K; apply progress_splits, Pr|].
        intros ->. exfalso. destruct Pr as (r1 & w & p & cs & Eb & H). assert (I : In Worker.Bye (Spec.Worker.preamble w p ++ cs)).
        { rewrite <- Eb. apply in_app_iff. left. destruct part as [|m part]; [discriminate E|]. cbn in E. injection E as _ ->. apply in_app_iff. right. left. reflexivity. }
        apply in_app_iff in I as [I|I]; [unfold Spec.Worker.preamble in I; destruct w; cbn in I; intuition discriminate|]. rewrite Forall_forall in H. exact (H _ I). }
    destruct Sp as [Sp En]. destruct (splits_told _ _ Sp F) as (pre & bd & -> & Hp & Hb). destruct C as [(R & ->)|(m & ->)].
    - exists pre, bd. split; [reflexivity|]. split; [exact Hp|]. split; [exact Hb|]. destruct bd as [|x bd0] eqn:Ebd; [left; reflexivity|right]. rewrite <- Ebd in *.
      destruct (En R) as [G|[G|(b & t & G & Ho & Hc)]]; rewrite G in F.
      + inversion F as [X|]. destruct pre; [|discriminate]. rewrite Ebd in *. discriminate.
      + inversion F as [|? y ? l Hy Fl X Y]; subst. inversion Fl; subst. inversion Hy; subst. destruct pre as [|z pre]; cbn in *.
        * match goal with H : [_] = _ |- _ => injection H as <- end. inversion Hb; subst. exfalso. match goal with H : ~ header _ |- _ => apply H; exact I end.
        * match goal with H : [_] = _ |- _ => injection H as <- H end. destruct pre; discriminate.
      + assert (L : bd <> []) by (rewrite Ebd; discriminate). destruct (exists_last L) as (b0 & y & ->). exists b0, y. split; [reflexivity|].
        apply Forall2_app_inv_l in F as (f1 & f2 & F1 & F2 & Ef). inversion F2 as [|? z ? l Hz Fl]; subst. inversion Fl; subst. rewrite app_assoc in Ef. apply app_inj_tail in Ef as (_ & ->).
        intros K. apply (conveys_case _ _ Hz) in K. destruct t; try contradiction.
    - exists pre, (bd ++ [IException _ m]). rewrite app_assoc. split; [reflexivity|]. split; [exact Hp|]. split; [apply Forall_app; split; [exact Hb|repeat constructor; intros []]|].
      right. exists bd, (IException _ m). split; [reflexivity|intros []].
  Qed.
End Worker.

(** ** News *)
Section News.
  Context {float : Type}.
  Variable repr : float -> bytes.
  Variable to_float : bytes -> float.
  Hypothesis Hf : faithful repr to_float.
  Notation value := (value float). Notation report := (report float).
  Variable other : nat -> list (text * value).
  Hypothesis Ho : forall n, packet_like (other n) /\ exists name, In (B "name", VStr _ name) (other n) /\ ~ In name (map (fun s => B s) news_names).

  (** What an event is to become. *)
  Inductive event_news : @event report -> news (float := float) -> Prop :=
  | en id m n : becomes id m n -> event_news (reported1 id m) n.
  Definition fit_event (e : @event report) : Prop :=
    match e with
    | CaseSeen _ _ r => fit_report r
    | ControlSeen (CompileError l | CompileMessage l | InternalError l) (Some _) => fit_said l
    | ControlSeen _ (Some _) => True
    | ControlSeen _ None => False
    end.
  Lemma fit_reported id m : fit_ipc m -> fit_event (reported1 id m).
  Proof. destruct m; cbn; auto. Qed.

  Lemma said_packet l : fit_said l -> packet_value (said_value float l).
  Proof. destruct l; cbn; [|auto]. intros H. split; apply ev_other; try exact I. exact H. Qed.
  Lemma plain_text t : forallb (fun c => (c <? 0xD800)%N) t = true -> sound_text t.
  Proof.
    intros H. apply Proofs.Json.scalar_sound. apply Forall_forall. intros c Hc. rewrite forallb_forall in H. specialize (H c Hc). left. apply N.ltb_lt. exact H.
  Qed.
  Lemma scalar_fit (v : value) : match v with VNull _ | VBool _ _ | VInt _ _ => True | _ => False end -> fit v.
  Proof. destruct v; try contradiction; intros _; split; apply ev_other; exact I. Qed.
  Lemma fit_list (vs : list value) : Forall fit vs -> fit (VList _ vs).
  Proof. intros H. split; apply ev_list; try exact I; revert H; apply Forall_impl; intros v Hv; apply Hv. Qed.
  Lemma fit_dict (d : list (text * value)) : NoDup (map fst d) -> Forall (fun kv => sound_text (fst kv)) d -> Forall (fun kv => fit (snd kv)) d -> fit (VDict _ d).
  Proof.
    intros N S H. split; apply ev_dict; try exact I; try (revert H; apply Forall_impl; intros v Hv; apply Hv). split; assumption.
  Qed.
  Lemma case_fit (c : case report) : fit_report (info _ c) -> fit (case_dict float c).
  Proof.
    unfold fit_report, case_dict. intros H. repeat match goal with H : Forall _ (_ :: _) |- _ => inversion H; clear H; subst end.
    apply fit_dict.
    - cbn [map fst]. apply (NoDup_count_occ' (list_eq_dec N.eq_dec)). intros x I. cbn [In] in I.
      repeat (destruct I as [<-|I]; [vm_compute; reflexivity|]). destruct I.
    - repeat (apply Forall_cons; [apply plain_text; reflexivity|]). apply Forall_nil.
    - repeat (apply Forall_cons; [cbn [snd]; first [assumption|apply scalar_fit; exact I]|]). apply Forall_nil.
  Qed.
  Lemma sendable_fit r : fit_report r -> sendable_report float repr r = true.
  Proof.
    intros H. unfold sendable_report. pose proof (proj1 (case_fit (Case _ 0 0 r) H)) as E. apply (Proofs.Json.dumps_total repr) in E as (t & ->). reflexivity.
  Qed.

  Lemma cases_tell id (cs : list (case report)) : exists ns, Forall2 case_tells (map (case_dict float) cs) ns /\
    Forall2 event_news (map (fun c => CaseSeen id (position _ c) (info _ c)) cs) (map (NCase (Z.of_nat id)) ns).
  Proof.
    induction cs as [|c cs (ns & F & E)]; [exists []; split; constructor|].
    eexists (_ :: ns). cbn [map]. split; constructor; try exact F; try exact E.
    - apply ct.
    - exact (en id (IResult _ (position _ c) (info _ c)) _ (b_result id (position _ c) (info _ c))).
  Qed.
  Lemma other_clean d name : In (B "name", VStr _ name) d -> In (B "name", VStr float name) (clean float d).
  Proof. intros I. unfold clean. apply in_map_iff. exists (B "name", VStr _ name). split; [reflexivity|exact I]. Qed.
  Ltac nodup := apply (NoDup_count_occ' (list_eq_dec N.eq_dec)); intros x I; cbn [In] in I; repeat (destruct I as [<-|I]; [vm_compute; reflexivity|]); destruct I.
  Lemma heard_said l : heard l (match said_value float l with VBytes _ b => utf8text_replace b | VStr _ s => s | _ => [] end).
  Proof. destruct l; cbn; [reflexivity|]. split; [apply Proofs.Utf8.replace_scalar|]. intros t. apply Proofs.Utf8.replace_valid. Qed.
  Lemma named_like name id rest : forallb (fun c => (c <? 0xD800)%N) (B name) = true -> NoDup (map fst (named float name id rest)) ->
    Forall (fun kv => sound_text (fst kv) /\ packet_value (snd kv)) rest -> packet_like (named float name id rest).
  Proof.
    intros H N F. split; [exact N|]. unfold named. constructor; [split; [apply plain_text; reflexivity|]|constructor; [split; [apply plain_text; reflexivity|]|exact F]].
    - cbn [snd]. split; apply ev_other; try exact I. apply plain_text, H.
    - cbn [snd]. split; apply ev_other; exact I.
  Qed.
  Lemma cases_value vs : Forall fit vs -> packet_value (VList float vs).
  Proof. apply fit_list. Qed.

  (** One packet: it can be written, and what is read tells what it reports. *)
  Lemma packet_news (p : packet report) : Forall fit_event (seen p) ->
    exists d t q ns, packet_dict float other p = Some d /\ packet_text float repr d = Some t /\ Forall (fun c => (32 <= c <= 126)%N) t /\
      loads float to_float t = Some (VDict _ q) /\ tells q ns /\ Forall2 event_news (seen p) ns.
  Proof.
    intros H.
    assert (K : forall d, packet_like d -> exists t, packet_text float repr d = Some t /\ Forall (fun c => (32 <= c <= 126)%N) t /\ loads float to_float t = Some (VDict _ (clean float d))).
    { intros d Hd. assert (Ex : exists t, packet_text float repr d = Some t).
      { apply (Proofs.Json.packet_some repr to_float Hf). destruct Hd as [_ Hd]. revert Hd. apply Forall_impl. intros [k v] [_ Hv]. cbn [snd] in *. destruct v; try exact (proj1 Hv); exact I. }
      destruct Ex as (t & Et). unfold packet_text in Et. destruct (dumps float repr (VDict float (clean float d))) as [t'|] eqn:D; [|discriminate].
      pose proof (Proofs.Json.dumps_plain repr _ (fun f => proj1 (Hf f)) t' D) as Pl. rewrite (proj1 (Proofs.Json.plain_utf8 t' Pl)) in Et. injection Et as <-.
      exists t'. split; [unfold packet_text; rewrite D; apply Proofs.Json.plain_utf8, Pl|]. split; [exact Pl|].
      apply Proofs.Json.loads_iff, Proofs.Json.json_whole. apply (Proofs.Json.written repr to_float Hf true _ (Proofs.Json.clean_sound d Hd) (or_introl eq_refl) t' D). }
    assert (K2 : forall d, packet_dict float other p = Some d -> packet_like d -> (exists ns, tells (clean float d) ns /\ Forall2 event_news (seen p) ns) ->
      exists d t q ns, packet_dict float other p = Some d /\ packet_text float repr d = Some t /\ Forall (fun c => (32 <= c <= 126)%N) t /\
        loads float to_float t = Some (VDict _ q) /\ tells q ns /\ Forall2 event_news (seen p) ns).
    { intros d Ed Hd (ns & T & E). destruct (K d Hd) as (t & Et & Pl & Lo). exists d, t, (clean float d), ns. auto 9. }
    destruct p as [id cs|c [id|]|n].
    - eapply K2; [reflexivity| |].
      + apply named_like; [reflexivity|nodup|]. constructor; [split; [apply plain_text; reflexivity|]|constructor]. cbn [snd]. apply cases_value.
        cbn [seen] in H. clear -H. induction cs as [|c cs IH]; [constructor|]. inversion H; subst. constructor; [apply case_fit; assumption|apply IH; assumption].
      + destruct (cases_tell id cs) as (ns & F & E). exists (map (NCase (Z.of_nat id)) ns). split; [|exact E]. apply t_cases. exact F.
    - cbn [seen] in H. inversion H as [|? ? H1 _]; subst. cbn [fit_event] in H1.
      destruct c as [l|l|l|b| | | |]; (eapply K2; [reflexivity| |]); cbn [control_dict];
        try (apply named_like; [reflexivity|nodup|]; first [apply Forall_nil|apply Forall_cons; [split; [apply plain_text; reflexivity|cbn [snd]; first [apply said_packet, H1|apply scalar_fit; exact I]]|apply Forall_nil]]).
      + pose proof (heard_said l) as Hs. destruct l as [s|s]; cbn [said_value] in Hs; eexists; (split; [apply t_compile_error|constructor; [|constructor]]); exact (en id (ICompileError _ _) _ (b_compile_error id _ _ Hs)).
      + pose proof (heard_said l) as Hs. destruct l as [s|s]; cbn [said_value] in Hs; eexists; (split; [apply t_compile_message|constructor; [|constructor]]); exact (en id (ICompileMessage _ _) _ (b_compile_message id _ _ Hs)).
      + pose proof (heard_said l) as Hs. destruct l as [s|s]; cbn [said_value] in Hs; eexists; (split; [apply t_internal_error|constructor; [|constructor]]); exact (en id (IException _ _) _ (b_exception id _ _ Hs)).
      + eexists. split; [apply t_begin|]. constructor; [|constructor]. exact (en id (IGradingBegin _ _) _ (b_begin id b)).
      + eexists. split; [apply t_end|]. constructor; [|constructor]. exact (en id (IGradingEnd _) _ (b_end id)).
      + eexists. split; [apply t_batch_begin|]. constructor; [|constructor]. exact (en id (IBatchBegin _) _ (b_batch_begin id)).
      + eexists. split; [apply t_batch_end|]. constructor; [|constructor]. exact (en id (IBatchEnd _) _ (b_batch_end id)).
      + eexists. split; [apply t_aborted|]. constructor; [|constructor]. exact (en id (IGradingAborted _) _ (b_aborted id)).
    - cbn [seen] in H. inversion H as [|? ? H1 _]; subst. destruct c; destruct H1.
    - destruct (Ho n) as (L & name & I & Nn). eapply K2; [reflexivity|exact L|]. exists []. split; [|constructor]. apply (t_other _ name); [apply other_clean, I|exact Nn].
  Qed.
  Lemma wire_news (w : list (packet report)) : Forall fit_event (all_seen w) ->
    exists ts qs nss, Forall2 (fun p t => exists d, packet_dict float other p = Some d /\ packet_text float repr d = Some t) w ts /\
      Forall (Forall (fun c => (32 <= c <= 126)%N)) ts /\ Forall2 (fun t q => loads float to_float t = Some (VDict _ q)) ts qs /\ Forall2 tells qs nss /\
      Forall2 event_news (all_seen w) (concat nss).
  Proof.
    induction w as [|p w IH]; intros H; [exists [], [], []; repeat split; constructor|]. cbn [all_seen flat_map] in H. apply Forall_app in H as [H1 H2].
    destruct (packet_news p H1) as (d & t & q & ns & A1 & A2 & A3 & A4 & A5 & A6). destruct (IH H2) as (ts & qs & nss & B1 & B2 & B3 & B4 & B5).
    exists (t :: ts), (q :: qs), (ns :: nss). split; [constructor; [eauto|exact B1]|]. split; [constructor; assumption|]. split; [constructor; assumption|]. split; [constructor; assumption|].
    cbn [all_seen flat_map concat]. apply Forall2_app; assumption.
  Qed.
  Lemma reported_all (h : list (nat * list (ipc report))) : reported h = map (fun im => reported1 (fst im) (snd im)) (all_reports h).
  Proof. unfold reported, all_reports. clear. induction h as [|[id ms] h IH]; [reflexivity|]. cbn. rewrite map_app, IH. f_equal. rewrite map_map. reflexivity. Qed.
  Lemma reported1_inj id m id' m' : reported1 (payload := report) id m = reported1 id' m' -> id = id' /\ m = m'.
  Proof. destruct m, m'; cbn; intros E; try discriminate E; inversion E; auto. Qed.
  Lemma event_becomes (l : list (nat * ipc report)) ns : Forall2 event_news (map (fun im => reported1 (fst im) (snd im)) l) ns ->
    Forall2 (fun im n => becomes (fst im) (snd im) n) l ns.
  Proof.
    revert ns; induction l as [|[id m] l IH]; intros ns F; inversion F as [|? n ? ns' E Fn]; subst; constructor; [|apply IH; assumption]. cbn [fst snd] in *.
    inversion E as [id0 m0 n0 Bm Er En]. apply reported1_inj in Er as (-> & ->). exact Bm.
  Qed.
End News.
