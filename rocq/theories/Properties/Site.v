(** C94, C95: what reaches the site. *)
From Coq Require Import String ZArith NArith QArith List Bool Arith Lia.
From Verif Require Import Model.Bytes Model.Utf8 Model.Json Model.Packets Model.Site Spec.Json Spec.Packets Spec.Site.
From Verif Require Model.Worker Spec.Worker Proofs.Worker Proofs.Packets Proofs.Json Proofs.Site Properties.Json.
Import ListNotations.
Local Open Scope nat_scope.
Local Open Scope list_scope.

(** ** C94 *)
(** What the judge makes of a worker's stream, however the grading went and wherever the judge stopped listening,
    has the shape for which the queue loses nothing (C19). *)
Theorem C94_stream {float} grade abort_at short set send (ms : list (ipc (report float))) :
  handles (Worker.worker_stream send (Worker.grade_cases grade abort_at short set)) ms -> worker_like ms.
Proof.
  apply Proofs.Site.handles_like. destruct (Proofs.Worker.stream grade abort_at short set send) as [H|(body & i & E & H & _)]; [left; exact H|right; eauto].
Qed.

Section Site.
  Context {float : Type}.
  Variable repr : float -> bytes.
  Variable to_float : bytes -> float.
  Hypothesis repr_exact : faithful repr to_float.
  (** zlib *)
  Variable compress : bytes -> bytes.
  Variable decompress : bytes -> option bytes.
  Hypothesis zlib_exact : forall b, decompress (compress b) = Some b.
  (** What other threads send is no news of a grading. *)
  Variable other : nat -> list (text * value float).
  Hypothesis others : forall n, packet_like (other n) /\ exists name, In (B "name", VStr _ name) (other n) /\ ~ In name (map (fun s => B s) news_names).
  Variable traceback : said.
  Definition unzip (b : bytes) : decoded bytes := match decompress b with Some t => Message t | None => ZlibError end.

  (** At every moment of every interleaving of the threads, and however the bytes are cut on their way: what the site reads
      tells it exactly what the workers reported so far, in order, under the right submissions, and all of it once
      the grading thread is done. *)
  Theorem C94_site (h : list (nat * list (ipc (report float)))) schedule :
    Forall (fun sm => exists grade abort_at short set send, handles (Worker.worker_stream send (Worker.grade_cases grade abort_at short set)) (snd sm)) h ->
    Forall (fun sm => Forall fit_ipc (snd sm)) h ->
    let s := run' (sendable_report float repr) traceback (init _ (history_ops _ h)) schedule in
    exists texts dicts tidings told missing,
      Forall2 (fun p t => exists d, packet_dict float other p = Some d /\ packet_text float repr d = Some t) (wire _ s) texts /\
      (forall chunks fuel, concat chunks = framed compress texts -> length texts < fuel ->
         read_all bytes unzip fuel ([], chunks) = (texts, Some Reconnect)) /\
      Forall2 (fun t d => loads float to_float t = Some (VDict _ d)) texts dicts /\
      Forall2 tells dicts tidings /\
      all_reports h = told ++ missing /\ Forall2 (fun im n => becomes (fst im) (snd im) n) told (concat tidings) /\
      (program _ s = [] -> missing = []).
  Proof.
    intros Hh Hfit s.
    assert (WL : Forall (fun sm : nat * list (ipc (report float)) => worker_like (snd sm)) h).
    { revert Hh. apply Forall_impl. intros [id ms] (g & a & sh & st & sn & H). exact (C94_stream g a sh st sn ms H). }
    assert (Sd : Forall (fun sm : nat * list (ipc (report float)) => Forall (fun r => sendable_report float repr r = true) (results (snd sm))) h).
    { revert Hfit. apply Forall_impl. intros [id ms]. cbn [snd]. intros H. unfold results. apply Forall_forall. intros r I. apply in_flat_map in I as (m & Im & Ir).
      rewrite Forall_forall in H. specialize (H m Im). destruct m; try destruct Ir as [<-|[]]; try destruct Ir. apply (Proofs.Site.sendable_fit repr), H. }
    assert (Es : s = run _ (init _ (history_ops _ h)) schedule) by (apply Proofs.Site.fine_run, Proofs.Site.fine_init, Sd).
    destruct (Proofs.Packets.queue_prefix _ h schedule WL) as (c & Ec). pose proof (Proofs.Packets.queue_done _ h schedule WL) as Qd. cbv zeta in Qd. rewrite <- Es in Ec, Qd.
    assert (Fe : Forall Proofs.Site.fit_event (reported h)).
    { apply Forall_forall. intros e I. unfold reported in I. apply in_flat_map in I as ([id ms] & Ih & Ie). apply in_map_iff in Ie as (m & <- & Im).
      apply Proofs.Site.fit_reported. rewrite Forall_forall in Hfit. specialize (Hfit _ Ih). rewrite Forall_forall in Hfit. exact (Hfit m Im). }
    rewrite Ec in Fe. apply Forall_app in Fe as [Fe _].
    destruct (Proofs.Site.wire_news repr to_float repr_exact other others (wire _ s) Fe) as (ts & qs & nss & A1 & _ & A3 & A4 & A5).
    rewrite Proofs.Site.reported_all in Ec. symmetry in Ec. symmetry in Ec. apply map_eq_app in Ec as (told & missing & E1 & E2 & E3).
    exists ts, qs, nss, told, missing. split; [exact A1|]. split.
    { intros chunks fuel Ech Hl. apply (Proofs.Packets.framing bytes compress unzip); try assumption. intros m. unfold unzip. rewrite zlib_exact. reflexivity. }
    split; [exact A3|]. split; [exact A4|]. split; [exact E1|]. split.
    { apply Proofs.Site.event_becomes. rewrite E2. exact A5. }
    intros P. destruct (Qd P) as (Eq & _). rewrite Proofs.Site.reported_all, E1, map_app, E2 in Eq. rewrite <- (app_nil_r (all_seen (wire _ s))) in Eq at 1. apply app_inv_head in Eq.
    destruct missing; [reflexivity|discriminate].
  Qed.

  (** And from every moment the grading thread can get done. *)
  Theorem C94_can_finish (h : list (nat * list (ipc (report float)))) schedule :
    Forall (fun sm => exists grade abort_at short set send, handles (Worker.worker_stream send (Worker.grade_cases grade abort_at short set)) (snd sm)) h ->
    Forall (fun sm => Forall fit_ipc (snd sm)) h ->
    exists more, program _ (run' (sendable_report float repr) traceback (init _ (history_ops _ h)) (schedule ++ more)) = [].
  Proof.
    intros Hh Hfit.
    assert (WL : Forall (fun sm : nat * list (ipc (report float)) => worker_like (snd sm)) h).
    { revert Hh. apply Forall_impl. intros [id ms] (g & a & sh & st & sn & H). exact (C94_stream g a sh st sn ms H). }
    destruct (Proofs.Packets.queue_can_finish _ h schedule WL) as (more & E). exists more. rewrite <- E. f_equal.
    apply Proofs.Site.fine_run, Proofs.Site.fine_init. revert Hfit. apply Forall_impl. intros [id ms]. cbn [snd]. intros H. unfold results.
    apply Forall_forall. intros r I. apply in_flat_map in I as (m & Im & Ir).
    rewrite Forall_forall in H. specialize (H m Im). destruct m; try destruct Ir as [<-|[]]; try destruct Ir. apply (Proofs.Site.sendable_fit repr), H.
  Qed.

  (** ** C95 *)
  Variable payload : Type.
  Variable sendable : payload -> bool.
  (** As long as every result can be sent, the threads do what C19 says of them. *)
  Theorem C95_same (h : list (nat * list (ipc payload))) schedule :
    Forall (fun sm => Forall (fun r => sendable r = true) (results (snd sm))) h ->
    run' sendable traceback (init _ (history_ops _ h)) schedule = run _ (init _ (history_ops _ h)) schedule.
  Proof. intros H. apply Proofs.Site.fine_run, Proofs.Site.fine_init, H. Qed.
  (** As coded, from the moment a result that cannot be sent is in the queue, it stays there, and the site is told nothing more than that
      gradings begin and what compilers say: no result, no end, no internal error, of this or any later submission. *)
  Theorem C95_stuck (h : list (nat * list (ipc payload))) before after :
    let s := run' sendable traceback (init _ (history_ops _ h)) before in
    poisoned sendable s ->
    let s' := run' sendable traceback s after in
    poisoned sendable s' /\ exists extra, wire _ s' = wire _ s ++ extra /\ Forall hollow extra.
  Proof. intros s H. apply Proofs.Site.poison_run; [apply Proofs.Site.J_run, Proofs.Site.J_init|exact H]. Qed.
End Site.

(** ** Cases *)
(** Three submissions: one graded, one that does not compile, one whose worker died while running a case. *)
Definition ex_report (st : Z) (fb : value N) : report N :=
  Report _ st (VFloat _ 2%N) (VInt _ 5%Z) (VInt _ 5%Z) (VInt _ 1024%Z) (VStr _ (B "ok")) (VStr _ []) fb.
Definition ex_set := Worker.Compiled true true (Some [Worker.CfgCase 5; Worker.CfgBatch [7%Q]]).
Definition ex_worker (c : Worker.test_case) : Worker.grade_ret := Worker.GResult 0 (Worker.case_points c).
Definition ex_stream := Worker.worker_stream (fun _ => Worker.Sent) (Worker.grade_cases ex_worker None false ex_set).
Definition ex_history : list (nat * list (ipc (report N))) :=
  [(7, [ICompileMessage _ (Bytes [233%N]); IGradingBegin _ true; IResult _ 1 (ex_report 0 (VStr _ (B "good"))); IBatchBegin _;
        IResult _ 2 (ex_report 0 (VNull _)); IBatchEnd _; IGradingEnd _]);
   (8, [ICompileError _ (Str (B "error"))]);
   (9, [ICompileMessage _ (Str []); IGradingBegin _ true; IException _ (Str (B "worker died"))])].
Definition ex_other (n : nat) : list (text * value N) := [(B "name", VStr _ (B "ping-response")); (B "when", VInt _ (Z.of_nat n))].
Definition ex_unsendable : report N := ex_report 0 (VBytes _ (B "good")).

Lemma sound_plain s : forallb (fun c => (c <? 0xD800)%N) s = true -> sound_text s.
Proof.
  intros H. apply Proofs.Json.scalar_sound. apply Forall_forall. intros c I. rewrite forallb_forall in H. left. apply N.ltb_lt, (H c I).
Qed.
Example C94_hypotheses :
  Forall (fun sm => exists grade abort_at short set send, handles (Worker.worker_stream send (Worker.grade_cases grade abort_at short set)) (snd sm)) ex_history /\
  Forall (fun sm => Forall fit_ipc (snd sm)) ex_history /\ faithful Properties.Json.ex_repr Properties.Json.ex_float /\
  (forall b : bytes, Some (id b) = Some b) /\
  (forall n, packet_like (ex_other n) /\ exists name, In (B "name", VStr _ name) (ex_other n) /\ ~ In name (map (fun s => B s) news_names)).
Proof.
  assert (T : forall s, forallb (fun c => (c <? 0xD800)%N) s = true -> fit (VStr N s)).
  { intros s H. split; apply ev_other; cbn; try exact I. apply sound_plain, H. }
  assert (R : forall st fb, fit fb -> fit_report (ex_report st fb)).
  { intros st fb H. unfold fit_report, ex_report; cbn [r_time r_points r_total r_memory r_output r_extended r_feedback].
    repeat first [apply Forall_nil|apply Forall_cons; [first [exact H|apply T; reflexivity|split; apply ev_other; exact I]|]]. }
  split; [|split; [|split; [exact Properties.Json.C93_faithful_case|split; [reflexivity|]]]].
  - apply Forall_cons; [|apply Forall_cons; [|apply Forall_cons; [|apply Forall_nil]]]; cbn [snd].
    + exists ex_worker, None, false, ex_set, (fun _ => Worker.Sent). eexists (removelast ex_stream), [Worker.Bye], _. split; [reflexivity|].
      split; [|left; split; reflexivity]. vm_compute. repeat constructor.
    + exists ex_worker, None, false, Worker.CompileFails, (fun _ => Worker.Sent). eexists [Worker.Hello; Worker.CompileErr], [Worker.Bye], _. split; [reflexivity|].
      split; [|left; split; reflexivity]. repeat constructor.
    + exists ex_worker, None, false, ex_set, (fun _ => Worker.Sent). exists (firstn 3 ex_stream), (skipn 3 ex_stream), [ICompileMessage _ (Str []); IGradingBegin _ true]. split; [reflexivity|].
      split; [|right; eexists; reflexivity]. vm_compute. repeat constructor.
  - unfold ex_history.
    repeat match goal with
    | |- Forall _ [] => apply Forall_nil
    | |- Forall _ (_ :: _) => apply Forall_cons
    | |- fit_ipc (IResult _ _ (ex_report _ (VStr _ _))) => apply R, T; reflexivity
    | |- fit_ipc (IResult _ _ (ex_report _ _)) => apply R; split; apply ev_other; exact I
    | |- fit_ipc (ICompileMessage _ (Bytes _)) => exact I
    | |- fit_ipc (ICompileMessage _ _) => apply sound_plain; reflexivity
    | |- fit_ipc (ICompileError _ _) => apply sound_plain; reflexivity
    | |- fit_ipc (IException _ _) => apply sound_plain; reflexivity
    | |- fit_ipc _ => exact I
    | _ => progress cbn [snd]
    end.
  - intros n. split.
    + split; [repeat constructor; cbn; intuition discriminate|]. repeat first [apply Forall_nil|apply Forall_cons; [split; [apply sound_plain; reflexivity|]|]].
      * apply (T (B "ping-response")). reflexivity.
      * split; apply ev_other; exact I.
    + exists (B "ping-response"). split; [left; reflexivity|]. intros J. cbn in J. repeat destruct J as [J|J]; try discriminate J. exact J.
Qed.
(** The packets of that history under one schedule, with the first two as text. *)
Example C94_case :
  let s := run' (sendable_report N Properties.Json.ex_repr) (Str []) (init _ (history_ops _ ex_history)) (repeat G 6 ++ [F; F; F; F; F; Net 0] ++ repeat G 60) in
  program _ s = [] /\ length (wire _ s) = 12 /\
  map (fun p => match packet_dict N ex_other p with Some d => packet_text N Properties.Json.ex_repr d | None => None end) (firstn 4 (wire _ s)) =
  map Some [B "{""name"": ""compile-message"", ""submission-id"": 7, ""log"": ""\ufffd""}";
            B "{""name"": ""grading-begin"", ""submission-id"": 7, ""pretested"": true}";
            B "{""name"": ""test-case-status"", ""submission-id"": 7, ""cases"": [{""position"": 1, ""status"": 0, ""time"": 2.0, ""points"": 5, ""total-points"": 5, ""memory"": 1024, ""output"": ""ok"", ""extended-feedback"": """", ""feedback"": ""good""}]}";
            B "{""name"": ""ping-response"", ""when"": 0}"].
Proof. cbv zeta. split; [vm_compute; reflexivity|]. split; vm_compute; reflexivity. Qed.

(** A result whose feedback is bytes, and after it the three submissions above: the threads finish their programs, the result is still queued, and
    of all that was reported only what compilers say and the beginnings arrive. *)
Theorem C95_later_submissions_refuted : exists schedule,
  let s := run' (sendable_report N Properties.Json.ex_repr) (Str (B "traceback"))
             (init _ (history_ops _ ((6, [IGradingBegin _ true; IResult _ 1 ex_unsendable; IGradingEnd _]) :: ex_history))) schedule in
  program _ s = [] /\ lock _ s = None /\ poisoned (sendable_report N Properties.Json.ex_repr) s /\
  wire _ s = [Control _ (GradingBegin true) (Some 6); Control _ (CompileMessage (Bytes [233%N])) (Some 7); Control _ (GradingBegin true) (Some 7);
              Control _ (CompileError (Str (B "error"))) (Some 8); Control _ (CompileMessage (Str [])) (Some 9); Control _ (GradingBegin true) (Some 9)].
Proof.
  exists (repeat G 20 ++ repeat F 5 ++ repeat G 80). split; [vm_compute; reflexivity|]. split; [vm_compute; reflexivity|]. split; [|vm_compute; reflexivity].
  exists (Case _ 6 1 ex_unsendable). split; [|vm_compute; reflexivity].
  match goal with |- In _ ?q => let r := eval vm_compute in q in change q with r end. left. reflexivity.
Qed.
Example C95_same_case : Forall (fun sm => Forall (fun r => sendable_report N Properties.Json.ex_repr r = true) (results (snd sm))) ex_history.
Proof. repeat constructor. Qed.
Example C95_stuck_case : poisoned (sendable_report N Properties.Json.ex_repr)
  (run' (sendable_report N Properties.Json.ex_repr) (Str []) (init _ (history_ops _ [(6, [IGradingBegin _ true; IResult _ 1 ex_unsendable; IGradingEnd _])])) (repeat G 4)).
Proof.
  exists (Case _ 6 1 ex_unsendable). split; [|vm_compute; reflexivity].
  match goal with |- In _ ?q => let r := eval vm_compute in q in change q with r end. left. reflexivity.
Qed.

Print Assumptions C94_stream.
Print Assumptions C94_site.
Print Assumptions C94_can_finish.
Print Assumptions C95_same.
Print Assumptions C95_stuck.
Print Assumptions C95_later_submissions_refuted.
