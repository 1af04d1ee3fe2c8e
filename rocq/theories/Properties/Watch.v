(** C51, C68: asking for problem updates over HTTP and through the file system monitor. *)
From Coq Require Import String.
From Verif Require Import Model.Bytes Model.Judge Model.Watch.
From Verif Require Import Spec.Judge Spec.Watch.
From Verif Require Proofs.BytesLemmas Proofs.Judge Proofs.Watch.
Local Open Scope nat_scope.
Local Open Scope list_scope.

(** ** C51 *)
(** Only a POST to exactly the update path is answered 200 and asks for an update, once;
    every other request asks for none and is refused. *)
Theorem C51_update judge r : method r = B "POST" -> path r = B "/update/problems" ->
  handle judge r = Answer 200 (B "As you wish.") (if judge then 1 else 0).
Proof. intros H1 H2. unfold handle. rewrite H1, H2. reflexivity. Qed.
Theorem C51_refused judge r : ~ (method r = B "POST" /\ path r = B "/update/problems") ->
  updates (handle judge r) = 0 /\ body (handle judge r) = [] /\
  status (handle judge r) = (if list_eq_dec N.eq_dec (method r) (B "POST") then 404
                             else if list_eq_dec N.eq_dec (method r) (B "GET") then 404 else 501).
Proof.
  intros H. unfold handle.
  destruct (Proofs.BytesLemmas.beqb_spec (method r) (B "POST")) as [E|N]; destruct (list_eq_dec _ (method r) (B "POST")); try congruence.
  - destruct (Proofs.BytesLemmas.beqb_spec (path r) (B "/update/problems")) as [E'|]; [destruct (H (conj E E'))|]. repeat split.
  - destruct (Proofs.BytesLemmas.beqb_spec (method r) (B "GET")) as [E|N']; destruct (list_eq_dec _ (method r) (B "GET")); try congruence; repeat split.
Qed.
(** An accepted request is served: a problem list read after it is sent, whatever else
    happens, once the updater has made five moves. *)
Theorem C51_served fails r before after : (forall k, fails k = false) ->
  method r = B "POST" -> path r = B "/update/problems" ->
  ~ In Murder before -> ~ In Murder after -> 5 <= updater_moves after ->
  let s := urun fails uinit (before ++ repeat Notify (updates (handle true r))) in
  resent (version s) s (urun fails s after).
Proof.
  intros F H1 H2 M1 M2 L. rewrite (C51_update true r H1 H2). exact (Proofs.Judge.update_sent fails F before after M1 M2 L).
Qed.
Example C51_ex : handle true (Request (B "POST") (B "/update/problems")) = Answer 200 (B "As you wish.") 1 /\
  handle true (Request (B "GET") (B "/update/problems")) = Answer 404 [] 0 /\
  handle true (Request (B "POST") (B "/update/problems/")) = Answer 404 [] 0 /\
  handle true (Request (B "PUT") (B "/update/problems")) = Answer 501 [] 0.
Proof. repeat split. Qed.

(** ** C68 *)
Definition worker_moves (ms : list rmove) : nat := length (filter (fun m => match m with R => true | _ => false end) ms).
Definition no_stop (ms : list rmove) : Prop := ~ In StopA ms /\ ~ In StopB ms.

(** After a refresh is asked for, every url is pinged by a ping begun later, once the
    thread has made twice as many moves as there are urls, and four, however they
    interleave with further requests. *)
Theorem C68_pinged urls before after : no_stop before -> no_stop after -> 2 * length urls + 4 <= worker_moves after ->
  let s := rrun urls rinit (before ++ [Refresh]) in told urls (pinged (rrun urls s after)) (asked s).
Proof. exact (Proofs.Watch.pinged_after urls before after). Qed.
(** The thread never goes to sleep with a request unserved. *)
Theorem C68_never_forgotten urls before after : no_stop before -> no_stop after ->
  let s := rrun urls rinit (before ++ [Refresh]) in let s' := rrun urls s after in
  rph s' = RWait -> trigger s' = false -> told urls (pinged s') (asked s).
Proof. exact (Proofs.Watch.never_forgotten urls before after). Qed.
(** Pings come in full rounds over the urls, in order, no more rounds than requests. *)
Theorem C68_rounds urls ms : ~ In StopB ms -> let s := rrun urls rinit ms in
  in_rounds urls (map fst (pinged s)) /\ length (pinged s) <= asked s * length urls.
Proof. exact (Proofs.Watch.rounds urls ms). Qed.
(** After a stop the thread ends, finishing at most the round it is in. *)
Theorem C68_stops urls before mid after : length urls + 4 <= worker_moves after ->
  rph (rrun urls rinit (before ++ [StopA] ++ mid ++ [StopB] ++ after)) = RExited.
Proof. exact (Proofs.Watch.stops urls before mid after). Qed.
Theorem C68_stops_soon urls before after : let s := rrun urls rinit (before ++ [StopA]) in
  length (pinged (rrun urls s after)) <= length (pinged s) + length urls.
Proof. exact (Proofs.Watch.no_more_than_a_round urls before after). Qed.
(** No ping ever reaches a server: the request is given a text body, which urllib refuses. *)
Theorem C68_delivered_refuted : request_sent ping_data = false.
Proof. reflexivity. Qed.

(** Before the judge says what to call, a change only asks for pings. *)
Theorem C68_before inside has_observer pings watches f :
  file_event inside (new_monitor has_observer pings watches) f =
  if has_observer && existsb (fun d => inside d f) watches && pings then [CallRefresh] else [].
Proof. unfold file_event. destruct has_observer, pings; cbn; destruct (existsb (fun d => inside d f) watches); reflexivity. Qed.
(** A change in a watched directory calls the judge's update, then asks for pings if any
    are configured; a monitor without an observer does nothing. *)
Theorem C68_events inside has_observer pings watches f :
  let m := set_callback (new_monitor has_observer pings watches) in
  (has_observer = true -> (exists d, In d watches /\ inside d f = true) ->
     file_event inside m f = CallBack :: (if pings then [CallRefresh] else [])) /\
  (has_observer = false \/ (forall d, In d watches -> inside d f = false) -> file_event inside m f = []).
Proof.
  split.
  - intros -> H. unfold file_event. cbn. assert (E : existsb (fun d => inside d f) watches = true).
    { apply existsb_exists. exact H. }
    rewrite E. destruct pings; reflexivity.
  - intros [->|H]; [reflexivity|]. destruct has_observer; [|reflexivity]. unfold file_event. cbn.
    assert (E : existsb (fun d => inside d f) watches = false).
    { destruct (existsb _ watches) eqn:E; [|reflexivity]. apply existsb_exists in E. destruct E as (d & Hd & Hi).
      rewrite (H d Hd) in Hi. discriminate. }
    rewrite E. reflexivity.
Qed.
Example C68_ex : let us := [B "http://a"; B "http://b"] in
  pinged (rrun us rinit [Refresh; R; R; R; R; Refresh; R; R; R; R; R; R; R; R]) =
    [(B "http://a", 1); (B "http://b", 2); (B "http://a", 2); (B "http://b", 2)] /\
  rph (rrun us rinit [Refresh; R; R; R; R; StopA; StopB; R; R; R; R; R]) = RExited.
Proof. split; reflexivity. Qed.

Print Assumptions C51_update.
Print Assumptions C51_refused.
Print Assumptions C51_served.
Print Assumptions C68_pinged.
Print Assumptions C68_never_forgotten.
Print Assumptions C68_rounds.
Print Assumptions C68_stops.
Print Assumptions C68_stops_soon.
Print Assumptions C68_delivered_refuted.
Print Assumptions C68_events.
Print Assumptions C68_before.
