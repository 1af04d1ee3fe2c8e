(** Property theorems for the connection to the site (C19-C22). *)
From Coq Require Import String QArith.
From Verif Require Import Model.Bytes Model.Packets Spec.Packets.
From Verif Require Proofs.Packets.
Local Open Scope nat_scope.
Local Open Scope list_scope.

(** ** C19 *)
(** At every moment of every interleaving, what the site has seen (ignoring how case
    results are grouped into packets) is a prefix of what the workers reported, in
    order, each under its own submission: nothing lost, duplicated, reordered, mixed up. *)
Theorem C19_always_prefix : forall payload h schedule, Forall (fun sm => worker_like (snd sm)) h ->
  prefix (all_seen (wire _ (run _ (init _ (history_ops payload h)) schedule))) (reported h).
Proof. exact Proofs.Packets.queue_prefix. Qed.
Print Assumptions C19_always_prefix.

(** Once the grading thread is done everything has been seen and nothing is queued. *)
Theorem C19_all_delivered : forall payload h schedule, Forall (fun sm => worker_like (snd sm)) h ->
  let s := run _ (init _ (history_ops payload h)) schedule in
  program _ s = [] -> all_seen (wire _ s) = reported h /\ (lock _ s = None -> queue _ s = []).
Proof. exact Proofs.Packets.queue_done. Qed.
Print Assumptions C19_all_delivered.

(** The two threads never lock each other out for good. *)
Theorem C19_can_finish : forall payload h schedule, Forall (fun sm => worker_like (snd sm)) h ->
  exists more, program _ (run _ (init _ (history_ops payload h)) (schedule ++ more)) = [].
Proof. exact Proofs.Packets.queue_can_finish. Qed.
Print Assumptions C19_can_finish.

Definition ex_history : list (nat * list (ipc nat)) :=
  [(7, [ICompileMessage _ (Str (B "warning")); IGradingBegin _ true; IResult _ 1 10; IBatchBegin _; IResult _ 2 20; IResult _ 3 30; IBatchEnd _; IGradingEnd _]);
   (8, [IGradingBegin _ true; IResult _ 1 40; IGradingAborted _]); (9, [ICompileError _ (Bytes [233%N])])].
Example C19_ex_worker_like : Forall (fun sm => worker_like (snd sm)) ex_history.
Proof.
  repeat constructor.
  - exists [ICompileMessage _ (Str (B "warning")); IGradingBegin _ true], [IResult _ 1 10; IBatchBegin _; IResult _ 2 20; IResult _ 3 30; IBatchEnd _; IGradingEnd _].
    split; [reflexivity|]. split; [repeat constructor|]. split; [repeat constructor; intros []|]. right.
    exists [IResult _ 1 10; IBatchBegin _; IResult _ 2 20; IResult _ 3 30; IBatchEnd _], (IGradingEnd _). split; [reflexivity|intros []].
  - exists [IGradingBegin _ true], [IResult _ 1 40; IGradingAborted _].
    split; [reflexivity|]. split; [repeat constructor|]. split; [repeat constructor; intros []|]. right.
    exists [IResult _ 1 40], (IGradingAborted _). split; [reflexivity|intros []].
  - exists [ICompileError _ (Bytes [233%N])], []. split; [reflexivity|]. split; [repeat constructor|]. split; [constructor|left; reflexivity].
Qed.
(** A schedule in which the flusher sends one result early, and one in which it does not. *)
Example C19_ex_runs :
  wire _ (run _ (init _ (history_ops nat ex_history)) (repeat G 6 ++ [F; F; F; F; F; Net 0] ++ repeat G 60)) =
  [Control _ (CompileMessage (Str (B "warning"))) (Some 7); Control _ (GradingBegin true) (Some 7); TestCaseStatus _ 7 [Case _ 7 1 10]; Other _ 0;
   Control _ BatchBegin (Some 7); TestCaseStatus _ 7 [Case _ 7 2 20; Case _ 7 3 30]; Control _ BatchEnd (Some 7);
   Control _ GradingEnd (Some 7); Control _ (GradingBegin true) (Some 8); TestCaseStatus _ 8 [Case _ 8 1 40];
   Control _ Aborted (Some 8); Control _ (CompileError (Bytes [233%N])) (Some 9)].
Proof. reflexivity. Qed.

(** ** C20 *)
(** For every codec that round-trips: whatever is sent, however the bytes are cut into
    received chunks, the messages are read back exactly, and the end of the stream is
    then noticed. *)
Theorem C20_round_trip : forall message encode decode, (forall m : message, decode (encode m) = Message m) ->
  forall ms chunks fuel, concat chunks = framed encode ms -> length ms < fuel ->
  read_all message decode fuel ([], chunks) = (ms, Some Reconnect).
Proof. exact Proofs.Packets.framing. Qed.
Print Assumptions C20_round_trip.

(** What is written for a message is its frame; messages of 2^32 bytes or more are never
    written (the judge exits instead of desynchronising the stream). *)
Theorem C20_written : forall message (encode : message -> list N) m,
  frame message encode m = if (N.of_nat (length (encode m)) <? 2 ^ 32)%N then Some (framed encode [m]) else None.
Proof.
  exact (fun message encode m =>
    match N.ltb_spec0 (N.of_nat (length (encode m))) (2 ^ 32) as r in reflect _ b
      return frame message encode m = if b then Some (framed encode [m]) else None with
    | ReflectT _ H => Proofs.Packets.frame_ok message encode m H
    | ReflectF _ H => Proofs.Packets.frame_exit message encode m H
    end).
Qed.
Print Assumptions C20_written.

(** A connection cut at any byte: exactly the completely received messages are read and
    no garbage ever is; then the judge reconnects, except that a cut inside the 4-byte
    size makes it exit. *)
Theorem C20_cut : forall message encode decode, (forall m : message, decode (encode m) = Message m) ->
  (forall m a c, encode m = a ++ c -> c <> [] -> decode a = ZlibError) ->
  forall ms chunks fuel, prefix (concat chunks) (framed encode ms) -> length ms < fuel ->
  exists got rest cut, ms = got ++ rest /\ concat chunks = framed encode got ++ cut /\
    prefix cut (framed encode (firstn 1 rest)) /\ (forall m r, rest = m :: r -> cut <> framed encode [m]) /\
    read_all message decode fuel ([], chunks) = (got, Some (if (1 <=? length cut) && (length cut <=? 3) then Crash else Reconnect)).
Proof. exact Proofs.Packets.framing_cut. Qed.
Print Assumptions C20_cut.

(** Any number of threads sending at once, header and body written separately: the wire
    always holds complete packets in an order that respects every thread's own order,
    followed at most by the header of the packet being written. *)
Theorem C20_no_interleaving : forall todo schedule,
  let s := writers_run (writers_init todo) schedule in
  exists sent done cut, merge sent done /\ (forall i, prefix (sent i) (todo i)) /\
    w_wire s = concat (map (fun p => fst p ++ snd p) done) ++ cut /\
    (cut = [] \/ exists i h b, w_lock s = Some i /\ nth_error (todo i) (length (sent i)) = Some (h, b) /\ cut = h) /\
    ((forall i, w_todo s i = []) -> forall i, sent i = todo i).
Proof. exact Proofs.Packets.writers_frames. Qed.
Print Assumptions C20_no_interleaving.

(** A toy codec: one length-announcing byte, then the digits. *)
Definition toy_encode (n : nat) : list N := 255%N :: repeat 1%N n ++ [0%N].
Fixpoint toy_ones (b : list N) : option nat :=
  match b with
  | [0%N] => Some 0
  | 1%N :: r => option_map S (toy_ones r)
  | _ => None
  end.
Definition toy_decode (b : list N) : decoded nat :=
  match b with
  | 255%N :: r => match toy_ones r with Some n => Message n | None => ZlibError end
  | _ => ZlibError
  end.
Example C20_ex_codec : (forall m, toy_decode (toy_encode m) = Message m) /\
  (forall m a c, toy_encode m = a ++ c -> c <> [] -> toy_decode a = ZlibError).
Proof.
  split.
  - intros m. unfold toy_decode, toy_encode. assert (toy_ones (repeat 1%N m ++ [0%N]) = Some m) as ->; [|reflexivity].
    induction m as [|m IH]; [reflexivity|]. cbn [repeat app toy_ones]. rewrite IH. reflexivity.
  - intros m [|x a] c E H; [reflexivity|]. injection E as <- E. cbn. assert (toy_ones a = None) as ->; [|reflexivity].
    revert a E. induction m as [|m IH]; intros [|y a] E; try reflexivity.
    + cbn in E. injection E as <- E. destruct a; [|discriminate]. cbn in E. subst c. contradiction.
    + cbn [repeat app] in E. injection E as <- E. cbn [toy_ones]. rewrite (IH _ E). reflexivity.
Qed.
Example C20_ex : read_all nat toy_decode 5 ([], [[0; 0]%N; [0; 3; 255; 1]%N; []; [0; 0; 0; 0; 2; 255; 0]%N]) = ([1; 0], Some Reconnect).
Proof. reflexivity. Qed.

(** ** C21 *)
Theorem C21_delays : forall es,
  Forall2 (fun w j => (w == delay j)%Q) (waits (conn_run conn_init es)) (expected_waits 0 es).
Proof. exact Proofs.Packets.delays. Qed.
Print Assumptions C21_delays.
Theorem C21_waits_bounded : forall es, Forall (fun w => (4 <= w /\ w <= 86400)%Q) (waits (conn_run conn_init es)).
Proof. exact Proofs.Packets.waits_bounded. Qed.
Print Assumptions C21_waits_bounded.
(** The judge gives up exactly after 26 lost connections without a completed grading
    (or compile error) in between; reconnecting successfully does not count. *)
Theorem C21_gives_up_iff : forall es, gave_up (conn_run conn_init es) = true <->
  exists before after, es = before ++ repeat Drop 26 ++ after /\ (before = [] \/ exists b, before = b ++ [Graded]).
Proof. exact Proofs.Packets.gave_up_iff. Qed.
Print Assumptions C21_gives_up_iff.
Theorem C21_grows : forall j k, j <= k -> (delay j <= delay k)%Q.
Proof. exact Proofs.Packets.delay_mono. Qed.
Print Assumptions C21_grows.
Example C21_ex : map Qred (waits (conn_run conn_init [Drop; Drop; Graded; Drop; Drop; Drop])) = [4; 6; 4; 6; 9]%Q /\
  gave_up (conn_run conn_init (repeat Drop 26)) = true /\ gave_up (conn_run conn_init (repeat Drop 25)) = false.
Proof. vm_compute. auto. Qed.

(** ** C22 *)
Theorem C22_dispatch : forall current p name, assoc (B "name") p = Some (JStr name) ->
  let acts := fst (receive_packet current p) in
  (forall w, In (Pong w) acts <-> name = B "ping" /\ assoc (B "when") p = Some w) /\
  (forall id, In (ReportCurrent id) acts <-> name = B "get-current-submission" /\ current = Some id) /\
  (forall id, In (Acknowledge id) acts <-> name = B "submission-request" /\ assoc (B "submission-id") p = Some id) /\
  (In AbortCurrent acts <-> name = B "terminate-submission" \/ name = B "disconnect") /\
  (In CloseConnection acts <-> name = B "disconnect") /\
  (In LogUnknown acts <-> ~ In name known_packets) /\
  (snd (receive_packet current p) = Exited <-> name = B "disconnect").
Proof. exact Proofs.Packets.dispatch_exact. Qed.
Print Assumptions C22_dispatch.

(** Grading starts exactly for a complete submission request, with exactly the fields of the packet,
    after acknowledging it. *)
Theorem C22_grading : forall current p s,
  (In (BeginGrading s) (fst (receive_packet current p)) <-> complete p s) /\
  (complete p s -> receive_packet current p = ([Acknowledge (s_id s); BeginGrading s], Continue)).
Proof. intros current p s. split; [apply Proofs.Packets.begins|]. intros H. apply Proofs.Packets.completed, H. Qed.
Print Assumptions C22_grading.
(** The packets that end the connection with an exception: without a name, without a field that is
    needed, or a question about the current submission when there is none. *)
Theorem C22_raises : forall current p, snd (receive_packet current p) = Raised <->
  assoc (B "name") p = None \/
  assoc (B "name") p = Some (JStr (B "ping")) /\ assoc (B "when") p = None \/
  assoc (B "name") p = Some (JStr (B "get-current-submission")) /\ current = None \/
  assoc (B "name") p = Some (JStr (B "submission-request")) /\ forall s, ~ complete p s.
Proof. exact Proofs.Packets.raises. Qed.
Print Assumptions C22_raises.
(** A name that is not a text is unknown. *)
Theorem C22_odd_name : forall current p j, assoc (B "name") p = Some j -> (forall t, j <> JStr t) ->
  receive_packet current p = ([LogUnknown], Continue).
Proof. intros current p j E H. unfold receive_packet. rewrite E. destruct j; try reflexivity. destruct (H s eq_refl). Qed.
Print Assumptions C22_odd_name.

(** Finding: asking an idle judge for its current submission raises, which ends the judge. *)
Theorem C22_idle_query_refuted : exists p, assoc (B "name") p = Some (JStr (B "get-current-submission")) /\
  receive_packet None p = ([], Raised).
Proof. exists [(B "name", JStr (B "get-current-submission"))]. split; reflexivity. Qed.
Print Assumptions C22_idle_query_refuted.

Definition ex_request : fields :=
  [(B "name", JStr (B "submission-request")); (B "submission-id", JNum 7); (B "problem-id", JStr (B "aplusb"));
   (B "language", JStr (B "PY3")); (B "source", JStr (B "print(1)")); (B "time-limit", JNum 2); (B "memory-limit", JNum 65536);
   (B "short-circuit", JBool false); (B "meta", JObj [])].
Example C22_ex : receive_packet None ex_request =
  ([Acknowledge (JNum 7);
    BeginGrading (Submission (JNum 7) (JStr (B "aplusb")) (JStr (B "PY3")) (JStr (B "print(1)")) 2 65536 (JBool false) (JObj []))], Continue).
Proof. reflexivity. Qed.
