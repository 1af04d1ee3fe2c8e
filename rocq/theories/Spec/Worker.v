(** What a judge worker may report: transcripts, skipping and numbering. *)
From Coq Require Import List NArith QArith Bool Arith.
From Verif Require Import Model.Result Model.Worker.
Import ListNotations.
Local Open Scope nat_scope.
Local Open Scope list_scope.

(** A problem's layout: plain cases and batches of cases with their points. *)
Definition layout := list cfg_entry.
Definition points_in (e : cfg_entry) : list Q := match e with CfgCase q => [q] | CfgBatch qs => qs end.
Definition all_points (l : layout) : list Q := flat_map points_in l.
Definition total (l : layout) : nat := length (all_points l).
(** Cases [i] and [j] (counted from 0 in archive order) belong to one batch. *)
Definition same_batch (l : layout) (i j : nat) : Prop :=
  exists before qs after, l = before ++ CfgBatch qs :: after /\
    total before <= i < total before + length qs /\ total before <= j < total before + length qs.

(** One report: was the submission run on it, and the reported word and points. *)
Record report := Report { ran : bool; rep_flag : N; rep_points : Q }.
Definition wrong (r : report) : Prop := N.testbit (rep_flag r) 0 = true.
Definition reported_skipped (r : report) : Prop := ran r = false /\ rep_flag r = 32%N /\ rep_points r = 0%Q.

Fixpoint numbered (b : option nat) (k : nat) (rs : list report) : list msg :=
  match rs with
  | [] => []
  | r :: rest => CaseResult b (S k) (rep_flag r) (rep_points r) :: numbered b (S k) rest
  end.
(** The transcript of a grading that got as far as the given reports: every report in
    order, numbered from [k+1]; batches numbered in order of appearance, each opened
    before its first case and closed after its last one. *)
Fixpoint transcript (b k : nat) (l : layout) (rs : list report) : list msg :=
  match l with
  | [] => []
  | CfgCase _ :: rest =>
      match rs with
      | [] => []
      | r :: rs' => numbered None k [r] ++ transcript b (S k) rest rs'
      end
  | CfgBatch [] :: rest => transcript (S b) k rest rs
  | CfgBatch qs :: rest =>
      let n := length qs in
      BatchBegin (S b) :: numbered (Some (S b)) k (firstn n rs) ++
      (if length rs <? n then []
       else BatchEnd (S b) :: transcript (S b) (k + n) rest (skipn n rs))
  end.

(** The skipping rule: case [i] is skipped because of case [j]. *)
Definition stops (short_circuit : bool) (l : layout) (rs : list report) (j i : nat) : Prop :=
  j < i /\ (exists r, nth_error rs j = Some r /\ wrong r) /\
  (short_circuit = true \/ (exists q, nth_error (all_points l) j = Some q /\ (q == 0)%Q) \/ same_batch l j i).

(** Messages that end a submission. *)
Definition terminal (m : msg) : Prop :=
  match m with CompileErr | GradingEnd | GradingAborted | UnhandledException => True | _ => False end.
Definition case_message (m : msg) : Prop :=
  match m with BatchBegin _ | BatchEnd _ | CaseResult _ _ _ _ => True | _ => False end.

(** The indices of the cases the submission was run on. *)
Definition ran_indices (rs : list report) : list nat :=
  filter (fun i => match nth_error rs i with Some r => ran r | None => false end) (seq 0 (length rs)).
(** Has an abort been noticed at the check after case [i]? *)
Definition abort_seen (abort_at : option nat) (i : nat) : Prop := exists a, abort_at = Some a /\ a <= i.

(** Reading a stream of messages, without reference to the transcript above. *)
Definition case_numbers (ms : list msg) : list nat :=
  flat_map (fun m => match m with CaseResult _ n _ _ => [n] | _ => [] end) ms.
Definition case_batches (ms : list msg) : list (option nat) :=
  flat_map (fun m => match m with CaseResult b _ _ _ => [b] | _ => [] end) ms.
Definition batch_begins (ms : list msg) : list nat :=
  flat_map (fun m => match m with BatchBegin n => [n] | _ => [] end) ms.
(** Batches are opened and closed one at a time, and every case result names the open
    batch ([None] outside batches). *)
Fixpoint well_nested (opened : option nat) (ms : list msg) : Prop :=
  match ms with
  | [] => opened = None
  | BatchBegin n :: r => opened = None /\ well_nested (Some n) r
  | BatchEnd n :: r => opened = Some n /\ well_nested None r
  | CaseResult b _ _ _ :: r => b = opened /\ well_nested opened r
  | _ :: r => well_nested opened r
  end.
Definition batches (l : layout) : nat :=
  length (filter (fun e => match e with CfgBatch _ => true | CfgCase _ => false end) l).
Definition no_empty_batch (l : layout) : Prop := ~ In (CfgBatch []) l.
(** The positions of the cases the submission was run on, in order. *)
Definition run_positions (es : list event) : list nat :=
  flat_map (fun e => match e with Run c => [position c] | Send _ => [] end) es.
(** Before the first case. *)
Definition preamble (warning pretested : bool) : list msg :=
  (if warning then [CompileMessage] else []) ++ [GradingBegin pretested].
(** What may precede the terminal message: a prefix of an optional compiler warning,
    the begin message, and case messages. *)
Definition in_progress (body : list msg) : Prop :=
  exists rest w p cs, body ++ rest = preamble w p ++ cs /\ Forall case_message cs.
(** A finished stream: exactly one terminal message, then the goodbye. *)
Definition finished_stream (ms : list msg) : Prop :=
  exists body t, ms = Hello :: body ++ [t; Bye] /\ terminal t /\ in_progress body /\
    (t = CompileErr -> body = []) /\
    (t = GradingEnd \/ t = GradingAborted -> exists w p cs, body = preamble w p ++ cs).
