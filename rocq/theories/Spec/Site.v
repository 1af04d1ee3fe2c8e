(** What the site is to learn, and what a packet tells it. *)
From Coq Require Import String ZArith NArith List Bool Arith.
From Verif Require Import Model.Bytes Model.Json Model.Packets Model.Site Spec.Json.
From Verif Require Spec.Utf8 Model.Worker.
Import ListNotations.
Local Open Scope nat_scope.
Local Open Scope list_scope.

(** ** A result that cannot be sent *)
Section Poison.
  Context {payload : Type}.
  Variable sendable : payload -> bool.
  (** The results a worker reports. *)
  Definition results (ms : list (ipc payload)) : list payload := flat_map (fun m => match m with IResult _ _ r => [r] | _ => [] end) ms.
  (** A result that cannot be sent waits in the queue. *)
  Definition poisoned (s : state payload) : Prop := exists c, In c (queue _ s) /\ sendable (info _ c) = false.
  (** Packets that report neither a result nor an end (nor a batch, an abort or an error). *)
  Definition hollow (p : packet payload) : Prop :=
    match p with
    | TestCaseStatus _ _ _ => False
    | Control _ (CompileError _ | CompileMessage _ | GradingBegin _) _ => True
    | Control _ _ _ => False
    | Other _ _ => True
    end.
End Poison.

(** ** News *)
Section News.
  Context {float : Type}.
  Notation value := (value float).
  Notation dict := (list (list N * value)).
  (** A case as the site sees it. *)
  Record seen_case := SeenCase { s_position : Z; s_status : Z; s_time : value; s_points : value; s_total : value;
    s_memory : value; s_output : value; s_extended : value; s_feedback : value }.
  Inductive news :=
  | NCase (id : Z) (c : seen_case)
  | NCompileError (id : Z) (log : list N) | NCompileMessage (id : Z) (log : list N) | NInternalError (id : Z) (message : list N)
  | NBegin (id : Z) (pretested : bool) | NEnd (id : Z) | NBatchBegin (id : Z) | NBatchEnd (id : Z) | NAborted (id : Z).

  (** What a dictionary tells the site: the protocol. *)
  Inductive case_tells : value -> seen_case -> Prop :=
  | ct p st t q tq m o e f : case_tells
      (VDict _ [(B "position", VInt _ p); (B "status", VInt _ st); (B "time", t); (B "points", q); (B "total-points", tq);
                (B "memory", m); (B "output", o); (B "extended-feedback", e); (B "feedback", f)])
      (SeenCase p st t q tq m o e f).
  Definition head (name : string) (id : Z) (rest : dict) : dict :=
    [(B "name", VStr _ (B name)); (B "submission-id", VInt _ id)] ++ rest.
  Definition news_names : list string :=
    ["test-case-status"; "compile-error"; "compile-message"; "internal-error"; "grading-begin"; "grading-end"; "batch-begin"; "batch-end"; "submission-terminated"]%string.
  Inductive tells : dict -> list news -> Prop :=
  | t_cases id vs cs : Forall2 case_tells vs cs -> tells (head "test-case-status" id [(B "cases", VList _ vs)]) (map (NCase id) cs)
  | t_compile_error id s : tells (head "compile-error" id [(B "log", VStr _ s)]) [NCompileError id s]
  | t_compile_message id s : tells (head "compile-message" id [(B "log", VStr _ s)]) [NCompileMessage id s]
  | t_internal_error id s : tells (head "internal-error" id [(B "message", VStr _ s)]) [NInternalError id s]
  | t_begin id p : tells (head "grading-begin" id [(B "pretested", VBool _ p)]) [NBegin id p]
  | t_end id : tells (head "grading-end" id []) [NEnd id]
  | t_batch_begin id : tells (head "batch-begin" id []) [NBatchBegin id]
  | t_batch_end id : tells (head "batch-end" id []) [NBatchEnd id]
  | t_aborted id : tells (head "submission-terminated" id []) [NAborted id]
  | t_other d name : In (B "name", VStr _ name) d -> ~ In name (map (fun s => B s) news_names) -> tells d [].

  (** What a report of a worker is to become: the same thing, under the submission's number. *)
  Definition heard (x : said) (s : list N) : Prop :=
    match x with
    | Str t => s = t
    | Bytes b => Forall Utf8.scalar s /\ forall t, Utf8.utf8 t b -> s = t
    end.
  Inductive becomes (id : nat) : ipc (report float) -> news -> Prop :=
  | b_compile_error l s : heard l s -> becomes id (ICompileError _ l) (NCompileError (Z.of_nat id) s)
  | b_compile_message l s : heard l s -> becomes id (ICompileMessage _ l) (NCompileMessage (Z.of_nat id) s)
  | b_exception l s : heard l s -> becomes id (IException _ l) (NInternalError (Z.of_nat id) s)
  | b_begin p : becomes id (IGradingBegin _ p) (NBegin (Z.of_nat id) p)
  | b_end : becomes id (IGradingEnd _) (NEnd (Z.of_nat id))
  | b_batch_begin : becomes id (IBatchBegin _) (NBatchBegin (Z.of_nat id))
  | b_batch_end : becomes id (IBatchEnd _) (NBatchEnd (Z.of_nat id))
  | b_aborted : becomes id (IGradingAborted _) (NAborted (Z.of_nat id))
  | b_result n r : becomes id (IResult _ n r)
      (NCase (Z.of_nat id) (SeenCase (Z.of_nat n) (r_status _ r) (r_time _ r) (r_points _ r) (r_total _ r) (r_memory _ r) (r_output _ r) (r_extended _ r) (r_feedback _ r))).

  (** All reports of a history of submissions, in order, with the numbers of their submissions. *)
  Definition all_reports (h : list (nat * list (ipc (report float)))) : list (nat * ipc (report float)) :=
    flat_map (fun sm => map (fun m => (fst sm, m)) (snd sm)) h.

  (** What reports must be made of: text without paired surrogates, results without bytes inside. *)
  Definition fit (v : value) : Prop := everywhere expressible v /\ everywhere sound v.
  Definition fit_report (r : report float) : Prop :=
    Forall fit [r_time _ r; r_points _ r; r_total _ r; r_memory _ r; r_output _ r; r_extended _ r; r_feedback _ r].
  Definition fit_said (x : said) : Prop := match x with Str s => sound_text s | Bytes _ => True end.
  Definition fit_ipc (m : ipc (report float)) : Prop :=
    match m with
    | ICompileError _ l | ICompileMessage _ l | IException _ l => fit_said l
    | IResult _ _ r => fit_report r
    | _ => True
    end.

  (** ** From the worker's messages *)
  (** [m] is what the judge is told when its worker sends the message. *)
  Inductive conveys : Worker.msg -> ipc (report float) -> Prop :=
  | c_compile_error l : conveys Worker.CompileErr (ICompileError _ l)
  | c_compile_message l : conveys Worker.CompileMessage (ICompileMessage _ l)
  | c_begin p : conveys (Worker.GradingBegin p) (IGradingBegin _ p)
  | c_batch_begin n : conveys (Worker.BatchBegin n) (IBatchBegin _)
  | c_batch_end n : conveys (Worker.BatchEnd n) (IBatchEnd _)
  | c_end : conveys Worker.GradingEnd (IGradingEnd _)
  | c_aborted : conveys Worker.GradingAborted (IGradingAborted _)
  | c_exception m : conveys Worker.UnhandledException (IException _ m)
  | c_result b n flag pts r : r_status _ r = Z.of_N flag -> conveys (Worker.CaseResult b n flag pts) (IResult _ n r).
  (** What the judge handles of one worker's stream (C78): a part from the beginning, followed by a report of its own
      if that is not everything up to the goodbye. *)
  Definition handles (stream : list Worker.msg) (ms : list (ipc (report float))) : Prop :=
    exists part rest told, stream = part ++ rest /\ Forall2 conveys (filter (fun m => match m with Worker.Hello => false | _ => true end) part) told /\
      ((rest = [Worker.Bye] /\ ms = told) \/ exists m, ms = told ++ [IException _ m]).
End News.
