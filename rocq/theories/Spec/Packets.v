(** What the site sees, framing, backoff and dispatch. *)
From Coq Require Import List NArith ZArith QArith Bool Arith String.
From Verif Require Import Model.Bytes Model.Packets.
Import ListNotations.
Local Open Scope nat_scope.
Local Open Scope list_scope.

(** ** C19: the events the site sees, one by one *)
Section Events.
  Context {payload : Type}.
  Inductive event :=
  | CaseSeen (submission position : nat) (i : payload)
  | ControlSeen (c : ctl) (submission : option nat).
  Definition seen (p : packet payload) : list event :=
    match p with
    | TestCaseStatus _ tag cs => map (fun c => CaseSeen tag (position _ c) (info _ c)) cs
    | Control _ c tag => [ControlSeen c tag]
    | Other _ _ => []
    end.
  (** Everything seen on the wire, ignoring how case results were grouped into packets. *)
  Definition all_seen (w : list (packet payload)) : list event := flat_map seen w.

  (** What the workers reported, in order. *)
  Definition reported1 (sub : nat) (m : ipc payload) : event :=
    match m with
    | ICompileError _ l => ControlSeen (CompileError l) (Some sub)
    | ICompileMessage _ l => ControlSeen (CompileMessage l) (Some sub)
    | IGradingBegin _ p => ControlSeen (GradingBegin p) (Some sub)
    | IGradingEnd _ => ControlSeen GradingEnd (Some sub)
    | IGradingAborted _ => ControlSeen Aborted (Some sub)
    | IBatchBegin _ => ControlSeen BatchBegin (Some sub)
    | IBatchEnd _ => ControlSeen BatchEnd (Some sub)
    | IResult _ p i => CaseSeen sub p i
    | IException _ m => ControlSeen (InternalError m) (Some sub)
    end.
  Definition reported (h : list (nat * list (ipc payload))) : list event :=
    flat_map (fun sm => map (reported1 (fst sm)) (snd sm)) h.

  (** The shape of a worker's stream (C17): compiler and begin messages first; a stream
      with case or batch messages ends with an end, abort, batch or internal error. *)
  Definition header (m : ipc payload) : Prop :=
    match m with ICompileError _ _ | ICompileMessage _ _ | IGradingBegin _ _ => True | _ => False end.
  Definition is_case (m : ipc payload) : Prop := match m with IResult _ _ _ => True | _ => False end.
  Definition worker_like (ms : list (ipc payload)) : Prop :=
    exists pre body, ms = pre ++ body /\ Forall header pre /\ Forall (fun m => ~ header m) body /\
      (body = [] \/ exists b t, body = b ++ [t] /\ ~ is_case t).
End Events.

(** ** C20 *)
(** The bytes of a message sequence on the wire. *)
Fixpoint framed {message} (encode : message -> list N) (ms : list message) : list N :=
  match ms with
  | [] => []
  | m :: r =>
      let n := N.of_nat (length (encode m)) in
      [(n / 2 ^ 24)%N; ((n / 2 ^ 16) mod 256)%N; ((n / 2 ^ 8) mod 256)%N; (n mod 256)%N] ++ encode m ++ framed encode r
  end.
(** [l] is a merge of finitely many threads' lists in which thread [i] contributes [ls i]. *)
Inductive merge {A} : (nat -> list A) -> list A -> Prop :=
| merge_nil : forall ls, (forall i, ls i = []) -> merge ls []
| merge_cons : forall ls i x r ls' l, ls i = x :: r -> ls' i = r -> (forall j, j <> i -> ls' j = ls j) ->
    merge ls' l -> merge ls (x :: l).
Definition prefix {A} (a b : list A) : Prop := exists c, b = a ++ c.

(** ** C21 *)
(** The wait of the [k]-th consecutive failure since the last completed grading. *)
Definition delay (k : nat) : Q := (4 * (3 # 2) ^ Z.of_nat k)%Q.
(** Which wait each lost connection leads to: the number of losses since the last
    completed grading; nothing happens any more after the 26th in a row. *)
Fixpoint expected_waits (k : nat) (es : list conn_event) : list nat :=
  match es with
  | [] => []
  | Graded :: r => expected_waits 0 r
  | Drop :: r => if k <=? 24 then k :: expected_waits (S k) r else []
  end.

(** ** C22 *)
Definition known_packets : list (list N) :=
  [B "ping"; B "get-current-submission"; B "submission-request"; B "terminate-submission"; B "disconnect"].

(** ** C22: a complete submission request *)
(** A number, or a truth value, which Python takes for one or zero. *)
Inductive counts_as : json -> Z -> Prop :=
| a_number z : counts_as (JNum z) z
| a_yes : counts_as (JBool true) 1
| a_no : counts_as (JBool false) 0.
Record complete (p : fields) (s : submission) : Prop := {
  its_name : assoc (B "name") p = Some (JStr (B "submission-request"));
  its_id : assoc (B "submission-id") p = Some (s_id s);
  its_problem : assoc (B "problem-id") p = Some (s_problem s);
  its_language : assoc (B "language") p = Some (s_language s);
  its_source : assoc (B "source") p = Some (s_source s);
  its_time : exists t, assoc (B "time-limit") p = Some t /\ counts_as t (s_time s);
  its_memory : exists m, assoc (B "memory-limit") p = Some m /\ counts_as m (s_memory s);
  its_short : assoc (B "short-circuit") p = Some (s_short s);
  its_meta : assoc (B "meta") p = Some (s_meta s)
}.
