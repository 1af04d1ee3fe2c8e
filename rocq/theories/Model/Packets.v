(** The judge's connection to the site: dmoj/packet.py. *)
From Coq Require Import String QArith.
From Verif Require Import Model.Bytes.
Local Open Scope nat_scope.
Local Open Scope list_scope.

(** ** The test-case queue and its two threads (packet.py:194-232, 307-369)

    Every thread is a small-step machine; a schedule picks which thread moves.  A test
    case result is its payload together with the submission it was graded for; the tag
    put on the wire is read from [judge.current_submission] when the packet is built.
    Simplifications: [json.dumps] succeeds on the queued results, and a failed socket
    write ends the process ([os._exit]), hence is the end of the schedule. *)
(** What a compiler said: text, or bytes in whatever encoding (compile_error_packet and compile_message_packet are given either). *)
Inductive said := Str (s : list N) | Bytes (b : list N).
Section Queue.
  Variable payload : Type.
  Record case := Case { owner : nat; position : nat; info : payload }.

  (** Control packets, tagged with the current submission: packet.py:321-369. *)
  Inductive ctl := CompileError (log : said) | CompileMessage (log : said) | InternalError (message : said)
    | GradingBegin (pretested : bool) | GradingEnd | BatchBegin | BatchEnd | Aborted.
  Inductive packet :=
  | TestCaseStatus (tag : nat) (cases : list case)
  | Control (c : ctl) (tag : option nat)
  | Other (n : nat).                       (* ping-response, handshake, ... from other threads *)

  (** What the grading thread does. *)
  Inductive op :=
  | SetCurrent (s : option nat)            (* judge.py:130 / judge.py:180: current_judge_worker = ... *)
  | Append (c : case)                      (* packet.py:318-319 *)
  | Flush                                  (* packet.py:194-220 *)
  | Send (c : ctl).                        (* _send_packet of a control packet *)

  (** Where a thread is inside [_flush_testcase_queue] (packet.py:194-220) or the locked
      append (packet.py:318-319). *)
  Inductive phase :=
  | Out
  | ApLocked | ApDone
  | FlLocked                               (* lock taken, emptiness not yet tested *)
  | FlNonempty                             (* about to build and send the packet *)
  | FlSent                                 (* sent, queue not yet cleared *)
  | FlDone.                                (* about to release *)

  Inductive tid := Grader | Flusher.
  Record state := State {
    queue : list case;
    lock : option tid;
    current : option nat;
    wire : list packet;
    g_phase : phase;
    program : list op;                     (* what the grading thread still has to do *)
    f_phase : phase
  }.

  Definition set_phase (t : tid) (p : phase) (s : state) : state :=
    match t with
    | Grader => State (queue s) (lock s) (current s) (wire s) p (program s) (f_phase s)
    | Flusher => State (queue s) (lock s) (current s) (wire s) (g_phase s) (program s) p
    end.
  Definition set_lock (l : option tid) (s : state) : state :=
    State (queue s) l (current s) (wire s) (g_phase s) (program s) (f_phase s).
  Definition set_queue (q : list case) (s : state) : state :=
    State q (lock s) (current s) (wire s) (g_phase s) (program s) (f_phase s).
  Definition emit (p : packet) (s : state) : state :=
    State (queue s) (lock s) (current s) (wire s ++ [p]) (g_phase s) (program s) (f_phase s).
  Definition pop (s : state) : state :=
    State (queue s) (lock s) (current s) (wire s) (g_phase s) (tl (program s)) (f_phase s).

  (** One step of thread [t] inside a flush; [after] is what follows the release. *)
  Definition flush_step (t : tid) (after : state -> state) (p : phase) (s : state) : state :=
    match p with
    | FlLocked =>
        match queue s with
        | [] => set_phase t FlDone s                             (* "if not queue: return" *)
        | _ => set_phase t FlNonempty s
        end
    | FlNonempty =>
        match current s with
        | Some id => set_phase t FlSent (emit (TestCaseStatus id (queue s)) s)
        | None => set_phase t FlDone s                           (* AttributeError leaves the with block *)
        end
    | FlSent => set_phase t FlDone (set_queue [] s)
    | FlDone => after (set_phase t Out (set_lock None s))
    | _ => s
    end.

  Definition grader_step (s : state) : state :=
    match program s with
    | [] => s
    | SetCurrent c :: _ => pop (State (queue s) (lock s) c (wire s) (g_phase s) (program s) (f_phase s))
    | Send c :: _ => pop (emit (Control c (current s)) s)
    | Append c :: _ =>
        match g_phase s with
        | Out => match lock s with None => set_phase Grader ApLocked (set_lock (Some Grader) s) | Some _ => s end
        | ApLocked => set_phase Grader ApDone (set_queue (queue s ++ [c]) s)
        | ApDone => pop (set_phase Grader Out (set_lock None s))
        | _ => s
        end
    | Flush :: _ =>
        match g_phase s with
        | Out => match lock s with None => set_phase Grader FlLocked (set_lock (Some Grader) s) | Some _ => s end
        | p => flush_step Grader pop p s
        end
    end.

  (** packet.py:222-232: the flusher starts another flush whenever it likes. *)
  Definition flusher_step (s : state) : state :=
    match f_phase s with
    | Out => match lock s with None => set_phase Flusher FlLocked (set_lock (Some Flusher) s) | Some _ => s end
    | p => flush_step Flusher (fun s => s) p s
    end.

  (** The third kind of move: another thread (network, updater) sends something. *)
  Inductive move := G | F | Net (n : nat).
  Definition step (s : state) (m : move) : state :=
    match m with
    | G => grader_step s
    | F => flusher_step s
    | Net n => emit (Other n) s
    end.
  Definition run (s : state) (schedule : list move) : state := fold_left step schedule s.
  Definition init (prog : list op) : state := State [] None None [] Out prog Out.

  (** judge.py:188-236 and packet.py:321-369: the operations for one worker message. *)
  Inductive ipc := ICompileError (log : said) | ICompileMessage (log : said) | IGradingBegin (pretested : bool) | IGradingEnd | IGradingAborted
    | IBatchBegin | IBatchEnd | IResult (position : nat) (info : payload) | IException (message : said).
  Definition ops_of (sub : nat) (m : ipc) : list op :=
    match m with
    | ICompileError l => [Send (CompileError l)]                       (* 321-324 *)
    | ICompileMessage l => [Send (CompileMessage l)]                   (* 326-330 *)
    | IException m => [Flush; Send (InternalError m)]                  (* 332-337 *)
    | IGradingBegin p => [Send (GradingBegin p)]                       (* 339-343 *)
    | IGradingEnd => [Flush; Send GradingEnd]                    (* 345-349 *)
    | IBatchBegin => [Flush; Send BatchBegin]                    (* 351-355 *)
    | IBatchEnd => [Flush; Send BatchEnd]                        (* 357-360 *)
    | IGradingAborted => [Flush; Send Aborted]                   (* 366-369 *)
    | IResult pos i => [Append (Case sub pos i)]                 (* 307-319 *)
    end.
  (** judge.py:112-186: one submission after the other, the worker being current meanwhile. *)
  Definition submission_ops (sm : nat * list ipc) : list op :=
    SetCurrent (Some (fst sm)) :: flat_map (ops_of (fst sm)) (snd sm) ++ [SetCurrent None].
  Definition history_ops (h : list (nat * list ipc)) : list op := flat_map submission_ops h.
End Queue.

(** ** Framing (packet.py:31, 167-183, 234-248) *)

(** struct '!I': big-endian, 4 bytes; [None] = struct.error. *)
Definition pack_size (n : N) : option (list N) :=
  if (n <? 2 ^ 32)%N
  then Some [(n / 2 ^ 24 mod 256)%N; (n / 2 ^ 16 mod 256)%N; (n / 2 ^ 8 mod 256)%N; (n mod 256)%N]
  else None.
Definition unpack_size (b : list N) : option N :=
  match b with
  | [a; b; c; d] => Some (((a * 256 + b) * 256 + c) * 256 + d)%N
  | _ => None
  end.

(** io.BufferedReader.read(n) on a blocking socket: keep receiving until [n] bytes are
    there or the peer has closed (an exhausted list of chunks). *)
Fixpoint buffered_read (n : N) (buf : list N) (chunks : list (list N)) : list N * (list N * list (list N)) :=
  if (n <=? N.of_nat (length buf))%N then (firstn (N.to_nat n) buf, (skipn (N.to_nat n) buf, chunks))
  else
    match chunks with
    | [] => (buf, ([], []))
    | c :: r => buffered_read n (buf ++ c) r
    end.

Section Framing.
  Variable message : Type.
  (** zlib.compress (utf8bytes (json.dumps m)) and json.loads (utf8text (zlib.decompress b)). *)
  Variable encode : message -> list N.
  Inductive decoded := Message (m : message) | ZlibError | OtherError.
  Variable decode : list N -> decoded.

  (** packet.py:242-248; [None] = the process exits. *)
  Definition frame (m : message) : option (list N) :=
    match pack_size (N.of_nat (length (encode m))) with
    | Some h => Some (h ++ encode m)
    | None => None
    end.

  Inductive read_result :=
  | Packet (m : message)
  | Reconnect                               (* the connection is dropped and reopened *)
  | Crash.                                  (* an exception reaches _read_forever: exit *)
  (** packet.py:167-183, without the recursion after a reconnection. *)
  Definition read_single (st : list N * list (list N)) : read_result * (list N * list (list N)) :=
    let (data, st1) := buffered_read 4 (fst st) (snd st) in
    match data with
    | [] => (Reconnect, st1)
    | _ =>
        match unpack_size data with
        | None => (Crash, st1)
        | Some size =>
            let (body, st2) := buffered_read size (fst st1) (snd st1) in
            match decode body with
            | Message m => (Packet m, st2)
            | ZlibError => (Reconnect, st2)
            | OtherError => (Crash, st2)
            end
        end
    end.
  (** packet.py:154-165: read until something other than a packet happens ([fuel] reads). *)
  Fixpoint read_all (fuel : nat) (st : list N * list (list N)) : list message * option read_result :=
    match fuel with
    | O => ([], None)
    | S f =>
        match read_single st with
        | (Packet m, st') => let (ms, e) := read_all f st' in (m :: ms, e)
        | (e, _) => ([], Some e)
        end
    end.
End Framing.
Arguments Message {message}. Arguments ZlibError {message}. Arguments OtherError {message}.
Arguments Packet {message}. Arguments Reconnect {message}. Arguments Crash {message}.

(** Several threads sending: packet.py:243-248 writes header and body separately while
    holding [_lock].  A writer's state: waiting, header not yet written, body not yet
    written, about to release. *)
Inductive wphase := WOut | WLocked | WHeader | WBody.
Record writers := Writers { w_lock : option nat; w_phase : nat -> wphase; w_todo : nat -> list (list N * list N); w_wire : list N }.
Definition upd {A} (f : nat -> A) (i : nat) (v : A) : nat -> A := fun j => if j =? i then v else f j.
(** Thread [i] moves; a packet is a (header, body) pair. *)
Definition writer_step (s : writers) (i : nat) : writers :=
  match w_todo s i with
  | [] => s
  | (h, b) :: rest =>
      match w_phase s i with
      | WOut => match w_lock s with
                | None => Writers (Some i) (upd (w_phase s) i WLocked) (w_todo s) (w_wire s)
                | Some _ => s
                end
      | WLocked => Writers (w_lock s) (upd (w_phase s) i WHeader) (w_todo s) (w_wire s ++ h)
      | WHeader => Writers (w_lock s) (upd (w_phase s) i WBody) (w_todo s) (w_wire s ++ b)
      | WBody => Writers None (upd (w_phase s) i WOut) (upd (w_todo s) i rest) (w_wire s)
      end
  end.
Definition writers_run (s : writers) (schedule : list nat) : writers := fold_left writer_step schedule s.
Definition writers_init (todo : nat -> list (list N * list N)) : writers := Writers None (fun _ => WOut) todo [].

(** ** Reconnection (packet.py:84, 117-139, 323, 347)

    [fallback] is a float; 4 * 1.5^k is a dyadic rational with at most 53 significant
    bits for every k that can occur (k <= 25), so exact rationals are used. *)
Record backoff := Backoff { fallback : Q; waits : list Q; gave_up : bool }.
(** [Drop]: _reconnect is called (after a lost connection or a failed attempt).
    [Graded]: grading_end_packet or compile_error_packet is sent. *)
Inductive conn_event := Drop | Graded.
Definition conn_step (s : backoff) (e : conn_event) : backoff :=
  if gave_up s then s else
  match e with
  | Graded => Backoff 4 (waits s) false
  | Drop =>
      if Qle_bool (fallback s) 86400
      then Backoff (fallback s * (3 # 2)) (waits s ++ [fallback s]) false
      else Backoff (fallback s) (waits s) true
  end.
Definition conn_run (s : backoff) (es : list conn_event) : backoff := fold_left conn_step es s.
Definition conn_init : backoff := Backoff 4 [] false.

(** ** Dispatch of server packets (packet.py:250-285) *)
Inductive json := JNum (z : Z) | JStr (s : list N) | JBool (b : bool) | JObj (fields : list (list N * json)) | JNull.
Definition fields := list (list N * json).
Fixpoint assoc (k : list N) (p : fields) : option json :=
  match p with [] => None | (k', v) :: r => if beqb k k' then Some v else assoc k r end.

Record submission := Submission { s_id : json; s_problem : json; s_language : json; s_source : json;
  s_time : Z; s_memory : Z; s_short : json; s_meta : json }.
Inductive action :=
| Pong (when : json) | ReportCurrent (id : nat) | Acknowledge (id : json) | BeginGrading (s : submission)
| AbortCurrent | CloseConnection | LogUnknown.
Inductive outcome := Continue | Raised | Exited.
(** float(x) / int(x) of a JSON value.  Simplification: only integral JSON numbers and
    booleans convert; everything else (including numeric strings) counts as an exception. *)
Definition to_number (j : json) : option Z :=
  match j with JNum z => Some z | JBool b => Some (if b then 1 else 0)%Z | _ => None end.
(** json objects keep the last value of a repeated key; [assoc] is used on objects that
    have already been made dictionaries, so keys are unique.  [current] is the submission
    being graded, if any. *)
Definition receive_packet (current : option nat) (p : fields) : list action * outcome :=
  match assoc (B "name") p with
  | Some (JStr name) =>
      if beqb name (B "ping") then
        match assoc (B "when") p with Some w => ([Pong w], Continue) | None => ([], Raised) end
      else if beqb name (B "get-current-submission") then
        (* packet.py:362-364: judge.current_submission.id; None has no id *)
        match current with Some id => ([ReportCurrent id], Continue) | None => ([], Raised) end
      else if beqb name (B "submission-request") then
        match assoc (B "submission-id") p with
        | None => ([], Raised)
        | Some id =>
            match assoc (B "problem-id") p, assoc (B "language") p, assoc (B "source") p,
                  assoc (B "time-limit") p, assoc (B "memory-limit") p,
                  assoc (B "short-circuit") p, assoc (B "meta") p with
            | Some pr, Some la, Some so, Some tl, Some ml, Some sh, Some me =>
                match to_number tl, to_number ml with
                | Some t, Some m => ([Acknowledge id; BeginGrading (Submission id pr la so t m sh me)], Continue)
                | _, _ => ([Acknowledge id], Raised)
                end
            | _, _, _, _, _, _, _ => ([Acknowledge id], Raised)
            end
        end
      else if beqb name (B "terminate-submission") then ([AbortCurrent], Continue)
      else if beqb name (B "disconnect") then ([CloseConnection; AbortCurrent], Exited)
      else ([LogUnknown], Continue)
  | Some _ => ([LogUnknown], Continue)
  | None => ([], Raised)
  end.
