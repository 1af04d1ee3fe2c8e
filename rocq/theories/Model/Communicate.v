(** Talking to a process: dmoj/utils/communicate.py safe_communicate. *)
From Verif Require Import Model.Bytes.

Inductive fd := Stdin | Stdout | Stderr.

(** ** The kernel's side (trusted description of pipes and poll)

    [rest_out]/[rest_err] is what the process writes to the pipe and has not been read
    yet, [consumed] what was written into its standard input.  A poll entry says what
    happens with one ready descriptor:
    - [Writable w]: the descriptor is ready for writing; [w] says how the write goes;
    - [Readable k]: it is ready for reading and a read returns [k] bytes if asked for
      and available (at least one unless the stream has ended);
    - [HangUp]: only hang-up or error is reported. *)
Inductive write_result := Wrote (n : nat) | EPipe | WriteError.
Inductive mode := Writable (w : write_result) | Readable (k : nat) | HangUp.
Inductive poll_result := Interrupted | PollError | Ready (l : list (fd * mode)).

(** os.write: at least one and at most all bytes of the chunk. *)
Definition os_write (chunk : list N) (n : nat) : nat := Nat.min (Nat.max 1 n) (length chunk).
(** os.read(fd, size): a non-empty prefix of at most [size] bytes, empty at the end. *)
Definition os_read (rest : list N) (size k : nat) : list N * list N :=
  let n := Nat.min size (Nat.max 1 k) in (firstn n rest, skipn n rest).

(** ** safe_communicate *)
Section Communicate.
  (** communicate.py:7 and the size of a read, communicate.py:76 (_PIPE_BUF and 4096) *)
  Variable pipe_buf read_size : nat.
  Variable input : list N.                       (* None and b'' are treated alike (18, 42) *)
  Variable has_stdout has_stderr : bool.
  Variable outlimit errlimit : N.

  Record cstate := CState {
    in_open : bool; out_open : bool; err_open : bool;      (* keys of fd2file *)
    offset : nat;                                          (* input_offset *)
    out_chunks : list (list N); err_chunks : list (list N);  (* fd2output *)
    out_len : N; err_len : N;                              (* fd2length *)
    rest_out : list N; rest_err : list N; consumed : list N  (* kernel *)
  }.
  Inductive status :=
  | Running (s : cstate)
  | Returned (out err : list N) (s : cstate)               (* line 97 *)
  | OutputLimitExceeded (f : fd) (limit : N) (s : cstate)  (* line 83 *)
  | ValueErrorRaised (s : cstate)                          (* fileno() of a closed file, line 84 *)
  | OsErrorRaised (s : cstate).

  Definition is_open (s : cstate) (f : fd) : bool :=
    match f with Stdin => in_open s | Stdout => out_open s | Stderr => err_open s end.
  (** communicate.py:35-38 *)
  Definition close (s : cstate) (f : fd) : cstate :=
    match f with
    | Stdin => CState false (out_open s) (err_open s) (offset s) (out_chunks s) (err_chunks s) (out_len s) (err_len s) (rest_out s) (rest_err s) (consumed s)
    | Stdout => CState (in_open s) false (err_open s) (offset s) (out_chunks s) (err_chunks s) (out_len s) (err_len s) (rest_out s) (rest_err s) (consumed s)
    | Stderr => CState (in_open s) (out_open s) false (offset s) (out_chunks s) (err_chunks s) (out_len s) (err_len s) (rest_out s) (rest_err s) (consumed s)
    end.
  Definition any_open (s : cstate) : bool := in_open s || out_open s || err_open s.

  (** communicate.py:64-74 *)
  Definition on_writable (s : cstate) (w : write_result) : status :=
    let chunk := firstn pipe_buf (skipn (offset s) input) in
    match w with
    | Wrote n =>
        let k := os_write chunk n in
        let s' := CState (in_open s) (out_open s) (err_open s) (offset s + k) (out_chunks s) (err_chunks s) (out_len s) (err_len s)
                         (rest_out s) (rest_err s) (consumed s ++ firstn k chunk) in
        Running (if length input <=? offset s' then close s' Stdin else s')
    | EPipe => Running (close s Stdin)
    | WriteError => OsErrorRaised s
    end.
  (** communicate.py:75-85.  Line 84 asks proc.stdout for its descriptor again. *)
  Definition raise_ole (s : cstate) (f : fd) (limit : N) : status :=
    if has_stdout
    then if out_open s then OutputLimitExceeded (match f with Stdout => Stdout | _ => Stderr end) limit s
         else ValueErrorRaised s
    else OutputLimitExceeded Stderr limit s.
  Definition on_readable (s : cstate) (f : fd) (k : nat) : status :=
    match f with
    | Stdin => Running s
    | Stdout =>
        let (data, rest) := os_read (rest_out s) read_size k in
        let s0 := CState (in_open s) (match data with [] => false | _ => out_open s end) (err_open s) (offset s)
                         (out_chunks s ++ [data]) (err_chunks s) (out_len s + N.of_nat (length data)) (err_len s)
                         rest (rest_err s) (consumed s) in
        if (outlimit <? out_len s0)%N then raise_ole s0 Stdout outlimit else Running s0
    | Stderr =>
        let (data, rest) := os_read (rest_err s) read_size k in
        let s0 := CState (in_open s) (out_open s) (match data with [] => false | _ => err_open s end) (offset s)
                         (out_chunks s) (err_chunks s ++ [data]) (out_len s) (err_len s + N.of_nat (length data))
                         (rest_out s) rest (consumed s) in
        if (errlimit <? err_len s0)%N then raise_ole s0 Stderr errlimit else Running s0
    end.
  (** Entries the kernel cannot report: descriptors not registered, readiness that was
      not asked for, a bare hang-up while there is still data to read. *)
  Definition possible (s : cstate) (e : fd * mode) : bool :=
    is_open s (fst e) &&
    match e with
    | (Stdin, Readable _) => false
    | (Stdin, _) => true
    | (_, Writable _) => false
    | (Stdout, HangUp) => match rest_out s with [] => true | _ => false end
    | (Stderr, HangUp) => match rest_err s with [] => true | _ => false end
    | _ => true
    end.
  (** communicate.py:63-88 *)
  Definition on_entry (s : cstate) (e : fd * mode) : status :=
    if possible s e then
      match snd e with
      | Writable w => on_writable s w
      | Readable k => on_readable s (fst e) k
      | HangUp => Running (close s (fst e))
      end
    else Running s.
  Fixpoint on_entries (s : cstate) (l : list (fd * mode)) : status :=
    match l with
    | [] => Running s
    | e :: r => match on_entry s e with Running s' => on_entries s' r | x => x end
    end.
  (** communicate.py:54-61, 90-97 *)
  Definition finish (s : cstate) : status :=
    if any_open s then Running s else Returned (concat (out_chunks s)) (concat (err_chunks s)) s.
  Definition poll_step (st : status) (p : poll_result) : status :=
    match st with
    | Running s =>
        match p with
        | Interrupted => Running s
        | PollError => OsErrorRaised s
        | Ready l => match on_entries s l with Running s' => finish s' | x => x end
        end
    | x => x
    end.
  (** communicate.py:10-53; [out]/[err] = what the process writes *)
  Definition communicate_start (has_stdin : bool) (out err : list N) : status :=
    finish (CState (has_stdin && match input with [] => false | _ => true end) has_stdout has_stderr 0 [] [] 0 0
                   (if has_stdout then out else []) (if has_stderr then err else []) []).
  Definition safe_communicate (has_stdin : bool) (out err : list N) (polls : list poll_result) : status :=
    fold_left poll_step polls (communicate_start has_stdin out err).
End Communicate.
Definition state_of (st : status) : cstate :=
  match st with Running s => s | Returned _ _ s => s | OutputLimitExceeded _ _ s => s | ValueErrorRaised s => s | OsErrorRaised s => s end.
(** communicate.py:11-14 *)
Definition effective_limits (outlimit errlimit : option N) : N * N :=
  let o := match outlimit with Some l => l | None => 10485760%N end in
  (o, match errlimit with Some l => l | None => o end).
