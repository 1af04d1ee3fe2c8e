(** Interactive grading: dmoj/graders/interactive.py.

    The bytes the submission prints during the whole run are one fixed list [stream]
    (whatever it was; reads block until the line or the end is there, so what a read
    returns only depends on that list).  Reads and writes on the pipes are the
    buffered files of cptbox/tracer.py:139-151. *)
From Coq Require Import String QArith.
From Verif Require Import Model.Bytes Model.Utf8 Model.Floats Model.Grading.
Local Open Scope nat_scope.
Local Open Scope list_scope.

(** io.BufferedReader.readline(): up to and including the next newline. *)
Fixpoint readline (s : bytes) : bytes * bytes :=
  match s with
  | [] => ([], [])
  | c :: r => if (c =? LF)%N then ([c], r) else let (l, t) := readline r in (c :: l, t)
  end.

(** bytes.split(None, 1) when it has two parts; [None] when it has fewer (the unpacking
    in readtoken then raises ValueError).  CPython's split_whitespace: skip white space,
    take a word, skip white space, the rest is the second part if not empty. *)
Fixpoint span_word (s : bytes) : bytes * bytes :=
  match s with
  | [] => ([], [])
  | c :: r => if py_isspace c then ([], s) else let (w, t) := span_word r in (c :: w, t)
  end.
Definition split1_white (s : bytes) : option (bytes * bytes) :=
  let (w, t) := span_word (py_lstrip s) in
  match py_lstrip t with
  | [] => None
  | rest => Some (w, rest)
  end.
(** bytes.split(delim, 1) when it has two parts.  An empty delim raises ValueError,
    which readtoken takes for "one part". *)
Fixpoint find_cut (d s : bytes) : option (bytes * bytes) :=
  if starts_with d s then Some ([], skipn (length d) s)
  else match s with
       | [] => None
       | c :: r => match find_cut d r with Some (a, b) => Some (c :: a, b) | None => None end
       end.
Definition split1_on (d s : bytes) : option (bytes * bytes) :=
  match d with [] => None | _ => find_cut d s end.

(** int(token) for bytes, base 10 (CPython's PyLong_FromString): white space around, an
    optional sign, digits with single underscores between them.  [None] = ValueError.
    [max_str_digits] is the interpreter's limit on digits (0 = none). *)
Definition is_digit (c : N) : bool := ((48 <=? c) && (c <=? 57))%N.
Fixpoint scan_digits (acc : Z) (count : nat) (us : bool) (s : bytes) : option (Z * nat * bytes) :=
  match s with
  | [] => if us then None else Some (acc, count, [])
  | c :: r =>
      if (c =? 95)%N then if us then None else scan_digits acc count true r
      else if is_digit c then scan_digits (10 * acc + (Z.of_N c - 48)) (S count) false r
      else if us then None else Some (acc, count, s)
  end.
Definition scan_int (max_str_digits : nat) (s : bytes) : option Z :=
  match s with
  | c :: _ =>
      if is_digit c then
        match scan_digits 0 0 false s with
        | Some (v, count, r) =>
            if match py_lstrip r with [] => true | _ => false end
               && ((max_str_digits =? 0) || (count <=? max_str_digits))
            then Some v else None
        | None => None
        end
      else None
  | [] => None
  end.
Definition py_int (max_str_digits : nat) (s : bytes) : option Z :=
  match py_lstrip s with
  | c :: r =>
      if (c =? 45)%N then option_map Z.opp (scan_int max_str_digits r)
      else if (c =? 43)%N then scan_int max_str_digits r
      else scan_int max_str_digits (c :: r)
  | [] => None
  end.

(** The texts a WrongAnswer may carry, by what goes into them (interactive.py:55-78);
    [Custom] is for those the problem's own code raises. *)
Inductive wa_message :=
| IntTooLong | ExpectedInt (got : text) | IntRange (lo hi : option Z) (got : Z)
| FloatTooLong | ExpectedFloat (got : text) | FloatRange (lo hi got : f64)
| Custom (t : text).

(** What a call on the interactor does. *)
Inductive res (A : Type) :=
| Got (a : A)
| IOErr                        (* IOError *)
| WrongAns (m : wa_message)    (* WrongAnswer *)
| Crash.                       (* any other exception *)
Arguments Got {A}. Arguments IOErr {A}. Arguments WrongAns {A}. Arguments Crash {A}.

(** interactive.py:15-19; [sent] is what was written to the submission. *)
Record state := State { stream : bytes; tokens : option bytes; sent : bytes }.
Definition start (output : bytes) : state := State output None [].

(** interactive.py:27-31 *)
Definition read (st : state) : res bytes * state :=
  let st' := State [] (tokens st) (sent st) in
  match stream st with [] => (IOErr, st') | s => (Got s, st') end.

(** interactive.py:33-39 *)
Definition readln (strip_newline : bool) (st : state) : res bytes * state :=
  let (l, rest) := readline (stream st) in
  let st' := State rest (tokens st) (sent st) in
  match l with
  | [] => (IOErr, st')
  | _ => (Got (if strip_newline then py_rstrip l else l), st')
  end.

(** interactive.py:41-49 *)
Definition readtoken (delim : option bytes) (st : state) : res bytes * state :=
  let '(r, st) := match tokens st with
                  | Some (c :: t) => (Got (c :: t), st)
                  | _ => readln true st
                  end in
  match r with
  | Got t =>
      match (match delim with None => split1_white t | Some d => split1_on d t end) with
      | Some (ret, rest) => (Got ret, State (stream st) (Some rest) (sent st))
      | None => (Got t, State (stream st) None (sent st))
      end
  | e => (e, st)
  end.

Definition MAX_NUMBER_DIGITS : N := 10000.
Definition too_long (t : bytes) : bool := (MAX_NUMBER_DIGITS <? N.of_nat (length t))%N.

(** interactive.py:20-24 with n=5; [None] = UnicodeDecodeError. *)
Definition abbreviate (s : bytes) : option text :=
  match utf8text s with
  | None => None
  | Some t => Some (if 5 <? length t then firstn 5 t ++ B "..." else t)
  end.

(** [lo <= ret <= hi]; the bounds are ints, or None for the default infinities
    (finite float bounds are not modelled). *)
Definition ge_lo (lo : option Z) (v : Z) : bool := match lo with None => true | Some l => (l <=? v)%Z end.
Definition le_hi (hi : option Z) (v : Z) : bool := match hi with None => true | Some h => (v <=? h)%Z end.

Section Numbers.
  Variable max_str_digits : nat.
  Variable parse_float : bytes -> option f64.

  (** interactive.py:51-66 *)
  Definition readint (lo hi : option Z) (delim : option bytes) (st : state) : res Z * state :=
    let (r, st') := readtoken delim st in
    match r with
    | Got token =>
        (if too_long token then WrongAns IntTooLong
         else match py_int max_str_digits token with
              | None => match abbreviate token with Some a => WrongAns (ExpectedInt a) | None => Crash end
              | Some v => if ge_lo lo v && le_hi hi v then Got v else WrongAns (IntRange lo hi v)
              end, st')
    | IOErr => (IOErr, st') | WrongAns m => (WrongAns m, st') | Crash => (Crash, st')
    end.

  (** interactive.py:65-79 *)
  Definition readfloat (lo hi : f64) (delim : option bytes) (st : state) : res f64 * state :=
    let (r, st') := readtoken delim st in
    match r with
    | Got token =>
        (if too_long token then WrongAns FloatTooLong
         else match parse_float token with
              | None => match abbreviate token with Some a => WrongAns (ExpectedFloat a) | None => Crash end
              | Some v => if f_le lo v && f_le v hi then Got v else WrongAns (FloatRange lo hi v)
              end, st')
    | IOErr => (IOErr, st') | WrongAns m => (WrongAns m, st') | Crash => (Crash, st')
    end.

  (** interactive.py:81-87 (write, writeln): [val] is str(val); a text with surrogates
      cannot be encoded; a broken pipe is an IOError ([accepts] says whether the
      submission still takes input after what was sent so far). *)
  Variable accepts : bytes -> bool.
  Definition write (val : text) (st : state) : res unit * state :=
    match utf8bytes val with
    | None => (Crash, st)
    | Some b => if accepts (sent st) then (Got tt, State (stream st) (tokens st) (sent st ++ b)) else (IOErr, st)
    end.
  Definition writeln (val : text) (st : state) : res unit * state := write (val ++ [LF]) st.

  (** The problem's [interact]: any terminating sequence of calls, each of which may
      depend on what the earlier ones did, and a way to end. *)
  Inductive script :=
  | Return (check : check_ret)                      (* return value *)
  | RaiseWA (m : wa_message) | RaiseIO | RaiseOther
  | Read (k : res bytes -> script)
  | ReadLn (strip_newline : bool) (k : res bytes -> script)
  | ReadToken (delim : option bytes) (k : res bytes -> script)
  | ReadInt (lo hi : option Z) (delim : option bytes) (k : res Z -> script)
  | ReadFloat (lo hi : f64) (delim : option bytes) (k : res f64 -> script)
  | Write (val : text) (k : res unit -> script)
  | WriteLn (val : text) (k : res unit -> script).

  (** How [interact] ended. *)
  Inductive ending := Returned (c : check_ret) | WA (m : wa_message) | IO | Other.
  Fixpoint interact (s : script) (st : state) : ending * state :=
    match s with
    | Return c => (Returned c, st)
    | RaiseWA m => (WA m, st)
    | RaiseIO => (IO, st)
    | RaiseOther => (Other, st)
    | Read k => let (r, st') := read st in interact (k r) st'
    | ReadLn b k => let (r, st') := readln b st in interact (k r) st'
    | ReadToken d k => let (r, st') := readtoken d st in interact (k r) st'
    | ReadInt lo hi d k => let (r, st') := readint lo hi d st in interact (k r) st'
    | ReadFloat lo hi d k => let (r, st') := readfloat lo hi d st in interact (k r) st'
    | Write v k => let (r, st') := write v st in interact (k r) st'
    | WriteLn v k => let (r, st') := writeln v st in interact (k r) st'
    end.

  (** The text of a WrongAnswer ([str(wa)]). *)
  Variable message_text : wa_message -> bytes.

  (** interactive.py:94-107 (_interact_with_process) and 109-117 (check_result):
      [None] = an exception leaves the grader.  A failing close() comes after self.check
      is set and is caught, so it changes nothing. *)
  Definition verdict (s : script) (output : bytes) (flag : N) (case_points : Q) : option check_ret :=
    match fst (interact s (start output)) with
    | Returned c => Some (interactive_check_result flag c case_points None)
    | WA m => Some (interactive_check_result flag (CkBool false) case_points (Some (message_text m)))
    | IO => Some (interactive_check_result flag (CkBool false) case_points None)
    | Other => None
    end.
End Numbers.
