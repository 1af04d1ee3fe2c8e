(** Problem data: dmoj/problem.py [_normalize], [_match_test_cases], [input_data],
    [output_data], [free_data]; dmoj/utils/helper_files.py. *)
From Coq Require Import String.
From Verif Require Import Model.Bytes.
Local Open Scope list_scope.

(** ** _normalize (problem.py:235-255) *)
(** data.replace(b'\r\n', b'\r') *)
Fixpoint replace_crlf (d : list N) : list N :=
  match d with
  | [] => []
  | c :: r => if (c =? 13)%N then match r with
                                  | c2 :: r2 => if (c2 =? 10)%N then 13%N :: replace_crlf r2 else 13%N :: replace_crlf r
                                  | [] => [13%N] end
              else c :: replace_crlf r
  end.
(** data.replace(b'\r', b'\n') *)
Definition replace_cr (d : list N) : list N := map (fun c => if (c =? 13)%N then 10%N else c) d.
Definition endswith_lf (d : list N) : bool := match rev d with c :: _ => (c =? 10)%N | [] => false end.
Definition normalize (binary : bool) (data : list N) : list N :=
  match data with
  | [] => []
  | _ => if binary then data
         else let d := replace_cr (replace_crlf data) in if endswith_lf d then d else d ++ [10%N]
  end.

(** ** _match_test_cases (problem.py:63-127) *)
(** An id: what [try_match_int] gives for a group that took part in the match.  Strings
    are those Python's int() refuses. *)
Inductive id := IInt (z : Z) | IStr (s : list N).
Definition id_eqb (a b : id) : bool :=
  match a, b with IInt x, IInt y => (x =? y)%Z | IStr x, IStr y => beqb x y | _, _ => false end.
Definition id_truthy (a : id) : bool := match a with IInt z => negb (z =? 0)%Z | IStr s => match s with [] => false | _ => true end end.
(** [<] on ids; [None] = TypeError *)
Fixpoint str_ltb (a b : list N) : bool :=
  match a, b with
  | _, [] => false
  | [], _ => true
  | x :: a', y :: b' => (x <? y)%N || ((x =? y)%N && str_ltb a' b')
  end.
Definition id_ltb (a b : id) : option bool :=
  match a, b with IInt x, IInt y => Some (x <? y)%Z | IStr x, IStr y => Some (str_ltb x y) | _, _ => None end.

Inductive role := InputFile | OutputFile.
Record entry := { input_file : option (list N); output_file : option (list N) }.
Definition no_entry := {| input_file := None; output_file := None |}.
(** setattr(entry, filetype, name) *)
Definition set_file (r : role) (name : list N) (e : entry) : entry :=
  match r with
  | InputFile => {| input_file := Some name; output_file := output_file e |}
  | OutputFile => {| input_file := input_file e; output_file := Some name |}
  end.
(** defaultdicts as association lists in insertion order *)
Fixpoint upd {A} (dflt : A) (k : id) (f : A -> A) (m : list (id * A)) : list (id * A) :=
  match m with
  | [] => [(k, f dflt)]
  | (k', v) :: r => if id_eqb k k' then (k', f v) :: r else (k', v) :: upd dflt k f r
  end.
Definition groups := list (id * list (id * entry)).

Inductive match_error := NoCaseNumber | Conflicting | Unorderable | PointsExhausted.
Inductive mresult (A : Type) := Ok (a : A) | Err (e : match_error).
Arguments Ok {A}. Arguments Err {A}.
(** Entries of the resulting test_cases list. *)
Inductive matched (P : Type) := MCase (e : entry) (points : P) | MBatch (cases : list entry) (points : P).
Arguments MCase {P}. Arguments MBatch {P}.

(** Python's sorted() on distinct ids: any comparison sort of a list holding both kinds
    compares one of each and raises.  Insertion sort stands for it. *)
Fixpoint insert {A} (k : id) (v : A) (l : list (id * A)) : option (list (id * A)) :=
  match l with
  | [] => Some [(k, v)]
  | (k', v') :: r =>
      match id_ltb k k' with
      | None => None
      | Some true => Some ((k, v) :: l)
      | Some false => match insert k v r with Some r' => Some ((k', v') :: r') | None => None end
      end
  end.
Fixpoint isort {A} (l : list (id * A)) : option (list (id * A)) :=
  match l with
  | [] => Some []
  | (k, v) :: r => match isort r with Some s => insert k v s | None => None end
  end.

Section Match.
  (** [parse role filename]: pattern.match and the two groups, as ids.  [None] = no match;
      the default patterns are in Model/CaseNames.v, those of a problem's own are
      left open. *)
  Variable parse : role -> list N -> option (option id * option id).
  Context {P : Type}.

  (** problem.py:93-105 *)
  Definition step (r : role) (name : list N) (st : groups * list id) : mresult (groups * list id) :=
    match parse r name with
    | None => Ok st
    | Some (_, None) => Err NoCaseNumber
    | Some (b, Some c) =>
        let batch_ids := match b with Some x => x :: snd st | None => snd st end in
        let g := match b with Some x => if id_truthy x then x else c | None => c end in      (* batch or case *)
        Ok (upd [] g (upd no_entry c (set_file r name)) (fst st), batch_ids)
    end.
  Fixpoint scan (r : role) (names : list (list N)) (st : groups * list id) : mresult (groups * list id) :=
    match names with
    | [] => Ok st
    | n :: rest => match step r n st with Ok st' => scan r rest st' | Err e => Err e end
    end.
  (** problem.py:107-126; points is the iterator, [None] once it is exhausted. *)
  Fixpoint build (gs : groups) (batch_ids : list id) (i : nat) (points : nat -> option P) : mresult (list (matched P)) :=
    match gs with
    | [] => Ok []
    | (g, cs) :: rest =>
        if existsb (id_eqb g) batch_ids
        then match isort cs with
             | None => Err Unorderable
             | Some s =>
                 match points i with
                 | None => Err PointsExhausted
                 | Some p => match build rest batch_ids (S i) points with
                             | Ok l => Ok (MBatch (map snd s) p :: l) | Err e => Err e end
                 end
             end
        else match cs with
             | [(_, e)] =>
                 match points i with
                 | None => Err PointsExhausted
                 | Some p => match build rest batch_ids (S i) points with
                             | Ok l => Ok (MCase e p :: l) | Err e => Err e end
                 end
             | _ => Err Conflicting        (* never empty *)
             end
    end.
  Definition match_test_cases (names : list (list N)) (points : nat -> option P) : mresult (list (matched P)) :=
    match scan InputFile names ([], []) with
    | Err e => Err e
    | Ok st =>
        match scan OutputFile names st with
        | Err e => Err e
        | Ok (gs, bs) => match isort gs with None => Err Unorderable | Some s => build s bs 0 points end
        end
    end.
End Match.

(** ** helper programs (utils/helper_files.py:63-83)

    What is known of a finished process. *)
Record finished := { is_tle : bool; is_mle : bool; fault : bool; returncode : Z }.
Inductive helper_error := HTimeout | HMemory | HSyscall | HExit (code : Z) | HSignal (sig : Z).
(** [None] = returns normally.  A negative return code is the signal. *)
Definition parse_helper_file_error (p : finished) : option helper_error :=
  if is_tle p then Some HTimeout
  else if is_mle p then Some HMemory
  else if fault p then Some HSyscall
  else if (returncode p =? 0)%Z then None
  else Some (if (0 <? returncode p)%Z then HExit (returncode p) else HSignal (- returncode p)).

(** ** Test data (problem.py:257-347, 374) *)
Record source := { in_name : list N; out_name : list N; has_gen : bool; binary : bool }.   (* '' = not configured *)
Definition given (name : list N) : bool := match name with [] => false | _ => true end.
(** [generated] and how many generator processes were run so far. *)
Record data_state := { generated : option (list N * list N); runs : nat }.
Definition fresh := {| generated := None; runs := 0 |}.
Inductive data_outcome := Data (d : list N) | MissingFile | GeneratorFailed.

Section DataSource.
  (** problem_data[name]; [None] = KeyError *)
  Variable file : list N -> option (list N).
  (** Running the generator process for the n-th time on the given input: its stdout,
      stderr and how it ended; [None] = it could not be compiled or launched. *)
  Variable launch : nat -> option (list N) -> option (list N * list N * finished).
  Variable s : source.

  (** problem.py:257-324.  [true] = returns normally. *)
  Definition run_generator (st : data_state) : bool * data_state :=
    let input := if given (in_name s) then file (in_name s) else None in
    match launch (runs st) input with
    | None => (false, st)
    | Some (out, err, p) =>
        (match parse_helper_file_error p with None => true | Some _ => false end,
         {| generated := Some (normalize (binary s) out, normalize (binary s) err); runs := S (runs st) |})
    end.
  Definition ensure (st : data_state) : bool * data_state :=
    match generated st with Some _ => (true, st) | None => run_generator st end.
  Definition from_file (name : list N) : data_outcome :=
    match file name with Some d => Data (normalize (binary s) d) | None => MissingFile end.
  (** problem.py:326-338 *)
  Definition input_data (st : data_state) : data_outcome * data_state :=
    let fallback := if given (in_name s) then from_file (in_name s) else Data [] in
    if has_gen s && (negb (given (out_name s)) || negb (given (in_name s)))
    then match ensure st with
         | (false, st') => (GeneratorFailed, st')
         | (true, st') =>
             match generated st' with
             | Some (c :: d, _) => (Data (c :: d), st')
             | _ => (fallback, st')
             end
         end
    else (fallback, st).
  (** problem.py:340-348 *)
  Definition output_data (st : data_state) : data_outcome * data_state :=
    if given (out_name s) then (from_file (out_name s), st)
    else if has_gen s
    then match ensure st with
         | (false, st') => (GeneratorFailed, st')
         | (true, st') => (Data (match generated st' with Some (_, o) => o | None => [] end), st')
         end
    else (Data [], st).
  (** problem.py:371-372 *)
  Definition free_data (st : data_state) : data_state := {| generated := None; runs := runs st |}.

  Inductive data_op := Input | Output | Free.
  Definition data_step (st : data_state) (op : data_op) : data_outcome * data_state :=
    match op with Input => input_data st | Output => output_data st | Free => (Data [], free_data st) end.
  Definition data_run (st : data_state) (ops : list data_op) : data_state := fold_left (fun st op => snd (data_step st op)) ops st.
End DataSource.
