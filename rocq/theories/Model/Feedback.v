(** What a failed program's standard error is turned into: parse_feedback_from_stderr of
    gcc_executor.py, python_executor.py, java_executor.py and mono_executor.py.

    A pattern is modelled by what Python's [re] does with it at one position: the text of
    group 1 and what is left after the match. *)
From Coq Require Import String.
From Verif Require Import Model.Bytes Model.Utf8 Model.Executors.
Local Open Scope nat_scope.
Local Open Scope list_scope.

(** [pattern.finditer(s)]: matches from left to right, each search starting where the last
    match ended.  [prev] is the character before [s].  Every pattern here matches at least
    one character; [fuel] is the length of the text. *)
Fixpoint finditer (m : option N -> bytes -> option (bytes * bytes)) (fuel : nat) (prev : option N) (s : bytes) : list bytes :=
  match fuel, s with
  | O, _ | _, [] => []
  | S f, c :: r =>
      match m prev s with
      | Some (g, rest) => g :: finditer m f (Some (last (firstn (length s - length rest) s) c)) rest
      | None => finditer m f (Some c) r
      end
  end.
(** deque(finditer(s), maxlen=1) *)
Definition last_match (m : option N -> bytes -> option (bytes * bytes)) (s : bytes) : option bytes :=
  match rev (finditer m (length s) None s) with g :: _ => Some g | [] => None end.

(** [$] with re.M *)
Definition eol (s : bytes) : bool := match s with [] => true | c :: _ => (c =? LF)%N end.
Definition ascii_letter (c : N) : bool := ((65 <=? c) && (c <=? 90) || (97 <=? c) && (c <=? 122))%N.
Definition ascii_digit (c : N) : bool := ((48 <=? c) && (c <=? 57))%N.
(** drop the literal [p] from the front *)
Fixpoint after (p s : bytes) : option bytes :=
  match p, s with
  | [], _ => Some s
  | x :: p', y :: s' => if (x =? y)%N then after p' s' else None
  | _ :: _, [] => None
  end.

(** ** gcc_executor.py:16: terminate called after throwing an instance of '([A-Za-z0-9_:]+)'\r?$ *)
Definition name_char (c : N) : bool := (ascii_letter c || ascii_digit c || (c =? 95) || (c =? 58))%N.
Definition recppexc (_ : option N) (s : bytes) : option (bytes * bytes) :=
  match after (B "terminate called after throwing an instance of '") s with
  | None => None
  | Some t =>
      match span name_char t with
      | (n :: ns, q :: r) =>
          if (q =? 39)%N then
            if eol r then Some (n :: ns, r)
            else match r with c :: r' => if (c =? CR)%N && eol r' then Some (n :: ns, r') else None | [] => None end
          else None
      | _ => None
      end
  end.
(** gcc_executor.py:83-90 *)
Definition gcc_feedback (stderr : bytes) : text :=
  if (match stderr with [] => true | _ => false end) || (2048 <? N.of_nat (length stderr))%N then []
  else match last_match recppexc stderr with
       | None => []
       | Some e => if 40 <? length e then [] else utf8text_replace e
       end.

Section Words.
  (** Python's \w on characters outside ASCII *)
  Variable word_beyond : N -> bool.
  Definition word (c : N) : bool :=
    if (c <? 128)%N then ascii_letter c || ascii_digit c || (c =? 95)%N else word_beyond c.

  (** ** python_executor.py:7: after the literal, [.*?\n] is the nearest line break after
      which the rest of the pattern matches.  The line: ([a-zA-Z_]\w* )(?::[^\n]*?)?$ *)
  Definition exception_at (s : bytes) : option (bytes * bytes) :=
    match s with
    | [] => None
    | c :: t =>
        if ascii_letter c || (c =? 95)%N then
          let (w, u) := span word t in
          match u with
          | [] => Some (c :: w, [])
          | d :: v => if (d =? LF)%N then Some (c :: w, u)
                      else if (d =? 58)%N then Some (c :: w, snd (span (fun x => negb (x =? LF)%N) v))
                      else None
          end
        else None
    end.
  Fixpoint nearest_exception (s : bytes) : option (bytes * bytes) :=
    match s with
    | [] => None
    | c :: r => if (c =? LF)%N
                then match exception_at r with Some x => Some x | None => nearest_exception r end
                else nearest_exception r
    end.
  Definition retraceback (_ : option N) (s : bytes) : option (bytes * bytes) :=
    match after (B "Traceback (most recent call last):" ++ [LF]) s with
    | None => None
    | Some t => nearest_exception t
    end.
  (** python_executor.py:50-57 *)
  Definition python_feedback (stderr : bytes) : text :=
    if (match stderr with [] => true | _ => false end) || (2048 <? N.of_nat (length stderr))%N then []
    else match last_match retraceback (utf8text_replace stderr) with
         | None => []
         | Some e => if 20 <? length e then [] else e
         end.

  (** ** mono_executor.py:11: \bFATAL UNHANDLED EXCEPTION: (.*?): *)
  Definition mono_exception (prev : option N) (s : bytes) : option (bytes * bytes) :=
    if match prev with Some p => word p | None => false end then None
    else match after (B "FATAL UNHANDLED EXCEPTION: ") s with
         | None => None
         | Some t => match span (fun c => negb ((c =? 58) || (c =? LF))%N) t with
                     | (g, c :: r) => if (c =? 58)%N then Some (g, r) else None
                     | (_, []) => None
                     end
         end.
  (** mono_executor.py:77-83 *)
  Definition mono_feedback (stderr : bytes) : text :=
    match last_match mono_exception (utf8text_replace stderr) with Some e => e | None => [] end.
End Words.

(** ** java_executor.py:22: the marker the sandbox agent prints, then the rest of the line *)
Definition reexception (_ : option N) (s : bytes) : option (bytes * bytes) :=
  match after (B "7257b50d-e37a-4664-b1a5-b1340b4206c0: ") s with
  | None => None
  | Some t => Some (span (fun c => negb (c =? LF)%N) t)
  end.
(** s.split(':')[0] *)
Definition before_colon (s : bytes) : bytes := fst (span (fun c => negb (c =? 58)%N) s).
(** The crash log of the JVM: reading it fails (IOError), gives text, or is not text. *)
Inductive log := NoLog | Log (t : text) | BadLog.
Inductive answer := Feedback (t : text) | InternalErr (t : text) | Undecodable.
(** java_executor.py:114-138 *)
Definition java_feedback (returncode : option Z) (crash : log) (stderr : bytes) : answer :=
  let rest :=
    Feedback (if contains (B "Error: Main method not found in class") stderr
              then B "public static void main(String[] args) not found"
              else match last_match reexception (utf8text_replace stderr) with
                   | None => B "abnormal termination"
                   | Some e => before_colon e
                   end) in
  if match returncode with Some 0%Z | None => false | _ => true end then
    match crash with
    | NoLog => rest
    | BadLog => Undecodable
    | Log t => if contains (B "There is insufficient memory for the Java Runtime") t
               then Feedback (B "insufficient memory to initialize JVM")
               else InternalErr ([LF; LF] ++ t)
    end
  else rest.
