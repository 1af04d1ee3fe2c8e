(** The regular expressions of the file rules: the part of Python's [re] that the rules in
    dmoj/executors/ use (literals, escapes, non-capturing groups, alternation, '?', '$',
    negative look-ahead, '.', '\d', '\w', '[\w-]', and '*' and '+' after one character),
    parsed from the same text.  Any other construct is reported as unsupported ([None]);
    Python's backtracking order (so also the lazy '*?') does not matter because only the
    existence of a match is used. *)
From Coq Require Import String.
From Verif Require Import Model.Bytes Model.UnicodeTables.
Local Open Scope list_scope.

(** Sets of characters: any but a newline, \d, \w, [\w-], one character. *)
Inductive cls := Any | Digit | Word | WordDash | Is (c : N).
Definition in_ranges (l : list (N * N)) (c : N) : bool := existsb (fun r => (fst r <=? c) && (c <=? snd r))%N l.
Definition is_digit (c : N) : bool := ((48 <=? c) && (c <=? 57))%N || in_ranges digit_ranges c.
Definition is_word (c : N) : bool :=
  ((48 <=? c) && (c <=? 57) || (65 <=? c) && (c <=? 90) || (97 <=? c) && (c <=? 122) || (c =? 95))%N
  || in_ranges word_ranges c.
Definition in_cls (k : cls) (c : N) : bool :=
  match k with
  | Any => negb (c =? 10)%N
  | Digit => is_digit c
  | Word => is_word c
  | WordDash => is_word c || (c =? 45)%N
  | Is d => (c =? d)%N
  end.

Inductive re := Eps | Chr (c : N) | Cat (a b : re) | Alt (a b : re) | Opt (a : re) | End | Not (a : re)
| Cls (k : cls) | Many (k : cls).
(** What is left after 0, 1, ... characters of the set. *)
Fixpoint run_many (k : cls) (s : list N) : list (list N) :=
  match s with
  | [] => [s]
  | x :: t => s :: (if in_cls k x then run_many k t else [])
  end.

(** All the remainders a match from the start of [s] can leave ([re.match]). *)
Fixpoint run (r : re) (s : list N) : list (list N) :=
  match r with
  | Eps => [s]
  | Chr c => match s with x :: t => if (x =? c)%N then [t] else [] | [] => [] end
  | Cat a b => flat_map (run b) (run a s)
  | Alt a b => run a s ++ run b s
  | Opt a => run a s ++ [s]
  | End => match s with [] => [s] | [c] => if (c =? 10)%N then [s] else [] | _ => [] end
  | Not a => match run a s with [] => [s] | _ => [] end
  | Cls k => match s with x :: t => if in_cls k x then [t] else [] | [] => [] end
  | Many k => run_many k s
  end.
(** [compiled.match(s) is not None] *)
Definition matches (r : re) (s : list N) : bool := match run r s with [] => false | _ => true end.

(** ** Reading a pattern *)
Inductive token := TChr (c : N) | TOpen (neg : bool) | TClose | TBar | TOpt | TEnd
| TCls (k : cls) | TStar | TPlus.
Definition is_alnum (c : N) : bool :=
  ((48 <=? c) && (c <=? 57) || (65 <=? c) && (c <=? 90) || (97 <=? c) && (c <=? 122))%N.
(** characters whose meaning in a pattern is not modelled: ( [ ] ^ { } *)
Definition unsupported (c : N) : bool := existsb (N.eqb c) [40; 91; 93; 94; 123; 125]%N.
Definition simple (c : N) : option token :=
  if (c =? 41)%N then Some TClose
  else if (c =? 124)%N then Some TBar
  else if (c =? 63)%N then Some TOpt
  else if (c =? 36)%N then Some TEnd
  else if (c =? 46)%N then Some (TCls Any)
  else if (c =? 42)%N then Some TStar
  else if (c =? 43)%N then Some TPlus
  else if unsupported c then None
  else Some (TChr c).
Fixpoint tokens (p : list N) : option (list token) :=
  match p with
  | [] => Some []
  | c :: r =>
      if (c =? 40)%N then
        match r with
        | q :: k :: r' =>
            if (q =? 63)%N && ((k =? 58)%N || (k =? 33)%N)
            then option_map (cons (TOpen (k =? 33)%N)) (tokens r') else None
        | _ => None
        end
      else if (c =? 92)%N then
        match r with
        | d :: r' =>
            if (d =? 100)%N then option_map (cons (TCls Digit)) (tokens r')
            else if (d =? 119)%N then option_map (cons (TCls Word)) (tokens r')
            else if is_alnum d then None else option_map (cons (TChr d)) (tokens r')
        | [] => None
        end
      else if (c =? 91)%N then
        match r with
        | a :: b :: d :: e :: r' =>
            if beqb [a; b; d; e] (B "\w-]") then option_map (cons (TCls WordDash)) (tokens r') else None
        | _ => None
        end
      else match simple c with Some t => option_map (cons t) (tokens r) | None => None end
  end.

(** one open group: is it a look-ahead, the alternatives before, the items before *)
Record frame := { neg : bool; alts : list re; items : list re }.
Record pstate := { stack : list frame; cur_alts : list re; cur : list re }.
Definition cat (l : list re) : re := fold_left (fun acc x => Cat x acc) l Eps.
Definition group (alts items : list re) : re := fold_left (fun acc x => Alt x acc) alts (cat items).
(** what can be repeated here: one character *)
Definition repeated (x : re) : option cls :=
  match x with Chr c => Some (Is c) | Cls k => Some k | _ => None end.
(** '?' after a repetition makes it lazy *)
Definition step (st : pstate) (t : token) : option pstate :=
  match t with
  | TChr c => Some {| stack := stack st; cur_alts := cur_alts st; cur := Chr c :: cur st |}
  | TEnd => Some {| stack := stack st; cur_alts := cur_alts st; cur := End :: cur st |}
  | TBar => Some {| stack := stack st; cur_alts := cat (cur st) :: cur_alts st; cur := [] |}
  | TCls k => Some {| stack := stack st; cur_alts := cur_alts st; cur := Cls k :: cur st |}
  | TStar => match cur st with
             | x :: r => match repeated x with
                         | Some k => Some {| stack := stack st; cur_alts := cur_alts st; cur := Many k :: r |}
                         | None => None
                         end
             | [] => None
             end
  | TPlus => match cur st with
             | x :: r => match repeated x with
                         | Some k => Some {| stack := stack st; cur_alts := cur_alts st; cur := Many k :: x :: r |}
                         | None => None
                         end
             | [] => None
             end
  | TOpt => match cur st with
            | Many k :: r => Some st
            | x :: r => Some {| stack := stack st; cur_alts := cur_alts st; cur := Opt x :: r |}
            | [] => None
            end
  | TOpen n => Some {| stack := {| neg := n; alts := cur_alts st; items := cur st |} :: stack st;
                       cur_alts := []; cur := [] |}
  | TClose => match stack st with
              | f :: r =>
                  let g := group (cur_alts st) (cur st) in
                  Some {| stack := r; cur_alts := alts f; cur := (if neg f then Not g else g) :: items f |}
              | [] => None
              end
  end.
Fixpoint steps (st : pstate) (l : list token) : option pstate :=
  match l with
  | [] => Some st
  | t :: r => match step st t with Some st' => steps st' r | None => None end
  end.
Definition start : pstate := {| stack := []; cur_alts := []; cur := [] |}.
(** re.compile *)
Definition compile (p : list N) : option re :=
  match tokens p with
  | Some l => match steps start l with
              | Some st => match stack st with [] => Some (group (cur_alts st) (cur st)) | _ => None end
              | None => None
              end
  | None => None
  end.

(** re.escape (Python 3.7 and later) *)
Definition special (c : N) : bool :=
  existsb (N.eqb c) (B "()[]{}?*+-|^$\.&~# " ++ [9; 10; 13; 11; 12])%N.
Definition escape (s : list N) : list N := flat_map (fun c => if special c then [92%N; c] else [c]) s.

(** '|'.join *)
Fixpoint bar_join (l : list (list N)) : list N :=
  match l with [] => [] | [x] => x | x :: r => x ++ 124%N :: bar_join r end.

(** p.format(pid=pid), for patterns without other braces (others: [None]) *)
Fixpoint format_pid (pid : list N) (p : list N) : option (list N) :=
  match p with
  | [] => Some []
  | c :: r =>
      if (c =? 123)%N then
        match r with
        | a :: b :: d :: e :: r' =>
            if beqb [a; b; d; e] (B "pid}") then option_map (app pid) (format_pid pid r') else None
        | _ => None
        end
      else if (c =? 125)%N then None
      else option_map (cons c) (format_pid pid r)
  end.
