(** Where test case files belong when a problem names no formats: the two default patterns of
    dmoj/problem.py:20-21 and the reading of their groups (problem.py:64-82, 149-154).

    Names are sequences of code points.  A pattern is matched by backtracking, as Python's
    re does: alternatives and repetitions are tried in the order re tries them, and the first
    way that works is the match. *)
From Coq Require Import String.
From Verif Require Import Model.Bytes Model.UnicodeTables Model.Regex Model.Problem.
Local Open Scope list_scope.

(** [\s] of a str pattern (str.isspace, Unicode 14) *)
Definition is_space (c : N) : bool :=
  ((9 <=? c) && (c <=? 13) || (28 <=? c) && (c <=? 32) || (c =? 133) || (c =? 160) || (c =? 5760)
   || (8192 <=? c) && (c <=? 8202) || (c =? 8232) || (c =? 8233) || (c =? 8239) || (c =? 8287) || (c =? 12288))%N.
(** A literal of the patterns under re.IGNORECASE: a lower-case ASCII letter or a dot.  For 'i'
    re also accepts U+0130 and U+0131. *)
Definition same (c x : N) : bool :=
  ((x =? c) || (97 <=? c) && (x =? c - 32) || (c =? 105) && ((x =? 304) || (x =? 305)))%N.

(** The constructs of the two patterns. *)
Inductive group_name := GBatch | GCase.
Inductive pat :=
| Bos                              (* ^ *)
| Eos                              (* $ *)
| Lit (c : N)
| One (f : N -> bool)              (* one character of a set *)
| Star (f : N -> bool)             (* greedy * *)
| Plus (f : N -> bool)             (* greedy + *)
| Lazy (f : N -> bool)             (* *? *)
| Seq (a b : pat)
| Or (a b : pat)
| Maybe (a : pat)                  (* greedy ? *)
| Ahead (a : pat)                  (* (?=a), with no groups inside *)
| Named (g : group_name) (a : pat).

Record captures := { batch : option (list N); case : option (list N) }.
Record state := { rest : list N; groups : captures }.
Definition moved (s : state) (l : list N) : state := {| rest := l; groups := groups s |}.
Definition taken (from upto : list N) : list N := firstn (length from - length upto) from.
Definition capture (g : group_name) (t : list N) (s : state) : state :=
  {| rest := rest s; groups := match g with
                               | GBatch => {| batch := Some t; case := case (groups s) |}
                               | GCase => {| batch := batch (groups s); case := Some t |} end |}.
Definition orelse {A} (a b : option A) : option A := match a with Some x => Some x | None => b end.

Fixpoint star (f : N -> bool) (l : list N) (k : list N -> option captures) : option captures :=
  match l with
  | x :: t => if f x then orelse (star f t k) (k l) else k l
  | [] => k l
  end.
Fixpoint lazy (f : N -> bool) (l : list N) (k : list N -> option captures) : option captures :=
  orelse (k l) (match l with x :: t => if f x then lazy f t k else None | [] => None end).
(** Is this the end, or the newline before it? *)
Definition at_end (l : list N) : bool := match l with [] => true | [c] => (c =? 10)%N | _ => false end.

Section Run.
  (** Length of the whole name: [^] holds where that much is left. *)
  Variable total : nat.
  (** Match [p] here and go on with [k]. *)
  Fixpoint run (p : pat) (s : state) (k : state -> option captures) : option captures :=
    match p with
    | Bos => if length (rest s) =? total then k s else None
    | Eos => if at_end (rest s) then k s else None
    | Lit c => match rest s with x :: t => if same c x then k (moved s t) else None | [] => None end
    | One f => match rest s with x :: t => if f x then k (moved s t) else None | [] => None end
    | Star f => star f (rest s) (fun l => k (moved s l))
    | Plus f => match rest s with x :: t => if f x then star f t (fun l => k (moved s l)) else None | [] => None end
    | Lazy f => lazy f (rest s) (fun l => k (moved s l))
    | Seq a b => run a s (fun s' => run b s' k)
    | Or a b => orelse (run a s k) (run b s k)
    | Maybe a => orelse (run a s k) (k s)
    | Ahead a => match run a s (fun s' => Some (groups s')) with Some _ => k s | None => None end
    | Named g a => run a s (fun s' => k (capture g (taken (rest s) (rest s')) s'))
    end.
End Run.

(** '.' matches all but a newline *)
Definition dot (c : N) : bool := negb (c =? 10)%N.
Definition not_word (c : N) : bool := negb (is_word c).
(** [^\d\s] *)
Definition other (c : N) : bool := negb (is_digit c || is_space c).
Fixpoint lits (w : list N) : pat := match w with [] => Star (fun _ => false) | [c] => Lit c | c :: r => Seq (Lit c) (lits r) end.
(** problem.py:20-21:
    ^(?=.*?\.in|in).*?(?:(?:^|\W)(?P<batch>\d+)[^\d\s]+)?(?P<case>\d+)[^\d\s]*$ and the same with
    'out' *)
Definition word_of (r : role) : list N := match r with InputFile => B "in" | OutputFile => B "out" end.
Definition numbers : pat :=
  Seq (Maybe (Seq (Or Bos (One not_word)) (Seq (Named GBatch (Plus is_digit)) (Plus other))))
      (Seq (Named GCase (Plus is_digit)) (Seq (Star other) Eos)).
Definition marker (w : list N) : pat := Or (Seq (Lazy dot) (lits (46%N :: w))) (lits w).
Definition default_pattern (r : role) : pat :=
  Seq Bos (Seq (Ahead (marker (word_of r))) (Seq (Lazy dot) numbers)).
(** pattern.match(filename) *)
Definition matched_groups (r : role) (name : list N) : option captures :=
  run (length name) (default_pattern r) {| rest := name; groups := {| batch := None; case := None |} |} (fun s => Some (groups s)).

(** int() of a string of digits: the value of a digit of any script (each script's digits are
    ten consecutive code points).  Newer Pythons refuse to read more than 4300 digits; that is
    left out. *)
Definition digit_value (c : N) : N :=
  if ((48 <=? c) && (c <=? 57))%N then (c - 48)%N
  else match find (fun r => (fst r <=? c) && (c <=? snd r))%N digit_ranges with
       | Some r => ((c - fst r) mod 10)%N
       | None => 0%N
       end.
Definition int_value (s : list N) : Z := Z.of_N (fold_left (fun a c => 10 * a + digit_value c)%N s 0%N).
(** try_match_int (problem.py:64-73): a group the match did not use is None, which int() refuses
    with a TypeError; the groups of these patterns hold digits only, so int() reads them. *)
Definition try_match_int (g : option (list N)) : option id := option_map (fun s => IInt (int_value s)) g.
(** parse_position (problem.py:75-82) with the default patterns *)
Definition default_parse (r : role) (name : list N) : option (option id * option id) :=
  match matched_groups r name with
  | Some c => Some (try_match_int (batch c), try_match_int (case c))
  | None => None
  end.
