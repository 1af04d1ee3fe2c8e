(** What the judge prints and reports as text: dmoj/utils/ansi.py, the reports of judge.py's handlers
    (judge.py:119-126, 170-175, 188-236), log_internal_error (judge.py:273-297), submissions.py.
    Text is a list of code points. *)
From Coq Require Import String QArith Qround.
From Verif Require Import Model.Bytes Model.Result.
Local Open Scope nat_scope.
Local Open Scope list_scope.

(** ** ansi_style, ansi.py:11-25 *)
(** (.*?)P: the shortest text without a newline before the next P, and what follows. *)
Fixpoint until (p s : bytes) : option (bytes * bytes) :=
  if starts_with p s then Some ([], skipn (List.length p) s)
  else match s with
       | [] => None
       | c :: r => if (c =? 10)%N then None else option_map (fun x => (c :: fst x, snd x)) (until p r)
       end.
(** \#ansi\[(.*?)\]\((.*?)\) at the start of [s].  Python would try a later "](" if no ")" follows the first
    one on the line; then none follows a later one either. *)
Definition mark : bytes := B "#ansi[".
Definition match_ansi (s : bytes) : option (bytes * bytes * bytes) :=
  if starts_with mark s
  then match until (B "](") (skipn (List.length mark) s) with
       | Some (text, r) => match until (B ")") r with Some (attrs, rest) => Some (text, attrs, rest) | None => None end
       | None => None
       end
  else None.
(** The trusted description of termcolor 1.1: tables, and colored; [None]: KeyError *)
Definition COLORS : list (bytes * N) :=
  [(B "grey", 30); (B "red", 31); (B "green", 32); (B "yellow", 33); (B "blue", 34); (B "magenta", 35); (B "cyan", 36); (B "white", 37)]%N.
Definition HIGHLIGHTS : list (bytes * N) := map (fun p => (B "on_" ++ fst p, snd p + 10)%N) COLORS.
Definition ATTRIBUTES : list (bytes * N) :=
  [(B "bold", 1); (B "dark", 2); (B "underline", 4); (B "blink", 5); (B "reverse", 7); (B "concealed", 8)]%N.
Fixpoint lookup (k : bytes) (t : list (bytes * N)) : option N :=
  match t with [] => None | (k', v) :: r => if beqb k k' then Some v else lookup k r end.
(** str of a number below 100, as all codes are *)
Definition small (n : N) : bytes := if (n <? 10)%N then [48 + n]%N else [48 + n / 10; 48 + n mod 10]%N.
Definition ESC : N := 27.
Definition escape (n : N) : bytes := [ESC; 91]%N ++ small n ++ B "m".
Definition painted (t : list (bytes * N)) (k : bytes) (text : bytes) : option bytes :=
  option_map (fun n => escape n ++ text) (lookup k t).
Definition bind {A B : Type} (o : option A) (f : A -> option B) : option B := match o with Some x => f x | None => None end.
Definition paint_all (attrs : list bytes) (text : bytes) : option bytes :=
  fold_left (fun o k => bind o (painted ATTRIBUTES k)) attrs (Some text).
Definition colored (text : bytes) (color on_color : option bytes) (attrs : list bytes) : option bytes :=
  bind (match color with Some k => painted COLORS k text | None => Some text end) (fun t =>
  bind (match on_color with Some k => painted HIGHLIGHTS k t | None => Some t end) (fun t =>
  bind (paint_all attrs t) (fun t => Some (t ++ escape 0)))).
(** format_inline, ansi.py:14-20: more than two colors are too many arguments (TypeError) *)
Definition split_on (c : N) (s : bytes) : list bytes := re_split (N.eqb c) s.
Definition format_inline (text attrs : bytes) : option bytes :=
  let data := split_on 124 attrs in
  let attrs := match data with _ :: a :: _ => split_on 44 a | _ => [] end in
  match data with
  | d :: _ => match split_on 44 d with
              | [c] => colored text (match c with [] => None | _ => Some c end) None attrs
              | [c; h] => colored text (match c with [] => None | _ => Some c end) (Some h) attrs
              | _ => None
              end
  | [] => None
  end.
(** re.sub; the first argument is at least the length of the text *)
Fixpoint style (fuel : nat) (no_ansi : bool) (s : bytes) : option bytes :=
  match fuel with
  | O => Some []
  | S f => match match_ansi s with
           | Some (text, attrs, rest) =>
               bind (if no_ansi then Some text else format_inline text attrs) (fun t =>
               option_map (app t) (style f no_ansi rest))
           | None => match s with [] => Some [] | c :: r => option_map (cons c) (style f no_ansi r) end
           end
  end.
Definition ansi_style (no_ansi : bool) (s : bytes) : option bytes := style (S (List.length s)) no_ansi s.

(** ** strip_ansi, ansi.py:6-8 *)
(** [0-9,A-Z] *)
Definition digit (c : N) : bool := ((48 <=? c) && (c <=? 57))%N.
Definition code_char (c : N) : bool := (digit c || (c =? 44) || ((65 <=? c) && (c <=? 90)))%N.
Definition final (c : N) : bool := existsb (N.eqb c) (B "m|K").
(** x{0,n}, greedily: what remains *)
Fixpoint drop_upto (n : nat) (p : N -> bool) (s : bytes) : bytes :=
  match n, s with
  | S n', c :: r => if p c then drop_upto n' p r else s
  | _, _ => s
  end.
(** (;[0-9]{1,2})? *)
Definition drop_two (s : bytes) : bytes :=
  match s with
  | a :: b :: r => if (a =? 59)%N && digit b then drop_upto 1 digit r else s
  | _ => s
  end.
(** (;[0-9]{3})? *)
Definition drop_three (s : bytes) : bytes :=
  match s with
  | a :: b :: c :: d :: r => if (a =? 59)%N && digit b && digit c && digit d then r else s
  | _ => s
  end.
(** What follows ESC [ : every part is optional, so the greedy choice is the match. *)
Definition after_csi (s : bytes) : bytes :=
  let s1 := match s with c :: _ => if code_char c then drop_three (drop_two (drop_upto 2 code_char s)) else s | [] => s end in
  drop_upto 1 final s1.
Fixpoint strip (fuel : nat) (s : bytes) : bytes :=
  match fuel with
  | O => []
  | S f => match s with
           | [] => []
           | a :: r => match r with
                       | b :: r' => if (a =? ESC)%N && (b =? 91)%N then strip f (after_csi r') else a :: strip f r
                       | [] => [a]
                       end
           end
  end.
Definition strip_ansi (s : bytes) : bytes := strip (List.length s) s.

(** ** Numbers in reports *)
Fixpoint dec_digits (fuel : nat) (n : N) : bytes :=
  match fuel with
  | O => []
  | S f => (if (n <? 10)%N then [] else dec_digits f (n / 10)%N) ++ [(48 + n mod 10)%N]
  end.
(** %d *)
Definition decimal (n : N) : bytes := dec_digits (S (N.to_nat (N.log2 n))) n.
(** %2d *)
Definition decimal2 (n : N) : bytes := if (n <? 10)%N then B " " ++ decimal n else decimal n.
(** %.3f of a number that is not negative: to the nearest thousandth, ties to even *)
Definition thousandths (q : Q) : N :=
  let lo := Qfloor (q * 1000) in
  let r := (q * 1000 - inject_Z lo)%Q in
  Z.to_N (match (r ?= 1 # 2)%Q with
          | Lt => lo
          | Gt => lo + 1
          | Eq => if Z.even lo then lo else lo + 1
          end)%Z.
Definition fixed3 (q : Q) : bytes :=
  let n := thousandths q in
  decimal (n / 1000) ++ B "." ++ [48 + n / 100 mod 10; 48 + n / 10 mod 10; 48 + n mod 10]%N.

(** ** The reports *)
(** result.py:16-26 COLORS_BYID, and the names *)
Definition code_name (c : code) : bytes :=
  match c with
  | AC => B "AC" | WA => B "WA" | RTE => B "RTE" | TLE => B "TLE" | MLE => B "MLE" | IR => B "IR" | SC => B "SC"
  | OLE => B "OLE" | IE => B "IE"
  end.
Definition color_of (c : code) : bytes :=
  match c with
  | AC => B "green" | WA => B "red" | RTE => B "yellow" | TLE => B "white" | MLE => B "yellow" | IR => B "yellow"
  | SC => B "magenta" | OLE => B "yellow" | IE => B "red"
  end.
Record result := CaseResult { flag : N; time : Q; wall : Q; memory : N; feedback : bytes (* None as empty *) }.
(** judge.py:205 *)
Definition colored_code (c : code) : bytes :=
  B "#ansi[" ++ match c with SC => B "--" | _ => code_name c end ++ B "](" ++ color_of c ++ B "|bold)".
(** ', '.join *)
Fixpoint join (sep : bytes) (l : list bytes) : bytes :=
  match l with [] => [] | [x] => x | x :: r => x ++ sep ++ join sep r end.
(** '%-3s' *)
Definition pad3 (s : bytes) : bytes := s ++ repeat 32%N (3 - List.length s).
(** judge.py:201-220, before ansi_style *)
Definition result_markup (batch : option N) (number : N) (r : result) : bytes :=
  let codes := readable_codes (flag r) in
  let colored_codes := map colored_code codes in
  let aux := match colored_codes with _ :: (_ :: _) as t => B "{" ++ join (B ", ") (tl colored_codes) ++ B "}" | _ => [] end in
  let fb := match feedback r with [] => [] | f => B "(#ansi[" ++ f ++ B "](|underline)) " end in
  let info := if truthy (N.land (flag r) (flag_of SC)) then []
              else B "[" ++ fixed3 (time r) ++ B "s (" ++ fixed3 (wall r) ++ B "s) | " ++ decimal (memory r) ++ B "kb] " ++ fb ++ aux in
  match batch with Some _ => B "  " | None => [] end ++ B "Test case " ++ decimal2 number ++ B " " ++ pad3 (hd [] colored_codes)
  ++ B " " ++ info.
(** judge.py:119-126, 170-175, 189, 225, 232 *)
Definition start_markup (problem id language : bytes) : bytes :=
  B "Start grading #ansi[" ++ problem ++ B "](yellow)/#ansi[" ++ id ++ B "](green|bold) in " ++ language ++ B "...".
Definition done_markup (problem id : bytes) : bytes :=
  B "Done grading #ansi[" ++ problem ++ B "](yellow)/#ansi[" ++ id ++ B "](green|bold)." ++ [10%N].
Definition failed_markup : bytes := B "#ansi[Failed compiling submission!](red|bold)".
Definition batch_markup (n : N) : bytes := B "#ansi[Batch #" ++ decimal n ++ B "](yellow|bold)".
Definition aborted_markup : bytes := B "#ansi[Forcefully terminating grading. Temporary files may not be deleted.](red|bold)".

(** What a handler of the grading thread does: lines reported and packets sent, in order; it may end in an
    exception (judge.py:188-236). *)
Inductive packet := CompileError (log : bytes) | TestCase (number : N) (r : result) | BatchBegin | BatchEnd | Aborted | InternalError (m : bytes).
Inductive event := Line (s : bytes) | Sent (p : packet).
Inductive message :=
| MCompileError (log : bytes) | MResult (batch : option N) (number : N) (r : result) | MBatchBegin (n : N) | MBatchEnd | MAborted.
Definition say (no_ansi : bool) (markup : bytes) (next : list event * bool) : list event * bool :=
  match ansi_style no_ansi markup with
  | Some l => (Line l :: fst next, snd next)
  | None => ([], false)
  end.
Definition send (p : packet) (next : list event * bool) : list event * bool := (Sent p :: fst next, snd next).
Definition handle (no_ansi : bool) (m : message) : list event * bool :=
  match m with
  | MCompileError log =>
      say no_ansi failed_markup (Line (py_rstrip log) :: fst (send (CompileError log) ([], true)), true)
  | MResult batch number r => say no_ansi (result_markup batch number r) (send (TestCase number r) ([], true))
  | MBatchBegin n => send BatchBegin (say no_ansi (batch_markup n) ([], true))
  | MBatchEnd => send BatchEnd ([], true)
  | MAborted => send Aborted (say no_ansi aborted_markup ([], true))
  end.
(** log_internal_error, judge.py:273-297: [message] given, or the traceback of the exception being handled; an
    exception while sending is only logged.  [interrupt]: the exception given is KeyboardInterrupt, which is
    raised again. *)
Definition log_internal_error (message traceback : bytes) (interrupt : bool) : option packet :=
  match message with
  | [] => if interrupt then None else Some (InternalError (strip_ansi traceback))
  | _ => Some (InternalError (strip_ansi message))
  end.
(** The loop of the grading thread, judge.py:158-177: a handler that raises ends it with an internal error
    ([trace]: its traceback) *)
Fixpoint grading (no_ansi : bool) (problem id trace : bytes) (l : list message) : list event :=
  match l with
  | [] => match ansi_style no_ansi (done_markup problem id) with
          | Some t => [Line t]
          | None => match log_internal_error [] trace false with Some p => [Sent p] | None => [] end
          end
  | m :: r => let (e, fine) := handle no_ansi m in
              e ++ (if fine then grading no_ansi problem id trace r
                    else match log_internal_error [] trace false with Some p => [Sent p] | None => [] end)
  end.
(** begin_grading, judge.py:112-130: the lock is taken before the first report; [None]: an exception leaves it
    with the lock taken. *)
Definition begin_report (no_ansi : bool) (problem id language : bytes) : option bytes :=
  ansi_style no_ansi (start_markup problem id language).
