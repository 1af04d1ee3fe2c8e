(** Marked-up text, colours and the lines of a report, as a reader sees them. *)
From Coq Require Import String QArith.
From Verif Require Import Model.Bytes Model.Result Model.Console Spec.Text.
Local Open Scope nat_scope.
Local Open Scope list_scope.

Definition found_in (p s : bytes) : Prop := exists a b, s = a ++ p ++ b.
(** ** Markup: #ansi[text](attributes), on one line, as short as possible *)
Definition markup (s text attrs rest : bytes) : Prop :=
  s = B "#ansi[" ++ text ++ B "](" ++ attrs ++ B ")" ++ rest /\
  ~ In 10%N text /\ ~ In 10%N attrs /\ ~ In 41%N attrs /\ ~ found_in (B "](") (text ++ B "]").
Inductive piece := Char (c : N) | Marked (text attrs : bytes).
(** Every markup counts, from left to right. *)
Inductive pieces : bytes -> list piece -> Prop :=
| pieces_end : pieces [] []
| pieces_mark s text attrs rest l : markup s text attrs rest -> pieces rest l -> pieces s (Marked text attrs :: l)
| pieces_char c s l : (forall text attrs rest, ~ markup (c :: s) text attrs rest) -> pieces s l -> pieces (c :: s) (Char c :: l).
(** The text of a piece, given what becomes of marked text. *)
Fixpoint shown (paint : bytes -> bytes -> option bytes) (l : list piece) : option bytes :=
  match l with
  | [] => Some []
  | Char c :: r => option_map (cons c) (shown paint r)
  | Marked t a :: r => match paint t a, shown paint r with Some x, Some y => Some (x ++ y) | _, _ => None end
  end.

(** ** Ink: the select-graphic-rendition sequences of a terminal *)
Definition sgr (digits : bytes) : bytes := 27%N :: B "[" ++ digits ++ B "m".
(** [ink plain codes t]: t with these codes switched on (the last first), then everything off *)
Definition ink (plain : bool) (codes : list bytes) (t : bytes) : bytes :=
  if plain then t else concat (map sgr codes) ++ t ++ sgr (B "0").
Definition bold : bytes := B "1".
Definition underlined : bytes := B "4".
(** The colours of a terminal, of text and of its background, and its styles. *)
Definition colours : list (string * string) :=
  [("grey", "30"); ("red", "31"); ("green", "32"); ("yellow", "33"); ("blue", "34"); ("magenta", "35"); ("cyan", "36"); ("white", "37")]%string.
Definition backgrounds : list (string * string) :=
  [("on_grey", "40"); ("on_red", "41"); ("on_green", "42"); ("on_yellow", "43"); ("on_blue", "44"); ("on_magenta", "45"); ("on_cyan", "46"); ("on_white", "47")]%string.
Definition styles : list (string * string) :=
  [("bold", "1"); ("dark", "2"); ("underline", "4"); ("blink", "5"); ("reverse", "7"); ("concealed", "8")]%string.
Definition hue (c : code) : bytes :=
  match c with
  | AC => B "32" (* green *) | WA | IE => B "31" (* red *) | TLE => B "37" (* white *) | SC => B "35" (* magenta *)
  | RTE | MLE | IR | OLE => B "33" (* yellow *)
  end.
Definition short (c : code) : bytes :=
  match c with
  | AC => B "AC" | WA => B "WA" | RTE => B "RTE" | TLE => B "TLE" | MLE => B "MLE" | IR => B "IR" | SC => B "--"
  | OLE => B "OLE" | IE => B "IE"
  end.
Definition verdict (plain : bool) (c : code) : bytes := ink plain [bold; hue c] (short c).
Fixpoint commas (l : list bytes) : bytes := match l with [] => [] | [x] => x | x :: r => x ++ B ", " ++ commas r end.
(** The line of a case: the main verdict; unless it was skipped, the times, the memory, the feedback and the
    other verdicts. *)
Definition case_line (plain : bool) (batch : option N) (number : N) (r : result) (main : code) (others : list code) : bytes :=
  match batch with Some _ => B "  " | None => [] end ++ B "Test case " ++ (if (number <? 10)%N then B " " else []) ++ decimal number
  ++ B " " ++ verdict plain main ++ B " "
  ++ (if N.testbit (flag r) 5 then []
      else B "[" ++ fixed3 (time r) ++ B "s (" ++ fixed3 (wall r) ++ B "s) | " ++ decimal (memory r) ++ B "kb] "
           ++ match feedback r with [] => [] | f => B "(" ++ ink plain [underlined] f ++ B ") " end
           ++ match others with [] => [] | _ => B "{" ++ commas (map (verdict plain) others) ++ B "}" end).

(** ** What the server is told of a message *)
Definition packets_of (m : message) : list packet :=
  match m with
  | MCompileError log => [CompileError log] | MResult _ k r => [TestCase k r] | MBatchBegin _ => [BatchBegin]
  | MBatchEnd => [BatchEnd] | MAborted => [Aborted]
  end.
Definition sent (l : list event) : list packet := flat_map (fun e => match e with Sent p => [p] | Line _ => [] end) l.
(** A message that cannot be mistaken for markup. *)
Definition harmless (m : message) : Prop := match m with MResult _ _ r => ~ found_in (B "](") (feedback r) | _ => True end.

(** ** Subsequences *)
Inductive part_of : bytes -> bytes -> Prop :=
| part_nil : part_of [] []
| part_keep c s t : part_of s t -> part_of (c :: s) (c :: t)
| part_drop c s t : part_of s t -> part_of s (c :: t).
(** ** The sequences that are removed whole *)
Definition number12 (d : bytes) : Prop := (List.length d = 1 \/ List.length d = 2) /\ Forall (fun c => 48 <= c <= 57)%N d.
Definition number3 (d : bytes) : Prop := List.length d = 3 /\ Forall (fun c => 48 <= c <= 57)%N d.
Inductive rendition : bytes -> Prop :=
| rend_none : rendition []
| rend_one a : number12 a -> rendition a
| rend_two a b : number12 a -> number12 b -> rendition (a ++ B ";" ++ b)
| rend_color a b c : number12 a -> number12 b -> number3 c -> rendition (a ++ B ";" ++ b ++ B ";" ++ c).
