(** Lines typed at a prompt, the causes that end a session, and tables of names. *)
From Coq Require Import String.
From Flocq Require Import IEEE754.BinarySingleNaN.
From Verif Require Import Model.Bytes Model.Floats Model.Interactor Model.Commands Model.Session.
From Verif Require Import Spec.Interactor Spec.Commands Spec.Console Spec.Toolchain.
Local Open Scope list_scope.

(** ** Words as a shell reads them *)
Local Open Scope N_scope.
Definition gap (c : N) : Prop := In c [32; 9; 13; 10].
(** Between quotation marks, a backslash only stands for the next character if that is one of the two. *)
Inductive between : bytes -> bytes -> Prop :=
| between_end : between [] []
| between_mark c s t : c = 34 \/ c = 92 -> between s t -> between (92 :: c :: s) (c :: t)
| between_kept c s t : c <> 34 -> c <> 92 -> between s t -> between (92 :: c :: s) (92 :: c :: t)
| between_char c s t : c <> 34 -> c <> 92 -> between s t -> between (c :: s) (c :: t).
(** [spells written meaning]: plain characters, backslashed characters and quoted parts in a row. *)
Inductive spells : bytes -> bytes -> Prop :=
| spells_end : spells [] []
| spells_char c s t : ~ gap c -> ~ In c [39; 34; 92] -> spells s t -> spells (c :: s) (c :: t)
| spells_escaped c s t : spells s t -> spells (92 :: c :: s) (c :: t)
| spells_single q s t : ~ In 39 q -> spells s t -> spells (39 :: q ++ 39 :: s) (q ++ t)
| spells_double q m s t : between q m -> spells s t -> spells (34 :: q ++ 34 :: s) (m ++ t).
Inductive sentence : bytes -> list bytes -> Prop :=
| sentence_end : sentence [] []
| sentence_gap c s ws : gap c -> sentence s ws -> sentence (c :: s) ws
| sentence_last w t : w <> [] -> spells w t -> sentence w [t]
| sentence_word w t c s ws : w <> [] -> spells w t -> gap c -> sentence s ws -> sentence (w ++ c :: s) (t :: ws).
(** White space around a line. *)
Definition blank_char (c : N) : Prop :=
  9 <= c <= 13 \/ 28 <= c <= 32 \/ c = 133 \/ c = 160 \/ c = 5760 \/ 8192 <= c <= 8202 \/ c = 8232 \/ c = 8233 \/ c = 8239 \/ c = 8287 \/ c = 12288.
Definition trimmed (s t : bytes) : Prop :=
  exists a b, s = a ++ t ++ b /\ Forall blank_char a /\ Forall blank_char b /\
  (forall c r, t = c :: r -> ~ blank_char c) /\ (forall c r, t = r ++ [c] -> ~ blank_char c).
(** A line is read as these words; a line may also have no reading (a quotation left open, a backslash at
    the end). *)
Definition line_reads (s : bytes) (ws : list bytes) : Prop := exists t, trimmed s t /\ sentence t ws.
Local Close Scope N_scope.
Local Open Scope nat_scope.

(** ** Failures that are not reports but exceptions *)
(** An argument of diff is the number of a recorded source that came from an editor (and is not empty). *)
Definition from_editor (lim : nat) (st : sess) (x : bytes) : Prop :=
  exists id e, integer lim x id /\ entry_number (history (s_cli st)) id e /\ e_src e <> [] /\
  nth_error (s_bytes st) (Z.to_nat (id - 1)) = Some true.
Definition readable (lim : nat) (w : around) (st : sess) (x : bytes) : Prop :=
  (exists id e, integer lim x id /\ entry_number (history (s_cli st)) id e) \/
  ((forall id, ~ integer lim x id) /\ exists s, file (base w) x = Some s).
Inductive trouble (lim : nat) (w : around) (st : sess) : command -> Prop :=
| bad_filter c f limit : (forall n, limit = Some n -> (0 < n)%Z) -> regex (base w) (c :: f) = None -> trouble lim w st (Problems (Some (c :: f)) limit)
| unknown_kind x s : (forall id, ~ integer lim x id) -> file (base w) x = Some s -> lexer_known w x = false -> trouble lim w st (Show x)
| editor_sources x y : readable lim w st x -> readable lim w st y -> from_editor lim st x \/ from_editor lim st y -> trouble lim w st (Diff x y)
| no_editor a lang : In (a_problem a) (supported (base w)) -> a_language a = Some lang -> lang <> [] -> In lang (executors (base w)) ->
    f_le (a_tl a) (B754_zero false) = false -> (0 < a_ml a)%Z -> a_source a = None \/ a_source a = Some [] ->
    editor_set w = true -> editor (base w) lang [] = None -> trouble lim w st (Submit a).
(** Text of the user (or of an operating system error about a file of theirs) that a command can bring into a
    coloured message. *)
Definition coloured (lim : nat) (w : around) (st : sess) (c : command) (x : bytes) : Prop :=
  match c with
  | Submit a => x = a_problem a \/ x = stdin_text w \/ exists f, (a_source a = Some f \/ a_language a = Some f) /\ x = io_text w f
  | Resubmit a => r_problem a = Some x \/ exists e, In e (history (s_cli st)) /\ x = e_problem e
  | Diff f g => x = io_text w f \/ x = io_text w g
  | Show f => x = io_text w f
  | Submissions _ => exists e, In e (history (s_cli st)) /\ (x = e_problem e \/ x = e_lang e)
  | _ => False
  end.

(** ** Runs *)
(** The commands that lines stand for, in order, with the worlds they find (blank lines and unknown words stand for none). *)
Inductive stand_for (parse : bytes -> list bytes -> option command) : list event -> list (world * command) -> Prop :=
| stand_end : stand_for parse [] []
| stand_none s w i r l : (forall ws, line_reads s ws -> ws = [] \/ exists word args, ws = word :: args /\ parse word args = None) ->
    stand_for parse r l -> stand_for parse (Typed s w i :: r) l
| stand_one s w i word args c r l : line_reads s (word :: args) -> parse word args = Some c -> stand_for parse r l ->
    stand_for parse (Typed s w i :: r) ((base w, c) :: l).

(** ** Sources typed in *)
Fixpoint glued (l : list bytes) : bytes := match l with [] => [] | [x] => x | x :: r => x ++ 10%N :: glued r end.
