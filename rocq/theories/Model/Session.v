(** A session at the command line: reading lines, running them, staying alive and shutting down
    (dmoj/cli.py: cli_main), what failing commands print, sources typed or read from a file
    (dmoj/commands/base_command.py) and the columns of the problem list (dmoj/commands/problems.py).
    What the commands do is in Model/Commands.v, shlex in Model/Helpers.v, the markup of messages in
    Model/Console.v.  argparse, the history file of readline and pygments are not modelled. *)
From Coq Require Import String.
From Verif Require Import Model.Bytes Model.Floats Model.Interactor Model.Commands.
From Verif Require Model.Helpers Model.Console Model.CaseNames Model.Utf8.
Local Open Scope nat_scope.
Local Open Scope list_scope.

(** str.strip() *)
Fixpoint lstrip (s : bytes) : bytes := match s with [] => [] | c :: r => if CaseNames.is_space c then lstrip r else s end.
Definition strip (s : bytes) : bytes := rev (lstrip (rev (lstrip s))).

(** What a command finds besides Model/Commands.v's world: whether $EDITOR is set (then a source from
    the editor is bytes, not str); whether pygments knows the name of a file; the texts of exceptions. *)
Record around := Around {
  base : world;
  editor_set : bool;
  lexer_known : bytes -> bool;
  io_text : bytes -> bytes;              (* str(e) for a file that cannot be read *)
  stdin_text : bytes                     (* str(e) for a failing input() *)
}.
(** The state, and for each entry of the history whether its source is bytes. *)
Record sess := Sess { s_cli : cli; s_bytes : list bool }.
Definition sess_start : sess := Sess cli_start [].

(** ** Messages *)
(** %d *)
Definition show_int (z : Z) : bytes := (if (z <? 0)%Z then B "-" else []) ++ Console.decimal (Z.to_N (Z.abs z)).
(** '%s' between apostrophes *)
Definition told (what x : bytes) : bytes := what ++ B " '" ++ x ++ B "'".
(** base_command.py:50 *)
Definition invalid_submission (id : Z) : bytes := told (B "invalid submission") (show_int id).
(** submit.py:48-50: where the source is looked for *)
Definition source_arg (w : world) (a : submit_args) : option bytes :=
  given (if match a_language a with Some l => listed l (executors w) | None => false end then a_source a else a_language a).
(** submit.py:52-73: the message of a submission that is refused *)
Definition submit_message (w : around) (a : submit_args) : bytes :=
  let known := match a_language a with Some l => listed l (executors (base w)) | None => false end in
  let source := match source_arg (base w) a with Some f => io_text w f | None => stdin_text w end in
  if negb (listed (a_problem a) (supported (base w))) then told (B "unknown problem") (a_problem a)
  else match given (if known then a_language a else None) with
  | None => match source_arg (base w) a with
            | Some f => match after_dot f with [] => B "invalid file name" | _ => source end
            | None => B "no language is selected"
            end
  | Some l => if tl_bad (a_tl a) then B "--time-limit must be >= 0"
              else if (a_ml a <=? 0)%Z then B "--memory-limit must be >= 0"
              else source
  end.
(** resubmit.py:27-38 *)
Definition resubmit_message (a : resubmit_args) (st : cli) : bytes :=
  match get_submission_data st (r_id a) with
  | None => invalid_submission (r_id a)
  | Some e => told (B "unknown problem") (match given (r_problem a) with Some p => p | None => e_problem e end)
  end.
(** show.py:14-21, diff.py:17-21 *)
Definition data_message (lim : nat) (w : around) (x : bytes) : bytes :=
  match py_int lim x with Some id => invalid_submission id | None => io_text w x end.
(** The message of the InvalidCommandException of a command (empty: none, base_command.py:13-22). *)
Definition message (lim : nat) (w : around) (c : command) (st : cli) : bytes :=
  match c with
  | Problems _ limit => if bad_limit limit then B "--limit must be >= 0" else B "No problems matching filter found."
  | Submissions _ => B "--limit must be >= 0"
  | Submit a => submit_message w a
  | Resubmit a => resubmit_message a st
  | Rejudge id => invalid_submission id
  | Diff x y => match get_data lim (base w) st x with None => data_message lim w x | Some _ => data_message lim w y end
  | Show x => data_message lim w x
  | Help | Quit | BadArguments => []
  end.
(** cli.py:116-117 *)
Definition red (m : bytes) : bytes := B "#ansi[" ++ m ++ B "](red|bold)" ++ [10%N].
(** cli.py:121 *)
Definition unrecognized (word : bytes) : bytes := B "#ansi[Unrecognized command " ++ word ++ B "](red|bold)".
(** submissions.py:24 *)
Definition listing (ne : nat * entry) : bytes :=
  B "#ansi[" ++ e_problem (snd ne) ++ B "](yellow)/#ansi[" ++ Console.decimal (N.of_nat (fst ne)) ++ B "](green) in " ++ e_lang (snd ne).
Definition printable (no_ansi : bool) (m : bytes) : bool := match Console.ansi_style no_ansi m with Some _ => true | None => false end.

(** ** One command *)
(** Whether the source an argument of diff means is bytes and not empty *)
Definition bytes_arg (lim : nat) (st : sess) (x : bytes) : bool :=
  match py_int lim x with
  | Some id =>
      match get_submission_data (s_cli st) id with
      | Some e => nth (Z.to_nat (id - 1)) (s_bytes st) false && (match e_src e with [] => false | _ => true end)
      | None => false
      end
  | None => false
  end.
(** submit.py:52-73: all is well but the source, which the editor is to give *)
Definition reaches_editor (w : world) (a : submit_args) : bool :=
  listed (a_problem a) (supported w) &&
  match given (a_language a) with Some l => listed l (executors w) | None => false end &&
  negb (tl_bad (a_tl a)) && (0 <? a_ml a)%Z && match given (a_source a) with None => true | Some _ => false end.
(** What happens to a command beyond Model/Commands.v: exceptions while printing (show.py:20
    ClassNotFound, diff.py:34 TypeError of difflib, the markup of submissions.py:24), and an editor that
    cannot be started (base_command.py:57, not within the try). *)
Definition breaks_down (no_ansi : bool) (lim : nat) (w : around) (c : command) (o : outcome) (st : sess) : bool :=
  match c, o with
  | Show x, Done _ => match py_int lim x with None => negb (lexer_known w x) | Some _ => false end
  | Diff x y, Done _ => bytes_arg lim st x || bytes_arg lim st y
  | Submissions _, Done (Numbered l) => negb (forallb (fun ne => printable no_ansi (listing ne)) l)
  | Submit a, Invalid => editor_set w && reaches_editor (base w) a
  | _, _ => false
  end.
Inductive end_of_command := Code (n : nat) | Leaves (* sys.exit(0) *) | Dies (* another exception *).
(** cli.py:107-122 with base_command.py; an entry is added by submit.py:76 only *)
Definition run_one (no_ansi : bool) (lim : nat) (w : around) (c : command) (st : sess) : end_of_command * sess :=
  match execute lim (base w) c (s_cli st) with
  | (o, st') =>
      let s' := Sess st' (s_bytes st ++ match c, o with
                                        | Submit a, Done _ => [match source_arg (base w) a with None => editor_set w | Some _ => false end]
                                        | _, _ => []
                                        end) in
      if breaks_down no_ansi lim w c o st then (Dies, s')
      else match o with
           | Done _ => (Code 0, s')
           | Exit0 => (Leaves, s')
           | Raised => (Dies, s')
           | Invalid => let m := message lim w c (s_cli st) in
                        if match m with [] => true | _ => printable no_ansi (red m) end then (Code 1, s') else (Dies, s')
           end
  end.
Definition run_words (no_ansi : bool) (lim : nat) (w : around) (parse : bytes -> list bytes -> option command) (line : list bytes) (st : sess)
  : end_of_command * sess :=
  match line with
  | [] => (Code 127, st)
  | word :: args =>
      match parse word args with
      | None => (if printable no_ansi (unrecognized word) then Code 127 else Dies, st)
      | Some c => run_one no_ansi lim w c st
      end
  end.

(** ** The loop *)
(** What comes from the terminal: a line (with the surroundings its command finds, and where Ctrl-C was
    pressed while it ran, if it was), the end of the input, or Ctrl-C at the prompt. *)
Inductive moment := WhileGrading | Otherwise.
Inductive event := Typed (s : bytes) (w : around) (ctrl_c : option moment) | EndOfInput | Interrupt.
Inductive act := Listen | Began (k : nat) (e : entry) | Aborted | Murdered.
Inductive ending := Running | Status (n : nat) | Traceback.
(** What begin_grading was called with by a command *)
Definition begun (st st' : sess) : list act :=
  map (fun ke => Began (fst ke) (snd ke)) (skipn (List.length (gradings (s_cli st))) (gradings (s_cli st'))).
(** A command with an interrupt: outside a grading it reaches cli_main; during the grading of submit and
    resubmit it aborts the grading (submit.py:84-85, resubmit.py:56-57); rejudge lets it through. *)
Inductive after_line := Goes_on | Quits | Crashes | Interrupted.
Definition is_rejudge (c : option command) : bool := match c with Some (Rejudge _) => true | _ => false end.
Definition line_command (parse : bytes -> list bytes -> option command) (line : list bytes) : option command :=
  match line with [] => None | word :: args => parse word args end.
Definition run_line (no_ansi : bool) (lim : nat) (parse : bytes -> list bytes -> option command) (s : bytes) (w : around) (i : option moment) (st : sess)
  : after_line * list act * sess :=
  match i with
  | Some Otherwise => (Interrupted, [], st)
  | _ =>
      match Helpers.split (strip s) with
      | None => (Crashes, [], st)
      | Some words =>
          let (e, st') := run_words no_ansi lim w parse words st in
          let acts := begun st st' in
          match acts, i with
          | _ :: _, Some _ => if is_rejudge (line_command parse words) then (Interrupted, acts, st') else (Goes_on, acts ++ [Aborted], st')
          | _, _ => (match e with Code _ => Goes_on | Leaves => Quits | Dies => Crashes end, acts, st')
          end
      end
  end.
(** cli.py:130-136 *)
Fixpoint loop (no_ansi : bool) (lim : nat) (parse : bytes -> list bytes -> option command) (evs : list event) (st : sess) : ending * list act * sess :=
  match evs with
  | [] => (Running, [], st)
  | EndOfInput :: _ | Interrupt :: _ => (Status 0, [], st)
  | Typed s w i :: r =>
      match run_line no_ansi lim parse s w i st with
      | (Goes_on, acts, st') => let '(e, more, st2) := loop no_ansi lim parse r st' in (e, acts ++ more, st2)
      | (Quits, acts, st') | (Interrupted, acts, st') => (Status 0, acts, st')
      | (Crashes, acts, st') => (Traceback, acts, st')
      end
  end.
(** cli.py:124-138: the finally clause *)
Definition finally (e : ending) : list act := match e with Running => [] | _ => [Murdered] end.
Definition interactive (no_ansi : bool) (lim : nat) (parse : bytes -> list bytes -> option command) (evs : list event) : ending * list act * sess :=
  let '(e, acts, st) := loop no_ansi lim parse evs sess_start in (e, Listen :: acts ++ finally e, st).
(** cli.py:127-128, 70: a command given on the command line, not empty; sys.exit(None) is status 0 *)
Definition oneshot (no_ansi : bool) (lim : nat) (parse : bytes -> list bytes -> option command) (words : list bytes) (w : around) (i : option moment)
  : ending * list act * sess :=
  let '(e, acts, st) :=
    match i with
    | Some Otherwise => (Status 0, [], sess_start)
    | _ =>
        let (e, st') := run_words no_ansi lim w parse words sess_start in
        let acts := begun sess_start st' in
        match acts, i with
        | _ :: _, Some _ => if is_rejudge (line_command parse words) then (Status 0, acts, st') else (Status 0, acts ++ [Aborted], st')
        | _, _ => (match e with Code n => Status n | Leaves => Status 0 | Dies => Traceback end, acts, st')
        end
    end in (e, Listen :: acts ++ finally e, st).

(** ** Sources *)
(** base_command.py:35-40: open() decodes UTF-8 and translates line ends; [None] = InvalidCommandException *)
Fixpoint universal (s : bytes) : bytes :=
  match s with
  | [] => []
  | c :: r => if (c =? 13)%N then 10%N :: match r with d :: r' => if (d =? 10)%N then universal r' else universal r | [] => [] end
              else c :: universal r
  end.
Definition read_source (content : option bytes) : option bytes :=
  match content with
  | Some b => match Utf8.utf8text b with Some t => Some (universal t) | None => None end
  | None => None
  end.
(** base_command.py:63-74: the lines typed when there is no editor, up to the end of the input *)
Fixpoint typed_lines (l : list bytes) : list bytes :=
  match l with [] => [] | s :: r => if beqb (strip s) (B ":q") then [] else s :: typed_lines r end.
Definition typed_source (l : list bytes) : bytes := Console.join [10%N] (typed_lines l).

(** ** problems.py:33-37 *)
Definition widest (l : list bytes) : nat := fold_right (fun p m => Nat.max (List.length p) m) 0 l.
(** '%*s' % (-width, x) *)
Definition ljust (width : nat) (x : bytes) : bytes := x ++ repeat 32%N (width - List.length x).
(** zip_longest over four times the same iterator *)
Fixpoint rows (l : list bytes) : list (list bytes) :=
  match l with
  | [] => []
  | [a] => [[a; []; []; []]]
  | [a; b] => [[a; b; []; []]]
  | [a; b; c] => [[a; b; c; []]]
  | a :: b :: c :: d :: r => [a; b; c; d] :: rows r
  end.
Definition problem_lines (l : list bytes) : list bytes :=
  map (fun row => Console.join (B " ") (map (ljust (widest l)) row)) (rows l) ++ [[]].
