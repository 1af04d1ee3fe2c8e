(** The command line judge: dmoj/cli.py and dmoj/commands/*.py.  The parsing of argument
    lists (argparse, shlex) is not modelled: commands are given parsed arguments.  Sources
    are lists of characters. *)
From Coq Require Import String.
From Flocq Require Import IEEE754.BinarySingleNaN.
From Verif Require Import Model.Bytes Model.Floats Model.Interactor.
Local Open Scope nat_scope.
Local Open Scope list_scope.

(** A recorded submission: problem, language, source, time limit, memory limit. *)
Record entry := Entry { e_problem : bytes; e_lang : bytes; e_src : bytes; e_tl : f64; e_ml : Z }.
(** cli.py:62-66; [gradings] lists the submissions handed to begin_grading, with the id
    each was graded under. *)
Record cli := Cli { counter : nat; history : list entry; gradings : list (nat * entry) }.
Definition cli_start : cli := Cli 0 [] [].

(** What the command finds outside: executors/__init__.py: executors;
    judgeenv.get_supported_problems; files; the editor ([None] = an exception). *)
Record world := World {
  executors : list bytes;
  supported : list bytes;
  file : bytes -> option bytes;
  editor : bytes -> bytes -> option bytes;        (* language, initial source *)
  regex : bytes -> option (bytes -> bool)         (* re.compile(...).match; [None] = re.error *)
}.
Definition listed (x : bytes) (l : list bytes) : bool := existsb (beqb x) l.

(** What was printed. *)
Inductive shown :=
| Names (l : list bytes)                          (* problems *)
| Numbered (l : list (nat * entry))               (* submissions *)
| Source (s : bytes)                              (* show *)
| Compared (a b : bytes)                          (* diff *)
| Nothing.
Inductive outcome :=
| Done (s : shown)
| Invalid                                         (* InvalidCommandException *)
| Raised                                          (* any other exception: leaves cli_main *)
| Exit0.                                          (* sys.exit(0) *)

(** base_command.py:42-50 *)
Definition get_submission_data (st : cli) (id : Z) : option entry :=
  if (0 <? id)%Z then nth_error (history st) (Z.to_nat (id - 1)) else None.
(** base_command.py:35-40 *)
Definition get_source (w : world) (f : bytes) : option bytes := file w f.

(** str.partition('.')[2]: what follows the first dot *)
Fixpoint after_dot (s : bytes) : bytes :=
  match s with [] => [] | c :: r => if (c =? 46)%N then r else after_dot r end.
(** str.upper() on ASCII *)
Definition upper (c : N) : N := if ((97 <=? c) && (c <=? 122))%N then (c - 32)%N else c.
(** submit.py:58-62 *)
Definition language_of_ext (ext : bytes) : bytes :=
  let e := map upper ext in
  if beqb e (B "PY") then B "PY2" else if beqb e (B "CPP") then B "CPP11" else if beqb e (B "JAVA") then B "JAVA8" else e.

(** time_limit <= 0 on a float (False for NaN) *)
Definition tl_bad (tl : f64) : bool := f_le tl (B754_zero false).
(** the truth value of a float *)
Definition tl_falsy (tl : f64) : bool := f_le tl (B754_zero false) && f_le (B754_zero false) tl.

(** submit.py:75-85 and resubmit.py:46-57; an interrupt only aborts the grading *)
Definition record_and_grade (st : cli) (e : entry) : cli :=
  let c := S (counter st) in
  Cli c (history st ++ [e]) (gradings st ++ [(c, e)]).

Record submit_args := SubmitArgs {
  a_problem : bytes; a_language : option bytes; a_source : option bytes; a_tl : f64; a_ml : Z }.
(** truth value of a string or None *)
Definition given (s : option bytes) : option bytes := match s with Some [] => None | _ => s end.

(** submit.py:39-85 *)
Definition submit (w : world) (a : submit_args) (st : cli) : outcome * cli :=
  let known := match a_language a with Some l => listed l (executors w) | None => false end in
  let source_file := given (if known then a_source a else a_language a) in
  let language := given (if known then a_language a else None) in
  let finish (l : bytes) :=
    match (match source_file with Some f => get_source w f | None => editor w l [] end) with
    | Some src => (Done Nothing, record_and_grade st (Entry (a_problem a) l src (a_tl a) (a_ml a)))
    | None => (Invalid, st)
    end in
  if negb (listed (a_problem a) (supported w)) then (Invalid, st)
  else match language with
  | None =>
      match source_file with
      | Some f => match after_dot f with [] => (Invalid, st) | ext => finish (language_of_ext ext) end
      | None => (Invalid, st)
      end
  | Some l =>
      if negb (listed l (executors w)) then (Invalid, st)
      else if tl_bad (a_tl a) then (Invalid, st)
      else if (a_ml a <=? 0)%Z then (Invalid, st)
      else finish l
  end.

Record resubmit_args := ResubmitArgs {
  r_id : Z; r_problem : option bytes; r_language : option bytes; r_tl : option f64; r_ml : option Z }.
(** resubmit.py:27-57.  Line 37 looks for the builtin function [id] among the problem
    names, which is never there. *)
Definition builtin_id_listed : bool := false.
Definition resubmit (w : world) (a : resubmit_args) (st : cli) : outcome * cli :=
  match get_submission_data st (r_id a) with
  | None => (Invalid, st)
  | Some e =>
      let problem := match given (r_problem a) with Some p => p | None => e_problem e end in
      let lang := match given (r_language a) with Some l => l | None => e_lang e end in
      let tl := match r_tl a with Some t => if tl_falsy t then e_tl e else t | None => e_tl e end in
      let ml := match r_ml a with Some m => if (m =? 0)%Z then e_ml e else m | None => e_ml e end in
      if negb builtin_id_listed then (Invalid, st)
      else if negb (listed lang (executors w)) then (Invalid, st)
      else if tl_bad tl then (Invalid, st)
      else if (ml <=? 0)%Z then (Invalid, st)
      else match editor w lang (e_src e) with
           | Some src => (Done Nothing, record_and_grade st (Entry problem lang src tl ml))
           | None => (Invalid, st)
           end
  end.

(** rejudge.py:12-20: graded under the number of the newest submission *)
Definition rejudge (id : Z) (st : cli) : outcome * cli :=
  match get_submission_data st id with
  | None => (Invalid, st)
  | Some e => (Done Nothing, Cli (counter st) (history st) (gradings st ++ [(counter st, e)]))
  end.

(** enumerate, from 1 *)
Fixpoint numbered_from (i : nat) (l : list entry) : list (nat * entry) :=
  match l with [] => [] | e :: r => (i, e) :: numbered_from (S i) r end.
Definition bad_limit (limit : option Z) : bool := match limit with Some l => (l <=? 0)%Z | None => false end.
(** l[:limit] for a positive limit *)
Definition cut {A} (limit : option Z) (l : list A) : list A :=
  match limit with Some n => firstn (Z.to_nat n) l | None => l end.
(** submissions.py:15-25 *)
Definition submissions (limit : option Z) (st : cli) : outcome :=
  if bad_limit limit then Invalid else Done (Numbered (numbered_from 1 (cut limit (history st)))).

(** int() of the argument, then a recorded source, or else a file: show.py:14-30 (the
    highlighting is not modelled) and diff.py:17-23.  CPython's digit limit is [lim]. *)
Definition get_data (lim : nat) (w : world) (st : cli) (id_or_source : bytes) : option bytes :=
  match py_int lim id_or_source with
  | Some id => option_map e_src (get_submission_data st id)
  | None => get_source w id_or_source
  end.
Definition show (lim : nat) (w : world) (st : cli) (x : bytes) : outcome :=
  match get_data lim w st x with Some s => Done (Source s) | None => Invalid end.
Definition diff (lim : nat) (w : world) (st : cli) (x y : bytes) : outcome :=
  match get_data lim w st x with
  | None => Invalid
  | Some a => match get_data lim w st y with None => Invalid | Some b => Done (Compared a b) end
  end.

(** problems.py:18-40; the four columns are not modelled *)
Definition problems (w : world) (filter_ : option bytes) (limit : option Z) : outcome :=
  if bad_limit limit then Invalid
  else match (match given filter_ with
              | Some f => option_map (fun m => filter m (supported w)) (regex w f)
              | None => Some (supported w)
              end) with
  | None => Raised
  | Some l => match cut limit l with [] => Invalid | l' => Done (Names l') end
  end.

(** commands/__init__.py:14-24 *)
Inductive command :=
| Problems (f : option bytes) (limit : option Z)
| Submissions (limit : option Z)
| Submit (a : submit_args)
| Resubmit (a : resubmit_args)
| Rejudge (id : Z)
| Diff (x y : bytes)
| Show (x : bytes)
| Help
| Quit
| BadArguments.                                   (* argparse refuses: InvalidCommandException *)
Definition execute (lim : nat) (w : world) (c : command) (st : cli) : outcome * cli :=
  match c with
  | Problems f limit => (problems w f limit, st)
  | Submissions limit => (submissions limit st, st)
  | Submit a => submit w a st
  | Resubmit a => resubmit w a st
  | Rejudge id => rejudge id st
  | Diff x y => (diff lim w st x y, st)
  | Show x => (show lim w st x, st)
  | Help => (Done Nothing, st)
  | Quit => (Exit0, st)
  | BadArguments => (Invalid, st)
  end.

(** cli.py:107-122: [parse] gives the command of a first word that names one.  The
    result is the process's status when the command came from the command line (None
    is 0 for sys.exit); [None] = another exception. *)
Definition run_command (lim : nat) (w : world) (parse : bytes -> list bytes -> option command) (line : list bytes) (st : cli)
  : option nat * cli :=
  match line with
  | [] => (Some 127, st)
  | word :: args =>
      match parse word args with
      | None => (Some 127, st)
      | Some c => match execute lim w c st with
                  | (Done _, st') | (Exit0, st') => (Some 0, st')
                  | (Invalid, st') => (Some 1, st')
                  | (Raised, st') => (None, st')
                  end
      end
  end.

(** A session: commands, each finding its own world. *)
Definition session (lim : nat) (cs : list (world * command)) (st : cli) : cli :=
  fold_left (fun st wc => snd (execute lim (fst wc) (snd wc) st)) cs st.
