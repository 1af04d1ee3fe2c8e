(** Helper programs of a problem: how a checker or an interactor written as a program is found,
    given its arguments and connected (dmoj/checkers/bridged.py, dmoj/graders/bridged.py,
    dmoj/contrib/*.py: get_*_args_format_string, and the parts of shlex and str.format these
    rest on).  What is made of the exit code is in Model/Contrib.v, how the program is compiled
    in Model/Compile.v.  A str is the list of its code points. *)
From Coq Require Import String QArith.
From Verif Require Import Model.Bytes Model.Child.
From Verif Require Model.Paths.
Local Open Scope list_scope.
Local Open Scope N_scope.

(** ** shlex *)
(** shlex.quote; _find_unsafe is [^\w@%+=:,./-] with re.ASCII *)
Definition shell_safe (c : N) : bool :=
  ((48 <=? c) && (c <=? 57)) || ((65 <=? c) && (c <=? 90)) || ((97 <=? c) && (c <=? 122)) || existsb (N.eqb c) (B "_@%+=:,./-").
Definition quote (s : bytes) : bytes :=
  match s with
  | [] => B "''"
  | _ => if forallb shell_safe s then s
         else 39 :: flat_map (fun c => if c =? 39 then [39; 34; 39; 34; 39] else [c]) s ++ [39]
  end.
(** shlex.split(s): posix, whitespace_split, no comments.  The states of read_token: ' ', 'a', a
    quotation mark, a backslash with the state to go back to.  [tok] is the token so far,
    [quoted] whether it has a quoted part; [None] = ValueError. *)
Inductive lex_state := Blank | InWord | Quoted (q : N) | Escaped (back : lex_state).
Definition white (c : N) : bool := existsb (N.eqb c) [32; 9; 13; 10].
Definition is_quote (c : N) : bool := (c =? 39) || (c =? 34).
Definition nonempty (tok : bytes) (quoted : bool) : bool := match tok with [] => quoted | _ => true end.
Fixpoint lex (st : lex_state) (tok : bytes) (quoted : bool) (s : bytes) : option (list bytes) :=
  match s with
  | [] =>
      match st with
      | Blank | InWord => Some (if nonempty tok quoted then [tok] else [])
      | Quoted _ | Escaped _ => None
      end
  | c :: r =>
      match st with
      | Blank =>
          if white c then
            if nonempty tok quoted then option_map (cons tok) (lex Blank [] false r) else lex Blank tok quoted r
          else if c =? 92 then lex (Escaped InWord) tok quoted r
          else if is_quote c then lex (Quoted c) tok quoted r
          else lex InWord [c] quoted r
      | InWord =>
          if white c then
            if nonempty tok quoted then option_map (cons tok) (lex Blank [] false r) else lex Blank tok quoted r
          else if is_quote c then lex (Quoted c) tok quoted r
          else if c =? 92 then lex (Escaped InWord) tok quoted r
          else lex InWord (tok ++ [c]) quoted r
      | Quoted q =>
          if c =? q then lex InWord tok true r
          else if (c =? 92) && (q =? 34) then lex (Escaped (Quoted q)) tok true r
          else lex (Quoted q) (tok ++ [c]) true r
      | Escaped back =>
          let keep := match back with Quoted q => negb (c =? 92) && negb (c =? q) | _ => false end in
          lex back (tok ++ (if keep then [92; c] else [c])) quoted r
      end
  end.
Definition split (s : bytes) : option (list bytes) := lex Blank [] false s.

(** ** str.format *)
(** With keyword arguments only.  A field is a name; conversions, format specifications,
    attributes and items ('!', ':', '.', '[') and braces within a field are not modelled
    ([Beyond]). *)
Inductive formatted := Done (s : bytes) | Raises | Beyond.
Definition before (pre : bytes) (f : formatted) : formatted := match f with Done s => Done (pre ++ s) | x => x end.
Inductive fmt_state := Literal | Opened | Closed | Field (name : bytes).
Section Format.
  Variable value : bytes -> option bytes.
  Fixpoint format_from (st : fmt_state) (s : bytes) : formatted :=
    match s with
    | [] => match st with Literal => Done [] | _ => Raises end
    | c :: r =>
        match st with
        | Literal => if c =? 123 then format_from Opened r else if c =? 125 then format_from Closed r else before [c] (format_from Literal r)
        | Closed => if c =? 125 then before [125] (format_from Literal r) else Raises
        | Opened =>
            if c =? 123 then before [123] (format_from Literal r)
            else if c =? 125 then Raises                      (* {}: no positional argument *)
            else if existsb (N.eqb c) (B "!:.[") then Beyond
            else format_from (Field [c]) r
        | Field name =>
            if c =? 125 then match value name with Some v => before v (format_from Literal r) | None => Raises end
            else if existsb (N.eqb c) (B "!:.[{") then Beyond
            else format_from (Field (name ++ [c])) r
        end
    end.
  Definition format (s : bytes) : formatted := format_from Literal s.
End Format.

(** ** Arguments *)
Record files := { input_file : bytes; output_file : bytes; answer_file : bytes }.
(** checkers/bridged.py:50-55, graders/bridged.py:73-78: [None] = an exception *)
Definition field (f : files) (name : bytes) : option bytes :=
  if beqb name (B "input_file") then Some (quote (input_file f))
  else if beqb name (B "output_file") then Some (quote (output_file f))
  else if beqb name (B "answer_file") then Some (quote (answer_file f))
  else None.
Inductive arguments := Arguments (l : list bytes) | Failed | NotModelled.
Definition helper_args (f : files) (template : bytes) : arguments :=
  match format (field f) template with
  | Done s => match split s with Some l => Arguments l | None => Failed end
  | Raises => Failed
  | Beyond => NotModelled
  end.

(** contrib/default.py, peg.py, testlib.py, coci.py: the types and their templates *)
Inductive contrib := Default | Peg | Testlib | Coci.
Definition contrib_named (name : bytes) : option contrib :=
  if beqb name (B "default") then Some Default else if beqb name (B "peg") then Some Peg
  else if beqb name (B "testlib") then Some Testlib else if beqb name (B "coci") then Some Coci else None.
(** contrib/default.py:12-14, peg.py:9-11 *)
Definition checker_template (t : contrib) : bytes :=
  match t with Peg => B "{answer_file} {output_file} {input_file}" | _ => B "{input_file} {output_file} {answer_file}" end.
(** contrib/default.py:16-18, testlib.py:19-21, coci.py:12-14 *)
Definition interactor_template (t : contrib) : bytes :=
  match t with Testlib => B "{input_file} {output_file} {answer_file}" | _ => B "{input_file} {answer_file}" end.
(** args_format_string or the type's own: None and an empty string give way *)
Definition template_of (own : option bytes) (default : bytes) : bytes :=
  match own with Some (c :: s) => c :: s | _ => default end.

(** ** Files *)
(** The value of a files setting: a str, a ConfigNode over a list or over a mapping, nothing, or
    another value (which has no unwrap). *)
Inductive files_setting := OneFile (f : bytes) | ManyFiles (l : list bytes) | Mapping | NoSetting | OtherValue.
(** checkers/bridged.py:14-20, graders/bridged.py:93-99: [None] = UnboundLocalError (a mapping) or
    AttributeError *)
Definition filenames (root : bytes) (s : files_setting) : option (list bytes) :=
  match s with
  | OneFile f => Some [Paths.join root f]
  | ManyFiles l => Some (map (Paths.join root) l)
  | Mapping | NoSetting | OtherValue => None
  end.

(** ** The checker *)
(** checkers/bridged.py:26-74 up to the exit code.  [temp i] is the name of the i-th temporary
    file made (mktemp, utils/helper_files.py:9-13); what is written there is what the program
    finds.  The limits are seconds and kilobytes. *)
Inductive started :=
| NoFiles                              (* the exceptions of [filenames] *)
| BadType                              (* InternalError *)
| BadTemplate                          (* ValueError, KeyError, IndexError *)
| OutOfModel
| Started (args : list bytes) (made : list (bytes * bytes)) (time : Q) (memory : N).
Record checker_settings := {
  c_files : files_setting; c_type : bytes; c_template : option bytes; c_time : Q; c_memory : N
}.
Definition run_checker (root : bytes) (temp : nat -> bytes) (c : checker_settings) (judge_input process_output judge_output : bytes) : started :=
  match filenames root (c_files c) with
  | None => NoFiles
  | Some _ =>
      match contrib_named (c_type c) with
      | None => BadType
      | Some t =>
          let f := {| input_file := temp 0%nat; output_file := temp 1%nat; answer_file := temp 2%nat |} in
          match helper_args f (template_of (c_template c) (checker_template t)) with
          | Arguments l => Started l [(temp 0%nat, judge_input); (temp 1%nat, process_output); (temp 2%nat, judge_output)] (c_time c) (c_memory c)
          | Failed => BadTemplate
          | NotModelled => OutOfModel
          end
      end
  end.

(** ** The interactor *)
Record interactor_settings := {
  i_files : files_setting; i_type : option bytes; i_template : option bytes;
  i_preprocessing : option Q; i_memory : option N
}.
(** config.get(key, default) and [x or y]: what is empty or zero gives way *)
Definition type_or_default (t : option bytes) : bytes := match t with Some (c :: s) => c :: s | _ => B "default" end.
(** graders/bridged.py:59-60 *)
Definition interactor_time (pre : option Q) (time_limit : Q) : Q :=
  (match pre with Some p => if Qeq_bool p 0 then 2 else p | None => 2 end) + time_limit.
Definition interactor_memory (own : option N) (generator : N) : N :=
  match own with Some n => if n =? 0 then generator else n | None => generator end.
(** graders/bridged.py:14-20, 56-86.  The interactor is compiled before its type is looked at. *)
Definition run_interactor (root : bytes) (temp : nat -> bytes) (c : interactor_settings) (time_limit : Q) (generator : N) (input judge_output : bytes) : started :=
  match filenames root (i_files c) with
  | None => NoFiles
  | Some _ =>
      match contrib_named (type_or_default (i_type c)) with
      | None => BadType
      | Some t =>
          let f := {| input_file := temp 0%nat; output_file := B "/dev/null"; answer_file := temp 1%nat |} in
          match helper_args f (template_of (i_template c) (interactor_template t)) with
          | Arguments l => Started l [(temp 0%nat, input); (temp 1%nat, judge_output)]
                             (interactor_time (i_preprocessing c) time_limit) (interactor_memory (i_memory c) generator)
          | Failed => BadTemplate
          | NotModelled => OutOfModel
          end
      end
  end.

(** ** Pipes *)
(** graders/bridged.py:40-54, 79-89: two pipes, numbered 3 and 4, the submission's launch
    (tracer.py:305-311, 354-386 in Model/Child.v), the closing of its ends, the interactor's launch,
    the closing of the rest.  The table a child starts with is that of the judge at its launch.
    [b] bounds the judge's descriptors. *)
Local Open Scope nat_scope.
Record connected := {
  submission_start : table; s_in : Z; s_out : Z; s_err : Z;
  interactor_start : table; i_in : Z; i_out : Z; i_err : Z;
  judge_after : table
}.
Definition connect (t : table) (b : nat) : connected :=
  let '(isi, sso, t1) := os_pipe t b 3 in
  let '(ssi, iso, t2) := os_pipe t1 (b + 2) 4 in
  let '(t3, ei, eo, ee) := init_streams t2 (b + 4) (Number (Z.of_nat ssi)) (Number (Z.of_nat sso)) Pipe in
  let t4 := close_fd (close_fd (judge_table t3 ei eo ee) ssi) sso in
  let '(t5, fi, fo, fe) := init_streams t4 (b + 10) (Number (Z.of_nat isi)) (Number (Z.of_nat iso)) Pipe in
  {| submission_start := t3; s_in := child_fd ei; s_out := child_fd eo; s_err := child_fd ee;
     interactor_start := t5; i_in := child_fd fi; i_out := child_fd fo; i_err := child_fd fe;
     judge_after := close_fd (close_fd (judge_table t5 fi fo fe) isi) iso |}.
