(** How the console gets the text of a submission: dmoj/commands/base_command.py open_editor. *)
From Coq Require Import String.
From Verif Require Import Model.Bytes.
Local Open Scope list_scope.

(** A text as it is passed on: str or bytes. *)
Inductive source := Str (s : bytes) | Bytes (s : bytes).
(** What input() does (base_command.py:63): a line; EOFError; another Exception, with its text;
    KeyboardInterrupt, which is none. *)
Inductive typed := Line (s : bytes) | Eof | Error (message : bytes) | Interrupt.
(** base_command.py:36, 70: a source; InvalidCommandException; anything else raised. *)
Inductive outcome := Source (s : source) | Invalid (message : bytes) | Raised.
(** What a run of the editor does to the file (base_command.py:56): writes into it; puts another file
    in its place; removes it; cannot be started (OSError). *)
Inductive edit := Writes (s : bytes) | Replaces (s : bytes) | Removes | NoEditor.

(** '\n'.join (base_command.py:68). *)
Fixpoint join_lines (l : list bytes) : bytes :=
  match l with [] => [] | [x] => x | x :: r => x ++ LF :: join_lines r end.
(** base_command.py:60-70: reading lines; [src] are those read so far.  What is read, and what is left
    to be read.  Waiting for ever at the end of the list is Raised with nothing left. *)
Fixpoint from_stdin (src : list bytes) (input : list typed) : outcome * list typed :=
  match input with
  | [] => (Raised, [])
  | Line s :: r => if beqb (py_strip s) (B ":q") then (Source (Str (join_lines src)), r) else from_stdin (src ++ [s]) r
  | Eof :: r => (Source (Str (join_lines src)), r)
  | Error m :: r => (Invalid m, r)
  | Interrupt :: r => (Raised, r)
  end.
(** base_command.py:53-58: NamedTemporaryFile; the file written is the one read again, whatever has been
    put in its place; closing it removes it by name, which fails if it is gone.  A str cannot be
    written to it (TypeError). *)
Definition from_editor (editor : bytes -> edit) (src : source) : outcome :=
  match src with
  | Str _ => Raised
  | Bytes s =>
      match editor s with
      | Writes s' => Source (Bytes s')
      | Replaces _ => Source (Bytes s)
      | Removes | NoEditor => Raised
      end
  end.
(** base_command.py:50-71 open_editor: [ext] is None for a language that has no executor (KeyError);
    [editor] is what $EDITOR does with a file of that suffix and content, None if it is not set or
    empty. *)
Definition open_editor (ext : option bytes) (editor : option (bytes -> bytes -> edit)) (src : source) (input : list typed)
  : outcome * list typed :=
  match ext with
  | None => (Raised, input)
  | Some e =>
      match editor with
      | Some ed => (from_editor (ed (46%N :: e)) src, input)
      | None => from_stdin [] input
      end
  end.
