(** What the failure messages of language runtimes look like. *)
From Coq Require Import String.
From Verif Require Import Model.Bytes Spec.Text.
Local Open Scope list_scope.

(** The line ends here. *)
Definition line_end (s : bytes) : Prop := s = [] \/ exists t, s = 10%N :: t.
Definition letter (c : N) : Prop := (65 <= c <= 90 \/ 97 <= c <= 122)%N.
Definition digit (c : N) : Prop := (48 <= c <= 57)%N.

(** libstdc++: the message of std::terminate, with the exception's type name. *)
Definition cpp_name (n : bytes) : Prop := n <> [] /\ Forall (fun c => letter c \/ digit c \/ c = 95 \/ c = 58)%N n.
Definition cpp_message (n : bytes) : bytes := B "terminate called after throwing an instance of '" ++ n ++ B "'".
(** [s] shows that exception after [pre]: the message ends its line (LF or CR LF). *)
Definition cpp_shows (s pre n : bytes) : Prop :=
  cpp_name n /\ exists post, s = pre ++ cpp_message n ++ post /\ (line_end post \/ exists post', post = 13%N :: post' /\ line_end post').

(** Python: a line that names an exception, alone or followed by a colon. *)
Definition identifier (word : N -> Prop) (n : bytes) : Prop :=
  exists c r, n = c :: r /\ (letter c \/ c = 95%N) /\ Forall word r.
Definition exception_line (word : N -> Prop) (n l : bytes) : Prop :=
  identifier word n /\ (l = n \/ exists m, l = n ++ 58%N :: m).
Definition traceback : bytes := B "Traceback (most recent call last):".
(** lines, cut at LF only *)
Definition lf_lines (s : bytes) : list bytes := cut (N.eqb 10) s.
(** [p] occurs in [s] *)
Definition occurs (p s : bytes) : Prop := exists a b, s = a ++ p ++ b.
(** [s] contains a whole traceback: its first line, and after some more text a line that names
    the exception. *)
Definition whole_traceback (word : N -> Prop) (s : bytes) : Prop :=
  exists pre mid n l post, s = pre ++ traceback ++ 10%N :: mid ++ 10%N :: l ++ post /\
    exception_line word n l /\ ~ In 10%N l /\ line_end post.
(** [s] begins a line after [pre]. *)
Definition line_start (pre : bytes) : Prop := pre = [] \/ exists q, pre = q ++ [10%N].
(** What the judge's Java agent and Mono print before the exception. *)
Definition java_marker : bytes := B "7257b50d-e37a-4664-b1a5-b1340b4206c0: ".
Definition mono_marker : bytes := B "FATAL UNHANDLED EXCEPTION: ".
(** Messages that are read at all: at most 2 KiB. *)
Definition small (s : bytes) : Prop := s <> [] /\ (N.of_nat (length s) <= 2048)%N.
(** The process ended by itself with a status other than 0, or by a signal. *)
Definition crashed (returncode : option Z) : Prop := exists c, returncode = Some c /\ c <> 0%Z.
