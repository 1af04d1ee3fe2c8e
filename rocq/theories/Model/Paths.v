(** Paths as the sandbox sees them: os.path.join, os.path.normpath (CPython's
    posixpath), and dmoj/cptbox/isolate.py get_full_path.  A path is the list of its
    characters. *)
From Coq Require Import String.
From Verif Require Import Model.Bytes.
Local Open Scope list_scope.

Definition slash : N := 47.
Definition is_slash (c : N) : bool := (c =? slash)%N.
Definition starts_slash (p : list N) : bool := match p with c :: _ => is_slash c | [] => false end.
Definition ends_slash (p : list N) : bool := starts_slash (rev p).

(** posixpath.join(a, b) *)
Definition join (a b : list N) : list N :=
  if starts_slash b then b
  else match a with
       | [] => b
       | _ => if ends_slash a then a ++ b else a ++ slash :: b
       end.

Definition dot : list N := B ".".
Definition dotdot : list N := B "..".
(** the loop of posixpath.normpath; [acc] is new_comps reversed *)
Fixpoint norm_loop (initial : bool) (acc comps : list (list N)) : list (list N) :=
  match comps with
  | [] => rev acc
  | c :: r =>
      if beqb c [] || beqb c dot then norm_loop initial acc r
      else if negb (beqb c dotdot)
              || (negb initial && match acc with [] => true | _ => false end)
              || match acc with t :: _ => beqb t dotdot | [] => false end
      then norm_loop initial (c :: acc) r
      else norm_loop initial (tl acc) r
  end.
(** '/'.join *)
Fixpoint slash_join (l : list (list N)) : list N :=
  match l with [] => [] | [x] => x | x :: r => x ++ slash :: slash_join r end.
(** posixpath.normpath *)
Definition normpath (p : list N) : list N :=
  match p with
  | [] => dot
  | _ =>
      let initial := starts_slash p in
      let two := match p with a :: b :: r => is_slash a && is_slash b && negb (starts_slash r) | _ => false end in
      let body := slash_join (norm_loop initial [] (re_split is_slash p)) in
      let res := (if initial then (if two then [slash; slash] else [slash]) else []) ++ body in
      match res with [] => dot | _ => res end
  end.
(** str.lstrip('/') *)
Fixpoint lstrip_slash (p : list N) : list N :=
  match p with c :: r => if is_slash c then lstrip_slash r else p | [] => [] end.

Definition AT_FDCWD : Z := -100.
(** isolate.py:279: the register as Python sees it (a signed 64-bit number) *)
Definition as_descriptor (reg : Z) : Z := (Z.land reg 0x7FFFFFFF - Z.land reg 0x80000000)%Z.

Section FullPath.
  (** os.readlink of /proc/PID/cwd and /proc/PID/fd/N *)
  Variable cwd : list N.
  Variable fd : Z -> option (list N).
  (** isolate.py:278-284; [None] = OSError for a descriptor that is not open. *)
  Definition get_full_path (file : list N) (dirfd : Z) : option (list N) :=
    let dirfd := as_descriptor dirfd in
    match (if starts_slash file then Some file
           else match (if (dirfd =? AT_FDCWD)%Z then Some cwd else fd dirfd) with
                | Some dir => Some (join dir file)
                | None => None
                end) with
    | Some f => Some (slash :: lstrip_slash (normpath f))
    | None => None
    end.
End FullPath.
