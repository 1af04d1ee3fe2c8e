(** Result flags and feedback (dmoj/result.py). *)
From Coq Require Import String QArith.
From Verif Require Import Model.Bytes.
Local Open Scope list_scope.

(** result.py:7-15: the flag words. *)
Inductive code := AC | WA | RTE | TLE | MLE | IR | SC | OLE | IE.
Definition flag_of (c : code) : N :=
  match c with
  | AC => 0 | WA => N.shiftl 1 0 | RTE => N.shiftl 1 1 | TLE => N.shiftl 1 2 | MLE => N.shiftl 1 3
  | IR => N.shiftl 1 4 | SC => N.shiftl 1 5 | OLE => N.shiftl 1 6 | IE => N.shiftl 1 30
  end.
(** result.py:27 *)
Definition CODE_DISPLAY_ORDER : list code := [IE; TLE; MLE; OLE; RTE; IR; WA; SC].

(** Python truth of an int. *)
Definition truthy (n : N) : bool := negb (n =? 0)%N.

(** result.py:51-56; returns the flag word. *)
Definition get_main_code (result_flag : N) : N :=
  match find (fun c => truthy (N.land result_flag (flag_of c))) CODE_DISPLAY_ORDER with
  | Some c => flag_of c
  | None => flag_of AC
  end.
(** result.py:58-63; a code stands for its name. *)
Definition readable_codes (result_flag : N) : list code :=
  match filter (fun c => truthy (N.land result_flag (flag_of c))) CODE_DISPLAY_ORDER with
  | [] => [AC]
  | l => l
  end.

(** The observables of a finished TracedPopen used for the verdict
    (cptbox/tracer.py:204-228 and the Cython properties). *)
Record process := Process {
  returncode : option Z;            (* exit code, -signal, or None while running *)
  signal : option Z;                (* terminating signal; 0 and None are falsy *)
  tle : bool;                       (* self._is_tle *)
  ole : bool;                       (* self._is_ole *)
  memory_limit : Q;                 (* self._memory, KB *)
  max_memory : Q;                   (* self.max_memory, KB *)
  was_initialized : bool;
  protection_fault : option bytes;  (* callname of self.protection_fault *)
  own_feedback : option (option bytes)  (* hasattr(process, 'feedback') and its value *)
}.
(** tracer.py:210-212; comparing None with an int raises TypeError: [None] here. *)
Definition is_ir (p : process) : option bool :=
  match returncode p with None => None | Some r => Some (0 <? r)%Z end.
(** tracer.py:214-216 *)
Definition is_mle (p : process) : bool :=
  negb (Qeq_bool (memory_limit p) 0) && negb (Qle_bool (max_memory p) (memory_limit p)).
(** tracer.py:222-224 *)
Definition is_rte (p : process) : bool :=
  match returncode p with None => true | Some r => (r <? 0)%Z end.

(** callname.replace('sys_', '', 1): delete the first occurrence. *)
Fixpoint remove_first (pat s : bytes) : bytes :=
  match s with
  | [] => s
  | c :: r => if starts_with pat s then skipn (length pat) s else c :: remove_first pat r
  end.

(** Python truth of a feedback value: None and '' are falsy. *)
Definition text (o : option bytes) : bool := match o with Some (_ :: _) => true | _ => false end.

Section Feedback.
  Variable parse_feedback : bytes -> option bytes.   (* binary.parse_feedback_from_stderr *)
  Variable strsignal_lower : Z -> bytes.             (* strsignal(n).lower() *)

  (** result.py:73-98.  [error] may be None (falsy). *)
  Definition get_feedback_str (error : bytes) (p : process) : option (option bytes) :=
    match is_ir p with
    | None => None
    | Some ir =>
        let is_ir_or_rte := (ir || is_rte p) && negb (tle p || is_mle p || ole p) in
        let feedback := match own_feedback p with
                        | Some f => f
                        | None => if is_ir_or_rte then parse_feedback error else Some []
                        end in
        let feedback :=
          if negb (text feedback) && is_ir_or_rte then
            if negb (was_initialized p) || contains (B "error while loading shared libraries") error
            then Some (B "failed initializing")
            else match signal p with
                 | Some s => if (s =? 0)%Z then feedback else Some (strsignal_lower s)
                 | None => feedback
                 end
          else feedback in
        Some (match protection_fault p with
              | Some callname => Some (remove_first (B "sys_") callname ++ B " syscall disallowed")
              | None => feedback
              end)
    end.
End Feedback.
