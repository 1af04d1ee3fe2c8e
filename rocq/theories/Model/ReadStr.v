(** Model of reading a string argument out of the sandboxed program
    (dmoj/cptbox/ptdebug.cpp, tracer.py AdvancedDebugger.readstr). *)
From Verif Require Import Model.Bytes.
Local Open Scope list_scope.
Local Open Scope nat_scope.

(** The program's memory when the k-th access is made: a readable byte or nothing.  Other
    threads may change it in between.  Addresses do not wrap: a range over the top of the
    address space is not readable. *)
Definition memory := nat -> nat -> option N.
Fixpoint range (m : nat -> option N) (addr len : nat) : option bytes :=
  match len with
  | 0 => Some []
  | S n => match m addr, range m (S addr) n with Some c, Some r => Some (c :: r) | _, _ => None end
  end.

(** What the code does to its buffer and to the program: a write of [len] bytes at [off] into
    an allocation of [cap] bytes; a request for a range of the program's memory. *)
Inductive event := Write (cap off len : nat) | Ask (addr len : nat).

(** ptdebug.cpp:20-26 (has_null) and memchr *)
Definition has_null (b : bytes) : bool := existsb (N.eqb 0) b.
(** The C string at the start of a buffer. *)
Fixpoint cstr (b : bytes) : bytes :=
  match b with
  | [] => []
  | c :: r => if (c =? 0)%N then [] else c :: cstr r
  end.

Definition block : nat := N.to_nat 4096.   (* the 4096 of ptdebug.cpp:197 and 217 *)

Section Read.
  Variable mem : memory.
  Variable vm_ok : nat -> bool.        (* whether process_vm_readv works at all in the k-th access *)
  Variable word : nat.                 (* sizeof(ptrace_read_t): 8, or 4 on 32-bit judges *)
  Variable junk : nat -> N.            (* what malloc leaves in the buffer *)
  Variable addr max_size : nat.

  (** ptdebug.cpp:196-256; [k] numbers the accesses.  malloc and realloc succeed; [fuel]
      bounds the loop. Gives the events and the string ([None]: nullptr). *)
  Fixpoint readstr_peekdata (fuel k size read : nat) (buf : bytes) : list event * option bytes :=
    match fuel with
    | 0 => ([], None)
    | S f =>
        let go size :=
          match range (mem k) (addr + read) word with
          | None => ([Ask (addr + read) word], None)
          | Some data =>
              let ev := [Ask (addr + read) word; Write size read word] in
              if has_null data then (ev, Some (cstr (buf ++ data)))
              else let '(ev', r) := readstr_peekdata f (S k) size (read + word) (buf ++ data) in (ev ++ ev', r)
          end in
        if size <? read + word then
          if max_size <? size then
            ([Write size max_size 1], Some (cstr (firstn max_size (buf ++ map junk (seq read (max_size - read))))))
          else
            let size := size + block in
            go (if max_size <? size then S max_size else size)
        else go size
    end.
  Definition peekdata (k : nat) : list event * option bytes :=
    if addr =? 0 then ([], None) else readstr_peekdata (max_size + block + 2) k block 0 [].

  Variable page_size : nat.

  (** ptdebug.cpp:161-190: the loop; on a failed read everything is read again word by word. The
      flag says whether to give up on process_vm_readv from now on (182-184).  A read that
      succeeds is taken to be complete: every range asked for lies in one page. *)
  Fixpoint readv_loop (fuel k read remain : nat) (buf : bytes) : list event * option bytes * bool :=
    match fuel with
    | 0 => ([], None, false)
    | S f =>
        if read <? max_size then
          match (if vm_ok k then range (mem k) (addr + read) remain else None) with
          | Some data =>
              let ev := [Ask (addr + read) remain; Write (S max_size) read remain] in
              if has_null data then (ev, Some (cstr (buf ++ data)), false)
              else
                let read' := read + remain in
                let remain' := if page_size <? max_size - read' then page_size else max_size - read' in
                let '(ev', r, p) := readv_loop f (S k) read' remain' (buf ++ data) in (ev ++ ev', r, p)
          | None =>
              let '(ev', r) := peekdata (S k) in
              (Ask (addr + read) remain :: ev', r, (read =? 0) && match r with Some _ => true | None => false end)
          end
        else ([Write (S max_size) max_size 1], Some (cstr (firstn max_size buf)), false)
    end.

  (** ptdebug.cpp:135-194 (Linux); ((addr + page_size) & page_mask) - addr is the distance to
      the end of the page. *)
  Definition readstr (use_peekdata : bool) : list event * option bytes * bool :=
    if addr =? 0 then ([], None, use_peekdata)
    else if use_peekdata then let '(ev, r) := peekdata 0 in (ev, r, true)
    else readv_loop (S max_size) 0 0 (page_size - addr mod page_size) [].
End Read.

(** tracer.py:75-83: the caller's limit, one less than the C one; a longer string raises.
    Addresses of a 32-bit ABI are cut to 32 bits. *)
Inductive py_read := PyNone | PyStr (s : bytes) | TooLong.
Definition py_readstr (mem : memory) vm_ok word junk page_size (use_peekdata : bool) (bits32 : bool) (address max_size : nat) : py_read :=
  let address := if bits32 then N.to_nat (N.land (N.of_nat address) 0xFFFFFFFF) else address in
  match readstr mem vm_ok word junk address (S max_size) page_size use_peekdata with
  | (_, None, _) => PyNone
  | (_, Some s, _) => if max_size <? length s then TooLong else PyStr s
  end.
