(** Model of how the sandboxed child is set up before it runs the program: its standard
    streams, the closing of every other descriptor, its resource limits
    (dmoj/cptbox/helper.cpp, tracer.py, _cptbox.pyx). *)
From Coq Require Import String QArith Qround.
From Verif Require Import Model.Bytes.
Local Open Scope list_scope.
Local Open Scope nat_scope.

(** ** Descriptors *)
(** What a descriptor refers to: an end of the n-th pipe made, or something that was there. *)
Inductive desc := PipeRead (n : nat) | PipeWrite (n : nat) | Other (n : nat).
(** A descriptor table; [bounded t b] says that nothing is open from [b] on. *)
Definition table := nat -> option desc.
Definition set_fd (t : table) (n : nat) (d : option desc) : table := fun m => if m =? n then d else t m.

(** close(2); closing what is not open fails and changes nothing.  helper.cpp:157-159
    (cptbox_close_fd) repeats it while it reports EINTR: Linux has closed the descriptor by
    then and the repetition fails with EBADF, so it is one close. *)
Definition close_fd (t : table) (n : nat) : table := set_fd t n None.
(** dup2(2); a descriptor that is not open makes it fail. *)
Definition dup2 (t : table) (old new : nat) : table :=
  match t old with Some d => set_fd t new (Some d) | None => t end.
(** The kernel gives the lowest free descriptor ([b] bounds the search). *)
Definition lowest_free (t : table) (b : nat) : nat :=
  match find (fun n => match t n with None => true | Some _ => false end) (seq 0 (S b)) with
  | Some n => n
  | None => S b
  end.

(** helper.cpp:144-155; the name has no NUL and the number fits an int. *)
Definition digit (c : N) : bool := ((48 <=? c) && (c <=? 57))%N.
Fixpoint pos_int_from_ascii (num : nat) (name : bytes) : option nat :=
  match name with
  | [] => Some num
  | c :: rest => if digit c then pos_int_from_ascii (num * 10 + N.to_nat (c - 48)) rest else None
  end.

(** The names in /proc/self/fd: "." and ".." at positions 0 and 1, descriptor n at n + 2. *)
Fixpoint decimal_acc (fuel n : nat) (acc : bytes) : bytes :=
  match fuel with
  | 0 => acc
  | S f => if n <? 10 then N.of_nat (48 + n) :: acc
           else decimal_acc f (n / 10) (N.of_nat (48 + n mod 10) :: acc)
  end.
Definition decimal (n : nat) : bytes := decimal_acc (S n) n [].
Definition name_at (t : table) (pos : nat) : option bytes :=
  if pos =? 0 then Some (B ".") else if pos =? 1 then Some (B "..")
  else match t (pos - 2) with Some _ => Some (decimal (pos - 2)) | None => None end.
(** getdents64 on that directory (Linux proc_readfd): the names present now, from the
    position reached, in order, as many as fit; returns them with the new position. *)
Definition present (t : table) (b pos : nat) : list (nat * bytes) :=
  flat_map (fun p => match name_at t p with Some n => [(p, n)] | None => [] end) (seq pos (b + 2 - pos)).
Definition getdents (t : table) (b pos fit : nat) : list bytes * nat :=
  let l := firstn fit (present t b pos) in
  (map snd l, match rev l with (p, _) :: _ => S p | [] => pos end).

(** helper.cpp:215-222: the names in the buffer, one after the other. *)
Definition close_names (lowfd fd_dir : nat) (t : table) (names : list bytes) : table :=
  fold_left (fun t name =>
    match pos_int_from_ascii 0 name with
    | None => t
    | Some fd => if negb (fd =? fd_dir) && (lowfd <=? fd) then close_fd t fd else t
    end) names t.

(** helper.cpp:210-223: call getdents until it returns nothing; [fit i] is the number of
    names that fit in the i-th call ([None]: the call fails, which ends the loop too).
    [fuel] bounds the number of calls; [None] when it is used up. *)
Fixpoint closefrom_loop (fuel : nat) (fit : nat -> option nat) (i lowfd fd_dir b pos : nat) (t : table) : option table :=
  match fuel with
  | 0 => None
  | S f =>
      match fit i with
      | None => Some t
      | Some k =>
          match getdents t b pos k with
          | ([], _) => Some t
          | (names, pos') => closefrom_loop f fit (S i) lowfd fd_dir b pos' (close_names lowfd fd_dir t names)
          end
      end
  end.

(** helper.cpp:161-166; [max_fd] is sysconf(_SC_OPEN_MAX), [None] when it is negative. *)
Definition closefrom_brute (lowfd : nat) (max_fd : option nat) (t : table) : table :=
  let m := match max_fd with Some m => m | None => Nat.pow 2 14 end in
  fold_left close_fd (seq lowfd (S m - lowfd)) t.

(** helper.cpp:203-225 (Linux): [can_open] whether the directory can be opened. *)
Definition closefrom (can_open : bool) (max_fd : option nat) (fit : nat -> option nat) (lowfd b : nat) (t : table) : option table :=
  if can_open then
    let fd_dir := lowest_free t b in
    let t1 := set_fd t fd_dir (Some (Other 0)) in
    match closefrom_loop (b + 4) fit 0 lowfd fd_dir (S b) 0 t1 with
    | None => None
    | Some t2 => Some (close_fd t2 fd_dir)
    end
  else Some (closefrom_brute lowfd max_fd t).

(** ** Streams *)
(** tracer.py:354-386: what the caller asks for. *)
Inductive stream := Pipe | Number (fd : Z) | Inherit.
(** A stream set up: the child's descriptor (-1 or another negative number: none), the
    judge's end if any, whether the child's one is closed in the judge afterwards. *)
Record end_ := { child_fd : Z; judge_fd : option nat; needs_close : bool }.
(** os.pipe(): two lowest free descriptors. *)
Definition os_pipe (t : table) (b id : nat) : nat * nat * table :=
  let r := lowest_free t b in
  let t1 := set_fd t r (Some (PipeRead id)) in
  let w := lowest_free t1 (S b) in
  (r, w, set_fd t1 w (Some (PipeWrite id))).
(** tracer.py:357-386: one stream; the child reads its standard input and writes the others. *)
Definition init_stream (child_reads : bool) (t : table) (b id : nat) (s : stream) : table * end_ :=
  match s with
  | Pipe =>
      let '(r, w, t') := os_pipe t b id in
      (t', if child_reads then {| child_fd := Z.of_nat r; judge_fd := Some w; needs_close := true |}
           else {| child_fd := Z.of_nat w; judge_fd := Some r; needs_close := true |})
  | Number fd => (t, {| child_fd := fd; judge_fd := None; needs_close := false |})
  | Inherit => (t, {| child_fd := -1; judge_fd := None; needs_close := false |})
  end.
(** tracer.py:354-386; [b] bounds the judge's open descriptors. *)
Definition init_streams (t : table) (b : nat) (i o e : stream) : table * end_ * end_ * end_ :=
  let '(t1, ei) := init_stream true t b 0 i in
  let '(t2, eo) := init_stream false t1 (b + 2) 1 o in
  let '(t3, ee) := init_stream false t2 (b + 4) 2 e in
  (t3, ei, eo, ee).

(** helper.cpp:62-64 *)
Definition wire_one (t : table) (fd : Z) (slot : nat) : table :=
  if (0 <=? fd)%Z then dup2 t (Z.to_nat fd) slot else t.
Definition wire (t : table) (stdin_ stdout_ stderr_ : Z) : table :=
  wire_one (wire_one (wire_one t stdin_ 0) stdout_ 1) stderr_ 2.

(** helper.cpp:62-65 in the child, which starts with the judge's descriptors. *)
Definition child_table (can_open : bool) (max_fd : option nat) (fit : nat -> option nat) (b : nat) (t : table)
  (stdin_ stdout_ stderr_ : Z) : option table :=
  closefrom can_open max_fd fit 3 b (wire t stdin_ stdout_ stderr_).

(** tracer.py:305-311: the judge closes its copies of the child's pipe ends. *)
Definition close_end (t : table) (e : end_) : table :=
  if needs_close e then close_fd t (Z.to_nat (child_fd e)) else t.
Definition judge_table (t : table) (ei eo ee : end_) : table := close_end (close_end (close_end t ei) eo) ee.

(** ** Resource limits *)
Inductive resource := AS | DATA | CPU | NPROC | FSIZE | STACK | CORE.
Definition res_eqb (a b : resource) : bool :=
  match a, b with
  | AS, AS | DATA, DATA | CPU, CPU | NPROC, NPROC | FSIZE, FSIZE | STACK, STACK | CORE, CORE => true
  | _, _ => false
  end.
(** Soft and hard limit of each resource; RLIM_INFINITY is the largest 64-bit number. *)
Definition rlimits := resource -> N * N.
Definition INFINITY : N := (2 ^ 64 - 1)%N.
(** setrlimit(2): refused when the soft limit is above the hard one, or when an unprivileged
    process raises a hard limit.  helper.cpp:31-40 (setrlimit2) ignores the refusal. *)
Definition setrlimit (privileged : bool) (l : rlimits) (r : resource) (soft hard : N) : rlimits :=
  if (hard <? soft)%N || (negb privileged && (snd (l r) <? hard)%N) then l
  else fun r' => if res_eqb r' r then (soft, hard) else l r'.

(** The limits TracedPopen computes (tracer.py:111-119) and child_config carries
    (_cptbox.pyx).  The time is a Python number, here a rational that is not negative; Cython
    cuts it to an integer.  Memory and grace are in kilobytes.  Overflow of the C types
    (about 136 years, 16 exabytes) raises in the judge and is not modelled. *)
Record config := { c_memory : N; c_address : N; c_cpu : N; c_nproc : Z; c_fsize : Z }.
Definition child_config (time : Q) (memory address_grace data_grace : N) (nproc fsize : Z) : config :=
  {| c_memory := memory * 1024 + data_grace * 1024;
     c_address := if (memory =? 0)%N then 0 else memory * 1024 + address_grace * 1024;
     c_cpu := if Qeq_bool time 0 then 0 else Z.to_N (Qfloor (time + 5));
     c_nproc := nproc; c_fsize := fsize |}%N.
(** tracer.py:112 *)
Definition wall_limit (time : Q) (wall_time : option Q) : Q :=
  match wall_time with None => time * 3 | Some w => w end.

(** helper.cpp:112-133 *)
Definition apply_limits (privileged : bool) (c : config) (l : rlimits) : rlimits :=
  let set1 (l : rlimits) (on : bool) r soft hard := if on then setrlimit privileged l r soft hard else l in
  let l := set1 l (negb (c_address c =? 0)%N) AS (c_address c) (c_address c) in
  let l := set1 l (negb (c_memory c =? 0)%N) DATA (c_memory c) (c_memory c) in
  let l := set1 l (negb (c_cpu c =? 0)%N) CPU (c_cpu c) (c_cpu c + 1)%N in
  let l := set1 l (0 <=? c_nproc c)%Z NPROC (Z.to_N (c_nproc c)) (Z.to_N (c_nproc c)) in
  let l := set1 l (0 <=? c_fsize c)%Z FSIZE (Z.to_N (c_fsize c)) (Z.to_N (c_fsize c)) in
  let l := set1 l true STACK INFINITY INFINITY in
  set1 l true CORE 0%N 0%N.
