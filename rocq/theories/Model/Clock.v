(** Model of the sandbox's time keeping and time-limit decision
    (dmoj/cptbox/ptbox.h, ptproc.cpp, tracer.py).

    [time_t] and [long] are taken as unbounded integers.  Doubles are the reals rounded to
    the binary64 grid, without overflow (seconds stay far below 2^1024). *)
From Coq Require Import Reals.
From Flocq Require Import Core.Core.
From Verif Require Import Model.Bytes.
Local Open Scope list_scope.
Local Open Scope Z_scope.

(** struct timespec *)
Record timespec := { tv_sec : Z; tv_nsec : Z }.
Definition zero : timespec := {| tv_sec := 0; tv_nsec := 0 |}.

(** ptbox.h:79-86 *)
Definition timespec_add (a b : timespec) : timespec :=
  let sec := tv_sec a + tv_sec b in
  let nsec := tv_nsec a + tv_nsec b in
  if nsec >=? 1000000000 then {| tv_sec := sec + 1; tv_nsec := nsec - 1000000000 |}
  else {| tv_sec := sec; tv_nsec := nsec |}.

(** ptbox.h:88-102 *)
Definition timespec_sub (a b : timespec) : timespec :=
  if (tv_sec a <? tv_sec b) || ((tv_sec a =? tv_sec b) && (tv_nsec a <=? tv_nsec b)) then zero
  else
    let sec := tv_sec a - tv_sec b in
    if tv_nsec a <? tv_nsec b then {| tv_sec := sec - 1; tv_nsec := tv_nsec a + 1000000000 - tv_nsec b |}
    else {| tv_sec := sec; tv_nsec := tv_nsec a - tv_nsec b |}.

(** The clock state of a pt_process (ptbox.h: exec_time, start_time, end_time). *)
Record clock := { exec_time : timespec; start_time : timespec; end_time : timespec }.

(** ptproc.cpp:23-25 *)
Definition new_clock : clock := {| exec_time := zero; start_time := zero; end_time := zero |}.

(** ptproc.cpp:116-128 and 150-151: one turn of the loop, with the clock read before and
    after wait4; the first turn also records the start. *)
Definition turn (first : bool) (c : clock) (reading : timespec * timespec) : clock :=
  let '(start, end_) := reading in
  {| exec_time := timespec_add (exec_time c) (timespec_sub end_ start);
     start_time := if first then start else start_time c;
     end_time := end_time c |}.

(** The loop so far: one pair of readings per return of wait4.  (The start is recorded only
    if the first wait reports a stop; when it reports an exit the loop ends, see [finish].) *)
Definition turns (l : list (timespec * timespec)) : clock :=
  match l with
  | [] => new_clock
  | r :: rest => fold_left (turn false) rest (turn true new_clock r)
  end.

(** ptproc.cpp:325: after the loop end_time is the last reading. *)
Definition finish (l : list (timespec * timespec)) : clock :=
  let c := turns l in
  {| exec_time := exec_time c; start_time := start_time c; end_time := snd (last l (zero, zero)) |}.

(** ptproc.cpp:31-43, as a duration: [now] is the clock when it is asked. *)
Definition is_set (t : timespec) : bool := negb (tv_sec t =? 0) || negb (tv_nsec t =? 0).
Definition wall_clock (c : clock) (now : timespec) : timespec :=
  if negb (is_set (start_time c)) then zero
  else timespec_sub (if is_set (end_time c) then end_time c else now) (start_time c).

(** ptbox.h:123 and ptproc.cpp:42: the conversion to double. *)
Definition rnd (x : R) : R := round radix2 (FLT_exp (-1074) 53) ZnearestE x.
Definition seconds (t : timespec) : R :=
  rnd (rnd (IZR (tv_sec t)) + rnd (rnd (IZR (tv_nsec t)) / 1000000000))%R.

(** tracer.py:345-352: one poll of the shocker sees both clocks; the program is killed and
    marked when either limit is passed. *)
Definition shocks (time wall_time : R) (exec wall : timespec) : bool :=
  match Rlt_dec time (seconds exec), Rlt_dec wall_time (seconds wall) with
  | left _, _ | _, left _ => true
  | _, _ => false
  end.

(** tracer.py:240-241, 299-300, 324-325, 345-349: is_tle once the process has ended, for the
    polls of the shocker that took place (it stops at the first that fires), whether SIGXCPU
    was reported, and the final execution time.  Without a time limit there is no shocker. *)
Definition is_tle (time : option (R * R)) (polls : list (timespec * timespec)) (sigxcpu : bool) (exec : timespec) : bool :=
  match time with
  | None => sigxcpu
  | Some (t, w) =>
      existsb (fun p => shocks t w (fst p) (snd p)) polls || sigxcpu
      || (if Rlt_dec t (seconds exec) then true else false)
  end.
