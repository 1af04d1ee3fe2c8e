(** Property theorems for process input and output (C25, C26).

    Throughout: [hi ho he] say which of the three pipes exist, [out] and [err] are what
    the process writes, and [polls] is any sequence of poll results the kernel may give. *)
From Coq Require Import String.
From Verif Require Import Model.Bytes Model.Communicate Spec.Communicate.
From Verif Require Proofs.Communicate.

(** ** C25 *)
(** Whatever is returned is exactly what the process wrote. *)
Theorem C25_output_exact : forall pb rs, 1 <= pb -> 1 <= rs -> forall input ho he hi ol el out err polls o e s,
  safe_communicate pb rs input ho he ol el hi out err polls = Returned o e s ->
  o = (if ho then out else []) /\ e = (if he then err else []) /\ (size o <= ol)%N /\ (size e <= el)%N.
Proof. exact Proofs.Communicate.returned_exact. Qed.
Print Assumptions C25_output_exact.

(** At every moment the process was given a prefix of the input, in order. *)
Theorem C25_input_prefix : forall pb rs, 1 <= pb -> 1 <= rs -> forall input ho he hi ol el out err polls,
  prefix (consumed (state_of (safe_communicate pb rs input ho he ol el hi out err polls))) input.
Proof. exact Proofs.Communicate.consumed_prefix. Qed.
Print Assumptions C25_input_prefix.

(** All of it when the call returns, unless the process closed its end. *)
Theorem C25_input_complete : forall pb rs, 1 <= pb -> 1 <= rs -> forall input ho he hi ol el out err polls o e s,
  hi = true -> Forall (fun p => ~ closes_input p) polls ->
  safe_communicate pb rs input ho he ol el hi out err polls = Returned o e s -> consumed s = input.
Proof. exact Proofs.Communicate.consumed_all. Qed.
Print Assumptions C25_input_complete.

(** The call does not spin: only boundedly many poll entries can occur ... *)
Theorem C25_bounded : forall pb rs, 1 <= pb -> 1 <= rs -> forall input ho he hi ol el out err polls,
  live_polls pb rs input ho ol el (communicate_start input ho he hi out err) polls
    <= length input + length out + length err + 4.
Proof. exact Proofs.Communicate.bounded. Qed.
Print Assumptions C25_bounded.

(** ... and while it is running there is always something it is waiting for. *)
Theorem C25_progress : forall pb rs, 1 <= pb -> 1 <= rs -> forall input ho he hi ol el out err polls s,
  safe_communicate pb rs input ho he ol el hi out err polls = Running s -> exists e, possible s e = true.
Proof. exact Proofs.Communicate.progress. Qed.
Print Assumptions C25_progress.

Example C25_case : match
  safe_communicate 4 4 (B "input data") true true 100 100 true (B "hello world") (B "oops")
    [Ready [(Stdin, Writable (Wrote 3)); (Stdout, Readable 2)]; Interrupted; Ready [(Stderr, Readable 9)];
     Ready [(Stdin, Writable (Wrote 9)); (Stdout, Readable 9)]; Ready [(Stdin, Writable (Wrote 9)); (Stderr, HangUp)];
     Ready [(Stdout, Readable 9)]; Ready [(Stdout, Readable 9)]; Ready [(Stdout, Readable 9)]]
  with Returned o e s => o = B "hello world" /\ e = B "oops" /\ consumed s = B "input data" | _ => False end.
Proof. vm_compute. auto. Qed.

(** ** C26 *)
(** The limit error is only raised for a stream that exceeds its limit, with that limit,
    and at most one read beyond it has been taken. *)
Theorem C26_only_if_exceeded : forall pb rs, 1 <= pb -> 1 <= rs -> forall input ho he hi ol el out err polls f lim s,
  safe_communicate pb rs input ho he ol el hi out err polls = OutputLimitExceeded f lim s ->
  (f = Stdout /\ lim = ol /\ ho = true /\ (ol < size out)%N /\ (size (concat (out_chunks s)) <= ol + N.of_nat rs)%N) \/
  (f = Stderr /\ lim = el /\ he = true /\ (el < size err)%N /\ (size (concat (err_chunks s)) <= el + N.of_nat rs)%N).
Proof. exact Proofs.Communicate.ole_only_if. Qed.
Print Assumptions C26_only_if_exceeded.

(** A call with a stream beyond its limit never returns normally. *)
Theorem C26_exceeding_never_returns : forall pb rs, 1 <= pb -> 1 <= rs -> forall input ho he hi ol el out err polls,
  (ho = true /\ (ol < size out)%N) \/ (he = true /\ (el < size err)%N) ->
  match safe_communicate pb rs input ho he ol el hi out err polls with Returned _ _ _ => False | _ => True end.
Proof. exact Proofs.Communicate.exceeding. Qed.
Print Assumptions C26_exceeding_never_returns.

(** A call with both within their limits never raises a limit error. *)
Theorem C26_within_never_raises : forall pb rs, 1 <= pb -> 1 <= rs -> forall input ho he hi ol el out err polls,
  (ho = true -> (size out <= ol)%N) -> (he = true -> (size err <= el)%N) ->
  match safe_communicate pb rs input ho he ol el hi out err polls with
  | OutputLimitExceeded _ _ _ | ValueErrorRaised _ => False | _ => True end.
Proof. exact Proofs.Communicate.within. Qed.
Print Assumptions C26_within_never_raises.

(** The one case where the error is not the limit error: standard error exceeds its
    limit after standard output has ended.  It does happen. *)
Theorem C26_wrong_error_only_if : forall pb rs, 1 <= pb -> 1 <= rs -> forall input ho he hi ol el out err polls s,
  safe_communicate pb rs input ho he ol el hi out err polls = ValueErrorRaised s ->
  (el < size err)%N /\ he = true /\ ho = true /\ out_open s = false /\ concat (out_chunks s) = out.
Proof. exact Proofs.Communicate.value_error_only_if. Qed.
Print Assumptions C26_wrong_error_only_if.
Theorem C26_limit_error_refuted : exists pb rs input out err polls s,
  safe_communicate pb rs input true true 10 3 true out err polls = ValueErrorRaised s.
Proof.
  exists 4, 4, [], (B "ok"), (B "long"), [Ready [(Stdout, Readable 9)]; Ready [(Stdout, Readable 9)]; Ready [(Stderr, Readable 9)]].
  exists (CState false false true 0 [B "ok"; []] [B "long"] 2 4 [] [] []). vm_compute. reflexivity.
Qed.
Print Assumptions C26_limit_error_refuted.

(** Defaults: 10 MiB, and the output limit for standard error. *)
Theorem C26_default_limits : forall o e, effective_limits o e =
  (match o with Some l => l | None => 10 * 2 ^ 20 end, match e with Some l => l | None => match o with Some l => l | None => 10 * 2 ^ 20 end end)%N.
Proof. intros [o|] [e|]; reflexivity. Qed.
Print Assumptions C26_default_limits.

(** Exactly the limit is fine, one more byte is not. *)
Example C26_boundary :
  match safe_communicate 4 4 [] true false 4 4 true (B "1234") [] [Ready [(Stdout, Readable 9)]; Ready [(Stdout, HangUp)]] with
  | Returned o _ _ => o = B "1234" | _ => False end /\
  match safe_communicate 4 4 [] true false 4 4 true (B "12345") [] [Ready [(Stdout, Readable 9)]; Ready [(Stdout, Readable 9)]] with
  | OutputLimitExceeded Stdout 4 _ => True | _ => False end.
Proof. vm_compute. auto. Qed.
