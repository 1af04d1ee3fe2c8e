(** C49: what an interactive problem reads, writes and decides. *)
From Coq Require Import String QArith.
From Flocq Require Import IEEE754.BinarySingleNaN.
From Verif Require Import Model.Bytes Model.Utf8 Model.Floats Model.Grading Model.Interactor.
From Verif Require Import Spec.Text Spec.Utf8 Spec.Interactor Spec.Floats.
From Verif Require Proofs.Interactor Proofs.Utf8.
Local Open Scope nat_scope.
Local Open Scope list_scope.

(** Reading tokens yields the tokens of every line, in order, then "closed" for ever. *)
Theorem C49_tokens out : exists ts, Forall2 line_tokens (file_lines out) ts /\
  forall k, calls (readtoken None) k (start out) =
    map Got (firstn k (concat ts)) ++ repeat IOErr (k - length (concat ts)).
Proof. exact (Proofs.Interactor.token_stream out). Qed.

(** When every line begins with a word these are exactly the words of the output. *)
Theorem C49_words out : Forall tidy (file_lines out) -> forall k,
  calls (readtoken None) k (start out) = map Got (firstn k (words out)) ++ repeat IOErr (k - length (words out)).
Proof. exact (Proofs.Interactor.tokens_tidy out). Qed.

(** Not so in general: blank lines count as empty tokens, and an indented word keeps its indent. *)
Theorem C49_words_refuted : exists out, forall ws, words out = ws ->
  calls (readtoken None) (length ws) (start out) <> map Got ws.
Proof. exists (B " a"). intros ws <-. discriminate. Qed.

(** An integer is returned exactly when the token has at most 10000 bytes, is a decimal
    integer and lies within the bounds. *)
Theorem C49_int lim lo hi d st v st' :
  readint lim lo hi d st = (Got v, st') <->
  exists t, readtoken d st = (Got t, st') /\ (N.of_nat (length t) <= 10000)%N /\ integer lim t v /\ between lo hi v.
Proof. exact (Proofs.Interactor.readint_iff lim lo hi d st v st'). Qed.

(** Any other token is a wrong answer, provided it is UTF-8. *)
Theorem C49_int_wrong lim lo hi d st t st' : readtoken d st = (Got t, st') ->
  ~ ((N.of_nat (length t) <= 10000)%N /\ exists v, integer lim t v /\ between lo hi v) ->
  (exists x, utf8 x t) -> exists m, readint lim lo hi d st = (WrongAns m, st').
Proof.
  intros E H [x U]. destruct (Proofs.Interactor.readint_otherwise lim lo hi d st t st' E H) as [R|(_ & _ & R)]; [exact R|].
  apply Proofs.Utf8.utf8text_iff in U. congruence.
Qed.

(** The message says which: too long, not an integer (with the beginning of the token), or out of
    the bounds (with the bounds and the number). *)
Theorem C49_int_told lim lo hi d st t st' x : readtoken d st = (Got t, st') -> utf8 x t ->
  ((10000 < N.of_nat (length t))%N -> readint lim lo hi d st = (WrongAns IntTooLong, st')) /\
  ((N.of_nat (length t) <= 10000)%N -> (forall v, ~ integer lim t v) -> exists a, shortened x a /\ readint lim lo hi d st = (WrongAns (ExpectedInt a), st')) /\
  (forall v, (N.of_nat (length t) <= 10000)%N -> integer lim t v -> ~ between lo hi v -> readint lim lo hi d st = (WrongAns (IntRange lo hi v), st')).
Proof. intros E U. apply (Proofs.Interactor.readint_told lim lo hi d st t st' x E), Proofs.Utf8.utf8text_iff, U. Qed.

(** A token that is neither an integer nor UTF-8 escapes as another exception. *)
Theorem C49_int_wrong_refuted : exists out, forall lim lo hi, exists st',
  readtoken None (start out) = (Got [255%N], st') /\ readint lim lo hi None (start out) = (Crash, st').
Proof. exists [255%N; 10%N]. intros lim lo hi. eexists. split; reflexivity. Qed.

(** Integers printed in any layout without blank lines and overlong lines come back in order. *)
Theorem C49_ints lim lo hi out vs :
  (forall l, In l (file_lines out) -> words l <> [] /\ (N.of_nat (length l) <= 10000)%N) ->
  Forall2 (integer lim) (words out) vs -> Forall (between lo hi) vs ->
  calls (readint lim lo hi None) (length vs) (start out) = map Got vs.
Proof. exact (Proofs.Interactor.ints_in_order lim lo hi out vs). Qed.

(** Floats: within the bounds, and never a NaN. *)
Theorem C49_float parse lo hi d st v st' :
  (readfloat parse lo hi d st = (Got v, st') <->
   exists t, readtoken d st = (Got t, st') /\ (N.of_nat (length t) <= 10000)%N /\ parse t = Some v /\
     le64 lo v /\ le64 v hi) /\
  (readfloat parse lo hi d st = (Got v, st') -> is_nan v = false).
Proof.
  split; [exact (Proofs.Interactor.readfloat_iff parse lo hi d st v st')|].
  intros H. destruct (Proofs.Interactor.readfloat_got parse lo hi d st v st' H) as (_ & _ & _ & _ & _ & H'). exact H'.
Qed.

(** The text a token is cut from: what is left of the current line, or else the next line
    without its trailing white space; and the state once it is gone. *)
Definition current (st : state) (t : bytes) (st1 : state) : Prop :=
  (t <> [] /\ tokens st = Some t /\ st1 = State (stream st) None (sent st)) \/
  ((tokens st = None \/ tokens st = Some []) /\ exists l rest, next_line (stream st) l rest /\
     without_trailing l t /\ st1 = State rest None (sent st)).

(** With a delimiter, a token is what stands before its first occurrence, and the text
    after it is kept; without an occurrence it is the whole text. *)
Theorem C49_delimiter st t st1 d : current st t st1 -> d <> [] ->
  (forall a b, first_cut d t a b -> readtoken (Some d) st = (Got a, State (stream st1) (Some b) (sent st1))) /\
  ((forall a b, t <> a ++ d ++ b) -> readtoken (Some d) st = (Got t, st1)).
Proof. exact (Proofs.Interactor.token_delim st t st1 d). Qed.

(** An empty last field is lost: the next line is read instead. *)
Theorem C49_last_field_refuted : exists out a b, next_line out (a ++ B ",") b /\
  calls (readtoken (Some (B ","))) 2 (start out) = [Got a; Got b].
Proof. 
  exists (B "a," ++ 10%N :: B "b"), (B "a"), (B "b"). split; [|reflexivity].
  split; [cbn; intuition discriminate|left; reflexivity].
Qed.

(** Whole lines. *)
Theorem C49_lines st :
  (forall b l rest, next_line (stream st) l rest -> exists t,
     readln b st = (Got t, State rest (tokens st) (sent st)) /\
     (b = true -> forall t', without_trailing l t' -> t = t') /\ (b = false -> t ++ rest = stream st)) /\
  (stream st <> [] -> read st = (Got (stream st), State [] (tokens st) (sent st))) /\
  (stream st = [] -> read st = (IOErr, st) /\ (forall b, readln b st = (IOErr, st)) /\
     ((tokens st = None \/ tokens st = Some []) -> forall d, readtoken d st = (IOErr, st))).
Proof.
  exact (conj (fun b l rest => Proofs.Interactor.readln_line b st l rest)
           (conj (Proofs.Interactor.read_all st) (Proofs.Interactor.reads_closed st))).
Qed.

(** Tokens and lines do not mix: the rest of a line begun with tokens comes after the next lines. *)
Theorem C49_order_refuted : exists out, let '(t1, st1) := readtoken None (start out) in
  let '(t2, st2) := readln true st1 in
  [t1; t2; fst (readtoken None st2)] = [Got (B "a"); Got (B "c"); Got (B "b")] /\
  words out = [B "a"; B "b"; B "c"].
Proof. exists (B "a b" ++ 10%N :: B "c"). split; reflexivity. Qed.

(** Writing appends the UTF-8 form of the text, or fails and changes nothing. *)
Theorem C49_write accepts v st r st' : write accepts v st = (r, st') ->
  stream st' = stream st /\ tokens st' = tokens st /\
  ((r = Got tt /\ exists b, utf8 v b /\ sent st' = sent st ++ b) \/ (r <> Got tt /\ sent st' = sent st)).
Proof.
  intros H. destruct (Proofs.Interactor.write_spec accepts v st r st' H) as (E1 & E2 & E3).
  split; [exact E1|]. split; [exact E2|]. destruct E3 as [(E3 & b & E4 & E5)|E3]; [left|right; exact E3].
  split; [exact E3|]. exists b. split; [apply Proofs.Utf8.utf8bytes_iff, E4|exact E5].
Qed.

(** Whatever the problem's code does, the output is consumed from the front and the input
    only grows at its end. *)
Theorem C49_streams lim parse accepts s st : let st' := snd (interact lim parse accepts s st) in
  (exists a, stream st = a ++ stream st') /\ (exists b, sent st' = sent st ++ b).
Proof. exact (Proofs.Interactor.interact_monotone lim parse accepts s st). Qed.

(** The verdict: nothing for a run that went wrong by itself, the interactor's own answer,
    full points for a bare yes, none with the message for a wrong answer, none for a
    closed stream; other exceptions leave the grader. *)
Theorem C49_verdict lim parse accepts message_text s out flag pts :
  let v := verdict lim parse accepts message_text s out flag pts in
  match fst (interact lim parse accepts s (start out)) with
  | Other => v = None
  | Returned c =>
      v = Some (if (flag =? 0)%N then match c with CkBool b => CkResult b (if b then pts else 0)%Q None None | c => c end
                else CkBool false)
  | WA m => v = Some (if (flag =? 0)%N then CkResult false 0 (Some (message_text m)) None else CkBool false)
  | IO => v = Some (if (flag =? 0)%N then CkResult false 0 None None else CkBool false)
  end.
Proof. exact (Proofs.Interactor.verdict_table lim parse accepts message_text s out flag pts). Qed.

(** A guessing game: send a number, read one, say yes when it is right. *)
Definition ex_script : script :=
  WriteLn (B "10") (fun _ =>
  ReadInt (Some 1%Z) (Some 100%Z) None (fun r =>
    match r with
    | Got v => Return (CkBool (v =? 42)%Z)
    | IOErr => RaiseIO | WrongAns m => RaiseWA m | Crash => RaiseOther
    end)).
Definition ex_verdict out := verdict 0 (fun _ => None) (fun _ => true) (fun _ => B "bad") ex_script out 0 5.
Example C49_ex :
  calls (readtoken None) 4 (start (B "3 4" ++ 10%N :: B "  5")) = [Got (B "3"); Got (B "4"); Got (B "  5"); IOErr] /\
  calls (readint 0 None None None) 3 (start (B "3 -4" ++ 10%N :: B "  1_000")) = [Got 3%Z; Got (-4)%Z; Got 1000%Z] /\
  snd (interact 0 (fun _ => None) (fun _ => true) ex_script (start (B "42" ++ [10%N]))) = State [] None (B "10" ++ [10%N]) /\
  ex_verdict (B "42") = Some (CkResult true 5 None None) /\
  ex_verdict (B "41") = Some (CkResult false 0 None None) /\
  ex_verdict (B "101") = Some (CkResult false 0 (Some (B "bad")) None) /\
  ex_verdict [] = Some (CkResult false 0 None None).
Proof. repeat split. Qed.
Example C49_ex_tidy : Forall tidy (file_lines (B "3 4" ++ 10%N :: B "5 6")) /\
  words (B "3 4" ++ 10%N :: B "5 6") = [B "3"; B "4"; B "5"; B "6"].
Proof.
  split; [|reflexivity]. repeat (constructor; [eexists; eexists; split; [reflexivity|]; unfold whitespace; intuition discriminate|]).
  constructor.
Qed.
Example C49_ex_int : integer 0 (B " -1_0") (-10)%Z /\ first_cut (B ",") (B "a,b,c") (B "a") (B "b,c").
Proof. 
  split.
  - apply Proofs.Interactor.py_int_iff. reflexivity.
  - split; [reflexivity|]. intros a' b' H. destruct a' as [|x a']; [discriminate H|]. cbn. lia.
Qed.

Print Assumptions C49_tokens.
Print Assumptions C49_words.
Print Assumptions C49_words_refuted.
Print Assumptions C49_int.
Print Assumptions C49_int_wrong.
Print Assumptions C49_int_wrong_refuted.
Print Assumptions C49_ints.
Print Assumptions C49_float.
Print Assumptions C49_delimiter.
Print Assumptions C49_last_field_refuted.
Print Assumptions C49_lines.
Print Assumptions C49_order_refuted.
Print Assumptions C49_write.
Print Assumptions C49_streams.
Print Assumptions C49_verdict.
Print Assumptions C49_int_told.
