(** C92: a session at the command line. *)
From Coq Require Import String ZifyNat.
From Flocq Require Import IEEE754.BinarySingleNaN.
From Verif Require Import Model.Bytes Model.Floats Model.Interactor Model.Commands Model.Session.
From Verif Require Import Spec.Interactor Spec.Commands Spec.Console Spec.Toolchain Spec.Session.
From Verif Require Model.Helpers Model.Console Model.Utf8 Proofs.Commands Proofs.Session Proofs.Console Proofs.Helpers.
Local Open Scope nat_scope.
Local Open Scope list_scope.

(** A line is read as a shell would read it, in one way at most; otherwise it ends the session. *)
Theorem C92_words s ws : Helpers.split (strip s) = Some ws <-> line_reads s ws.
Proof. exact (Proofs.Session.reads_iff s ws). Qed.
Theorem C92_one_reading s a b : line_reads s a -> line_reads s b -> a = b.
Proof. exact (Proofs.Session.reads_unique s a b). Qed.
(** Words without white space, quotation marks and backslashes stand for themselves, *)
Theorem C92_plain_line ws s : Forall (fun w => w <> [] /\ Forall (fun c => ~ blank_char c /\ ~ In c [39; 34; 92]%N) w) ws ->
  s = Console.join (B " ") ws -> line_reads s ws.
Proof.
  intros F ->. exists (Console.join (B " ") ws). split.
  - exists [], []. rewrite app_nil_r. split; [reflexivity|]. split; [constructor|]. split; [constructor|]. split.
    + intros c r E. destruct ws as [|w ws]; [discriminate|]. inversion F as [|? ? [Nn Fw] _]; subst. destruct w as [|d w]; [congruence|].
      inversion Fw as [|? ? [K _] _]; subst. destruct ws; cbn in E; injection E as <- _; exact K.
    + intros c r E. revert r E. induction F as [|w ws [Nn Fw] Fr IH]; intros r E; [destruct r; discriminate|]. destruct ws as [|v ws].
      * cbn in E. rewrite E in Fw. apply Forall_app in Fw as [_ Fw]. inversion Fw as [|? ? [K _] _]; subst. exact K.
      * change (Console.join (B " ") (w :: v :: ws)) with (w ++ B " " ++ Console.join (B " ") (v :: ws)) in E.
        assert (Ne : Console.join (B " ") (v :: ws) <> []) by (inversion Fr as [|? ? [Nv _] _]; subst; destruct v; [congruence|destruct ws; discriminate]).
        destruct (exists_last Ne) as (q & x & Eq). rewrite Eq in E, IH. rewrite !app_assoc in E. apply app_inj_tail in E as [_ ->]. apply (IH q eq_refl).
  - assert (Pl : forall w, Forall (fun c => ~ blank_char c /\ ~ In c [39; 34; 92]%N) w -> spells w w).
    { induction 1 as [|c w [K Q] _ IH]; [constructor|]. apply spells_char; [|exact Q|exact IH].
      intros G. apply K. unfold gap in G. cbn in G. unfold blank_char. lia. }
    induction F as [|w ws [Nn Fw] Fr IH]; [constructor|]. destruct ws as [|v ws].
    + apply sentence_last; [exact Nn|exact (Pl w Fw)].
    + change (Console.join (B " ") (w :: v :: ws)) with (w ++ 32%N :: Console.join (B " ") (v :: ws)).
      apply sentence_word; [exact Nn|exact (Pl w Fw)|left; reflexivity|exact IH].
Qed.
(** and any words at all can be given, in apostrophes. *)
Theorem C92_quoted_line ws : ws <> [] -> (forall w, In w ws -> ~ In 39%N w) ->
  line_reads (Console.join (B " ") (map (fun w => B "'" ++ w ++ B "'") ws)) ws.
Proof.
  intros Nn F. set (s := Console.join (B " ") (map (fun w => B "'" ++ w ++ B "'") ws)). exists s.
  assert (H : (exists m, s = 39%N :: m) /\ (exists m, s = m ++ [39%N]) /\ sentence s ws).
  { unfold s. clear s. induction ws as [|w ws IH]; [congruence|]. assert (Sw : spells (B "'" ++ w ++ B "'") w).
    { rewrite <- (app_nil_r w) at 2. apply (spells_single w [] []); [apply F; left; reflexivity|constructor]. }
    destruct ws as [|v ws].
    - cbn [map Console.join]. split; [eexists; reflexivity|]. split; [exists (39%N :: w); reflexivity|]. apply sentence_last; [discriminate|exact Sw].
    - destruct IH as (_ & (m & M) & K); [discriminate|intros x I; apply F; right; exact I|].
      change (Console.join (B " ") (map (fun w0 => B "'" ++ w0 ++ B "'") (w :: v :: ws)))
        with ((B "'" ++ w ++ B "'") ++ 32%N :: Console.join (B " ") (map (fun w0 => B "'" ++ w0 ++ B "'") (v :: ws))).
      split; [eexists; reflexivity|]. split.
      + rewrite M. exists ((B "'" ++ w ++ B "'") ++ 32%N :: m). rewrite <- !app_assoc. reflexivity.
      + apply sentence_word; [discriminate|exact Sw|left; reflexivity|exact K]. }
  destruct H as ((m & M) & (m' & M') & K). split; [|exact K]. exists [], []. rewrite app_nil_r. split; [reflexivity|]. split; [constructor|]. split; [constructor|].
  split.
  - intros c r E. rewrite M in E. injection E as <- _. unfold blank_char. lia.
  - intros c r E. rewrite M' in E. apply app_inj_tail in E as [_ <-]. unfold blank_char. lia.
Qed.

Section Session.
  Variables (no_ansi : bool) (lim : nat) (parse : bytes -> list bytes -> option command).

  (** The commands typed are run in order, each once, in the state the one before left; the gradings
      started are the recorded ones, in order. *)
  Theorem C92_in_order evs : let '(e, acts, st) := interactive no_ansi lim parse evs in
    exists done rest cs, evs = done ++ rest /\ stand_for parse done cs /\ (e = Running -> rest = []) /\
    s_cli st = session lim cs cli_start /\
    filter (fun a => match a with Began _ _ => true | _ => false end) acts = map (fun ke => Began (fst ke) (snd ke)) (gradings (s_cli st)).
  Proof.
    unfold interactive. pose proof (Proofs.Session.loop_state no_ansi lim parse evs sess_start) as H.
    destruct (loop no_ansi lim parse evs sess_start) as [[e acts] st]. destruct H as (don & rest & cs & -> & S0 & Hs & Hr & g & G & F & I).
    exists don, rest, cs. split; [reflexivity|]. split; [exact S0|]. split; [exact Hr|]. split; [exact Hs|]. cbn [filter]. rewrite filter_app.
    change (fun a => match a with Began _ _ => true | _ => false end) with Proofs.Session.began. rewrite F, G. cbn [s_cli sess_start cli_start gradings app].
    destruct e; apply app_nil_r.
  Qed.
  (** Whatever ends it, the judge is shut down, once and last. *)
  Theorem C92_shutdown evs : let '(e, acts, st) := interactive no_ansi lim parse evs in
    exists middle, acts = Listen :: middle ++ (match e with Running => [] | _ => [Murdered] end) /\ ~ In Murdered middle /\ ~ In Listen middle.
  Proof.
    unfold interactive. pose proof (Proofs.Session.loop_state no_ansi lim parse evs sess_start) as H.
    destruct (loop no_ansi lim parse evs sess_start) as [[e acts] st]. destruct H as (don & rest & cs & -> & S0 & Hs & Hr & g & G & F & I).
    exists acts. split; [reflexivity|]. split; intros K; apply I in K as [K|K]; discriminate.
  Qed.
  (** While it runs, the next line is run from there; *)
  Theorem C92_next evs acts st s w i a st' : interactive no_ansi lim parse evs = (Running, acts, st) ->
    run_line no_ansi lim parse s w i st = (Goes_on, a, st') -> interactive no_ansi lim parse (evs ++ [Typed s w i]) = (Running, acts ++ a, st').
  Proof.
    unfold interactive. rewrite Proofs.Session.loop_app. destruct (loop no_ansi lim parse evs sess_start) as [[e m] s0]. intros [= -> <- ->] R.
    cbn [loop]. rewrite R. cbn. rewrite !app_nil_r. reflexivity.
  Qed.
  (** once it has ended, nothing more is read. *)
  Theorem C92_over evs more e acts st : interactive no_ansi lim parse evs = (e, acts, st) -> e <> Running -> interactive no_ansi lim parse (evs ++ more) = (e, acts, st).
  Proof.
    unfold interactive. rewrite Proofs.Session.loop_app. destruct (loop no_ansi lim parse evs sess_start) as [[e' m] s0]. intros [= -> <- ->] Ne.
    destruct e; [congruence|reflexivity..].
  Qed.
  (** It ends in order (status 0) at the end of the input, with quit, with Ctrl-C at the prompt or while a
      command runs outside a grading, and with Ctrl-C during a rejudging; it ends with a traceback if the
      line does. *)
  Theorem C92_end evs acts st ev : interactive no_ansi lim parse evs = (Running, acts, st) ->
    let '(e, _, _) := interactive no_ansi lim parse (evs ++ [ev]) in
    (e = Status 0 <->
       ev = EndOfInput \/ ev = Interrupt \/
       (exists s w, ev = Typed s w (Some Otherwise)) \/
       (exists s w i word args, ev = Typed s w i /\ line_reads s (word :: args) /\ parse word args = Some Quit) \/
       (exists s w word args id x, ev = Typed s w (Some WhileGrading) /\ line_reads s (word :: args) /\ parse word args = Some (Rejudge id) /\
          entry_number (history (s_cli st)) id x)) /\
    (e = Traceback <-> exists s w i a st', ev = Typed s w i /\ run_line no_ansi lim parse s w i st = (Crashes, a, st')) /\
    (forall n, e = Status n -> n = 0).
  Proof.
    unfold interactive. rewrite Proofs.Session.loop_app. destruct (loop no_ansi lim parse evs sess_start) as [[e m] s0]. intros [= -> <- ->].
    destruct ev as [s w i| |]; cbn [loop].
    2,3: split; [split; [auto|reflexivity]|split; [split; [discriminate|intros (? & ? & ? & ? & ? & K & _); discriminate]|congruence]].
    destruct (run_line no_ansi lim parse s w i st) as [[al a] st'] eqn:R. destruct al.
    - split; [split; [discriminate|]|split; [split; [discriminate|]|discriminate]].
      + intros [K|[K|[(s1 & w1 & [= -> -> ->])|[(s1 & w1 & i1 & word & args & [= -> -> ->] & U & P)|(s1 & w1 & word & args & id & x & [= -> -> ->] & U & P & En)]]]]; try discriminate K; exfalso.
        * discriminate R.
        * assert (D : i1 = Some Otherwise \/ i1 <> Some Otherwise) by (destruct i1 as [[]|]; [right|left|right]; congruence). destruct D as [->|D]; [discriminate R|].
          assert (Q : run_line no_ansi lim parse s1 w1 i1 st = (Quits, [], st)) by (apply Proofs.Session.line_quits; eauto 8). congruence.
        * assert (Q : exists z, run_line no_ansi lim parse s1 w1 (Some WhileGrading) st = (Interrupted, [Began (counter (s_cli st)) x], z))
            by (eexists; apply Proofs.Session.line_interrupted; right; split; [reflexivity|]; exists word, args, id, x; auto 8).
          destruct Q as [z Q]. congruence.
      + intros (s1 & w1 & i1 & a1 & z & [= -> -> ->] & Q). congruence.
    - split; [split; [intros _|reflexivity]|split; [split; [discriminate|]|congruence]].
      + apply Proofs.Session.line_quits in R as (_ & _ & _ & word & args & U & P). right; right; right; left. eauto 9.
      + intros (s1 & w1 & i1 & a1 & z & [= -> -> ->] & Q). congruence.
    - split; [split; [discriminate|]|split; [split; [intros _; eauto 9|reflexivity]|discriminate]].
      intros [K|[K|[(s1 & w1 & [= -> -> ->])|[(s1 & w1 & i1 & word & args & [= -> -> ->] & U & P)|(s1 & w1 & word & args & id & x & [= -> -> ->] & U & P & En)]]]]; try discriminate K; exfalso.
      + discriminate R.
      + assert (D : i1 = Some Otherwise \/ i1 <> Some Otherwise) by (destruct i1 as [[]|]; [right|left|right]; congruence). destruct D as [->|D]; [discriminate R|].
        assert (Q : run_line no_ansi lim parse s1 w1 i1 st = (Quits, [], st)) by (apply Proofs.Session.line_quits; eauto 8). congruence.
      + assert (Q : exists z, run_line no_ansi lim parse s1 w1 (Some WhileGrading) st = (Interrupted, [Began (counter (s_cli st)) x], z))
          by (eexists; apply Proofs.Session.line_interrupted; right; split; [reflexivity|]; exists word, args, id, x; auto 8).
        destruct Q as [z Q]. congruence.
    - split; [split; [intros _|reflexivity]|split; [split; [discriminate|]|congruence]].
      + apply Proofs.Session.line_interrupted in R as [(-> & _)|(-> & word & args & id & x & U & P & En & _)]; [right; right; left; eauto|].
        right; right; right; right. exists s, w, word, args, id, x. auto.
      + intros (s1 & w1 & i1 & a1 & z & [= -> -> ->] & Q). congruence.
  Qed.

  (** A line ends the session with a traceback only if it has no reading, if its command meets one of the
      troubles, or, on a terminal with colours, if "](" occurs in the text it makes the judge print. *)
  Theorem C92_survives s w i st acts st' : run_line no_ansi lim parse s w i st = (Crashes, acts, st') ->
    (forall ws, ~ line_reads s ws) \/
    (exists word args, line_reads s (word :: args) /\ parse word args = None /\ no_ansi = false /\ found_in (B "](") word) \/
    (exists word args c, line_reads s (word :: args) /\ parse word args = Some c /\
       (trouble lim w st c \/ (no_ansi = false /\ exists x, coloured lim w st c x /\ found_in (B "](") x))).
  Proof. intros H. apply Proofs.Session.line_crash in H as [_ H]. exact H. Qed.
  (** As coded, every line without a reading and every one of the troubles does end it. *)
  Theorem C92_unbalanced s w i st : i <> Some Otherwise -> (forall ws, ~ line_reads s ws) -> run_line no_ansi lim parse s w i st = (Crashes, [], st).
  Proof. exact (Proofs.Session.line_unread no_ansi lim parse s w i st). Qed.
  Theorem C92_troubles s w i st word args c : i <> Some Otherwise -> line_reads s (word :: args) -> parse word args = Some c -> trouble lim w st c ->
    exists st', run_line no_ansi lim parse s w i st = (Crashes, [], st') /\ s_cli st' = s_cli st.
  Proof. exact (Proofs.Session.line_trouble no_ansi lim parse s w i st word args c). Qed.
  (** Ctrl-C during the grading of a submission ends only the grading. *)
  Theorem C92_abort s w st word args a lang src : line_reads s (word :: args) -> parse word args = Some (Submit a) ->
    In (a_problem a) (supported (base w)) -> a_language a = Some lang -> lang <> [] -> In lang (executors (base w)) ->
    f_le (a_tl a) (B754_zero false) = false -> (0 < a_ml a)%Z ->
    (match a_source a with Some (x :: r) => file (base w) (x :: r) = Some src | _ => editor (base w) lang [] = Some src end) ->
    let e := Entry (a_problem a) lang src (a_tl a) (a_ml a) in
    exists st', run_line no_ansi lim parse s w (Some WhileGrading) st = (Goes_on, [Began (S (counter (s_cli st))) e; Aborted], st') /\
      history (s_cli st') = history (s_cli st) ++ [e] /\
      s_bytes st' = s_bytes st ++ [match a_source a with Some (_ :: _) => false | _ => editor_set w end].
  Proof.
    intros U P Sp L Nn I T M Src e.
    rewrite (Proofs.Session.line_command no_ansi lim parse s w (Some WhileGrading) st word args _ ltac:(discriminate) U P).
    apply Proofs.Commands.listed_iff in Sp, I. assert (G : given (Some lang) = Some lang) by (apply Proofs.Session.given_some; auto).
    assert (E : execute lim (base w) (Submit a) (s_cli st) = (Done Nothing, record_and_grade (s_cli st) e)).
    { cbn [execute]. unfold submit. rewrite Sp, L, I. cbn [negb]. rewrite G, I. cbn [negb]. unfold tl_bad. rewrite T. apply Z.leb_gt in M. rewrite M.
      destruct (a_source a) as [[|x r]|]; cbn [given]; [|unfold get_source|]; rewrite Src; reflexivity. }
    unfold run_one. rewrite E. cbn [breaks_down]. unfold source_arg. rewrite L, I.
    rewrite (Proofs.Session.begun_more _ _ [(S (counter (s_cli st)), e)]) by reflexivity. cbn [is_rejudge]. eexists. split; [reflexivity|]. split; [reflexivity|].
    cbn [s_bytes]. destruct (a_source a) as [[|x r]|]; reflexivity.
  Qed.

  (** One command on the command line: its status. *)
  Theorem C92_status word args w : let '(e, acts, st) := oneshot no_ansi lim parse (word :: args) w None in
    (exists middle, acts = Listen :: middle ++ [Murdered] /\ ~ In Murdered middle) /\
    match parse word args with
    | None => e = Status 127 \/ (e = Traceback /\ no_ansi = false /\ found_in (B "](") word)
    | Some c =>
        match fst (execute lim (base w) c cli_start) with
        | Done _ | Exit0 => e = Status 0 \/ (e = Traceback /\ trouble lim w sess_start c)
        | Invalid => e = Status 1 \/ (e = Traceback /\ (trouble lim w sess_start c \/ (no_ansi = false /\ exists x, coloured lim w sess_start c x /\ found_in (B "](") x)))
        | Raised => e = Traceback
        end
    end.
  Proof.
    unfold oneshot. cbn [run_words]. destruct (parse word args) as [c|].
    - pose proof (Proofs.Session.run_one_acts no_ansi lim w c sess_start) as A. pose proof (Proofs.Session.run_one_dies no_ansi lim w c sess_start) as D.
      destruct (run_one no_ansi lim w c sess_start) as [e st] eqn:R. cbn [fst] in D.
      assert (Q : let e' := match e with Code n => Status n | Leaves => Status 0 | Dies => Traceback end in
        (match begun sess_start st, (None : option moment) with | _ :: _, Some _ => if is_rejudge (line_command parse (word :: args)) then (Status 0, begun sess_start st, st) else (Status 0, begun sess_start st ++ [Aborted], st)
         | _, _ => (e', begun sess_start st, st) end) = (e', begun sess_start st, st)) by (destruct (begun sess_start st); reflexivity).
      cbv zeta in Q. rewrite Q. clear Q. split.
      + exists (begun sess_start st). split; [destruct e; reflexivity|]. destruct A as [[-> _]|(_ & k & x & -> & _)]; cbn; intuition discriminate.
      + unfold run_one in R. destruct (execute lim (base w) c (s_cli sess_start)) as [o s'] eqn:X. change (s_cli sess_start) with cli_start in X. rewrite X. cbn [fst].
        pose proof (Proofs.Session.breaks_iff no_ansi lim w c sess_start) as Bk. cbv zeta in Bk. change (s_cli sess_start) with cli_start in Bk. rewrite X in Bk. cbn [fst] in Bk.
        pose proof (proj2 (Proofs.Session.trouble_iff lim w sess_start c)) as Tr. change (s_cli sess_start) with cli_start in Tr. rewrite X in Tr. cbn [fst] in Tr.
        destruct (breaks_down no_ansi lim w c o sess_start) eqn:Bd.
        * injection R as <- _.
          assert (Y : trouble lim w sess_start c).
          { clear Bk.
            apply Tr. right. destruct c; try exact Bd. cbn [execute] in X. injection X as <- _. unfold submissions in Bd. destruct (bad_limit limit); [discriminate|]. cbn in Bd. destruct limit; cbn in Bd; [rewrite firstn_nil in Bd|]; discriminate. }
          destruct o; auto.
        * destruct o; [injection R as <- _; auto| |injection R as <- _; auto|injection R as <- _; auto].
          destruct (message lim w c cli_start) as [|x m] eqn:Me; cbn [s_cli sess_start] in R; rewrite Me in R; [injection R as <- _; auto|].
          destruct (printable no_ansi (red (x :: m))) eqn:Pr; injection R as <- _; [auto|]. right. split; [reflexivity|]. right.
          destruct (Proofs.Session.unprintable no_ansi _ _ Pr (Proofs.Session.red_safe _)) as [Hn F]. split; [exact Hn|]. rewrite <- Me in F. exact (Proofs.Session.message_found lim w c sess_start F).
    - rewrite Proofs.Session.begun_same by reflexivity. destruct (printable no_ansi (unrecognized word)) eqn:Pr; cbn.
      + split; [exists []; split; [reflexivity|intros []]|auto].
      + split; [exists []; split; [reflexivity|intros []]|]. right. split; [reflexivity|]. exact (Proofs.Session.unprintable no_ansi _ word Pr (Proofs.Session.unrecognized_safe word)).
  Qed.
End Session.

(** As coded the status of a command that is interrupted is 0, the status of success. *)
Theorem C92_interrupted_status_refuted : exists no_ansi lim parse words w acts st, oneshot no_ansi lim parse words w (Some Otherwise) = (Status 0, acts, st) /\
  gradings (s_cli st) = [] /\ parse (hd [] words) (tl words) = Some (Submit (SubmitArgs (B "a") (Some (B "PY3")) None (B754_infinity false) 1)).
Proof.
  exists true, 0, (fun _ _ => Some (Submit (SubmitArgs (B "a") (Some (B "PY3")) None (B754_infinity false) 1))), [B "submit"; B "a"; B "PY3"].
  exists (Around (World [B "PY3"] [B "a"] (fun _ => None) (fun _ _ => Some (B "x")) (fun _ => None)) false (fun _ => true) (fun _ => []) []).
  do 2 eexists. split; [reflexivity|]. split; reflexivity.
Qed.

(** A source from a file is its text, with every line end as LF; not the bytes of the file.  A file that is
    not UTF-8 is refused. *)
Theorem C92_source b t : read_source (Some b) = Some t <-> exists u, Utf8.utf8text b = Some u /\ newlines u t.
Proof.
  unfold read_source. destruct (Utf8.utf8text b) as [u|]; split.
  - intros [= <-]. exists u. split; [reflexivity|]. apply Proofs.Session.universal_iff. reflexivity.
  - intros (v & [= <-] & H). apply Proofs.Session.universal_iff in H. rewrite H. reflexivity.
  - discriminate.
  - intros (v & H & _). discriminate.
Qed.
Theorem C92_source_refuted : exists b u, Utf8.utf8text b = Some u /\ read_source (Some b) <> Some u.
Proof. exists (B "a" ++ [13%N; 10%N] ++ B "b"), (B "a" ++ [13%N; 10%N] ++ B "b"). split; [reflexivity|vm_compute; discriminate]. Qed.
(** A source that is typed: the lines before the first that is :q but for white space. *)
Theorem C92_typed l : exists before rest, l = before ++ rest /\ typed_source l = glued before /\
  (forall s, In s before -> ~ trimmed s (B ":q")) /\ (rest = [] \/ exists s r, rest = s :: r /\ trimmed s (B ":q")).
Proof.
  destruct (Proofs.Session.typed_split l) as (rest & E & H & R). exists (typed_lines l), rest. split; [exact E|].
  split; [apply Proofs.Session.join_glued|]. split; assumption.
Qed.

(** The problems are listed four to a line, in order, in columns as wide as the longest name; an empty line
    ends the list. *)
Theorem C92_columns l : exists width body, problem_lines l = body ++ [[]] /\
  (forall x, In x l -> List.length x <= width) /\ (l <> [] -> exists x, In x l /\ List.length x = width) /\
  List.length l <= 4 * List.length body < List.length l + 4 /\
  (forall s, In s body -> List.length s = 4 * width + 3) /\
  forall k name, nth_error l k = Some name -> exists s, nth_error body (k / 4) = Some s /\
    firstn width (skipn (k mod 4 * (width + 1)) s) = name ++ repeat 32%N (width - List.length name).
Proof.
  destruct (Proofs.Session.columns l) as (body & E & L & F & K). exists (widest l), body. split; [exact E|].
  split; [exact (Proofs.Session.widest_le l)|]. split; [exact (Proofs.Session.widest_in l)|]. split; [exact L|]. split; [exact F|].
  intros k name H. assert (Hk : k < List.length l) by (apply nth_error_Some; congruence). destruct (K k ltac:(lia)) as (s & E1 & E2). exists s. split; [exact E1|].
  rewrite E2, (nth_error_nth l k [] H). reflexivity.
Qed.

(** ** Cases *)
Definition a_world := World [B "PY3"] [B "aplusb"] (fun f => if beqb f (B "a.py") then Some (B "x") else None) (fun _ _ => Some (B "y")) (fun _ => None).
Definition around_it := Around a_world true (fun _ => false) (fun f => B "No such file: " ++ f) [].
Definition a_parse (word : bytes) (args : list bytes) : option command :=
  if beqb word (B "submit") then
    Some match args with
         | [p; l; f] => Submit (SubmitArgs p (Some l) (Some f) (B754_infinity false) 65536)
         | [p; l] => Submit (SubmitArgs p (Some l) None (B754_infinity false) 65536)
         | _ => BadArguments
         end
  else if beqb word (B "rejudge") then Some (Rejudge 1)
  else if beqb word (B "problems") then Some (Problems (hd_error args) None)
  else if beqb word (B "diff") then Some match args with [x; y] => Diff x y | _ => BadArguments end
  else if beqb word (B "show") then Some match args with [x] => Show x | _ => BadArguments end
  else if beqb word (B "quit") then Some Quit else None.
Definition typed (s : string) : event := Typed (B s) around_it None.
Example C92_session_case : let '(e, acts, st) := interactive false 4300 a_parse
    [typed "submit aplusb PY3 'a.py'  "; typed "nonsense"; typed ""; typed "submit b PY3 a.py"; typed "submit"; Typed (B "submit aplusb PY3") around_it (Some WhileGrading); typed "quit"] in
  e = Status 0 /\ map (fun a => match a with Listen => 0 | Began k _ => k | Aborted => 8 | Murdered => 9 end) acts = [0; 1; 2; 8; 9] /\
  map e_src (history (s_cli st)) = [B "x"; B "y"] /\ s_bytes st = [false; true].
Proof. vm_compute. auto. Qed.
Example C92_refuted_cases : map (fun l => fst (fst (interactive false 4300 a_parse (typed "submit aplusb PY3" :: l))))
    [[typed "submit 'a"]; [typed "submit a\ "]; [typed "problems ("]; [typed "show a.py"]; [typed "diff 1 a.py"]; [typed "a](b)"];
     [Typed (B "rejudge 1") around_it (Some WhileGrading)]; [typed "rejudge 1"]; [typed "nonsense"; EndOfInput]]
  = [Traceback; Traceback; Traceback; Traceback; Traceback; Traceback; Status 0; Running; Status 0].
Proof. vm_compute. reflexivity. Qed.
Example C92_columns_case : problem_lines [B "aplusb"; B "b"; B "c"; B "d"; B "e"] = [B "aplusb b      c      d     "; B "e                          "; []].
Proof. vm_compute. reflexivity. Qed.
Example C92_typed_case : typed_source [B "a"; B " b"; B " :q "; B "c"] = B "a" ++ [10%N] ++ B " b".
Proof. vm_compute. reflexivity. Qed.

Print Assumptions C92_words.
Print Assumptions C92_one_reading.
Print Assumptions C92_plain_line.
Print Assumptions C92_quoted_line.
Print Assumptions C92_in_order.
Print Assumptions C92_shutdown.
Print Assumptions C92_next.
Print Assumptions C92_over.
Print Assumptions C92_end.
Print Assumptions C92_survives.
Print Assumptions C92_unbalanced.
Print Assumptions C92_troubles.
Print Assumptions C92_abort.
Print Assumptions C92_status.
Print Assumptions C92_interrupted_status_refuted.
Print Assumptions C92_source.
Print Assumptions C92_source_refuted.
Print Assumptions C92_typed.
Print Assumptions C92_columns.

(** An entry of the listing of submissions: the problem, the number and the language. *)
Theorem C92_listed plain n e : ~ In 10%N (e_problem e) -> ~ found_in (B "](") (e_problem e ++ B "]") -> ~ found_in (B "#ansi[") (e_lang e) -> ~ In 35%N (e_lang e) ->
  Console.ansi_style plain (listing (n, e)) = Some (ink plain [B "33"] (e_problem e) ++ B "/" ++ ink plain [B "32"] (Console.decimal (N.of_nat n)) ++ B " in " ++ e_lang e).
Proof. exact (Proofs.Session.listed plain n e). Qed.
Print Assumptions C92_listed.
