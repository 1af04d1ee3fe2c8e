(** C50: a session at the command line judge. *)
From Coq Require Import String ZifyNat.
From Flocq Require Import IEEE754.BinarySingleNaN.
From Verif Require Import Model.Bytes Model.Floats Model.Interactor Model.Commands.
From Verif Require Import Spec.Interactor Spec.Commands.
From Verif Require Proofs.Commands Proofs.Interactor.
Local Open Scope nat_scope.
Local Open Scope list_scope.

Local Notation forever := (B754_infinity false).
(** The language an extension in capitals stands for. *)
Definition named (e lang : bytes) : Prop :=
  (e = B "PY" /\ lang = B "PY2") \/ (e = B "CPP" /\ lang = B "CPP11") \/ (e = B "JAVA" /\ lang = B "JAVA8") \/
  (e <> B "PY" /\ e <> B "CPP" /\ e <> B "JAVA" /\ lang = e).
(** Where the language and source of a submission come from: a known language with limits
    that are not zero or below, and the file or else the editor; or a file name in place
    of the language, whose extension decides (nothing else is then looked at). *)
Definition taken (w : world) (a : submit_args) (lang src : bytes) : Prop :=
  (a_language a = Some lang /\ In lang (executors w) /\ f_le (a_tl a) (B754_zero false) = false /\ (0 < a_ml a)%Z /\
   match a_source a with Some (c :: r) => file w (c :: r) = Some src | _ => editor w lang [] = Some src end) \/
  (exists f ext e, a_language a = Some f /\ ~ In f (executors w) /\ extension f ext /\ ext <> [] /\
     capitals ext e /\ named e lang /\ file w f = Some src).

(** A submission to a supported problem with a language and a source is recorded at the
    end of the history and graded under the next number; any other changes nothing. *)
Theorem C50_submit w a st o st' : ~ In [] (executors w) ->
  submit w a st = (o, st') <->
  (In (a_problem a) (supported w) /\ exists lang src, taken w a lang src /\ o = Done Nothing /\
     let e := Entry (a_problem a) lang src (a_tl a) (a_ml a) in
     st' = Cli (S (counter st)) (history st ++ [e]) (gradings st ++ [(S (counter st), e)])) \/
  (~ (In (a_problem a) (supported w) /\ exists lang src, taken w a lang src) /\ o = Invalid /\ st' = st).
Proof. exact (Proofs.Commands.submit_iff w a st o st'). Qed.

(** After any session the counter is the length of the history, entry number k was graded
    under number k, and nothing else was ever graded than entries of the history, under
    numbers in use. *)
Theorem C50_numbers lim cs : let s := session lim cs cli_start in
  counter s = length (history s) /\
  (forall k e, entry_number (history s) k e -> In (Z.to_nat k, e) (gradings s)) /\
  (forall k e, In (k, e) (gradings s) -> 1 <= k <= counter s /\ In e (history s)).
Proof. exact (Proofs.Commands.session_consistent lim cs cli_start Proofs.Commands.start_consistent). Qed.

(** What is recorded stays as it is, under its number. *)
Theorem C50_recorded lim cs cs' : exists more,
  history (session lim (cs ++ cs') cli_start) = history (session lim cs cli_start) ++ more.
Proof. rewrite Proofs.Commands.session_app. exact (Proofs.Commands.session_grows lim cs' _). Qed.

(** A command that fails changes nothing; only submitting adds to the history. *)
Theorem C50_failures lim w c st st' : execute lim w c st = (Invalid, st') -> st' = st.
Proof.
  intros H. destruct (Proofs.Commands.execute_cases _ _ _ _ _ _ H) as [K|[(K & _)|(K & _)]]; [exact K|discriminate..].
Qed.
Theorem C50_only_submit lim w c st o st' : execute lim w c st = (o, st') -> (forall a, c <> Submit a) ->
  history st' = history st /\ counter st' = counter st.
Proof.
  intros H N. destruct (Proofs.Commands.execute_cases _ _ _ _ _ _ H) as [->|[(_ & [a K] & _)|(_ & id & e & _ & _ & ->)]].
  - split; reflexivity.
  - destruct (N a K).
  - split; reflexivity.
Qed.

(** Rejudging grades exactly the entry with that number, as recorded, *)
Theorem C50_rejudge id st o st' : rejudge id st = (o, st') <->
  (exists e, entry_number (history st) id e /\ o = Done Nothing /\
     st' = Cli (counter st) (history st) (gradings st ++ [(counter st, e)])) \/
  ((forall e, ~ entry_number (history st) id e) /\ o = Invalid /\ st' = st).
Proof.
  unfold rejudge. pose proof (fun e => Proofs.Commands.get_submission_data_iff st id e) as G.
  destruct (get_submission_data st id) as [e|]; split.
  - intros [= <- <-]. left. exists e. split; [apply G; reflexivity|split; reflexivity].
  - intros [(e' & K & -> & ->)|(K & _)]; [apply G in K; injection K as ->; reflexivity|].
    destruct (K e). apply G. reflexivity.
  - intros [= <- <-]. right. split; [|split; reflexivity]. intros e K. apply G in K. discriminate.
  - intros [(e & K & _)|(_ & -> & ->)]; [apply G in K; discriminate|reflexivity].
Qed.
(** but under the number of the newest submission, not its own. *)
Theorem C50_rejudge_number_refuted : exists lim cs id e, let s := session lim cs cli_start in
  entry_number (history s) id e /\ forall st', rejudge id s = (Done Nothing, st') ->
  ~ exists k, gradings st' = gradings s ++ [(k, e)] /\ Z.of_nat k = id.
Proof.
  pose (w := World [B "PY3"] [B "a"] (fun _ => Some (B "x")) (fun _ _ => None) (fun _ => None)).
  pose (c src := Submit (SubmitArgs (B "a") (Some (B "PY3")) (Some src) forever 1)).
  exists 0, [(w, c (B "1")); (w, c (B "2"))], 1%Z, (Entry (B "a") (B "PY3") (B "x") forever 1). cbv zeta. split.
  - exists [], [Entry (B "a") (B "PY3") (B "x") forever 1]. split; reflexivity.
  - intros st' [= <-]. intros (k & K & Hk). apply (f_equal (map fst)) in K. vm_compute in K. injection K as K. lia.
Qed.

(** Resubmitting always fails: it looks for the wrong name among the problems. *)
Theorem C50_resubmit_refuted : forall w a st, resubmit w a st = (Invalid, st).
Proof. intros w a st. unfold resubmit. destruct (get_submission_data st (r_id a)); reflexivity. Qed.

(** An argument that reads as an integer means the recorded source with that number, any
    other the file of that name. *)
Theorem C50_show lim w st x o : show lim w st x = o <->
  (exists s, ((exists id e, integer lim x id /\ entry_number (history st) id e /\ s = e_src e) \/
              ((forall id, ~ integer lim x id) /\ file w x = Some s)) /\ o = Done (Source s)) \/
  ((forall id e, integer lim x id -> ~ entry_number (history st) id e) /\
   ((exists id, integer lim x id) \/ file w x = None) /\ o = Invalid).
Proof.
  unfold show, get_data. pose proof (fun v => Proofs.Interactor.py_int_iff lim x v) as I.
  destruct (py_int lim x) as [id|].
  - assert (Ii : integer lim x id) by (apply I; reflexivity).
    pose proof (fun e => Proofs.Commands.get_submission_data_iff st id e) as G.
    destruct (get_submission_data st id) as [e|]; cbn [option_map]; split.
    + intros <-. left. exists (e_src e). split; [|reflexivity]. left. exists id, e. split; [exact Ii|]. split; [apply G; reflexivity|reflexivity].
    + intros [(s & [(id' & e' & Hi & He & ->)|(K & _)] & ->)|(K & _)].
      * apply I in Hi. injection Hi as <-. apply G in He. injection He as <-. reflexivity.
      * destruct (K id Ii).
      * destruct (K id e Ii). apply G. reflexivity.
    + intros <-. right. split; [|split; [left; eauto|reflexivity]]. intros id' e' Hi He. apply I in Hi. injection Hi as <-.
      apply G in He. discriminate.
    + intros [(s & [(id' & e' & Hi & He & ->)|(K & _)] & ->)|(_ & _ & ->)]; [|destruct (K id Ii)|reflexivity].
      apply I in Hi. injection Hi as <-. apply G in He. discriminate.
  - assert (Ni : forall id, ~ integer lim x id) by (intros id K; apply I in K; discriminate).
    unfold get_source. destruct (file w x) as [s|] eqn:F; split.
    + intros <-. left. exists s. split; [right; split; [exact Ni|reflexivity]|reflexivity].
    + intros [(s' & [(id' & e' & Hi & _)|(_ & [= ->])] & ->)|(_ & [[id Hi]|K] & _)]; [destruct (Ni _ Hi)|reflexivity|destruct (Ni _ Hi)|discriminate].
    + intros <-. right. split; [intros id e K; destruct (Ni _ K)|]. split; [right; reflexivity|reflexivity].
    + intros [(s' & [(id' & e' & Hi & _)|(_ & K)] & ->)|(_ & _ & ->)]; [destruct (Ni _ Hi)|discriminate|reflexivity].
Qed.
(** A comparison is of what [show] would show. *)
Theorem C50_diff lim w st x y a b : diff lim w st x y = Done (Compared a b) <->
  show lim w st x = Done (Source a) /\ show lim w st y = Done (Source b).
Proof.
  unfold diff, show. destruct (get_data lim w st x) as [s|]; [|split; [discriminate|intros [K _]; discriminate]].
  destruct (get_data lim w st y) as [t|]; [|split; [discriminate|intros [_ K]; discriminate]].
  split; [intros [= -> ->]; split; reflexivity|intros [[= ->] [= ->]]; reflexivity].
Qed.

(** Listing shows the entries with their numbers, the oldest [limit] of them. *)
Definition within (limit : option Z) (k : nat) : Prop := match limit with None => True | Some n => (Z.of_nat k < n)%Z end.
Theorem C50_list limit st : (match limit with Some n => (0 < n)%Z | None => True end) ->
  exists l, submissions limit st = Done (Numbered l) /\
  forall k n e, nth_error l k = Some (n, e) <-> within limit k /\ n = S k /\ nth_error (history st) k = Some e.
Proof.
  intros H. assert (Bd : bad_limit limit = false) by (destruct limit; cbn in *; [lia|reflexivity]).
  unfold submissions. rewrite Bd. eexists. split; [reflexivity|]. intros k n e.
  rewrite Proofs.Commands.numbered_nth, (Proofs.Commands.cut_nth limit _ k e Bd). unfold within, Proofs.Commands.within. tauto.
Qed.
(** Not the newest, although the help text says so. *)
Theorem C50_list_newest_refuted : exists st n l, submissions (Some n) st = Done (Numbered l) /\
  length (history st) = 2 /\ n = 1%Z /\ forall e, nth_error (history st) 1 = Some e -> ~ In (2, e) l.
Proof.
  exists (Cli 2 [Entry [] [] [] forever 1; Entry [1%N] [] [] forever 1] []), 1%Z, [(1, Entry [] [] [] forever 1)].
  split; [reflexivity|]. split; [reflexivity|]. split; [reflexivity|]. intros e _ [K|[]]. discriminate.
Qed.

(** Problems are listed in order, those matching the filter, at most [limit]. *)
Theorem C50_problems w f limit l : problems w f limit = Done (Names l) ->
  l <> [] /\ exists m, (match f with None | Some [] => m = fun _ => true | Some x => regex w x = Some m end) /\
  l = (match limit with Some n => firstn (Z.to_nat n) | None => fun l => l end) (filter m (supported w)) /\
  (match limit with Some n => (0 < n)%Z | None => True end).
Proof.
  unfold problems. destruct (bad_limit limit) eqn:Bd; [discriminate|].
  assert (H : exists m, (match f with None | Some [] => m = fun _ => true | Some x => regex w x = Some m end) /\
    match given f with Some x => option_map (fun m => filter m (supported w)) (regex w x) | None => Some (supported w) end
      = Some (filter m (supported w)) \/
    match given f with Some x => option_map (fun m => filter m (supported w)) (regex w x) | None => Some (supported w) end = None).
  { assert (T : filter (fun _ : bytes => true) (supported w) = supported w).
    { induction (supported w) as [|x s IH]; [reflexivity|]. cbn. rewrite IH. reflexivity. }
    destruct f as [[|c r]|]; cbn [given].
    - exists (fun _ => true). left. split; [reflexivity|rewrite T; reflexivity].
    - destruct (regex w (c :: r)) as [m|]; [exists m; left; split; reflexivity|exists (fun _ => true); right; reflexivity].
    - exists (fun _ => true). left. split; [reflexivity|rewrite T; reflexivity]. }
  destruct H as (m & [[Hm ->]| ->]); [|discriminate]. destruct (cut limit (filter m (supported w))) as [|x r] eqn:C; [discriminate|].
  intros [= <-]. split; [discriminate|]. exists m. split; [exact Hm|]. split.
  - rewrite <- C. unfold cut. destruct limit; reflexivity.
  - destruct limit; cbn in *; [lia|trivial].
Qed.

(** The status of a command given on the command line. *)
Theorem C50_status lim w parse line st n st' : run_command lim w parse line st = (Some n, st') ->
  (n = 127 /\ st' = st /\ forall word args, line = word :: args -> parse word args = None) \/
  (exists word args c o, line = word :: args /\ parse word args = Some c /\ execute lim w c st = (o, st') /\
     (n = 1 /\ o = Invalid \/ n = 0 /\ o <> Invalid /\ o <> Raised)).
Proof.
  unfold run_command. destruct line as [|word args]; [intros [= <- <-]; left; repeat split; discriminate|].
  destruct (parse word args) as [c|] eqn:Ec.
  - destruct (execute lim w c st) as [o s] eqn:E. intros H. right. exists word, args, c, o. split; [reflexivity|]. split; [exact Ec|].
    destruct o; try discriminate; injection H as <- <-; (split; [exact E|]).
    + right. repeat split; discriminate.
    + left. split; reflexivity.
    + right. repeat split; discriminate.
  - intros [= <- <-]. left. split; [reflexivity|]. split; [reflexivity|]. intros w' a' [= <- <-]. exact Ec.
Qed.

Example C50_ex :
  let w := World [B "PY3"; B "CPP11"] [B "aplusb"] (fun f => if beqb f (B "sol.cpp") then Some (B "int") else None)
             (fun _ s => Some (s ++ B "edited")) (fun _ => None) in
  let cs := [(w, Submit (SubmitArgs (B "aplusb") (Some (B "PY3")) None forever 65536));
             (w, Submit (SubmitArgs (B "nope") (Some (B "PY3")) None forever 65536));
             (w, Submit (SubmitArgs (B "aplusb") (Some (B "sol.cpp")) None forever 65536));
             (w, Rejudge 1)] in
  let e1 := Entry (B "aplusb") (B "PY3") (B "edited") forever 65536 in
  let e2 := Entry (B "aplusb") (B "CPP11") (B "int") forever 65536 in
  session 0 cs cli_start = Cli 2 [e1; e2] [(1, e1); (2, e2); (2, e1)] /\
  show 0 w (session 0 cs cli_start) (B "2") = Done (Source (B "int")) /\
  show 0 w (session 0 cs cli_start) (B "0") = Invalid.
Proof. repeat split. Qed.

Print Assumptions C50_submit.
Print Assumptions C50_numbers.
Print Assumptions C50_recorded.
Print Assumptions C50_failures.
Print Assumptions C50_only_submit.
Print Assumptions C50_rejudge.
Print Assumptions C50_rejudge_number_refuted.
Print Assumptions C50_resubmit_refuted.
Print Assumptions C50_show.
Print Assumptions C50_diff.
Print Assumptions C50_list.
Print Assumptions C50_list_newest_refuted.
Print Assumptions C50_problems.
Print Assumptions C50_status.
