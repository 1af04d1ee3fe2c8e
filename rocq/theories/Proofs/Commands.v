From Coq Require Import String ZifyN ZifyBool ZifyNat.
From Flocq Require Import IEEE754.BinarySingleNaN.
From Verif Require Import Model.Bytes Model.Floats Model.Interactor Model.Commands.
From Verif Require Import Spec.Commands Proofs.BytesLemmas.
Local Open Scope nat_scope.
Local Open Scope list_scope.

Lemma listed_iff x l : listed x l = true <-> In x l.
Proof.
  unfold listed. rewrite existsb_exists. split.
  - intros (y & H & E). apply beqb_eq in E. subst y. exact H.
  - intros H. exists x. split; [exact H|apply beqb_refl].
Qed.
Lemma listed_false x l : listed x l = false <-> ~ In x l.
Proof. rewrite <- listed_iff. destruct (listed x l); split; congruence. Qed.

Lemma get_submission_data_iff st id e : get_submission_data st id = Some e <-> entry_number (history st) id e.
Proof.
  unfold get_submission_data, entry_number. destruct (0 <? id)%Z eqn:E.
  - split.
    + intros H. apply nth_error_split in H. destruct H as (l1 & l2 & H1 & H2). exists l1, l2. split; [exact H1|lia].
    + intros (l1 & l2 & -> & ->). replace (Z.to_nat (Z.of_nat (S (length l1)) - 1)) with (length l1) by lia.
      rewrite nth_error_app2, Nat.sub_diag by lia. reflexivity.
  - split; [discriminate|]. intros (l1 & l2 & _ & ->). lia.
Qed.

Lemma after_dot_iff f ext : ext <> [] -> (after_dot f = ext <-> extension f ext).
Proof.
  intros N. unfold extension. split.
  - induction f as [|c f IH]; cbn; [congruence|]. destruct (c =? 46)%N eqn:E.
    + intros ->. apply N.eqb_eq in E. subst c. exists []. split; [intros []|reflexivity].
    + intros H. destruct (IH H) as (b & Hb & ->). exists (c :: b). split; [|reflexivity].
      intros [K|K]; [subst c; discriminate|exact (Hb K)].
  - intros (b & Hb & ->). induction b as [|c b IH]; [reflexivity|]. cbn.
    destruct (c =? 46)%N eqn:E; [|apply IH; intros K; apply Hb; right; exact K].
    apply N.eqb_eq in E. destruct Hb. left. exact E.
Qed.
Lemma upper_iff c d : upper c = d <-> capital c d.
Proof. unfold upper, capital. destruct ((97 <=? c) && (c <=? 122))%N eqn:E; lia. Qed.
Lemma capitals_iff s t : map upper s = t <-> capitals s t.
Proof.
  unfold capitals. split.
  - intros <-. induction s as [|c s IH]; cbn; constructor; [apply upper_iff; reflexivity|exact IH].
  - induction 1 as [|c d s t H _ IH]; [reflexivity|]. cbn. apply upper_iff in H. congruence.
Qed.

Definition named (e lang : bytes) : Prop :=
  (e = B "PY" /\ lang = B "PY2") \/ (e = B "CPP" /\ lang = B "CPP11") \/ (e = B "JAVA" /\ lang = B "JAVA8") \/
  (e <> B "PY" /\ e <> B "CPP" /\ e <> B "JAVA" /\ lang = e).
Lemma language_of_ext_iff ext lang : language_of_ext ext = lang <-> exists e, capitals ext e /\ named e lang.
Proof.
  unfold language_of_ext, named. set (e := map upper ext).
  assert (C : forall e', capitals ext e' <-> e = e') by (intros e'; symmetry; apply capitals_iff).
  split.
  - intros H. exists e. split; [apply C; reflexivity|].
    destruct (beqb_spec e (B "PY")); [left; auto|]. destruct (beqb_spec e (B "CPP")); [right; left; auto|].
    destruct (beqb_spec e (B "JAVA")); [right; right; left; auto|]. right; right; right. auto.
  - intros (e' & H & K). apply C in H. subst e'. destruct K as [[-> ->]|[[-> ->]|[[-> ->]|(H1 & H2 & H3 & ->)]]]; try reflexivity.
    destruct (beqb_spec e (B "PY")); [congruence|]. destruct (beqb_spec e (B "CPP")); [congruence|].
    destruct (beqb_spec e (B "JAVA")); congruence.
Qed.

(** Where the language and source of an accepted submission come from. *)
Definition taken (w : world) (a : submit_args) (lang src : bytes) : Prop :=
  (a_language a = Some lang /\ In lang (executors w) /\ f_le (a_tl a) (B754_zero false) = false /\ (0 < a_ml a)%Z /\
   match a_source a with Some (c :: r) => file w (c :: r) = Some src | _ => editor w lang [] = Some src end) \/
  (exists f ext e, a_language a = Some f /\ ~ In f (executors w) /\ extension f ext /\ ext <> [] /\
     capitals ext e /\ named e lang /\ file w f = Some src).

Lemma submit_iff w a st o st' : ~ In [] (executors w) ->
  submit w a st = (o, st') <->
  (In (a_problem a) (supported w) /\ exists lang src, taken w a lang src /\ o = Done Nothing /\
     let e := Entry (a_problem a) lang src (a_tl a) (a_ml a) in
     st' = Cli (S (counter st)) (history st ++ [e]) (gradings st ++ [(S (counter st), e)])) \/
  (~ (In (a_problem a) (supported w) /\ exists lang src, taken w a lang src) /\ o = Invalid /\ st' = st).
Proof.
  intros Ne. unfold submit.
  destruct (listed (a_problem a) (supported w)) eqn:Ep; cbn [negb].
  2:{ apply listed_false in Ep. split.
      - intros [= <- <-]. right. tauto.
      - intros [[H _]|(_ & -> & ->)]; [contradiction|reflexivity]. }
  apply listed_iff in Ep.
  (* enough: the outcome of the rest is determined by [taken] *)
  assert (Fin : forall X : outcome * cli,
    (exists lang src, taken w a lang src /\ (forall l s, taken w a l s -> l = lang /\ s = src) /\
       X = (Done Nothing, record_and_grade st (Entry (a_problem a) lang src (a_tl a) (a_ml a)))) \/
    ((forall lang src, ~ taken w a lang src) /\ X = (Invalid, st)) ->
    (X = (o, st') <->
     (In (a_problem a) (supported w) /\ exists lang src, taken w a lang src /\ o = Done Nothing /\
       let e := Entry (a_problem a) lang src (a_tl a) (a_ml a) in
       st' = Cli (S (counter st)) (history st ++ [e]) (gradings st ++ [(S (counter st), e)])) \/
     (~ (In (a_problem a) (supported w) /\ exists lang src, taken w a lang src) /\ o = Invalid /\ st' = st))).
  { intros X [(lang & src & T & U & ->)|[No ->]]; split.
    - intros [= <- <-]. left. split; [exact Ep|]. exists lang, src. split; [exact T|]. split; reflexivity.
    - intros [(_ & l & s & T' & -> & ->)|(K & _)].
      + destruct (U l s T') as [-> ->]. reflexivity.
      + destruct K. split; [exact Ep|eauto].
    - intros [= <- <-]. right. split; [|split; reflexivity]. intros (_ & l & s & T). exact (No l s T).
    - intros [(_ & l & s & T & _)|(_ & -> & ->)]; [destruct (No l s T)|reflexivity]. }
  apply Fin. clear Fin.
  destruct (a_language a) as [l|] eqn:El.
  2:{ right. split; [|reflexivity]. intros lang src [(K & _)|(f & ext & e & K & _)]; congruence. }
  destruct (listed l (executors w)) eqn:Ex.
  - apply listed_iff in Ex. assert (Nl : l <> []) by (intros ->; contradiction).
    assert (Hl : given (Some l) = Some l) by (destruct l; [congruence|reflexivity]). rewrite Hl.
    replace (listed l (executors w)) with true by (symmetry; apply listed_iff; exact Ex). cbn [negb].
    unfold tl_bad. destruct (f_le (a_tl a) (B754_zero false)) eqn:Et.
    { right. split; [|reflexivity]. intros lang src [(_ & _ & K & _)|(f & ext & e & K & K' & _)]; [congruence|].
      rewrite El in K. injection K as <-. contradiction. }
    destruct (a_ml a <=? 0)%Z eqn:Em.
    { right. split; [|reflexivity]. intros lang src [(_ & _ & _ & K & _)|(f & ext & e & K & K' & _)]; [lia|].
      rewrite El in K. injection K as <-. contradiction. }
    assert (Sr : match given (a_source a) with Some f => get_source w f | None => editor w l [] end =
                 match a_source a with Some (c :: r) => file w (c :: r) | _ => editor w l [] end).
    { destruct (a_source a) as [[|c r]|]; reflexivity. }
    rewrite Sr. clear Sr.
    destruct (match a_source a with Some (c :: r) => file w (c :: r) | _ => editor w l [] end) as [src|] eqn:Es.
    + left. exists l, src. split; [|split; [|reflexivity]].
      * left. split; [exact El|]. split; [exact Ex|]. split; [exact Et|]. split; [lia|].
        destruct (a_source a) as [[|c r]|]; exact Es.
      * intros l' s' [(K & _ & _ & _ & K')|(f & ext & e & K & K' & _)].
        -- rewrite El in K. injection K as <-. split; [reflexivity|]. destruct (a_source a) as [[|c r]|]; congruence.
        -- rewrite El in K. injection K as <-. contradiction.
    + right. split; [|reflexivity]. intros l' s' [(K & _ & _ & _ & K')|(f & ext & e & K & K' & _)].
      * rewrite El in K. injection K as <-. destruct (a_source a) as [[|c r]|]; congruence.
      * rewrite El in K. injection K as <-. contradiction.
  - apply listed_false in Ex. cbn [given].
    assert (Only : forall lang src, taken w a lang src -> exists ext e, extension l ext /\ ext <> [] /\
      capitals ext e /\ named e lang /\ file w l = Some src).
    { intros lang src [(K & K' & _)|(f & ext & e & K & _ & R)]; rewrite El in K; injection K as <-; [contradiction|eauto]. }
    destruct l as [|c r].
    { right. split; [|reflexivity]. intros lang src T. destruct (Only _ _ T) as (ext & e & (b & _ & K) & _). destruct b; discriminate. }
    cbn [given]. set (f := c :: r) in *. destruct (after_dot f) as [|x ext] eqn:Ed.
    { right. split; [|reflexivity]. intros lang src T. destruct (Only _ _ T) as (ext & e & K & Nx & _).
      apply (after_dot_iff f ext Nx) in K. congruence. }
    assert (Hx : extension f (x :: ext)) by (apply after_dot_iff; [discriminate|exact Ed]).
    unfold get_source. destruct (file w f) as [src|] eqn:Ef.
    + left. exists (language_of_ext (x :: ext)), src. split; [|split; [|reflexivity]].
      * right. destruct (proj1 (language_of_ext_iff (x :: ext) _) eq_refl) as (e & C & Nm).
        exists f, (x :: ext), e. repeat (split; [first [exact El|exact Ex|exact Hx|discriminate|exact C|exact Nm]|]). exact Ef.
      * intros lang s T. destruct (Only _ _ T) as (ext' & e & K & Nx & C & Nm & Es). split; [|congruence].
        apply (after_dot_iff f ext' Nx) in K. rewrite Ed in K. subst ext'. symmetry. apply language_of_ext_iff. eauto.
    + right. split; [|reflexivity]. intros lang s T. destruct (Only _ _ T) as (ext' & e & _ & _ & _ & _ & Es). congruence.
Qed.

(** ** Sessions *)
Lemma submit_cases w a st o st' : submit w a st = (o, st') ->
  (o = Invalid /\ st' = st) \/ (o = Done Nothing /\ exists e, st' = record_and_grade st e).
Proof.
  unfold submit. repeat match goal with |- context[match ?x with _ => _ end] => destruct x end;
    intros [= <- <-]; first [left; split; reflexivity|right; split; [reflexivity|eexists; reflexivity]].
Qed.
Lemma execute_cases lim w c st o st' : execute lim w c st = (o, st') ->
  st' = st \/
  (o = Done Nothing /\ (exists a, c = Submit a) /\ exists e, st' = record_and_grade st e) \/
  (o = Done Nothing /\ exists id e, c = Rejudge id /\ entry_number (history st) id e /\
     st' = Cli (counter st) (history st) (gradings st ++ [(counter st, e)])).
Proof.
  destruct c; cbn [execute]; try (intros [= <- <-]; left; reflexivity).
  - intros H. apply submit_cases in H. destruct H as [[_ ->]|[-> H]]; [left; reflexivity|]. right. left. eauto.
  - unfold resubmit. destruct (get_submission_data st (r_id a)); cbn [builtin_id_listed negb]; intros [= <- <-]; left; reflexivity.
  - unfold rejudge. destruct (get_submission_data st id) as [e|] eqn:E; intros [= <- <-]; [|left; reflexivity].
    right. right. split; [reflexivity|]. exists id, e. split; [reflexivity|]. split; [apply get_submission_data_iff, E|reflexivity].
Qed.

Lemma session_app lim a b st : session lim (a ++ b) st = session lim b (session lim a st).
Proof. apply fold_left_app. Qed.

Definition consistent (s : cli) : Prop :=
  counter s = length (history s) /\
  (forall k e, entry_number (history s) k e -> In (Z.to_nat k, e) (gradings s)) /\
  (forall k e, In (k, e) (gradings s) -> 1 <= k <= counter s /\ In e (history s)).

Lemma execute_consistent lim w c st : consistent st -> consistent (snd (execute lim w c st)).
Proof.
  intros (H1 & H2 & H3). destruct (execute lim w c st) as [o st'] eqn:E. cbn [snd].
  destruct (execute_cases _ _ _ _ _ _ E) as [->|[(_ & _ & e & ->)|(_ & id & e & _ & En & ->)]].
  - split; [exact H1|]. split; assumption.
  - unfold record_and_grade, consistent. cbn [counter history gradings]. split; [rewrite app_length; cbn; lia|]. split.
    + intros k x (b & a & Eq & ->). apply in_or_app.
      destruct a as [|y a'] using rev_ind.
      * apply app_inj_tail in Eq. destruct Eq as [<- <-]. right. left. f_equal. lia.
      * clear IHa'. left. replace (b ++ x :: a' ++ [y]) with ((b ++ x :: a') ++ [y]) in Eq by (rewrite <- app_assoc; reflexivity).
        apply app_inj_tail in Eq. destruct Eq as [Eq _]. apply H2. exists b, a'. split; [exact Eq|reflexivity].
    + intros k x Hx. apply in_app_or in Hx. destruct Hx as [Hx|[[= <- <-]|[]]].
      * destruct (H3 _ _ Hx) as [L I]. split; [lia|]. apply in_or_app. left. exact I.
      * split; [lia|]. apply in_or_app. right. left. reflexivity.
  - unfold consistent. cbn [counter history gradings]. split; [exact H1|]. destruct En as (b & a & Eq & _). split.
    + intros k x Hx. apply in_or_app. left. apply H2, Hx.
    + intros k x Hx. apply in_app_or in Hx. destruct Hx as [Hx|[[= <- <-]|[]]]; [apply H3, Hx|].
      rewrite H1, Eq, app_length. cbn. split; [lia|]. apply in_or_app. right. left. reflexivity.
Qed.
Lemma session_consistent lim cs : forall st, consistent st -> consistent (session lim cs st).
Proof.
  induction cs as [|[w c] cs IH]; intros st H; [exact H|]. cbn. apply IH. apply execute_consistent. exact H.
Qed.
Lemma start_consistent : consistent cli_start.
Proof. split; [reflexivity|]. split; [|intros k e []]. intros k e (b & a & E & _). destruct b; discriminate. Qed.
Lemma session_grows lim cs : forall st, exists more, history (session lim cs st) = history st ++ more.
Proof.
  induction cs as [|[w c] cs IH]; intros st; [exists []; rewrite app_nil_r; reflexivity|].
  cbn [session fold_left fst snd]. destruct (execute lim w c st) as [o st'] eqn:E. cbn [snd].
  destruct (IH st') as [m Hm]. unfold session in Hm. rewrite Hm.
  destruct (execute_cases _ _ _ _ _ _ E) as [->|[(_ & _ & e & ->)|(_ & id & e & _ & _ & ->)]].
  - exists m. reflexivity.
  - exists (e :: m). cbn. rewrite <- app_assoc. reflexivity.
  - exists m. reflexivity.
Qed.

(** ** Listings *)
Lemma numbered_nth l : forall i k n e, nth_error (numbered_from i l) k = Some (n, e) <-> n = i + k /\ nth_error l k = Some e.
Proof.
  induction l as [|x l IH]; intros i [|k] n e; cbn; try (split; [discriminate|intros [_ K]; discriminate]).
  - rewrite Nat.add_0_r. split; [intros [= <- <-]; auto|intros [-> [= ->]]; reflexivity].
  - rewrite IH. split; intros [H1 H2]; (split; [lia|exact H2]).
Qed.
Lemma nth_firstn {A} n : forall (l : list A) k e, nth_error (firstn n l) k = Some e <-> k < n /\ nth_error l k = Some e.
Proof.
  induction n as [|n IH]; intros l k e; cbn.
  - destruct k; cbn; split; try discriminate; intros [K _]; lia.
  - destruct l as [|x l]; [destruct k; cbn; split; try discriminate; intros [_ K]; discriminate|].
    destruct k as [|k]; cbn; [split; [intros H; split; [lia|exact H]|tauto]|]. rewrite IH. split; intros [H1 H2]; (split; [lia|exact H2]).
Qed.
Definition within (limit : option Z) (k : nat) : Prop := match limit with None => True | Some n => (Z.of_nat k < n)%Z end.
Lemma cut_nth {A} limit (l : list A) k e : bad_limit limit = false ->
  nth_error (cut limit l) k = Some e <-> within limit k /\ nth_error l k = Some e.
Proof.
  intros B. destruct limit as [n|]; cbn in *; [|tauto]. rewrite nth_firstn. split; intros [H1 H2]; (split; [lia|exact H2]).
Qed.
