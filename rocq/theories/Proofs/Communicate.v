From Coq Require Import ZifyBool ZifyNat ZifyN.
From Verif Require Import Model.Bytes Model.Communicate Spec.Communicate.

Local Arguments os_write : simpl never.
Local Arguments os_read : simpl never.

Lemma os_read_app rest size k : fst (os_read rest size k) ++ snd (os_read rest size k) = rest.
Proof. apply firstn_skipn. Qed.
Lemma os_read_len rest size k : length (fst (os_read rest size k)) <= size.
Proof. unfold os_read; cbn [fst]. rewrite firstn_length. lia. Qed.
Lemma size_app a b : size (a ++ b) = (size a + size b)%N.
Proof. unfold size. rewrite app_length. lia. Qed.
Lemma concat_snoc {A} (l : list (list A)) d : concat (l ++ [d]) = concat l ++ d.
Proof. rewrite concat_app. cbn. rewrite app_nil_r. reflexivity. Qed.
Lemma firstn_plus {A} (l : list A) a b : firstn a l ++ firstn b (skipn a l) = firstn (a + b) l.
Proof. revert l. induction a as [|a IH]; intros [|x l]; cbn; rewrite ?firstn_nil; auto. f_equal. apply IH. Qed.

Section C.
  Variables pb rs : nat.
  Hypothesis Hpb : 1 <= pb.
  Hypothesis Hrs : 1 <= rs.
  Variable input : list N.
  Variables ho he : bool.
  Variables ol el : N.
  Variables out err : list N.

  Record Base (s : cstate) : Prop := {
    b_out : concat (out_chunks s) ++ rest_out s = out;
    b_err : concat (err_chunks s) ++ rest_err s = err;
    b_ol : out_len s = size (concat (out_chunks s));
    b_el : err_len s = size (concat (err_chunks s));
    b_off : offset s <= length input;
    b_cons : consumed s = firstn (offset s) input;
    b_in : in_open s = true -> offset s < length input }.
  Record Fine (s : cstate) : Prop := {
    f_base : Base s;
    f_oc : out_open s = false -> rest_out s = [];
    f_ec : err_open s = false -> rest_err s = [];
    f_ol : (out_len s <= ol)%N;
    f_el : (err_len s <= el)%N }.
  Definition Good (st : status) : Prop :=
    match st with
    | Running s => Fine s /\ any_open s = true
    | Returned o e s => Fine s /\ any_open s = false /\ o = concat (out_chunks s) /\ e = concat (err_chunks s)
    | OutputLimitExceeded Stdin _ _ => False
    | OutputLimitExceeded Stdout l s => Base s /\ l = ol /\ (ol < out_len s <= ol + N.of_nat rs)%N /\ ho = true
    | OutputLimitExceeded Stderr l s => Base s /\ l = el /\ (el < err_len s <= el + N.of_nat rs)%N /\ (ho = true -> out_open s = true)
    | ValueErrorRaised s => Base s /\ (el < err_len s)%N /\ ho = true /\ out_open s = false /\ rest_out s = []
    | OsErrorRaised s => Base s
    end.
  Definition Good' (st : status) : Prop := match st with Running s => Fine s | x => Good x end.

  Lemma os_read_nil rest k : fst (os_read rest rs k) = [] -> rest = [].
  Proof using Hrs. clear Hpb; unfold os_read; cbn [fst]. destruct rest as [|x r]; [reflexivity|]. intros H. apply (f_equal (@length N)) in H. rewrite firstn_length in H. cbn [length] in H. lia. Qed.


  Lemma good_close s f : Fine s -> (f = Stdout -> rest_out s = []) -> (f = Stderr -> rest_err s = []) -> Fine (close s f).
  Proof.
    intros [[B1 B2 B3 B4 B5 B6 B7] F1 F2 F3 F4] Ho He. destruct f; (constructor; [constructor|..]); cbn; auto; discriminate.
  Qed.
  Lemma good_writable s w : Fine s -> in_open s = true -> Good' (on_writable pb input s w).
  Proof using Hpb Hrs.
    intros F Hi. destruct w as [n| |]; cbn.
    - assert (Fine (CState (in_open s) (out_open s) (err_open s) (offset s + os_write (firstn pb (skipn (offset s) input)) n)
        (out_chunks s) (err_chunks s) (out_len s) (err_len s) (rest_out s) (rest_err s)
        (consumed s ++ firstn (os_write (firstn pb (skipn (offset s) input)) n) (firstn pb (skipn (offset s) input))))
        \/ offset s + os_write (firstn pb (skipn (offset s) input)) n = length input) as HH.
      { destruct F as [[B1 B2 B3 B4 B5 B6 B7] F1 F2 F3 F4]. set (k := os_write _ n).
        assert (k <= pb /\ offset s + k <= length input) as [K1 K2].
        { unfold k, os_write. rewrite firstn_length, skipn_length. lia. }
        clearbody k.
        destruct (Nat.eq_dec (offset s + k) (length input)) as [E|E]; [right; exact E|left].
        constructor; [constructor|..]; cbn; auto; [|intros _; lia].
        rewrite B6, firstn_firstn, Nat.min_l by lia. apply firstn_plus. }
      destruct F as [[B1 B2 B3 B4 B5 B6 B7] F1 F2 F3 F4]. set (k := os_write _ n) in *.
      assert (k <= pb /\ offset s + k <= length input) as [K1 K2].
      { unfold k, os_write. rewrite firstn_length, skipn_length. lia. }
      clearbody k. destruct (Nat.leb_spec (length input) (offset s + k)).
      + constructor; [constructor|..]; cbn; auto; try discriminate. rewrite B6, firstn_firstn, Nat.min_l by lia. apply firstn_plus.
      + destruct HH as [HH|HH]; [exact HH|lia].
    - apply (good_close s Stdin); [exact F|discriminate|discriminate].
    - apply F.
  Qed.
  Lemma good_readable s f k : Fine s -> is_open s f = true -> f <> Stdin -> (f = Stdout -> ho = true) -> Good' (on_readable rs ho ol el s f k).
  Proof using Hpb Hrs.
    intros [[B1 B2 B3 B4 B5 B6 B7] F1 F2 F3 F4] Hop Hf Hho. destruct f; [contradiction| |]; cbn [on_readable is_open] in *.
    - destruct (os_read (rest_out s) rs k) as [data rest] eqn:Er.
      pose proof (os_read_app (rest_out s) rs k) as H1. pose proof (os_read_len (rest_out s) rs k) as H2. pose proof (os_read_nil (rest_out s) k) as H3.
      rewrite Er in H1, H2, H3. cbn in H1, H2, H3.
      set (s0 := CState _ _ _ _ _ _ _ _ _ _ _).
      assert (Base s0) as Hb.
      { constructor; cbn; auto; [rewrite concat_snoc, <- app_assoc, H1; exact B1|]. rewrite concat_snoc, size_app, B3. reflexivity. }
      destruct (N.ltb_spec ol (out_len s0)) as [Hl|Hl].
      + unfold raise_ole. rewrite (Hho eq_refl).
        assert (out_open s0 = true) as ->.
        { cbn in Hl |- *. destruct data; [cbn in Hl; lia|exact Hop]. }
        cbn. split; [exact Hb|]. split; [reflexivity|]. split; [|exact (Hho eq_refl)]. cbn in Hl. split; [exact Hl|]. lia.
      + cbn. constructor; [exact Hb|..]; cbn; auto; try lia.
        destruct data; [|congruence]. intros _. cbn in H1. rewrite H1. apply H3. reflexivity.
    - destruct (os_read (rest_err s) rs k) as [data rest] eqn:Er.
      pose proof (os_read_app (rest_err s) rs k) as H1. pose proof (os_read_len (rest_err s) rs k) as H2. pose proof (os_read_nil (rest_err s) k) as H3.
      rewrite Er in H1, H2, H3. cbn in H1, H2, H3.
      set (s0 := CState _ _ _ _ _ _ _ _ _ _ _).
      assert (Base s0) as Hb.
      { constructor; cbn; auto; [rewrite concat_snoc, <- app_assoc, H1; exact B2|]. rewrite concat_snoc, size_app, B4. reflexivity. }
      destruct (N.ltb_spec el (err_len s0)) as [Hl|Hl].
      + unfold raise_ole. cbn in Hl. assert (el < err_len s + N.of_nat (length data) <= el + N.of_nat rs)%N by (split; lia).
        destruct ho eqn:Eh; [|cbn; split; [exact Hb|]; split; [reflexivity|]; split; [assumption|congruence]].
        destruct (out_open s0) eqn:Eo; cbn; cbn in Eo.
        * split; [exact Hb|]. split; [reflexivity|]. split; [assumption|intros _; exact Eo].
        * split; [exact Hb|]. split; [lia|]. split; [exact Eh|]. split; [exact Eo|]. apply F1, Eo.
      + cbn. constructor; [exact Hb|..]; cbn; auto; try lia.
        destruct data; [|congruence]. intros _. cbn in H1. rewrite H1. apply H3. reflexivity.
  Qed.
  (** Descriptors that are open were there from the start. *)
  Definition Had (s : cstate) : Prop := out_open s = true -> ho = true.
  Lemma had_entry s e : Had s -> Had (state_of (on_entry pb rs input ho ol el s e)).
  Proof.
    unfold Had, on_entry. intros H. destruct (possible s e); [|exact H]. destruct e as [f [w|k|]]; cbn [fst snd].
    - destruct w as [n| |]; [unfold on_writable; cbn; destruct (_ <=? _); exact H|exact H|exact H].
    - destruct f; cbn [on_readable].
      + exact H.
      + destruct (os_read (rest_out s) rs k) as [data rest]. destruct (ol <? _)%N; [unfold raise_ole|]; cbn; repeat match goal with |- context [if ?b then _ else _] => destruct b eqn:? end; cbn; destruct data; auto; discriminate.
      + destruct (os_read (rest_err s) rs k) as [data rest]. destruct (el <? _)%N; [unfold raise_ole|]; cbn; repeat match goal with |- context [if ?b then _ else _] => destruct b eqn:? end; cbn; auto.
    - destruct f; cbn; auto; discriminate.
  Qed.
  Lemma good_entry s e : Fine s -> Had s -> Good' (on_entry pb rs input ho ol el s e).
  Proof using Hpb Hrs.
    intros F Hh. unfold on_entry. destruct (possible s e) eqn:Ep; [|exact F].
    unfold possible in Ep. apply andb_prop in Ep as [Eo Em]. destruct e as [f m]. cbn [fst snd] in *.
    destruct m as [w|k|].
    - destruct f; try discriminate. apply good_writable; assumption.
    - destruct f; try discriminate; apply good_readable; auto; discriminate.
    - destruct f; apply good_close; auto; try discriminate.
      + intros _. destruct (rest_out s); [reflexivity|discriminate].
      + intros _. destruct (rest_err s); [reflexivity|discriminate].
  Qed.
  Lemma good_entries l : forall s, Fine s -> Had s -> Good' (on_entries pb rs input ho ol el s l) /\ Had (state_of (on_entries pb rs input ho ol el s l)).
  Proof using Hpb Hrs.
    induction l as [|e l IH]; intros s F Hh; [split; assumption|].
    cbn. pose proof (good_entry s e F Hh) as G. pose proof (had_entry s e Hh) as Hh'.
    destruct (on_entry pb rs input ho ol el s e); try (split; assumption). apply IH; assumption.
  Qed.
  Lemma good_finish s : Fine s -> Good (finish s).
  Proof. intros F. unfold finish. destruct (any_open s) eqn:E; cbn; auto. Qed.
  Lemma good_poll st p : Good st -> Had (state_of st) -> Good (poll_step pb rs input ho ol el st p) /\ Had (state_of (poll_step pb rs input ho ol el st p)).
  Proof using Hpb Hrs.
    intros G Hh. destruct st as [s|o e s|f l s|s|s]; try (split; assumption). destruct G as [F Ha].
    destruct p as [| |l]; cbn; [split; [split; assumption|assumption]|split; [apply F|assumption]|].
    destruct (good_entries l s F Hh) as [G Hh']. destruct (on_entries pb rs input ho ol el s l); try (split; assumption).
    split; [apply good_finish, G|]. unfold finish. destruct (any_open s0); exact Hh'.
  Qed.
  Lemma good_run ps : forall st, Good st -> Had (state_of st) -> Good (fold_left (poll_step pb rs input ho ol el) ps st).
  Proof using Hpb Hrs.
    induction ps as [|p ps IH]; intros st G Hh; [exact G|]. cbn. destruct (good_poll st p G Hh) as [G' Hh']. apply IH; assumption.
  Qed.
End C.

Section Top.
  Variables pb rs : nat.
  Hypothesis Hpb : 1 <= pb.
  Hypothesis Hrs : 1 <= rs.
  Variable input : list N.
  Variables ho he hi : bool.
  Variables ol el : N.
  Variables out err : list N.
  Definition seen_out := if ho then out else [].
  Definition seen_err := if he then err else [].
  Lemma good_start : Good rs input ho ol el seen_out seen_err (communicate_start input ho he hi out err).
  Proof.
    unfold communicate_start. apply good_finish. constructor; [constructor|..]; cbn; auto; try lia.
    - destruct hi; [|discriminate]. destruct input; [discriminate|]. cbn. intros _. lia.
    - unfold seen_out. intros ->. reflexivity.
    - unfold seen_err. intros ->. reflexivity.
  Qed.
  Lemma had_start : Had ho (state_of (communicate_start input ho he hi out err)).
  Proof. unfold communicate_start, finish, Had. destruct (any_open _); cbn; auto. Qed.
  Lemma good_all polls : Good rs input ho ol el seen_out seen_err (safe_communicate pb rs input ho he ol el hi out err polls).
  Proof using Hpb Hrs. apply good_run; [exact Hpb|exact Hrs|exact good_start|exact had_start]. Qed.

  Notation run := (safe_communicate pb rs input ho he ol el hi out err).

  Theorem returned_exact polls o e s : run polls = Returned o e s ->
    o = (if ho then out else []) /\ e = (if he then err else []) /\ (size o <= ol)%N /\ (size e <= el)%N.
  Proof using Hpb Hrs.
    intros E. pose proof (good_all polls) as G. rewrite E in G. destruct G as [[[B1 B2 B3 B4 B5 B6 B7] F1 F2 F3 F4] [Ha [-> ->]]].
    unfold any_open in Ha. apply orb_false_iff in Ha as [Ha He]. apply orb_false_iff in Ha as [Hi Ho].
    rewrite (F1 Ho), app_nil_r in B1. rewrite (F2 He), app_nil_r in B2. rewrite <- B3, <- B4. auto.
  Qed.
  Theorem consumed_prefix polls : prefix (consumed (state_of (run polls))) input.
  Proof using Hpb Hrs.
    pose proof (good_all polls) as G. assert (Base input seen_out seen_err (state_of (run polls))) as [_ _ _ _ _ B6 _].
    { destruct (run polls) as [s|o e s|f l s|s|s]; cbn in G |- *; try apply G. destruct f; [contradiction|apply G|apply G]. }
    rewrite B6. exists (skipn (offset (state_of (run polls))) input). symmetry. apply firstn_skipn.
  Qed.
  Theorem collected_prefix polls : prefix (concat (out_chunks (state_of (run polls)))) (if ho then out else []) /\
    prefix (concat (err_chunks (state_of (run polls)))) (if he then err else []).
  Proof using Hpb Hrs.
    pose proof (good_all polls) as G. assert (Base input seen_out seen_err (state_of (run polls))) as [B1 B2 _ _ _ _ _].
    { destruct (run polls) as [s|o e s|f l s|s|s]; cbn in G |- *; try apply G. destruct f; [contradiction|apply G|apply G]. }
    split; eexists; symmetry; [exact B1|exact B2].
  Qed.

  (** All the input is written unless the process closes its end. *)
  Definition InFull (s : cstate) : Prop := in_open s = false -> hi = true -> consumed s = input.
  Lemma full_entry s e : Fine input ol el seen_out seen_err s -> InFull s -> e <> (Stdin, Writable EPipe) -> e <> (Stdin, HangUp) ->
    InFull (state_of (on_entry pb rs input ho ol el s e)).
  Proof using Hpb Hrs.
    intros F H N1 N2. unfold on_entry. destruct (possible s e) eqn:Ep; [|exact H]. destruct e as [f [w|k|]]; cbn [fst snd] in *.
    - unfold possible in Ep. cbn in Ep. destruct f; [|rewrite andb_false_r in Ep; discriminate|rewrite andb_false_r in Ep; discriminate].
      destruct w as [n| |]; [|congruence|exact H].
      assert (Good' rs input ho ol el seen_out seen_err (on_writable pb input s (Wrote n))) as G.
      { apply good_writable; auto. rewrite andb_true_r in Ep. exact Ep. }
      cbn in G |- *. destruct (Nat.leb_spec (length input) (offset s + os_write (firstn pb (skipn (offset s) input)) n)) as [Hle|Hgt].
      + intros _ _. destruct G as [[_ _ _ _ _ G6 _] _ _ _ _]. cbn in G6 |- *. rewrite G6. apply firstn_all2. lia.
      + rewrite andb_true_r in Ep. cbn in Ep. intros X. cbn in X. congruence.
    - destruct f; cbn [on_readable].
      + exact H.
      + destruct (os_read (rest_out s) rs k) as [data rest]. unfold raise_ole. destruct (ol <? _)%N; [destruct ho; [destruct (out_open _)|]|]; exact H.
      + destruct (os_read (rest_err s) rs k) as [data rest]. unfold raise_ole. destruct (el <? _)%N; [destruct ho; [destruct (out_open _)|]|]; exact H.
    - destruct f; [congruence|exact H|exact H].
  Qed.
  Lemma full_entries l : forall s, Fine input ol el seen_out seen_err s -> Had ho s -> InFull s ->
    ~ In (Stdin, Writable EPipe) l -> ~ In (Stdin, HangUp) l -> InFull (state_of (on_entries pb rs input ho ol el s l)).
  Proof using Hpb Hrs.
    induction l as [|e l IH]; intros s F Hh H N1 N2; [exact H|]. cbn.
    assert (InFull (state_of (on_entry pb rs input ho ol el s e))) as H'.
    { apply full_entry; auto; intros ->; [apply N1|apply N2]; left; reflexivity. }
    pose proof (good_entry pb rs Hpb Hrs input ho ol el seen_out seen_err s e F Hh) as G.
    pose proof (had_entry pb rs input ho ol el s e Hh) as Hh'.
    destruct (on_entry pb rs input ho ol el s e); try exact H'. apply IH; auto; intros X; [apply N1|apply N2]; right; exact X.
  Qed.
  Lemma full_run ps : Forall (fun p => ~ closes_input p) ps -> forall st, Good rs input ho ol el seen_out seen_err st -> Had ho (state_of st) -> InFull (state_of st) ->
    InFull (state_of (fold_left (poll_step pb rs input ho ol el) ps st)).
  Proof using Hpb Hrs.
    induction 1 as [|p ps Hp Hps IH]; intros st G Hh H; [exact H|]. cbn.
    destruct (good_poll pb rs Hpb Hrs input ho ol el seen_out seen_err st p G Hh) as [G' Hh']. apply IH; auto.
    destruct st as [s|o e s|f l s|s|s]; try exact H. destruct p as [| |l]; cbn; try exact H.
    destruct G as [F _]. assert (InFull (state_of (on_entries pb rs input ho ol el s l))) as X.
    { apply full_entries; auto; intros Y; apply Hp; cbn; auto. }
    destruct (on_entries pb rs input ho ol el s l); try exact X. unfold finish. destruct (any_open s0); exact X.
  Qed.
  Theorem consumed_all polls o e s : hi = true -> Forall (fun p => ~ closes_input p) polls -> run polls = Returned o e s -> consumed s = input.
  Proof using Hpb Hrs.
    intros Hhi HF E. assert (InFull (state_of (run polls))) as X.
    { apply full_run; [exact HF|exact good_start|exact had_start|]. unfold communicate_start, finish, InFull.
      destruct (any_open _); cbn; intros A Bh; rewrite Bh in A; cbn in A; destruct input; [reflexivity|discriminate|reflexivity|discriminate]. }
    rewrite E in X. cbn in X. apply X; [|exact Hhi]. pose proof (good_all polls) as G. rewrite E in G. destruct G as [_ [Ha _]].
    unfold any_open in Ha. apply orb_false_iff in Ha as [Ha _]. apply orb_false_iff in Ha as [Hi _]. exact Hi.
  Qed.

  (** Limits. *)
  Theorem ole_only_if polls f lim s : run polls = OutputLimitExceeded f lim s ->
    (f = Stdout /\ lim = ol /\ ho = true /\ (ol < size out)%N /\ (size (concat (out_chunks s)) <= ol + N.of_nat rs)%N) \/
    (f = Stderr /\ lim = el /\ he = true /\ (el < size err)%N /\ (size (concat (err_chunks s)) <= el + N.of_nat rs)%N).
  Proof using Hpb Hrs.
    intros E. pose proof (good_all polls) as G. rewrite E in G. destruct f; cbn in G; [contradiction| |].
    - left. destruct G as [[B1 B2 B3 B4 B5 B6 B7] [-> [Hl Hho]]]. unfold seen_out in B1. rewrite Hho in B1. rewrite B3 in Hl. rewrite <- B1, size_app. repeat split; auto; lia.
    - right. destruct G as [[B1 B2 B3 B4 B5 B6 B7] [-> [Hl Hho]]]. unfold seen_err in B2. rewrite B4 in Hl. destruct he.
      + rewrite <- B2, size_app. repeat split; auto; lia.
      + apply app_eq_nil in B2 as [B2 _]. rewrite B2 in Hl. unfold size in Hl. cbn in Hl. lia.
  Qed.
  Theorem value_error_only_if polls s : run polls = ValueErrorRaised s -> (el < size err)%N /\ he = true /\ ho = true /\ out_open s = false /\ concat (out_chunks s) = out.
  Proof using Hpb Hrs.
    intros E. pose proof (good_all polls) as G. rewrite E in G. destruct G as [[B1 B2 B3 B4 B5 B6 B7] [Hl [Hho [Ho Hr]]]].
    unfold seen_out in B1. rewrite Hho, Hr, app_nil_r in B1. rewrite B4 in Hl. unfold seen_err in B2. destruct he.
    - rewrite <- B2, size_app. repeat split; auto; lia.
    - apply app_eq_nil in B2 as [B2 _]. rewrite B2 in Hl. unfold size in Hl. cbn in Hl. lia.
  Qed.

  (** Termination. *)
  Definition b2n (b : bool) : nat := if b then 1 else 0.
  Definition meas (s : cstate) : nat :=
    b2n (in_open s) + b2n (out_open s) + b2n (err_open s) + (length input - offset s) + length (rest_out s) + length (rest_err s).
  Lemma meas_entry s e s' : Fine input ol el seen_out seen_err s -> on_entry pb rs input ho ol el s e = Running s' ->
    meas s' + (if possible s e then 1 else 0) <= meas s.
  Proof using Hpb Hrs.
    intros F. unfold on_entry. destruct (possible s e) eqn:Ep; [|intros X; injection X as <-; lia].
    unfold possible in Ep. apply andb_prop in Ep as [Eo Em]. destruct F as [[B1 B2 B3 B4 B5 B6 B7] F1 F2 F3 F4]. destruct e as [f [w|k|]]; cbn [fst snd is_open] in *.
    - destruct f; try discriminate. cbn in Eo. destruct w as [n| |]; [|intros X; injection X as <-; unfold meas; cbn; rewrite Eo; cbn; lia|discriminate].
      cbn. set (q := os_write _ n). assert (1 <= q /\ offset s + q <= length input) as [K1 K2].
      { specialize (B7 Eo). unfold q, os_write. rewrite firstn_length, skipn_length. lia. }
      intros X. injection X as <-. destruct (length input <=? offset s + q); unfold meas; cbn; rewrite Eo; cbn; lia.
    - destruct f; try discriminate; cbn [on_readable is_open] in *.
      + assert (length (snd (os_read (rest_out s) rs k)) + length (fst (os_read (rest_out s) rs k)) = length (rest_out s)) as HL.
        { unfold os_read; cbn [fst snd]. rewrite firstn_length, skipn_length. lia. }
        destruct (os_read (rest_out s) rs k) as [data rest]. cbn in HL. destruct (ol <? _)%N.
        * unfold raise_ole. destruct ho; [|discriminate]. match goal with |- (if ?b then _ else _) = _ -> _ => destruct b end; discriminate.
        * intros X. injection X as <-. unfold meas. cbn. destruct data; cbn in HL |- *; rewrite Eo; cbn; lia.
      + assert (length (snd (os_read (rest_err s) rs k)) + length (fst (os_read (rest_err s) rs k)) = length (rest_err s)) as HL.
        { unfold os_read; cbn [fst snd]. rewrite firstn_length, skipn_length. lia. }
        destruct (os_read (rest_err s) rs k) as [data rest]. cbn in HL. destruct (el <? _)%N.
        * unfold raise_ole. destruct ho; [|discriminate]. match goal with |- (if ?b then _ else _) = _ -> _ => destruct b end; discriminate.
        * intros X. injection X as <-. unfold meas. cbn. destruct data; cbn in HL |- *; rewrite Eo; cbn; lia.
    - intros X. injection X as <-. unfold meas. destruct f; cbn in Eo |- *; rewrite Eo; cbn; lia.
  Qed.
  Lemma meas_entries l : forall s, Fine input ol el seen_out seen_err s -> Had ho s ->
    live_entries pb rs input ho ol el s l + match on_entries pb rs input ho ol el s l with Running s' => meas s' | _ => 0 end <= meas s + match on_entries pb rs input ho ol el s l with Running _ => 0 | _ => 1 end.
  Proof using Hpb Hrs.
    induction l as [|e l IH]; intros s F Hh; [cbn; lia|]. cbn.
    pose proof (good_entry pb rs Hpb Hrs input ho ol el seen_out seen_err s e F Hh) as G. pose proof (had_entry pb rs input ho ol el s e Hh) as Hh'.
    pose proof (meas_entry s e) as M. destruct (on_entry pb rs input ho ol el s e) as [s'|o e' s'|f l' s'|s'|s'].
    - specialize (M s' F eq_refl). cbn in G. specialize (IH s' G Hh'). lia.
    - destruct (possible s e); lia.
    - destruct (possible s e); lia.
    - destruct (possible s e); lia.
    - destruct (possible s e); lia.
  Qed.
  Definition st_meas (st : status) : nat := match st with Running s => S (meas s) | _ => 0 end.
  Lemma meas_polls ps : forall st, Good rs input ho ol el seen_out seen_err st -> Had ho (state_of st) ->
    live_polls pb rs input ho ol el st ps <= st_meas st.
  Proof using Hpb Hrs.
    induction ps as [|p ps IH]; intros st G Hh; [cbn; lia|]. cbn [live_polls].
    destruct (good_poll pb rs Hpb Hrs input ho ol el seen_out seen_err st p G Hh) as [G' Hh']. specialize (IH _ G' Hh').
    destruct st as [s|o e s|f l s|s|s]; try exact IH. destruct p as [| |l]; cbn [poll_step] in *; [exact IH|cbn [st_meas] in *; lia|].
    destruct G as [F Ha]. pose proof (meas_entries l s F Hh) as M.
    destruct (on_entries pb rs input ho ol el s l) as [s'|o e s'|f' l' s'|s'|s']; cbn [st_meas] in *; try lia.
    unfold finish in *. destruct (any_open s'); cbn [st_meas] in *; lia.
  Qed.
  Theorem bounded polls : live_polls pb rs input ho ol el (communicate_start input ho he hi out err) polls <= length input + length out + length err + 4.
  Proof using Hpb Hrs.
    etransitivity; [apply meas_polls; [exact good_start|exact had_start]|]. unfold communicate_start, finish.
    destruct (any_open _); [|cbn; lia]. cbn. unfold meas. cbn.
    destruct hi, ho, he, input; cbn; lia.
  Qed.
  Theorem progress polls s : run polls = Running s -> exists e, possible s e = true.
  Proof using Hpb Hrs.
    intros E. pose proof (good_all polls) as G. rewrite E in G. destruct G as [_ Ha]. unfold any_open in Ha.
    destruct (in_open s) eqn:Ei; [exists (Stdin, Writable (Wrote 1)); unfold possible; cbn; rewrite Ei; reflexivity|].
    destruct (out_open s) eqn:Eo; [exists (Stdout, Readable 1); unfold possible; cbn; rewrite Eo; reflexivity|].
    destruct (err_open s) eqn:Ee; [exists (Stderr, Readable 1); unfold possible; cbn; rewrite Ee; reflexivity|discriminate].
  Qed.
  (** With both streams within their limits the call cannot raise a limit error. *)
  Theorem within polls : (ho = true -> (size out <= ol)%N) -> (he = true -> (size err <= el)%N) ->
    match run polls with OutputLimitExceeded _ _ _ | ValueErrorRaised _ => False | _ => True end.
  Proof using Hpb Hrs.
    intros H1 H2. destruct (run polls) as [s|o e s|f l s|s|s] eqn:E; auto.
    - destruct (ole_only_if polls f l s E) as [[_ [_ [A [Bk _]]]]|[_ [_ [A [Bk _]]]]]; [specialize (H1 A)|specialize (H2 A)]; lia.
    - destruct (value_error_only_if polls s E) as [A [Bk _]]. specialize (H2 Bk). lia.
  Qed.
  Theorem exceeding polls : (ho = true /\ (ol < size out)%N) \/ (he = true /\ (el < size err)%N) ->
    match run polls with Returned _ _ _ => False | _ => True end.
  Proof using Hpb Hrs.
    intros H. destruct (run polls) as [s|o e s|f l s|s|s] eqn:E; auto. destruct (returned_exact polls o e s E) as [A [C [D F]]]. subst.
    destruct H as [[-> H]|[-> H]]; lia.
  Qed.
End Top.
