(** Proof that the C scanner decides equality of layouts, without ever reading
    out of bounds. *)
From Verif Require Import Model.Bytes Model.Checkers Spec.Text.
From Coq Require Import ZifyBool ZifyNat ZifyN.

Lemma iswhite_spec c : iswhite c = whitespace_dec c.
Proof.
  unfold iswhite, whitespace_dec; cbn [existsb].
  destruct (N.eqb_spec c 32), (N.eqb_spec c 9), (N.eqb_spec c 11), (N.eqb_spec c 12),
    (N.eqb_spec c 10), (N.eqb_spec c 13); subst; cbn; try reflexivity; try congruence.
Qed.
Lemma isline_spec c : isline c = newline_dec c.
Proof.
  unfold isline, newline_dec; cbn [existsb].
  destruct (N.eqb_spec c 10), (N.eqb_spec c 13); subst; reflexivity.
Qed.
Lemma line_is_white c : newline_dec c = true -> whitespace_dec c = true.
Proof.
  unfold newline_dec, whitespace_dec; cbn [existsb].
  destruct (N.eqb_spec c 10), (N.eqb_spec c 13); subst; cbn; try congruence; reflexivity.
Qed.

Arguments whitespace_dec : simpl never.
Arguments newline_dec : simpl never.

(** ** Token streams: each token with the kind of gap before it
    (0 none, 1 blanks, 2 contains a newline). *)
Fixpoint ts (k : nat) (s : bytes) : list (nat * bytes) :=
  match s with
  | [] => []
  | c :: r =>
      if whitespace_dec c then ts (if newline_dec c then 2 else Nat.max k 1) r
      else match ts 0 r with
           | (0, w) :: rest => (k, c :: w) :: rest
           | l => (k, [c]) :: l
           end
  end.

Definition starts_white (s : bytes) : bool := match s with [] => true | c :: _ => whitespace_dec c end.

Definition nz (l : list (nat * bytes)) : Prop := match l with (0, _) :: _ => False | _ => True end.

Lemma ts_white_nz k s : starts_white s = true -> nz (ts k s).
Proof.
  assert (forall s k, k <> 0 -> nz (ts k s)) as Hk.
  { clear. induction s as [|c r IH]; intros k Hk; cbn [ts]; [exact I|].
    destruct (whitespace_dec c).
    - apply IH. destruct (newline_dec c); lia.
    - destruct (ts 0 r) as [|[[|n] w] rest]; cbn; destruct k; try lia; exact I. }
  destruct s as [|c r]; cbn [starts_white ts]; intros H; [exact I|].
  rewrite H. apply Hk. destruct (newline_dec c); lia.
Qed.

Fixpoint lead (s : bytes) : bytes :=
  match s with [] => [] | c :: r => if whitespace_dec c then [] else c :: lead r end.
Fixpoint after (s : bytes) : bytes :=
  match s with [] => [] | c :: r => if whitespace_dec c then s else after r end.

Lemma lead_after s : lead s ++ after s = s.
Proof. induction s as [|c r IH]; cbn; [reflexivity|]. destruct (whitespace_dec c); cbn; congruence. Qed.
Lemma after_white s : starts_white (after s) = true.
Proof. induction s as [|c r IH]; cbn; [reflexivity|]. destruct (whitespace_dec c) eqn:E; cbn; auto. Qed.
Lemma lead_nil s : starts_white s = true <-> lead s = [].
Proof. destruct s as [|c r]; cbn; [tauto|]. destruct (whitespace_dec c); split; congruence. Qed.
Lemma after_le s : length (after s) <= length s.
Proof. induction s as [|c r IH]; cbn; [lia|]. destruct (whitespace_dec c); cbn; lia. Qed.

Lemma ts_lead k s : starts_white s = false -> ts k s = (k, lead s) :: ts 0 (after s).
Proof.
  revert k; induction s as [|c r IH]; intros k; cbn [starts_white ts lead after]; [discriminate|].
  intros H; rewrite H.
  destruct (starts_white r) eqn:Er.
  - pose proof (ts_white_nz 0 r Er) as Hn.
    assert (after r = r) as -> by (destruct r as [|d r']; cbn in *; [|rewrite Er]; reflexivity).
    apply lead_nil in Er; rewrite Er.
    destruct (ts 0 r) as [|[[|n] w] rest]; cbn in Hn; [reflexivity|contradiction|reflexivity].
  - rewrite (IH 0 eq_refl). reflexivity.
Qed.

(** ** Token streams are the layout, flattened *)
Definition fline (l : list bytes) : list (nat * bytes) :=
  match l with [] => [] | t :: r => (2, t) :: map (fun t => (1, t)) r end.
Definition F (l : list (list bytes)) : list (nat * bytes) := flat_map fline l.

(** Decomposition of a string: glued token, further words of its first line, layout of the rest. *)
Definition cutw (s : bytes) := cut whitespace_dec s.

Lemma cut_nonnil sep s : cut sep s <> [].
Proof. destruct s as [|c r]; cbn; [discriminate|]. destruct (sep c); [discriminate|]. destruct (cut sep r); discriminate. Qed.

Lemma lines_cons c r w ws :
  lines r = w :: ws -> lines (c :: r) = if newline_dec c then [] :: w :: ws else (c :: w) :: ws.
Proof. unfold lines; cbn [cut]; intros ->. destruct (newline_dec c); reflexivity. Qed.

Lemma cutw_cons c r w ws :
  cutw r = w :: ws -> cutw (c :: r) = if whitespace_dec c then [] :: w :: ws else (c :: w) :: ws.
Proof. unfold cutw; cbn [cut]; intros ->. destruct (whitespace_dec c); reflexivity. Qed.

Definition ts_of (k : nat) (t1 : bytes) (tws : list bytes) (rest : list (list bytes)) : list (nat * bytes) :=
  match t1 with
  | _ :: _ => (k, t1) :: map (fun t => (1, t)) tws ++ F rest
  | [] => match tws with
          | t :: tws' => (Nat.max k 1, t) :: map (fun t => (1, t)) tws' ++ F rest
          | [] => F rest
          end
  end.

Lemma F_head rest : match F rest with (k, _) :: _ => k = 2 | [] => True end.
Proof.
  induction rest as [|l r IH]; cbn; [exact I|].
  destruct l as [|t l']; cbn; [exact IH|reflexivity].
Qed.

Lemma ts_decomp s : forall k,
  exists l1 ls t1 tws,
    lines s = l1 :: ls /\ cutw l1 = t1 :: tws /\
    ts k s = ts_of k t1 (filter nonnil tws) (filter nonnil (map words ls)).
Proof.
  induction s as [|c r IH]; intros k.
  - exists [], [], [], []. repeat split.
  - cbn [ts]. destruct (whitespace_dec c) eqn:Ew.
    + destruct (newline_dec c) eqn:El.
      * destruct (IH 2) as (l1 & ls & t1 & tws & H1 & H2 & H3).
        exists [], (l1 :: ls), [], []. rewrite (lines_cons _ _ _ _ H1), El.
        repeat split. rewrite H3. cbn [filter map]. unfold ts_of at 2. cbn [filter].
        assert (words l1 = filter nonnil (t1 :: tws)) as -> by (unfold words; fold (cutw l1); rewrite H2; reflexivity).
        cbn [filter].
        destruct t1 as [|x t1]; cbn [nonnil].
        -- destruct (filter nonnil tws) as [|t tws']; cbn; [reflexivity|]. reflexivity.
        -- cbn. reflexivity.
      * destruct (IH (Nat.max k 1)) as (l1 & ls & t1 & tws & H1 & H2 & H3).
        exists (c :: l1), ls, [], (t1 :: tws). rewrite (lines_cons _ _ _ _ H1), El.
        rewrite (cutw_cons _ _ _ _ H2), Ew. repeat split. rewrite H3.
        unfold ts_of. cbn [filter].
        destruct t1 as [|x t1]; cbn [nonnil]; [|reflexivity].
        destruct (filter nonnil tws) as [|t tws']; [reflexivity|].
        f_equal. f_equal. lia.
    + assert (newline_dec c = false) as El.
      { destruct (newline_dec c) eqn:E; [|reflexivity]. apply line_is_white in E; congruence. }
      destruct (IH 0) as (l1 & ls & t1 & tws & H1 & H2 & H3).
      exists (c :: l1), ls, (c :: t1), tws.
      rewrite (lines_cons _ _ _ _ H1), El, (cutw_cons _ _ _ _ H2), Ew. repeat split.
      rewrite H3. unfold ts_of.
      destruct t1 as [|x t1]; [|reflexivity].
      destruct (filter nonnil tws) as [|t tws']; cbn; [|reflexivity].
      pose proof (F_head (filter nonnil (map words ls))) as Hh.
      destruct (F _) as [|[[|n] w] rest]; [reflexivity|discriminate Hh|reflexivity].
Qed.

Lemma ts_layout s : ts 2 s = F (layout s).
Proof.
  destruct (ts_decomp s 2) as (l1 & ls & t1 & tws & H1 & H2 & H3).
  rewrite H3. unfold layout. rewrite H1. cbn [map filter].
  assert (words l1 = filter nonnil (t1 :: tws)) as -> by (unfold words; fold (cutw l1); rewrite H2; reflexivity).
  cbn [filter].
  destruct t1 as [|x t1]; cbn [nonnil ts_of].
  - destruct (filter nonnil tws); reflexivity.
  - reflexivity.
Qed.

Lemma F_inj a : forall b,
  Forall (fun l => l <> []) a -> Forall (fun l => l <> []) b -> F a = F b -> a = b.
Proof.
  induction a as [|la a IH]; intros [|lb b] Ha Hb H; [reflexivity| | |].
  - inversion Hb as [|? ? Hl]; subst. destruct lb; [congruence|discriminate].
  - inversion Ha as [|? ? Hl]; subst. destruct la; [congruence|discriminate].
  - inversion Ha as [|? ? Hla Ha']; inversion Hb as [|? ? Hlb Hb']; subst.
    destruct la as [|ta la]; [congruence|]. destruct lb as [|tb lb]; [congruence|].
    cbn in H. injection H as Ht H.
    assert (la = lb /\ F a = F b) as [-> HF].
    { clear -H. revert lb H. induction la as [|x la IH]; intros [|y lb] H; cbn in H.
      - split; [reflexivity|exact H].
      - pose proof (F_head a) as Hh. unfold F in Hh. rewrite H in Hh. discriminate.
      - pose proof (F_head b) as Hh. unfold F in Hh. rewrite <- H in Hh. discriminate.
      - injection H as -> H. destruct (IH _ H) as [-> ?]. split; [reflexivity|assumption]. }
    subst tb. f_equal. apply IH; assumption.
Qed.

Lemma layout_nonnil s : Forall (fun l => l <> []) (layout s).
Proof.
  unfold layout. apply Forall_forall. intros l Hl. apply filter_In in Hl. destruct Hl as [_ H].
  destruct l; [discriminate|congruence].
Qed.

Lemma layout_ts a b : layout a = layout b <-> ts 2 a = ts 2 b.
Proof.
  rewrite !ts_layout. split; [congruence|]. apply F_inj; apply layout_nonnil.
Qed.

(** ** The scanner on suffixes *)
Fixpoint skip_s (l sp : bool) (s : bytes) : nat * bytes :=
  match s with
  | [] => (if l then 2 else if sp then 1 else 0, [])
  | c :: r => let l := l || newline_dec c in
      if negb (whitespace_dec c) then (if l then 2 else if sp then 1 else 0, s)
      else skip_s l true r
  end.

Lemma rd_app pre c r : rd (pre ++ c :: r) (length pre) = Ok c.
Proof. unfold rd. rewrite nth_error_app2 by lia. rewrite Nat.sub_diag. reflexivity. Qed.

Lemma app_cons_assoc {A} (pre : list A) c r : pre ++ c :: r = (pre ++ [c]) ++ r.
Proof. rewrite <- app_assoc. reflexivity. Qed.

Lemma skip_spaces_loop_ok fuel : forall pre s l sp,
  length s < fuel ->
  exists pre', pre ++ s = pre' ++ snd (skip_s l sp s) /\
    skip_spaces_loop fuel (pre ++ s) (length pre) (length (pre ++ s)) l sp
    = Ok (fst (skip_s l sp s), length pre').
Proof.
  induction fuel as [|fuel IH]; intros pre s l sp Hf; [lia|].
  cbn [skip_spaces_loop]. destruct s as [|c r]; cbn [skip_s].
  - exists pre. split; [reflexivity|].
    destruct (Nat.ltb_spec (length pre) (length (pre ++ []))) as [H|H];
      [rewrite app_length in H; cbn in H; lia|reflexivity].
  - destruct (Nat.ltb_spec (length pre) (length (pre ++ c :: r))) as [H|H];
      [|rewrite app_length in H; cbn in H; lia].
    rewrite rd_app. cbn [cbind]. rewrite ?(isline_spec c), ?(iswhite_spec c).
    destruct (negb (whitespace_dec c)).
    + exists pre. split; reflexivity.
    + destruct (IH (pre ++ [c]) r (l || newline_dec c) true) as (pre' & H1 & H2); [cbn in Hf; lia|].
      rewrite <- (app_cons_assoc pre c r) in H1, H2. exists pre'. split; [exact H1|].
      rewrite (app_length pre [c]), Nat.add_1_r in H2. exact H2.
Qed.

Lemma skip_spaces_ok pre s :
  exists pre', pre ++ s = pre' ++ snd (skip_s false false s) /\
    skip_spaces (pre ++ s) (length pre) (length (pre ++ s)) = Ok (fst (skip_s false false s), length pre').
Proof. apply skip_spaces_loop_ok. rewrite app_length. lia. Qed.

Fixpoint skipw (s : bytes) : bytes :=
  match s with [] => [] | c :: r => if whitespace_dec c then skipw r else s end.

Lemma skip_leading_ok fuel : forall pre s, length s < fuel ->
  exists pre', pre ++ s = pre' ++ skipw s /\
    skip_leading fuel (pre ++ s) (length pre) (length (pre ++ s)) = Ok (length pre').
Proof.
  induction fuel as [|fuel IH]; intros pre s Hf; [lia|].
  cbn [skip_leading]. destruct s as [|c r]; cbn [skipw].
  - exists pre. split; [reflexivity|].
    destruct (Nat.ltb_spec (length pre) (length (pre ++ []))) as [H|H];
      [rewrite app_length in H; cbn in H; lia|reflexivity].
  - destruct (Nat.ltb_spec (length pre) (length (pre ++ c :: r))) as [H|H];
      [|rewrite app_length in H; cbn in H; lia].
    rewrite rd_app. cbn [cbind]. rewrite (iswhite_spec c). destruct (whitespace_dec c).
    + destruct (IH (pre ++ [c]) r) as (pre' & H1 & H2); [cbn in Hf; lia|].
      rewrite <- (app_cons_assoc pre c r) in H1, H2. exists pre'. split; [exact H1|].
      rewrite (app_length pre [c]), Nat.add_1_r in H2. exact H2.
    + exists pre. split; reflexivity.
Qed.

Fixpoint match_s (j p : bytes) : option (bytes * bytes) :=
  match j with
  | [] => Some ([], p)
  | c :: j' => if whitespace_dec c then Some (j, p)
      else match p with
           | [] => None
           | d :: p' => if (c =? d)%N then match_s j' p' else None
           end
  end.

Lemma match_token_ok fuel : forall prej j prep p, length j < fuel ->
  match match_s j p with
  | None => match_token fuel (prej ++ j) (length (prej ++ j)) (prep ++ p) (length (prep ++ p))
              (length prej) (length prep) = Ok None
  | Some (j', p') => exists prej' prep', prej ++ j = prej' ++ j' /\ prep ++ p = prep' ++ p' /\
      match_token fuel (prej ++ j) (length (prej ++ j)) (prep ++ p) (length (prep ++ p))
              (length prej) (length prep) = Ok (Some (length prej', length prep'))
  end.
Proof.
  induction fuel as [|fuel IH]; intros prej j prep p Hf; [lia|].
  cbn [match_token]. destruct j as [|c j]; cbn [match_s].
  - exists prej, prep. repeat split.
    destruct (Nat.ltb_spec (length prej) (length (prej ++ []))) as [H|H];
      [rewrite app_length in H; cbn in H; lia|reflexivity].
  - destruct (Nat.ltb_spec (length prej) (length (prej ++ c :: j))) as [H|H];
      [|rewrite app_length in H; cbn in H; lia].
    rewrite rd_app. cbn [cbind]. rewrite (iswhite_spec c). destruct (whitespace_dec c); cbn [negb].
    + exists prej, prep. repeat split.
    + destruct p as [|d p].
      * destruct (Nat.leb_spec (length (prep ++ [])) (length prep)) as [H'|H'];
          [reflexivity|rewrite app_length in H'; cbn in H'; lia].
      * destruct (Nat.leb_spec (length (prep ++ d :: p)) (length prep)) as [H'|H'];
          [rewrite app_length in H'; cbn in H'; lia|].
        rewrite rd_app. cbn [cbind]. destruct (c =? d)%N; [|reflexivity].
        specialize (IH (prej ++ [c]) j (prep ++ [d]) p ltac:(cbn in Hf; lia)).
        rewrite <- (app_cons_assoc prej c j), <- (app_cons_assoc prep d p) in IH.
        rewrite (app_length prej [c]), (app_length prep [d]) in IH. cbn [length] in IH.
        rewrite !Nat.add_1_r in IH. exact IH.
Qed.

Fixpoint loop_s (fuel : nat) (j p : bytes) : option bool :=
  match fuel with
  | O => None
  | S fuel' =>
      let (js, j) := skip_s false false j in
      let (ps, p) := skip_s false false p in
      if negb (nonnil j) || negb (nonnil p) then Some (negb (nonnil j) && negb (nonnil p))
      else if negb (js =? ps) then Some false
      else match match_s j p with
           | None => Some false
           | Some (j, p) => loop_s fuel' j p
           end
  end.

Lemma len_eqb {A} (pre s : list A) : (length pre =? length (pre ++ s)) = negb (nonnil s).
Proof. rewrite app_length. destruct s; cbn; lia. Qed.

Lemma standard_loop_ok fuel : forall prej j prep p,
  standard_loop fuel (prej ++ j) (length (prej ++ j)) (prep ++ p) (length (prep ++ p)) (length prej) (length prep)
  = match loop_s fuel j p with Some b => Ok b | None => NoFuel end.
Proof.
  induction fuel as [|fuel IH]; intros prej j prep p; [reflexivity|].
  cbn [standard_loop loop_s].
  destruct (skip_spaces_ok prej j) as (prej1 & Hj1 & Hj2). rewrite Hj2. cbn [cbind].
  destruct (skip_spaces_ok prep p) as (prep1 & Hp1 & Hp2). rewrite Hp2. cbn [cbind].
  destruct (skip_s false false j) as [js j1], (skip_s false false p) as [ps p1]; cbn [fst snd] in *.
  rewrite Hj1, Hp1. rewrite !len_eqb.
  destruct (negb (nonnil j1) || negb (nonnil p1)); [reflexivity|].
  destruct (negb (js =? ps)); [reflexivity|].
  pose proof (match_token_ok (S (length (prej1 ++ j1) - length prej1)) prej1 j1 prep1 p1
                ltac:(rewrite app_length; lia)) as Hm.
  destruct (match_s j1 p1) as [[j2 p2]|].
  - destruct Hm as (prej2 & prep2 & Hj3 & Hp3 & Hm). rewrite Hm. cbn [cbind].
    rewrite Hj3, Hp3. apply IH.
  - rewrite Hm. reflexivity.
Qed.

(** ** The suffix scanner decides token-stream equality *)
Lemma skip_s_ts s : forall l sp,
  (l = true -> sp = true) ->
  let '(k, r) := skip_s l sp s in
  ts (if l then 2 else if sp then 1 else 0) s = ts k r /\ (starts_white r = true -> r = []) /\
  length r <= length s.
Proof.
  induction s as [|c r IH]; intros l sp Hl; cbn [skip_s].
  - repeat split; auto.
  - destruct (whitespace_dec c) eqn:Ew; cbn [negb].
    + specialize (IH (l || newline_dec c) true ltac:(auto)).
      destruct (skip_s (l || newline_dec c) true r) as [k r']. destruct IH as (H1 & H2 & H3).
      repeat split; [|exact H2|cbn; lia].
      rewrite <- H1. cbn [ts]. rewrite Ew. f_equal.
      destruct (newline_dec c), l, sp; cbn; reflexivity.
    + assert (newline_dec c = false) as El.
      { destruct (newline_dec c) eqn:E; [|reflexivity]. apply line_is_white in E; congruence. }
      rewrite El, orb_false_r. split; [reflexivity|]. split; [|lia]. cbn [starts_white]. congruence.
Qed.

Lemma match_s_lead j p :
  match match_s j p with
  | Some (j', p') => j' = after j /\ p = lead j ++ p'
  | None => forall p', p <> lead j ++ p'
  end.
Proof.
  revert p; induction j as [|c j IH]; intros p; cbn [match_s lead after].
  - split; reflexivity.
  - destruct (whitespace_dec c); [split; reflexivity|].
    destruct p as [|d p]; [intros p' H; discriminate|].
    destruct (N.eqb_spec c d) as [->|Hne].
    + specialize (IH p). destruct (match_s j p) as [[j' p']|].
      * destruct IH as [-> ->]. split; reflexivity.
      * intros p' H. injection H as H. exact (IH _ H).
    + intros p' H. injection H as H _. congruence.
Qed.

Lemma lead_app w s : Forall (fun c => whitespace_dec c = false) w ->
  lead (w ++ s) = w ++ lead s /\ after (w ++ s) = after s.
Proof.
  induction 1 as [|c w Hc Hw IH]; cbn; [split; reflexivity|].
  rewrite Hc. destruct IH as [-> ->]. split; reflexivity.
Qed.
Lemma lead_nonwhite s : Forall (fun c => whitespace_dec c = false) (lead s).
Proof. induction s as [|c r IH]; cbn; [constructor|]. destruct (whitespace_dec c) eqn:E; constructor; assumption. Qed.

Lemma loop_s_spec fuel : forall j p, length j < fuel ->
  exists b, loop_s fuel j p = Some b /\ (b = true <-> ts 0 j = ts 0 p).
Proof.
  induction fuel as [|fuel IH]; intros j p Hf; [lia|]. cbn [loop_s].
  pose proof (skip_s_ts j false false ltac:(discriminate)) as Hj.
  pose proof (skip_s_ts p false false ltac:(discriminate)) as Hp.
  destruct (skip_s false false j) as [js j1], (skip_s false false p) as [ps p1].
  destruct Hj as (Hj1 & Hj2 & Hj3), Hp as (Hp1 & Hp2 & Hp3).
  rewrite Hj1, Hp1.
  destruct (starts_white j1) eqn:Ej.
  { rewrite (Hj2 eq_refl). cbn [nonnil negb orb andb ts]. eexists; split; [reflexivity|].
    destruct (starts_white p1) eqn:Ep.
    - rewrite (Hp2 eq_refl). cbn. tauto.
    - rewrite (ts_lead _ _ Ep). destruct p1; [discriminate|]. cbn. split; discriminate. }
  destruct (starts_white p1) eqn:Ep.
  { rewrite (Hp2 eq_refl). cbn [nonnil negb]. rewrite orb_true_r, andb_true_r.
    eexists; split; [reflexivity|]. rewrite (ts_lead _ _ Ej).
    destruct j1; [discriminate|]. cbn. split; discriminate. }
  assert (nonnil j1 = true) as Hnj by (destruct j1; [discriminate|reflexivity]).
  assert (nonnil p1 = true) as Hnp by (destruct p1; [discriminate|reflexivity]).
  rewrite Hnj, Hnp. cbn [negb orb].
  rewrite (ts_lead _ _ Ej), (ts_lead _ _ Ep).
  destruct (Nat.eqb_spec js ps) as [<-|Hne]; cbn [negb].
  2:{ eexists; split; [reflexivity|]. split; [discriminate|]. intros H; injection H; intros; congruence. }
  pose proof (match_s_lead j1 p1) as Hm.
  destruct (match_s j1 p1) as [[j2 p2]|].
  - destruct Hm as [-> Hp4].
    destruct (IH (after j1) p2) as (b & Hb & Hiff).
    { pose proof (lead_after j1) as Hla. apply (f_equal (@length N)) in Hla. rewrite app_length in Hla.
      assert (lead j1 <> []) as Hl0 by (intros H; apply lead_nil in H; congruence).
      destruct (lead j1); [congruence|]. cbn in Hla. lia. }
    exists b. split; [exact Hb|]. rewrite Hiff.
    destruct (lead_app (lead j1) p2 (lead_nonwhite j1)) as [Hl1 Hl2].
    rewrite <- Hp4 in Hl1, Hl2. rewrite Hl1, Hl2.
    destruct (starts_white p2) eqn:E2.
    + assert (after p2 = p2) as -> by (destruct p2 as [|d p2']; cbn in *; [|rewrite E2]; reflexivity).
      apply lead_nil in E2 as ->. rewrite app_nil_r. split; [congruence|]. intros H; injection H; auto.
    + rewrite (ts_lead 0 p2 E2).
      pose proof (ts_white_nz 0 (after j1) (after_white j1)) as Hn. split.
      * intros H. rewrite H in Hn. contradiction.
      * intros H. injection H as H _. exfalso.
        assert (lead p2 = []) as H0.
        { apply (f_equal (@length N)) in H. rewrite app_length in H. destruct (lead p2); [reflexivity|cbn in H; lia]. }
        apply lead_nil in H0. congruence.
  - eexists; split; [reflexivity|]. split; [discriminate|]. intros H. injection H as H _.
    exfalso. apply (Hm (after p1)). rewrite H. symmetry. apply lead_after.
Qed.

Lemma skipw_ts s : ts 2 (skipw s) = ts 2 s /\ (starts_white (skipw s) = true -> skipw s = []).
Proof.
  induction s as [|c r IH]; cbn [skipw ts]; [auto|].
  destruct (whitespace_dec c) eqn:E.
  - destruct IH as (H1 & H2). split; [|exact H2]. rewrite H1. destruct (newline_dec c); reflexivity.
  - split; [cbn [ts]; rewrite E; reflexivity|]. cbn [starts_white]. congruence.
Qed.

Lemma ts_start a b :
  (starts_white a = true -> a = []) -> (starts_white b = true -> b = []) ->
  (ts 0 a = ts 0 b <-> ts 2 a = ts 2 b).
Proof.
  intros Ha Hb. destruct (starts_white a) eqn:Ea.
  - rewrite (Ha eq_refl). destruct (starts_white b) eqn:Eb.
    + rewrite (Hb eq_refl). cbn. tauto.
    + rewrite !(ts_lead _ b Eb). cbn. split; discriminate.
  - destruct (starts_white b) eqn:Eb.
    + rewrite (Hb eq_refl), !(ts_lead _ a Ea). cbn. split; discriminate.
    + rewrite !(ts_lead _ a Ea), !(ts_lead _ b Eb). split; congruence.
Qed.

Lemma skipw_le s : length (skipw s) <= length s.
Proof. induction s as [|c r IH]; cbn; [lia|]. destruct (whitespace_dec c); cbn; lia. Qed.

Theorem checker_standard_ok judge process :
  exists b, checker_standard judge process = Ok b /\ (b = true <-> layout judge = layout process).
Proof.
  unfold checker_standard, check_standard.
  destruct (skip_leading_ok (S (length judge)) [] judge ltac:(lia)) as (prej & Hj1 & Hj2).
  cbn [app length] in Hj1, Hj2. rewrite Hj2. cbn [cbind].
  destruct (skip_leading_ok (S (length process)) [] process ltac:(lia)) as (prep & Hp1 & Hp2).
  cbn [app length] in Hp1, Hp2. rewrite Hp2. cbn [cbind].
  destruct (loop_s_spec (S (length judge)) (skipw judge) (skipw process)) as (b & Hb & Hiff).
  { pose proof (skipw_le judge). lia. }
  exists b. split.
  - rewrite Hj1 at 2 3. rewrite Hp1 at 1 2. rewrite standard_loop_ok, Hb. reflexivity.
  - rewrite Hiff. destruct (skipw_ts judge) as (H1 & H2), (skipw_ts process) as (H3 & H4).
    rewrite (ts_start _ _ H2 H4), H1, H3. symmetry. apply layout_ts.
Qed.
