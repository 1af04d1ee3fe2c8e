From Verif Require Import Model.Bytes Model.ReadStr Spec.ReadStr.
Local Open Scope list_scope.
Local Open Scope nat_scope.

(** l is what is in memory from a on. *)
Definition image (m : nat -> option N) (a : nat) (l : bytes) : Prop :=
  forall i, i < length l -> exists c, nth_error l i = Some c /\ m (a + i) = Some c.
Lemma range_some : forall m n a l, range m a n = Some l -> length l = n /\ image m a l.
Proof.
  induction n as [|n IH]; intros a l E; cbn [range] in E.
  - injection E as <-. split; [reflexivity|]. intros i H. cbn in H. lia.
  - destruct (m a) as [c|] eqn:Ea; [|discriminate]. destruct (range m (S a) n) as [r|] eqn:Er; [|discriminate]. injection E as <-.
    destruct (IH _ _ Er) as [L I]. split; [cbn [length]; lia|]. intros [|i] H.
    + exists c. rewrite Nat.add_0_r. split; [reflexivity|exact Ea].
    + destruct (I i) as (c' & A & C); [cbn [length] in H; lia|]. exists c'. split; [exact A|]. rewrite <- C. f_equal. lia.
Qed.
Lemma range_ok : forall m n a, (forall i, i < n -> m (a + i) <> None) -> exists l, range m a n = Some l.
Proof.
  induction n as [|n IH]; intros a H; [exists []; reflexivity|]. cbn [range].
  destruct (m a) as [c|] eqn:Ea; [|exfalso; apply (H 0); [lia|rewrite Nat.add_0_r; exact Ea]].
  destruct (IH (S a)) as (l & ->); [|exists (c :: l); reflexivity]. intros i Hi. replace (S a + i) with (a + S i) by lia. apply H. lia.
Qed.
Lemma range_none : forall m n a i, i < n -> m (a + i) = None -> range m a n = None.
Proof.
  intros m n a i H E. destruct (range m a n) as [l|] eqn:R; [|reflexivity]. destruct (range_some _ _ _ _ R) as [L I].
  destruct (I i) as (c & _ & C); [lia|]. congruence.
Qed.
Lemma range_ext : forall m m', (forall a, m a = m' a) -> forall n a, range m a n = range m' a n.
Proof. intros m m' H. induction n as [|n IH]; intro a; [reflexivity|]. cbn [range]. rewrite H, IH. reflexivity. Qed.
Lemma image_app : forall m a l r, image m a l -> image m (a + length l) r -> image m a (l ++ r).
Proof.
  intros m a l r L R i H. rewrite app_length in H. destruct (lt_dec i (length l)) as [X|X].
  - rewrite nth_error_app1 by exact X. apply L. exact X.
  - rewrite nth_error_app2 by lia. destruct (R (i - length l)) as (c & A & C); [lia|]. exists c. split; [exact A|]. rewrite <- C. f_equal. lia.
Qed.
Lemma image_det : forall m a l r, image m a l -> image m a r -> length l = length r -> l = r.
Proof.
  intros m a l. revert a. induction l as [|c l IH]; intros a [|d r] L R E; try discriminate; [reflexivity|].
  destruct (L 0) as (x & X1 & X2); [cbn; lia|]. destruct (R 0) as (y & Y1 & Y2); [cbn; lia|]. cbn in X1, Y1.
  assert (c = d) by congruence. subst d. f_equal. apply (IH (S a)).
  - intros i H. destruct (L (S i)) as (z & A & C); [cbn [length]; lia|]. exists z. split; [exact A|]. rewrite <- C. f_equal. lia.
  - intros i H. destruct (R (S i)) as (z & A & C); [cbn [length]; lia|]. exists z. split; [exact A|]. rewrite <- C. f_equal. lia.
  - injection E as E. exact E.
Qed.
Lemma image_firstn : forall m a l n, image m a l -> image m a (firstn n l).
Proof.
  intros m a l n L i H. rewrite firstn_length in H. destruct (L i) as (c & A & C); [lia|]. exists c. split; [|exact C].
  rewrite <- (firstn_skipn n l) in A. rewrite nth_error_app1 in A by (rewrite firstn_length; lia). exact A.
Qed.
Lemma has_null_iff : forall l, has_null l = true <-> exists i, nth_error l i = Some 0%N.
Proof.
  intro l. unfold has_null. rewrite existsb_exists. split.
  - intros (x & I & E). apply N.eqb_eq in E. subst x. apply In_nth_error. exact I.
  - intros (i & E). exists 0%N. split; [exact (nth_error_In _ _ E)|reflexivity].
Qed.
Lemma has_null_app : forall a b, has_null (a ++ b) = has_null a || has_null b.
Proof. intros. apply existsb_app. Qed.
Lemma cstr_id : forall l, has_null l = false -> cstr l = l.
Proof.
  induction l as [|c l IH]; intro H; [reflexivity|]. cbn [cstr]. unfold has_null in H. cbn [existsb] in H.
  apply orb_false_elim in H. destruct H as [H1 H2]. rewrite N.eqb_sym in H1. rewrite H1, IH; [reflexivity|exact H2].
Qed.
Lemma cstr_zero : forall s r, has_null s = false -> cstr (s ++ 0%N :: r) = s.
Proof.
  induction s as [|c s IH]; intros r H; [reflexivity|]. cbn [app cstr]. unfold has_null in H. cbn [existsb] in H.
  apply orb_false_elim in H. destruct H as [H1 H2]. rewrite N.eqb_sym in H1. rewrite H1, IH; [reflexivity|exact H2].
Qed.
Lemma chars_image : forall m a s, chars m a s -> image m a s /\ has_null s = false.
Proof.
  intros m a s C. split.
  - intros i H. destruct (C i H) as (c & A & E & _). exists c. split; assumption.
  - destruct (has_null s) eqn:E; [|reflexivity]. apply has_null_iff in E. destruct E as (i & E).
    destruct (C i) as (c & A & _ & X); [apply nth_error_Some; congruence|]. congruence.
Qed.
(** A buffer that holds the memory, up to and past the string's end. *)
Lemma cstr_string : forall m a s l, chars m a s -> m (a + length s) = Some 0%N -> image m a l -> length s < length l -> cstr l = s.
Proof.
  intros m a s l C Z I L. destruct (chars_image _ _ _ C) as [Is Ns].
  rewrite <- (firstn_skipn (length s) l). assert (E : firstn (length s) l = s).
  { apply (image_det m a); [apply image_firstn; exact I|exact Is|]. rewrite firstn_length. lia. }
  rewrite E. destruct (skipn (length s) l) as [|c r] eqn:K.
  - apply (f_equal (@length _)) in K. rewrite skipn_length in K. cbn in K. lia.
  - destruct (I (length s) L) as (c' & A & X). rewrite <- (firstn_skipn (length s) l), E, K in A.
    rewrite nth_error_app2 in A by lia. rewrite Nat.sub_diag in A. cbn in A. assert (c = 0%N) by congruence. subst c. apply cstr_zero. exact Ns.
Qed.
Lemma no_null_short : forall m a s l, chars m a s -> m (a + length s) = Some 0%N -> image m a l -> has_null l = false -> length l <= length s.
Proof.
  intros m a s l _ Z I N. destruct (le_lt_dec (length l) (length s)) as [X|X]; [exact X|].
  destruct (I (length s) X) as (c & A & C). assert (has_null l = true) by (apply has_null_iff; exists (length s); congruence). congruence.
Qed.
Lemma null_long : forall m a s l, chars m a s -> image m a l -> has_null l = true -> length s < length l.
Proof.
  intros m a s l C I N. apply has_null_iff in N. destruct N as (i & E). assert (Hi : i < length l) by (apply nth_error_Some; congruence).
  destruct (I i Hi) as (c & A & X). assert (c = 0%N) by congruence. subst c.
  destruct (le_lt_dec (length s) i) as [Y|Y]; [lia|]. destruct (C i Y) as (d & _ & D & Nz). congruence.
Qed.

(** ** Word by word *)
Section Peek.
  Variables (mem : memory) (word : nat) (junk : nat -> N) (addr max : nat).
  Hypothesis Hw : 0 < word.
  Variable q : nat.
  Hypothesis Hq : block = q * word.
  Notation peek := (readstr_peekdata mem word junk addr max).
  Lemma block_pos : 0 < block.
  Proof. unfold block. lia. Qed.

  (** size is a number of whole blocks, or cut to max + 1. *)
  Definition size_ok (size read : nat) : Prop :=
    (exists r, read = r * word) /\ (((exists k, size = k * block) /\ read <= size) \/ size = S max) /\ block <= size \/ False.
  Lemma multiple_next : forall r s n, n = s * word -> r * word <= n -> n < r * word + word -> r * word = n.
  Proof.
    intros r s n -> A C. assert (r <= s) by (apply Nat.mul_le_mono_pos_r with word; lia).
    assert (s < S r). { apply Nat.mul_lt_mono_pos_r with word; [exact Hw|]. cbn [Nat.mul]. lia. } assert (s = r) by lia. subst s. reflexivity.
  Qed.
  Definition fits : Prop := S max <= block \/ S max mod block = 0 \/ word <= S max mod block.

  Lemma peek_safe : fits -> forall fuel k size read buf,
    (exists r, read = r * word) -> ((exists j, size = j * block /\ 0 < j) /\ read <= size \/ size = S max /\ block <= size) ->
    in_bounds (fst (peek fuel k size read buf)).
  Proof.
    intro Ft. induction fuel as [|f IH]; intros k size read buf Hr Hs; [intros c o n []|]. cbn [readstr_peekdata].
    assert (GO : forall size', read + word <= size' -> ((exists j, size' = j * block /\ 0 < j) \/ size' = S max /\ block <= size') ->
      in_bounds (fst (match range (mem k) (addr + read) word with
          | None => ([Ask (addr + read) word], None)
          | Some data =>
              let ev := [Ask (addr + read) word; Write size' read word] in
              if has_null data then (ev, Some (cstr (buf ++ data)))
              else let '(ev', r) := peek f (S k) size' (read + word) (buf ++ data) in (ev ++ ev', r)
          end))).
    { intros size' L Hs'. destruct (range (mem k) (addr + read) word) as [data|]; cbn zeta.
      - destruct (has_null data).
        + intros c o n [H|[H|[]]]; [discriminate|]. injection H as <- <- <-. exact L.
        + specialize (IH (S k) size' (read + word) (buf ++ data)). destruct (peek f (S k) size' (read + word) (buf ++ data)) as [ev' r].
          cbn [fst] in *. intros c o n [H|[H|H]]; [discriminate|injection H as <- <- <-; exact L|].
          apply IH; [destruct Hr as (x & ->); exists (S x); cbn [Nat.mul]; lia| |exact H].
          destruct Hs' as [A|A]; [left; split; [exact A|exact L]|right; exact A].
      - intros c o n [H|[]]. discriminate. }
    destruct (size <? read + word) eqn:E1.
    - apply Nat.ltb_lt in E1. destruct (max <? size) eqn:E2.
      + apply Nat.ltb_lt in E2. cbn [fst]. intros c o n [H|[]]. injection H as <- <- <-. lia.
      + apply Nat.ltb_ge in E2. destruct Hs as [((j & Hj & J0) & Hle)|[Hs _]]; [|lia].
        destruct Hr as (r & Hr). assert (R : read = size).
        { rewrite Hr in *. apply multiple_next with (s := j * q); [rewrite Hj, Hq; lia|lia|lia]. }
        cbn zeta. pose proof block_pos as Bp.
        assert (Wb : word <= block). { rewrite Hq. destruct q as [|q']; [lia|]. cbn [Nat.mul]. lia. }
        destruct (max <? size + block) eqn:E3.
        * apply Nat.ltb_lt in E3. apply GO; [|right; split; [reflexivity|nia]]. rewrite R.
          assert (M : S max - size = block \/ S max mod block = S max - size).
          { destruct (Nat.eq_dec (S max - size) block) as [X|X]; [left; exact X|right].
            replace (S max) with ((S max - size) + j * block) at 1 by lia. rewrite Nat.mod_add by lia. apply Nat.mod_small. lia. }
          destruct M as [M|M]; [lia|]. destruct Ft as [Ft|[Ft|Ft]]; [nia|lia|lia].
        * apply Nat.ltb_ge in E3. apply GO; [lia|left; exists (S j); cbn [Nat.mul]; lia].
    - apply Nat.ltb_ge in E1. apply GO; [exact E1|]. destruct Hs as [[A _]|A]; [left; exact A|right; exact A].
  Qed.
  Theorem peekdata_safe : fits -> forall k, in_bounds (fst (peekdata mem word junk addr max k)).
  Proof.
    intros Ft k. unfold peekdata. destruct (addr =? 0); [intros c o n []|]. apply peek_safe; [exact Ft|exists 0; reflexivity|].
    left. split; [exists 1; lia|lia].
  Qed.

  (** The memory is cut off within the first block: nothing is returned. *)
  Variable m : nat -> option N.
  Hypothesis Hc : constant mem m.
  Lemma rng : forall k a n, range (mem k) a n = range m a n.
  Proof. intros. apply range_ext. intro. apply Hc. Qed.
  Lemma peek_cut : forall s, cut_off m addr s -> length s <= block -> block <= max ->
    forall fuel k read buf, length s < read + fuel -> (exists r, read = r * word) -> read <= length s ->
    image m addr buf -> length buf = read ->
    snd (peek fuel k block read buf) = None /\ in_bounds (fst (peek fuel k block read buf)).
  Proof.
    intros s (Cs & Cz) Lb Lm. induction fuel as [|f IH]; intros k read buf Hf Hr Hle Ib Lbuf; [split; [reflexivity|intros c o n []]|].
    cbn [readstr_peekdata]. rewrite rng.
    destruct (block <? read + word) eqn:E1.
    - apply Nat.ltb_lt in E1. assert (E2 : max <? block = false) by (apply Nat.ltb_ge; exact Lm). rewrite E2.
      destruct Hr as (r & Hr). assert (R : read = block). { rewrite Hr in *. apply multiple_next with (s := q); [exact Hq|lia|lia]. }
      rewrite (range_none m word (addr + read) 0) by (try exact Hw; rewrite Nat.add_0_r; replace read with (length s) by lia; exact Cz).
      cbn zeta. split; [reflexivity|]. intros c o n [H|[]]. discriminate.
    - apply Nat.ltb_ge in E1. destruct (le_lt_dec (read + word) (length s)) as [X|X].
      + destruct (range m (addr + read) word) as [data|] eqn:Er; [|split; [reflexivity|intros c o n [H|[]]; discriminate]].
        destruct (range_some _ _ _ _ Er) as [Ld Id]. assert (Nd : has_null data = false).
        { destruct (has_null data) eqn:Nd; [|reflexivity]. rewrite <- Lbuf in Id.
          pose proof (null_long m addr s (buf ++ data) Cs (image_app _ _ _ _ Ib Id)) as NL. rewrite has_null_app, Nd, orb_true_r in NL.
          specialize (NL eq_refl). rewrite app_length in NL. lia. }
        cbn zeta. rewrite Nd. specialize (IH (S k) (read + word) (buf ++ data)).
        destruct (peek f (S k) block (read + word) (buf ++ data)) as [ev' r']. cbn [fst snd] in *.
        destruct IH as [I1 I2]; [lia|destruct Hr as (x & ->); exists (S x); cbn [Nat.mul]; lia|lia|apply image_app; [exact Ib|rewrite Lbuf; exact Id]|rewrite app_length; lia|].
        split; [exact I1|]. intros c o n [H|[H|H]]; [discriminate|injection H as <- <- <-; exact E1|exact (I2 _ _ _ H)].
      + rewrite (range_none m word (addr + read) (length s - read)) by (try lia; replace (addr + read + (length s - read)) with (addr + length s) by lia; exact Cz).
        cbn zeta. split; [reflexivity|]. intros c o n [H|[]]. discriminate.
  Qed.
  (** A string that ends within the first block: it, or nothing. *)
  Lemma peek_string : forall s, string_at m addr s -> length s < block -> block <= max ->
    forall fuel k read buf, length s < read + fuel -> (exists r, read = r * word) -> read <= length s ->
    image m addr buf -> length buf = read ->
    (snd (peek fuel k block read buf) = None \/ snd (peek fuel k block read buf) = Some s)
    /\ ((forall i, i < length s + word -> m (addr + i) <> None) -> snd (peek fuel k block read buf) = Some s)
    /\ in_bounds (fst (peek fuel k block read buf)).
  Proof.
    intros s (Cs & Cz) Lb Lm. induction fuel as [|f IH]; intros k read buf Hf Hr Hle Ib Lbuf; [lia|].
    cbn [readstr_peekdata]. rewrite rng.
    assert (E1 : block <? read + word = false).
    { apply Nat.ltb_ge. destruct (le_lt_dec (read + word) block) as [Y|Y]; [exact Y|].
      destruct Hr as (r & Hr). assert (R : read = block). { rewrite Hr in *. apply multiple_next with (s := q); [exact Hq|lia|lia]. } lia. }
    rewrite E1. apply Nat.ltb_ge in E1.
    destruct (range m (addr + read) word) as [data|] eqn:Er.
    - destruct (range_some _ _ _ _ Er) as [Ld Id]. assert (Ia : image m addr (buf ++ data)) by (apply image_app; [exact Ib|rewrite Lbuf; exact Id]).
      cbn zeta. destruct (has_null data) eqn:Nd.
      + cbn [fst snd]. pose proof (null_long m addr s (buf ++ data) Cs Ia) as NL. rewrite has_null_app, Nd, orb_true_r in NL. specialize (NL eq_refl).
        rewrite (cstr_string m addr s _ Cs Cz Ia NL). split; [right; reflexivity|]. split; [reflexivity|].
        intros c o n [H|[H|[]]]; [discriminate|injection H as <- <- <-; exact E1].
      + destruct (has_null buf) eqn:Nb.
        { exfalso. pose proof (null_long m addr s buf Cs Ib Nb). lia. }
        assert (NN : length (buf ++ data) <= length s). { apply (no_null_short m addr s); [exact Cs|exact Cz|exact Ia|]. rewrite has_null_app, Nb, Nd. reflexivity. }
        rewrite app_length in NN. specialize (IH (S k) (read + word) (buf ++ data)).
        destruct (peek f (S k) block (read + word) (buf ++ data)) as [ev' r']. cbn [fst snd] in *.
        destruct IH as (I1 & I2 & I3); [lia|destruct Hr as (x & ->); exists (S x); cbn [Nat.mul]; lia|lia|exact Ia|rewrite app_length; lia|].
        split; [exact I1|]. split; [exact I2|]. intros c o n [H|[H|H]]; [discriminate|injection H as <- <- <-; exact E1|exact (I3 _ _ _ H)].
    - cbn zeta. split; [left; reflexivity|]. split; [|intros c o n [H|[]]; discriminate].
      intro R. destruct (range_ok m word (addr + read)) as (l & El); [|congruence]. intros i Hi. rewrite <- Nat.add_assoc. apply R. lia.
  Qed.
End Peek.

(** ** Page by page *)
Section Readv.
  Variables (mem : memory) (vm_ok : nat -> bool) (word : nat) (junk : nat -> N) (addr max page : nat).
  Hypothesis Hp : 0 < page.
  Hypothesis Hpm : page <= S max.
  Notation loop := (readv_loop mem vm_ok word junk addr max page).
  (** Where the loop stands. *)
  Definition at_page (read remain : nat) : Prop :=
    read < max -> 0 < remain /\ (addr + read) mod page + remain <= page
      /\ (read = 0 /\ (addr + remain) mod page = 0 /\ remain <= S max
          \/ (addr + read) mod page = 0 /\ read + remain <= max /\ (remain = page \/ read + remain = max)).
  Lemma at_start : at_page 0 (page - addr mod page).
  Proof.
    intro H. pose proof (Nat.mod_upper_bound addr page ltac:(lia)) as U. rewrite Nat.add_0_r. split; [lia|]. split; [lia|].
    left. split; [reflexivity|]. split; [|lia].
    pose proof (Nat.div_mod addr page ltac:(lia)) as D.
    replace (addr + (page - addr mod page)) with (0 + (addr / page + 1) * page) by lia. rewrite Nat.mod_add by lia. apply Nat.mod_small. lia.
  Qed.
  Lemma at_next : forall read remain, read < max -> at_page read remain ->
    at_page (read + remain) (if page <? max - (read + remain) then page else max - (read + remain)).
  Proof.
    intros read remain Hr A Hm. destruct (A Hr) as (A1 & A2 & A3).
    assert (Z : (addr + (read + remain)) mod page = 0).
    { destruct A3 as [(-> & Z & _)|(Z & _ & [->|X])]; [rewrite Nat.add_0_l; exact Z| |lia].
      replace (addr + (read + page)) with (addr + read + 1 * page) by lia. rewrite Nat.mod_add by lia. exact Z. }
    rewrite Z. destruct (page <? max - (read + remain)) eqn:E; [apply Nat.ltb_lt in E|apply Nat.ltb_ge in E].
    - split; [lia|]. split; [lia|]. right. split; [reflexivity|]. split; [lia|left; reflexivity].
    - split; [lia|]. split; [lia|]. right. split; [reflexivity|]. split; [lia|right; lia].
  Qed.
  Lemma at_bound : forall read remain, read < max -> at_page read remain -> read + remain <= S max.
  Proof. intros read remain H A. destruct (A H) as (_ & _ & [(-> & _ & X)|(_ & X & _)]); lia. Qed.
  Lemma same_page : forall read remain i, read < max -> at_page read remain -> i < remain -> (addr + read + i) / page = (addr + read) / page.
  Proof.
    intros read remain i H A Hi. destruct (A H) as (_ & A2 & _). pose proof (Nat.div_mod (addr + read) page ltac:(lia)) as D.
    symmetry. apply Nat.div_unique with ((addr + read) mod page + i); lia.
  Qed.
  Lemma loop_safe : (forall k, in_bounds (fst (peekdata mem word junk addr max k))) ->
    forall fuel k read remain buf, at_page read remain -> in_bounds (fst (fst (loop fuel k read remain buf))).
  Proof.
    intros Pk. induction fuel as [|f IH]; intros k read remain buf A; [intros c o n []|]. cbn [readv_loop].
    destruct (read <? max) eqn:E.
    - apply Nat.ltb_lt in E. pose proof (at_bound _ _ E A) as Bd.
      destruct (if vm_ok k then _ else _) as [data|]; cbn zeta.
      + destruct (has_null data).
        * intros c o n [H|[H|[]]]; [discriminate|injection H as <- <- <-; exact Bd].
        * specialize (IH (S k) (read + remain) _ (buf ++ data) (at_next _ _ E A)).
          destruct (loop f (S k) (read + remain) _ (buf ++ data)) as [[ev' r] p]. cbn [fst] in *.
          intros c o n [H|[H|H]]; [discriminate|injection H as <- <- <-; exact Bd|exact (IH _ _ _ H)].
      + specialize (Pk (S k)). destruct (peekdata mem word junk addr max (S k)) as [ev' r]. cbn [fst] in *.
        intros c o n [H|H]; [discriminate|exact (Pk _ _ _ H)].
    - cbn [fst]. intros c o n [H|[]]. injection H as <- <- <-. lia.
  Qed.
  Lemma loop_pages : forall fuel k read remain buf, at_page read remain ->
    forall a n, In (Ask a n) (fst (fst (loop fuel k read remain buf))) ->
    (n = 0 \/ a / page = (a + n - 1) / page) \/ exists j, In (Ask a n) (fst (peekdata mem word junk addr max j)).
  Proof.
    induction fuel as [|f IH]; intros k read remain buf A a n; [intros []|]. cbn [readv_loop].
    destruct (read <? max) eqn:E.
    - apply Nat.ltb_lt in E. 
      assert (P : remain = 0 \/ (addr + read) / page = (addr + read + remain - 1) / page).
      { destruct (A E) as (A1 & _ & _). right. replace (addr + read + remain - 1) with (addr + read + (remain - 1)) by lia.
        symmetry. apply (same_page read remain); [exact E|exact A|lia]. }
      destruct (if vm_ok k then _ else _) as [data|]; cbn zeta.
      + destruct (has_null data).
        * intros [H|[H|[]]]; [injection H as <- <-; left; exact P|discriminate].
        * specialize (IH (S k) (read + remain) _ (buf ++ data) (at_next _ _ E A) a n).
          destruct (loop f (S k) (read + remain) _ (buf ++ data)) as [[ev' r] p]. cbn [fst snd] in *.
          intros [H|[H|H]]; [injection H as <- <-; left; exact P|discriminate|exact (IH H)].
      + destruct (peekdata mem word junk addr max (S k)) as [ev' r] eqn:Ep. cbn [fst].
        intros [H|H]; [injection H as <- <-; left; exact P|right; exists (S k); rewrite Ep; exact H].
    - cbn [fst]. intros [H|[]]. discriminate.
  Qed.

  Variable m : nat -> option N.
  Hypothesis Hc : constant mem m.
  Hypothesis Hv : forall k, vm_ok k = true.
  Hypothesis Hg : paged page m.
  (** The string, or its first max bytes. *)
  Lemma loop_string : forall s, chars m addr s -> length s <= max -> length s = max \/ m (addr + length s) = Some 0%N ->
    forall fuel k read remain buf, max < read + fuel -> 0 < fuel -> at_page read remain -> image m addr buf -> length buf = read ->
    has_null buf = false -> read <= length s \/ length s = max ->
    fst (loop fuel k read remain buf) = (fst (fst (loop fuel k read remain buf)), Some s)
    /\ in_bounds (fst (fst (loop fuel k read remain buf))).
  Proof.
    intros s Cs Lm Hz. destruct (chars_image _ _ _ Cs) as [Is Ns].
    induction fuel as [|f IH]; intros k read remain buf Hf F0 A Ib Lb Nb Hr.
    - lia.
    - cbn [readv_loop]. destruct (read <? max) eqn:E.
      + apply Nat.ltb_lt in E. rewrite Hv, (rng mem m Hc). pose proof (at_bound _ _ E A) as Bd.
        assert (Rd : m (addr + read) <> None).
        { destruct (Nat.eq_dec read (length s)) as [X|X].
          - destruct Hz as [Hz|Hz]; [lia|]. rewrite X, Hz. discriminate.
          - destruct (Is read) as (c & _ & C); [lia|]. congruence. }
        destruct (range_ok m remain (addr + read)) as (data & Er).
        { intros i Hi. apply (Hg (addr + read)); [symmetry; apply (same_page read remain); assumption|exact Rd]. }
        rewrite Er. destruct (range_some _ _ _ _ Er) as [Ld Id].
        assert (Ia : image m addr (buf ++ data)) by (apply image_app; [exact Ib|rewrite Lb; exact Id]).
        cbn zeta. destruct (has_null data) eqn:Nd.
        * cbn [fst]. pose proof (null_long m addr s (buf ++ data) Cs Ia) as NL. rewrite has_null_app, Nd, orb_true_r in NL. specialize (NL eq_refl).
          assert (Z : m (addr + length s) = Some 0%N).
          { destruct Hz as [Hz|Hz]; [|exact Hz]. apply has_null_iff in Nd. destruct Nd as (i & Ei).
            assert (Hi : i < length data) by (apply nth_error_Some; congruence). destruct (Id i Hi) as (c & C1 & C2).
            assert (c = 0%N) by congruence. subst c.
            destruct (lt_dec (read + i) (length s)) as [Y|Y].
            - destruct (Cs _ Y) as (d & _ & D & Dn). rewrite Nat.add_assoc in D. congruence.
            - replace (length s) with (read + i) by (rewrite Hz in *; rewrite app_length in NL; lia). rewrite Nat.add_assoc. exact C2. }
          rewrite (cstr_string m addr s _ Cs Z Ia NL). split; [reflexivity|].
          intros c o n [H|[H|[]]]; [discriminate|injection H as <- <- <-; exact Bd].
        * assert (Nn : has_null (buf ++ data) = false) by (rewrite has_null_app, Nb, Nd; reflexivity).
          specialize (IH (S k) (read + remain) _ (buf ++ data) ltac:(destruct (A E) as (A1 & _); lia) ltac:(lia) (at_next _ _ E A) Ia ltac:(rewrite app_length; lia) Nn).
          assert (Hr' : read + remain <= length s \/ length s = max).
          { destruct Hz as [Hz|Hz]; [right; exact Hz|left]. pose proof (no_null_short m addr s _ Cs Hz Ia Nn) as X. rewrite app_length in X. lia. }
          specialize (IH Hr'). destruct (loop f (S k) (read + remain) _ (buf ++ data)) as [[ev' r] p]. cbn [fst] in *.
          destruct IH as [I1 I2]. injection I1 as I1. split; [rewrite I1; reflexivity|].
          intros c o n [H|[H|H]]; [discriminate|injection H as <- <- <-; exact Bd|exact (I2 _ _ _ H)].
      + apply Nat.ltb_ge in E. cbn [fst]. assert (L : length s = max) by (destruct Hr as [Hr|Hr]; lia).
        assert (F : firstn max buf = s).
        { apply (image_det m addr); [apply image_firstn; exact Ib|exact Is|]. rewrite firstn_length. lia. }
        rewrite F, (cstr_id s Ns). split; [reflexivity|]. intros c o n [H|[]]. injection H as <- <- <-. lia.
  Qed.
  Variable q : nat.
  Hypothesis Hw : 0 < word.
  Hypothesis Hq : block = q * word.
  Lemma loop_cut : forall s, addr <> 0 -> cut_off m addr s -> length s < max -> length s <= block -> block <= max ->
    forall fuel k read remain buf, max < read + fuel -> at_page read remain -> image m addr buf -> length buf = read ->
    read <= length s ->
    fst (loop fuel k read remain buf) = (fst (fst (loop fuel k read remain buf)), None)
    /\ in_bounds (fst (fst (loop fuel k read remain buf))).
  Proof.
    intros s Ha (Cs & Cz) Lm Lb Bm. destruct (chars_image _ _ _ Cs) as [Is Ns].
    induction fuel as [|f IH]; intros k read remain buf Hf A Ib Lbuf Hr; [lia|].
    cbn [readv_loop]. assert (E : read <? max = true) by (apply Nat.ltb_lt; lia). rewrite E. apply Nat.ltb_lt in E.
    rewrite Hv, (rng mem m Hc). pose proof (at_bound _ _ E A) as Bd. destruct (A E) as (A1 & _ & _).
    destruct (Nat.eq_dec read (length s)) as [X|X].
    - rewrite (range_none m remain (addr + read) 0) by (try exact A1; rewrite Nat.add_0_r, X; exact Cz).
      unfold peekdata. apply Nat.eqb_neq in Ha. rewrite Ha.
      destruct (peek_cut mem word junk addr max Hw q Hq m Hc s (conj Cs Cz) Lb Bm (max + block + 2) (S k) 0 []) as [P1 P2];
        [lia|exists 0; reflexivity|lia|intros i Hi; cbn in Hi; lia|reflexivity|].
      destruct (readstr_peekdata mem word junk addr max (max + block + 2) (S k) block 0 []) as [ev' r]. cbn [fst snd] in *. subst r.
      split; [reflexivity|]. intros c o n [H|H]; [discriminate|exact (P2 _ _ _ H)].
    - assert (Rd : m (addr + read) <> None). { destruct (Is read) as (c & _ & C); [lia|]. congruence. }
      destruct (range_ok m remain (addr + read)) as (data & Er).
      { intros i Hi. apply (Hg (addr + read)); [symmetry; apply (same_page read remain); assumption|exact Rd]. }
      rewrite Er. destruct (range_some _ _ _ _ Er) as [Ld Id].
      assert (Sh : read + remain <= length s).
      { destruct (le_lt_dec (read + remain) (length s)) as [Y|Y]; [exact Y|]. exfalso.
        destruct (Id (length s - read)) as (c & _ & C); [lia|]. replace (addr + read + (length s - read)) with (addr + length s) in C by lia. congruence. }
      assert (Ia : image m addr (buf ++ data)) by (apply image_app; [exact Ib|rewrite Lbuf; exact Id]).
      assert (Nd : has_null data = false).
      { destruct (has_null data) eqn:Nd; [|reflexivity]. pose proof (null_long m addr s (buf ++ data) Cs Ia) as NL.
        rewrite has_null_app, Nd, orb_true_r in NL. specialize (NL eq_refl). rewrite app_length in NL. lia. }
      cbn zeta. rewrite Nd.
      specialize (IH (S k) (read + remain) _ (buf ++ data) ltac:(lia) (at_next _ _ E A) Ia ltac:(rewrite app_length; lia) Sh).
      destruct (loop f (S k) (read + remain) _ (buf ++ data)) as [[ev' r] p]. cbn [fst] in *.
      destruct IH as [I1 I2]. injection I1 as I1. split; [rewrite I1; reflexivity|].
      intros c o n [H|[H|H]]; [discriminate|injection H as <- <- <-; exact Bd|exact (I2 _ _ _ H)].
  Qed.
End Readv.

(** ** Theorems *)
(** Every memory is of one of three kinds, as far as the first n bytes go. *)
Theorem three_cases : forall m a n,
  (exists s, string_at m a s /\ length s < n) \/ (exists s, cut_off m a s /\ length s < n) \/ (exists s, chars m a s /\ length s = n).
Proof.
  intros m a n. revert a. induction n as [|n IH]; intro a; [right; right; exists []; split; [intros i H; cbn in H; lia|reflexivity]|].
  destruct (m a) as [c|] eqn:E.
  - destruct (N.eq_dec c 0) as [Z|Z].
    + left. exists []. split; [split; [intros i H; cbn in H; lia|cbn [length]; rewrite Nat.add_0_r; congruence]|cbn; lia].
    + assert (K : forall s, chars m (S a) s -> chars m a (c :: s)).
      { intros s C [|i] H; [exists c; rewrite Nat.add_0_r; split; [reflexivity|split; assumption]|].
        destruct (C i) as (d & D1 & D2 & D3); [cbn [length] in H; lia|]. exists d. split; [exact D1|]. split; [rewrite <- D2; f_equal; lia|exact D3]. }
      assert (Sz : forall s, a + length (c :: s) = S a + length s) by (intros; cbn [length]; lia).
      destruct (IH (S a)) as [(s & (C & Zs) & L)|[(s & (C & Zs) & L)|(s & C & L)]].
      * left. exists (c :: s). split; [split; [apply K; exact C|rewrite Sz; exact Zs]|cbn [length]; lia].
      * right. left. exists (c :: s). split; [split; [apply K; exact C|rewrite Sz; exact Zs]|cbn [length]; lia].
      * right. right. exists (c :: s). split; [apply K; exact C|cbn [length]; lia].
  - right. left. exists []. split; [split; [intros i H; cbn in H; lia|cbn [length]; rewrite Nat.add_0_r; exact E]|cbn; lia].
Qed.
Theorem readstr_safe : forall mem vm_ok word junk addr max page use q,
  0 < word -> block = q * word -> fits word max -> 0 < page <= S max ->
  in_bounds (fst (fst (readstr mem vm_ok word junk addr max page use))).
Proof.
  intros mem vm_ok word junk addr max page use q Hw Hq F [Hp Hpm]. unfold readstr. destruct (addr =? 0); [intros c o n []|].
  pose proof (peekdata_safe mem word junk addr max Hw q Hq F) as Pk. destruct use.
  - specialize (Pk 0). destruct (peekdata mem word junk addr max 0) as [ev r]. exact Pk.
  - apply loop_safe; [exact Hp|exact Hpm|exact Pk|apply at_start; assumption].
Qed.
Theorem readv_safe : forall mem vm_ok word junk addr max page,
  0 < page <= S max -> (forall k, in_bounds (fst (peekdata mem word junk addr max k))) ->
  in_bounds (fst (fst (readstr mem vm_ok word junk addr max page false))).
Proof.
  intros mem vm_ok word junk addr max page [Hp Hpm] Pk. unfold readstr. destruct (addr =? 0); [intros c o n []|].
  apply loop_safe; [exact Hp|exact Hpm|exact Pk|apply at_start; assumption].
Qed.
Theorem readstr_string : forall mem vm_ok word junk addr max page m s,
  0 < page <= S max -> constant mem m -> paged page m -> (forall k, vm_ok k = true) -> addr <> 0 ->
  chars m addr s -> length s <= max -> length s = max \/ m (addr + length s) = Some 0%N ->
  snd (fst (readstr mem vm_ok word junk addr max page false)) = Some s
  /\ in_bounds (fst (fst (readstr mem vm_ok word junk addr max page false))).
Proof.
  intros mem vm_ok word junk addr max page m s [Hp Hpm] Hc Hg Hv Ha Cs Lm Hz. unfold readstr. apply Nat.eqb_neq in Ha. rewrite Ha.
  destruct (loop_string mem vm_ok word junk addr max page Hp Hpm m Hc Hv Hg s Cs Lm Hz (S max) 0 0 (page - addr mod page) []) as [A C];
    [lia|lia|apply at_start; assumption|intros i H; cbn in H; lia|reflexivity|reflexivity|left; lia|].
  split; [rewrite A; reflexivity|exact C].
Qed.
Theorem readstr_cut : forall mem vm_ok word junk addr max page m s q,
  0 < page <= S max -> 0 < word -> block = q * word -> constant mem m -> paged page m -> (forall k, vm_ok k = true) -> addr <> 0 ->
  cut_off m addr s -> length s < max -> length s <= block -> block <= max ->
  snd (fst (readstr mem vm_ok word junk addr max page false)) = None
  /\ in_bounds (fst (fst (readstr mem vm_ok word junk addr max page false))).
Proof.
  intros mem vm_ok word junk addr max page m s q [Hp Hpm] Hw Hq Hc Hg Hv Ha Cs Lm Lb Bm. unfold readstr. pose proof Ha as Ha'. apply Nat.eqb_neq in Ha'. rewrite Ha'.
  destruct (loop_cut mem vm_ok word junk addr max page Hp Hpm m Hc Hv Hg q Hw Hq s Ha Cs Lm Lb Bm (S max) 0 0 (page - addr mod page) []) as [A C];
    [lia|apply at_start; assumption|intros i H; cbn in H; lia|reflexivity|lia|].
  split; [rewrite A; reflexivity|exact C].
Qed.
Theorem readv_pages : forall mem vm_ok word junk addr max page a n, 0 < page <= S max ->
  In (Ask a n) (fst (fst (readstr mem vm_ok word junk addr max page false))) ->
  (n = 0 \/ a / page = (a + n - 1) / page) \/ exists j, In (Ask a n) (fst (peekdata mem word junk addr max j)).
Proof.
  intros mem vm_ok word junk addr max page a n [Hp Hpm]. unfold readstr. destruct (addr =? 0); [intros []|].
  apply loop_pages; [exact Hp|exact Hpm|apply at_start; assumption].
Qed.

(** ** From Python: 4 KiB pages, the judge's limit of 4096 bytes. *)
Section Py.
  Variables (mem : memory) (vm_ok : nat -> bool) (word : nat) (junk : nat -> N) (m : nat -> option N) (a : nat).
  Hypothesis Hw : word = 4 \/ word = 8.
  Hypothesis Hc : constant mem m.
  Hypothesis Hg : paged block m.
  Hypothesis Hv : forall k, vm_ok k = true.
  Hypothesis Ha : a <> 0.
  Lemma block_range : 0 < block <= S (S block).
  Proof. unfold block. lia. Qed.
  Lemma word_divides : 0 < word /\ exists q, block = q * word.
  Proof. destruct Hw as [->| ->]; (split; [lia|]); [exists (N.to_nat 1024)|exists (N.to_nat 512)]; vm_compute; reflexivity. Qed.
  Theorem py_string : forall s, string_at m a s -> length s <= block -> py_readstr mem vm_ok word junk block false false a block = PyStr s.
  Proof.
    intros s (Cs & Cz) L. unfold py_readstr.
    destruct (readstr_string mem vm_ok word junk a (S block) block m s block_range Hc Hg Hv Ha Cs ltac:(lia) (or_intror Cz)) as [E _].
    destruct (readstr mem vm_ok word junk a (S block) block false) as [[ev r] p]. cbn [fst snd] in E. subst r.
    assert (X : block <? length s = false) by (apply Nat.ltb_ge; exact L). rewrite X. reflexivity.
  Qed.
  Theorem py_long : forall s, chars m a s -> length s = S block -> py_readstr mem vm_ok word junk block false false a block = TooLong.
  Proof.
    intros s Cs L. unfold py_readstr.
    destruct (readstr_string mem vm_ok word junk a (S block) block m s block_range Hc Hg Hv Ha Cs ltac:(lia) (or_introl L)) as [E _].
    destruct (readstr mem vm_ok word junk a (S block) block false) as [[ev r] p]. cbn [fst snd] in E. subst r.
    assert (X : block <? length s = true) by (apply Nat.ltb_lt; lia). rewrite X. reflexivity.
  Qed.
  Theorem py_cut : forall s, cut_off m a s -> length s <= block -> py_readstr mem vm_ok word junk block false false a block = PyNone.
  Proof.
    intros s Cs L. unfold py_readstr. destruct word_divides as (W & q & Hq).
    destruct (readstr_cut mem vm_ok word junk a (S block) block m s q block_range W Hq Hc Hg Hv Ha Cs ltac:(lia) L ltac:(lia)) as [E _].
    destruct (readstr mem vm_ok word junk a (S block) block false) as [[ev r] p]. cbn [fst snd] in E. subst r. reflexivity.
  Qed.
  Theorem py_bounds : in_bounds (fst (fst (readstr mem vm_ok word junk a (S block) block false))).
  Proof.
    destruct word_divides as (W & q & Hq). destruct (three_cases m a (S block)) as [(s & (C & Z) & L)|[(s & C & L)|(s & C & L)]].
    - apply (readstr_string mem vm_ok word junk a (S block) block m s); try assumption; [exact block_range|lia|right; exact Z].
    - apply (readstr_cut mem vm_ok word junk a (S block) block m s q); try assumption; [exact block_range|lia|lia].
    - apply (readstr_string mem vm_ok word junk a (S block) block m s); try assumption; [exact block_range|lia|left; exact L].
  Qed.
  (** Word by word: the string, or nothing where its last word is unreadable. *)
  Theorem peek_py : forall s, string_at m a s -> length s < block ->
    (py_readstr mem vm_ok word junk block true false a block = PyStr s \/ py_readstr mem vm_ok word junk block true false a block = PyNone)
    /\ ((forall i, i < length s + word -> m (a + i) <> None) -> py_readstr mem vm_ok word junk block true false a block = PyStr s)
    /\ in_bounds (fst (fst (readstr mem vm_ok word junk a (S block) block true))).
  Proof.
    intros s Cs L. unfold py_readstr, readstr, peekdata. pose proof Ha as Ha'. apply Nat.eqb_neq in Ha'. rewrite Ha'. destruct word_divides as (W & q & Hq).
    destruct (peek_string mem word junk a (S block) W q Hq m Hc s Cs L ltac:(lia) (S block + block + 2) 0 0 []) as (P1 & P2 & P3);
      [lia|exists 0; reflexivity|lia|intros i H; cbn in H; lia|reflexivity|].
    destruct (readstr_peekdata mem word junk a (S block) (S block + block + 2) 0 block 0 []) as [ev r]. cbn [fst snd] in *.
    assert (X : block <? length s = false) by (apply Nat.ltb_ge; lia). split.
    - destruct P1 as [->| ->]; [right; reflexivity|left; rewrite X; reflexivity].
    - split; [|exact P3]. intro R. rewrite (P2 R), X. reflexivity.
  Qed.
End Py.
Theorem py_null : forall mem vm_ok word junk page use max, py_readstr mem vm_ok word junk page use false 0 max = PyNone.
Proof. reflexivity. Qed.
(** A 32-bit program's pointer is cut to its low 32 bits. *)
Theorem py_32 : forall mem vm_ok word junk page use max a,
  py_readstr mem vm_ok word junk page use true (N.to_nat a) max = py_readstr mem vm_ok word junk page use false (N.to_nat (a mod 2 ^ 32)%N) max.
Proof.
  intros. unfold py_readstr. rewrite N2Nat.id. change 0xFFFFFFFF%N with (N.ones 32). rewrite N.land_ones. reflexivity.
Qed.

(** ** Where it goes wrong *)
Definition letters (k a : nat) : option N := Some 97%N.
(** process_vm_readv unavailable: a path of 4096 bytes or more is read word by word, past the allocation. *)
Theorem peek_overruns : ~ in_bounds (fst (fst (readstr letters (fun _ => false) 8 (fun _ => 0%N) 1 (S block) block false))).
Proof.
  intro H. set (ev := fst (fst (readstr letters (fun _ => false) 8 (fun _ => 0%N) 1 (S block) block false))) in H.
  assert (E : existsb (fun e => match e with Write c o n => c <? o + n | Ask _ _ => false end) ev = true) by (vm_compute; reflexivity).
  apply existsb_exists in E. destruct E as ([c o n|x y] & I & L); [|discriminate]. apply Nat.ltb_lt in L. specialize (H _ _ _ I). lia.
Qed.
(** 64 KiB pages: the first read alone is larger than the buffer. *)
Theorem big_page_overruns : ~ in_bounds (fst (fst (readstr letters (fun _ => true) 8 (fun _ => 0%N) 1 (S block) (N.to_nat 65536) false))).
Proof.
  intro H. set (ev := fst (fst (readstr letters (fun _ => true) 8 (fun _ => 0%N) 1 (S block) (N.to_nat 65536) false))) in H.
  assert (E : existsb (fun e => match e with Write c o n => c <? o + n | Ask _ _ => false end) ev = true) by (vm_compute; reflexivity).
  apply existsb_exists in E. destruct E as ([c o n|x y] & I & L); [|discriminate]. apply Nat.ltb_lt in L. specialize (H _ _ _ I). lia.
Qed.

Lemma readv_later mem vm_ok word junk addr max page fuel : forall k rd rem buf, 0 < rd ->
  snd (readv_loop mem vm_ok word junk addr max page fuel k rd rem buf) = false.
Proof.
  induction fuel as [|f IH]; intros k rd rem buf P; [reflexivity|]. cbn [readv_loop]. destruct (rd <? max); [|reflexivity].
  destruct (if vm_ok k then _ else _) as [data|].
  - destruct (has_null data); [reflexivity|]. specialize (IH (S k) (rd + rem) (if page <? max - (rd + rem) then page else max - (rd + rem)) (buf ++ data) ltac:(lia)).
    destruct (readv_loop _ _ _ _ _ _ _ _ _ _ _ _) as [[ev r] p]. exact IH.
  - destruct (peekdata _ _ _ _ _ _) as [ev r]. cbn. rewrite (proj2 (Nat.eqb_neq rd 0)) by lia. reflexivity.
Qed.
Lemma gives_up mem vm_ok word junk addr max page : 0 < page -> 0 < max -> addr <> 0 ->
  let '(_, r, gone) := readstr mem vm_ok word junk addr max page false in
  gone = true <-> r <> None /\ (if vm_ok 0 then range (mem 0) addr (page - addr mod page) else None) = None.
Proof.
  intros P M A. unfold readstr. rewrite (proj2 (Nat.eqb_neq addr 0) A).
  assert (0 < page - addr mod page) as Q. { pose proof (Nat.mod_upper_bound addr page ltac:(lia)). lia. }
  set (rem := page - addr mod page) in *. clearbody rem. cbn [readv_loop]. rewrite (proj2 (Nat.ltb_lt 0 max) M), Nat.add_0_r.
  destruct (if vm_ok 0 then range (mem 0) addr rem else None) as [data|].
  - destruct (has_null data); [split; [discriminate|intros [_ X]; discriminate X]|].
    pose proof (readv_later mem vm_ok word junk addr max page max 1 (0 + rem) (if page <? max - (0 + rem) then page else max - (0 + rem)) ([] ++ data) ltac:(lia)) as L.
    destruct (readv_loop _ _ _ _ _ _ _ _ _ _ _ _) as [[ev r] p]. cbn in L. subst p. split; [discriminate|intros [_ X]; discriminate X].
  - destruct (peekdata _ _ _ _ _ _) as [ev r]. cbn [Nat.eqb andb]. destruct r; split; try discriminate; try (intros [X _]; contradiction X; reflexivity); auto.
    intros _. split; [discriminate|reflexivity].
Qed.
