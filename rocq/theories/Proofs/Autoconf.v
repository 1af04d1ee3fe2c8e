(** Proofs about auto-configuration. *)
From Coq Require Import String Lia.
From Verif Require Import Model.Bytes Model.Paths Spec.Text Model.Autoconf Spec.Autoconf.
From Verif Require Import Proofs.BytesLemmas.
Local Open Scope list_scope.
Local Open Scope nat_scope.

(** ** dictionaries *)
Lemma value_put k v k' d : value k' (put k v d) = if beqb k' k then Some v else value k' d.
Proof.
  induction d as [|[a b] r IH]; cbn [put value].
  - destruct (beqb k' k); reflexivity.
  - destruct (beqb_spec k a) as [->|D]; cbn [value].
    + destruct (beqb k' a); reflexivity.
    + rewrite IH. destruct (beqb_spec k' a) as [->|D']; [|reflexivity].
      destruct (beqb_spec a k) as [E|_]; [destruct (D (eq_sym E))|reflexivity].
Qed.
Lemma value_del k k' d : value k' (del k d) = if beqb k k' then None else value k' d.
Proof.
  induction d as [|[a b] r IH]; cbn [del filter value].
  - destruct (beqb k k'); reflexivity.
  - cbn [fst]. destruct (beqb_spec k a) as [->|D]; cbn [negb].
    + unfold del in IH. rewrite IH. destruct (beqb_spec a k') as [->|D]; [reflexivity|].
      destruct (beqb_spec k' a) as [E|_]; [destruct (D (eq_sym E))|reflexivity].
    + cbn [value]. unfold del in IH. rewrite IH. destruct (beqb_spec k k') as [->|_]; [|reflexivity].
      destruct (beqb_spec k' a) as [E|_]; [destruct (D E)|reflexivity].
Qed.
Lemma put_keys k v d : map fst (put k v d) = if existsb (fun kv => beqb k (fst kv)) d then map fst d else map fst d ++ [k].
Proof.
  induction d as [|[a b] r IH]; [reflexivity|]. cbn [put existsb fst]. destruct (beqb k a); [reflexivity|]. cbn [map fst orb]. rewrite IH.
  destruct (existsb _ r); reflexivity.
Qed.
Lemma nodup_put k v d : NoDup (map fst d) -> NoDup (map fst (put k v d)).
Proof.
  intros H. rewrite put_keys. destruct (existsb _ d) eqn:E; [exact H|].
  assert (~ In k (map fst d)) as I.
  { intros I. apply in_map_iff in I as (kv & <- & I). rewrite <- Bool.not_true_iff_false in E. apply E. apply existsb_exists. exists kv. split; [exact I|apply beqb_refl]. }
  clear E. revert H I. generalize (map fst d). intros l. induction l as [|x l IH]; intros H I; cbn; [constructor; [auto|constructor]|].
  inversion H; subst. constructor; [|apply IH; [assumption|intros X; apply I; right; exact X]].
  rewrite in_app_iff. intros [X|[X|[]]]; [contradiction|]. subst. apply I. left. reflexivity.
Qed.
Lemma nodup_del k d : NoDup (map fst d) -> NoDup (map fst (del k d)).
Proof.
  induction d as [|[a b] r IH]; cbn; intros H; [constructor|]. inversion H; subst. destruct (negb (beqb k a)); cbn; [|auto].
  constructor; [|auto]. intros I. apply H2. apply in_map_iff in I as (kv & E & I). apply filter_In in I as [I _]. apply in_map_iff. exists kv. auto.
Qed.
Lemma value_none k d : ~ In k (map fst d) -> value k d = None.
Proof.
  induction d as [|[a b] r IH]; cbn; intros H; [reflexivity|]. destruct (beqb_spec k a) as [->|D]; [exfalso; apply H; left; reflexivity|].
  apply IH. intros I. apply H. right. exact I.
Qed.
Lemma value_in k d v : value k d = Some v -> In k (map fst d).
Proof.
  induction d as [|[a b] r IH]; cbn; intros H; [discriminate|]. destruct (beqb_spec k a) as [->|D]; [left; reflexivity|right; auto].
Qed.
Lemma value_update k new : forall d, NoDup (map fst new) ->
  value k (update d new) = match value k new with Some v => Some v | None => value k d end.
Proof.
  unfold update. induction new as [|[a b] r IH]; intros d H; [reflexivity|]. inversion H; subst. cbn [fold_left fst snd value].
  rewrite IH by assumption. rewrite value_put. destruct (beqb_spec k a) as [->|D].
  - rewrite (value_none a r); [reflexivity|assumption].
  - destruct (value k r); reflexivity.
Qed.
Lemma put_new k v d : ~ In k (map fst d) -> put k v d = d ++ [(k, v)].
Proof.
  induction d as [|[a b] r IH]; cbn; intros H; [reflexivity|]. destruct (beqb_spec k a) as [->|D]; [exfalso; apply H; left; reflexivity|].
  rewrite IH; [reflexivity|]. intros I. apply H. right. exact I.
Qed.

(** ** finding *)
Lemma slash_absolute p : starts_slash p = true <-> absolute p.
Proof.
  unfold absolute, starts_slash, is_slash, slash. destruct p as [|c r]; [split; [discriminate|intros (r & E); discriminate]|].
  destruct (N.eqb_spec c 47) as [->|D]; split; intros H; [exists r; reflexivity|reflexivity|discriminate|].
  destruct H as (r' & E). cbn in E. injection E as E _. contradiction.
Qed.
Lemma not_slash_absolute p : starts_slash p = false <-> ~ absolute p.
Proof. rewrite <- slash_absolute. destruct (starts_slash p); split; intros H; [destruct (H eq_refl)||discriminate|destruct (H eq_refl)||reflexivity|intros X; discriminate|reflexivity]. Qed.
Lemma join_form d p : starts_slash p = false -> join d p =
  match rev d with [] => p | c :: _ => if (c =? 47)%N then d ++ p else d ++ slash :: p end.
Proof.
  intros H. unfold join. rewrite H. unfold ends_slash, starts_slash, is_slash, slash.
  destruct d as [|c r]; [reflexivity|]. destruct (rev (c :: r)) as [|x y] eqn:E; [|reflexivity].
  apply (f_equal (@List.length _)) in E. rewrite rev_length in E. discriminate.
Qed.
Lemma join_in d p : starts_slash p = false -> in_dir d p (join d p).
Proof.
  intros H. rewrite (join_form d p H). unfold in_dir. destruct (rev d) as [|c r] eqn:E; apply (f_equal (@rev _)) in E; rewrite rev_involutive in E; cbn in E.
  - left. auto.
  - right. destruct (N.eqb_spec c 47) as [->|D].
    + left. exists (rev r). split; [exact E|reflexivity].
    + right. split; [subst d; intros X; destruct (rev r); discriminate|]. split; [|reflexivity].
      intros d' X. rewrite X in E. apply app_inj_tail in E as [_ E]. apply D. symmetry. exact E.
Qed.
Lemma in_one d p q : starts_slash p = false -> in_dir d p q -> q = join d p.
Proof.
  intros S0 H. rewrite (join_form d p S0). destruct (rev d) as [|c r] eqn:E; apply (f_equal (@rev _)) in E; rewrite rev_involutive in E; cbn in E.
  - destruct H as [[_ H]|[(d' & X & _)|(X & _)]]; [exact H| |destruct (X E)]. rewrite X in E. destruct d'; discriminate.
  - destruct H as [[X _]|[(d' & X & ->)|(_ & X & ->)]].
    + rewrite X in E. destruct (rev r); discriminate.
    + rewrite X in E. apply app_inj_tail in E as [_ E]. subst c. reflexivity.
    + destruct (N.eqb_spec c 47) as [->|D]; [exfalso; exact (X _ E)|reflexivity].
Qed.
Lemma acc_no_colon d : forall cur, ~ In 58%N d -> re_split_acc is_colon cur d = [rev cur ++ d].
Proof.
  induction d as [|c d IH]; intros cur H; cbn [re_split_acc]; [rewrite app_nil_r; reflexivity|].
  unfold is_colon at 1. destruct (N.eqb_spec c 58) as [->|D]; [exfalso; apply H; left; reflexivity|].
  rewrite IH; [cbn; rewrite <- app_assoc; reflexivity|]. intros I. apply H. right. exact I.
Qed.
Lemma acc_colon d r : forall cur, ~ In 58%N d -> re_split_acc is_colon cur (d ++ 58%N :: r) = (rev cur ++ d) :: re_split_acc is_colon [] r.
Proof.
  induction d as [|c d IH]; intros cur H; cbn [re_split_acc app]; [rewrite app_nil_r; reflexivity|].
  unfold is_colon at 1. destruct (N.eqb_spec c 58) as [->|D]; [exfalso; apply H; left; reflexivity|].
  rewrite IH; [cbn; rewrite <- app_assoc; reflexivity|]. intros I. apply H. right. exact I.
Qed.
Lemma split_dirs dirs : dirs <> [] -> (forall d, In d dirs -> ~ In 58%N d) -> re_split is_colon (with_colons dirs) = dirs.
Proof.
  intros Hn. destruct dirs as [|d r]; [destruct (Hn eq_refl)|]. clear Hn. revert d. induction r as [|e r IH]; intros d H.
  - cbn [with_colons]. unfold re_split. rewrite acc_no_colon; [reflexivity|]. apply H. left. reflexivity.
  - change (with_colons (d :: e :: r)) with (d ++ 58%N :: with_colons (e :: r)). unfold re_split. rewrite acc_colon by (apply H; left; reflexivity).
    cbn [rev app]. f_equal. apply IH. intros x I. apply H. right. exact I.
Qed.
Section Find.
Variable m : machine.
Variable dirs : list bytes.
Hypothesis Hd : directories m dirs.
Lemma first_file_spec name l :
  match first_file m (map (fun d => join d name) l) with
  | Some q => exists before d after, l = before ++ d :: after /\ q = join d name /\ isfile m q = true /\ forall d', In d' before -> isfile m (join d' name) = false
  | None => forall d, In d l -> isfile m (join d name) = false
  end.
Proof using.
  induction l as [|d l IH]; cbn [map first_file]; [intros d []|]. destruct (isfile m (join d name)) eqn:E.
  - exists [], d, l. split; [reflexivity|]. split; [reflexivity|]. split; [exact E|]. intros ? [].
  - destruct (first_file m (map (fun d => join d name) l)) as [q|].
    + destruct IH as (b & d' & a & -> & -> & Q & H). exists (d :: b), d', a. split; [reflexivity|]. split; [reflexivity|]. split; [exact Q|].
      intros x [<-|I]; [exact E|exact (H x I)].
    + intros x [<-|I]; [exact E|exact (IH x I)].
Qed.
Lemma find_executable_eq name : starts_slash name = false ->
  find_executable m name = if isfile m name then Some name else first_file m (map (fun d => join d name) dirs).
Proof using Hd.
  intros S0. unfold find_executable. destruct (isfile m name) eqn:F; [reflexivity|]. destruct Hd as (Hn & Hc & Hp).
  destruct (search_path m) as [|c r] eqn:E.
  - assert (dirs = [[]]) as ->.
    { destruct dirs as [|d [|e r]]; [destruct (Hn eq_refl)|cbn in Hp; subst; reflexivity|cbn in Hp; destruct d; discriminate]. }
    cbn [map first_file]. unfold join. rewrite S0. rewrite F. reflexivity.
  - rewrite Hp. rewrite split_dirs by assumption. reflexivity.
Qed.
Lemma found_one name p : found m dirs name p <->
  (if starts_slash name then (if exists_ m name then Some name else None)
   else match find_executable m name with Some q => Some (abspath m q) | None => None end) = Some p.
Proof using Hd.
  destruct (starts_slash name) eqn:S0.
  - assert (absolute name) as A by (apply slash_absolute; exact S0). destruct (exists_ m name) eqn:E; split; intros H.
    + destruct H as [_ _ ->|X _ _|? ? ? ? X _ _ _ _ _ _]; [reflexivity|destruct (X A)|destruct (X A)].
    + injection H as <-. apply AsNamed; auto.
    + exfalso. destruct H as [_ X _|X _ _|? ? ? ? X _ _ _ _ _ _]; [congruence|destruct (X A)|destruct (X A)].
    + discriminate.
  - assert (~ absolute name) as A by (apply not_slash_absolute; exact S0). rewrite (find_executable_eq name S0).
    destruct (isfile m name) eqn:F.
    + split; intros H.
      * destruct H as [X _ _|_ _ ->|? ? ? ? _ X _ _ _ _ _]; [destruct (A X)|reflexivity|congruence].
      * injection H as <-. apply Here; auto.
    + pose proof (first_file_spec name dirs) as G. destruct (first_file m _) as [q|].
      * destruct G as (b & d & a & E & -> & Q & G). split; intros H.
        -- destruct H as [X _ _|_ X _|b' d' a' q' _ _ E' I Q' G' ->]; [destruct (A X)|congruence|].
           assert (join d name = q') as ->; [|reflexivity]. rewrite (in_one _ _ _ S0 I) in *. clear I.
           assert (forall d', In d' b' -> isfile m (join d' name) = false) as G2.
           { intros x I. apply (G' x (join x name) I). apply join_in. exact S0. }
           clear G' Hd. rewrite E in E'. clear E. revert b' E' G2. induction b as [|x b IH]; intros [|y b'] E' G2; cbn in E'; injection E' as <- E'.
           ++ reflexivity.
           ++ rewrite (G2 d) in Q; [discriminate|left; reflexivity].
           ++ rewrite (G x) in Q'; [discriminate|left; reflexivity].
           ++ apply (IH (fun z I => G z (or_intror I)) b' E'). intros z I. apply G2. right. exact I.
        -- injection H as <-. apply (Along m dirs name _ b d a (join d name)); auto. { apply join_in; exact S0. }
           intros x q' I K. rewrite (in_one _ _ _ S0 K). apply G. exact I.
      * split; intros H; [|discriminate]. exfalso. destruct H as [X _ _|_ X _|b' d' a' q' _ _ E' I Q' G' ->]; [destruct (A X)|congruence|].
        rewrite (in_one _ _ _ S0 I) in Q'. rewrite (G d') in Q'; [discriminate|]. rewrite E'. apply in_or_app. right. left. reflexivity.
Qed.
Theorem find_resolves names p : find_command_from_list m names = Some p <-> resolves m dirs names p.
Proof using Hd.
  unfold resolves. induction names as [|f r IH].
  - split; [discriminate|]. intros (b & n & a & E & _). destruct b; discriminate.
  - cbn [find_command_from_list].
    assert (find_command_from_list m (f :: r) = match (if starts_slash f then (if exists_ m f then Some f else None)
      else match find_executable m f with Some q => Some (abspath m q) | None => None end) with Some q => Some q | None => find_command_from_list m r end) as E0.
    { cbn. destruct (starts_slash f); [destruct (exists_ m f)|destruct (find_executable m f)]; reflexivity. }
    cbn [find_command_from_list] in E0. rewrite E0. clear E0. pose proof (found_one f) as K.
    destruct (if starts_slash f then _ else _) as [q|].
    + split; intros H.
      * injection H as <-. exists [], f, r. split; [reflexivity|]. split; [apply K; reflexivity|]. intros ? ? [].
      * destruct H as (b & n & a & E & F & G). destruct b as [|x b]; cbn in E; injection E as <- E.
        -- apply K in F. exact F.
        -- exfalso. apply (G f q); [left; reflexivity|]. apply K. reflexivity.
    + rewrite IH. split; intros (b & n & a & E & F & G).
      * exists (f :: b), n, a. split; [rewrite E; reflexivity|]. split; [exact F|]. intros x q [<-|I]; [|apply G; exact I].
        intros X. apply K in X. discriminate.
      * destruct b as [|x b]; cbn in E; injection E as <- E.
        -- apply K in F. discriminate.
        -- exists b, n, a. split; [exact E|]. split; [exact F|]. intros y q I. apply G. right. exact I.
Qed.
Lemma find_all_spec mp : forall acc, NoDup (map fst acc ++ map fst mp) -> forall cfg,
  find_all m mp acc = inl cfg <-> exists new, cfg = acc ++ new /\ assembled m dirs mp new.
Proof using Hd.
  unfold assembled. induction mp as [|[k fs] mp IH]; intros acc Hn cfg; cbn [find_all].
  - split; [intros H; injection H as <-; exists []; split; [rewrite app_nil_r; reflexivity|constructor]|].
    intros (new & -> & H). inversion H. rewrite app_nil_r. reflexivity.
  - assert (~ In k (map fst acc)) as Nk.
    { intros I. cbn in Hn. apply NoDup_remove_2 in Hn. apply Hn. apply in_or_app. left. exact I. }
    destruct (find_command_from_list m fs) as [p|] eqn:E.
    + rewrite (put_new _ _ _ Nk). rewrite IH.
      * split; intros (new & -> & H).
        -- exists ((k, Str p) :: new). split; [rewrite <- app_assoc; reflexivity|]. constructor; [|exact H].
           split; [reflexivity|]. exists p. split; [reflexivity|]. apply find_resolves. exact E.
        -- inversion H as [|? [k' v] ? new' (E1 & p' & E2 & R) H']; subst. cbn in E1, E2. subst k' v. exists new'. split; [|exact H'].
           apply find_resolves in R. cbn in R. rewrite R in E. injection E as ->. rewrite <- app_assoc. reflexivity.
      * rewrite map_app. cbn. rewrite <- app_assoc. exact Hn.
    + split; [discriminate|]. intros (new & -> & H). inversion H as [|? [k' v] ? new' (E1 & p' & E2 & R) H']; subst.
      apply find_resolves in R. cbn in R. rewrite R in E. discriminate.
Qed.
Lemma assembled_keys mp cfg : assembled m dirs mp cfg -> map fst cfg = map fst mp.
Proof using. induction 1 as [|x y l l' (E & _) H IH]; cbn; [reflexivity|]. rewrite E, IH. reflexivity. Qed.

Theorem base_works mp pass cfg : NoDup (map fst mp) ->
  works m {| how := First (Some mp); passes_with := pass |} cfg <-> assembled m dirs mp cfg /\ pass cfg = true.
Proof using Hd.
  intros Hn. unfold works, autoconfig. cbn [how passes_with find_first]. pose proof (find_all_spec mp [] Hn) as K. cbn [app] in K.
  destruct (find_all m mp []) as [r|k].
  - unfold run_test. destruct (pass r) eqn:P; split.
    + intros (msg & H). injection H as <- _. split; [|exact P]. destruct (proj1 (K r) eq_refl) as (n & -> & H). exact H.
    + intros (H & P'). assert (inl r = inl cfg :> config + bytes) as X by (apply K; exists cfg; auto). injection X as ->. eexists. reflexivity.
    + intros (msg & H). discriminate.
    + intros (H & P'). assert (inl r = inl cfg :> config + bytes) as X by (apply K; exists cfg; auto). injection X as ->. congruence.
  - split; [intros (msg & H); discriminate|]. intros (H & P). assert (inr k = inl cfg :> config + bytes) as X by (apply K; exists cfg; auto). discriminate.
Qed.
Theorem gcc_works arch mp pass cfg : NoDup (arch :: map fst mp) ->
  works m {| how := Gcc arch (Some mp); passes_with := pass |} cfg <->
  exists found, assembled m dirs mp found /\
    ((pass (found ++ [(arch, Str (B "native"))]) = true /\ cfg = found) \/
     (pass (found ++ [(arch, Str (B "native"))]) = false /\ pass (found ++ [(arch, Null)]) = true /\ cfg = found ++ [(arch, Null)])).
Proof using Hd.
  intros Hn. inversion Hn as [|? ? Na Hn']; subst. unfold works, autoconfig. cbn [how passes_with find_first].
  pose proof (find_all_spec mp [] Hn') as K. cbn [app] in K.
  assert (forall r, map fst r = map fst mp -> put arch (Str (B "native")) r = r ++ [(arch, Str (B "native"))] /\
    put arch Null (put arch (Str (B "native")) r) = r ++ [(arch, Null)] /\ del arch (put arch (Str (B "native")) r) = r) as F.
  { intros r E. assert (~ In arch (map fst r)) as N0 by (rewrite E; exact Na). rewrite (put_new _ _ _ N0). split; [reflexivity|]. clear E K.
    induction r as [|[a b] r IH]; cbn [app put del filter fst].
    - rewrite beqb_refl. cbn. split; reflexivity.
    - destruct (beqb_spec arch a) as [->|D]; [exfalso; apply N0; left; reflexivity|].
      destruct IH as [I1 I2]; [intros I; apply N0; right; exact I|]. rewrite I1. split; [reflexivity|]. unfold del in I2 |- *. cbn [filter fst]. destruct (beqb_spec arch a) as [X|_]; [destruct (D X)|]. cbn [negb]. rewrite I2. reflexivity. }
  destruct (find_all m mp []) as [r|k].
  - destruct (proj1 (K r) eq_refl) as (n & E & A). subst n. destruct (F r (assembled_keys _ _ A)) as (F1 & F2 & F3).
    unfold gcc_run_test. cbv zeta. rewrite F2, F3, F1. split.
    + intros (msg & H). exists r. split; [exact A|]. destruct (pass (r ++ [(arch, Str (B "native"))])) eqn:P1; [left; injection H as <- _; auto|].
      destruct (pass (r ++ [(arch, Null)])) eqn:P2; [right; injection H as <- _; auto|discriminate].
    + intros (r' & A' & H). assert (inl r = inl r' :> config + bytes) as X by (apply K; exists r'; auto). injection X as <-.
      destruct H as [(P1 & ->)|(P1 & P2 & ->)]; rewrite P1; [eexists; reflexivity|]. rewrite P2. eexists. reflexivity.
  - split; [intros (msg & H); discriminate|]. intros (r' & A' & H). assert (inr k = inl r' :> config + bytes) as X by (apply K; exists r'; auto). discriminate.
Qed.

(** ** Launchers *)
Lemma starts_iff p s : starts_with p s = true <-> exists b, s = p ++ b.
Proof using.
  revert s. induction p as [|c p IH]; intros s; cbn [starts_with].
  - split; [exists s; reflexivity|reflexivity].
  - destruct s as [|d s]; [split; [discriminate|intros (b & E); discriminate E]|].
    rewrite Bool.andb_true_iff, N.eqb_eq, IH. split.
    + intros (-> & b & ->). exists b. reflexivity.
    + intros (b & [= -> ->]). split; [reflexivity|]. exists b. reflexivity.
Qed.
Lemma has_iff p s : contains p s = true <-> has p s.
Proof using.
  unfold has. induction s as [|c s IH]; cbn [contains].
  - rewrite Bool.orb_false_r, starts_iff. split; intros H.
    + destruct H as (b & E). exists [], b. exact E.
    + destruct H as (a & b & E). destruct a; [exists b; exact E|discriminate E].
  - rewrite Bool.orb_true_iff, starts_iff, IH. split.
    + intros [(b & E)|(a & b & E)]; [exists [], b; exact E|exists (c :: a), b; cbn; congruence].
    + intros ([|x a] & b & E); [left; exists b; exact E|]. injection E as _ E. right. exists a, b. exact E.
Qed.
Lemma lstripped s : exists signs, s = signs ++ lstrip_plus s /\ Forall (fun c => c = 43%N \/ c = 32%N) signs /\
  forall c r, lstrip_plus s = c :: r -> c <> 43%N /\ c <> 32%N.
Proof using.
  induction s as [|c s (g & E & F & H)]; [exists []; split; [reflexivity|]; split; [constructor|intros c r X; discriminate X]|].
  cbn [lstrip_plus]. destruct (N.eqb_spec c 43) as [->|A]; [|destruct (N.eqb_spec c 32) as [->|C]]; cbn [orb].
  - exists (43%N :: g). split; [cbn; congruence|]. split; [constructor; auto|exact H].
  - exists (32%N :: g). split; [cbn; congruence|]. split; [constructor; auto|exact H].
  - exists []. split; [reflexivity|]. split; [constructor|]. intros d r [= <- <-]. split; assumption.
Qed.
Lemma lstrip_one signs cmd : Forall (fun c => c = 43%N \/ c = 32%N) signs -> (forall c r, cmd = c :: r -> c <> 43%N /\ c <> 32%N) ->
  lstrip_plus (signs ++ cmd) = cmd.
Proof using.
  intros F H. induction F as [|c g Hc F IH]; cbn [app].
  - destruct cmd as [|c r]; [reflexivity|]. cbn [lstrip_plus]. destruct (H c r eq_refl) as [A C].
    apply N.eqb_neq in A, C. rewrite A, C. reflexivity.
  - cbn [lstrip_plus]. destruct Hc as [-> | ->]; cbn [N.eqb Pos.eqb orb]; exact IH.
Qed.
Lemma last_filter {A} (f : A -> bool) l d x : filter f l <> [] -> last (filter f l) d = x <-> filter f l <> [] /\
  exists before after, l = before ++ x :: after /\ f x = true /\ forall y, In y after -> f y = false.
Proof using.
  intros Hn. assert (forall l, filter f l = [] -> forall y, In y l -> f y = false) as Fn.
  { clear. intros l. induction l as [|a l IH]; [intros _ y []|]. cbn. destruct (f a) eqn:Ea; [discriminate|]. intros H y [<-|I]; [exact Ea|exact (IH H y I)]. }
  split.
  - intros E. split; [exact Hn|]. revert Hn E. induction l as [|a l IH]; [intros X; destruct (X eq_refl)|]. cbn [filter]. destruct (f a) eqn:Ea.
    + intros _. destruct (filter f l) as [|b r] eqn:El.
      * cbn. intros <-. exists [], l. split; [reflexivity|]. split; [exact Ea|exact (Fn l El)].
      * intros E. destruct (IH ltac:(discriminate)) as (p & q & -> & H); [exact E|]. exists (a :: p), q. auto.
    + intros Hn E. destruct (IH Hn E) as (p & q & -> & H). exists (a :: p), q. auto.
  - intros (_ & p & q & -> & Fx & H). rewrite filter_app. cbn [filter]. rewrite Fx.
    assert (filter f q = []) as ->.
    { clear - H. induction q as [|a q IH]; [reflexivity|]. cbn. rewrite (H a (or_introl eq_refl)). apply IH. intros y I. apply H. right. exact I. }
    apply last_last.
Qed.
Lemma last_with_iff marker out ws : last_command marker out ws <-> exists line, last_with marker out = Some line /\ ws = words (lstrip_plus line).
Proof using.
  unfold last_command, last_with. rewrite re_split_cut.
  assert (cut (fun c => (c =? 10)%N) out = cut (N.eqb 10) out) as -> by (apply cut_ext; intros c; apply N.eqb_sym).
  destruct (filter (contains marker) (cut (N.eqb 10) out)) as [|a r] eqn:E.
  - split; [|intros (l & X & _); discriminate X]. intros (b & line & af & g & c & C & Hm & _). exfalso.
    assert (In line (filter (contains marker) (cut (N.eqb 10) out))) as I; [|rewrite E in I; exact I].
    apply filter_In. split; [rewrite C; apply in_or_app; right; left; reflexivity|apply has_iff, Hm].
  - assert (filter (contains marker) (cut (N.eqb 10) out) <> []) as Hn by congruence.
    pose proof (fun x => last_filter (contains marker) (cut (N.eqb 10) out) [] x Hn) as L. rewrite E in L. split.
    + intros (b & line & af & g & c & C & Hm & Ha & -> & F & Hc & ->). exists (g ++ c). split.
      * f_equal. apply L. split; [discriminate|]. exists b, af. split; [exact C|]. split; [apply has_iff, Hm|].
        intros y I. destruct (contains marker y) eqn:Ey; [|reflexivity]. apply has_iff in Ey. destruct (Ha y I Ey).
      * rewrite (lstrip_one g c F Hc). reflexivity.
    + intros (line & [= El] & ->). apply L in El. destruct El as (_ & b & af & C & Hm & Ha).
      destruct (lstripped line) as (g & Eg & F & Hc). exists b, line, af, g, (lstrip_plus line).
      split; [exact C|]. split; [apply has_iff, Hm|]. split; [|auto]. intros l I Hl. apply has_iff in Hl. rewrite (Ha l I) in Hl. discriminate.
Qed.
Lemma skipn_cons {A} n (l : list A) x r : skipn n l = x :: r <-> exists pre, l = pre ++ x :: r /\ length pre = n.
Proof using.
  split.
  - intros E. exists (firstn n l). split; [rewrite <- E; symmetry; apply firstn_skipn|].
    apply firstn_length_le. destruct (Nat.le_gt_cases n (length l)) as [L|L]; [exact L|]. rewrite skipn_all2 in E by lia. discriminate E.
  - intros (pre & -> & <-). rewrite skipn_app, Nat.sub_diag, skipn_all. reflexivity.
Qed.
Theorem starter_works pass compiler launcher vm key marker flags skip drops cfg : NoDup [compiler; launcher; vm; key] ->
  (exists msg, starter_autoconfig m pass compiler launcher vm key marker flags skip drops = Data cfg true msg) <->
  exists c java options, resolves m dirs [compiler] c /\ launched m dirs launcher marker flags skip java options /\
    cfg = [(compiler, Str c); (vm, Str java); (key, Strs (filter (fun a => negb (drops a)) options))] /\ pass cfg = true.
Proof using Hd.
  intros Hn. assert (D : compiler <> launcher /\ compiler <> vm /\ compiler <> key /\ launcher <> vm /\ launcher <> key /\ vm <> key).
  { rewrite !NoDup_cons_iff in Hn. cbn [In] in Hn. intuition congruence. }
  destruct D as (D1 & D2 & D3 & D4 & D5 & D6).
  assert (F : forall c s java (l : list bytes), value launcher [(compiler, Str c); (launcher, Str s)] = Some (Str s) /\
     put key (Strs l) (put vm (Str java) (del launcher [(compiler, Str c); (launcher, Str s)])) = [(compiler, Str c); (vm, Str java); (key, Strs l)]).
  { intros c s java l. cbn [value]. rewrite (proj2 (beqb_neq _ _) (not_eq_sym D1)), beqb_refl. split; [reflexivity|].
    unfold del. cbn [filter fst]. rewrite (proj2 (beqb_neq _ _) (not_eq_sym D1)), beqb_refl. cbn [negb put].
    rewrite (proj2 (beqb_neq _ _) (not_eq_sym D2)). cbn [put]. rewrite (proj2 (beqb_neq _ _) (not_eq_sym D3)), (proj2 (beqb_neq _ _) (not_eq_sym D6)). reflexivity. }
  unfold starter_autoconfig. cbn [find_all].
  assert (R : forall names p, find_command_from_list m names = Some p <-> resolves m dirs names p) by (intros; apply find_resolves).
  destruct (find_command_from_list m [compiler]) as [c|] eqn:Ec.
  2: { split; [intros (msg & X); discriminate X|]. intros (c & j & o & Rc & _). apply R in Rc. congruence. }
  destruct (find_command_from_list m [launcher]) as [s|] eqn:Es.
  2: { split; [intros (msg & X); discriminate X|]. intros (c' & j & o & _ & (s & out & pre & nm & ask & Rs & _) & _). apply R in Rs. congruence. }
  assert (put launcher (Str s) (put compiler (Str c) []) = [(compiler, Str c); (launcher, Str s)]) as ->.
  { cbn [put]. rewrite (proj2 (beqb_neq _ _) (not_eq_sym D1)). reflexivity. }
  rewrite (proj1 (F c s [] [])).
  assert (U : forall p, unravel_java m p = if readable m p then Some p else None) by (intros p; unfold unravel_java; destruct (readable m p); reflexivity).
  split.
  - intros (msg & X). destruct (trace m s flags) as [out|] eqn:Et; [|discriminate X]. destruct (last_with marker out) as [line|] eqn:El; [|discriminate X].
    rewrite py_split_words in X. destruct (skipn skip _) as [|nm rest] eqn:Ek; [discriminate X|].
    destruct (find_command_from_list m [nm]) as [java|] eqn:Ej; [|discriminate X]. rewrite U in X. destruct (readable m java) eqn:Er; [|discriminate X].
    rewrite (proj2 (F c s java _)) in X. unfold run_test in X. destruct (pass _) eqn:P; [|discriminate X]. injection X as <- _.
    exists c, java, (removelast rest). split; [apply R, Ec|]. split; [|split; [reflexivity|exact P]].
    apply skipn_cons in Ek. destruct Ek as (pre & Ek & Lp). exists s, out, pre, nm, (last rest []). split; [apply R, Es|]. split; [exact Et|].
    split; [|split; [exact Lp|]; split; [apply R, Ej|exact Er]].
    destruct rest as [|a rest]; [right; split; [|reflexivity]|left].
    + apply last_with_iff. exists line. split; [exact El|symmetry; exact Ek].
    + rewrite <- (app_removelast_last (l := a :: rest) [] ltac:(discriminate)). apply last_with_iff. exists line. split; [exact El|symmetry; exact Ek].
  - intros (c' & java & o & Rc & (s' & out & pre & nm & ask & Rs & Et & Lc & Lp & Rj & Er) & -> & P).
    apply R in Rc. rewrite Ec in Rc. injection Rc as <-. apply R in Rs. rewrite Es in Rs. injection Rs as <-. rewrite Et.
    assert (exists line rest, last_with marker out = Some line /\ words (lstrip_plus line) = pre ++ nm :: rest /\ removelast rest = o) as (line & rest & El & Ew & Eo).
    { destruct Lc as [Lc|[Lc ->]]; apply last_with_iff in Lc; destruct Lc as (line & El & Ew).
      - exists line, (o ++ [ask]). split; [exact El|]. split; [symmetry; exact Ew|apply removelast_last].
      - exists line, []. split; [exact El|]. split; [symmetry; exact Ew|reflexivity]. }
    rewrite El, py_split_words, Ew, (proj2 (skipn_cons skip _ nm rest) (ex_intro _ pre (conj eq_refl Lp))).
    apply R in Rj. rewrite Rj, U, Er, (proj2 (F c s java _)), Eo. unfold run_test. rewrite P. eexists. reflexivity.
Qed.
Theorem scala_works pass cfg : works m {| how := Scala; passes_with := pass |} cfg <->
  exists c java options, resolves m dirs [B "scalac"] c /\
    launched m dirs (B "scala") (B "scala.tools.nsc.MainGenericRunner") [B "-usebootcp"; B "-version"] 0 java options /\
    cfg = [(B "scalac", Str c); (B "scala_vm", Str java); (B "scala_args", Strs (filter (fun a => negb (heap_option a)) options))] /\ pass cfg = true.
Proof using Hd.
  apply starter_works. repeat constructor; cbn [In]; intuition discriminate.
Qed.
Theorem groovy_works pass cfg : works m {| how := Groovy; passes_with := pass |} cfg <->
  exists c java options, resolves m dirs [B "groovyc"] c /\
    launched m dirs (B "groovy") (B "org.codehaus.groovy.tools.GroovyStarter") [B "-version"] 1 java options /\
    cfg = [(B "groovyc", Str c); (B "groovy_vm", Str java); (B "groovy_args", Strs options)] /\ pass cfg = true.
Proof using Hd.
  unfold works, autoconfig. cbn [how passes_with]. unfold groovy_autoconfig. rewrite starter_works by (repeat constructor; cbn [In]; intuition discriminate).
  assert (forall l : list bytes, filter (fun _ => true) l = l) as F by (intros l; induction l as [|a l IH]; cbn; congruence).
  change (fun a : bytes => negb ((fun _ : bytes => false) a)) with (fun _ : bytes => true).
  split; intros (c & j & o & H); exists c, j, o; rewrite F in *; exact H.
Qed.
Theorem missing run before k names after : (forall k' ns, In (k', ns) before -> exists p, resolves m dirs ns p) -> (forall p, ~ resolves m dirs names p) ->
  find_first m run (Some (before ++ (k, names) :: after)) = Data [] false (B "Failed to find " ++ [34%N] ++ k ++ [34%N]).
Proof using Hd.
  intros Hb Hn. unfold find_first.
  assert (forall acc, find_all m (before ++ (k, names) :: after) acc = inr k) as ->; [|reflexivity].
  induction before as [|[k' ns] r IH]; intros acc; cbn [app find_all].
  - destruct (find_command_from_list m names) as [p|] eqn:E; [|reflexivity]. apply find_resolves in E. destruct (Hn p E).
  - destruct (Hb k' ns (or_introl eq_refl)) as (p & Rp). apply find_resolves in Rp. rewrite Rp. apply IH. intros a b I. apply (Hb a b). right. exact I.
Qed.
Theorem kotlin_works vm compiler pass cfg : vm <> compiler ->
  works m {| how := Kotlin vm compiler; passes_with := pass |} cfg <->
  exists k j, resolves m dirs [B "kotlinc"] k /\ resolves m dirs [B "java"] j /\ readable m j = true /\
    cfg = [(compiler, Str k); (vm, Str j)] /\ pass cfg = true.
Proof using Hd.
  intros Hn. unfold works, autoconfig. cbn [how passes_with]. unfold kotlin_autoconfig.
  assert (R : forall names p, find_command_from_list m names = Some p <-> resolves m dirs names p) by (intros; apply find_resolves).
  assert (U : forall p, unravel_java m p = if readable m p then Some p else None) by (intros p; unfold unravel_java; destruct (readable m p); reflexivity).
  assert (Pt : forall k j, put vm (Str j) (put compiler (Str k) []) = [(compiler, Str k); (vm, Str j)])
    by (intros k j; cbn [put]; rewrite (proj2 (beqb_neq _ _) Hn); reflexivity).
  split.
  - intros (msg & X). destruct (find_command_from_list m [B "kotlinc"]) as [k|] eqn:Ek; [|discriminate X].
    destruct (find_command_from_list m [B "java"]) as [j|] eqn:Ej; [|discriminate X]. rewrite U in X. destruct (readable m j) eqn:Er; [|discriminate X].
    rewrite Pt in X. unfold run_test in X. destruct (pass _) eqn:P; [|discriminate X]. injection X as <- _. exists k, j. rewrite <- !R. auto.
  - intros (k & j & Rk & Rj & Er & -> & P). apply R in Rk, Rj. rewrite Rk, Rj, U, Er, Pt. unfold run_test. rewrite P. eexists. reflexivity.
Qed.
End Find.

(** ** what was tested *)
Lemma nodup_find_all m mp : forall acc cfg, NoDup (map fst acc) -> find_all m mp acc = inl cfg -> NoDup (map fst cfg).
Proof.
  induction mp as [|[k fs] mp IH]; intros acc cfg Hn H; cbn in H; [injection H as <-; exact Hn|].
  destruct (find_command_from_list m fs); [|discriminate]. apply (IH _ _ (nodup_put _ _ _ Hn) H).
Qed.
Definition good (m : machine) (c : klass) (d : data) : Prop :=
  match d with Data cfg true _ => NoDup (map fst cfg) /\ exists t, tested_as (how c) cfg t /\ passes_with c t = true | _ => True end.
Lemma run_test_good m c r : NoDup (map fst r) -> good m c (run_test (passes_with c) r).
Proof. intros H. unfold run_test, good. destruct (passes_with c r) eqn:P; [|exact I]. split; [exact H|]. exists r. split; [left; reflexivity|exact P]. Qed.
Lemma plus_put_del k v d : plus k v (del k (put k v d)) (put k v d).
Proof.
  split; [rewrite value_del, beqb_refl; reflexivity|]. split; [rewrite value_put, beqb_refl; reflexivity|].
  intros k' D. rewrite value_del, !value_put. destruct (beqb_spec k k') as [E|_]; [destruct (D (eq_sym E))|reflexivity].
Qed.
Lemma gcc_good m c arch mp r : how c = Gcc arch mp -> NoDup (map fst r) -> good m c (gcc_run_test (passes_with c) arch r).
Proof.
  intros Hh Hn. unfold gcc_run_test, good. destruct (passes_with c (put arch (Str (B "native")) r)) eqn:P1.
  - split; [apply nodup_del, nodup_put; exact Hn|]. exists (put arch (Str (B "native")) r). split; [|exact P1]. right. rewrite Hh. apply plus_put_del.
  - destruct (passes_with c (put arch Null _)) eqn:P2; [|exact I]. split; [apply nodup_put, nodup_put; exact Hn|]. eexists. split; [left; reflexivity|exact P2].
Qed.
Lemma find_first_good m c run mp : (forall r, NoDup (map fst r) -> good m c (run r)) -> good m c (find_first m run mp).
Proof.
  intros H. unfold find_first. destruct mp as [mp|]; [|exact I]. destruct (find_all m mp []) as [r|k] eqn:E; [|exact I].
  apply H. apply (nodup_find_all m mp [] r); [constructor|exact E].
Qed.
Lemma plus_mode vm compiler vp cp : NoDup [vm; vm ++ B "_mode"; compiler] ->
  del (vm ++ B "_mode") (with_mode vm compiler vp cp (B "client")) = [(vm, Str vp); (compiler, Str cp)].
Proof.
  intros H. inversion H as [|? ? N1 H1]; subst. inversion H1 as [|? ? N2 H2]; subst. unfold with_mode, del. cbn [filter fst].
  destruct (beqb_spec (vm ++ B "_mode") vm) as [E|_]; [exfalso; apply N1; left; exact E|]. rewrite beqb_refl.
  destruct (beqb_spec (vm ++ B "_mode") compiler) as [E|_]; [exfalso; apply N2; left; symmetry; exact E|]. reflexivity.
Qed.
Lemma mode_put vm compiler vp cp mode : NoDup [vm; vm ++ B "_mode"; compiler] ->
  put compiler (Str cp) (put (vm ++ B "_mode") (Str mode) (put vm (Str vp) [])) = with_mode vm compiler vp cp mode.
Proof.
  intros H. inversion H as [|? ? N1 H1]; subst. inversion H1 as [|? ? N2 H2]; subst. cbn [put].
  destruct (beqb_spec (vm ++ B "_mode") vm) as [E|_]; [exfalso; apply N1; left; exact E|]. cbn [put].
  destruct (beqb_spec compiler vm) as [E|_]; [exfalso; apply N1; right; left; exact E|].
  destruct (beqb_spec compiler (vm ++ B "_mode")) as [E|_]; [exfalso; apply N2; left; exact E|]. reflexivity.
Qed.
(** the settings of a Java executor are told apart *)
Definition distinct (f : finder) : Prop := match f with Javac _ vm compiler => compiler <> vm ++ B "_mode" | _ => True end.
Lemma try_modes_good m c regex vm compiler vp cp ms : how c = Javac regex vm compiler -> compiler <> vm ++ B "_mode" ->
  good m c (try_modes (passes_with c) vm compiler vp cp ms).
Proof.
  intros Hh Hc. induction ms as [|mode r IH]; [exact I|]. cbn [try_modes].
  assert (NoDup (map fst (put compiler (Str cp) (put (vm ++ B "_mode") (Str mode) (put vm (Str vp) []))))) as K by (do 3 apply nodup_put; constructor).
  destruct (passes_with c _) eqn:P; [|exact IH]. unfold good. destruct (beqb_spec mode (B "client")) as [->|D].
  - split; [apply nodup_del; exact K|]. eexists. split; [|exact P]. right. rewrite Hh. clear P K.
    split; [rewrite value_del, beqb_refl; reflexivity|]. split.
    + rewrite value_put. destruct (beqb_spec (vm ++ B "_mode") compiler) as [E|_]; [destruct (Hc (eq_sym E))|]. rewrite value_put, beqb_refl. reflexivity.
    + intros k' D. rewrite value_del. destruct (beqb_spec (vm ++ B "_mode") k') as [E|_]; [destruct (D (eq_sym E))|reflexivity].
  - split; [exact K|]. eexists. split; [left; reflexivity|exact P].
Qed.
Lemma try_vms_good m c regex vm compiler l : how c = Javac regex vm compiler -> compiler <> vm ++ B "_mode" ->
  good m c (try_vms m (passes_with c) regex vm compiler l).
Proof.
  intros Hh Hc. induction l as [|item r IH]; [exact I|]. cbn [try_vms]. destruct (_ || _); [exact IH|]. destruct (regex item); [|exact IH].
  unfold test_jvm. destruct (_ && _); [|exact IH].
  match goal with |- context [try_modes ?p ?a ?b ?x ?y ?ms] => pose proof (try_modes_good m c regex vm compiler x y ms Hh Hc) as G; destruct (try_modes p a b x y ms) as [|cfg [] msg] end; [exact IH|exact G|exact IH].
Qed.
Lemma starter_good m c compiler launcher vm key marker flags skip drops :
  good m c (starter_autoconfig m (passes_with c) compiler launcher vm key marker flags skip drops).
Proof.
  unfold starter_autoconfig. destruct (find_all m _ []) as [r|k] eqn:E; [|exact I].
  assert (NoDup (map fst r)) as Hn by (apply (nodup_find_all m _ [] r) in E; [exact E|constructor]).
  destruct (value launcher r) as [[| |]|]; try exact I. destruct (trace m _ _); [|exact I]. destruct (last_with _ _); [|exact I].
  destruct (skipn _ _); [exact I|]. destruct (find_command_from_list _ _); [|exact I]. destruct (unravel_java _ _); [|exact I].
  apply run_test_good. apply nodup_put, nodup_put, nodup_del. exact Hn.
Qed.
Theorem autoconfig_good m c : distinct (how c) -> good m c (autoconfig m c).
Proof.
  intros Hc. unfold autoconfig. destruct (how c) as [mp|arch mp|can mp|regex vm compiler|vm compiler| |] eqn:Hh.
  - apply find_first_good. intros r Hn. apply run_test_good. exact Hn.
  - apply find_first_good. intros r Hn. apply (gcc_good m c arch mp); assumption.
  - unfold asm_autoconfig. destruct (negb can); [exact I|]. apply find_first_good. intros r Hn. apply run_test_good. exact Hn.
  - apply try_vms_good; assumption.
  - unfold kotlin_autoconfig. destruct (find_command_from_list m [B "kotlinc"]); [|exact I]. destruct (find_command_from_list m [B "java"]); [|exact I].
    destruct (unravel_java m _); [|exact I]. apply run_test_good. apply nodup_put, nodup_put. constructor.
  - apply starter_good.
  - apply starter_good.
Qed.
Theorem tested m c cfg : distinct (how c) -> works m c cfg -> exists t, tested_as (how c) cfg t /\ passes_with c t = true.
Proof. intros Hc (msg & E). pose proof (autoconfig_good m c Hc) as G. rewrite E in G. exact (proj2 G). Qed.

(** ** what is printed *)
Theorem printed m l k v : (forall c, In (Some c) l -> distinct (how c)) ->
  value k (configure m l) = Some v <->
  exists before c after cfg, l = before ++ Some c :: after /\ works m c cfg /\ value k cfg = Some v /\
    forall c' cfg', In (Some c') after -> works m c' cfg' -> value k cfg' = None.
Proof.
  intros Hd. unfold configure.
  assert (forall d0 : config, value k (fold_left (fun result e => match e with None => result | Some c => match autoconfig m c with Data cfg true _ => update result cfg | _ => result end end) l d0) = Some v <->
    (exists before c after cfg, l = before ++ Some c :: after /\ works m c cfg /\ value k cfg = Some v /\
    forall c' cfg', In (Some c') after -> works m c' cfg' -> value k cfg' = None) \/
    (value k d0 = Some v /\ forall c' cfg', In (Some c') l -> works m c' cfg' -> value k cfg' = None)) as G.
  2:{ rewrite (G []). split; [intros [H|[H _]]; [exact H|discriminate]|]. intros H. left. exact H. }
  induction l as [|e l IH]; intros d0; cbn [fold_left].
  - split; [intros H; right; split; [exact H|intros ? ? []]|]. intros [(b & c & a & cfg & E & _)|[H _]]; [destruct b; discriminate|exact H].
  - rewrite IH by (intros c I; apply Hd; right; exact I). clear IH.
    assert (forall cfg msg, e = None \/ (exists c, e = Some c /\ autoconfig m c = Data cfg true msg) \/ True) as _ by auto.
    destruct e as [c|].
    + destruct (autoconfig m c) as [|cfg [] msg] eqn:E.
      * split.
        -- intros [(b & c' & a & cf & -> & H)|[H K]]; [left; exists (Some c :: b), c', a, cf; split; [reflexivity|exact H]|].
           right. split; [exact H|]. intros c' cf [X|X] W; [injection X as <-; destruct W as (? & W); congruence|exact (K _ _ X W)].
        -- intros [(b & c' & a & cf & X & W & V & K)|[H K]].
           ++ destruct b as [|x b]; cbn [app] in X; injection X as X0 X; subst; [destruct W as (? & W); congruence|]. left. exists b, c', a, cf. auto.
           ++ right. split; [exact H|]. intros c' cf I. apply K. right. exact I.
      * pose proof (autoconfig_good m c (Hd c (or_introl eq_refl))) as G. rewrite E in G. destruct G as [Hn _].
        rewrite value_update by exact Hn. split.
        -- intros [(b & c' & a & cf & -> & H)|[H K]]; [left; exists (Some c :: b), c', a, cf; split; [reflexivity|exact H]|].
           destruct (value k cfg) as [v'|] eqn:V.
           ++ injection H as ->. left. exists [], c, l, cfg. split; [reflexivity|]. split; [eexists; exact E|]. split; [exact V|]. exact K.
           ++ right. split; [exact H|]. intros c' cf [X|X] W; [|exact (K _ _ X W)]. injection X as <-. destruct W as (? & W). rewrite E in W. injection W as <- _. exact V.
        -- intros [(b & c' & a & cf & X & W & V & K)|[H K]].
           ++ destruct b as [|x b]; cbn [app] in X; injection X as X0 X; subst.
              ** right. destruct W as (? & W). rewrite E in W. injection W as <- _. rewrite V. split; [reflexivity|]. exact K.
              ** left. exists b, c', a, cf. auto.
           ++ right. rewrite (K c cfg); [|left; reflexivity|eexists; exact E]. split; [exact H|]. intros c' cf I. apply K. right. exact I.
      * split.
        -- intros [(b & c' & a & cf & -> & H)|[H K]]; [left; exists (Some c :: b), c', a, cf; split; [reflexivity|exact H]|].
           right. split; [exact H|]. intros c' cf [X|X] W; [injection X as <-; destruct W as (? & W); congruence|exact (K _ _ X W)].
        -- intros [(b & c' & a & cf & X & W & V & K)|[H K]].
           ++ destruct b as [|x b]; cbn [app] in X; injection X as X0 X; subst; [destruct W as (? & W); congruence|]. left. exists b, c', a, cf. auto.
           ++ right. split; [exact H|]. intros c' cf I. apply K. right. exact I.
    + split.
      * intros [(b & c' & a & cf & -> & H)|[H K]]; [left; exists (None :: b), c', a, cf; split; [reflexivity|exact H]|].
        right. split; [exact H|]. intros c' cf [X|X] W; [discriminate|exact (K _ _ X W)].
      * intros [(b & c' & a & cf & X & W & V & K)|[H K]].
        -- destruct b as [|x b]; cbn [app] in X; injection X as X0 X; subst; [discriminate|]. left. exists b, c', a, cf. auto.
        -- right. split; [exact H|]. intros c' cf I. apply K. right. exact I.
Qed.

(** ** Java *)
Lemma try_modes_works (m : machine) c regex vm compiler vp cp : how c = Javac regex vm compiler -> NoDup [vm; vm ++ B "_mode"; compiler] ->
  forall ms cfg, (exists msg, try_modes (passes_with c) vm compiler vp cp ms = Data cfg true msg) <->
  exists before mode after, ms = before ++ mode :: after /\ passes_with c (with_mode vm compiler vp cp mode) = true /\
    (forall x, In x before -> passes_with c (with_mode vm compiler vp cp x) = false) /\
    cfg = if beqb mode (B "client") then [(vm, Str vp); (compiler, Str cp)] else with_mode vm compiler vp cp mode.
Proof.
  intros Hh Hn ms. induction ms as [|mode r IH]; intros cfg; cbn [try_modes].
  - split; [intros (? & H); discriminate|]. intros (b & mo & a & E & _). destruct b; discriminate.
  - rewrite (mode_put vm compiler vp cp mode Hn). destruct (passes_with c (with_mode vm compiler vp cp mode)) eqn:P.
    + assert ((if beqb mode (B "client") then del (vm ++ B "_mode") (with_mode vm compiler vp cp mode) else with_mode vm compiler vp cp mode) =
        (if beqb mode (B "client") then [(vm, Str vp); (compiler, Str cp)] else with_mode vm compiler vp cp mode)) as X.
      { destruct (beqb_spec mode (B "client")) as [->|_]; [apply plus_mode; exact Hn|reflexivity]. }
      rewrite X. clear X. split.
      * intros (msg & H). apply (f_equal (fun d => match d with Data cf _ _ => cf | Raises => [] end)) in H. cbv beta iota in H. subst cfg.
        exists [], mode, r. split; [reflexivity|]. split; [exact P|]. split; [intros ? []|]. reflexivity.
      * intros (b & mo & a & E & Q & Z & ->). destruct b as [|x b]; injection E as <- E.
        -- eexists. reflexivity.
        -- rewrite (Z mode) in P; [discriminate|left; reflexivity].
    + rewrite IH. split.
      * intros (b & mo & a & -> & Q & Z & H). exists (mode :: b), mo, a. split; [reflexivity|]. split; [exact Q|]. split; [|exact H]. intros x [<-|I]; [exact P|auto].
      * intros (b & mo & a & E & Q & Z & H). destruct b as [|x b]; injection E as <- E; [congruence|]. exists b, mo, a. split; [exact E|]. split; [exact Q|]. split; [|exact H].
        intros x I. apply Z. right. exact I.
Qed.
Lemma bin_path home bin tool : in_dir home (B "bin") bin -> starts_slash tool = false -> join bin tool = bin ++ B "/" ++ tool.
Proof.
  intros H S0. rewrite (in_one _ (B "bin") _ eq_refl H). rewrite (join_form _ tool S0).
  assert (exists x, join home (B "bin") = x ++ [110%N]) as (x & ->).
  { rewrite (join_form home (B "bin") eq_refl). destruct (rev home) as [|c r]; [exists (B "bi"); reflexivity|].
    destruct (c =? 47)%N; [exists (home ++ B "bi")|exists (home ++ B "/bi")]; rewrite <- app_assoc; reflexivity. }
  rewrite rev_app_distr. cbn [rev app]. reflexivity.
Qed.
Theorem java_works m regex vm compiler pass : NoDup [vm; vm ++ B "_mode"; compiler] ->
  (forall items item, listdir m (jvm_dir m) = Some items -> In item items -> ~ absolute item) ->
  let c := {| how := Javac regex vm compiler; passes_with := pass |} in
  (forall cfg, works m c cfg -> exists item vp cp before mode after, jdk m regex item vp cp /\
     modes = before ++ mode :: after /\ pass (with_mode vm compiler vp cp mode) = true /\
     (forall x, In x before -> pass (with_mode vm compiler vp cp x) = false) /\
     cfg = if beqb mode (B "client") then [(vm, Str vp); (compiler, Str cp)] else with_mode vm compiler vp cp mode) /\
  (forall item vp cp mode, jdk m regex item vp cp -> In mode modes -> pass (with_mode vm compiler vp cp mode) = true -> exists cfg, works m c cfg).
Proof.
  intros Hn Hi c. unfold works, autoconfig. cbn [how c passes_with]. unfold java_autoconfig, jdk.
  assert (forall home, exists bin, in_dir home (B "bin") bin /\ join (join home (B "bin")) (B "java") = bin ++ B "/java" /\
    join (join home (B "bin")) (B "javac") = bin ++ B "/javac") as Hb.
  { intros home. exists (join home (B "bin")). pose proof (join_in home (B "bin") eq_refl) as J. split; [exact J|].
    rewrite !(bin_path _ _ _ J) by reflexivity. split; reflexivity. }
  split.
  - intros cfg (msg & H). destruct (listdir m (jvm_dir m)) as [items|] eqn:L; [|discriminate].
    assert (exists item, In item items /\ isdir m (join (jvm_dir m) item) = true /\ islink m (join (jvm_dir m) item) = false /\ regex item = true /\
      test_jvm m pass vm compiler (join (jvm_dir m) item) = Data cfg true msg) as (item & I & D1 & D2 & R & T).
    { clear L Hi. induction items as [|item r IH]; [discriminate|]. cbn [try_vms] in H.
      destruct (negb (isdir m _) || islink m _) eqn:D; [destruct (IH H) as (x & I & K); exists x; split; [right; exact I|exact K]|].
      apply Bool.orb_false_iff in D as [D1 D2]. apply Bool.negb_false_iff in D1.
      destruct (regex item) eqn:R; [|destruct (IH H) as (x & I & K); exists x; split; [right; exact I|exact K]].
      destruct (test_jvm m pass vm compiler (join (jvm_dir m) item)) as [|cf [] ms] eqn:T;
        try (destruct (IH H) as (x & I & K); exists x; split; [right; exact I|exact K]).
      exists item. split; [left; reflexivity|]. rewrite T. auto. }
    assert (starts_slash item = false) as S0 by (apply not_slash_absolute; exact (Hi _ _ eq_refl I)).
    unfold test_jvm in T. destruct (isfile m _ && isfile m _) eqn:F; [|discriminate]. apply andb_prop in F as [F1 F2].
    destruct (proj1 (try_modes_works m c regex vm compiler _ _ eq_refl Hn vm_modes cfg) (ex_intro _ msg T)) as (b & mode & a & E & P & Z & C).
    destruct (Hb (join (jvm_dir m) item)) as (bin & J & E1 & E2). rewrite E1, E2 in *.
    exists item, (bin ++ B "/java"), (bin ++ B "/javac"), b, mode, a. split.
    + exists items, (join (jvm_dir m) item). split; [reflexivity|]. split; [exact I|]. split; [exact R|]. split; [apply join_in; exact S0|]. split; [exact D1|]. split; [exact D2|].
      split; [exists bin; auto|]. auto.
    + split; [exact E|]. split; [exact P|]. split; [exact Z|exact C].
  - intros item vp cp mode (items & home & L & I & R & J & D1 & D2 & (bin & Jb & -> & ->) & F1 & F2) Hm P. rewrite L.
    assert (starts_slash item = false) as S0 by (apply not_slash_absolute; exact (Hi _ _ L I)).
    apply (in_one _ _ _ S0) in J. subst home.
    assert (exists cfg msg, test_jvm m pass vm compiler (join (jvm_dir m) item) = Data cfg true msg) as (cfg & msg & T).
    { destruct (Hb (join (jvm_dir m) item)) as (bin' & J' & E1 & E2).
      assert (bin' = bin) as -> by (rewrite (in_one _ (B "bin") _ eq_refl J'); symmetry; apply (in_one _ (B "bin") _ eq_refl Jb)).
      unfold test_jvm. rewrite E1, E2, F1, F2. cbn [andb].
      assert (exists before x after, vm_modes = before ++ x :: after /\ pass (with_mode vm compiler (bin ++ B "/java") (bin ++ B "/javac") x) = true /\
        forall y, In y before -> pass (with_mode vm compiler (bin ++ B "/java") (bin ++ B "/javac") y) = false) as (b & x & a & E & P' & Z).
      { change modes with vm_modes in Hm. revert Hm. generalize vm_modes. induction l as [|y l IH]; intros Hm; [destruct Hm|].
        destruct (pass (with_mode vm compiler (bin ++ B "/java") (bin ++ B "/javac") y)) eqn:Py; [exists [], y, l; split; [reflexivity|]; split; [exact Py|intros ? []]|].
        destruct Hm as [->|Hm]; [congruence|]. destruct (IH Hm) as (b & x & a & -> & P' & Z). exists (y :: b), x, a. split; [reflexivity|]. split; [exact P'|].
        intros z [<-|Iz]; [exact Py|auto]. }
      set (cf := if beqb x (B "client") then [(vm, Str (bin ++ B "/java")); (compiler, Str (bin ++ B "/javac"))] else with_mode vm compiler (bin ++ B "/java") (bin ++ B "/javac") x).
      destruct (proj2 (try_modes_works m c regex vm compiler (bin ++ B "/java") (bin ++ B "/javac") eq_refl Hn vm_modes cf)) as (msg & T);
        [exists b, x, a; split; [exact E|]; split; [exact P'|]; split; [exact Z|reflexivity]|]. exists cf, msg. exact T. }
    clear L Hi. induction items as [|it r IH]; [destruct I|]. cbn [try_vms]. destruct I as [->|I].
    + rewrite D1, D2. cbn [negb orb]. rewrite R, T. exists cfg, msg. reflexivity.
    + destruct (negb _ || _); [exact (IH I)|]. destruct (regex it); [|exact (IH I)].
      destruct (test_jvm m pass vm compiler (join (jvm_dir m) it)) as [|cf [] ms]; [exact (IH I)|eexists _, _; reflexivity|exact (IH I)].
Qed.

(** ** read back *)
Theorem java_mode m regex vm compiler pass cfg : NoDup [vm; vm ++ B "_mode"; compiler] ->
  (forall items item, listdir m (jvm_dir m) = Some items -> In item items -> ~ absolute item) ->
  works m {| how := Javac regex vm compiler; passes_with := pass |} cfg ->
  exists t, tested_as (Javac regex vm compiler) cfg t /\ pass t = true /\ mode_judge vm cfg = mode_tested vm t.
Proof.
  intros Hn Hi W. destruct (proj1 (java_works m regex vm compiler pass Hn Hi) cfg W) as (item & vp & cp & b & mode & a & _ & E & P & _ & C).
  inversion Hn as [|? ? N1 H1]; subst. inversion H1 as [|? ? N2 H2]; subst.
  exists (with_mode vm compiler vp cp mode).
  assert (forall c0 v, value (vm ++ B "_mode") (with_mode vm compiler vp cp v) = Some (Str v) /\ value (vm ++ B "_mode") [(vm, Str vp); (compiler, Str c0)] = None) as K.
  { intros c0 v. unfold with_mode. cbn [value]. destruct (beqb_spec (vm ++ B "_mode") vm) as [X|_]; [exfalso; apply N1; left; exact X|].
    rewrite beqb_refl. destruct (beqb_spec (vm ++ B "_mode") compiler) as [X|_]; [exfalso; apply N2; left; symmetry; exact X|]. split; reflexivity. }
  assert (In mode modes) as Im by (rewrite E; apply in_or_app; right; left; reflexivity). clear E.
  destruct (beqb_spec mode (B "client")) as [Em|D]; [rewrite Em in *; clear Em|].
  - split; [|split; [exact P|]].
    + right. unfold plus. split; [apply (K cp (B "client"))|]. split; [apply (K cp)|]. intros k' D. unfold with_mode. cbn [value].
      destruct (beqb_spec k' (vm ++ B "_mode")) as [X|_]; [destruct (D X)|]. reflexivity.
    + unfold mode_judge, mode_tested, node_get, dict_get. rewrite (proj1 (K cp _)), (proj2 (K cp (B "client"))). reflexivity.
  - split; [left; reflexivity|]. split; [exact P|]. unfold mode_judge, mode_tested, node_get, dict_get. rewrite (proj1 (K cp mode)).
    destruct mode as [|x y]; [|reflexivity]. exfalso. vm_compute in Im. repeat destruct Im as [Im|Im]; try discriminate. exact Im.
Qed.
Theorem gcc_march m dirs arch mp pass cfg : directories m dirs -> NoDup (arch :: map fst mp) ->
  works m {| how := Gcc arch (Some mp); passes_with := pass |} cfg -> value arch cfg = None ->
  exists t, tested_as (Gcc arch (Some mp)) cfg t /\ pass t = true /\ march_judge arch cfg = march_tested arch t.
Proof.
  intros Hd Hn W V. apply (gcc_works m dirs Hd) in W; [|exact Hn]. destruct W as (f & A & H).
  assert (value arch f = None) as Vf.
  { apply value_none. rewrite (assembled_keys m dirs mp f A). inversion Hn; assumption. }
  assert (forall v k, value k (f ++ [(arch, v)]) = if beqb k arch then Some v else value k f) as K.
  { clear -Vf. intros v k. revert Vf. induction f as [|[a b] r IH]; cbn; intros Vf.
    - destruct (beqb k arch); reflexivity.
    - destruct (beqb_spec arch a) as [->|D]; [discriminate|]. rewrite (IH Vf). destruct (beqb_spec k a) as [->|_]; [|reflexivity].
      destruct (beqb_spec a arch) as [X|_]; [destruct (D (eq_sym X))|reflexivity]. }
  destruct H as [(P & ->)|(_ & P & ->)].
  - exists (f ++ [(arch, Str (B "native"))]). split; [|split; [exact P|]].
    + right. split; [exact V|]. split; [rewrite K, beqb_refl; reflexivity|]. intros k' D. rewrite K. destruct (beqb_spec k' arch) as [X|_]; [destruct (D X)|reflexivity].
    + unfold march_judge, march_tested, node_get, dict_get. rewrite V, K, beqb_refl. reflexivity.
  - rewrite K, beqb_refl in V. discriminate.
Qed.
(** an absolute name of the first candidate that is there is a file, for relative candidates *)
Theorem command_ready m dirs names p : directories m dirs -> (forall n, In n names -> ~ absolute n) ->
  (forall q, isfile m (abspath m q) = isfile m q) -> resolves m dirs names p -> isfile m p = true.
Proof.
  intros Hd Hr Ha (b & n & a & -> & F & _). assert (~ absolute n) as A by (apply Hr, in_or_app; right; left; reflexivity).
  destruct F as [X _ _|_ F ->|? ? ? q _ _ _ _ F _ ->]; [destruct (A X)| |]; rewrite Ha; exact F.
Qed.
Lemma assembled_value m dirs mp cfg k names : NoDup (map fst mp) -> assembled m dirs mp cfg -> In (k, names) mp ->
  exists p, value k cfg = Some (Str p) /\ resolves m dirs names p.
Proof.
  intros Hn A. induction A as [|[k0 n0] [k1 v] l l' (E & p & Ev & R) A IH]; intros I; [destruct I|]. cbn in E, Ev, Hn. subst k1 v. inversion Hn as [|? ? N1 H1]; subst.
  cbn [value]. destruct I as [I|I].
  - injection I as -> ->. rewrite beqb_refl. exists p. auto.
  - destruct (beqb_spec k k0) as [->|_]; [exfalso; apply N1; apply in_map_iff; exists (k0, names); auto|]. apply IH; assumption.
Qed.
Theorem ready_after m dirs l before after c mp command names pass cfg :
  directories m dirs -> (forall q, isfile m (abspath m q) = isfile m q) -> (forall c, In (Some c) l -> distinct (how c)) ->
  l = before ++ Some c :: after -> c = {| how := First (Some mp); passes_with := pass |} -> NoDup (map fst mp) ->
  In (command, names) mp -> (forall n, In n names -> ~ absolute n) -> works m c cfg ->
  (forall c' cfg', In (Some c') after -> works m c' cfg' -> value command cfg' = None \/ value command cfg' = value command cfg) ->
  command_of command (configure m l) = command_of command cfg /\ ready m command (configure m l) = true.
Proof.
  intros Hd Ha Hdist -> Ec Hn Ic Hr W Hlater. rewrite Ec in W. pose proof (proj1 (base_works m dirs Hd mp pass cfg Hn) W) as [A _].
  destruct (assembled_value m dirs mp cfg command names Hn A Ic) as (p & V & R).
  assert (value command (configure m (before ++ Some c :: after)) = Some (Str p)) as Vc.
  { assert (exists b c' a cf, before ++ Some c :: after = b ++ Some c' :: a /\ works m c' cf /\ value command cf = Some (Str p) /\
      forall c2 cf2, In (Some c2) a -> works m c2 cf2 -> value command cf2 = None) as X; [|apply printed; [exact Hdist|exact X]].
    rewrite <- Ec in W. clear Ec Hdist A. rewrite V in Hlater. revert before. induction after as [|e after IH] using rev_ind; intros before.
    - exists before, c, [], cfg. split; [reflexivity|]. split; [exact W|]. split; [exact V|]. intros ? ? [].
    - assert (forall c' cfg', e = Some c' -> works m c' cfg' -> value command cfg' = None \/ value command cfg' = Some (Str p)) as Ke.
      { intros c' cf E Wc. apply (Hlater c' cf); [|exact Wc]. apply in_or_app. right. left. exact E. }
      destruct IH with (before := before) as (b & c' & a & cf & E & Wc & Vcf & Z).
      { intros c2 cf2 I. apply Hlater. apply in_or_app. left. exact I. }
      destruct e as [ce|].
      + destruct (autoconfig m ce) as [|cfe [] msg] eqn:Ee.
        * exists b, c', (a ++ [Some ce]), cf. split; [rewrite app_comm_cons, app_assoc, E, <- app_assoc; reflexivity|]. split; [exact Wc|]. split; [exact Vcf|].
          intros c2 cf2 I W2. apply in_app_or in I as [I|[I|[]]]; [exact (Z _ _ I W2)|]. injection I as <-. destruct W2 as (? & W2). rewrite Ee in W2. discriminate.
        * destruct (Ke ce cfe eq_refl (ex_intro _ msg Ee)) as [K|K].
          -- exists b, c', (a ++ [Some ce]), cf. split; [rewrite app_comm_cons, app_assoc, E, <- app_assoc; reflexivity|]. split; [exact Wc|]. split; [exact Vcf|].
             intros c2 cf2 I W2. apply in_app_or in I as [I|[I|[]]]; [exact (Z _ _ I W2)|]. injection I as <-. destruct W2 as (? & W2). rewrite Ee in W2. injection W2 as <- _. exact K.
          -- exists (before ++ Some c :: after), ce, [], cfe. split; [rewrite <- app_assoc; reflexivity|]. split; [exists msg; exact Ee|]. split; [exact K|]. intros ? ? [].
        * exists b, c', (a ++ [Some ce]), cf. split; [rewrite app_comm_cons, app_assoc, E, <- app_assoc; reflexivity|]. split; [exact Wc|]. split; [exact Vcf|].
          intros c2 cf2 I W2. apply in_app_or in I as [I|[I|[]]]; [exact (Z _ _ I W2)|]. injection I as <-. destruct W2 as (? & W2). rewrite Ee in W2. discriminate.
      + exists b, c', (a ++ [None]), cf. split; [rewrite app_comm_cons, app_assoc, E, <- app_assoc; reflexivity|]. split; [exact Wc|]. split; [exact Vcf|].
        intros c2 cf2 I W2. apply in_app_or in I as [I|[I|[]]]; [exact (Z _ _ I W2)|discriminate]. }
  unfold ready, command_of. rewrite Vc, V. split; [reflexivity|]. apply (command_ready m dirs names); assumption.
Qed.

(** ** continuous integration *)
Lemma ci_one_ok m allow t : ci_one m allow t = Some false <-> acceptable m allow t.
Proof.
  unfold ci_one, acceptable, outcome. destruct (t_class t) as [c|]; [|split; [discriminate|intros (? & X & _); discriminate]].
  destruct (t_has_autoconfig t) eqn:Ha; cbn [negb].
  2:{ split; [intros _; exists c; auto|reflexivity]. }
  assert (existsb (beqb (t_name t)) allow = true <-> In (t_name t) allow) as Ia.
  { rewrite existsb_exists. split; [intros (x & I & E); apply beqb_eq in E; subst; exact I|intros I; exists (t_name t); split; [exact I|apply beqb_refl]]. }
  assert (forall d, (match d with Raises => Some (negb (existsb (beqb (t_name t)) allow)) | Data cfg true _ => if t_versions t then Some false else None
     | Data cfg false msg => if beqb msg (B "Could not find JVM") then Some false else Some (negb (existsb (beqb (t_name t)) allow)) end) = Some false <->
     ((exists cfg msg, d = Data cfg true msg /\ t_versions t = true) \/ (exists cfg, d = Data cfg false (B "Could not find JVM")) \/
      ((forall cfg msg, d <> Data cfg true msg) /\ In (t_name t) allow))) as K.
  { intros d. rewrite <- Ia. destruct (existsb _ allow); cbn [negb]; destruct d as [|cfg [] msg].
    - split; [intros _; right; right; split; [discriminate|reflexivity]|reflexivity].
    - destruct (t_versions t); split; intros H; try reflexivity; try discriminate; [left; exists cfg, msg; auto|].
      destruct H as [(? & ? & _ & H)|[(? & H)|[H _]]]; [discriminate|discriminate|destruct (H cfg msg eq_refl)].
    - split; [|destruct (beqb msg _); reflexivity]. intros _. right. right. split; [discriminate|reflexivity].
    - split; [discriminate|]. intros [(? & ? & H & _)|[(? & H)|[_ H]]]; discriminate.
    - destruct (t_versions t); split; intros H; try reflexivity; try discriminate; [left; exists cfg, msg; auto|].
      destruct H as [(? & ? & _ & H)|[(? & H)|[H _]]]; [discriminate|discriminate|destruct (H cfg msg eq_refl)].
    - destruct (beqb_spec msg (B "Could not find JVM")) as [->|D]; split; intros H; try reflexivity; try discriminate; [right; left; exists cfg; reflexivity|].
      destruct H as [(? & ? & H & _)|[(? & H)|[_ H]]]; try discriminate. exfalso. apply D. injection H as _ H. exact H. }
  destruct (t_override t) as [[|kv r]|].
  - split; [intros _; exists c; auto|reflexivity].
  - rewrite K. split.
    + intros H. exists c. split; [reflexivity|]. right. right. exact H.
    + intros (c' & E & H). injection E as <-. destruct H as [H|[H|H]]; [discriminate|discriminate|exact H].
  - rewrite K. split.
    + intros H. exists c. split; [reflexivity|]. right. right. exact H.
    + intros (c' & E & H). injection E as <-. destruct H as [H|[H|H]]; [discriminate|discriminate|exact H].
Qed.
Theorem ci_ok m allow l fails : ci_status m allow l fails = 0 <-> fails = 0 /\ forall t, In t l -> acceptable m allow t.
Proof.
  assert (ci_executors m allow l = Some false <-> forall t, In t l -> acceptable m allow t) as K.
  { induction l as [|t l IH]; cbn [ci_executors]; [split; [intros _ ? []|reflexivity]|]. pose proof (ci_one_ok m allow t) as K.
    destruct (ci_one m allow t) as [[]|].
    - split; [destruct (ci_executors m allow l); discriminate|]. intros H. assert (X := proj2 K (H t (or_introl eq_refl))). discriminate.
    - destruct (ci_executors m allow l) as [f|]; cbn [orb].
      + rewrite IH. split; [intros H x [<-|I]; [apply K; reflexivity|exact (H x I)]|]. intros H x I. apply H. right. exact I.
      + split; [discriminate|]. intros H. apply IH. intros x I. apply H. right. exact I.
    - split; [discriminate|]. intros H. assert (X := proj2 K (H t (or_introl eq_refl))). discriminate. }
  rewrite <- K. unfold ci_status. destruct (ci_executors m allow l) as [[]|]; cbn [orb].
  - split; [discriminate|]. intros [_ H]. discriminate.
  - destruct (Nat.eqb_spec fails 0); cbn [negb]; split; auto; try discriminate. intros [H _]. contradiction.
  - split; [discriminate|]. intros [_ H]. discriminate.
Qed.

(** ** what the executors look for *)
Lemma put_files_in k v d : NoDup (map fst d) -> NoDup (map fst (put_files k v d)) /\
  forall k' v', In (k', v') (put_files k v d) <-> (k' = k /\ v' = v) \/ (k' <> k /\ In (k', v') d).
Proof.
  induction d as [|[a b] r IH]; intros Hn.
  - cbn. split; [constructor; [auto|constructor]|]. intros k' v'. split; [intros [E|[]]; injection E as <- <-; auto|intros [[-> ->]|[_ []]]; auto].
  - inversion Hn as [|? ? N1 H1]; subst. cbn [put_files]. destruct (beqb_spec k a) as [->|D].
    + split; [exact Hn|]. intros k' v'. cbn [In]. split.
      * intros [E|I]; [injection E as <- <-; auto|]. right. split; [|auto]. intros ->. apply N1. apply in_map_iff. exists (a, v'). auto.
      * intros [[-> ->]|[Dk [E|I]]]; [auto|injection E as <- _; destruct (Dk eq_refl)|auto].
    + destruct (IH H1) as [I1 I2]. split.
      * cbn. constructor; [|exact I1]. intros I. apply in_map_iff in I as ([k0 v0] & E & I). cbn in E. subst k0. apply I2 in I as [[E _]|[_ I]]; [destruct (D (eq_sym E))|].
        apply N1. apply in_map_iff. exists (a, v0). auto.
      * intros k' v'. cbn [In]. rewrite I2. split.
        -- intros [E|[H|H]]; [injection E as <- <-; right; split; [intros E; destruct (D (eq_sym E))|auto]|auto|tauto].
        -- intros [H|[Dk [E|I]]]; [auto|auto|tauto].
Qed.
Theorem mappings :
  (forall command paths files, In (B "mono", files) (mono_mapping command paths) <-> files = [B "mono"]) /\
  (forall command paths files, command <> B "mono" -> In (command, files) (mono_mapping command paths) <-> files = match paths with [] => [command] | _ => paths end) /\
  (forall prefixes as_name ld_name mp, as_name <> ld_name -> gas_mapping (Some prefixes) as_name ld_name = Some mp ->
     (forall files, In (as_name, files) mp <-> files = map (fun i => i ++ B "-as") prefixes ++ [B "as"]) /\
     (forall files, In (ld_name, files) mp <-> files = map (fun i => i ++ B "-ld") prefixes ++ [B "ld"])) /\
  (forall prefixes ld_name mp, ld_name <> B "nasm" -> nasm_mapping (Some prefixes) ld_name = Some mp ->
     (forall files, In (B "nasm", files) mp <-> files = [B "nasm"]) /\
     (forall files, In (ld_name, files) mp <-> files = map (fun i => i ++ B "-ld") prefixes ++ [B "ld"])) /\
  (forall command paths, NoDup (map fst (mono_mapping command paths))) /\ (forall command, NoDup (map fst (monovb_mapping command))) /\
  (forall prefixes as_name ld_name mp, gas_mapping prefixes as_name ld_name = Some mp -> NoDup (map fst mp)) /\
  (forall prefixes ld_name mp, nasm_mapping prefixes ld_name = Some mp -> NoDup (map fst mp)).
Proof.
  assert (forall (k : bytes) (v : list bytes), NoDup (map fst [(k, v)])) as H1 by (intros; repeat constructor; cbn; auto).
  assert (forall (k k0 : bytes) (v v0 : list bytes), k0 <> k -> (forall f, In (k, f) (put_files k v [(k0, v0)]) <-> f = v) /\ (forall f, In (k0, f) (put_files k v [(k0, v0)]) <-> f = v0)) as K.
  { intros k k0 v v0 D. pose proof (proj2 (put_files_in k v _ (H1 k0 v0))) as P. split; intros f; rewrite P; cbn [In]; split.
    - intros [[_ ->]|[X _]]; [reflexivity|destruct (X eq_refl)].
    - intros ->. auto.
    - intros [[X _]|[_ [E|[]]]]; [destruct (D X)|injection E as <-; reflexivity].
    - intros ->. right. auto. }
  split; [|split; [|split; [|split; [|split; [|split; [|split]]]]]].
  - intros c ps f. unfold mono_mapping. rewrite (proj2 (put_files_in _ _ _ (H1 c _))). split; [intros [[_ ->]|[X _]]; [reflexivity|destruct (X eq_refl)]|intros ->; auto].
  - intros c ps f D. unfold mono_mapping. apply K. exact D.
  - intros ps a l mp D E. unfold gas_mapping in E. injection E as <-. destruct (K l a (prefixed ps (B "ld")) (prefixed ps (B "as")) D) as [K1 K2]. split; assumption.
  - intros ps l mp D E. unfold nasm_mapping in E. injection E as <-. destruct (K (B "nasm") l [B "nasm"] (prefixed ps (B "ld")) D) as [K1 K2]. split; assumption.
  - intros c ps. apply put_files_in. apply H1.
  - intros c. apply put_files_in. apply put_files_in. apply H1.
  - intros [ps|] a l mp E; [|discriminate]. apply (f_equal (fun o => match o with Some x => x | None => [] end)) in E. rewrite <- E. apply (put_files_in l (prefixed ps (B "ld")) _ (H1 a (prefixed ps (B "as")))).
  - intros [ps|] l mp E; [|discriminate]. apply (f_equal (fun o => match o with Some x => x | None => [] end)) in E. rewrite <- E. apply (put_files_in (B "nasm") [B "nasm"] _ (H1 l (prefixed ps (B "ld")))).
Qed.

Lemma override_ok c cfg : (exists r msg, run_override c cfg = Data r true msg) <->
  match how c with
  | Gcc arch _ => exists v, In v [Str (B "native"); Null] /\ passes_with c (put arch v cfg) = true
  | _ => passes_with c cfg = true
  end.
Proof.
  assert (PP : forall arch a b d, put arch a (put arch b d) = put arch a d).
  { intros arch a b d. induction d as [|[k v] d IH]; cbn [put]; [rewrite beqb_refl; reflexivity|].
    destruct (beqb arch k) eqn:E; cbn [put]; rewrite E; [reflexivity|]. rewrite IH. reflexivity. }
  unfold run_override, run_test, gcc_run_test. destruct (how c) as [mp|arch mp| | | | |]; cbv zeta.
  2: { rewrite PP. destruct (passes_with c (put arch (Str (B "native")) cfg)) eqn:E1.
       - split; [intros _; exists (Str (B "native")); split; [left; reflexivity|exact E1]|intros _; eauto].
       - destruct (passes_with c (put arch Null cfg)) eqn:E2.
         + split; [intros _; exists Null; split; [right; left; reflexivity|exact E2]|intros _; eauto].
         + split; [intros (r & msg & X); discriminate X|]. intros (v & [<-|[<-|[]]] & X); congruence. }
  all: destruct (passes_with c cfg); split; intros X; try reflexivity; eauto; try discriminate X; destruct X as (r & msg & X); discriminate X.
Qed.
