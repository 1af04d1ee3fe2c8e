From Coq Require Import String QArith Qpower.
From Verif Require Import Model.Bytes Model.Packets Spec.Packets.
Local Open Scope nat_scope.
Local Open Scope list_scope.

Section Q.
  Variable payload : Type.
  Notation case := (case payload).
  Notation op := (op payload).
  Notation state := (state payload).
  Notation ipc := (ipc payload).

  Definition own (c : case) : event := CaseSeen (owner _ c) (position _ c) (info _ c).
  Fixpoint rem (cur : option nat) (prog : list op) : list (@event payload) :=
    match prog with
    | [] => []
    | SetCurrent _ c :: r => rem c r
    | Append _ c :: r => own c :: rem cur r
    | Flush _ :: r => rem cur r
    | Send _ c :: r => ControlSeen c cur :: rem cur r
    end.
  Fixpoint ok (cl : bool) (cur : option nat) (prog : list op) : Prop :=
    match prog with
    | [] => cl = true
    | SetCurrent _ c :: r => cl = true /\ ok true c r
    | Append _ c :: r => cur = Some (owner _ c) /\ ok false cur r
    | Flush _ :: r => cur <> None /\ ok true cur r
    | Send _ c :: r => cl = true /\ cur <> None /\ ok true cur r
    end.
  Lemma ok_weaken prog : forall cl cur, ok false cur prog -> ok cl cur prog.
  Proof. destruct prog as [|[]]; cbn; intros cl cur; intuition discriminate. Qed.

  Definition pend (s : state) : list case :=
    match g_phase _ s, f_phase _ s with FlSent, _ | _, FlSent => [] | _, _ => queue _ s end.
  Definition in_flush (p : phase) : Prop := p = FlLocked \/ p = FlNonempty \/ p = FlSent \/ p = FlDone.

  Definition locked_ok (s : state) : Prop :=
    match lock _ s with
    | None => g_phase _ s = Out /\ f_phase _ s = Out
    | Some Grader => g_phase _ s <> Out /\ f_phase _ s = Out
    | Some Flusher => g_phase _ s = Out /\ in_flush (f_phase _ s)
    end.
  Definition graded_ok (s : state) : Prop :=
    match g_phase _ s with
    | Out => exists cl, ok cl (current _ s) (program _ s) /\ (cl = true -> pend s = [])
    | ApLocked => exists c r, program _ s = Append _ c :: r /\ ok false (current _ s) r /\ current _ s = Some (owner _ c)
    | ApDone => exists c r, program _ s = Append _ c :: r /\ ok false (current _ s) r
    | FlLocked | FlNonempty => exists r, program _ s = Flush _ :: r /\ ok true (current _ s) r
    | FlSent | FlDone => exists r, program _ s = Flush _ :: r /\ ok true (current _ s) r /\ pend s = []
    end.
  Definition remaining (s : state) : list event :=
    match g_phase _ s with ApDone => rem (current _ s) (tl (program _ s)) | _ => rem (current _ s) (program _ s) end.

  Record Inv (all : list event) (s : state) : Prop := {
    i_lock : locked_ok s;
    i_g : graded_ok s;
    i_own : Forall (fun c => current _ s = Some (owner _ c)) (pend s);
    i_fn : g_phase _ s = FlNonempty \/ f_phase _ s = FlNonempty -> queue _ s <> [];
    i_fd : f_phase _ s = FlDone -> pend s = [];
    i_eq : all_seen (wire _ s) ++ map own (pend s) ++ remaining s = all
  }.

  Lemma seen_app (a b : list (packet payload)) : all_seen (a ++ b) = all_seen a ++ all_seen b.
  Proof. apply flat_map_app. Qed.
  Lemma seen_queue id (q : list case) : Forall (fun c => Some id = Some (owner _ c)) q ->
    map (fun c => CaseSeen id (position _ c) (info _ c)) q = map own q.
  Proof. induction 1 as [|c q H _ IH]; cbn; [reflexivity|]. injection H as ->. f_equal. exact IH. Qed.

  Ltac expl := cbn [queue lock current wire g_phase program f_phase set_phase set_lock set_queue emit pop tl] in *.

  Ltac fin := auto; try discriminate; try (intros [X|X]; discriminate); try (intros _; discriminate); try (split; [discriminate|reflexivity]);
    try (exists true; split; auto; fail); try (eexists; eexists; split; [reflexivity|auto]; fail); try (eexists; split; [reflexivity|auto]; fail).
  Lemma step_inv all s m : Inv all s -> Inv all (step _ s m).
  Proof.
    intros [L Gk O N D E]. destruct s as [q lk cur w gp pr fp]. unfold locked_ok, graded_ok, pend, remaining in *. expl.
    destruct m as [| |n]; cbn [step].
    - (* grader *)
      unfold grader_step. expl. destruct pr as [|[c|c| |c] pr].
      + split; unfold locked_ok, graded_ok, pend, remaining; expl; assumption.
      + (* SetCurrent *) destruct gp; try (destruct Gk as [? [? [X _]]]; discriminate); try (destruct Gk as [? [X _]]; discriminate).
        destruct Gk as [cl [[-> Hok] Hp]]. specialize (Hp eq_refl). expl.
        split; unfold locked_ok, graded_ok, pend, remaining, in_flush; expl; fin.
        * destruct fp; rewrite ?Hp; constructor.
      + (* Append *) destruct gp.
        * destruct lk as [t|].
          -- split; unfold locked_ok, graded_ok, pend, remaining, in_flush; expl; fin.
          -- expl. destruct Gk as [cl [[Hc Hok] Hp]]. destruct L as [_ ->]. split; unfold locked_ok, graded_ok, pend, remaining, in_flush; expl; fin.
        * expl. destruct Gk as [c' [r [X [Hok Hc]]]]. injection X as <- <-.
          assert (fp = Out) as ->. { destruct lk as [[]|]; [apply L| |]; destruct L as [X _]; discriminate. }
          split; unfold locked_ok, graded_ok, pend, remaining, in_flush; expl; fin.
          -- destruct lk as [[]|]; destruct L; split; congruence.
          -- apply Forall_app. split; [exact O|]. constructor; auto.
          -- rewrite map_app, <- E. cbn. rewrite <- !app_assoc. reflexivity.
        * expl. destruct Gk as [c' [r [X Hok]]]. injection X as <- <-.
          assert (fp = Out) as ->. { destruct lk as [[]|]; [apply L| |]; destruct L as [X _]; discriminate. }
          split; unfold locked_ok, graded_ok, pend, remaining, in_flush; expl; fin.
          -- exists false. split; [exact Hok|discriminate].
        * destruct Gk as [r [X _]]; discriminate.
        * destruct Gk as [r [X _]]; discriminate.
        * destruct Gk as [r [X _]]; discriminate.
        * destruct Gk as [r [X _]]; discriminate.
      + (* Flush *) destruct gp.
        * destruct lk as [t|].
          -- split; unfold locked_ok, graded_ok, pend, remaining, in_flush; expl; fin.
          -- expl. destruct Gk as [cl [[Hc Hok] Hp]]. destruct L as [_ ->]. split; unfold locked_ok, graded_ok, pend, remaining, in_flush; expl; fin.
        * destruct Gk as [c' [r [X _]]]; discriminate.
        * destruct Gk as [c' [r [X _]]]; discriminate.
        * cbn [flush_step]. expl. destruct Gk as [r [X Hok]]. injection X as <-.
          assert (fp = Out /\ lk = Some Grader) as [-> ->]. { destruct lk as [[]|]; [split; [apply L|reflexivity]| |]; destruct L as [X _]; discriminate. }
          destruct q as [|c q]; split; unfold locked_ok, graded_ok, pend, remaining, in_flush; expl; fin.
        * cbn [flush_step]. expl. destruct Gk as [r [X Hok]]. injection X as <-.
          assert (fp = Out /\ lk = Some Grader) as [-> ->]. { destruct lk as [[]|]; [split; [apply L|reflexivity]| |]; destruct L as [X _]; discriminate. }
          specialize (N (or_introl eq_refl)). destruct cur as [id|]; [|exfalso; destruct q as [|c q]; [contradiction|]; inversion O; discriminate].
          split; unfold locked_ok, graded_ok, pend, remaining, in_flush; expl; fin.
          -- rewrite seen_app. cbn. rewrite app_nil_r, (seen_queue _ _ O), <- app_assoc. exact E.
        * cbn [flush_step]. expl. destruct Gk as [r [X [Hok _]]]. injection X as <-.
          assert (fp = Out /\ lk = Some Grader) as [-> ->]. { destruct lk as [[]|]; [split; [apply L|reflexivity]| |]; destruct L as [X _]; discriminate. }
          split; unfold locked_ok, graded_ok, pend, remaining, in_flush; expl; fin.
        * cbn [flush_step]. expl. destruct Gk as [r [X [Hok Hp]]]. injection X as <-.
          assert (fp = Out /\ lk = Some Grader) as [-> ->]. { destruct lk as [[]|]; [split; [apply L|reflexivity]| |]; destruct L as [X _]; discriminate. }
          split; unfold locked_ok, graded_ok, pend, remaining, in_flush; expl; fin.
      + (* Send *) destruct gp; try (destruct Gk as [? [? [X _]]]; discriminate); try (destruct Gk as [? [X _]]; discriminate).
        destruct Gk as [cl [[-> [Hc Hok]] Hp]]. specialize (Hp eq_refl). expl.
        split; unfold locked_ok, graded_ok, pend, remaining, in_flush; expl; fin.
        * rewrite seen_app. cbn. rewrite <- E. destruct fp; rewrite ?Hp; cbn; rewrite <- ?app_assoc; reflexivity.
    - (* flusher *)
      unfold flusher_step. expl. destruct fp.
      + destruct lk as [t|].
        * split; unfold locked_ok, graded_ok, pend, remaining, in_flush; expl; fin.
        * destruct L as [-> _]. split; unfold locked_ok, graded_ok, pend, remaining, in_flush; expl; fin.
      + exfalso. destruct lk as [[]|]; [destruct L as [_ X]|destruct L as [_ [X|[X|[X|X]]]]|destruct L as [_ X]]; discriminate.
      + exfalso. destruct lk as [[]|]; [destruct L as [_ X]|destruct L as [_ [X|[X|[X|X]]]]|destruct L as [_ X]]; discriminate.
      + assert (lk = Some Flusher /\ gp = Out) as [-> ->]. { destruct lk as [[]|]; [destruct L; discriminate| |destruct L; discriminate]. destruct L; auto. }
        cbn [flush_step]. expl.
        destruct q as [|c q]; split; unfold locked_ok, graded_ok, pend, remaining, in_flush; expl; fin.
      + assert (lk = Some Flusher /\ gp = Out) as [-> ->]. { destruct lk as [[]|]; [destruct L; discriminate| |destruct L; discriminate]. destruct L; auto. }
        cbn [flush_step]. expl. specialize (N (or_intror eq_refl)).
        destruct cur as [id|]; [|exfalso; destruct q as [|c q]; [contradiction|]; inversion O; discriminate].
        split; unfold locked_ok, graded_ok, pend, remaining, in_flush; expl; fin.
        * destruct Gk as [cl [H1 H2]]. exists cl. auto.
        * rewrite seen_app. cbn. rewrite app_nil_r, (seen_queue _ _ O), <- app_assoc. exact E.
      + assert (lk = Some Flusher /\ gp = Out) as [-> ->]. { destruct lk as [[]|]; [destruct L; discriminate| |destruct L; discriminate]. destruct L; auto. }
        cbn [flush_step]. expl.
        split; unfold locked_ok, graded_ok, pend, remaining, in_flush; expl; fin.
      + assert (lk = Some Flusher /\ gp = Out) as [-> ->]. { destruct lk as [[]|]; [destruct L; discriminate| |destruct L; discriminate]. destruct L; auto. }
        cbn [flush_step]. expl.
        split; unfold locked_ok, graded_ok, pend, remaining, in_flush; expl; fin.
    - split; unfold locked_ok, graded_ok, pend, remaining, in_flush; expl; fin.
      rewrite seen_app. cbn. rewrite app_nil_r. exact E.
  Qed.
  Lemma run_inv all sch : forall s, Inv all s -> Inv all (run _ s sch).
  Proof. induction sch as [|m sch IH]; intros s H; [exact H|]. cbn. apply IH, step_inv, H. Qed.

  Lemma ok_header sub ms rest : Forall header ms -> ok true (Some sub) rest ->
    ok true (Some sub) (flat_map (ops_of _ sub) ms ++ rest).
  Proof.
    induction 1 as [|m ms H _ IH]; intros Hr; [exact Hr|]. destruct m; try contradiction; cbn; repeat split; auto; discriminate.
  Qed.
  Lemma ok_body sub ms : forall cl rest, Forall (fun m => ~ header m) ms -> ok false (Some sub) rest ->
    ok cl (Some sub) (flat_map (ops_of _ sub) ms ++ rest).
  Proof.
    induction ms as [|m ms IH]; intros cl rest H Hr; [apply ok_weaken, Hr|]. inversion H as [|? ? H1 H2]; subst.
    destruct m; try (exfalso; apply H1; exact I); cbn; repeat split; auto; discriminate.
  Qed.
  Lemma ok_history h : Forall (fun sm => worker_like (snd sm)) h -> ok true None (history_ops payload h).
  Proof.
    induction 1 as [|[sub ms] h [pre [body [E [Hp [Hb He]]]]] _ IH]; [reflexivity|].
    cbn in E. subst ms. cbn. split; [reflexivity|]. rewrite flat_map_app, <- !app_assoc. cbn [app]. apply ok_header; [exact Hp|].
    destruct He as [->|[b [t [-> Ht]]]]; [cbn; auto|].
    rewrite flat_map_app, <- app_assoc. apply Forall_app in Hb as [Hb Hh]. apply ok_body; [exact Hb|]. inversion Hh as [|? ? Hh' _]; subst.
    destruct t; try (exfalso; apply Hh'; exact I); try (exfalso; apply Ht; exact I); cbn; repeat split; auto; discriminate.
  Qed.
  Lemma rem_ops sub ms rest : rem (Some sub) (flat_map (ops_of payload sub) ms ++ rest) = map (reported1 sub) ms ++ rem (Some sub) rest.
  Proof. induction ms as [|m ms IH]; [reflexivity|]. destruct m; cbn; rewrite IH; reflexivity. Qed.
  Lemma rem_history h : forall cur, rem cur (history_ops payload h) = reported h.
  Proof.
    induction h as [|[sub ms] h IH]; intros cur; [reflexivity|]. cbn. rewrite <- app_assoc. rewrite rem_ops. cbn. rewrite IH. reflexivity.
  Qed.
  Lemma init_inv h : Forall (fun sm => worker_like (snd sm)) h -> Inv (reported h) (init _ (history_ops payload h)).
  Proof.
    intros H. split; unfold locked_ok, graded_ok, pend, remaining, init; expl; auto.
    - exists true. split; [apply ok_history, H|reflexivity].
    - intros [X|X]; discriminate.
    - apply rem_history.
  Qed.

  Theorem queue_prefix h sch : Forall (fun sm => worker_like (snd sm)) h ->
    prefix (all_seen (wire _ (run _ (init _ (history_ops payload h)) sch))) (reported h).
  Proof. intros H. pose proof (run_inv _ sch _ (init_inv h H)) as [_ _ _ _ _ E]. eexists. symmetry. exact E. Qed.
  Theorem queue_done h sch : Forall (fun sm => worker_like (snd sm)) h ->
    let s := run _ (init _ (history_ops payload h)) sch in
    program _ s = [] -> all_seen (wire _ s) = reported h /\ (lock _ s = None -> queue _ s = []).
  Proof.
    intros H s Hp. pose proof (run_inv _ sch _ (init_inv h H)) as [L Gk _ _ _ E]. fold s in L, Gk, E.
    unfold graded_ok in Gk. unfold remaining in E. rewrite Hp in *. unfold locked_ok in L.
    destruct (g_phase payload s) eqn:Eg; try (destruct Gk as [? [? [X _]]]; discriminate); try (destruct Gk as [? [X _]]; discriminate).
    destruct Gk as [cl [X Y]]. cbn in X. specialize (Y X). rewrite Y in E. cbn in E. rewrite app_nil_r in E. split; [exact E|].
    intros El. rewrite El in L. destruct L as [_ L]. unfold pend in Y. rewrite Eg, L in Y. exact Y.
  Qed.

  (** From every state reached, some schedule finishes (nothing is ever stuck). *)
  Lemma run_app s a b : run payload s (a ++ b) = run _ (run _ s a) b.
  Proof. apply fold_left_app. Qed.
  Lemma flusher_out all s : Inv all s -> exists sch, f_phase _ (run payload s sch) = Out /\ program _ (run _ s sch) = program _ s /\ Inv all (run _ s sch).
  Proof.
    intros H. pose proof (step_inv _ _ F H) as H1. pose proof (step_inv _ _ F H1) as H2. pose proof (step_inv _ _ F H2) as H3. pose proof (step_inv _ _ F H3) as H4.
    destruct H as [L Gk O N D E]. destruct s as [q lk cur w gp pr fp]. unfold locked_ok, in_flush in L. expl. destruct fp.
    - exists []. repeat split; auto.
    - exfalso. destruct lk as [[]|]; [destruct L as [_ X]|destruct L as [_ [X|[X|[X|X]]]]|destruct L as [_ X]]; discriminate.
    - exfalso. destruct lk as [[]|]; [destruct L as [_ X]|destruct L as [_ [X|[X|[X|X]]]]|destruct L as [_ X]]; discriminate.
    - destruct q as [|c q].
      + exists [F; F]. cbn in H2 |- *. auto.
      + destruct cur as [id|]; [exists [F; F; F; F]|exists [F; F; F]]; cbn in H3, H4 |- *; auto.
    - destruct cur as [id|]; [exists [F; F; F]|exists [F; F]]; cbn in H3, H2 |- *; auto.
    - exists [F; F]. cbn in H2 |- *. auto.
    - exists [F]. cbn in H1 |- *. auto.
  Qed.
  Lemma grader_pops all s : Inv all s -> f_phase _ s = Out -> program _ s <> [] ->
    exists sch, program _ (run payload s sch) = tl (program _ s).
  Proof.
    intros H Hf Hp. destruct H as [L Gk O N D E]. destruct s as [q lk cur w gp pr fp]. unfold locked_ok, graded_ok in *. expl. subst fp.
    destruct pr as [|o pr]; [contradiction|]. destruct gp.
    - assert (lk = None) as ->. { destruct lk as [[]|]; [destruct L; congruence|destruct L as [_ [X|[X|[X|X]]]]; discriminate|reflexivity]. }
      destruct o as [c|c| |c].
      + exists [G]. reflexivity.
      + exists [G; G; G]. reflexivity.
      + destruct q as [|c q].
        * exists [G; G; G]. reflexivity.
        * destruct cur; [exists [G; G; G; G; G]|exists [G; G; G; G]]; reflexivity.
      + exists [G]. reflexivity.
    - destruct Gk as [c [r [X _]]]. injection X as -> ->. exists [G; G]. reflexivity.
    - destruct Gk as [c [r [X _]]]. injection X as -> ->. exists [G]. reflexivity.
    - destruct Gk as [r [X _]]. injection X as -> ->. destruct q as [|c q].
      + exists [G; G]. reflexivity.
      + destruct cur; [exists [G; G; G; G]|exists [G; G; G]]; reflexivity.
    - destruct Gk as [r [X _]]. injection X as -> ->. destruct cur; [exists [G; G; G]|exists [G; G]]; reflexivity.
    - destruct Gk as [r [X _]]. injection X as -> ->. exists [G; G]. reflexivity.
    - destruct Gk as [r [X _]]. injection X as -> ->. exists [G]. reflexivity.
  Qed.
  Lemma can_finish_inv all n : forall s, Inv all s -> length (program _ s) = n -> exists sch, program _ (run payload s sch) = [].
  Proof.
    induction n as [|n IH]; intros s H Hn.
    - exists []. cbn. destruct (program payload s); [reflexivity|discriminate].
    - destruct (flusher_out _ _ H) as [s1 [H1 [H2 H3]]].
      assert (program _ (run payload s s1) <> []) as Hne. { rewrite H2. destruct (program payload s); [discriminate|discriminate]. }
      destruct (grader_pops _ _ H3 H1 Hne) as [s2 H4].
      destruct (IH (run _ (run _ s s1) s2)) as [s3 H5].
      + apply run_inv, H3.
      + rewrite H4, H2. destruct (program payload s); [discriminate|]. cbn in *. congruence.
      + exists (s1 ++ s2 ++ s3). rewrite !run_app. exact H5.
  Qed.
  Theorem queue_can_finish h sch : Forall (fun sm => worker_like (snd sm)) h ->
    exists more, program _ (run _ (init _ (history_ops payload h)) (sch ++ more)) = [].
  Proof.
    intros H. pose proof (run_inv _ sch _ (init_inv h H)) as I1. destruct (can_finish_inv _ _ _ I1 eq_refl) as [more Hm].
    exists more. rewrite run_app. exact Hm.
  Qed.
End Q.

(** ** Framing *)
Lemma buffered_read_ok n : forall chunks buf,
  let r := buffered_read n buf chunks in
  fst r = firstn (N.to_nat n) (buf ++ concat chunks) /\ fst (snd r) ++ concat (snd (snd r)) = skipn (N.to_nat n) (buf ++ concat chunks).
Proof.
  induction chunks as [|c chunks IH]; intros buf; cbn [buffered_read].
  - destruct (N.leb_spec n (N.of_nat (length buf))) as [H|H]; cbn; rewrite app_nil_r.
    + rewrite app_nil_r. auto.
    + rewrite firstn_all2, skipn_all2 by lia. auto.
  - destruct (N.leb_spec n (N.of_nat (length buf))) as [H|H].
    + cbn. rewrite firstn_app, skipn_app. replace (N.to_nat n - length buf) with 0 by lia. cbn. rewrite app_nil_r. auto.
    + specialize (IH (buf ++ c)). cbn in IH |- *. rewrite <- app_assoc in IH. exact IH.
Qed.

Section Fr.
  Variable message : Type.
  Variable encode : message -> list N.
  Variable decode : list N -> decoded message.
  Hypothesis round_trip : forall m, decode (encode m) = Message m.
  Hypothesis truncated : forall m a c, encode m = a ++ c -> c <> [] -> decode a = ZlibError.
  Notation small m := (N.of_nat (length (encode m)) < 2 ^ 32)%N.
  Definition header4 (m : message) : list N :=
    let n := N.of_nat (length (encode m)) in
    [(n / 2 ^ 24)%N; ((n / 2 ^ 16) mod 256)%N; ((n / 2 ^ 8) mod 256)%N; (n mod 256)%N].
  Lemma framed_cons m ms : framed encode (m :: ms) = header4 m ++ encode m ++ framed encode ms.
  Proof. reflexivity. Qed.
  Lemma size_split n : (n = ((n / 2 ^ 24 * 256 + (n / 2 ^ 16) mod 256) * 256 + (n / 2 ^ 8) mod 256) * 256 + n mod 256)%N.
  Proof.
    change (2 ^ 24)%N with (256 * (256 * 256))%N. change (2 ^ 16)%N with (256 * 256)%N. change (2 ^ 8)%N with 256%N.
    rewrite <- !N.div_div by discriminate.
    pose proof (N.div_mod n 256 ltac:(discriminate)). pose proof (N.div_mod (n / 256) 256 ltac:(discriminate)).
    pose proof (N.div_mod (n / 256 / 256) 256 ltac:(discriminate)). lia.
  Qed.
  Lemma unpack_header m : unpack_size (header4 m) = Some (N.of_nat (length (encode m))).
  Proof. cbn [header4 unpack_size]. rewrite <- size_split. reflexivity. Qed.
  Lemma frame_ok m : small m -> frame message encode m = Some (framed encode [m]).
  Proof.
    intros H. unfold frame, pack_size. rewrite (proj2 (N.ltb_lt _ _) H). rewrite framed_cons. cbn [framed]. rewrite app_nil_r.
    unfold header4. rewrite (N.mod_small (_ / 2 ^ 24)); [reflexivity|]. apply N.div_lt_upper_bound; [discriminate|]. exact H.
  Qed.
  Lemma frame_exit m : ~ small m -> frame message encode m = None.
  Proof. intros H. unfold frame, pack_size. rewrite (proj2 (N.ltb_ge _ _)); [reflexivity|lia]. Qed.

  Notation bytes_of st := (fst st ++ concat (snd st)).
  (** Reading one packet when at least the header is there. *)
  Lemma read_body m st rest : bytes_of st = header4 m ++ rest ->
    exists st', bytes_of st' = skipn (length (encode m)) rest /\
      read_single message decode st =
        (match decode (firstn (length (encode m)) rest) with Message x => Packet x | ZlibError => Reconnect | OtherError => Crash end, st').
  Proof.
    intros E. unfold read_single. pose proof (buffered_read_ok 4 (snd st) (fst st)) as [H1 H2].
    destruct (buffered_read 4 (fst st) (snd st)) as [data st1]. cbn [fst snd] in H1, H2. rewrite E in H1, H2.
    change (N.to_nat 4) with (length (header4 m)) in H1, H2.
    rewrite firstn_app, Nat.sub_diag, firstn_all in H1. cbn [firstn] in H1. rewrite app_nil_r in H1.
    rewrite skipn_app, Nat.sub_diag, skipn_all in H2. cbn [skipn app] in H2. subst data.
    pose proof (unpack_header m) as Hu. destruct (header4 m) as [|b0 h] eqn:Eh; [discriminate|]. rewrite Hu.
    pose proof (buffered_read_ok (N.of_nat (length (encode m))) (snd st1) (fst st1)) as [H3 H4].
    destruct (buffered_read (N.of_nat (length (encode m))) (fst st1) (snd st1)) as [body st2]. cbn [fst snd] in H3, H4. rewrite H2, Nat2N.id in H3, H4.
    subst body. exists st2. split; [exact H4|]. destruct (decode _); reflexivity.
  Qed.
  Lemma read_one m st rest : bytes_of st = header4 m ++ encode m ++ rest ->
    exists st', bytes_of st' = rest /\ read_single message decode st = (Packet m, st').
  Proof.
    intros E. destruct (read_body _ _ _ E) as [st' [H1 H2]]. exists st'.
    rewrite skipn_app, Nat.sub_diag, skipn_all in H1. cbn [skipn app] in H1. split; [exact H1|].
    rewrite H2, firstn_app, Nat.sub_diag, firstn_all. cbn [firstn]. rewrite app_nil_r, round_trip. reflexivity.
  Qed.
  Lemma read_short st : length (bytes_of st) < 4 -> fst (read_single message decode st) = match bytes_of st with [] => Reconnect | _ => Crash end.
  Proof.
    intros H. unfold read_single. pose proof (buffered_read_ok 4 (snd st) (fst st)) as [H1 _].
    destruct (buffered_read 4 (fst st) (snd st)) as [data st1]. cbn [fst] in H1. change (N.to_nat 4) with 4 in H1. rewrite firstn_all2 in H1 by lia. subst data.
    destruct (bytes_of st) as [|a [|b [|c [|d l]]]]; cbn in H |- *; try reflexivity; lia.
  Qed.
  Lemma read_frames ms : forall st fuel rest, bytes_of st = framed encode ms ++ rest ->
    exists st', bytes_of st' = rest /\
      read_all message decode (length ms + fuel) st =
      (ms ++ fst (read_all message decode fuel st'), snd (read_all message decode fuel st')).
  Proof.
    induction ms as [|m ms IH]; intros st fuel rest E.
    - exists st. cbn in E |- *. split; [exact E|]. destruct (read_all message decode fuel st); reflexivity.
    - rewrite framed_cons, <- !app_assoc in E. destruct (read_one _ _ _ E) as [st1 [H1 H2]]. cbn [length Nat.add read_all]. rewrite H2.
      destruct (IH st1 fuel rest H1) as [st2 [H3 H4]]. exists st2. split; [exact H3|]. rewrite H4. reflexivity.
  Qed.

  Theorem framing ms chunks fuel : concat chunks = framed encode ms -> length ms < fuel ->
    read_all message decode fuel ([], chunks) = (ms, Some Reconnect).
  Proof.
    intros E Hf. destruct (read_frames ms ([], chunks) (S (fuel - length ms - 1)) []) as [st [H1 H2]].
    { cbn. rewrite app_nil_r. exact E. }
    replace (length ms + S (fuel - length ms - 1)) with fuel in H2 by lia. rewrite H2. cbn [read_all].
    pose proof (read_short st) as H3. rewrite H1 in H3. specialize (H3 (Nat.lt_0_succ _)).
    destruct (read_single message decode st) as [r st']. cbn in H3. subst r. cbn. rewrite app_nil_r. reflexivity.
  Qed.

  Lemma prefix_cases {A} (p a b : list A) : prefix p (a ++ b) -> (exists q, p = a ++ q /\ prefix q b) \/ (exists c, a = p ++ c /\ c <> []).
  Proof.
    intros [c E]. revert a E. induction p as [|x p IH]; intros a E.
    - destruct a as [|y a]; [left; exists []; split; [reflexivity|exists b; reflexivity]|right; exists (y :: a); split; [reflexivity|discriminate]].
    - destruct a as [|y a].
      + left. exists (x :: p). split; [reflexivity|]. exists c. exact E.
      + injection E as -> E. destruct (IH a E) as [[q [-> H]]|[d [-> H]]]; [left|right]; eexists; split; try reflexivity; assumption.
  Qed.
  (** A connection cut anywhere. *)
  Theorem framing_cut ms chunks fuel : prefix (concat chunks) (framed encode ms) -> length ms < fuel ->
    exists got rest cut, ms = got ++ rest /\ concat chunks = framed encode got ++ cut /\
      prefix cut (framed encode (firstn 1 rest)) /\ (forall m r, rest = m :: r -> cut <> framed encode [m]) /\
      read_all message decode fuel ([], chunks) = (got, Some (if (1 <=? length cut) && (length cut <=? 3) then Crash else Reconnect)).
  Proof.
    intros HP Hf.
    assert (exists got rest cut, ms = got ++ rest /\ concat chunks = framed encode got ++ cut /\
      prefix cut (framed encode (firstn 1 rest)) /\ (forall m r, rest = m :: r -> cut <> framed encode [m])) as [got [rest [cut [E1 [E2 [E3 E4]]]]]].
    { revert HP. generalize (concat chunks). clear Hf. induction ms as [|m ms IH]; intros p HP.
      - exists [], [], []. destruct HP as [c E]. destruct p; [|discriminate]. repeat split; auto. exists []. reflexivity. discriminate.
      - assert (framed encode (m :: ms) = framed encode [m] ++ framed encode ms) as EE by (rewrite !framed_cons; cbn [framed]; rewrite app_nil_r, app_assoc; reflexivity).
        rewrite EE in HP. apply prefix_cases in HP as [[q [-> HP]]|[c [Ec Hc]]].
        + destruct (IH _ HP) as [got [rest [cut [-> [-> [H3 H4]]]]]]. exists (m :: got), rest, cut. split; [reflexivity|]. split; [|split; assumption].
          rewrite (framed_cons m got), (framed_cons m []). cbn [framed]. rewrite app_nil_r, <- !app_assoc. reflexivity.
        + exists [], (m :: ms), p. split; [reflexivity|]. split; [reflexivity|]. split; [exists c; exact Ec|].
          intros m' r X Y. injection X as <- _. rewrite Y in Ec. apply (f_equal (@length _)) in Ec. rewrite app_length in Ec. destruct c; [contradiction|cbn in Ec; lia]. }
    exists got, rest, cut. repeat (split; [assumption|]).
    assert (length got < fuel) as Hg by (rewrite E1, app_length in Hf; lia).
    destruct (read_frames got ([], chunks) (S (fuel - length got - 1)) cut) as [st [H1 H2]]; [exact E2|].
    replace (length got + S (fuel - length got - 1)) with fuel in H2 by lia. rewrite H2. cbn [read_all].
    assert (fst (read_single message decode st) = if (1 <=? length cut) && (length cut <=? 3) then Crash else Reconnect) as H3.
    { destruct (le_lt_dec 4 (length cut)) as [Hl|Hl].
      - assert ((1 <=? length cut) && (length cut <=? 3) = false) as -> by (apply andb_false_iff; right; apply Nat.leb_gt; lia).
        destruct rest as [|m r]; [destruct E3 as [c E3]; destruct cut; [cbn in Hl; lia|discriminate]|].
        specialize (E4 m r eq_refl). cbn [firstn] in E3. rewrite framed_cons in E3. cbn [framed] in E3. rewrite app_nil_r in E3.
        apply prefix_cases in E3 as [[q [-> [c Ec]]]|[c [Ec Hc]]].
        + destruct (read_body m st q H1) as [st' [_ H3]]. rewrite H3. cbn [fst].
          rewrite firstn_all2 by (rewrite Ec, app_length; lia). rewrite (truncated m q c Ec); [reflexivity|].
          intros ->. apply E4. rewrite framed_cons. cbn [framed]. rewrite app_nil_r in Ec |- *. rewrite Ec. reflexivity.
        + apply (f_equal (@length _)) in Ec. rewrite app_length in Ec. cbn in Ec. destruct c; [contradiction|cbn in Ec; lia].
      - pose proof (read_short st) as X. rewrite H1 in X. rewrite (X Hl). destruct cut as [|a cut]; [reflexivity|].
        cbn in Hl |- *. destruct (Nat.leb_spec (length cut) 2); [reflexivity|lia]. }
    destruct (read_single message decode st) as [r st']. cbn in H3. subst r. destruct (_ && _); cbn; rewrite app_nil_r; reflexivity.
  Qed.
End Fr.

(** ** Several writers *)
Lemma upd_same {A} (f : nat -> A) i v : upd f i v i = v.
Proof. unfold upd. rewrite Nat.eqb_refl. reflexivity. Qed.
Lemma upd_other {A} (f : nat -> A) i v j : j <> i -> upd f i v j = f j.
Proof. intros H. unfold upd. destruct (Nat.eqb_spec j i); [contradiction|reflexivity]. Qed.
Definition flat2 (l : list (list N * list N)) : list N := concat (map (fun p => fst p ++ snd p) l).
Lemma merge_snoc {A} (ls : nat -> list A) l : merge ls l -> forall i x, merge (upd ls i (ls i ++ [x])) (l ++ [x]).
Proof.
  induction 1 as [ls H|ls k y r ls' l H1 H2 H3 _ IH]; intros i x.
  - cbn. apply (merge_cons _ i x [] (upd ls i [])).
    + rewrite upd_same, H. reflexivity.
    + apply upd_same.
    + intros j Hj. rewrite !upd_other by exact Hj. reflexivity.
    + constructor. intros j. destruct (Nat.eq_dec j i) as [->|Hj]; [apply upd_same|]. rewrite upd_other by exact Hj. apply H.
  - cbn. destruct (Nat.eq_dec k i) as [->|Hk].
    + apply (merge_cons _ i y (r ++ [x]) (upd ls' i (ls' i ++ [x]))).
      * rewrite upd_same, H1. reflexivity.
      * rewrite upd_same, H2. reflexivity.
      * intros j Hj. rewrite !upd_other by exact Hj. apply H3, Hj.
      * apply IH.
    + apply (merge_cons _ k y r (upd ls' i (ls' i ++ [x]))).
      * rewrite upd_other by exact Hk. exact H1.
      * rewrite upd_other by exact Hk. exact H2.
      * intros j Hj. destruct (Nat.eq_dec j i) as [->|Hji]; [rewrite !upd_same, H3 by (intros ->; contradiction); reflexivity|]. rewrite !upd_other by exact Hji. apply H3, Hj.
      * apply IH.
Qed.

Definition partial (s : writers) : list N :=
  match w_lock s with
  | Some i => match w_phase s i, w_todo s i with WHeader, (h, _) :: _ => h | _, _ => [] end
  | None => []
  end.
Definition left (s : writers) (i : nat) := match w_phase s i with WBody => tl (w_todo s i) | _ => w_todo s i end.
Record WInv (todo0 : nat -> list (list N * list N)) (s : writers) : Prop := {
  wi_lock : forall i, w_phase s i <> WOut <-> w_lock s = Some i;
  wi_done : exists d done, merge d done /\ w_wire s = flat2 done ++ partial s /\ forall i, todo0 i = d i ++ left s i
}.
Lemma flat2_snoc l h b : flat2 (l ++ [(h, b)]) = flat2 l ++ h ++ b.
Proof. unfold flat2. rewrite map_app, concat_app. cbn. rewrite app_nil_r. reflexivity. Qed.
Lemma writer_inv todo0 s i : WInv todo0 s -> WInv todo0 (writer_step s i).
Proof.
  intros H. unfold writer_step. destruct (w_todo s i) as [|[h b] rest] eqn:Et; [exact H|].
  destruct H as [L [d [done [M [W T]]]]]. unfold partial, left in *. destruct s as [lk ph td w]. cbn in *.
  destruct (ph i) eqn:Ep.
  - destruct lk as [k|]; [split; cbn; [exact L|exists d, done; auto]|]. split; cbn.
    + intros j. destruct (Nat.eq_dec j i) as [->|Hj]; [rewrite upd_same; split; [reflexivity|discriminate]|]. rewrite upd_other by exact Hj. rewrite L. split; congruence.
    + exists d, done. unfold partial, left. cbn. rewrite upd_same. split; [exact M|]. split; [exact W|].
      intros j. destruct (Nat.eq_dec j i) as [->|Hj]; [rewrite upd_same; rewrite T, Ep; reflexivity|]. rewrite upd_other by exact Hj. apply T.
  - assert (lk = Some i) as -> by (apply L; congruence). rewrite Ep in W. split; cbn.
    + intros j. destruct (Nat.eq_dec j i) as [->|Hj]; [rewrite upd_same; split; [reflexivity|discriminate]|]. rewrite upd_other by exact Hj. apply L.
    + exists d, done. unfold partial, left. cbn. rewrite upd_same, Et. split; [exact M|]. split; [rewrite W, app_nil_r; reflexivity|].
      intros j. destruct (Nat.eq_dec j i) as [->|Hj]; [rewrite upd_same; rewrite T, Ep; reflexivity|]. rewrite upd_other by exact Hj. apply T.
  - assert (lk = Some i) as -> by (apply L; congruence). rewrite Ep, Et in W. split; cbn.
    + intros j. destruct (Nat.eq_dec j i) as [->|Hj]; [rewrite upd_same; split; [reflexivity|discriminate]|]. rewrite upd_other by exact Hj. apply L.
    + exists (upd d i (d i ++ [(h, b)])), (done ++ [(h, b)]). unfold partial, left. cbn. rewrite upd_same. split; [apply merge_snoc, M|].
      split; [rewrite flat2_snoc, app_nil_r, W, app_assoc; reflexivity|].
      intros j. destruct (Nat.eq_dec j i) as [->|Hj]; [rewrite !upd_same; rewrite T, Ep, Et, <- app_assoc; reflexivity|]. rewrite !upd_other by exact Hj. apply T.
  - assert (lk = Some i) as -> by (apply L; congruence). rewrite Ep in W. split; cbn.
    + intros j. destruct (Nat.eq_dec j i) as [->|Hj]; [rewrite upd_same; split; [intros X; contradiction|discriminate]|]. rewrite upd_other by exact Hj. rewrite L. split; congruence.
    + exists d, done. unfold partial, left. cbn. split; [exact M|]. split; [exact W|].
      intros j. destruct (Nat.eq_dec j i) as [->|Hj]; [rewrite !upd_same; rewrite T, Ep, Et; reflexivity|]. rewrite !upd_other by exact Hj. apply T.
Qed.
Lemma writers_inv todo0 sch : forall s, WInv todo0 s -> WInv todo0 (writers_run s sch).
Proof. induction sch as [|i sch IH]; intros s H; [exact H|]. cbn. apply IH, writer_inv, H. Qed.
Lemma writers_init_inv todo0 : WInv todo0 (writers_init todo0).
Proof.
  split; cbn.
  - intros i. split; [intros X; contradiction|discriminate].
  - exists (fun _ => []), []. split; [constructor; reflexivity|]. split; reflexivity.
Qed.
Theorem writers_frames todo0 sch :
  let s := writers_run (writers_init todo0) sch in
  exists sent done cut, merge sent done /\ (forall i, prefix (sent i) (todo0 i)) /\
    w_wire s = concat (map (fun p => fst p ++ snd p) done) ++ cut /\
    (cut = [] \/ exists i h b, w_lock s = Some i /\ nth_error (todo0 i) (length (sent i)) = Some (h, b) /\ cut = h) /\
    ((forall i, w_todo s i = []) -> forall i, sent i = todo0 i).
Proof.
  intros s. destruct (writers_inv todo0 sch _ (writers_init_inv todo0)) as [L [d [done [M [W T]]]]]. fold s in L, W, T.
  exists d, done, (partial s). split; [exact M|]. split; [intros i; eexists; apply T|]. split; [exact W|]. split.
  - unfold partial. destruct (w_lock s) as [i|] eqn:El; [|left; reflexivity]. destruct (w_phase s i) eqn:Ep; try (left; reflexivity).
    destruct (w_todo s i) as [|[h b] r] eqn:Et; [left; reflexivity|]. right. exists i, h, b. split; [reflexivity|]. split; [|reflexivity].
    specialize (T i). unfold left in T. rewrite Ep, Et in T. rewrite T, nth_error_app2, Nat.sub_diag by lia. reflexivity.
  - intros H i. specialize (T i). unfold left in T. rewrite H in T. destruct (w_phase s i); cbn in T; rewrite app_nil_r in T; auto.
Qed.

(** ** Backoff *)
Lemma delay_S k : (delay (S k) == delay k * (3 # 2))%Q.
Proof. unfold delay. rewrite Nat2Z.inj_succ. unfold Z.succ. rewrite Qpower_plus by discriminate. ring. Qed.
Lemma pow32_mono k : (1 <= (3 # 2) ^ Z.of_nat k)%Q.
Proof.
  induction k as [|k IH]; [discriminate|]. rewrite Nat2Z.inj_succ. unfold Z.succ. rewrite Qpower_plus by discriminate.
  apply (Qle_trans _ ((3 # 2) ^ Z.of_nat k * 1)); [rewrite Qmult_1_r; exact IH|]. apply Qmult_le_l; [|discriminate]. apply (Qlt_le_trans _ 1); [reflexivity|exact IH].
Qed.
Lemma delay_mono j k : j <= k -> (delay j <= delay k)%Q.
Proof.
  induction 1 as [|k H IH]; [apply Qle_refl|]. eapply Qle_trans; [exact IH|]. rewrite delay_S.
  assert (0 <= delay k)%Q. { unfold delay. apply Qmult_le_0_compat; [discriminate|]. eapply Qle_trans; [|apply pow32_mono]. discriminate. }
  setoid_replace (delay k) with (delay k * 1)%Q at 1 by ring. apply Qmult_le_compat_nonneg; split; try discriminate; try assumption. apply Qle_refl.
Qed.
Lemma delay_24 : (delay 24 <= 86400)%Q. Proof. vm_compute. discriminate. Qed.
Lemma delay_25 : (86400 < delay 25)%Q. Proof. vm_compute. reflexivity. Qed.

Notation spec_waits := expected_waits.
Fixpoint spec_gave_up (k : nat) (es : list conn_event) : bool :=
  match es with
  | [] => false
  | Graded :: r => spec_gave_up 0 r
  | Drop :: r => if k <=? 24 then spec_gave_up (S k) r else true
  end.
Lemma conn_stop es : forall s, gave_up s = true -> conn_run s es = s.
Proof. induction es as [|e es IH]; intros s H; [reflexivity|]. cbn. unfold conn_step. rewrite H. apply IH, H. Qed.
Lemma conn_spec es : forall s k, (fallback s == delay k)%Q -> gave_up s = false ->
  exists ws, waits (conn_run s es) = waits s ++ ws /\ Forall2 (fun w j => (w == delay j)%Q) ws (spec_waits k es) /\
    gave_up (conn_run s es) = spec_gave_up k es.
Proof.
  induction es as [|[] es IH]; intros s k Hf Hg.
  - exists []. rewrite app_nil_r. cbn. auto.
  - change (conn_run s (Drop :: es)) with (conn_run (conn_step s Drop) es). cbn [spec_waits spec_gave_up]. unfold conn_step. rewrite Hg. destruct (Qle_bool (fallback s) 86400) eqn:Eq.
    + apply Qle_bool_iff in Eq. rewrite Hf in Eq.
      assert (k <=? 24 = true) as ->.
      { apply Nat.leb_le. destruct (le_lt_dec k 24) as [H|H]; [exact H|exfalso]. apply (Qlt_irrefl 86400).
        eapply Qlt_le_trans; [apply delay_25|]. eapply Qle_trans; [apply (delay_mono 25 k); lia|exact Eq]. }
      destruct (IH (Backoff (fallback s * (3 # 2)) (waits s ++ [fallback s]) false) (S k)) as [ws [H1 [H2 H3]]].
      * cbn. rewrite delay_S, Hf. reflexivity.
      * reflexivity.
      * exists (fallback s :: ws). rewrite H1. cbn. rewrite <- app_assoc. split; [reflexivity|]. split; [constructor; assumption|exact H3].
    + assert (k <=? 24 = false) as ->.
      { apply Nat.leb_gt. destruct (le_lt_dec k 24) as [H|H]; [exfalso|exact H].
        assert (Qle_bool (fallback s) 86400 = true); [|congruence]. apply Qle_bool_iff. rewrite Hf. eapply Qle_trans; [apply (delay_mono k 24 H)|apply delay_24]. }
      exists []. rewrite conn_stop by reflexivity. cbn. rewrite app_nil_r. auto.
  - change (conn_run s (Graded :: es)) with (conn_run (conn_step s Graded) es). cbn [spec_waits spec_gave_up]. unfold conn_step. rewrite Hg. apply (IH (Backoff 4 (waits s) false)); reflexivity.
Qed.
Lemma spec_bound es : forall k, Forall (fun j => j <= 24) (spec_waits k es).
Proof.
  induction es as [|[] es IH]; intros k; cbn; [constructor| |apply IH].
  destruct (Nat.leb_spec k 24); [constructor; [assumption|apply IH]|constructor].
Qed.
Lemma spec_drops n : forall k, k <= 25 -> spec_gave_up k (repeat Drop n) = (25 - k <? n).
Proof.
  induction n as [|n IH]; intros k Hk; [reflexivity|]. cbn [repeat spec_gave_up].
  destruct (Nat.leb_spec k 24) as [H|H].
  - rewrite IH by lia. apply Bool.eq_true_iff_eq. rewrite !Nat.ltb_lt. lia.
  - symmetry. apply Nat.ltb_lt. lia.
Qed.
Lemma gave_up_iff_gen es : forall k, k <= 25 ->
  (spec_gave_up k es = true <-> (exists a b, es = repeat Drop (26 - k) ++ b /\ a = tt) \/ exists a b, es = a ++ Graded :: repeat Drop 26 ++ b).
Proof.
  induction es as [|[] es IH]; intros k Hk; cbn [spec_gave_up].
  - split; [discriminate|]. intros [[_ [b [E _]]]|[a [b E]]].
    + destruct (26 - k) eqn:Ek; [lia|discriminate].
    + destruct a; discriminate.
  - destruct (Nat.leb_spec k 24) as [H|H].
    + rewrite IH by lia. split.
      * intros [[_ [b [-> _]]]|[a [b ->]]].
        -- left. exists tt, b. replace (26 - k) with (S (26 - S k)) by lia. auto.
        -- right. exists (Drop :: a), b. reflexivity.
      * intros [[_ [b [E _]]]|[a [b E]]].
        -- left. replace (26 - k) with (S (26 - S k)) in E by lia. injection E as ->. exists tt, b. auto.
        -- right. destruct a as [|x a]; [discriminate|]. injection E as _ ->. exists a, b. reflexivity.
    + split; [intros _|reflexivity]. left. replace (26 - k) with 1 by lia. exists tt, es. auto.
  - rewrite IH by lia. split.
    + intros [[_ [b [E _]]]|[a [b ->]]]; right.
      * exists [], b. cbn [app]. rewrite E. reflexivity.
      * exists (Graded :: a), b. reflexivity.
    + intros [[_ [b [E _]]]|[a [b E]]].
      * destruct (26 - k) eqn:Ek; [lia|discriminate].
      * destruct a as [|x a].
        -- injection E as ->. left. exists tt, b. auto.
        -- injection E as _ ->. right. exists a, b. reflexivity.
Qed.
Theorem gave_up_iff es : gave_up (conn_run conn_init es) = true <->
  exists before after, es = before ++ repeat Drop 26 ++ after /\ (before = [] \/ exists b, before = b ++ [Graded]).
Proof.
  destruct (conn_spec es conn_init 0) as [ws [_ [_ ->]]]; [reflexivity|reflexivity|]. rewrite gave_up_iff_gen by lia. split.
  - intros [[_ [b [-> _]]]|[a [b ->]]].
    + exists [], b. auto.
    + exists (a ++ [Graded]), b. rewrite <- app_assoc. split; [reflexivity|]. right. eauto.
  - intros [be [af [-> [->|[b ->]]]]].
    + left. exists tt, af. auto.
    + right. exists b, af. rewrite <- app_assoc. reflexivity.
Qed.

Theorem delays es : Forall2 (fun w j => (w == delay j)%Q) (waits (conn_run conn_init es)) (expected_waits 0 es).
Proof. destruct (conn_spec es conn_init 0) as [ws [-> [H _]]]; [reflexivity|reflexivity|exact H]. Qed.
Theorem waits_bounded es : Forall (fun w => (4 <= w /\ w <= 86400)%Q) (waits (conn_run conn_init es)).
Proof.
  pose proof (spec_bound es 0) as HB. pose proof (delays es) as HD. revert HB HD. generalize (expected_waits 0 es). generalize (waits (conn_run conn_init es)).
  intros ws js HB HD. induction HD as [|w j ws js H _ IH]; [constructor|]. inversion HB; subst. constructor; [|apply IH; assumption].
  rewrite H. split; [apply (delay_mono 0 j); lia|]. eapply Qle_trans; [apply (delay_mono j 24); assumption|apply delay_24].
Qed.

(** ** Dispatch *)
From Verif Require Import Proofs.BytesLemmas.
Ltac name_cases n :=
  repeat match goal with
  | |- context [beqb n ?x] => destruct (beqb_spec n x); [subst n|]
  end.
Theorem dispatch_exact current p name : assoc (B "name") p = Some (JStr name) ->
  let acts := fst (receive_packet current p) in
  (forall w, In (Pong w) acts <-> name = B "ping" /\ assoc (B "when") p = Some w) /\
  (forall id, In (ReportCurrent id) acts <-> name = B "get-current-submission" /\ current = Some id) /\
  (forall id, In (Acknowledge id) acts <-> name = B "submission-request" /\ assoc (B "submission-id") p = Some id) /\
  (In AbortCurrent acts <-> name = B "terminate-submission" \/ name = B "disconnect") /\
  (In CloseConnection acts <-> name = B "disconnect") /\
  (In LogUnknown acts <-> ~ In name known_packets) /\
  (snd (receive_packet current p) = Exited <-> name = B "disconnect").
Proof.
  intros E. unfold receive_packet. rewrite E. unfold known_packets.
  destruct (beqb_spec name (B "ping")) as [->|H1]; [destruct (assoc (B "when") p) as [w0|] eqn:Ew|];
  [| |destruct (beqb_spec name (B "get-current-submission")) as [->|H2]; [destruct current as [c|]|]].
  1-4: cbn [fst snd In].
  1-4: repeat split; intros; repeat match goal with
    | H : _ \/ _ |- _ => destruct H
    | H : _ /\ _ |- _ => destruct H
    | H : False |- _ => destruct H
    end; try discriminate; try congruence; auto; try (exfalso; match goal with H : ~ _ |- _ => apply H end; cbn; auto; fail).
  1-2: left; congruence.
  destruct (beqb_spec name (B "submission-request")) as [->|H3].
  - destruct (assoc (B "submission-id") p) as [id0|] eqn:Ei.
    + assert (forall acts out, (acts, out) = (match assoc (B "problem-id") p, assoc (B "language") p, assoc (B "source") p,
                  assoc (B "time-limit") p, assoc (B "memory-limit") p, assoc (B "short-circuit") p, assoc (B "meta") p with
            | Some pr, Some la, Some so, Some tl, Some ml, Some sh, Some me =>
                match to_number tl, to_number ml with
                | Some t, Some m => ([Acknowledge id0; BeginGrading (Submission id0 pr la so t m sh me)], Continue)
                | _, _ => ([Acknowledge id0], Raised)
                end
            | _, _, _, _, _, _, _ => ([Acknowledge id0], Raised)
            end) -> (acts = [Acknowledge id0] \/ exists s, acts = [Acknowledge id0; BeginGrading s]) /\ out <> Exited) as HX.
      { intros acts out. destruct (assoc (B "problem-id") p), (assoc (B "language") p), (assoc (B "source") p), (assoc (B "time-limit") p) as [tl|], (assoc (B "memory-limit") p) as [ml|], (assoc (B "short-circuit") p), (assoc (B "meta") p);
          try (destruct (to_number tl), (to_number ml)); intros X; injection X as -> ->; split; eauto; discriminate. }
      match goal with |- context [match assoc (B "problem-id") p with Some _ => _ | None => _ end] => idtac end.
      match type of HX with forall a o, (a, o) = ?t -> _ => set (T := t) in * end. destruct T as [acts out]. specialize (HX acts out eq_refl) as [HX Ho]. cbn [fst snd].
      destruct HX as [->|[s ->]]; cbn [In]; repeat split; intros; repeat match goal with
        | H : _ \/ _ |- _ => destruct H
        | H : _ /\ _ |- _ => destruct H
        | H : False |- _ => destruct H
        end; try discriminate; try congruence; auto; try (exfalso; match goal with H : ~ (_ \/ _) |- _ => apply H end; cbn; auto 10; fail); left; congruence.
    + cbn [fst snd In]. repeat split; intros; repeat match goal with
        | H : _ \/ _ |- _ => destruct H
        | H : _ /\ _ |- _ => destruct H
        | H : False |- _ => destruct H
        end; try discriminate; try congruence; auto; try (exfalso; match goal with H : ~ (_ \/ _) |- _ => apply H end; cbn; auto 10; fail).
  - destruct (beqb_spec name (B "terminate-submission")) as [->|H4]; [|destruct (beqb_spec name (B "disconnect")) as [->|H5]]; cbn [fst snd In];
    repeat split; intros; repeat match goal with
        | H : _ \/ _ |- _ => destruct H
        | H : _ /\ _ |- _ => destruct H
        | H : False |- _ => destruct H
        end; try discriminate; try congruence; auto; try (exfalso; match goal with H : ~ (_ \/ _) |- _ => apply H end; cbn; auto 10; fail).
    intuition congruence.
Qed.
Theorem dispatch_grading current p s : In (BeginGrading s) (fst (receive_packet current p)) <->
  assoc (B "name") p = Some (JStr (B "submission-request")) /\
  fst (receive_packet current p) = [Acknowledge (s_id s); BeginGrading s] /\
  assoc (B "submission-id") p = Some (s_id s) /\ assoc (B "problem-id") p = Some (s_problem s) /\
  assoc (B "language") p = Some (s_language s) /\ assoc (B "source") p = Some (s_source s) /\
  (exists t, assoc (B "time-limit") p = Some t /\ to_number t = Some (s_time s)) /\
  (exists m, assoc (B "memory-limit") p = Some m /\ to_number m = Some (s_memory s)) /\
  assoc (B "short-circuit") p = Some (s_short s) /\ assoc (B "meta") p = Some (s_meta s).
Proof.
  split.
  - unfold receive_packet. destruct (assoc (B "name") p) as [[z|name|b|f|]|] eqn:En; try (cbn [fst In]; tauto); try (cbn [fst In]; intros [X|[]]; discriminate).
    destruct (beqb_spec name (B "ping")) as [->|H1]; [destruct (assoc (B "when") p); cbn [fst In]; [intros [X|[]]; discriminate|tauto]|].
    destruct (beqb_spec name (B "get-current-submission")) as [->|H2]; [destruct current; cbn [fst In]; [intros [X|[]]; discriminate|tauto]|].
    destruct (beqb_spec name (B "submission-request")) as [->|H3].
    + destruct (assoc (B "submission-id") p) as [id0|] eqn:E0; [|cbn [fst In]; tauto].
      destruct (assoc (B "problem-id") p) eqn:E1, (assoc (B "language") p) eqn:E2, (assoc (B "source") p) eqn:E3, (assoc (B "time-limit") p) as [tl|] eqn:E4, (assoc (B "memory-limit") p) as [ml|] eqn:E5, (assoc (B "short-circuit") p) eqn:E6, (assoc (B "meta") p) eqn:E7;
        try (cbn [fst In]; intros [X|[]]; discriminate).
      destruct (to_number tl) eqn:E8, (to_number ml) eqn:E9; try (cbn [fst In]; intros [X|[]]; discriminate).
      cbn [fst In]. intros [X|[X|[]]]; [discriminate|]. injection X as <-. cbn [s_id s_problem s_language s_source s_time s_memory s_short s_meta]. repeat split; eauto.
    + destruct (beqb name (B "terminate-submission")); [cbn [fst In]; intros [X|[]]; discriminate|].
      destruct (beqb name (B "disconnect")); cbn [fst In]; intros X; repeat destruct X as [X|X]; try discriminate; contradiction.
  - intros [_ [-> _]]. cbn. auto.
Qed.
Lemma counts j z : to_number j = Some z <-> counts_as j z.
Proof.
  split.
  - destruct j as [y|t|[]|f|]; cbn; try discriminate; intros [= <-]; constructor.
  - destruct 1; reflexivity.
Qed.
Lemma completed p s : complete p s -> forall current, receive_packet current p = ([Acknowledge (s_id s); BeginGrading s], Continue).
Proof.
  intros [E0 E1 E2 E3 E4 (t & E5 & T) (m & E6 & M) E7 E8] current. unfold receive_packet. rewrite E0.
  change (beqb (B "submission-request") (B "ping")) with false. change (beqb (B "submission-request") (B "get-current-submission")) with false.
  rewrite beqb_refl, E1, E2, E3, E4, E5, E6, E7, E8. apply counts in T, M. rewrite T, M. destruct s; reflexivity.
Qed.
Lemma begins current p s : In (BeginGrading s) (fst (receive_packet current p)) <-> complete p s.
Proof.
  split.
  - intros H. apply dispatch_grading in H. destruct H as (H0 & _ & H1 & H2 & H3 & H4 & (t & H5 & T) & (m & H6 & M) & H7 & H8).
    apply counts in T, M. constructor; eauto.
  - intros H. rewrite (completed p s H). right. left. reflexivity.
Qed.
Lemma raises current p : snd (receive_packet current p) = Raised <->
  assoc (B "name") p = None \/
  assoc (B "name") p = Some (JStr (B "ping")) /\ assoc (B "when") p = None \/
  assoc (B "name") p = Some (JStr (B "get-current-submission")) /\ current = None \/
  assoc (B "name") p = Some (JStr (B "submission-request")) /\ forall s, ~ complete p s.
Proof.
  destruct (assoc (B "name") p) as [[z|name|b|f|]|] eqn:En.
  1,3,4,5: unfold receive_packet; rewrite En; cbn [snd]; split; [discriminate|]; intros [H|[[H _]|[[H _]|[H _]]]]; discriminate.
  2: unfold receive_packet; rewrite En; cbn [snd]; tauto.
  destruct (beqb_spec name (B "submission-request")) as [->|H3].
  - split.
    + intros H. right. right. right. split; [reflexivity|]. intros s C. rewrite (completed p s C) in H. discriminate.
    + intros [H|[[H _]|[[H _]|[_ H]]]]; try discriminate.
      assert (forall s, ~ In (BeginGrading s) (fst (receive_packet current p))) as N' by (intros s I; apply begins in I; exact (H s I)).
      revert N'. clear H. unfold receive_packet. rewrite En.
      change (beqb (B "submission-request") (B "ping")) with false. change (beqb (B "submission-request") (B "get-current-submission")) with false. rewrite beqb_refl.
      destruct (assoc (B "submission-id") p); [|reflexivity].
      destruct (assoc (B "problem-id") p), (assoc (B "language") p), (assoc (B "source") p), (assoc (B "time-limit") p) as [tl|], (assoc (B "memory-limit") p) as [ml|], (assoc (B "short-circuit") p), (assoc (B "meta") p); try reflexivity.
      destruct (to_number tl), (to_number ml); try reflexivity. intros N'. exfalso. eapply N'. right. left. reflexivity.
  - unfold receive_packet. rewrite En.
    destruct (beqb_spec name (B "ping")) as [->|H1].
    { destruct (assoc (B "when") p); cbn [snd]; split; try discriminate; auto. intros [H|[[_ H]|[[H _]|[H _]]]]; discriminate. }
    destruct (beqb_spec name (B "get-current-submission")) as [->|H2].
    { destruct current; cbn [snd]; split; try discriminate; auto. intros [H|[[H _]|[[_ H]|[H _]]]]; discriminate. }
    rewrite (proj2 (beqb_neq _ _) H3).
    assert (snd (if beqb name (B "terminate-submission") then ([AbortCurrent], Continue)
      else if beqb name (B "disconnect") then ([CloseConnection; AbortCurrent], Exited) else ([LogUnknown], Continue)) <> Raised) as X
      by (destruct (beqb name (B "terminate-submission")); [discriminate|]; destruct (beqb name (B "disconnect")); discriminate).
    split; [intros H; destruct (X H)|]. intros [H|[[H _]|[[H _]|[H _]]]]; congruence.
Qed.
