(** C93: the text of packets. *)
From Coq Require Import String ZArith NArith List Bool Lia.
From Verif Require Import Model.Bytes Model.Utf8 Model.Json Spec.Json.
From Verif Require Model.Access Spec.Utf8 Proofs.Utf8 Proofs.Json.
Import ListNotations.
Local Open Scope N_scope.
Local Open Scope list_scope.

Section Json.
  Context {float : Type}.
  Variable repr : float -> bytes.
  Variable to_float : bytes -> float.

  (** Reading gives exactly what the grammar says, for every text (with Python's NaN and Infinity). *)
  Theorem C93_read s v : loads float to_float s = Some v <-> json_text to_float true s v.
  Proof. apply Proofs.Json.loads_iff. Qed.
  (** A text stands for at most one value. *)
  Theorem C93_unique lenient s v v' : json_text to_float lenient s v -> json_text to_float lenient s v' -> v = v'.
  Proof.
    intros H H'. assert (K : forall v, json_text to_float lenient s v -> loads float to_float s = Some v).
    { intros x Hx. apply C93_read. destruct lenient; [exact Hx|apply Proofs.Json.strict_text, Hx]. }
    apply K in H, H'. congruence.
  Qed.
  (** Writing succeeds exactly on values without bytes or other objects. *)
  Theorem C93_total v : (exists t, dumps float repr v = Some t) <-> everywhere expressible v.
  Proof. apply Proofs.Json.dumps_total. Qed.

  Hypothesis repr_exact : faithful repr to_float.

  (** What is written is printable ASCII, so that it is its own UTF-8 form. *)
  Theorem C93_plain v t : dumps float repr v = Some t -> Forall (fun c => 32 <= c <= 126) t /\ Utf8.utf8 t t.
  Proof.
    intros H. pose proof (Proofs.Json.dumps_plain repr v (fun f => proj1 (repr_exact f)) t H) as P. split; [exact P|].
    apply Proofs.Utf8.utf8text_iff, Proofs.Json.plain_utf8, P.
  Qed.
  (** What is written is read back as it was. *)
  Theorem C93_round_trip v t : everywhere sound v -> dumps float repr v = Some t -> loads float to_float t = Some v.
  Proof.
    intros Sv E. apply C93_read, Proofs.Json.json_whole. apply (Proofs.Json.written repr to_float repr_exact true v Sv (or_introl eq_refl) t E).
  Qed.
  (** It is JSON by the standard exactly if no number in it is a NaN or infinite. *)
  Theorem C93_standard v t : everywhere sound v -> dumps float repr v = Some t ->
    ((exists v', json_text to_float false t v') <-> everywhere standard v).
  Proof.
    intros Sv E. split.
    - intros (v' & J). destruct (Proofs.Json.strict_text to_float t v' J) as (J' & St). apply C93_read in J'.
      rewrite (C93_round_trip v t Sv E) in J'. injection J' as ->. exact St.
    - intros St. exists v. apply Proofs.Json.json_whole. apply (Proofs.Json.written repr to_float repr_exact false v Sv (or_intror St) t E).
  Qed.

  (** A packet can be written exactly if no value inside a value of it is bytes (or another object)... *)
  Theorem C93_sendable p : (exists t, packet_text float repr p = Some t) <->
    Forall (fun kv => match snd kv with VBytes _ _ => True | v => everywhere expressible v end) p.
  Proof. symmetry. apply (Proofs.Json.packet_some repr to_float repr_exact). Qed.
  (** ... and the site then reads the same keys and values, its own bytes as text, whatever the bytes are. *)
  Theorem C93_packet p : packet_like p -> exists t q, packet_text float repr p = Some t /\ Forall (fun c => 32 <= c <= 126) t /\
    packet_arrives p q /\ utf8text t = Some t /\ loads float to_float t = Some (VDict _ q).
  Proof.
    intros H. assert (E : exists t, packet_text float repr p = Some t).
    { apply C93_sendable. destruct H as [_ H]. revert H. apply Forall_impl. intros [k v] [_ H]. cbn [snd] in *. destruct v; try exact (proj1 H); exact I. }
    destruct E as (t & E). unfold packet_text in E. destruct (dumps float repr (VDict float (clean float p))) as [t'|] eqn:D; [|discriminate].
    pose proof (Proofs.Json.dumps_plain repr _ (fun f => proj1 (repr_exact f)) t' D) as P. rewrite (proj1 (Proofs.Json.plain_utf8 t' P)) in E. injection E as <-.
    exists t', (clean float p). split; [unfold packet_text; rewrite D; apply Proofs.Json.plain_utf8, P|]. split; [exact P|].
    split; [apply Proofs.Json.clean_arrives|]. split; [apply Proofs.Json.plain_utf8, P|].
    apply (C93_round_trip _ t'); [apply (Proofs.Json.clean_sound _ H)|exact D].
  Qed.
End Json.

(** ** The hypotheses are met: a type of floats (the whole ones, "5.0"), and a packet *)
Definition ex_repr (n : N) : bytes := Access.decimal n ++ B ".0".
Definition ex_float (t : bytes) : N := natural_value (firstn (List.length t - 2) t).
Lemma C93_faithful_case : faithful ex_repr ex_float.
Proof.
  intros n. destruct (Proofs.Json.decimal_natural n) as (D & V). split.
  - exists [], (Access.decimal n), (B ".0"), []. split; [cbn [app]; rewrite app_nil_r; reflexivity|]. split; [left; reflexivity|]. split; [exact D|].
    split; [right; exists [48]; split; [reflexivity|split; [discriminate|repeat constructor; lia]]|]. split; [left; reflexivity|discriminate].
  - unfold ex_float, ex_repr. rewrite app_length. cbn [List.length B]. rewrite Nat.add_sub, firstn_app, firstn_all, Nat.sub_diag. cbn [firstn]. rewrite app_nil_r. exact V.
Qed.
(** A packet with garbage in it: bytes that are no UTF-8, quotes, control characters and astral characters. *)
Definition ex_packet : list (text * value N) :=
  [(B "name", VStr _ (B "compile-message")); (B "submission-id", VInt _ (-12)); (B "log", VBytes _ [233; 34; 92; 10; 226; 152; 131; 240]);
   (B "cases", VList _ [VDict _ [(B "time", VFloat _ 7); (B "status", VBool _ true)]; VNull _; VStr _ [128512; 0; 127]])].
Example C93_packet_case : packet_like ex_packet /\ packet_text N ex_repr ex_packet =
    Some (B "{""name"": ""compile-message"", ""submission-id"": -12, ""log"": ""\ufffd\""\\\n\u2603\ufffd"", ""cases"": [{""time"": 7.0, ""status"": true}, null, ""\ud83d\ude00\u0000\u007f""]}").
Proof.
  split; [|vm_compute; reflexivity].
  assert (Q : forall s, forallb (fun c => (c <? 0xD800) || (0xDFFF <? c) && (c <? 0x110000)) s = true -> sound_text s).
  { intros s H. apply Proofs.Json.scalar_sound. apply Forall_forall. intros c I. rewrite forallb_forall in H. specialize (H c I). unfold Utf8.scalar.
    apply orb_true_iff in H as [H|H]; [left; apply N.ltb_lt, H|right]. apply andb_true_iff in H as [A C]. apply N.ltb_lt in A, C. lia. }
  split; [repeat constructor; cbn; intuition discriminate|].
  assert (S1 : forall s, forallb (fun c => (c <? 0xD800) || (0xDFFF <? c) && (c <? 0x110000)) s = true -> packet_value (VStr N s)).
  { intros s H. split; apply ev_other; try exact I. apply Q, H. }
  apply Forall_cons; [split; [apply Q|apply S1]; reflexivity|].
  apply Forall_cons; [split; [apply Q; reflexivity|split; apply ev_other; exact I]|].
  apply Forall_cons; [split; [apply Q; reflexivity|exact I]|].
  apply Forall_cons; [split; [apply Q; reflexivity|]|apply Forall_nil].
  assert (T : sound_text [128512; 0; 127]) by (apply Q; reflexivity). assert (T1 : sound_text (B "time")) by (apply Q; reflexivity). assert (T2 : sound_text (B "status")) by (apply Q; reflexivity).
  split; (apply ev_list; [exact I|]); (apply Forall_cons; [apply ev_dict|apply Forall_cons; [apply ev_other; exact I|apply Forall_cons; [apply ev_other; [assumption || exact I|exact I]|apply Forall_nil]]]).
  - exact I.
  - repeat (apply Forall_cons; [apply ev_other; exact I|]). apply Forall_nil.
  - split; [repeat constructor; cbn; intuition discriminate|]. apply Forall_cons; [assumption|]. apply Forall_cons; [assumption|apply Forall_nil].
  - repeat (apply Forall_cons; [apply ev_other; exact I|]). apply Forall_nil.
Qed.
(** Texts and what they are read as (the first is read, the others are refused, as Python does). *)
Example C93_read_cases : loads N ex_float (B " { ""a"" : [1, -2 , 30.0] ,""b"":{}, ""a"":""\ud83d\ude00\ud83dx"" } ") =
    Some (VDict _ [(B "a", VStr _ [128512; 55357; 120]); (B "b", VDict _ [])]) /\
  map (loads N ex_float) [B "[1,]"; B "{""a"":1,}"; B "01"; B "'a'"; B "[1 2]"; B """\ud83d\x"""; B ""; B "nul"; B "[1]]"; B "1."; [34; 10; 34]] = repeat None 11.
Proof. split; vm_compute; reflexivity. Qed.

(** As coded, bytes one level down cannot be sent: json.dumps raises TypeError. *)
Theorem C93_nested_bytes_refuted : exists p : list (text * value N), packet_text N ex_repr p = None /\
  p = [(B "name", VStr _ (B "test-case-status")); (B "submission-id", VInt _ 1); (B "cases", VList _ [VDict _ [(B "feedback", VBytes _ (B "ok"))]])].
Proof. eexists. split; [|reflexivity]. vm_compute. reflexivity. Qed.
(** As coded, a NaN is sent as text that is not JSON. *)
Theorem C93_nan_refuted : exists (p : list (text * value N)) t, packet_text N ex_repr p = Some t /\ p = [(B "points", VNaN _)] /\
  forall v, ~ json_text ex_float false t v.
Proof.
  exists [(B "points", VNaN _)]. eexists. split; [vm_compute; reflexivity|]. split; [reflexivity|]. intros v J.
  apply Proofs.Json.strict_text in J as (J & St). apply C93_read in J. vm_compute in J. injection J as <-.
  inversion St as [l1 P1 F1 E1|d1 P1 F1 E1|v1 P1 X1 E1]; subst; [|destruct X1]. inversion F1 as [|x y F2 F3]; subst. inversion F2 as [ | |v1 P2 X1 E1]; subst. exact P2.
Qed.
(** Two characters that form a surrogate pair come back as one character: the soundness of the text is needed. *)
Theorem C93_surrogates_refuted : exists (s : text) t, dumps N ex_repr (VStr _ s) = Some t /\ loads N ex_float t <> Some (VStr _ s).
Proof. exists [0xD83D; 0xDE00]. eexists. split; [vm_compute; reflexivity|]. vm_compute. discriminate. Qed.

Print Assumptions C93_read.
Print Assumptions C93_unique.
Print Assumptions C93_total.
Print Assumptions C93_plain.
Print Assumptions C93_round_trip.
Print Assumptions C93_standard.
Print Assumptions C93_sendable.
Print Assumptions C93_packet.
Print Assumptions C93_nested_bytes_refuted.
Print Assumptions C93_nan_refuted.
Print Assumptions C93_surrogates_refuted.
