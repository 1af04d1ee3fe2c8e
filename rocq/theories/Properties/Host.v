(** C104: what the judge tells of its host. *)
From Coq Require Import String QArith Lia.
From Verif Require Import Model.Bytes Model.Host Spec.Host.
From Verif Require Model.Session.
Local Open Scope nat_scope.
Local Open Scope list_scope.

(** A ping that is answered gets a packet of exactly five fields: the site's own [when], the time, the
    load and the number of processors, under the name it expects. *)
Theorem C104_answer {J} float_of cpus p time (when : J) d : ping_packet float_of cpus p time when = Value d ->
  exists load, load_fair float_of cpus p = Value load /\
  map fst d = [B "name"; B "when"; B "time"; B "load"; B "cpu-count"] /\
  holds d "name" (VText (B "ping-response")) /\ holds d "when" (VSent when) /\ holds d "time" (VNum time) /\
  holds d "load" (VNum load) /\ holds d "cpu-count" (VNum (inject_Z (Z.pos cpus))).
Proof.
  unfold ping_packet, report_callbacks. destruct (load_fair float_of cpus p) as [q|]; cbn; [|discriminate].
  intros [= <-]. exists q. unfold holds. cbn. repeat split; tauto.
Qed.
Print Assumptions C104_answer.

(** The load told is the machine's load average shared out among its processors; -1 stands for a load
    nobody knows, and nothing else is told as -1 unless the machine's own figure is negative. *)
Theorem C104_load float_of cpus p load : load_fair float_of cpus p = Value load ->
  (exists q, known float_of p q /\ load * inject_Z (Z.pos cpus) == q)%Q \/ (silent p /\ load == -1 # 1)%Q.
Proof.
  destruct p as [[q|]|[s| |]]; cbn.
  - intros [= <-]. left. exists q. split; [constructor|]. field. intros E. discriminate E.
  - intros [= <-]. right. split; [constructor | reflexivity].
  - destruct (py_split s) as [|w r] eqn:E; [discriminate|]. destruct (float_of w) as [q|] eqn:F; [|discriminate].
    intros [= <-]. left. exists q. split; [econstructor; eassumption|]. field. intros X. discriminate X.
  - intros [= <-]. right. split; [constructor | reflexivity].
  - discriminate.
Qed.
Print Assumptions C104_load.

(** A machine whose load is known or that has none is always told of: no ping is lost on it. *)
Theorem C104_answered {J} float_of cpus p time (when : J) : (exists q, known float_of p q) \/ silent p ->
  exists d, ping_packet float_of cpus p time when = Value d.
Proof.
  unfold ping_packet, report_callbacks. intros [[q K]|S0]; [destruct K as [|s w r q E F]|destruct S0]; cbn; try (eexists; reflexivity).
  rewrite E, F. cbn. eexists; reflexivity.
Qed.
Print Assumptions C104_answered.

(** Where the system has getloadavg every ping is answered, in order, each with its own [when] and
    time, and the connection is read on. *)
Theorem C104_pings {J} float_of cpus (l : list (platform * Q * J)) : Forall (fun x => exists a, fst (fst x) = Native a) l ->
  snd (pings float_of cpus l) = true /\
  Forall2 (fun x d => holds d "when" (VSent (snd x)) /\ holds d "time" (VNum (snd (fst x)))) l (fst (pings float_of cpus l)).
Proof.
  induction 1 as [|[[p t] w] r [a E] _ [IH1 IH2]]; cbn [pings]; [split; [reflexivity | constructor]|]. cbn [fst snd] in E. subst p.
  destruct (ping_packet float_of cpus (Native a) t w) as [d|] eqn:P; [|unfold ping_packet, report_callbacks in P; destruct a; discriminate P].
  destruct (pings float_of cpus r) as [ds ok]. cbn [fst snd] in *. split; [exact IH1|]. constructor; [|exact IH2].
  destruct (C104_answer _ _ _ _ _ _ P) as (q & _ & _ & _ & W & T & _). cbn [fst snd]. split; assumption.
Qed.
Print Assumptions C104_pings.

(** As coded: where there is no getloadavg, a /proc/loadavg that is there but cannot be read, or
    holds nothing, makes a ping end the judge. *)
Theorem C104_load_refuted {J} float_of cpus f time (when : J) rest : f = Unreadable \/ (exists s, f = Text s /\ py_split s = []) ->
  pings float_of cpus ((Proc f, time, when) :: rest) = ([], false).
Proof. intros [->|[s [-> E]]]; cbn; [reflexivity|]. unfold ping_packet, report_callbacks, load_fair. rewrite E. reflexivity. Qed.
Print Assumptions C104_load_refuted.

(** Every signal has a name that is not empty: the C library's for the signals of the system, if it
    has one, and otherwise one that shows the number; the library is never asked about a number
    that is no signal. *)
Theorem C104_signal NSIG libc signo : strsignal NSIG libc signo <> [] /\
  ((0 <= signo < NSIG)%Z -> forall s, libc signo = Some s -> s <> [] -> strsignal NSIG libc signo = s) /\
  (~ (0 <= signo < NSIG)%Z \/ libc signo = None \/ libc signo = Some [] ->
   strsignal NSIG libc signo = B "Unknown signal " ++ Session.show_int signo).
Proof.
  unfold strsignal. destruct ((0 <=? signo) && (signo <? NSIG))%Z eqn:R.
  - apply andb_prop in R as [R1 R2]. apply Z.leb_le in R1. apply Z.ltb_lt in R2.
    destruct (libc signo) as [[|c s]|] eqn:L; (split; [discriminate|split]).
    + intros _ s [= <-] X. contradiction X. reflexivity.
    + reflexivity.
    + intros _ s' [= <-] _. reflexivity.
    + intros [X|[X|X]]; [lia|discriminate X|discriminate X].
    + intros _ s X. discriminate X.
    + reflexivity.
  - split; [discriminate|split]; [|reflexivity]. intros [R1 R2]. apply Bool.andb_false_iff in R as [R|R]; [apply Z.leb_gt in R | apply Z.ltb_ge in R]; lia.
Qed.
Print Assumptions C104_signal.

(** The library's answers about numbers that are no signals do not matter. *)
Theorem C104_unasked NSIG libc libc' signo : (forall n, 0 <= n < NSIG -> libc n = libc' n)%Z ->
  strsignal NSIG libc signo = strsignal NSIG libc' signo.
Proof.
  intros H. unfold strsignal. destruct ((0 <=? signo) && (signo <? NSIG))%Z eqn:R; [|reflexivity].
  apply andb_prop in R as [R1 R2]. apply Z.leb_le in R1. apply Z.ltb_lt in R2. rewrite (H signo) by lia. reflexivity.
Qed.
Print Assumptions C104_unasked.

Example C104_ex :
  load_fair (fun _ => Some (1 # 2)%Q) 2 (Proc (Text (B "0.50 0.40 0.30 1/200 4242"))) = Value ((1 # 2) / inject_Z 2)%Q /\
  known (fun _ => Some (1 # 2)%Q) (Proc (Text (B "0.50 0.40 0.30 1/200 4242"))) (1 # 2)%Q /\
  snd (pings (fun _ => None) 4 [(Native (Average 3), 100%Q, 7); (Native NotTold, 101%Q, 8)]) = true /\
  length (fst (pings (fun _ => None) 4 [(Native (Average 3), 100%Q, 7); (Native NotTold, 101%Q, 8)])) = 2 /\
  strsignal 65 (fun n => if (n =? 11)%Z then Some (B "Segmentation fault") else None) 11 = B "Segmentation fault" /\
  strsignal 65 (fun _ => Some (B "nonsense")) 65 = B "Unknown signal 65" /\
  strsignal 65 (fun _ => Some (B "nonsense")) (-3) = B "Unknown signal -3".
Proof.
  split; [vm_compute; reflexivity|]. split; [|repeat split; vm_compute; reflexivity].
  apply known_proc with (w := B "0.50") (rest := [B "0.40"; B "0.30"; B "1/200"; B "4242"]); vm_compute; reflexivity.
Qed.
