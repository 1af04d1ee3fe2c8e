(** What the judge says of its host: dmoj/sysinfo.py, the answer to a ping (dmoj/packet.py) and the
    names of signals (dmoj/utils/os_ext.py). *)
From Coq Require Import String QArith.
From Verif Require Import Model.Bytes.
From Verif Require Model.Session.
Local Open Scope list_scope.

(** A call either gives a value or raises something nobody here catches. *)
Inductive result (A : Type) := Value (a : A) | Raises.
Arguments Value {A} a.
Arguments Raises {A}.

(** os.getloadavg()[0], which may raise OSError (sysinfo.py:10-15). *)
Inductive average := Average (q : Q) | NotTold.
(** What open('/proc/loadavg').read() gives (sysinfo.py:22-27): a text; FileNotFoundError; another
    error. *)
Inductive loadfile := Text (s : bytes) | NotFound | Unreadable.
(** The platform (sysinfo.py:7-28): with or without os.getloadavg. *)
Inductive platform := Native (a : average) | Proc (f : loadfile).

Section Load.
  (** float() of a text: a number, or ValueError.  Simplification: exact rationals for floats. *)
  Variable float_of : bytes -> option Q.
  Variable cpus : positive.        (* multiprocessing.cpu_count(), sysinfo.py:4 *)

  (** sysinfo.py:9-28 load_fair. *)
  Definition load_fair (p : platform) : result Q :=
    match p with
    | Native (Average q) => Value (q / inject_Z (Z.pos cpus))%Q
    | Native NotTold => Value (inject_Z (-1))
    | Proc (Text s) =>
        match py_split s with
        | w :: _ => match float_of w with Some q => Value (q / inject_Z (Z.pos cpus))%Q | None => Raises end
        | [] => Raises
        end
    | Proc NotFound => Value (inject_Z (-1))
    | Proc Unreadable => Raises
    end.

  (** The values of a packet: a text, a number, or something the site has sent. *)
  Inductive value {J : Type} := VText (s : bytes) | VNum (q : Q) | VSent (j : J).
  Arguments value : clear implicits.
  (** data[key] = value (packet.py:375). *)
  Fixpoint put {V} (k : bytes) (v : V) (d : list (bytes * V)) : list (bytes * V) :=
    match d with
    | [] => [(k, v)]
    | (k', v') :: r => if beqb k k' then (k, v) :: r else (k', v') :: put k v r
    end.
  (** packet.py:373-375: the callbacks in turn; one that raises ends it. *)
  Fixpoint report {V} (fns : list (result (bytes * V))) (d : list (bytes * V)) : result (list (bytes * V)) :=
    match fns with
    | [] => Value d
    | Raises :: _ => Raises
    | Value (k, v) :: r => report r (put k v d)
    end.
  (** sysinfo.py:15, 28, 31-34: report_callbacks. *)
  Definition report_callbacks {J} (p : platform) : list (result (bytes * value J)) :=
    [ match load_fair p with Value q => Value (B "load", VNum q) | Raises => Raises end;
      Value (B "cpu-count", VNum (inject_Z (Z.pos cpus))) ].
  (** packet.py:371-376 ping_packet: the packet sent. *)
  Definition ping_packet {J} (p : platform) (time : Q) (when : J) : result (list (bytes * value J)) :=
    report (report_callbacks p) [(B "name", VText (B "ping-response")); (B "when", VSent when); (B "time", VNum time)].
End Load.
Arguments value : clear implicits.

(** Pings as they come, each with the load and the time it finds (packet.py:154-165, 250-253): what is
    answered, and whether reading goes on.  Anything raised ends the process (packet.py:160-165). *)
Fixpoint pings {J} (float_of : bytes -> option Q) (cpus : positive) (l : list (platform * Q * J)) : list (list (bytes * value J)) * bool :=
  match l with
  | [] => ([], true)
  | (p, t, w) :: r =>
      match ping_packet float_of cpus p t w with
      | Value d => let '(ds, ok) := pings float_of cpus r in (d :: ds, ok)
      | Raises => ([], false)
      end
  end.

Section Signals.
  Variable NSIG : Z.                       (* signal.NSIG *)
  Variable libc : Z -> option bytes.       (* strsignal(3): NULL or a text *)
  (** os_ext.py:23-36 strsignal.  Simplification: the C library's text is UTF-8. *)
  Definition strsignal (signo : Z) : bytes :=
    let unknown := B "Unknown signal " ++ Session.show_int signo in
    if ((0 <=? signo) && (signo <? NSIG))%Z then
      match libc signo with
      | Some (c :: s) => c :: s
      | _ => unknown
      end
    else unknown.
End Signals.
