(** How the judge connects to the site: dmoj/packet.py PacketManager.__init__, _connect,
    _reconnect, _do_reconnect, handshake, _read_forever and _send_packet, with other threads of
    the judge sending packets at any time. *)
From Coq Require Import String QArith.
From Verif Require Import Model.Bytes Model.Packets.
Local Open Scope list_scope.
Local Open Scope nat_scope.

(** packet.py:36-46; who the site is and the key are left out. *)
Record settings := Settings { secure : bool; no_cert_check : bool }.
(** packet.py:55-70: [None] without TLS; otherwise whether a certificate is required and whether
    it must be the host's.  Without these lines Python's context asks for neither. *)
Definition context (c : settings) : option (bool * bool) :=
  if secure c then Some (if negb (no_cert_check c) then (true, true) else (false, false)) else None.
(** What the other side shows when TLS is started: nothing sensible, or a certificate that is or
    is not backed by a trusted one, and is or is not the host's. *)
Inductive shown := Broken | Certificate (trusted named : bool).
(** ssl.SSLContext.wrap_socket; [None] is an SSLError. *)
Definition wrap (ctx : bool * bool) (x : shown) : option (bool * bool) :=
  match x with
  | Broken => None
  | Certificate trusted named =>
      if (fst ctx && negb trusted) || (snd ctx && negb named) then None else Some (trusted, named)
  end.

(** A connection: what the other side proved if it is secured. *)
Definition channel := option (bool * bool).
Inductive packet := Handshake | Other.
Inductive reply :=
| Unreadable             (** no answer, no packet or no JSON: packet.py:295-297 *)
| Named (name : bytes)
| Nameless.              (** an answer without a name, or not an object: packet.py:299 raises *)

Inductive phase :=
| Connecting             (** packet.py:97 *)
| Securing               (** packet.py:109 *)
| Opening                (** packet.py:112-113, self.input and self.output still the old ones *)
| Greeting               (** packet.py:114, before 288 *)
| Waiting                (** packet.py:291 *)
| Online
| Failing                (** packet.py:117 *)
| Sleeping               (** packet.py:127 *)
| Exited (code : nat).

(** [conn] and [files] are self.conn and the connection behind self.input and self.output;
    connections are numbered, and [made] says what became of each. *)
Record state := State {
  at_ : phase;
  made : list channel;
  conn : option nat;
  conn_closed : bool;    (** close() was called on self.conn *)
  files : option nat;
  back : backoff;
  written : list (nat * packet)
}.
Definition goto (s : state) (p : phase) : state := State p (made s) (conn s) (conn_closed s) (files s) (back s) (written s).
(** A new element at the end, and a change of the last. *)
Definition upgrade (l : list channel) (c : channel) : list channel := firstn (length l - 1) l ++ [c].

Inductive created := Interrupted | Refused | Accepted.
Inductive move :=
| Create (r : created)   (** what socket.create_connection does *)
| Secure (x : shown)
| Open_
| Greet (ok : bool)      (** the write of the handshake works *)
| Answer (r : reply)
| Retry
| Awake
| Lose                   (** packet.py:169-181: a read fails, the connection ends or a packet is damaged *)
| Fail                   (** packet.py:160-165: handling a packet raises *)
| Finished               (** packet.py:323, 347: the fallback is reset *)
| Send (ok : bool).      (** another thread sends a packet *)

Definition live (p : phase) : bool := match p with Exited _ => false | _ => true end.
(** packet.py:243-248: the process exits if a packet cannot be written. *)
Definition write (s : state) (ok : bool) (p : packet) (next : phase) : state :=
  match files s with
  | Some i => if ok then State next (made s) (conn s) (conn_closed s) (files s) (back s) (written s ++ [(i, p)]) else goto s (Exited 1)
  | None => goto s (Exited 1)
  end.
(** One step; a move that is not possible changes nothing. *)
Definition step (c : settings) (s : state) (m : move) : state :=
  match m, at_ s with
  | Create Interrupted, Connecting => s
  | Create Refused, Connecting => goto s Failing
  | Create Accepted, Connecting =>
      State (match context c with Some _ => Securing | None => Opening end) (made s ++ [None]) (Some (length (made s))) false
            (files s) (back s) (written s)
  | Secure x, Securing =>
      match context c with
      | Some ctx => match wrap ctx x with
                    | Some t => State Opening (upgrade (made s) (Some t)) (conn s) false (files s) (back s) (written s)
                    | None => State Failing (made s) (conn s) true (files s) (back s) (written s)
                    end
      | None => s
      end
  | Open_, Opening => State Greeting (made s) (conn s) (conn_closed s) (conn s) (back s) (written s)
  | Greet ok, Greeting => write s ok Handshake Waiting
  | Answer Unreadable, Waiting => goto s Failing
  | Answer (Named n), Waiting => if beqb n (B "handshake-success") then goto s Online else goto s Failing
  | Answer Nameless, Waiting => goto s (Exited 1)
  | Retry, Failing =>
      let b := conn_step (back s) Drop in
      if gave_up b then State (Exited 0) (made s) (conn s) (conn_closed s) (files s) b (written s)
      else State Sleeping (made s) (conn s) true (files s) b (written s)
  | Awake, Sleeping => goto s Connecting
  | Lose, Online => goto s Failing
  | Fail, Online => goto s (Exited 1)
  | Finished, p => if live p then State p (made s) (conn s) (conn_closed s) (files s) (conn_step (back s) Graded) (written s) else s
  | Send ok, p => if live p then write s ok Other p else s
  | _, _ => s
  end.
Definition run (c : settings) (s : state) (ms : list move) : state := fold_left (step c) ms s.
Definition start : state := State Connecting [] None false None conn_init [].
(** A socket whose close() was called stays open while files made of it exist; one that nobody
    refers to is closed. *)
Definition is_open (s : state) (i : nat) : bool :=
  match files s with Some j => i =? j | None => false end
  || (match conn s with Some j => i =? j | None => false end && negb (conn_closed s)).
