(** Asking for problem updates: dmoj/control.py and dmoj/monitor.py. *)
From Coq Require Import String.
From Verif Require Import Model.Bytes.
Local Open Scope nat_scope.
Local Open Scope list_scope.

(** ** control.py: what a request to the judge's HTTP server does.  The server calls
    [do_<method>] and answers 501 itself when there is none (http.server). *)
Record request := Request { method : bytes; path : bytes }.
Record answer := Answer { status : nat; body : bytes; updates : nat (* calls of judge.update_problems *) }.
(** control.py:11-22; [judge]: is there one? *)
Definition handle (judge : bool) (r : request) : answer :=
  if beqb (method r) (B "POST") then
    if beqb (path r) (B "/update/problems") then Answer 200 (B "As you wish.") (if judge then 1 else 0)
    else Answer 404 [] 0
  else if beqb (method r) (B "GET") then Answer 404 [] 0
  else Answer 501 [] 0.

(** ** monitor.py:20-48: the thread that tells other servers.  A ping is one call of
    urlopen and read; it never ends the thread, since every exception is caught. *)
Section Refresher.
  Variable urls : list bytes.
  Inductive rphase :=
  | RWait                                   (* monitor.py:39 waiting for the trigger *)
  | RWoken                                  (* wait returned *)
  | RCleared                                (* monitor.py:40 done *)
  | RPinging (rest : list bytes)            (* monitor.py:44-48: urls still to do *)
  | RExited.
  (** [pinged]: (url, number of refreshes asked for when the ping began) *)
  Record rstate := RState { trigger : bool; terminate : bool; asked : nat; rph : rphase; pinged : list (bytes * nat) }.
  Inductive rmove := Refresh | StopA | StopB | R.
  Definition rstep (s : rstate) (m : rmove) : rstate :=
    match m with
    | Refresh => RState true (terminate s) (S (asked s)) (rph s) (pinged s)          (* monitor.py:28-29 *)
    | StopA => RState (trigger s) true (asked s) (rph s) (pinged s)                  (* monitor.py:32 *)
    | StopB => RState true (terminate s) (asked s) (rph s) (pinged s)                (* monitor.py:33 *)
    | R =>
        match rph s with
        | RWait => if trigger s then RState (trigger s) (terminate s) (asked s) RWoken (pinged s) else s
        | RWoken => RState false (terminate s) (asked s) RCleared (pinged s)
        | RCleared => RState (trigger s) (terminate s) (asked s) (if terminate s then RExited else RPinging urls) (pinged s)
        | RPinging [] => RState (trigger s) (terminate s) (asked s) RWait (pinged s)
        | RPinging (u :: r) => RState (trigger s) (terminate s) (asked s) (RPinging r) (pinged s ++ [(u, asked s)])
        | RExited => s
        end
    end.
  Definition rrun (s : rstate) (ms : list rmove) : rstate := fold_left rstep ms s.
  Definition rinit : rstate := RState false false 0 RWait [].
End Refresher.

(** urllib.request.urlopen(url, data): a str body is refused before anything is sent
    (AbstractHTTPHandler.do_request_: TypeError); monitor.py:46 passes ''. *)
Inductive data := Str (s : bytes) | Bytes (b : bytes).
Definition request_sent (d : data) : bool := match d with Str _ => false | Bytes _ => true end.
Definition ping_data : data := Str [].

(** ** monitor.py:51-122: the file system monitor.  [has_observer]: is watchdog there
    and wanted?  [pings]: update_pings is not empty. *)
Record monitor := Mon { real : bool; refresher : bool; callback : bool (* one was set *); watched : list bytes }.
(** monitor.py:64-79 *)
Definition new_monitor (has_observer pings : bool) (watches : list bytes) : monitor :=
  if has_observer then Mon true pings false watches else Mon false false false [].
(** monitor.py:90-92 *)
Definition set_callback (m : monitor) : monitor := if real m then Mon true (refresher m) true (watched m) else m.
(** monitor.py:56-60: what one file event calls: the callback, then a refresh *)
Inductive call := CallBack | CallRefresh.
Definition on_any_event (m : monitor) : list call :=
  (if callback m then [CallBack] else []) ++ (if refresher m then [CallRefresh] else []).
(** A file changed: the observer reports it if a watched directory contains it
    ([inside] = recursively). *)
Definition file_event (inside : bytes -> bytes -> bool) (m : monitor) (f : bytes) : list call :=
  if real m && existsb (fun d => inside d f) (watched m) then on_any_event m else [].
