(** Telling servers about problem updates. *)
From Coq Require Import List.
Import ListNotations.
(** Every url was pinged by a ping begun after [t] refreshes had been asked for. *)
Definition told {url} (urls : list url) (pings : list (url * nat)) (t : nat) : Prop :=
  forall u, In u urls -> exists n, t <= n /\ In (u, n) pings.
(** [done] is some full rounds over [urls] and a prefix of another. *)
Definition in_rounds {url} (urls done : list url) : Prop :=
  exists n rest, done ++ rest = concat (repeat urls n) /\ length rest <= length urls.
