(** What loading a problem and choosing a checker should come to. *)
From Coq Require Import String.
From Verif Require Import Model.Bytes Model.Config Spec.Config Model.Paths Model.Loading.
Local Open Scope list_scope.

(** ** Settings in a nest of configuration nodes, innermost first *)
(** The innermost node that gives [k] a value, and that value. *)
Definition nearest (c : chain) (k : list N) (v : value) (home : chain) : Prop :=
  exists before raw after, c = before ++ raw :: after /\ home = raw :: after
    /\ defines raw (Key k) v /\ Forall (fun r => undefined r (Key k)) before.
Definition nowhere (c : chain) (k : list N) : Prop := Forall (fun r => undefined r (Key k)) c.
(** Absent, or given a value that counts as false. *)
Definition unset (c : chain) (k : list N) : Prop := nowhere c k \/ exists v home, nearest c k v home /\ truthy v = false.
(** A configuration without dynamic keys. *)
Fixpoint static (v : value) : Prop :=
  match v with
  | VDict d => NoDup (map fst d) /\ Forall (fun k => ~ ends_in_plus k) (map fst d)
               /\ (fix all (l : list (list N * value)) := match l with [] => True | kv :: r => static (snd kv) /\ all r end) d
  | VList l => (fix all (l : list value) := match l with [] => True | x :: r => static x /\ all r end) l
  | _ => True
  end.

(** ** The checker a case asks for, with its arguments *)
Inductive asks (c : chain) : list N -> list (list N * result) -> Prop :=
| asks_nothing : unset c (B "checker") -> asks c (B "standard") []
| asks_name : forall s home, nearest c (B "checker") (VStr s) home -> s <> [] -> asks c s []
| asks_plain : forall v home s home', nearest c (B "checker") v home -> is_container v = true -> truthy v = true ->
    nearest (v :: home) (B "name") (VStr s) home' -> unset (v :: home) (B "args") -> asks c s []
| asks_args : forall v home s home' a home'', nearest c (B "checker") v home -> is_container v = true -> truthy v = true ->
    nearest (v :: home) (B "name") (VStr s) home' -> nearest (v :: home) (B "args") (VDict a) home'' -> a <> [] ->
    asks c s (map (fun kv => (fst kv, wrap (snd kv) (VDict a :: home''))) a).
Definition has_dot (s : list N) : Prop := exists a b, s = a ++ B "." ++ b.

(** ** Problem data *)
(** [d] is the data of the last entry called [k]. *)
Definition last_entry (z : entries) (k : list N) (d : option (list N)) : Prop :=
  exists a b, z = a ++ (k, d) :: b /\ ~ In k (map fst b).

(** ** Loading *)
(** The settings of a problem: the document's, and the usual ones for what it does not mention. *)
Definition usual (doc : dict) (meta : value) (k : list N) (v : value) : Prop :=
  (k = B "wall_time_factor" /\ v = VInt 3)
  \/ (k = B "output_prefix_length" /\ ((exists x, In (B "signature_grader", x) doc) /\ v = VInt 0
                                       \/ (~ exists x, In (B "signature_grader", x) doc) /\ v = VInt 64))
  \/ (k = B "output_limit_length" /\ v = VInt 25165824) \/ (k = B "binary_data" /\ v = VBool false)
  \/ (k = B "short_circuit" /\ v = VBool true) \/ (k = B "points" /\ v = VInt 1)
  \/ (k = B "symlinks" /\ v = VDict []) \/ (k = B "meta" /\ v = meta).
Definition stands (doc : dict) (meta : value) (k : list N) (v : value) : Prop :=
  In (k, v) doc \/ ((forall x, ~ In (k, x) doc) /\ usual doc meta k v).
(** The value of [k], written with underscores or with hyphens, or nothing. *)
Definition attribute (c : chain) (k : list N) (v : value) : Prop :=
  (exists home, nearest c k v home /\ v <> Null)
  \/ ((nowhere c k \/ exists home, nearest c k Null home)
      /\ ((exists home, nearest c (hyphens k) v home) \/ (nowhere c (hyphens k) /\ v = Null))).
(** The archive named in the configuration, if any. *)
Definition archived (zip : list N -> zip_outcome) (root : list N) (c : chain) (z : option entries) : Prop :=
  (exists v, attribute c (B "archive") v /\ truthy v = false /\ z = None)
  \/ exists s z', attribute c (B "archive") (VStr s) /\ s <> [] /\ zip (join root s) = Archive z' /\ z = Some z'.
(** A text setting, and the points, of the section about test cases ([n] is that section inside
    the configuration; empty if there is none). *)
Definition wanted (n : chain) (k default s : list N) : Prop :=
  (unset n k /\ s = default) \/ (s <> [] /\ exists home, nearest n k (VStr s) home).
Definition points_wanted (n : chain) (fallback : result) (p : points) : Prop :=
  (unset n (B "case_points") /\ p = Always fallback)
  \/ exists v home, nearest n (B "case_points") v home /\ truthy v = true
     /\ ((is_container v = true /\ p = Each (iterate (v :: home))) \/ exists s, v = VStr s /\ p = Each (map (fun x => Plain (VStr [x])) s)).
(** The names of cases as the documentation gives them; a pattern per side. *)
Definition usual_input : list N := B "^(?=.*?\.in|in).*?(?:(?:^|\W)(?P<batch>\d+)[^\d\s]+)?(?P<case>\d+)[^\d\s]*$".
Definition usual_output : list N := B "^(?=.*?\.out|out).*?(?:(?:^|\W)(?P<batch>\d+)[^\d\s]+)?(?P<case>\d+)[^\d\s]*$".
Inductive arranged (compiles : list N -> bool) (c : chain) (z : option entries) : cases -> Prop :=
| arr_listed : forall x l, attribute c (B "test_cases") (VList (x :: l)) -> arranged compiles c z Listed
| arr_guessed : forall v n e i o pv p, attribute c (B "test_cases") v -> v = Null \/ v = VList [] \/ (exists d, v = VDict d) ->
    n = (if truthy v then v :: c else []) -> z = Some e ->
    wanted n (B "input_format") usual_input i -> compiles i = true ->
    wanted n (B "output_format") usual_output o -> compiles o = true ->
    attribute c (B "points") pv -> points_wanted n (wrap pv c) p ->
    arranged compiles c z (Guessed (map fst e) i o p).

(** ** The checkers every problem can name *)
Definition provided : list (list N) :=
  [B "bridged"; B "easy"; B "floats"; B "floatsabs"; B "floatsrel"; B "identical"; B "linecount"; B "rstripped";
   B "sorted"; B "standard"; B "unordered"].
