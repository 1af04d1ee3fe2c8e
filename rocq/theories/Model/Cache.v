(** Model of compiled executors and their cache (dmoj/executors/compiled_executor.py,
    base_executor.py, gcc_executor.py, pylru).

    A job is what is compiled, [key] its cache key; whether the compiler succeeds is given
    with each request.  Objects are numbered as they are made, and so is the scratch
    directory an object makes for itself (mkdtemp never repeats a name).  An object is
    destroyed as soon as neither the caller nor the cache refers to it (CPython's reference
    counts). *)
From Coq Require Import String.
From Verif Require Import Model.Bytes.
Local Open Scope list_scope.
Local Open Scope nat_scope.

Definition lookup {A} (n : nat) (l : list (nat * A)) : option A :=
  match find (fun p => fst p =? n) l with Some (_, v) => Some v | None => None end.
Definition removed {A} (n : nat) (l : list (nat * A)) : list (nat * A) := filter (fun p => negb (fst p =? n)) l.

Section Cache.
  Context {job : Type}.
  Variable key : job -> bytes.
  (** judgeenv.py:25: compiled_binary_cache_size; pylru requires it to be positive. *)
  Variable capacity : nat.

  (** An executor that has been constructed: its directory, is_cached. *)
  Record obj := { o_dir : nat; o_cached : bool }.
  (** [objs]: the objects alive; [held]: those the callers have; [cache]: key and object, most
      recently used first; [disk]: the directories, with what was compiled in them if the
      compiler succeeded. *)
  Record state := { objs : list (nat * obj); held : list nat; cache : list (bytes * nat);
                    disk : list (nat * option job); next : nat }.
  Definition start : state := {| objs := []; held := []; cache := []; disk := []; next := 0 |}.

  Definition find_key (k : bytes) (c : list (bytes * nat)) : option nat :=
    match find (fun p => beqb (fst p) k) c with Some (_, n) => Some n | None => None end.
  Definition without_key (k : bytes) (c : list (bytes * nat)) : list (bytes * nat) :=
    filter (fun p => negb (beqb (fst p) k)) c.

  (** base_executor.py:59-76, compiled_executor.py:130-132: __del__ when the last reference
      goes: the directory is removed unless the object is marked as cached. *)
  Definition release (n : nat) (s : state) : state :=
    if existsb (Nat.eqb n) (held s) || existsb (fun p => snd p =? n) (cache s) then s
    else match lookup n (objs s) with
         | None => s
         | Some o =>
             {| objs := removed n (objs s); held := held s; cache := cache s;
                disk := if o_cached o then disk s else removed (o_dir o) (disk s); next := next s |}
         end.

  (** compiled_executor.py:31-35 *)
  Definition cleanup_cache_entry (n : nat) (s : state) : state :=
    {| objs := map (fun p => if fst p =? n then (n, {| o_dir := o_dir (snd p); o_cached := false |}) else p) (objs s);
       held := held s; cache := cache s; disk := disk s; next := next s |}.

  Definition with_cache (c : list (bytes * nat)) (s : state) : state :=
    {| objs := objs s; held := held s; cache := c; disk := disk s; next := next s |}.

  (** pylru's __getitem__: the entry becomes the most recently used. *)
  Definition touch (k : bytes) (n : nat) (s : state) : state := with_cache ((k, n) :: without_key k (cache s)) s.
  (** pylru's __setitem__: an entry of the same key is replaced without the callback;
      otherwise, when full, the least recently used one makes room and the callback is told. *)
  Definition set_item (k : bytes) (n : nat) (s : state) : state :=
    match find_key k (cache s) with
    | Some old => release old (with_cache ((k, n) :: without_key k (cache s)) s)
    | None =>
        if length (cache s) <? capacity then with_cache ((k, n) :: cache s) s
        else match rev (cache s) with
             | [] => with_cache [(k, n)] s
             | (_, old) :: rest =>
                 release old (with_cache ((k, n) :: rev rest) (cleanup_cache_entry old s))
             end
    end.

  (** What a call of the constructor gives. *)
  Inductive outcome := Ready (n : nat) | Failed.

  (** compiled_executor.py:41-70; [ok]: the compiler succeeds.  A failed object is destroyed
      with the exception. *)
  Definition create (j : job) (cached ok : bool) (s : state) : state * outcome :=
    let n := next s in
    if ok then
      let s1 := {| objs := (n, {| o_dir := n; o_cached := cached |}) :: objs s; held := n :: held s; cache := cache s;
                   disk := (n, Some j) :: disk s; next := S n |} in
      (if cached then set_item (key j) n s1 else s1, Ready n)
    else
      ({| objs := objs s; held := held s; cache := cache s;
          disk := if cached then (n, None) :: disk s else disk s; next := S n |}, Failed).
  Definition compile (j : job) (cached ok : bool) (s : state) : state * outcome :=
    if cached then
      match find_key (key j) (cache s) with
      | None => create j cached ok s
      | Some e =>
          let s1 := touch (key j) e s in
          match lookup e (objs s1) with
          | None => create j cached ok s1
          | Some o =>
              match lookup (o_dir o) (disk s1) with
              | Some (Some _) =>
                  let n := next s1 in
                  ({| objs := (n, {| o_dir := o_dir o; o_cached := true |}) :: objs s1; held := n :: held s1;
                      cache := cache s1; disk := disk s1; next := S n |}, Ready n)
              | _ => create j cached ok s1
              end
          end
      end
    else create j cached ok s.

  (** What can happen: a construction, a caller letting go of an object, a directory deleted
      from outside. *)
  Inductive op := Compile (j : job) (cached ok : bool) | Drop (n : nat) | Vanish (d : nat).
  Definition step (s : state) (o : op) : state :=
    match o with
    | Compile j cached ok => fst (compile j cached ok s)
    | Drop n => release n {| objs := objs s; held := filter (fun m => negb (m =? n)) (held s); cache := cache s;
                             disk := disk s; next := next s |}
    | Vanish d => {| objs := objs s; held := held s; cache := cache s; disk := removed d (disk s); next := next s |}
    end.
  Definition run (l : list op) : state := fold_left step l start.

  (** The executable of an object is there (what launching needs), compiled from this job. *)
  Definition artefact (s : state) (n : nat) : option job :=
    match lookup n (objs s) with
    | None => None
    | Some o => match lookup (o_dir o) (disk s) with Some (Some j) => Some j | _ => None end
    end.
End Cache.
Arguments state : clear implicits.
Arguments op : clear implicits.

(** ** Keys *)
(** compiled_executor.py:52-53 and 246-247: class name, module, problem and source, one after
    the other; then SHA-384, which is taken as a function without collisions. *)
Record plain := { p_class : bytes; p_module : bytes; p_problem : bytes; p_source : bytes }.
Definition plain_material (j : plain) : bytes := p_class j ++ p_module j ++ p_problem j ++ p_source j.
(** gcc_executor.py:45-51: problem, command, -march, defines, flags and ldflags, then the
    contents of the sources, in order. *)
Record gcc := { g_class : bytes; g_module : bytes; g_problem : bytes; g_command : bytes; g_march : bytes;
                g_defines : list bytes; g_flags : list bytes; g_ldflags : list bytes; g_sources : list (bytes * bytes) }.
Definition gcc_material (j : gcc) : bytes :=
  g_class j ++ g_module j ++ (g_problem j ++ g_command j ++ g_march j ++ concat (B "-DONLINE_JUDGE" :: g_defines j)
    ++ concat (g_flags j ++ [B "-fmax-errors=5"]) ++ concat (g_ldflags j)) ++ concat (map snd (g_sources j)).
