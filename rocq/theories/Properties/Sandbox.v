(** C33-C36, C39, C54: files and processes a sandboxed program can reach. *)
From Coq Require Import String.
From Verif Require Import Model.Bytes Model.Paths Model.Regex Model.Access
  Spec.Paths Spec.Regex Spec.Access Proofs.Paths Proofs.Regex Proofs.Access.
Local Open Scope list_scope.

(** ** C33: resolving paths *)
(** Whatever place the path denotes for the kernel (in a tree without symbolic links), looked
    up from the directory the call names, the path compared with the rules is the one
    spelling of that place. *)
Theorem C33_same_file : forall is_dir dir file q cwd fd reg,
  Denotes is_dir (fun _ => None) dir file q -> Forall name_ok dir ->
  ((reg mod 2 ^ 32 = 2 ^ 32 - 100)%Z /\ cwd = spelled dir
   \/ exists n, (- 2 ^ 31 <= n < 2 ^ 31)%Z /\ (n mod 2 ^ 32 = reg mod 2 ^ 32)%Z /\ n <> (-100)%Z /\ fd n = Some (spelled dir)) ->
  get_full_path cwd fd file reg = Some (spelled q) /\ Forall name_ok q.
Proof. exact full_path_registers. Qed.
Theorem C33_canonical : forall cwd fd file reg f,
  get_full_path cwd fd file reg = Some f ->
  hd_error cwd = Some 47%N -> (forall n d, fd n = Some d -> hd_error d = Some 47%N) ->
  exists q, Forall name_ok q /\ f = spelled q.
Proof. exact full_path_canonical'. Qed.
(** Through a symbolic link the checked path can name another file than the kernel opens. *)
Theorem C33_symlink_refuted :
  ~ forall is_dir link dir file q cwd fd,
      Denotes is_dir link dir file q -> Forall name_ok dir -> cwd = spelled dir ->
      get_full_path cwd fd file (-100) = Some (spelled q).
Proof. exact symlink_refuted. Qed.
Example C33_ex_walk : Denotes (fun _ => true) (fun _ => None) [B "tmp"; B "w"] (B "../../etc//./passwd") [B "etc"; B "passwd"].
Proof.
  apply (d_rel _ _ _ _ [B ".."; B ".."; B "etc"; []; B "."; B "passwd"]); [discriminate| |].
  - apply (split_components (B "../../etc//./passwd")).
  - apply w_up; [reflexivity|]. apply w_up; [reflexivity|]. cbn [removelast].
    apply w_down; [vm_compute; intuition discriminate|reflexivity|]. cbn [app].
    apply w_stay; [left; reflexivity|reflexivity|]. apply w_stay; [right; reflexivity|reflexivity|].
    apply w_down; [vm_compute; intuition discriminate|reflexivity|]. apply w_done.
Qed.
Example C33_ex : get_full_path (B "/tmp/w") (fun _ => None) (B "../../etc//./passwd") 4294967196 = Some (B "/etc/passwd").
Proof. reflexivity. Qed.
Example C33_ex2 : get_full_path (B "/tmp/w") (fun _ => None) (B "//../..") 0 = Some (B "/").
Proof. reflexivity. Qed.

(** ** C36: the base directory *)
Theorem C36_descriptor : forall reg,
  (- 2 ^ 31 <= as_descriptor reg < 2 ^ 31)%Z /\ (as_descriptor reg mod 2 ^ 32 = reg mod 2 ^ 32)%Z.
Proof. exact as_descriptor_spec. Qed.
Theorem C36_cwd : forall cwd fd file reg, (reg mod 2 ^ 32 = 2 ^ 32 - 100)%Z ->
  forall fd' reg', (reg' mod 2 ^ 32 = 2 ^ 32 - 100)%Z ->
  get_full_path cwd fd file reg = get_full_path cwd fd' file reg'.
Proof. exact full_path_cwd. Qed.
Theorem C36_fd : forall cwd cwd' fd fd' file reg reg', (reg mod 2 ^ 32 = reg' mod 2 ^ 32)%Z ->
  (reg mod 2 ^ 32 <> 2 ^ 32 - 100)%Z ->
  (forall n, (n mod 2 ^ 32 = reg mod 2 ^ 32)%Z -> (- 2 ^ 31 <= n < 2 ^ 31)%Z -> fd n = fd' n) ->
  get_full_path cwd fd file reg = get_full_path cwd' fd' file reg'.
Proof. exact full_path_fd. Qed.
Theorem C36_absolute : forall cwd fd cwd' fd' r reg reg',
  get_full_path cwd fd (47%N :: r) reg = get_full_path cwd' fd' (47%N :: r) reg'.
Proof. exact full_path_absolute. Qed.
Example C36_ex : as_descriptor 0xFFFFFF9C = (-100)%Z /\ as_descriptor (-100) = (-100)%Z /\ as_descriptor 5 = 5%Z
  /\ as_descriptor 0x100000005 = 5%Z.
Proof. repeat split. Qed.

(** ** C34: what the rules let through *)
Theorem C34_allowed_iff : forall r w d c, file_call c = true ->
  Forall (rule_ok (pid d)) r -> Forall (rule_ok (pid d)) w ->
  (fst (handle (fresh r w) d c) = Run <->
   exists path full rule, path_of d c = Str path
     /\ get_full_path (cwd d) (fds d) path (dir_of d c) = Some full
     /\ In rule (if wants_write d c then w else r) /\ covers (pid d) rule full).
Proof. intros r w d c H1 H2 H3. exact (proj1 (file_call_spec r w d c H1 H2 H3)). Qed.
Theorem C34_denied : forall r w d c, file_call c = true ->
  Forall (rule_ok (pid d)) r -> Forall (rule_ok (pid d)) w ->
  fst (handle (fresh r w) d c) <> Run ->
  fst (handle (fresh r w) d c) = Fail 2
  \/ (fst (handle (fresh r w) d c) = Kill
      /\ exists path, path_of d c = Str path /\ get_full_path (cwd d) (fds d) path (dir_of d c) = None).
Proof. exact file_call_denied. Qed.
Theorem C34_no_rules : forall w d c, file_call c = true -> wants_write d c = false ->
  fst (handle (fresh [] w) d c) <> Run.
Proof. exact no_read_rules. Qed.
Theorem C34_no_write_rules : forall r d c, file_call c = true -> wants_write d c = true ->
  fst (handle (fresh r []) d c) <> Run.
Proof. exact no_write_rules. Qed.
Theorem C34_write_flags : forall flags, is_write_flags flags = writing flags.
Proof. exact is_write_flags_spec. Qed.
(** The verdict on a call does not depend on the calls before it. *)
Theorem C34_history : forall r w l,
  fst (handle_all (fresh r w) l) = map (fun '(d, c) => fst (handle (fresh r w) d c)) l.
Proof. intros r w l. exact (handle_all_history l (fresh r w) (fresh_ok r w)). Qed.
Theorem C34_never : forall r w d c, In c [Mkdir; Unlink; Socket; Socketcall] ->
  exists e, fst (handle (fresh r w) d c) = Fail e.
Proof. exact never_run. Qed.

(** ** C35: the default rules *)
Definition standard (dir : list N) : tracer := fresh (get_fs [] [] dir) (get_write_fs []).
Theorem C35_reads : forall dir d c path, ~ In 123%N dir -> ~ In 125%N dir ->
  file_call c = true -> wants_write d c = false -> path_of d c = Str path ->
  (fst (handle (standard dir) d c) = Run <->
   exists full, get_full_path (cwd d) (fds d) path (dir_of d c) = Some full
     /\ (base_readable (decimal (pid d)) full \/ below dir full)).
Proof. exact standard_reads. Qed.
Theorem C35_writes : forall dir d c path, ~ In 123%N dir -> ~ In 125%N dir ->
  file_call c = true -> wants_write d c = true -> path_of d c = Str path ->
  (fst (handle (standard dir) d c) = Run <->
   exists full w, get_full_path (cwd d) (fds d) path (dir_of d c) = Some full
     /\ In w [B "/dev/stdout"; B "/dev/stderr"; B "/dev/null"] /\ exactly w full).
Proof. exact standard_writes. Qed.
Theorem C35_hidden : forall ds w p,
  In w [B "/root"; B "/home"; B "/var"; B "/boot"; B "/run"; B "/mnt"; B "/media"; B "/srv"; B "/bin"; B "/sbin";
        B "/usr/home"; B "/tmp/"; B "/etc/passwd"; B "/etc/shadow"; B "/etc/ssh"; B "/sys/k"; B "/dev/s"; B "/dev/m"] ->
  below w p -> ~ base_readable ds p.
Proof. exact hidden. Qed.
Theorem C35_other_process : forall p q rest, q <> p ->
  (match rest with [] => True | c :: _ => ~ (48 <= c <= 57)%N end) ->
  ~ base_readable (decimal p) (B "/proc/" ++ decimal q ++ rest).
Proof. exact other_process. Qed.
Theorem C35_decimal : forall n, numeral_value (decimal n) = n /\ Forall (fun c => (48 <= c <= 57)%N) (decimal n).
Proof. intros n. destruct (decimal_spec n) as (H1 & H2 & _). auto. Qed.

Definition caller (n : N) (dirfd : Z) (flags : N) (s : list N) : debugger :=
  {| pid := n; uarg := fun k => match k with 2 => flags | _ => 77%N end; arg0 := dirfd;
     readstr := fun a => if (a =? 77)%N then Str s else NoStr; cwd := B "/tmp/abc"; fds := fun _ => None |}.
Example C35_ex_read : fst (handle (standard (B "/tmp/abc")) (caller 12 (-100) 0 (B "../../usr/lib/x.so")) Openat) = Run.
Proof. vm_compute. reflexivity. Qed.
Example C35_ex_write : fst (handle (standard (B "/tmp/abc")) (caller 12 (-100) 0x41 (B "out.txt")) Openat) = Fail 2.
Proof. vm_compute. reflexivity. Qed.
Example C35_ex_own : fst (handle (standard (B "/tmp/abc")) (caller 12 (-100) 0 (B "out.txt")) Openat) = Run.
Proof. vm_compute. reflexivity. Qed.
Example C35_ex_proc : fst (handle (standard (B "/tmp/abc")) (caller 12 0 0 (B "/proc/12/maps")) Fstatat) = Run
  /\ fst (handle (standard (B "/tmp/abc")) (caller 12 0 0 (B "/proc/13/maps")) Fstatat) = Fail 2.
Proof. vm_compute. auto. Qed.

(** ** C39: processes *)
Theorem C39_signals : forall r w d c, c = Kill_ \/ c = Tgkill ->
  (fst (handle (fresh r w) d c) = Run <-> uarg d 0 = pid d)
  /\ (fst (handle (fresh r w) d c) <> Run -> fst (handle (fresh r w) d c) = Fail 1).
Proof. exact signals. Qed.
Theorem C39_prlimit : forall r w d,
  (fst (handle (fresh r w) d Prlimit64) = Run <-> uarg d 0 = 0%N \/ uarg d 0 = pid d)
  /\ (fst (handle (fresh r w) d Prlimit64) <> Run -> fst (handle (fresh r w) d Prlimit64) = Fail 1).
Proof. exact prlimit. Qed.
Theorem C39_prctl : forall r w d,
  (fst (handle (fresh r w) d Prctl) = Run <-> In (arg0 d) [3; 15; 16; 41; 1398164801]%Z)
  /\ (fst (handle (fresh r w) d Prctl) <> Run -> fst (handle (fresh r w) d Prctl) = Kill).
Proof. exact prctl. Qed.
Example C39_ex : fst (handle (fresh [] []) (caller 77 0 0 []) Kill_) = Run
  /\ fst (handle (fresh [] []) (caller 78 0 0 []) Kill_) = Fail 1
  /\ fst (handle (fresh [] []) (caller 78 15 0 []) Prctl) = Run
  /\ fst (handle (fresh [] []) (caller 78 1 0 []) Prctl) = Kill.
Proof. vm_compute. auto. Qed.

(** ** C54: the scratch directory *)
Theorem C54_rules : forall own extra dir p, ~ In 123%N dir -> ~ In 125%N dir ->
  Forall (rule_ok p) own -> Forall (rule_ok p) extra ->
  forall path, (exists rule, In rule (get_fs own extra dir) /\ covers p rule path) <->
    base_readable (decimal p) path \/ below dir path \/ exists rule, In rule (own ++ extra) /\ covers p rule path.
Proof. intros own extra dir p H1 H2 H3 H4. exact (proj2 (get_fs_rules p own extra dir H1 H2 H3 H4)). Qed.
(** Another scratch directory is out of reach when neither name extends the other, as for
    the equally long names that tempfile makes. *)
Theorem C54_equal_length : forall p dir a b rest, a <> b -> length a = length b ->
  ~ In 123%N (dir ++ a) -> ~ In 125%N (dir ++ a) -> below (B "/tmp/") dir ->
  ~ exists rule, In rule (get_fs [] [] (dir ++ a)) /\ covers p rule (dir ++ b ++ rest).
Proof. exact equal_length_hidden. Qed.
Theorem C54_sibling_refuted :
  ~ forall dir other rest p, other <> dir -> ~ below (dir ++ [47%N]) other -> below (B "/tmp/") other ->
      ~ exists rule, In rule (get_fs [] [] dir) /\ covers p rule (other ++ 47%N :: rest).
Proof. exact sibling_refuted. Qed.
(** A link is made only at a normal path that starts with the scratch directory's name. *)
Theorem C54_links : forall dir src q,
  link_place dir src = Some q <-> q = normpath (join dir src) /\ below dir q.
Proof. exact link_place_spec. Qed.
Theorem C54_links_sibling_refuted :
  ~ forall dir src q, link_place dir src = Some q -> q = dir \/ below (dir ++ [47%N]) q.
Proof. exact link_sibling_refuted. Qed.
(** A link never leaves the parent of the scratch directory: it is in the scratch directory
    or in a neighbour whose name starts with the scratch directory's name. *)
Theorem C54_links_parent : forall d n src q, Forall name_ok (d ++ [n]) ->
  link_place (spelled (d ++ [n])) src = Some q ->
  exists m rest, q = spelled (d ++ (n ++ m) :: rest) /\ Forall name_ok (d ++ (n ++ m) :: rest).
Proof. exact link_parent. Qed.
Example C54_ex : link_place (B "/tmp/ab") (B "x/../in.txt") = Some (B "/tmp/ab/in.txt")
  /\ link_place (B "/tmp/ab") (B "../../etc/passwd") = None
  /\ link_place (B "/tmp/ab") (B "../abc/x") = Some (B "/tmp/abc/x").
Proof. vm_compute. auto. Qed.

Print Assumptions C33_same_file.
Print Assumptions C33_canonical.
Print Assumptions C33_symlink_refuted.
Print Assumptions C36_descriptor.
Print Assumptions C36_cwd.
Print Assumptions C36_fd.
Print Assumptions C36_absolute.
Print Assumptions C34_allowed_iff.
Print Assumptions C34_denied.
Print Assumptions C34_no_rules.
Print Assumptions C34_no_write_rules.
Print Assumptions C34_write_flags.
Print Assumptions C34_history.
Print Assumptions C34_never.
Print Assumptions C35_reads.
Print Assumptions C35_writes.
Print Assumptions C35_hidden.
Print Assumptions C35_other_process.
Print Assumptions C35_decimal.
Print Assumptions C39_signals.
Print Assumptions C39_prlimit.
Print Assumptions C39_prctl.
Print Assumptions C54_rules.
Print Assumptions C54_equal_length.
Print Assumptions C54_sibling_refuted.
Print Assumptions C54_links.
Print Assumptions C54_links_sibling_refuted.
Print Assumptions C54_links_parent.
