(** What programs of each language may read and write, in terms of paths. *)
From Coq Require Import String.
From Verif Require Import Model.Bytes Model.Regex Model.Access Model.FileRules Spec.Access Spec.Policies.
Local Open Scope list_scope.

(** Characters that stand for themselves in a pattern. *)
Definition plain (c : N) : Prop := ~ In c (B "()[]{}?*+|^$\.").
(** A path used as a pattern: its dots stand for any character of a line. *)
Definition dotted (p : list N) : Prop := Forall (fun c => plain c \/ c = 46%N) p.
Definition like (p w : list N) : Prop := Forall2 (fun a c => a = c \/ (a = 46%N /\ c <> 10%N)) p w.
Definition begins_like (p path : list N) : Prop := exists w rest, like p w /\ path = w ++ rest.
Definition one_line (s : list N) : Prop := ~ In 10%N s.
Definition word_or_dash (c : N) : Prop := is_word c = true \/ c = 45%N.
(** The directories above a directory given by its components. *)
Definition spelled_dir (l : list (list N)) : list N := concat (map (fun w => 47%N :: w) l).
Definition component (w : list N) : Prop := w <> [] /\ ~ In 47%N w.

(** Languages whose programs are run by an interpreter that reads the source. *)
Definition script_languages : list string :=
  ["AWK"; "BASH"; "COFFEE"; "FORTH"; "LUA"; "PERL"; "PHP"; "PIKE"; "PRO"; "RUBY2"; "SED"; "TCL"; "TEXT"; "V8JS"]%string.
Definition assembly_languages : list string := ["GAS32"; "GAS64"; "GASARM"; "NASM"; "NASM64"]%string.

Definition language_readable (e : string) (pl : place) (p : list N) : Prop :=
  (e = "DART"%string /\ exists a, one_line a /\ exactly (a ++ B "/vm-service") p)
  \/ (e = "FORTH"%string /\ exactly (B "/.gforth-history") p)
  \/ (e = "PERL"%string /\ below (B "/etc/perl/") p)
  \/ (e = "PHP"%string /\ exists a m, one_line a /\ Forall word_or_dash m /\ exactly (a ++ B "/php" ++ m ++ B ".ini") p)
  \/ (e = "PHP"%string /\ exists a c m, one_line a /\ c <> 10%N /\ one_line m
                                        /\ exactly (a ++ B "/conf" ++ [c] ++ B "d/" ++ m ++ B ".ini") p)
  \/ (e = "RKT"%string /\ (exists w, like (user_home pl) w /\ (below (w ++ B "/.racket/") p \/ below (w ++ B "/.local/share/racket/") p)))
  \/ (e = "RKT"%string /\ (below (B "/etc/racket/") p \/ exactly (B "/etc/passwd") p))
  \/ (e = "RUBY2"%string /\ exactly (B "/proc/self/loginuid") p)
  \/ (e = "RUBY2"%string /\ exists l k, runtime_home pl = Some (spelled_dir l) /\ 0 < k < length l /\ exactly (spelled_dir (firstn k l)) p
                                        /\ Forall component l)
  \/ (e = "SWIFT"%string /\ below (B "/lib") p)
  \/ (In e mono_languages /\ below (B "/etc/mono/") p)
  \/ (e = "OBJC"%string /\ exists ds, ds <> [] /\ Forall (fun c => is_digit c = true) ds
                                      /\ exactly (B "/proc/" ++ ds ++ B "/cmdline") p)
  \/ (In e script_languages /\ begins_like (code pl) p)
  \/ (In e script_languages /\ exists home, runtime_home pl = Some home /\ below home p)
  \/ (e = "COFFEE"%string /\ begins_like (tool pl) p)
  \/ (e = "BASH"%string /\ exists w, In (Some w) (commands pl) /\ begins_like w p)
  \/ (e = "TUR"%string /\ exists w, like (code pl) w /\ below (w ++ B "bc") p)
  \/ (In e assembly_languages /\ qemu pl = true
      /\ (exactly (B "/proc/sys/vm/mmap_min_addr") p \/ below (B "/etc/qemu-binfmt/") p \/ begins_like (program pl) p))
  \/ (In e jvm_languages /\ begins_like (tool pl) p).
(** Places whose paths can be used as patterns: no metacharacters but dots, no braces in the
    directories that are escaped, all commands installed, a language home of components. *)
Definition tame_place (pl : place) : Prop :=
  dotted (code pl) /\ dotted (user_home pl) /\ dotted (tool pl) /\ dotted (program pl)
  /\ (~ In 123%N (directory pl) /\ ~ In 125%N (directory pl))
  /\ Forall (fun c => exists w, c = Some w /\ dotted w) (commands pl)
  /\ (forall home, runtime_home pl = Some home -> ~ In 123%N home /\ ~ In 125%N home
        /\ exists l, home = spelled_dir l /\ Forall component l).
(** Paths that the judge's own configuration or the submission names. *)
Definition configured (pl : place) (p : list N) : Prop :=
  begins_like (code pl) p \/ begins_like (tool pl) p \/ begins_like (program pl) p
  \/ (exists w, In (Some w) (commands pl) /\ begins_like w p)
  \/ (exists home, runtime_home pl = Some home /\ below home p)
  \/ (exists l k, runtime_home pl = Some (spelled_dir l) /\ exactly (spelled_dir (firstn k l)) p).
(** Languages whose programs may read more than the base files and their directory. *)
Definition reading_more : list string :=
  ["AWK"; "BASH"; "COFFEE"; "DART"; "FORTH"; "GAS32"; "GAS64"; "GASARM"; "GROOVY"; "JAVA10"; "JAVA11"; "JAVA15"; "JAVA8"; "JAVA9";
   "KOTLIN"; "LUA"; "MONOCS"; "MONOFS"; "MONOVB"; "NASM"; "NASM64"; "OBJC"; "PERL"; "PHP"; "PIKE"; "PRO"; "RKT"; "RUBY2"; "SCALA";
   "SED"; "SWIFT"; "TCL"; "TEXT"; "TUR"; "V8JS"]%string.
(** Paths no language needs. *)
Definition private : list (list N) :=
  [B "/root"; B "/home"; B "/var"; B "/boot"; B "/run"; B "/mnt"; B "/media"; B "/srv"; B "/bin"; B "/sbin";
   B "/usr/home"; B "/tmp/"; B "/etc/passwd"; B "/etc/shadow"; B "/etc/ssh"; B "/sys/k"; B "/dev/s"; B "/dev/m"].
