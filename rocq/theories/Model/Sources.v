(** What the judge reads in a source before compiling it: the public class of a Java program
    (dmoj/executors/java_executor.py) and the package of a Go program (dmoj/executors/GO.py).

    A pattern is modelled by what Python's [re] leaves after matching it at the front of a
    text. *)
From Coq Require Import String.
From Verif Require Import Model.Bytes Model.Utf8 Model.Executors Model.Feedback.
Local Open Scope nat_scope.
Local Open Scope list_scope.

(** [pattern.sub('', s)] for a pattern that matches at least one character; [fuel] is the
    length of the text. *)
Fixpoint sub_all (m : text -> option text) (fuel : nat) (s : text) : text :=
  match fuel, s with
  | O, _ | _, [] => []
  | S f, c :: r => match m s with Some rest => sub_all m f rest | None => c :: sub_all m f r end
  end.
Definition sub (m : text -> option text) (s : text) : text := sub_all m (length s) s.

(** java_executor.py:15, GO.py:8: /\*.*?\*/ with DOTALL *)
Fixpoint to_close (s : text) : option text :=
  match s with
  | [] => None
  | _ :: r => match after (B "*/") s with Some t => Some t | None => to_close r end
  end.
Definition recomment (s : text) : option text :=
  match after (B "/*") s with Some t => to_close t | None => None end.
(** java_executor.py:17, GO.py:7: //.*?(?=[\r\n]) *)
Fixpoint to_line_end (s : text) : option text :=
  match s with [] => None | c :: r => if (c =? CR)%N || (c =? LF)%N then Some s else to_line_end r end.
Definition reinline_comment (s : text) : option text :=
  match after (B "//") s with Some t => to_line_end t | None => None end.
(** java_executor.py:16: a character literal of one character or escape; a string literal.
    What may be repeated starts with a backslash or not, so there is one way to match. *)
Fixpoint string_body (s : text) : option text :=
  match s with
  | [] => None
  | c :: r => if (c =? 34)%N then Some r
              else if (c =? 92)%N then match r with [] => None | _ :: r' => string_body r' end
              else string_body r
  end.
Definition char_body (s : text) : option text :=
  match s with
  | [] => None
  | c :: r => if (c =? 39)%N then None
              else if (c =? 92)%N then match r with _ :: q :: r' => if (q =? 39)%N then Some r' else None | _ => None end
              else match r with q :: r' => if (q =? 39)%N then Some r' else None | [] => None end
  end.
Definition restring (s : text) : option text :=
  match s with
  | [] => None
  | c :: r => if (c =? 39)%N then char_body r else if (c =? 34)%N then string_body r else None
  end.

(** What a class is looked for in: java_executor.py:31 *)
Definition java_code (s : text) : text := sub reinline_comment (sub restring (sub recomment s)).

Section Java.
  (** \w and \s on characters outside ASCII *)
  Variables word_beyond space_beyond : N -> bool.
  Definition jword (c : N) : bool := word word_beyond c.
  Definition jspace (c : N) : bool :=
    if (c <? 128)%N then ((9 <=? c) && (c <=? 13) || (28 <=? c) && (c <=? 32))%N else space_beyond c.
  (** \s+ *)
  Definition blanks (s : text) : option text := match span jspace s with ([], _) => None | (_, r) => Some r end.
  (** (?:w\s+)? for the words w: no other part of the pattern can match such a word followed by blanks. *)
  Fixpoint opt_word (ws : list text) (s : text) : text :=
    match ws with
    | [] => s
    | w :: ws' => match after w s with
                  | Some t => match blanks t with Some r => r | None => opt_word ws' s end
                  | None => opt_word ws' s
                  end
    end.
  (** ([\w$][\w$]*?)\b: the shortest name at whose end a word begins or ends *)
  Definition class_name (s : text) : option text :=
    match s with
    | [] => None
    | c :: _ => if jword c then Some (fst (span jword s))
                else if (c =? 36)%N
                then let (d, r) := span (N.eqb 36) s in
                     match r with x :: _ => if jword x then Some d else None | [] => None end
                else None
    end.
  (** java_executor.py:18-20, at one position; [prev] is the character before *)
  Definition class_at (prev : option N) (s : text) : option text :=
    if match prev with Some p => jword p | None => false end then None else
    match after (B "public") s with
    | None => None
    | Some t1 =>
        match blanks t1 with
        | None => None
        | Some t2 =>
            let t3 := opt_word [B "strictfp"] (opt_word [B "abstract"; B "final"] (opt_word [B "strictfp"] t2)) in
            match after (B "class") t3 with
            | None => None
            | Some t4 => match blanks t4 with None => None | Some t5 => class_name t5 end
            end
        end
    end.
  (** java_executor.py:21, at one position: the name runs to the next semicolon; it is cut
      by dots into parts, none empty; the first keeps a blank if it is nothing else. *)
  Definition package_at (prev : option N) (s : text) : option text :=
    if match prev with Some p => jword p | None => false end then None else
    match after (B "package") s with
    | None => None
    | Some t =>
        let (u, r) := span (fun c => negb (c =? 59)%N) t in
        match r with
        | [] => None
        | _ :: _ =>
            match re_split (N.eqb 46) u with
            | (c :: x :: p) :: parts =>
                if jspace c && forallb nonempty parts
                then let (w, q) := span jspace (x :: p) in
                     let first := match q with [] => [last w x] | _ => q end in
                     Some (first ++ concat (map (cons 46%N) parts))
                else None
            | _ => None
            end
        end
    end.
  (** pattern.search(s) *)
  Fixpoint search (m : option N -> text -> option text) (prev : option N) (s : text) : option text :=
    match m prev s with
    | Some g => Some g
    | None => match s with [] => None | c :: r => search m (Some c) r end
    end.
  Inductive found := NoClass | Package (name : text) | Class (name : text).
  (** java_executor.py:30-38 *)
  Definition find_class (source : text) : found :=
    let s := java_code source in
    match search class_at None s with
    | None => NoClass
    | Some n => match search package_at None s with Some g => Package g | None => Class n end
    end.

  (** JavacExecutor.create_files, java_executor.py:66-72 and 215-231.  [problem_id].java is
      written first, then security.policy.  [opens] says whether the class's file can be
      created; an error other than a bad name is passed on. *)
  Inductive open_result := Opens | BadName | OtherError.
  Inductive created :=
  | Created (files : list (text * bytes)) (class_file class : text)
  | BadUtf8 | NoPublicClass | InvalidPackage (name : text) | NameTooLong | Raised.
  Definition java_files (problem : text) (policy source : bytes) (opens : text -> open_result) : created :=
    match utf8text source with
    | None => BadUtf8
    | Some t =>
        match find_class t with
        | NoClass => NoPublicClass
        | Package g => InvalidPackage g
        | Class n =>
            let f := n ++ B ".java" in
            match opens f with
            | BadName => NameTooLong
            | OtherError => Raised
            | Opens =>
                match utf8bytes t with
                | Some b => Created [(problem ++ B ".java", source); (B "security.policy", policy); (f, b)] f n
                | None => Raised
                end
            end
        end
    end.
  (** java_executor.py:97-108 and 233-234: the command lines; [memory] in decimal *)
  Definition javac_args (compiler dir class_file : text) : list text :=
    [compiler; B "-Xlint"; B "-encoding"; B "UTF-8"; dir ++ B "/" ++ class_file].
  Definition java_args (mode agent memory class : text) : list text :=
    [B "java"; mode; agent; B "-Xss128m"; B "-Xmx" ++ memory ++ B "K"; B "-XX:+UseSerialGC";
     B "-XX:ErrorFile=submission_jvm_crash.log"; class].
End Java.

(** ** GO.py *)
(** GO.py:12-13 *)
Definition decomment (s : bytes) : bytes := sub reinline_comment (sub recomment s).
Definition ascii_word (c : N) : bool := (ascii_letter c || ascii_digit c || (c =? 95)%N).
(** GO.py:9: \s*package\s+main\b at the front *)
Definition repackage (s : bytes) : bool :=
  match after (B "package") (snd (span py_isspace s)) with
  | None => false
  | Some t =>
      match span py_isspace t with
      | ([], _) => false
      | (_, r) => match after (B "main") r with
                  | None => false
                  | Some q => match q with [] => true | c :: _ => negb (ascii_word c) end
                  end
      end
  end.
(** GO.py:54-57: is the source accepted *)
Definition go_accepts (source : bytes) : bool :=
  repackage (fst (span (fun c => negb (c =? LF)%N) (py_strip (decomment source)))).
