(** C69: the reason shown for a failed program is the one its runtime printed. *)
From Coq Require Import String.
From Verif Require Import Model.Bytes Model.Utf8 Model.Feedback Spec.Text Spec.Feedback Proofs.Feedback.
Local Open Scope nat_scope.
Local Open Scope list_scope.

(** C++: the name in the last message of std::terminate, if it has at most 40 characters. *)
Theorem C69_cpp : forall stderr pre name, small stderr -> cpp_shows stderr pre name ->
  (forall pre' name', cpp_shows stderr pre' name' -> length pre' <= length pre) ->
  gcc_feedback stderr = if length name <=? 40 then name else [].
Proof. exact gcc_feedback_last. Qed.
Theorem C69_cpp_none : forall stderr, (~ small stderr \/ forall pre name, ~ cpp_shows stderr pre name) ->
  gcc_feedback stderr = [].
Proof. exact gcc_feedback_none. Qed.
(** and nothing else is ever shown *)
Theorem C69_cpp_only : forall stderr name, gcc_feedback stderr = name -> name <> [] ->
  small stderr /\ length name <= 40 /\ exists pre, cpp_shows stderr pre name /\
    forall pre' name', cpp_shows stderr pre' name' -> length pre' <= length pre.
Proof. exact gcc_feedback_sound. Qed.

(** Python: the name on the exception line of the last traceback, if it has at most 20
    characters.  [beyond] says which characters outside ASCII can be part of a word. *)
Theorem C69_python : forall beyond stderr pre body name line rest,
  let W := fun c => word beyond c = true in
  small stderr ->
  utf8text_replace stderr = pre ++ traceback ++ 10%N :: body ++ 10%N :: line ++ rest ->
  line_start pre -> (forall k, In k (lf_lines body) -> forall n, ~ exception_line W n k) ->
  exception_line W name line -> ~ In 10%N line -> line_end rest -> ~ whole_traceback W rest ->
  python_feedback beyond stderr = if length name <=? 20 then name else [].
Proof. exact python_feedback_last. Qed.
Theorem C69_python_none : forall beyond stderr,
  (~ small stderr \/ ~ whole_traceback (fun c => word beyond c = true) (utf8text_replace stderr)) ->
  python_feedback beyond stderr = [].
Proof. exact python_feedback_none. Qed.
Theorem C69_python_only : forall beyond stderr name,
  let W := fun c => word beyond c = true in
  python_feedback beyond stderr = name -> name <> [] ->
  small stderr /\ length name <= 20 /\ exists pre mid line rest,
    utf8text_replace stderr = pre ++ traceback ++ 10%N :: mid ++ 10%N :: line ++ rest /\
    exception_line W name line /\ ~ In 10%N line /\ line_end rest /\ ~ whole_traceback W rest.
Proof. exact python_feedback_sound. Qed.
(** Every exception's name: refuted, an exception class of a module (whose name has a dot)
    is not shown. *)
Theorem C69_python_qualified_refuted : exists stderr,
  utf8text_replace stderr = traceback ++ 10%N :: B "  File ""a.py""" ++ 10%N :: B "json.decoder.JSONDecodeError: Expecting value" ++ [10%N] /\
  forall beyond, python_feedback beyond stderr = [].
Proof.
  exists (traceback ++ 10%N :: B "  File ""a.py""" ++ 10%N :: B "json.decoder.JSONDecodeError: Expecting value" ++ [10%N]).
  split; [vm_compute; reflexivity|]. intros beyond. vm_compute. reflexivity.
Qed.

(** Java: what the agent printed after its marker on the last such line, up to a colon. *)
Theorem C69_java : forall rc crash stderr pre kind more rest,
  (~ crashed rc \/ crash = NoLog) -> ~ occurs (B "Error: Main method not found in class") stderr ->
  (more = [] \/ exists m, more = 58%N :: m) -> ~ In 58%N kind ->
  utf8text_replace stderr = pre ++ java_marker ++ (kind ++ more) ++ rest ->
  line_start pre -> ~ In 10%N (kind ++ more) -> line_end rest -> ~ occurs java_marker rest ->
  java_feedback rc crash stderr = Feedback kind.
Proof.
  intros rc crash stderr pre kind more rest Hc Hm Hmore Hk E Hp Hl Hr Ho.
  rewrite (java_rest rc crash stderr Hc), (not_contains _ _ Hm), E, java_last by assumption. f_equal.
  destruct Hmore as [->|(m & ->)]; [rewrite app_nil_r; exact (proj1 (before_colon_app kind [] Hk))|exact (proj2 (before_colon_app kind m Hk))].
Qed.
Theorem C69_java_silent : forall rc crash stderr, (~ crashed rc \/ crash = NoLog) ->
  ~ occurs (B "Error: Main method not found in class") stderr -> ~ occurs java_marker (utf8text_replace stderr) ->
  java_feedback rc crash stderr = Feedback (B "abnormal termination").
Proof. intros rc crash stderr Hc Hm Ho. rewrite (java_rest rc crash stderr Hc), (not_contains _ _ Hm), (java_none _ Ho). reflexivity. Qed.
Theorem C69_java_no_main : forall rc crash stderr, (~ crashed rc \/ crash = NoLog) ->
  occurs (B "Error: Main method not found in class") stderr ->
  java_feedback rc crash stderr = Feedback (B "public static void main(String[] args) not found").
Proof. intros rc crash stderr Hc Hm. apply contains_occurs in Hm. rewrite (java_rest rc crash stderr Hc), Hm. reflexivity. Qed.
(** Nothing else is shown. *)
Theorem C69_java_only : forall rc crash stderr kind, (~ crashed rc \/ crash = NoLog) -> java_feedback rc crash stderr = Feedback kind ->
  ~ occurs (B "Error: Main method not found in class") stderr -> kind <> B "abnormal termination" ->
  ~ In 58%N kind /\ exists pre more rest, utf8text_replace stderr = pre ++ java_marker ++ (kind ++ more) ++ rest /\
    (more = [] \/ exists m, more = 58%N :: m) /\ ~ In 10%N (kind ++ more) /\ line_end rest.
Proof. exact java_only. Qed.
(** A crash of the JVM itself is an internal error, never the submission's failure, unless the
    memory did not suffice to start it. *)
Theorem C69_java_crash : forall rc text stderr, crashed rc ->
  (occurs (B "There is insufficient memory for the Java Runtime") text ->
     java_feedback rc (Log text) stderr = Feedback (B "insufficient memory to initialize JVM")) /\
  (~ occurs (B "There is insufficient memory for the Java Runtime") text ->
     java_feedback rc (Log text) stderr = InternalErr ([10; 10]%N ++ text)).
Proof.
  intros rc text stderr H. rewrite (java_crash rc text stderr H). split; intros Ho.
  - apply contains_occurs in Ho. rewrite Ho. reflexivity.
  - rewrite (not_contains _ _ Ho). reflexivity.
Qed.

(** Mono: the exception named on the last line that begins with its marker. *)
Theorem C69_mono : forall beyond stderr pre name rest,
  utf8text_replace stderr = pre ++ mono_marker ++ name ++ 58%N :: rest ->
  line_start pre -> ~ In 10%N name -> ~ In 58%N name -> ~ occurs mono_marker rest -> mono_feedback beyond stderr = name.
Proof. exact mono_feedback_last. Qed.
Theorem C69_mono_none : forall beyond stderr, ~ occurs mono_marker (utf8text_replace stderr) -> mono_feedback beyond stderr = [].
Proof. exact mono_feedback_none. Qed.
(** Nothing else is shown: the marker is not the end of a longer word. *)
Theorem C69_mono_only : forall beyond stderr name, mono_feedback beyond stderr = name -> name <> [] ->
  exists pre rest, utf8text_replace stderr = pre ++ mono_marker ++ name ++ 58%N :: rest /\ ~ In 10%N name /\ ~ In 58%N name /\
    (forall q c, pre = q ++ [c] -> word beyond c = false).
Proof. exact mono_feedback_only. Qed.

(** ** Concrete cases *)
Definition nl : bytes := [10%N].
Definition two_throws : bytes := cpp_message (B "std::logic_error") ++ nl ++ cpp_message (B "std::out_of_range") ++ [13; 10]%N ++ B "  what():  vector".
Example C69_cpp_ex : gcc_feedback two_throws = B "std::out_of_range" /\ small two_throws /\
  cpp_shows two_throws (cpp_message (B "std::logic_error") ++ nl) (B "std::out_of_range").
Proof.
  split; [vm_compute; reflexivity|]. split; [split; [discriminate|vm_compute; discriminate]|]. split.
  - split; [discriminate|]. unfold letter, digit. cbn [B]. repeat (constructor; [vm_compute; intuition discriminate|]). constructor.
  - exists ([13; 10]%N ++ B "  what():  vector"). split; [vm_compute; reflexivity|]. right. eexists. split; [reflexivity|]. right. eexists. reflexivity.
Qed.
Definition chained : bytes :=
  traceback ++ nl ++ B "  File ""a.py"", line 1" ++ nl ++ B "KeyError: 'x'" ++ nl ++ nl ++
  B "During handling of the above exception, another exception occurred:" ++ nl ++ nl ++
  traceback ++ nl ++ B "  File ""a.py"", line 3" ++ nl ++ B "ValueError: nope" ++ nl.
Example C69_python_ex : forall beyond, python_feedback beyond chained = B "ValueError" /\
  python_feedback beyond (traceback ++ nl ++ B "  File ""a.py""" ++ nl ++ B "AVeryLongExceptionNameIndeed: x" ++ nl) = [] /\
  exception_line (fun c => word beyond c = true) (B "ValueError") (B "ValueError: nope").
Proof.
  intros beyond. split; [vm_compute; reflexivity|]. split; [vm_compute; reflexivity|]. split.
  - exists 86%N, (B "alueError"). split; [reflexivity|]. split; [left; left; lia|]. cbn [B]. repeat (constructor; [reflexivity|]). constructor.
  - right. exists (B " nope"). reflexivity.
Qed.
Example C69_java_ex : java_feedback (Some 1%Z) NoLog (B "noise" ++ nl ++ java_marker ++ B "java.lang.NullPointerException: null" ++ nl) =
    Feedback (B "java.lang.NullPointerException") /\
  java_feedback (Some 134%Z) (Log (B "# A fatal error has been detected")) [] = InternalErr (nl ++ nl ++ B "# A fatal error has been detected") /\
  java_feedback (Some 1%Z) (Log (B "# There is insufficient memory for the Java Runtime Environment")) [] =
    Feedback (B "insufficient memory to initialize JVM").
Proof. vm_compute. repeat split. Qed.
Example C69_mono_ex : forall beyond, mono_feedback beyond (B "[ERROR] FATAL UNHANDLED EXCEPTION: System.Exception: hm" ++ nl) = B "System.Exception".
Proof. intros. vm_compute. reflexivity. Qed.

Print Assumptions C69_cpp.
Print Assumptions C69_cpp_none.
Print Assumptions C69_cpp_only.
Print Assumptions C69_python.
Print Assumptions C69_python_none.
Print Assumptions C69_python_only.
Print Assumptions C69_python_qualified_refuted.
Print Assumptions C69_java.
Print Assumptions C69_java_silent.
Print Assumptions C69_java_no_main.
Print Assumptions C69_java_crash.
Print Assumptions C69_mono.
Print Assumptions C69_mono_none.

Print Assumptions C69_java_only.
Print Assumptions C69_mono_only.
