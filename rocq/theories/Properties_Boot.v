(** * Property C78: importing the package. *)

From Coq Require Import List String Ascii Bool ZArith.
From Verif Require Import Base Domain CheckerModel Boot BootSpec BootFacts.
Import ListNotations.
Open Scope string_scope.

(** The strings that PURE_PYTHON may have are the integers of Python. *)
Theorem C78_int : forall s z, py_int s = Some z <-> int_literal s z.
Proof. exact py_int_lemma. Qed.
Print Assumptions C78_int.

(** The package can be imported if PURE_PYTHON is unset or an integer and, unless it asks for
    the Python implementation, the extension modules load or are missing or unsuitable. *)
Theorem C78_succeeds :
  forall x,
    (exists w, import_package x = Imported w) <->
    exists b, python_wanted x b /\ (b = false -> harmless (x_proxy x) /\ harmless (x_checker x)).
Proof. exact succeeds_lemma. Qed.
Print Assumptions C78_succeeds.

(** Which implementations are in use: the C proxies unless the Python implementation is asked
    for or their module does not load; the C checkers and the C selectChecker, with the same
    conditions and one more.  Checker and CombinedChecker derive from the same. *)
Theorem C78_builds :
  forall x w, import_package x = Imported w ->
    let g := w_globals w in
    (g_Proxy g = ImplC <-> python_wanted x false /\ x_proxy x = None) /\
    (g_selectChecker g = ImplC <->
     python_wanted x false /\ x_proxy x = None /\ x_checker x = None) /\
    subclass (g_Checker g) (KPlain (g_selectChecker g)) = true /\
    subclass (g_CombinedChecker g) (KPlain (g_selectChecker g)) = true.
Proof. exact builds_lemma. Qed.
Print Assumptions C78_builds.

(** The parts agree with each other, whichever they are: selectChecker reads the registry
    that defineChecker writes, falls back on the default checker of checker.py and knows its
    NoProxy; selectCheckerPy looks up in that registry too; the checkers let the fifteen names through, know the CheckerPublic of checker.py
    and create proxies that its other functions recognise. *)
Theorem C78_consistent :
  forall x w, import_package x = Imported w ->
    let g := w_globals w in
    selection_uses w = Some (g_checkers g, g_default g, g_NoProxy g) /\
    g_getChecker g = g_checkers g /\
    forall b, b = ImplPy \/ b = g_selectChecker g ->
      checks_use w b = Some (available_by_default, g_CheckerPublic g) /\
      proxies_made w b = Some (g_Proxy g).
Proof. exact consistent_lemma. Qed.
Print Assumptions C78_consistent.

(** selectChecker accepts the default checker and the checkers of the exported classes as
    checkers, whether checkers are watched or not: it would call them otherwise. *)
Theorem C78_accepted :
  forall x w, import_package x = Imported w ->
    let g := w_globals w in
    (exists c, w_class w (g_default g) = Some c /\ subclass c (selection_class w) = true) /\
    subclass (g_Checker g) (selection_class w) = true /\
    subclass (g_CombinedChecker g) (selection_class w) = true.
Proof. exact accepted_lemma. Qed.
Print Assumptions C78_accepted.

(** ZOPE_WATCH_CHECKERS, whatever its value, never makes the import fail; the exported classes
    are the watching ones unless it is unset, empty or zero. *)
Theorem C78_watch :
  forall x w, import_package x = Imported w ->
    watch_level x (w_watch w) /\
    let b := g_selectChecker (w_globals w) in
    (w_watch w = 0%Z ->
     g_Checker (w_globals w) = KPlain b /\ g_CombinedChecker (w_globals w) = KCombined b) /\
    (w_watch w <> 0%Z ->
     g_Checker (w_globals w) = KWatching b /\ g_CombinedChecker (w_globals w) = KWatchingCombined b).
Proof. exact watching_lemma. Qed.
Print Assumptions C78_watch.

(** The model of the rest of the package is right about all this: C checkers come with C
    proxies only, new checkers are of the class that Checker is, and selectChecker takes for
    checkers what the test for the class does. *)
Theorem C78_model :
  forall x w E, import_package x = Imported w -> runs_in w E ->
    (e_cimpl E = ImplC -> e_impl E = ImplC) /\
    class_of E (Checker_class E) = g_Checker (w_globals w) /\
    forall s i k, st_chks s i = Some k ->
      is_Checker E s (VChk i) = subclass (class_of E (ck_kind k)) (selection_class w).
Proof. exact model_lemma. Qed.
Print Assumptions C78_model.

(** ** Examples *)

Definition environ (l : list (string * string)) (k : string) : option string :=
  option_map snd (find (fun kv => String.eqb (fst kv) k) l).

(** CPython with both extension modules; with PURE_PYTHON; PyPy. *)
Example C78_example :
  (exists w, import_package (mkPlatform (environ []) false None None) = Imported w /\
     g_Proxy (w_globals w) = ImplC /\ g_selectChecker (w_globals w) = ImplC /\ w_watch w = 0%Z) /\
  (exists w, import_package (mkPlatform (environ [("PURE_PYTHON", " 1"); ("ZOPE_WATCH_CHECKERS", "yes")])
                               false None None) = Imported w /\
     g_Proxy (w_globals w) = ImplPy /\ g_Checker (w_globals w) = KWatching ImplPy /\
     w_class w (g_default (w_globals w)) = Some (KWatching ImplPy)) /\
  (exists w, import_package (mkPlatform (environ [("ZOPE_WATCH_CHECKERS", "0")])
                               true (Some FImport) (Some FImport)) = Imported w /\
     g_Proxy (w_globals w) = ImplPy /\ g_Checker (w_globals w) = KPlain ImplPy).
Proof. repeat split; eexists; (split; [reflexivity|]); repeat split. Qed.
Print Assumptions C78_example.

(** ** What does not hold *)

(** The two extension modules are not used together or not at all: C proxies come with Python
    checkers if only the checkers' module is missing. *)
Theorem C78_mixed_refuted :
  exists x w, import_package x = Imported w /\
    g_Proxy (w_globals w) = ImplC /\ g_selectChecker (w_globals w) = ImplPy.
Proof.
  exists (mkPlatform (environ []) false None (Some FImport)). eexists.
  split; [reflexivity|]. split; reflexivity.
Qed.
Print Assumptions C78_mixed_refuted.

(** PURE_PYTHON is not a flag like ZOPE_WATCH_CHECKERS: with an empty value, or a word, the
    package cannot be imported, and 0 asks for the extension modules even on PyPy. *)
Theorem C78_flag_refuted :
  (forall v x, v = "" \/ v = "yes" -> x_environ x "PURE_PYTHON" = Some v ->
     import_package x = Failed FValue) /\
  (exists x w, x_pypy x = true /\ import_package x = Imported w /\ g_Proxy (w_globals w) = ImplC).
Proof.
  split.
  - intros v x [-> | ->] H; unfold import_package, PURE_PYTHON; rewrite H; reflexivity.
  - exists (mkPlatform (environ [("PURE_PYTHON", "0")]) true None None). eexists.
    split; [reflexivity|]. split; reflexivity.
Qed.
Print Assumptions C78_flag_refuted.
