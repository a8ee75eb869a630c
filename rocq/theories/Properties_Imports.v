(** * Properties_Imports: whichever module is imported first (C84). *)

From Coq Require Import List String Bool Arith.
From Verif Require Import Imports ImportsSpec ImportsLayers ImportsWitness.
Import ListNotations.
Open Scope string_scope.

(** ** C84 *)

(** Whatever modules a program imports, in whatever order, starting with whichever module of
    this or another package: every import succeeds (those of extensions, if they have been
    compiled), and the module has all its names - although the modules import each other in
    cycles, and other packages import them while they are being imported. *)
Theorem C84_imports :
  forall pure watch has_proxy has_checker foreign rank fuel l,
    layered foreign rank ->
    (forall m, In m l -> valid m /\ rank m + 20 <= fuel) ->
    exists s,
      imports pure watch has_proxy has_checker foreign body_package fuel l start =
        Some (map (importable has_proxy has_checker) l, s) /\
      forall m, In m l -> importable has_proxy has_checker m = true -> complete foreign m s.
Proof. exact (fun pure watch hp hc foreign rank fuel l H => imports_lemma pure watch hp hc foreign rank H fuel l). Qed.
Print Assumptions C84_imports.

(** Nobody has got hold of a preliminary definition: whatever a module took from another one is
    what that module finally has under the name. *)
Theorem C84_same_objects :
  forall pure watch has_proxy has_checker foreign rank fuel l oks s,
    layered foreign rank ->
    (forall m, In m l -> valid m /\ rank m + 20 <= fuel) ->
    imports pure watch has_proxy has_checker foreign body_package fuel l start = Some (oks, s) ->
    same_objects s.
Proof.
  exact (fun pure watch hp hc foreign rank fuel l oks s H => same_lemma pure watch hp hc foreign rank H fuel l oks s).
Qed.
Print Assumptions C84_same_objects.

(** The C checker module is never initialised while it is being initialised, and at most once
    with success. *)
Theorem C84_once :
  forall pure watch has_proxy has_checker foreign rank fuel l oks s,
    layered foreign rank ->
    (forall m, In m l -> valid m /\ rank m + 20 <= fuel) ->
    imports pure watch has_proxy has_checker foreign body_package fuel l start = Some (oks, s) ->
    nested s = false /\ running s = 0 /\
    completed s = (if known "_zope_security_checker" s then 1 else 0).
Proof.
  exact (fun pure watch hp hc foreign rank fuel l oks s H => once_lemma pure watch hp hc foreign rank H fuel l oks s).
Qed.
Print Assumptions C84_once.

(** Importing any module of the package gives LocationProxy its descriptor, and the core with one
    implementation: with the extensions, Python code uses the C code's proxy class and
    functions, and its registry, default checker, list of names and NoProxy. *)
Theorem C84_effects :
  forall pure watch has_proxy has_checker foreign rank fuel l oks s m,
    layered foreign rank ->
    (forall m, In m l -> valid m /\ rank m + 20 <= fuel) ->
    imports pure watch has_proxy has_checker foreign body_package fuel l start = Some (oks, s) ->
    In m l -> is_foreign m = false ->
    patched s = true /\ (forall k, In k core -> complete foreign k s) /\
    (pure = false -> has_proxy = true -> forall n c, In (n, c) c_proxy ->
       val "proxy" n s = val "_proxy" c s /\ val "proxy" n s <> None) /\
    (pure = false -> has_proxy = true -> has_checker = true ->
       completed s = 1 /\
       (forall n, In n shared -> val "checker" n s = val "_zope_security_checker" n s /\ val "checker" n s <> None) /\
       (watch = false -> val "checker" "Checker" s = val "_zope_security_checker" "Checker" s)).
Proof.
  exact (fun pure watch hp hc foreign rank fuel l oks s m H => effects_lemma pure watch hp hc foreign rank H fuel l oks s m).
Qed.
Print Assumptions C84_effects.

(** Which object a name means: the same in every module that uses it; removeSecurityProxy is
    getObject; with ZOPE_WATCH_CHECKERS, Checker and CombinedChecker are the watching classes,
    also for the module that combines checkers; without extensions the Python classes. *)
Theorem C84_names :
  forall pure watch has_proxy has_checker foreign rank fuel l oks s m,
    layered foreign rank ->
    (forall m, In m l -> valid m /\ rank m + 20 <= fuel) ->
    imports pure watch has_proxy has_checker foreign body_package fuel l start = Some (oks, s) ->
    In m l -> is_foreign m = false ->
    agree s aliases /\
    (watch = true -> agree s watching) /\
    (watch = false -> has_proxy && has_checker && negb pure = false ->
       agree s [("checker", "Checker", "checker", "CheckerPy")]) /\
    (has_proxy && negb pure = false -> agree s python_proxy) /\
    (has_proxy && has_checker && negb pure = false ->
       agree s [("checker", "selectChecker", "checker", "selectCheckerPy")]).
Proof.
  exact (fun pure watch hp hc foreign rank fuel l oks s m H => names_lemma pure watch hp hc foreign rank H fuel l oks s m).
Qed.
Print Assumptions C84_names.

(** That is due to the package's __init__.py: were it empty, importing the extension first would
    initialise it twice, and Python code and C code would use different objects (C83). *)
Theorem C84_empty_package_refuted :
  exists s, imports false false true true (fun _ => []) [] 30 ["_zope_security_checker"] start = Some ([true], s) /\
    nested s = true /\ completed s = 2 /\ patched s = false /\
    exists n, In n shared /\ val "checker" n s <> None /\
      val "checker" n s <> val "_zope_security_checker" n s.
Proof. exact without_lemma. Qed.
Print Assumptions C84_empty_package_refuted.

(** Outside the core cycles are not harmless: if a module of another package that metaconfigure.py
    imports took names from it, then it would depend on the order whether it can be imported. *)
Theorem C84_cycle_refuted :
  exists foreign m p, In m outer /\ is_foreign p = true /\
    (forall p t n, In (t, n) (foreign p) -> In t outer /\ In n (all_names foreign t)) /\
    (exists s, imports true false false false foreign body_package 30 [m] start = Some ([false], s)) /\
    (exists s, imports true false false false foreign body_package 30 [p; m] start = Some ([true; true], s)).
Proof. exact cycle_lemma. Qed.
Print Assumptions C84_cycle_refuted.

(** ** Examples *)

(** zope.component, as it uses this package, is layered; a program that begins with the extension. *)
Example C84_layered : layered component component_rank.
Proof. exact component_layered. Qed.
Print Assumptions C84_layered.

Example C84_example :
  program_check = true /\ forallb (fun m => Nat.leb (component_rank m + 20) 30) program = true /\
  mem "Unauthorized" (all_names component "interfaces") = true /\
  mem "CheckerPublic" (all_names component "zope.component.zcml") = true.
Proof. vm_compute. repeat split; reflexivity. Qed.
Print Assumptions C84_example.
