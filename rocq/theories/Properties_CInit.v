(** * Properties_CInit: initialisation of the extension modules (C83). *)

From Coq Require Import List String Bool Arith ZArith.
From Verif Require Import CInit CInitSpec CInitFacts CInitWitness.
Import ListNotations.
Open Scope string_scope.

(** ** C83 *)

(** If the initialisation of _proxy succeeds, every static string has the text that belongs to
    it, the type is exported, and the only references taken are those of the static variables
    and the one to the module that is returned: whatever was in the variables before, e.g.
    after an attempt that failed. *)
Theorem C83_proxy :
  forall oracle type s m s',
    init_proxy oracle type s = (Some m, s') -> exc s' = false ->
    In (KCreate "_proxy", Some m) (log s') /\
    (forall v, In v declared_strings -> has_result s' v (KIntern (text_of v))) /\
    has_result s' "__class__str" (KFromString "__class__") /\
    has_result s' "__name__str" (KFromString "__name__") /\
    has_result s' "__module__str" (KFromString "__module__") /\
    exported s' m "_Proxy" type /\
    (forall o, own s' o = own s o + held proxy_vars s' o + one m o)%Z.
Proof. exact proxy_lemma. Qed.
Print Assumptions C83_proxy.

(** The same for _zope_security_checker: the registry, the default checker, the names available
    by default and NoProxy that Python code gets from the module are the objects the C code
    uses; the proxy class, the exceptions, the thread's data and the public permission are
    those of the Python modules. *)
Theorem C83_checker :
  forall oracle type hook s m s',
    (forall n s, hook n s = s) ->
    init_checker oracle type hook s = (Some m, s') -> exc s' = false ->
    In (KCreate "_zope_security_checker", Some m) (log s') /\
    has_result s' "_checkers" KNewDict /\ has_result s' "_defaultChecker" KNewChecker /\
    has_result s' "_available_by_default" KNewList /\ has_result s' "NoProxy" KNewObject /\
    from_module s' "Proxy" "zope.security._proxy" "_Proxy" /\
    from_module s' "thread_local" "zope.security._definitions" "thread_local" /\
    from_module s' "ForbiddenAttribute" "zope.security.interfaces" "ForbiddenAttribute" /\
    from_module s' "Unauthorized" "zope.security.interfaces" "Unauthorized" /\
    from_module s' "CheckerPublic" "zope.security.checker" "CheckerPublic" /\
    has_result s' "str_checkPermission" (KIntern "checkPermission") /\
    has_result s' "str___Security_checker__" (KIntern "__Security_checker__") /\
    has_result s' "str_interaction" (KIntern "interaction") /\
    (forall n, In n ["_checkers"; "_defaultChecker"; "_available_by_default"; "NoProxy"] ->
       exists o, vars s' n = Some o /\ exported s' m n o) /\
    exported s' m "Checker" type /\
    (forall o, own s' o = own s o + held checker_vars s' o + one m o)%Z.
Proof. exact checker_lemma. Qed.
Print Assumptions C83_checker.

(** No failure goes unnoticed: an exception is set exactly if some call failed (or it was set
    before), and NULL is returned exactly if a call failed other than adding to the module. *)
Theorem C83_proxy_failures :
  forall oracle type s r s',
    init_proxy oracle type s = (r, s') ->
    exists calls, log s' = (calls ++ log s)%list /\
      (r = None <-> exists k, In (k, None) calls /\ is_add k = false) /\
      (exc s' = true <-> exc s = true \/ exists k, In (k, None) calls).
Proof. exact proxy_fails. Qed.
Print Assumptions C83_proxy_failures.

Theorem C83_checker_failures :
  forall oracle type hook,
    (forall n s, hook n s = s) ->
    forall s r s', init_checker oracle type hook s = (r, s') ->
    exists calls, log s' = (calls ++ log s)%list /\
      (r = None <-> exists k, In (k, None) calls /\ is_add k = false) /\
      (exc s' = true <-> exc s = true \/ exists k, In (k, None) calls).
Proof. exact checker_fails. Qed.
Print Assumptions C83_checker_failures.

(** If adding to the module fails, the module is returned with an exception set (the
    interpreter turns that into SystemError), and the reference is lost. *)
Theorem C83_add_refuted :
  exists oracle type hook s m s',
    (forall n s, hook n s = s) /\ exc s = false /\
    init_checker oracle type hook s = (Some m, s') /\ exc s' = true /\
    (own s type < own s' type)%Z.
Proof. exact add_lemma. Qed.
Print Assumptions C83_add_refuted.

(** A failed initialisation never gives back the module it has made. *)
Theorem C83_lost_refuted :
  exists oracle type hook s s' m,
    (forall n s, hook n s = s) /\ exc s = false /\
    init_checker oracle type hook s = (None, s') /\
    In (KCreate "_zope_security_checker", Some m) (log s') /\
    held checker_vars s' m = 0%Z /\ own s m = 0%Z /\ own s' m = 1%Z.
Proof. exact lost_lemma. Qed.
Print Assumptions C83_lost_refuted.

(** If importing zope.security.checker initialises the extension a second time (see C84 for when
    it does), Python code and C code do not use the same list of names available by default,
    although nothing has failed. *)
Theorem C83_twice_refuted :
  exists oracle type hook s m s' inner outer m',
    init_checker oracle type hook s = (Some m, s') /\ exc s' = false /\
    (forall k, ~ In (k, None) (log s')) /\
    exported s' m' "_available_by_default" inner /\ m' <> m /\
    vars s' "_available_by_default" = Some outer /\ inner <> outer.
Proof. exact twice_lemma. Qed.
Print Assumptions C83_twice_refuted.

(** ** Examples *)

(** Initialisations that succeed; a few of the texts. *)
Example C83_example :
  fst (init_proxy (fresh (fun _ => false)) type_object start) = Some 100 /\
  exc (snd (init_proxy (fresh (fun _ => false)) type_object start)) = false /\
  fst (run_checker (fun _ => false)) = Some 100 /\ exc (snd (run_checker (fun _ => false))) = false /\
  adds (snd (run_checker (fun _ => false))) "_checkers" =
    match vars (snd (run_checker (fun _ => false))) "_checkers" with Some o => [(100, o)] | None => [] end /\
  text_of "str_op_rsub" = "__rsub__" /\ text_of "str___iter__" = "__iter__".
Proof. vm_compute. repeat split; reflexivity. Qed.
Print Assumptions C83_example.
