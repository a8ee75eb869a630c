(** * Properties_CExt: references and memory in the C extensions (C69). *)

From Coq Require Import List Bool Arith ZArith.
From Verif Require Import CExt CExtSpec CExtSound CExtLeaks CExtWitness.
Import ListNotations.
Open Scope Z_scope.

(** Every slot of the C proxy that returns an object, and getChecker and getObject: whatever
    the calls into the interpreter do and whichever of them fail, no reference is lost or
    given back twice, nothing is used that may have been freed, and NULL is returned exactly
    with an exception.  (For str(), repr() and next() see below.) *)
Theorem C69_proxy_objects :
  forall oracle args is_proxy has_sub has_ass has_num m,
    object_function oracle args is_proxy has_sub has_ass has_num m ->
    object_sound (proxies_complete args is_proxy) m.
Proof. exact object_functions_lemma. Qed.
Print Assumptions C69_proxy_objects.

(** The same for the slots that return an int. *)
Theorem C69_proxy_ints :
  forall oracle args is_proxy has_ass m,
    int_function oracle args is_proxy has_ass m ->
    int_sound (proxies_complete args is_proxy) m.
Proof. exact int_functions_lemma. Qed.
Print Assumptions C69_proxy_ints.

(** next() on a proxied iterator. *)
Theorem C69_next :
  forall oracle args is_proxy has_sub has_ass has_next self,
    a_proxy args is_proxy self ->
    next_sound (fun s => proxies_complete args is_proxy s /\
                         forall o, f1 s self = Some o -> has_next o = true)
      (proxy_iternext oracle args has_sub has_ass has_next self).
Proof. exact iternext_lemma. Qed.
Print Assumptions C69_next.

(** next() on a proxied object that is not an iterator: unless the check refuses, the
    interpreter crashes. *)
Theorem C69_next_refuted :
  forall oracle args is_proxy has_sub has_ass has_next self ob s r s',
    entered s -> proxies_complete args is_proxy s -> a_proxy args is_proxy self ->
    f1 s self = Some ob -> has_next ob = false ->
    proxy_iternext oracle args has_sub has_ass has_next self s = Some (r, s') ->
    (r = None /\ exc s' = true /\ balanced s r s') \/ fault s' = true.
Proof. exact next_crash. Qed.
Print Assumptions C69_next_refuted.

(** str() and repr(): if the checker grants the name, as above; if it refuses, every text
    that is returned costs a reference that is never given back, or is made from memory
    that is not the program's. *)
Theorem C69_str :
  forall oracle args is_proxy has_ass name self s i s1 r s',
    entered s -> static name = true ->
    proxies_complete args is_proxy s -> a_proxy args is_proxy self ->
    check oracle args has_ass self str_check name s = Some (i, s1) ->
    proxy_text oracle args has_ass name self s = Some (r, s') ->
    (0 <= i -> balanced s r s' /\ (r = None <-> exc s' = true)) /\
    (i < 0 -> r <> None -> fault s' = true \/ exists o, own s o + returned r o < own s' o).
Proof. exact str_lemma. Qed.
Print Assumptions C69_str.

(** A new proxy owns one reference to its object and one to its checker, and the caller one
    to the proxy. *)
Theorem C69_new :
  forall oracle args object checker fresh s r s',
    entered s -> In object args -> In checker args -> checker <> Py_None ->
    f1 s fresh = None -> f2 s fresh = None ->
    proxy_new oracle args (Some (object, checker)) (Some fresh) s = Some (r, s') ->
    r = Some fresh /\ f1 s' fresh = Some object /\ f2 s' fresh = Some checker /\
    balanced_with fresh s r s' /\ exc s' = false.
Proof. exact new_lemma. Qed.
Print Assumptions C69_new.

(** A construction that fails (wrong arguments, None as checker, no memory) takes nothing. *)
Theorem C69_new_refused :
  forall oracle args parsed fresh s r s',
    entered s -> (forall ob c, parsed = Some (ob, c) -> c = Py_None \/ fresh = None) ->
    proxy_new oracle args parsed fresh s = Some (r, s') ->
    r = None /\ exc s' = true /\ balanced s r s'.
Proof. exact new_refused_lemma. Qed.
Print Assumptions C69_new_refused.

(** Clearing a proxy or a checker gives back exactly what its struct held, and leaves NULLs
    in it. *)
Theorem C69_clear :
  forall oracle self s s' u,
    fault s = false ->
    proxy_clear oracle self s = Some (u, s') \/ Checker_clear oracle self s = Some (u, s') ->
    balanced_with self s None s' /\ f1 s' self = None /\ f2 s' self = None /\ exc s' = exc s.
Proof. exact clear_lemma. Qed.
Print Assumptions C69_clear.

(** Checker.__init__ on a new checker. *)
Theorem C69_init :
  forall args self getperms setperms s i s',
    entered s -> In getperms args -> an_arg args setperms ->
    f1 s self = None -> f2 s self = None ->
    Checker_init args self (Some (getperms, setperms)) s = Some (i, s') ->
    i = 0 /\ exc s' = false /\ f1 s' self = Some getperms /\ f2 s' self = setperms /\
    balanced_with self s None s'.
Proof. exact init_first. Qed.
Print Assumptions C69_init.

(** Called again, it never gives back the dictionaries the checker had. *)
Theorem C69_init_refuted :
  forall args self getperms setperms s i s' d,
    entered s -> In getperms args -> an_arg args setperms ->
    f1 s self = Some d \/ f2 s self = Some d ->
    Checker_init args self (Some (getperms, setperms)) s = Some (i, s') ->
    own s d + in_struct s' self d - in_struct s self d < own s' d.
Proof. exact init_again. Qed.
Print Assumptions C69_init_refuted.

(** get_permissions and set_permissions, which make the dictionary if there is none. *)
Theorem C69_getters :
  forall oracle args self s r s',
    entered s -> In self args ->
    Checker_get_get_permissions oracle args self s = Some (r, s') \/
    Checker_get_set_permissions oracle args self s = Some (r, s') ->
    balanced_with self s r s' /\ (r = None <-> exc s' = true).
Proof. exact getter_lemma. Qed.
Print Assumptions C69_getters.

(** permission_id and setattr_permission_id. *)
Theorem C69_permission_id :
  forall oracle args self name,
    In self args -> In name args ->
    object_sound (fun _ => True) (permission_id oracle args (get1 args) self name) /\
    object_sound (fun _ => True) (permission_id oracle args (get2 args) self name).
Proof. exact permission_id_lemma. Qed.
Print Assumptions C69_permission_id.

(** check_setattr, provided the permission that was looked up exists as long as it is used. *)
Theorem C69_check_setattr :
  forall oracle args self parsed,
    In self args -> (forall o n, parsed = Some (o, n) -> In o args /\ In n args) ->
    object_sound (fun s => forall p, an_ptr (oracle (step s)) = Some p -> kept oracle p)
      (Checker_check_setattr oracle args self parsed).
Proof. exact check_setattr_lemma. Qed.
Print Assumptions C69_check_setattr.

(** check, for names in the table (with the same proviso) and names that are not strings. *)
Theorem C69_check :
  forall oracle args is_str char0 char1 is_iter self object name,
    In self args -> In object args -> In name args ->
    int_sound (fun s => f1 s self <> None /\
        (forall p, an_ptr (oracle (step s)) = Some p -> kept oracle p) /\
        (an_ptr (oracle (step s)) = None -> is_str name = false))
      (Checker_check_int oracle args is_str char0 char1 is_iter self object name).
Proof. exact check_int_lemma. Qed.
Print Assumptions C69_check.

(** check, for every string that is not in the table (all forbidden names among them): if
    the string can be encoded, the encoded copy is never given back; if not, memory is read
    that is not the program's. *)
Theorem C69_check_refuted :
  forall oracle args is_str char0 char1 is_iter self object name d s i s',
    entered s -> In self args -> In object args -> In name args ->
    f1 s self = Some d -> an_ptr (oracle (step s)) = None -> is_str name = true ->
    Checker_check_int oracle args is_str char0 char1 is_iter self object name s = Some (i, s') ->
    match an_ptr (oracle (S (step s))) with
    | None => fault s' = true
    | Some b => fault s' = true \/ own s b < own s' b
    end.
Proof. exact check_int_other. Qed.
Print Assumptions C69_check_refuted.

(** check uses the borrowed permission after it asked the policy: if the policy removes
    the name from the table and answers no, the permission is used after it was freed,
    although no call failed and nothing else was dropped. *)
Theorem C69_permission_freed_refuted :
  exists oracle args self object name p s i s',
    entered s /\ In self args /\ In object args /\ In name args /\ f1 s self <> None /\
    (forall k, an_ptr (oracle k) <> None /\ an_neg (oracle k) = false) /\
    an_ptr (oracle (step s)) = Some p /\ (forall k o, an_drops (oracle k) o = true -> o = p) /\
    Checker_check_int oracle args (fun _ => true) (fun _ => false) (fun _ => false) (fun _ => false)
      self object name s = Some (i, s') /\
    fault s' = true.
Proof. exact freed_witness. Qed.
Print Assumptions C69_permission_freed_refuted.

(** selectChecker gives back what it takes and returns NULL only with an exception; with an
    exception it returns NULL if no call that answers with an int fails. *)
Theorem C69_select :
  forall oracle args is_checker fuel object s r s',
    entered s -> In object args ->
    selectChecker oracle args is_checker fuel object s = Some (r, s') ->
    balanced s r s' /\ (r = None -> exc s' = true) /\
    ((forall k, an_neg (oracle k) = false) -> exc s' = true -> r = None).
Proof. exact select_lemma. Qed.
Print Assumptions C69_select.

(** If isinstance() fails, it returns None with the exception still set, and Checker.proxy
    returns the bare object with the exception still set. *)
Theorem C69_select_refuted :
  exists oracle args value s r1 s1 r2 s2,
    entered s /\ In value args /\
    selectChecker oracle args (fun _ => false) 1 value s = Some (r1, s1) /\
    r1 = Some Py_None /\ exc s1 = true /\
    Checker_proxy oracle args (fun _ => false) (fun _ => false) 1 value s = Some (r2, s2) /\
    r2 = Some value /\ exc s2 = true.
Proof. exact select_witness. Qed.
Print Assumptions C69_select_refuted.

(** Checker.proxy: only references to None can be lost, and only if the value's
    [__Security_checker__] is None. *)
Theorem C69_proxy :
  forall oracle args is_checker exact_proxy fuel value s r s',
    entered s -> In value args ->
    Checker_proxy oracle args is_checker exact_proxy fuel value s = Some (r, s') ->
    fault s' = false /\
    (forall x, f1 s' x = f1 s x /\ f2 s' x = f2 s x) /\
    (forall o, o <> Py_None -> own s' o = own s o + returned r o) /\
    own s Py_None + returned r Py_None <= own s' Py_None /\
    (r = None -> exc s' = true) /\
    ((forall k, an_neg (oracle k) = false) -> exc s' = true -> r = None) /\
    (an_ptr (oracle (step s)) <> Some Py_None -> balanced s r s').
Proof. exact proxy_lemma. Qed.
Print Assumptions C69_proxy.

(** In that case one always is. *)
Theorem C69_proxy_refuted :
  forall oracle args is_checker exact_proxy fuel value s r s',
    entered s -> In value args -> exact_proxy value = false ->
    an_ptr (oracle (step s)) = Some Py_None ->
    Checker_proxy oracle args is_checker exact_proxy fuel value s = Some (r, s') ->
    r = None /\ exc s' = true /\ own s' Py_None = own s Py_None + 1.
Proof. exact proxy_none_leak. Qed.
Print Assumptions C69_proxy_refuted.

(** The hypotheses are met: object 30 is a proxy of 33 with the checker 34, entered with
    nothing owned.  Reading an attribute through it takes four calls; with any of them
    failing nothing stays owned; else one reference to the last result is returned. *)
Example C69_example :
  let s := plain_state in
  entered s /\ proxies_complete [30; 31]%nat (Nat.eqb 30) s /\ a_proxy [30; 31]%nat (Nat.eqb 30) 30%nat /\
  (forall k, object_function (all_answers k) [30; 31]%nat (Nat.eqb 30)
     (fun _ => false) (fun _ => false) (fun _ => false)
     (proxy_getattro (all_answers k) [30; 31]%nat (fun _ => false) (fun _ => false) 30%nat 31%nat)) /\
  attr_outcome 0 = Some (None, true, [0; 0; 0; 0; 0]) /\
  attr_outcome 2 = Some (None, true, [0; 0; 0; 0; 0]) /\
  attr_outcome 3 = Some (None, true, [0; 0; 0; 0; 0]) /\
  attr_outcome 9 = Some (Some 43%nat, false, [0; 0; 0; 1; 0]).
Proof. exact attr_example. Qed.

(** What C69_check_refuted, C69_str and C69_next_refuted say in actual runs: the encoded copy
    (object 41) of a forbidden name, and (43) of the class name of a refused str(); a name
    that cannot be encoded; next() on an iterator and on something else. *)
Example C69_leaks_example :
  leak_outcome = Some (-1, true, false, 1) /\
  text_outcome = Some (Some 46%nat, false, false, 1) /\
  null_outcome = Some true /\
  next_outcome true = Some (Some 43%nat, false) /\ next_outcome false = Some (None, true).
Proof. exact leak_example. Qed.
