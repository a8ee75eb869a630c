(** C93: objects that lie about their class, and subclasses of Proxy. *)

From Coq Require Import String List Arith Bool.
From Verif Require Import Liars LiarsSpec LiarsFacts LiarsWitness.

(** Nobody can lie about a proxy: for instances of Proxy and of its subclasses
    the factory, removeSecurityProxy and getChecker do the right thing without
    asking the object anything (the situation [w] does not change, whatever
    [__class__] would do), in both builds. *)
Theorem C93_proxies : forall (W X : Type) (R : runtime W X), sane R ->
  forall b fuel t o c w, below R t (rt_proxy R) ->
    ProxyFactory R b fuel (Prox t o c) None w = (Returns (Prox t o c), w) /\
    ProxyFactory R b fuel (Prox t o c) (Some c) w = (Returns (Prox t o c), w) /\
    (forall d, rt_is R d c = false ->
       ProxyFactory R b fuel (Prox t o c) (Some d) w = (Raises (rt_type_error R), w)) /\
    getObject R b (Prox t o c) w = (Returns o, w) /\
    getChecker R b (Prox t o c) w = (Returns c, w) /\
    proxy R Py fuel (Prox t o c) w = (Returns (Prox t o c), w) /\
    (t = rt_proxy R -> proxy R C fuel (Prox t o c) w = (Returns (Prox t o c), w)).
Proof. intros W X R HS. exact (proxies_factory R HS). Qed.
Print Assumptions C93_proxies.

(** zope.security.proxy.isinstance asks the object behind the proxy. *)
Theorem C93_isinstance : forall (W X : Type) (R : runtime W X), sane R ->
  forall b t o c T w, below R t (rt_proxy R) ->
    proxy_isinstance R b (Prox t o c) T w = isinstance R o T w.
Proof. intros W X R HS. exact (proxies_isinstance R HS). Qed.
Print Assumptions C93_isinstance.

(** An object that tells the truth is protected: what the factory and
    [checker.proxy] return for it is a new proxy around it, unless the registry
    exempts its type, or, with the C extension, its type is an exception class
    without a checker of its own. *)
Theorem C93_truthful : forall (W X : Type) (R : runtime W X), sane R ->
  forall b fuel x w y w',
    not_a_proxy x -> truthful R x (rt_proxy R) ->
    (below R (type_of R x) (rt_exception R) \/ truthful R x (rt_exception R)) ->
    ProxyFactory R b fuel x None w = (Returns y, w') \/
      proxy R b fuel x w = (Returns y, w') ->
    a_new_proxy R x y \/
    (y = x /\ exists w1, exempt R x w1 w' \/
                         (b = C /\ by_default R x w1 /\ below R (type_of R x) (rt_exception R))).
Proof. intros W X R HS. exact (factory_truthful R HS). Qed.
Print Assumptions C93_truthful.

(** Types for which the registry has a checker: their instances never come out
    without a proxy, in either build (as C95 assumes for tuples, dicts and
    classes), if they do not say that they are proxies. *)
Theorem C93_registered : forall (W X : Type) (R : runtime W X), sane R ->
  forall b fuel x w y w',
    not_a_proxy x -> truthful R x (rt_proxy R) -> has_checker R x ->
    ProxyFactory R b fuel x None w = (Returns y, w') \/
      proxy R b fuel x w = (Returns y, w') ->
    a_new_proxy R x y.
Proof. intros W X R HS. exact (registered_guarded R HS). Qed.
Print Assumptions C93_registered.

Example C93_registered_case :
  sane stocked /\ not_a_proxy (Plain 27) /\ truthful stocked (Plain 27) (rt_proxy stocked) /\ has_checker stocked (Plain 27) /\
  proxy stocked C 3 (Plain 27) tt = (Returns (Prox 1 (Plain 27) (Plain 31)), tt).
Proof.
  split; [destruct demo_sane as [A B C D]; constructor; assumption|].
  split; [exact I|]. split; [|split; [|reflexivity]].
  - split; [unfold below; cbn; discriminate|]. intros []. left. exists (Plain 7). split; [reflexivity|].
    intros t [= <-]. unfold below. cbn. discriminate.
  - intros []. exists (Plain 31). split; reflexivity.
Qed.

(** And how it tells the truth (a class, none at all, something that is no
    class) makes no difference. *)
Theorem C93_same : forall (W X : Type) (R : runtime W X), sane R ->
  forall R' b fuel x w, same_but_class R R' -> not_a_proxy x ->
    truthful R x (rt_proxy R) -> truthful R' x (rt_proxy R') ->
    (below R (type_of R x) (rt_exception R) \/
     (truthful R x (rt_exception R) /\ truthful R' x (rt_exception R'))) ->
    ProxyFactory R' b fuel x None w = ProxyFactory R b fuel x None w /\
    proxy R' b fuel x w = proxy R b fuel x w.
Proof. intros W X R HS. exact (truthful_same R HS). Qed.
Print Assumptions C93_same.

(** Nothing is taken off a truthful object, it has no checker, and a given
    checker is used. *)
Theorem C93_not_a_proxy : forall (W X : Type) (R : runtime W X), sane R ->
  forall b x w, not_a_proxy x -> truthful R x (rt_proxy R) ->
    getObject R b x w = (Returns x, w) /\
    getChecker R b x w = (Raises (rt_type_error R), w) /\
    (forall c, c <> PyNone ->
       ProxyFactory R b 0 x (Some c) w = (Returns (Prox (rt_proxy R) x c), w)).
Proof. intros W X R HS. exact (truthful_object R HS). Qed.
Print Assumptions C93_not_a_proxy.

(** Whatever an object says, there are no other ways for it to come back bare
    from the factory than these: it says it is a Proxy, the registry exempts
    its type, or, with the C extension and no checker registered, it is an
    exception or says it is one. *)
Theorem C93_factory : forall (W X : Type) (R : runtime W X), sane R ->
  forall b fuel x w y w', not_a_proxy x ->
    ProxyFactory R b fuel x None w = (Returns y, w') ->
    a_new_proxy R x y \/
    (y = x /\ (says R x (rt_proxy R) w w' \/
               exists w1 w2, no_own_checker R Py x w1 w2 /\ leaves R b x w2 w')).
Proof. intros W X R HS. exact (factory_returns R HS). Qed.
Print Assumptions C93_factory.

(** The same for the values that operations on proxies return; the C extension
    does not believe an object that says it is a Proxy. *)
Theorem C93_results : forall (W X : Type) (R : runtime W X), sane R ->
  forall b fuel x w y w', not_a_proxy x ->
    proxy R b fuel x w = (Returns y, w') ->
    a_new_proxy R x y \/
    (y = x /\ ((b = Py /\ says R x (rt_proxy R) w w') \/
               exists w1 w2, no_own_checker R b x w1 w2 /\ leaves R b x w2 w')).
Proof. intros W X R HS. exact (proxy_returns R HS). Qed.
Print Assumptions C93_results.

(** These lies always work. *)
Theorem C93_believed : forall (W X : Type) (R : runtime W X), sane R ->
  (forall b fuel x w w', not_a_proxy x -> says R x (rt_proxy R) w w' ->
     ProxyFactory R b fuel x None w = (Returns x, w') /\
     proxy R Py fuel x w = (Returns x, w')) /\
  (forall fuel x w w1 w', not_a_proxy x ->
     no_own_checker R C x w w1 -> by_default R x w1 ->
     says R x (rt_exception R) w1 w' -> ~ below R (type_of R x) (rt_exception R) ->
     proxy R C fuel x w = (Returns x, w')).
Proof.
  intros W X R HS. split; [exact (believed_proxy R HS) | exact (believed_exception R HS)].
Qed.
Print Assumptions C93_believed.

(** What removeSecurityProxy returns is its argument or the object behind it;
    only in the Python build, and only if the argument says twice that it is a
    Proxy, it is what the argument keeps under the name [_wrapped].  The C
    function runs no code of the object. *)
Theorem C93_unwrap : forall (W X : Type) (R : runtime W X), sane R ->
  forall b x w y w', (a_proxy R x \/ not_a_proxy x) ->
    getObject R b x w = (Returns y, w') ->
    (not_a_proxy x /\ y = x /\ (b = C -> w' = w)) \/
    ((exists t c, x = Prox t y c) /\ w' = w) \/
    (b = Py /\ not_a_proxy x /\ exists w1 w2 k t,
       says R x (rt_proxy R) w w1 /\
       rt_class R x w1 = (Returns k, w2) /\ rt_as_type R k = Some t /\ below R t (rt_proxy R) /\
       rt_base_get R t x "_wrapped" w2 = (Returns y, w')).
Proof. intros W X R HS. exact (unwraps R HS). Qed.
Print Assumptions C93_unwrap.

Theorem C93_types_only : forall (W X : Type) (R R' : runtime W X) x w, same_but_class R R' ->
  getObject R' C x w = getObject R C x w /\ getChecker R' C x w = getChecker R C x w.
Proof. intros W X R R'. exact (types_only R R'). Qed.
Print Assumptions C93_types_only.

(** Reading [__class__] fails with something else than AttributeError: Python
    code sees that exception; [checker.proxy] of the C extension gives the
    object out, bare, with the exception set. *)
Theorem C93_class_fails : forall (W X : Type) (R : runtime W X), sane R ->
  (forall b fuel x given w w' e, not_a_proxy x ->
     rt_class R x w = (Raises e, w') -> rt_attribute_error R e = false ->
     ProxyFactory R b fuel x given w = (Raises e, w') /\
     proxy R Py fuel x w = (Raises e, w') /\
     getObject R Py x w = (Raises e, w') /\
     getObject R C x w = (Returns x, w)) /\
  (forall fuel x w w1 w' e, not_a_proxy x ->
     no_own_checker R C x w w1 -> by_default R x w1 ->
     rt_class R x w1 = (Raises e, w') -> rt_attribute_error R e = false ->
     ~ below R (type_of R x) (rt_exception R) ->
     proxy R C fuel x w = (Both x e, w')).
Proof.
  intros W X R HS. split; [exact (class_fails_py R HS) | exact (class_fails R HS)].
Qed.
Print Assumptions C93_class_fails.

(** An instance of a proper subclass of Proxy is wrapped again by
    [checker.proxy] of the C extension. *)
Theorem C93_subclass : forall (W X : Type) (R : runtime W X), sane R ->
  (forall fuel t o c d w w1, below R t (rt_proxy R) -> t <> rt_proxy R ->
     no_own_checker R C (Prox t o c) w w1 ->
     rt_registry R w1 t = Some (AChecker d) -> rt_is R d (rt_default R) = false -> d <> PyNone ->
     proxy R C (S fuel) (Prox t o c) w = (Returns (Prox (rt_proxy R) (Prox t o c) d), w1)) /\
  (forall fuel t o c w w1, below R t (rt_proxy R) -> t <> rt_proxy R ->
     no_own_checker R C (Prox t o c) w w1 ->
     rt_registry R w1 t = None -> truthful R (Prox t o c) (rt_exception R) ->
     rt_default R <> PyNone ->
     proxy R C (S fuel) (Prox t o c) w =
       (Returns (Prox (rt_proxy R) (Prox t o c) (rt_default R)), w1)).
Proof.
  intros W X R HS. split; [exact (subclass_again R) | exact (subclass_default R HS)].
Qed.
Print Assumptions C93_subclass.

(** ** What is not so *)

(** "An object is protected whatever it says about its class": if it says that
    it is a Proxy, the factory of both builds and the results of operations in
    the Python build leave it bare. *)
Theorem C93_protected_refuted :
  exists (R : runtime unit string) (x : obj), sane R /\ not_a_proxy x /\
    (forall w, rt_registry R w (type_of R x) = None) /\
    ~ below R (type_of R x) (rt_exception R) /\
    (forall b fuel w, ProxyFactory R b fuel x None w = (Returns x, w)) /\
    (forall fuel w, proxy R Py fuel x w = (Returns x, w)) /\
    (forall fuel w, proxy R C (S fuel) x w = (Returns (Prox (rt_proxy R) x (rt_default R)), w)).
Proof. exact protected_false. Qed.
Print Assumptions C93_protected_refuted.

(** If it says that it is an Exception, the C build leaves it bare. *)
Theorem C93_exception_refuted :
  exists (R : runtime unit string) (x : obj), sane R /\ not_a_proxy x /\
    (forall w, rt_registry R w (type_of R x) = None) /\
    ~ below R (type_of R x) (rt_exception R) /\
    (forall fuel w, proxy R C fuel x w = (Returns x, w)) /\
    (forall fuel w, ProxyFactory R C fuel x None w = (Returns x, w)) /\
    (forall fuel w, proxy R Py (S fuel) x w = (Returns (Prox (rt_proxy R) x (rt_default R)), w)).
Proof. exact exception_false. Qed.
Print Assumptions C93_exception_refuted.

(** "removeSecurityProxy returns an object that is no proxy unchanged": not in
    the Python build. *)
Theorem C93_unwrap_refuted :
  exists (R : runtime unit string) (x y : obj), sane R /\ not_a_proxy x /\ y <> x /\
    (forall w, getObject R Py x w = (Returns y, w)) /\
    (forall w, getObject R C x w = (Returns x, w)).
Proof. exact unwrap_false. Qed.
Print Assumptions C93_unwrap_refuted.

(** "A function returns a result or raises": not the C [checker.proxy] of an
    object whose [__class__] raises. *)
Theorem C93_pending_refuted :
  exists (R : runtime unit string) (x : obj) (e : string), sane R /\ not_a_proxy x /\
    (forall fuel w, proxy R C fuel x w = (Both x e, w)) /\
    (forall fuel w, proxy R Py fuel x w = (Raises e, w)).
Proof. exact pending_false. Qed.
Print Assumptions C93_pending_refuted.

(** "A proxy is never wrapped again": not for subclasses of Proxy and the C
    extension. *)
Theorem C93_subclass_refuted :
  exists (R : runtime unit string) (p : obj), sane R /\ a_proxy R p /\
    (forall fuel w, proxy R C (S fuel) p w = (Returns (Prox (rt_proxy R) p (rt_default R)), w)) /\
    (forall fuel w, proxy R Py fuel p w = (Returns p, w)) /\
    (forall b fuel w, ProxyFactory R b fuel p None w = (Returns p, w)).
Proof. exact subclass_false. Qed.
Print Assumptions C93_subclass_refuted.

(** ** Cases *)

(** The hypotheses of C93_truthful, C93_same and C93_not_a_proxy, and what
    becomes of a truthful object, of an int, an exception, and an object whose
    checker a callable in the registry finds. *)
Example C93_truthful_case :
  sane demo /\ not_a_proxy (Plain 23) /\ truthful demo (Plain 23) (rt_proxy demo) /\
  truthful demo (Plain 23) (rt_exception demo) /\
  same_but_class demo reformed /\ truthful reformed (Plain 23) (rt_proxy reformed) /\
  truthful reformed (Plain 23) (rt_exception reformed) /\
  ProxyFactory demo C 3 (Plain 23) None tt = (Returns (Prox 1 (Plain 23) (Plain 30)), tt) /\
  proxy demo Py 3 (Plain 27) tt = (Returns (Prox 1 (Plain 27) (Plain 31)), tt) /\
  proxy demo C 3 (Plain 25) tt = (Returns (Plain 25), tt) /\
  proxy demo C 3 (Plain 26) tt = (Returns (Plain 26), tt) /\
  proxy demo Py 3 (Plain 26) tt = (Returns (Prox 1 (Plain 26) (Plain 30)), tt).
Proof.
  split; [exact demo_sane|]. split; [exact I|].
  split; [exact (proj1 demo_truthful)|]. split; [exact (proj2 demo_truthful)|].
  split; [exact reformed_same|].
  split; [exact (proj1 reformed_truthful)|]. split; [exact (proj2 reformed_truthful)|].
  repeat split.
Qed.

(** The hypotheses of C93_proxies and C93_subclass: a proxy and an instance of
    a subclass of Proxy. *)
Example C93_proxies_case :
  below demo 1 (rt_proxy demo) /\ below demo 3 (rt_proxy demo) /\
  no_own_checker demo C (Prox 3 (Plain 23) (Plain 31)) tt tt /\
  rt_registry demo tt 3 = None /\
  truthful demo (Prox 3 (Plain 23) (Plain 31)) (rt_exception demo) /\
  proxy_isinstance demo Py (Prox 1 (Plain 27) (Plain 31)) 7 tt = (Returns true, tt) /\
  proxy_isinstance demo C (Prox 3 (Plain 27) (Plain 31)) 6 tt = (Returns false, tt).
Proof.
  repeat split.
  - exists "AttributeError"%string. left. reflexivity.
  - unfold below. cbn. discriminate.
  - intros []. left. exists (Plain 6). split; [reflexivity|].
    intros t [= <-]. unfold below. cbn. discriminate.
Qed.

(** The hypotheses of C93_believed and C93_class_fails. *)
Example C93_believed_case :
  not_a_proxy (Plain 20) /\ says demo (Plain 20) (rt_proxy demo) tt tt /\
  no_own_checker demo C (Plain 21) tt tt /\ by_default demo (Plain 21) tt /\
  says demo (Plain 21) (rt_exception demo) tt tt /\
  ~ below demo (type_of demo (Plain 21)) (rt_exception demo) /\
  rt_class demo (Plain 22) tt = (Raises "KeyError"%string, tt) /\
  rt_attribute_error demo "KeyError"%string = false.
Proof.
  repeat split; try exact I.
  - exists (Plain 1), 1. repeat split.
  - exists "AttributeError"%string. left. reflexivity.
  - exists (Plain 2), 2. repeat split.
  - unfold below. cbn. discriminate.
Qed.
