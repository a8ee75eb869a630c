(** What it means that an object tells the truth about its class, and which
    objects may go without a proxy. *)

From Coq Require Import String List Arith Bool.
From Verif Require Import Liars.

Section Spec.
  Context {W X : Type} (R : runtime W X).

  (** [T] or a subclass of it *)
  Definition below (t T : ty) : Prop := rt_sub R t T = true.

  (** A process in which the instances of Proxy and its subclasses, and no
      other objects, have the slots of a proxy; a class is a subclass of
      itself; identity is reflexive. *)
  Record sane : Prop := {
    sane_none : ~ below (rt_none R) (rt_proxy R);
    sane_plain : forall n, ~ below (rt_type R n) (rt_proxy R);
    sane_refl : forall t, below t t;
    sane_is : forall x, rt_is R x x = true
  }.

  (** A value made by the Proxy class: its type is Proxy or below. *)
  Definition a_proxy (x : obj) : Prop :=
    match x with Prox t _ _ => below t (rt_proxy R) | _ => False end.

  (** Not made by the Proxy class. *)
  Definition not_a_proxy (x : obj) : Prop :=
    match x with Prox _ _ _ => False | _ => True end.

  (** Asked in the situation [w], the object says that its class is (below)
      [T], and the situation is [w'] afterwards. *)
  Definition says (x : obj) (T : ty) (w w' : W) : Prop :=
    exists c t, rt_class R x w = (Returns c, w') /\
                rt_as_type R c = Some t /\ below t T.

  (** An object that is no instance of [T] and says nothing else; being asked
      changes nothing. *)
  Definition truthful (x : obj) (T : ty) : Prop :=
    ~ below (type_of R x) T /\
    forall w,
      (exists c, rt_class R x w = (Returns c, w) /\
                 forall t, rt_as_type R c = Some t -> ~ below t T) \/
      (exists e, rt_class R x w = (Raises e, w) /\ rt_attribute_error R e = true).

  (** The registry has something for the type of the object that says that its
      instances go without proxy: NoProxy, or a callable that ends up with
      NoProxy or None. *)
  Inductive Declines (x : obj) : answer -> W -> W -> Prop :=
  | declines_now : forall f w w' a,
      rt_call R f x w = (Returns a, w') -> a = ANoProxy \/ a = ANone ->
      Declines x (ACall f) w w'
  | declines_later : forall f a w w' w'',
      rt_call R f x w = (Returns a, w') -> Declines x a w' w'' ->
      Declines x (ACall f) w w''.

  Definition exempt (x : obj) (w w' : W) : Prop :=
    exists a, rt_registry R w (type_of R x) = Some a /\
      ((a = ANoProxy /\ w' = w) \/ Declines x a w w').

  (** The registry does not mention the type of the object, or mentions the
      default checker. *)
  Definition by_default (x : obj) (w : W) : Prop :=
    match rt_registry R w (type_of R x) with
    | None => True
    | Some (AChecker c) => rt_is R c (rt_default R) = true
    | Some _ => False
    end.

  (** The registry always has a checker for the type of the object, not the
      default one: as it has for tuples, lists, dicts, classes, functions. *)
  Definition has_checker (x : obj) : Prop :=
    forall w, exists d, rt_registry R w (type_of R x) = Some (AChecker d) /\
                        rt_is R d (rt_default R) = false.

  (** Looking for [x.__Security_checker__] found nothing: the value None, or an
      AttributeError (Python); any exception (C). *)
  Definition no_own_checker (b : build) (x : obj) (w w' : W) : Prop :=
    match b with
    | Py => rt_security_checker R x w = (Returns PyNone, w') \/
            exists e, rt_security_checker R x w = (Raises e, w') /\
                      rt_attribute_error R e = true
    | C => exists e, rt_security_checker R x w = (Raises e, w') \/
                     exists a, rt_security_checker R x w = (Both a e, w')
    end.

  (** [y] is a new proxy of Proxy itself around [x], with a checker. *)
  Definition a_new_proxy (x y : obj) : Prop :=
    exists c, y = Prox (rt_proxy R) x c /\ c <> PyNone.

  (** The object is left as it is for a reason that the registry, or with the C
      extension being an exception, or saying so, provides. *)
  Definition leaves (b : build) (x : obj) (w w' : W) : Prop :=
    exempt x w w' \/
    (b = C /\ by_default x w /\ ((below (type_of R x) (rt_exception R) /\ w' = w) \/
                                 says x (rt_exception R) w w')).

  (** Two processes that differ only in what objects say about their class. *)
  Definition same_but_class (R' : runtime W X) : Prop :=
    rt_type R' = rt_type R /\ rt_none R' = rt_none R /\ rt_sub R' = rt_sub R /\
    rt_proxy R' = rt_proxy R /\ rt_exception R' = rt_exception R /\
    rt_as_type R' = rt_as_type R /\ rt_security_checker R' = rt_security_checker R /\
    rt_registry R' = rt_registry R /\ rt_call R' = rt_call R /\
    rt_default R' = rt_default R /\ rt_base_get R' = rt_base_get R /\
    rt_is R' = rt_is R /\ rt_attribute_error R' = rt_attribute_error R /\
    rt_type_error R' = rt_type_error R /\ rt_value_error R' = rt_value_error R /\
    rt_system_error R' = rt_system_error R.
End Spec.
