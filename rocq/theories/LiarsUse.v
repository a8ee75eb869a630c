(** Decorators around objects, and trusted adapters of objects, that may lie
    about their class: decorator.py and adapter.py on the objects of Liars.v. *)

From Coq Require Import String List Arith Bool.
From Verif Require Import Liars.
Import ListNotations.

Section Use.
  Context {W X : Type} (R : runtime W X).

  (** [CombinedChecker(c1, c2)], checker.py 556-562: a new object, or an
      exception if [c1] has no permission tables *)
  Variable combine : obj -> obj -> action W X obj.
  (** reading [__name__] of a class, and formatting it with [%r] *)
  Variable name_of : obj -> action W X unit.
  (** the AttributeError of decorator.py 47-49, and the IndexError of [args[0]] *)
  Variables no_attribute index_error : X.

  (** What selectChecker returns, as a value. *)
  Definition value_of (oc : option obj) : obj :=
    match oc with Some c => c | None => PyNone end.

  (** The checker of the decorated object, decorator.py 38-44. *)
  Definition inner_checker (b : build) (fuel : nat) (inner : obj) : action W X obj :=
    andthen (isinstance R inner (rt_proxy R)) (fun yes =>
      if yes then getChecker R b inner
      else
        andthen (security_checker R inner) (fun c =>
          match c with
          | PyNone => andthen (select R b fuel inner) (fun oc => give (value_of oc))
          | _ => give c
          end)).

  (** DecoratedSecurityCheckerDescriptor.__get__ for an instance [inst] of a
      decorator around [inner], decorator.py 34-55.  getProxiedObject reads the
      slot of the decorator (zope.proxy). *)
  Definition decorated (b : build) (fuel : nat) (inst inner : obj) : action W X obj :=
    andthen (inner_checker b fuel inner) (fun checker =>
      andthen (select R b fuel inst) (fun oc =>
        match value_of oc, checker with
        | PyNone, PyNone =>
            andthen (rt_class R inner) (fun k =>
              andthen (name_of k) (fun _ => throw no_attribute))
        | PyNone, c => give c
        | wc, PyNone => give wc
        | wc, c => combine wc c
        end)).

  (** The inner factory, and _customizeProtected ([true]) and
      _customizeUnprotected ([false]) of the class of the trusted factory. *)
  Variable factory : list obj -> action W X obj.
  Variable customize : bool -> obj -> obj -> action W X obj.

  (** The loop and its test, adapter.py 81-82 *)
  Fixpoint any_proxied (b : build) (args : list obj) : action W X bool :=
    match args with
    | [] => give false
    | a :: r =>
        andthen (getObject R b a) (fun y =>
          if rt_is R y a then any_proxied b r else give true)
    end.

  (** [[removeSecurityProxy(x) for x in args]], adapter.py 83 *)
  Fixpoint strip (b : build) (args : list obj) : action W X (list obj) :=
    match args with
    | [] => give []
    | a :: r =>
        andthen (getObject R b a) (fun y =>
          andthen (strip b r) (fun ys => give (y :: ys)))
    end.

  (** [args[0]] *)
  Definition head (args : list obj) : action W X obj :=
    match args with [] => throw index_error | a :: _ => give a end.

  (** LocatingTrustedAdapterFactory.__call__, adapter.py 80-90 *)
  Definition trusted_call (b : build) (fuel : nat) (args : list obj) : action W X obj :=
    andthen (any_proxied b args) (fun yes =>
      if yes then
        andthen (strip b args) (fun args' =>
          andthen (factory args') (fun a =>
            andthen (head args') (fun c =>
              andthen (customize true a c) (fun a' => ProxyFactory R b fuel a' None))))
      else
        andthen (factory args) (fun a =>
          andthen (head args) (fun c => customize false a c))).
End Use.
