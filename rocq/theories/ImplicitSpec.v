(** What it means that proxied classes and the language's implicit operations
    give nothing away. *)

From Coq Require Import String List Arith Bool.
From Verif Require Import TypeTables Implicit.
Import ListNotations.
Open Scope string_scope.

Section Spec.
  Context {W X : Type} (R : runtime W X).

  (** Proxy is neither a class of classes nor of exceptions, and the objects of
      type Proxy are the proxies. *)
  Record sane : Prop := {
    sane_refl : rt_sub R (rt_proxy R) (rt_proxy R) = true;
    sane_type : rt_sub R (rt_proxy R) (rt_metatype R) = false;
    sane_exception : rt_sub R (rt_proxy R) (rt_exception R) = false;
    sane_plain : forall n, rt_sub R (rt_type R n) (rt_proxy R) = false
  }.

  (** A value that operations on proxies return (C16, C93). *)
  Definition given_out (y : obj) : Prop := exists c v w w', rt_wrap R c v w = (Returns y, w').

  (** Nothing of the kind is given out without a proxy. *)
  Definition no_bare_tuple : Prop := forall y, given_out y -> as_tuple R y = None.
  Definition no_bare_dict : Prop := forall y w, given_out y -> as_dict R w y = None.
  Definition no_bare_type : Prop := forall y, given_out y -> is_type R y = false.

  Definition base_lacks (n : string) : Prop := rt_base_slot R n = None.

  (** [r] is the end of an operation that looked at one attribute, with [look]
      as the outcome, and then gave up: TypeError, or the exception of the
      attribute (Unauthorized, say), nothing else having happened. *)
  Definition gives_up {A B} (r : outcome X A * W) (look : outcome X B * W) : Prop :=
    exists e, r = (Raises e, snd look) /\
      (e = rt_type_error R \/ (fst look = Raises e /\ rt_attribute_error R e = false)).

  Definition fails {A} (r : outcome X A * W) : Prop := exists e w, r = (Raises e, w).

  Definition a_proxy (x : obj) : Prop := exists o c, x = Prox o c.

  (** What the object gives as [__mro_entries__], if anything, is protected. *)
  Definition guarded_entries (b : build) (x : obj) : Prop :=
    forall w f w', read R b x "__mro_entries__" w = (Returns f, w') -> a_proxy f.

  (** A metaclass given in the statement, if any, is a type that was not made
      from Proxy. *)
  Definition ordinary (meta : option obj) : Prop :=
    match meta with
    | None => True
    | Some m => exists k, m = Plain k /\ is_type R m = true /\ rt_sub R k (rt_proxy R) = false
    end.

  (** Classes that do not show their names: each refuses [__dict__], and the
      items of what it gives as [__bases__] are such classes. *)
  Definition discreet (b : build) (D : obj -> Prop) : Prop :=
    forall x, D x ->
      (forall w y w', read R b x "__dict__" w <> (Returns y, w')) /\
      (forall w s w' i w1 y w2, read R b x "__bases__" w = (Returns s, w') ->
         item R s i w1 = (Returns y, w2) -> D y).
End Spec.

(** Operations of the language that need a special method in the type and have
    no other way: with, async with, await, async for, round(), math.trunc(),
    os.fspath(). *)
Definition needed : list string :=
  ["__enter__"; "__exit__"; "__aenter__"; "__aexit__"; "__await__"; "__aiter__"; "__anext__";
   "__round__"; "__trunc__"; "__fspath__"].
