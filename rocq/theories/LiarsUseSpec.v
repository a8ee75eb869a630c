(** What decorators and trusted adapters owe their users. *)

From Coq Require Import String List Arith Bool.
From Verif Require Import Liars LiarsSpec.

Section Spec.
  Context {W X : Type} (R : runtime W X).

  (** The object behind a proxy, and other objects themselves. *)
  Definition bare (x : obj) : obj :=
    match x with Prox _ o _ => o | _ => x end.

  (** Arguments that cannot mislead [removeSecurityProxy]: proxies; with the C
      extension all other objects; in the Python build the truthful ones. *)
  Definition honest (b : build) (x : obj) : Prop :=
    a_proxy R x \/ (not_a_proxy x /\ (b = C \/ truthful R x (rt_proxy R))).

  (** No proxy is the object it is a proxy for. *)
  Definition distinct : Prop := forall t o c, rt_is R o (Prox t o c) = false.

  (** Any two checkers can be combined, by what makes a checker. *)
  Definition combines (combine : obj -> obj -> action W X obj) : Prop :=
    forall c d w, exists e w', combine c d w = (Returns e, w') /\ e <> PyNone.

  (** A proxy around the decorator [inst] with the checker [c] of the object it
      decorates, or with that one combined with one of its own. *)
  Definition still_guarded (combine : obj -> obj -> action W X obj) (inst c y : obj) : Prop :=
    exists d, y = Prox (rt_proxy R) inst d /\
      (d = c \/ exists wc w1 w2, combine wc c w1 = (Returns d, w2)).
End Spec.
