(** * Adapter: adapter.py.

    [ILocation.providedBy] and [LocationProxy] are zope.interface and zope.location: the
    first is foreign code, the second a decorator object (decorator.py 75-81). *)

From Coq Require Import List String Bool Arith.
From Verif Require Import Base Domain CheckerModel ProxyModel.
Import ListNotations.
Open Scope string_scope.
Open Scope m_scope.

(** The bound method [ILocation.providedBy]. *)
Definition providedBy : value := VClass "zope.location.interfaces.ILocation.providedBy".

Section Adapter.
  Variable E : env.
  Variable I : interp.

  Definition ILocation_providedBy (adapter : value) : M bool :=
    v <- i_op I Probe (OCall providedBy [adapter]) ;; truth I v.

  (** [LocationProxy(adapter)], whose parent and name are None. *)
  Definition LocationProxy (adapter : value) : M value :=
    d <- fresh ;;
    s <- get ;;
    put (set_decos (upd (st_decos s) d (Some (mkDeco "LocationProxy" adapter VNone))) s) ;;;
    ret (VDeco d).

  (** adapter.py 24-45 *)
  Definition assertLocation (adapter parent : value) : M value :=
    p <- ILocation_providedBy adapter ;;
    if negb p then
      locatable <- LocationProxy adapter ;;
      i_op I Client (OSetattr locatable "__parent__" parent) ;;;
      ret locatable
    else
      q <- i_op I Client (OGetattr adapter "__parent__" None) ;;
      if value_eqb q VNone then
        i_op I Client (OSetattr adapter "__parent__" parent) ;;; ret adapter
      else ret adapter.

  (** Which of the two trusted classes (adapter.py 48, 93). *)
  Inductive trusted := Locating | Plain.

  (** adapter.py 75-78.  [and]: the second operand is evaluated only if the first is
      true. *)
  Definition customizeUnprotected (adapter context : value) : M value :=
    p <- ILocation_providedBy adapter ;;
    if p : bool then
      q <- i_op I Client (OGetattr adapter "__parent__" None) ;;
      if value_eqb q VNone then
        i_op I Client (OSetattr adapter "__parent__" context) ;;; ret adapter
      else ret adapter
    else ret adapter.

  (** adapter.py 72-73, 107-109 *)
  Definition customizeProtected (k : trusted) (adapter context : value) : M value :=
    match k with
    | Locating => assertLocation adapter context
    | Plain => customizeUnprotected adapter context
    end.

  (** [args[0]] *)
  Definition first (args : list value) : M value :=
    match args with
    | [] => raise EIndex
    | a :: _ => ret a
    end.

  (** [[removeSecurityProxy(x) for x in args]] *)
  Fixpoint unproxied (args : list value) : M (list value) :=
    match args with
    | [] => ret []
    | x :: args' =>
        y <- removeSecurityProxy x ;;
        ys <- unproxied args' ;;
        ret (y :: ys)
    end.

  (** The loop adapter.py 81-86: true if some argument is not what removeSecurityProxy
      makes of it. *)
  Fixpoint some_proxied (args : list value) : M bool :=
    match args with
    | [] => ret false
    | arg :: args' =>
        y <- removeSecurityProxy arg ;;
        if negb (value_eqb y arg) then ret true else some_proxied args'
    end.

  (** LocatingTrustedAdapterFactory.__call__, adapter.py 80-90 *)
  Definition trusted_call (k : trusted) (factory : value) (args : list value) : M value :=
    found <- some_proxied args ;;
    if found : bool then
      args <- unproxied args ;;
      adapter <- i_op I Client (OCall factory args) ;;
      context <- first args ;;
      adapter <- customizeProtected k adapter context ;;
      ProxyFactory E I adapter VNone
    else
      adapter <- i_op I Client (OCall factory args) ;;
      context <- first args ;;
      customizeUnprotected adapter context.

  (** LocatingUntrustedAdapterFactory.__call__, adapter.py 134-136 *)
  Definition untrusted_call (factory : value) (args : list value) : M value :=
    adapter <- i_op I Client (OCall factory args) ;;
    context <- first args ;;
    assertLocation adapter context.
End Adapter.

(** Entry points *)
Definition do_assertLocation (E : env) (f : nat) (adapter parent : value) : M value :=
  assertLocation (interp_n E f) adapter parent.
Definition do_trusted (E : env) (f : nat) (k : trusted) (factory : value) (args : list value)
  : M value := trusted_call E (interp_n E f) k factory args.
Definition do_untrusted (E : env) (f : nat) (factory : value) (args : list value) : M value :=
  untrusted_call (interp_n E f) factory args.
