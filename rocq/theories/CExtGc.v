(** * CExtGc: what the garbage collector sees of the C extensions.

    tp_traverse, tp_clear and tp_dealloc of proxies (_proxy.c) and checkers
    (_zope_security_checker.c), and the two phases of a collection that call them.
    Tracking and untracking of objects and the freeing of memory have no effect on
    references and are left out. *)

From Coq Require Import List Bool Arith ZArith.
From Verif Require Import CExt.
Import ListNotations.
Open Scope Z_scope.

(** A [visitproc]: its answer for each object.  A traversal yields the objects visited and
    its own return value. *)
Definition visitproc := obj -> Z.

(** The macro Py_VISIT: if [visit] returns something but 0, the function returns that. *)
Definition Py_VISIT (visit : visitproc) (p : ptr) (k : list obj * Z) : list obj * Z :=
  match p with
  | None => k
  | Some o => if Z.eqb (visit o) 0 then (o :: fst k, snd k) else ([o], visit o)
  end.

(** _proxy.c 316-322 *)
Definition proxy_traverse (visit : visitproc) (s : cst) (self : obj) : list obj * Z :=
  Py_VISIT visit (f1 s self) (Py_VISIT visit (f2 s self) ([], 0)).

(** [if (p != NULL && visit(p, arg) < 0) return -1;] *)
Definition visit_negative (visit : visitproc) (p : ptr) (k : list obj * Z) : list obj * Z :=
  match p with
  | None => k
  | Some o => if Z.ltb (visit o) 0 then ([o], -1) else (o :: fst k, snd k)
  end.

(** _zope_security_checker.c 353-362 *)
Definition Checker_traverse (visit : visitproc) (s : cst) (self : obj) : list obj * Z :=
  visit_negative visit (f1 s self) (visit_negative visit (f2 s self) ([], 0)).

Section Gc.
  Variable oracle : nat -> answer.
  (** Types, which do not change. *)
  Variables is_proxy is_checker : obj -> bool.

  (** _proxy.c 308-314; tp_dealloc of the base type clears [proxy_object] once more. *)
  Definition proxy_dealloc (self : obj) : C unit :=
    proxy_clear oracle self ;;; clear1 oracle self.

  (** _zope_security_checker.c 345-351 *)
  Definition Checker_dealloc (self : obj) : C unit := Checker_clear oracle self.

  (** Slots of a type; [None] is 0. *)
  Record slots := mkSlots {
    tp_traverse : visitproc -> cst -> obj -> list obj * Z;
    tp_clear : option (obj -> C unit);
    tp_dealloc : obj -> C unit }.

  (** _proxy.c 767-812.  There is no tp_clear; it is not inherited from the base type
      because this type has Py_TPFLAGS_HAVE_GC and a tp_traverse. *)
  Definition SecurityProxyType : slots := mkSlots proxy_traverse None proxy_dealloc.
  (** _zope_security_checker.c 438-479 *)
  Definition CheckerType : slots :=
    mkSlots Checker_traverse (Some (Checker_clear oracle)) Checker_dealloc.

  Definition type_of (x : obj) : option slots :=
    if is_proxy x then Some SecurityProxyType
    else if is_checker x then Some CheckerType
    else None.

  (** The interpreter's traversal of an object: by the slot of its type; other types do
      what is demanded of them, [others] being the references they hold. *)
  Definition traverse (others : obj -> list obj) (visit : visitproc) (s : cst) (x : obj) : list obj :=
    match type_of x with
    | Some t => fst (tp_traverse t visit s x)
    | None => others x
    end.

  (** A collection, first phase (the interpreter's subtract_refs): the references to [o]
      that do not come from the candidates [l], all visited with 0. *)
  Definition gc_refs (others : obj -> list obj) (s : cst) (refcount : obj -> Z) (l : list obj)
      (o : obj) : Z :=
    fold_right (fun x n => n - Z.of_nat (count_occ Nat.eq_dec (traverse others (fun _ => 0) s x) o))
      (refcount o) l.

  (** Second phase (move_unreachable): candidates with such references survive, and
      candidates that a survivor's traversal visits. *)
  Inductive survives (others : obj -> list obj) (s : cst) (refcount : obj -> Z) (l : list obj)
      : obj -> Prop :=
  | sv_outside o : In o l -> 0 < gc_refs others s refcount l o ->
      survives others s refcount l o
  | sv_visited x o : survives others s refcount l x -> In o l ->
      In o (traverse others (fun _ => 0) s x) -> survives others s refcount l o.

  (** Third phase (delete_garbage): tp_clear of each object in the garbage, if its type has
      one; what other types do there the oracle decides. *)
  Fixpoint delete_garbage (l : list obj) : C unit :=
    match l with
    | [] => ret tt
    | x :: l' =>
        match type_of x with
        | Some t => match tp_clear t with Some f => f x | None => ret tt end
        | None => _ <- elsewhere oracle ;; ret tt
        end ;;; delete_garbage l'
    end.

  (** gc.get_referrers(d): the candidates whose traversal returns nonzero for a [visit] that
      answers 1 at [d] and else 0 (the interpreter's referrersvisit). *)
  Definition refers (s : cst) (x d : obj) : option bool :=
    match type_of x with
    | Some t => Some (negb (Z.eqb (snd (tp_traverse t (fun o => if Nat.eqb o d then 1 else 0) s x)) 0))
    | None => None
    end.
End Gc.
