(** * CInit: initialisation of the two extension modules.

    PyInit__proxy (_proxy.c 851-953) and PyInit__zope_security_checker
    (_zope_security_checker.c 567-673): which calls they make, what they store in their
    static variables and in the modules, and which references they own.  What each call
    returns, and whether it fails, is decided by an oracle. *)

From Coq Require Import List String Bool Arith ZArith.
Import ListNotations.
Open Scope string_scope.

Definition obj := nat.

(** The calls.  [KReady]: PyType_Ready of the module's type.  [KAdd m n o]:
    PyModule_AddObject. *)
Inductive call : Type :=
| KCreate (name : string)
| KProxyImport
| KIntern (text : string)
| KFromString (text : string)
| KReady
| KNewChecker
| KNewDict | KNewList | KNewObject
| KImport (name : string)
| KGetAttr (m : obj) (name : string)
| KAdd (m : obj) (name : string) (o : obj).

(** [vars]: the static variables; [None] is NULL.  [own]: references owned by the running
    function and by the static variables together.  [exc]: is an exception set.  [log]: the
    calls made, the latest first, with their results. *)
Record ist := mkI {
  vars : string -> option obj; own : obj -> Z; exc : bool; log : list (call * option obj) }.

(** [None] is returning MOD_ERROR_VAL. *)
Definition I (A : Type) := ist -> option A * ist.
Definition ret {A} (a : A) : I A := fun s => (Some a, s).
Definition bind {A B} (m : I A) (f : A -> I B) : I B := fun s =>
  match m s with
  | (Some a, s') => f a s'
  | (None, s') => (None, s')
  end.
Notation "x <- m ;; k" := (bind m (fun x => k)) (at level 61, m at next level, right associativity).
Notation "m ;;; k" := (bind m (fun _ => k)) (at level 61, right associativity).

Definition bump (o : obj) (z : Z) (L : obj -> Z) : obj -> Z :=
  fun x => if Nat.eqb x o then (L x + z)%Z else L x.

Section Init.
  (** The result of the next call; [None] is failure.  It may depend on all that was done. *)
  Variable oracle : list (call * option obj) -> call -> option obj.
  (** The static type object of the module, which always exists. *)
  Variable type : obj.

  (** What importing a module does to the state of this extension: nothing, unless it
      initialises the extension again. *)
  Variable hook : string -> ist -> ist.

  (** A call that returns a new reference or NULL, after which the function returns NULL. *)
  Definition new (k : call) : I obj := fun s =>
    match oracle (log s) k with
    | Some o => (Some o, mkI (vars s) (bump o 1 (own s)) (exc s) ((k, Some o) :: log s))
    | None => (None, mkI (vars s) (own s) true ((k, None) :: log s))
    end.
  (** The same for calls that return an int. *)
  Definition status (k : call) : I unit := fun s =>
    match oracle (log s) k with
    | Some o => (Some tt, mkI (vars s) (own s) (exc s) ((k, Some o) :: log s))
    | None => (None, mkI (vars s) (own s) true ((k, None) :: log s))
    end.
  (** PyImport_ImportModule *)
  Definition import_ (n : string) : I obj := fun s => new (KImport n) (hook n s).
  Definition setvar (v : string) (o : option obj) : I unit := fun s =>
    (Some tt, mkI (fun w => if String.eqb w v then o else vars s w) (own s) (exc s) (log s)).
  (** [if ((v = ...) == NULL) return MOD_ERROR_VAL] *)
  Definition store (v : string) (k : call) : I unit := fun s =>
    match new k s with
    | (Some o, s') => setvar v (Some o) s'
    | (None, s') => let (_, s2) := setvar v None s' in (None, s2)
    end.
  Definition incref (o : obj) : I unit := fun s =>
    (Some tt, mkI (vars s) (bump o 1 (own s)) (exc s) (log s)).
  Definition decref (o : obj) : I unit := fun s =>
    (Some tt, mkI (vars s) (bump o (-1) (own s)) (exc s) (log s)).
  Definition getvar (v : string) : I obj := fun s =>
    match vars s v with Some o => (Some o, s) | None => (Some 0%nat, s) end.

  (** [Py_INCREF(o); PyModule_AddObject(m, n, o)]: takes over the reference if it does not
      fail; the result is not looked at. *)
  Definition add (m : obj) (n : string) (o : obj) : I unit :=
    incref o ;;;
    fun s =>
      match oracle (log s) (KAdd m n o) with
      | Some r => (Some tt, mkI (vars s) (bump o (-1) (own s)) (exc s) ((KAdd m n o, Some r) :: log s))
      | None => (Some tt, mkI (vars s) (own s) true ((KAdd m n o, None) :: log s))
      end.

  Fixpoint each {A} (f : A -> I unit) (l : list A) : I unit :=
    match l with
    | [] => ret tt
    | x :: l' => f x ;;; each f l'
    end.

  (** _proxy.c 863-866, _zope_security_checker.c 593-594 *)
  Definition INIT_STRING (S : string) : I unit := store ("str_" ++ S) (KIntern S).
  Definition INIT_STRING_OP (S : string) : I unit :=
    store ("str_op_" ++ S) (KIntern ("__" ++ S ++ "__")).

  (** _proxy.c 851-953 *)
  Definition init_proxy : I obj :=
    m <- new (KCreate "_proxy") ;;
    status KProxyImport ;;;
    each INIT_STRING
      ["__3pow__"; "__bool__"; "__call__"; "check"; "check_getattr"; "check_setattr"; "__cmp__";
       "__contains__"; "__delitem__"; "__getitem__"; "__hash__"; "__iter__"; "__len__"; "__next__"] ;;;
    each INIT_STRING_OP
      ["abs"; "add"; "and"; "divmod"; "float"; "floordiv"; "iadd"; "iand"; "ifloordiv"; "ilshift";
       "imod"; "imul"; "int"; "invert"; "ior"; "ipow"; "irshift"; "isub"; "itruediv"; "ixor";
       "lshift"; "mod"; "mul"; "neg"; "or"; "pos"; "radd"; "rand"; "rdivmod"; "rfloordiv";
       "rlshift"; "rmod"; "rmul"; "ror"; "rrshift"; "rshift"; "rsub"; "rtruediv"; "rxor"; "sub";
       "truediv"; "xor"] ;;;
    each INIT_STRING ["__pow__"; "proxy"; "__repr__"; "__rpow__"; "__setitem__"; "__str__"] ;;;
    store "__class__str" (KFromString "__class__") ;;;
    store "__name__str" (KFromString "__name__") ;;;
    store "__module__str" (KFromString "__module__") ;;;
    status KReady ;;;
    add m "_Proxy" type ;;;
    ret m.

  (** _zope_security_checker.c 567-673.  [_defaultChecker] is the result of
      [CheckerType({})]. *)
  Definition init_checker : I obj :=
    mod_ <- new (KCreate "_zope_security_checker") ;;
    status KReady ;;;
    store "_defaultChecker" KNewChecker ;;;
    each INIT_STRING ["checkPermission"; "__Security_checker__"; "interaction"] ;;;
    store "_checkers" KNewDict ;;;
    store "NoProxy" KNewObject ;;;
    m <- import_ "zope.security._proxy" ;;
    store "Proxy" (KGetAttr m "_Proxy") ;;;
    decref m ;;;
    m <- import_ "zope.security._definitions" ;;
    store "thread_local" (KGetAttr m "thread_local") ;;;
    decref m ;;;
    m <- import_ "zope.security.interfaces" ;;
    store "ForbiddenAttribute" (KGetAttr m "ForbiddenAttribute") ;;;
    store "Unauthorized" (KGetAttr m "Unauthorized") ;;;
    decref m ;;;
    m <- import_ "zope.security.checker" ;;
    store "CheckerPublic" (KGetAttr m "CheckerPublic") ;;;
    decref m ;;;
    store "_available_by_default" KNewList ;;;
    each (fun n => o <- getvar n ;; add mod_ n o)
      ["_checkers"; "NoProxy"; "_defaultChecker"; "_available_by_default"] ;;;
    add mod_ "Checker" type ;;;
    ret mod_.
End Init.
