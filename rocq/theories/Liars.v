(** Objects that lie about their class, and subclasses of Proxy: where
    checker.py, proxy.py and the C extensions ask for the type of an object,
    and where they believe what the object's [__class__] says.

    Domain.v takes [isinstance(v, Proxy)] to be a matter of fact; here it is
    the builtin, which reads [__class__] of objects that are not instances. *)

From Coq Require Import String List Arith Bool.
Import ListNotations.
Open Scope string_scope.

(** ** Objects and outcomes *)

(** Types, by number.  [Prox] is an instance of Proxy or of a subclass of it
    (its type, the object and the checker in its slots, proxy.py 80, _proxy.c
    111-114); [Plain] is any other object, including types and checkers. *)
Definition ty := nat.
Inductive obj := PyNone | Plain (n : nat) | Prox (t : ty) (wrapped checker : obj).

(** What a call ends with.  [Both] is a result of a C function that comes with
    an exception set; [Crash] is undefined behaviour; [Unfinished] says that
    the model ran out of fuel. *)
Inductive outcome (X A : Type) :=
| Returns (a : A)
| Raises (x : X)
| Both (a : A) (x : X)
| Crash
| Unfinished.
Arguments Returns {X A}. Arguments Raises {X A}. Arguments Both {X A}.
Arguments Crash {X A}. Arguments Unfinished {X A}.

Definition action (W X A : Type) := W -> outcome X A * W.

Definition give {W X A} (a : A) : action W X A := fun w => (Returns a, w).
Definition throw {W X A} (x : X) : action W X A := fun w => (Raises x, w).

(** One Python expression after the other. *)
Definition andthen {W X A B} (m : action W X A) (k : A -> action W X B) : action W X B :=
  fun w => match m w with
           | (Returns a, w') => k a w'
           | (Raises x, w') => (Raises x, w')
           | (Both _ x, w') => (Raises x, w')
           | (Crash, w') => (Crash, w')
           | (Unfinished, w') => (Unfinished, w')
           end.

(** What a name in the registry of checkers, or a callable found there, can
    stand for (checker.py 448-462). *)
Inductive answer := ANoProxy | ANone | AChecker (c : obj) | ACall (f : nat).

(** The interpreter and the application, [W] being the state of the process
    and [X] the exceptions. *)
Record runtime (W X : Type) := {
  (** [type(x)] of plain objects, and of None *)
  rt_type : nat -> ty;
  rt_none : ty;
  (** [issubclass] on types, without metaclass hooks (PyType_IsSubtype) *)
  rt_sub : ty -> ty -> bool;
  (** the classes Proxy and Exception *)
  rt_proxy : ty;
  rt_exception : ty;
  (** [x.__class__], and whether an object is a type *)
  rt_class : obj -> action W X obj;
  rt_as_type : obj -> option ty;
  (** [x.__Security_checker__] *)
  rt_security_checker : obj -> action W X obj;
  (** [_checkers.get(t)], [f(x)] for a callable in it, and the default checker *)
  rt_registry : W -> ty -> option answer;
  rt_call : nat -> obj -> action W X answer;
  rt_default : obj;
  (** [PyProxyBase.__getattribute__(x, name)] as found behind ProxyPy in the
      class [t], for an [x] that is not a proxy *)
  rt_base_get : ty -> obj -> string -> action W X obj;
  (** identity of objects *)
  rt_is : obj -> obj -> bool;
  (** exceptions *)
  rt_attribute_error : X -> bool;
  rt_type_error : X;
  rt_value_error : X;
  rt_system_error : X
}.
Arguments rt_type {W X}. Arguments rt_none {W X}. Arguments rt_sub {W X}.
Arguments rt_proxy {W X}. Arguments rt_exception {W X}. Arguments rt_class {W X}.
Arguments rt_as_type {W X}. Arguments rt_security_checker {W X}.
Arguments rt_registry {W X}. Arguments rt_call {W X}. Arguments rt_default {W X}.
Arguments rt_base_get {W X}. Arguments rt_is {W X}. Arguments rt_attribute_error {W X}.
Arguments rt_type_error {W X}. Arguments rt_value_error {W X}. Arguments rt_system_error {W X}.

(** The pure-Python build and the build with both C extensions. *)
Inductive build := Py | C.

Section Functions.
  Context {W X : Type} (R : runtime W X).

  (** [type(x)], [Py_TYPE(x)] *)
  Definition type_of (x : obj) : ty :=
    match x with
    | PyNone => rt_none R
    | Plain n => rt_type R n
    | Prox t _ _ => t
    end.

  (** The builtin [isinstance(x, T)], for a [T] whose metaclass is [type]
      (CPython, abstract.c object_isinstance): the type, else [__class__] if
      that is a type; a missing [__class__] is no error. *)
  Definition isinstance (x : obj) (T : ty) : action W X bool := fun w =>
    if rt_sub R (type_of x) T then (Returns true, w)
    else
      match rt_class R x w with
      | (Returns c, w') =>
          (Returns (match rt_as_type R c with
                    | Some t => negb (Nat.eqb t (type_of x)) && rt_sub R t T
                    | None => false
                    end), w')
      | (Raises e, w') =>
          if rt_attribute_error R e then (Returns false, w') else (Raises e, w')
      | (Both _ e, w') => (Raises e, w')
      | (Crash, w') => (Crash, w')
      | (Unfinished, w') => (Unfinished, w')
      end.

  (** [super(ProxyPy, x).__getattribute__(name)] for the two slots (CPython,
      typeobject.c supercheck): [x] must be an instance of ProxyPy, or say so. *)
  Definition super_get (x : obj) (name : string) : action W X obj := fun w =>
    if rt_sub R (type_of x) (rt_proxy R) then
      match x with
      | Prox _ o c => (Returns (if String.eqb name "_wrapped" then o else c), w)
      | _ => (Crash, w)
      end
    else
      match rt_class R x w with
      | (Returns c, w') =>
          match rt_as_type R c with
          | Some t =>
              if negb (Nat.eqb t (type_of x)) && rt_sub R t (rt_proxy R)
              then rt_base_get R t x name w'
              else (Raises (rt_type_error R), w')
          | None => (Raises (rt_type_error R), w')
          end
      | (Raises e, w') =>
          if rt_attribute_error R e then (Raises (rt_type_error R), w') else (Raises e, w')
      | (Both _ e, w') => (Raises e, w')
      | (Crash, w') => (Crash, w')
      | (Unfinished, w') => (Unfinished, w')
      end.

  (** ** proxy.py *)

  (** getObjectPy, proxy.py 346-349; module_getObject, _proxy.c 826-838 *)
  Definition getObject (b : build) (x : obj) : action W X obj :=
    match b with
    | Py =>
        andthen (isinstance x (rt_proxy R)) (fun yes =>
          if yes then super_get x "_wrapped" else give x)
    | C =>
        fun w =>
          if rt_sub R (type_of x) (rt_proxy R) then
            match x with Prox _ o _ => (Returns o, w) | _ => (Crash, w) end
          else (Returns x, w)
    end.

  (** getCheckerPy, proxy.py 339-340; module_getChecker, _proxy.c 811-824 *)
  Definition getChecker (b : build) (x : obj) : action W X obj :=
    match b with
    | Py => super_get x "_checker"
    | C =>
        fun w =>
          if rt_sub R (type_of x) (rt_proxy R) then
            match x with Prox _ _ c => (Returns c, w) | _ => (Crash, w) end
          else (Raises (rt_type_error R), w)
    end.

  (** zope.security.proxy.isinstance, proxy.py 379-386 *)
  Definition proxy_isinstance (b : build) (x : obj) (T : ty) : action W X bool :=
    andthen (getObject b x) (fun y => isinstance y T).

  (** ** Selecting a checker *)

  (** [_checkers.get(type(object), _defaultChecker)], checker.py 448,
      _zope_security_checker.c 507-509 *)
  Definition registered (w : W) (x : obj) : answer :=
    match rt_registry R w (type_of x) with
    | Some a => a
    | None => AChecker (rt_default R)
    end.

  (** The loop checker.py 456-462, _zope_security_checker.c 536-550.  None and
      NoProxy are not callable. *)
  Fixpoint select_loop (fuel : nat) (a : answer) (x : obj) : action W X (option obj) :=
    match fuel with
    | O => fun w => (Unfinished, w)
    | S k =>
        match a with
        | AChecker c => give (Some c)
        | ACall f =>
            andthen (rt_call R f x) (fun a' =>
              match a' with
              | ANoProxy | ANone => give None
              | _ => select_loop k a' x
              end)
        | ANoProxy | ANone => throw (rt_type_error R)
        end
    end.

  (** selectCheckerPy, checker.py 431-464 *)
  Definition select_py (fuel : nat) (x : obj) : action W X (option obj) := fun w =>
    match registered w x with
    | ANoProxy => (Returns None, w)
    | a => select_loop fuel a x w
    end.

  (** selectChecker, _zope_security_checker.c 500-555.  A failed
      PyObject_IsInstance counts as true, and its exception stays set. *)
  Definition select_c (fuel : nat) (x : obj) : action W X (option obj) := fun w =>
    match registered w x with
    | ANoProxy => (Returns None, w)
    | a =>
        if match a with AChecker c => rt_is R c (rt_default R) | _ => false end then
          match isinstance x (rt_exception R) w with
          | (Returns true, w') => (Returns None, w')
          | (Returns false, w') => select_loop fuel a x w'
          | (Raises e, w') => (Both None e, w')
          | (Both _ e, w') => (Both None e, w')
          | (Crash, w') => (Crash, w')
          | (Unfinished, w') => (Unfinished, w')
          end
        else select_loop fuel a x w
    end.

  (** [selectChecker] as Python code calls it: the interpreter turns a result
      with an exception set into SystemError (CPython, _Py_CheckFunctionResult). *)
  Definition select (b : build) (fuel : nat) (x : obj) : action W X (option obj) :=
    match b with
    | Py => select_py fuel x
    | C => fun w => match select_c fuel x w with
                    | (Both _ _, w') => (Raises (rt_system_error R), w')
                    | r => r
                    end
    end.

  (** ** Making proxies *)

  (** [Proxy(object, checker)], proxy.py 82-92, _proxy.c 263-290 *)
  Definition new_proxy (x c : obj) : action W X obj :=
    match c with
    | PyNone => throw (rt_value_error R)
    | _ => give (Prox (rt_proxy R) x c)
    end.

  (** [getattr(x, '__Security_checker__', None)] *)
  Definition security_checker (x : obj) : action W X obj := fun w =>
    match rt_security_checker R x w with
    | (Raises e, w') => if rt_attribute_error R e then (Returns PyNone, w') else (Raises e, w')
    | r => r
    end.

  (** The rest of CheckerPy.proxy and ProxyFactory (checker.py 284-290, 124-132):
      the object's own checker, else the selected one. *)
  Definition protect (b : build) (fuel : nat) (x : obj) : action W X obj :=
    andthen (security_checker x) (fun c =>
      match c with
      | PyNone =>
          andthen (select b fuel x) (fun oc =>
            match oc with
            | None => give x
            | Some c' => new_proxy x c'
            end)
      | _ => new_proxy x c
      end).

  (** CheckerPy.proxy, checker.py 280-290 *)
  Definition proxy_py (fuel : nat) (x : obj) : action W X obj :=
    andthen (isinstance x (rt_proxy R)) (fun yes =>
      if yes then give x else protect Py fuel x).

  (** Checker_proxy, _zope_security_checker.c 260-313: [Py_TYPE(value) == Proxy],
      and every exception of the lookup is cleared. *)
  Definition proxy_c (fuel : nat) (x : obj) : action W X obj := fun w =>
    if Nat.eqb (type_of x) (rt_proxy R) then (Returns x, w)
    else
      match rt_security_checker R x w with
      | (Returns PyNone, w') => (Raises (rt_value_error R), w')
      | (Returns c, w') => new_proxy x c w'
      | (Crash, w') => (Crash, w')
      | (Unfinished, w') => (Unfinished, w')
      | (Raises _, w') | (Both _ _, w') =>
          match select_c fuel x w' with
          | (Returns None, w'') => (Returns x, w'')
          | (Returns (Some c), w'') => new_proxy x c w''
          | (Raises e, w'') => (Raises e, w'')
          | (Both None e, w'') => (Both x e, w'')
          | (Both (Some _) e, w'') => (Raises e, w'')
          | (Crash, w'') => (Crash, w'')
          | (Unfinished, w'') => (Unfinished, w'')
          end
      end.

  (** [checker.proxy(x)] *)
  Definition proxy (b : build) : nat -> obj -> action W X obj :=
    match b with Py => proxy_py | C => proxy_c end.

  (** ProxyFactory, checker.py 106-132, the same Python code in both builds;
      [None] is no checker given. *)
  Definition ProxyFactory (b : build) (fuel : nat) (x : obj) (given : option obj) :
    action W X obj :=
    andthen (isinstance x (rt_proxy R)) (fun yes =>
      if yes then
        match given with
        | None => give x
        | Some c =>
            andthen (getChecker b x) (fun c' =>
              if rt_is R c c' then give x else throw (rt_type_error R))
        end
      else
        match given with
        | Some c => new_proxy x c
        | None => protect b fuel x
        end).
End Functions.
