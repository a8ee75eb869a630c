(** * Domain: values, exceptions, events, program state, foreign code.

    This file fixes the vocabulary of the model of [zope.security].  It contains
    no code of the package itself. *)

From Coq Require Import List String Bool Arith ZArith.
From Verif Require Import Base.
Import ListNotations.
Open Scope string_scope.

(** Attribute and special-method names. *)
Definition name := string.

(** Identities (addresses) of heap objects and thread identifiers. *)
Definition id := nat.

(** A permission as stored in a checker's table: [CheckerPublic]
    (checker.py 348-359), [None], or a permission id, i.e. a Python string object
    with an identity (for [is]) and a text (for [==]). *)
Inductive perm :=
| PPublic
| PNone
| PId (ident : id) (text : string).

(** Python values.  [VObj] are application objects; [VClass] and [VMod] classes
    and modules (by dotted name); [VProxy] security proxies; [VDeco] instances of
    zope.proxy decorators carrying the checker descriptor (decorator.py 61-81,
    including LocationProxy); [VChk] instances of Checker classes; [VIact]
    interactions of simplepolicies.py; [VNoProxy] the NoProxy marker object
    (checker.py 493); [VModFun] the lambda registered for module objects
    (checker.py 894). *)
Inductive value :=
| VNone
| VNotImpl
| VBool (b : bool)
| VInt (z : Z)
| VStr (s : string)
| VObj (o : id)
| VClass (c : string)
| VMod (m : string)
| VProxy (p : id)
| VDeco (d : id)
| VChk (c : id)
| VIact (i : id)
| VNoProxy
| VModFun.

(** Keys of the checker registry: types and modules (checker.py 472, 505);
    [KOther] is anything else one may pass to defineChecker. *)
Inductive rkey :=
| KType (t : string)
| KMod (m : string)
| KOther (n : nat).

(** Checker classes (checker.py 199, 532, 674, 683).  The number is the
    [verbosity] attribute of the watching classes; the value is [_checker2]. *)
Inductive ckind :=
| CkPlain
| CkCombined (second : value)
| CkWatching (verbosity : nat)
| CkWatchingCombined (verbosity : nat) (second : value).

(** A checker object: identities of its two permission dictionaries
    (checker.py 208-230).  The C implementation creates a missing
    [set_permissions] dictionary lazily (_zope_security_checker.c 397-409); the model
    creates it at construction, which cannot be observed. *)
Record checker := mkChecker {
  ck_get : id;
  ck_set : id;
  ck_kind : ckind
}.

(** Operators of the language that proxies implement.
    _proxy.c 500-580, proxy.py 257-336. *)
Inductive unop := UNeg | UPos | UAbs | UInvert | UInt | UFloat.
(** Only in the Python proxy's table (proxy.py 282, 285). *)
Inductive unopx := UComplex | UIndex.
Inductive binop :=
| BAdd | BSub | BMul | BMod | BDivmod | BPow | BLshift | BRshift | BAnd | BXor | BOr
| BFloordiv | BTruediv.
(** In-place operators: all of the above but divmod. *)
Inductive inop :=
| IAdd | ISub | IMul | IMod | IPow | ILshift | IRshift | IAnd | IXor | IOr
| IFloordiv | ITruediv.
Inductive cmpop := CLt | CLe | CEq | CNe | CGt | CGe.

(** Python-level operations on values.  The last argument of [OGetattr] is the
    value bound to a local variable named [self] in the calling frame, if any
    (proxy.py 98 looks at it). *)
Inductive op :=
| OGetattr (v : value) (n : name) (frame_self : option value)
| OSetattr (v : value) (n : name) (w : value)
| ODelattr (v : value) (n : name)
| OCall (v : value) (args : list value)
| OUn (u : unop) (v : value)
| OUnX (u : unopx) (v : value)
| OBin (b : binop) (l r : value)
| OPow3 (a b m : value)
| OIn (b : inop) (l r : value)
| OGetitem (v k : value)
| OSetitem (v k w : value)
| ODelitem (v k : value)
| OContains (v k : value)
| OLen (v : value)
| OIter (v : value)
| ONext (v : value)
| OHash (v : value)
| OBool (v : value)
| OCmp (c : cmpop) (v w : value)
| OStr (v : value)
| ORepr (v : value)
| OLenHint (v : value).

(** Which method of a checker is called (IChecker, interfaces.py). *)
Inductive chkmode := MCheck | MGetattr | MSetattr.

(** Exceptions.  [EForbidden] is ForbiddenAttribute (a subclass of AttributeError,
    interfaces.py 116); [EUnauthorized] carries (object, name, permission);
    [EApp] is any other exception raised by foreign code; [EFuel] stands for
    RecursionError or non-termination. *)
Inductive exn :=
| EUnauthorized (obj : value) (n : name) (p : perm)
| EForbidden (n : name) (obj : value)
| EAttribute (n : name)
| EType (msg : string)
| EValue (msg : string)
| EKey
| EIndex
| EStopIteration
| ENotImplemented
| EDuplication (what : string)
| ENoInteraction
| EExistingInteraction
| EConfiguration (msg : string)
| EApp (code : nat)
| EFuel.

Inductive res (A : Type) :=
| Ok (a : A)
| Exc (e : exn).
Arguments Ok {A} a.
Arguments Exc {A} e.

(** Participations and interactions of simplepolicies.py. *)
Inductive principal := SystemUser | User (n : nat).

(** [None] for [pt_inter] is Python's None (testing.py 51-53). *)
Record part := mkPart {
  pt_principal : principal;
  pt_inter : option value
}.

(** simplepolicies.py 32, 72; a foreign policy is any other callable. *)
Inductive policy :=
| PolParanoid
| PolPermissive
| PolForeign (v : value).

Record inter := mkInter {
  in_permissive : bool;
  in_parts : list id
}.

(** Attributes of [thread_local] (_definitions.py) in one thread; [None] means
    that the attribute does not exist. *)
Record tlocal := mkTl {
  tl_inter : option value;
  tl_prev : option value
}.

(** A zope.proxy decorator instance: its class and the object it wraps. *)
Record deco := mkDeco {
  dc_class : string;
  dc_obj : value;
  dc_parent : value
}.

(** Program state.  [st_app] encodes all other application data. *)
Record state := mkState {
  st_next : id;
  st_dicts : id -> list (name * perm);
  st_chks : id -> option checker;
  st_prox : id -> option (value * value);
  st_decos : id -> option deco;
  st_reg : list (rkey * value);
  st_basic : list (rkey * value);
  st_tls : id -> tlocal;
  st_policy : policy;
  st_inters : id -> option inter;
  st_parts : id -> part;
  st_app : nat
}.

(** Calls into foreign code: an operation on a value that is not a security
    proxy; the methods of a foreign IChecker; [checkPermission] of a foreign
    interaction; a foreign security policy called with participations. *)
Inductive call :=
| CallOp (o : op)
| CallCheck (m : chkmode) (c obj : value) (n : name)
| CallProxy (c v : value)
| CallPerm (i : value) (p : perm) (obj : value)
| CallPolicy (pol : value) (parts : list id).

(** Why foreign code runs: because the operation was requested by the user of the
    proxy ([Client]) or because the security machinery looks at an object
    ([Probe]: hasattr, __Security_checker__, checker factories, repr for messages). *)
Inductive kind := Client | Probe.

(** Observable events: a call into foreign code; a question to an interaction
    together with the truth value of the answer ([None]: the policy raised); a line
    written to the log. *)
Inductive event :=
| ECall (k : kind) (t : id) (c : call)
| EAsk (t : id) (i : value) (p : perm) (obj : value) (answer : option bool)
| ELog (line : string) (n : name) (obj : value).

(** Which implementation of the package is in use (_compat.py PURE_PYTHON,
    checker.py 511-525, proxy.py 352-367). *)
Inductive impl := ImplPy | ImplC.

(** Environment: the implementation of the proxies (proxy.py 352-367) and of the checkers
    (checker.py 511-525), which are chosen separately, ZOPE_WATCH_CHECKERS
    (checker.py 97-103), the running thread, static facts about application classes, and
    foreign code, an arbitrary transformer of the whole program state. *)
Record env := mkEnv {
  e_impl : impl;
  e_cimpl : impl;
  e_watch : nat;
  e_tid : id;
  e_type : id -> string;
  e_meta : string -> string;
  e_isexc : string -> bool;
  e_addr : value -> string;
  e_run : id -> call -> state -> res value * state
}.

(** ** The monad: state, exceptions, trace. *)

Definition M (A : Type) := state -> res A * state * list event.

Definition ret {A} (a : A) : M A := fun s => (Ok a, s, []).
Definition raise {A} (e : exn) : M A := fun s => (Exc e, s, []).
Definition bind {A B} (m : M A) (f : A -> M B) : M B := fun s =>
  match m s with
  | (Ok a, s1, t1) =>
      match f a s1 with (r, s2, t2) => (r, s2, (t1 ++ t2)%list) end
  | (Exc e, s1, t1) => (Exc e, s1, t1)
  end.
(** [try m except e: h(e)]; the handler re-raises what it does not handle. *)
Definition catch {A} (m : M A) (h : exn -> M A) : M A := fun s =>
  match m s with
  | (Ok a, s1, t1) => (Ok a, s1, t1)
  | (Exc e, s1, t1) =>
      match h e s1 with (r, s2, t2) => (r, s2, (t1 ++ t2)%list) end
  end.
Definition get : M state := fun s => (Ok s, s, []).
Definition put (s' : state) : M unit := fun _ => (Ok tt, s', []).
Definition emit (e : event) : M unit := fun s => (Ok tt, s, [e]).

Declare Scope m_scope.
Delimit Scope m_scope with m.
Notation "x <- m ;; f" := (bind m (fun x => f))
  (at level 61, m at next level, right associativity) : m_scope.
Notation "m ;;; f" := (bind m (fun _ => f))
  (at level 61, right associativity) : m_scope.
Open Scope m_scope.

(** ** Equality tests ([is] on modelled values). *)

Definition perm_eqb (p q : perm) : bool :=
  match p, q with
  | PPublic, PPublic => true
  | PNone, PNone => true
  | PId i s, PId j u => Nat.eqb i j && String.eqb s u
  | _, _ => false
  end.

Definition value_eqb (v w : value) : bool :=
  match v, w with
  | VNone, VNone => true
  | VNotImpl, VNotImpl => true
  | VBool a, VBool b => Bool.eqb a b
  | VInt a, VInt b => Z.eqb a b
  | VStr a, VStr b => String.eqb a b
  | VObj a, VObj b => Nat.eqb a b
  | VClass a, VClass b => String.eqb a b
  | VMod a, VMod b => String.eqb a b
  | VProxy a, VProxy b => Nat.eqb a b
  | VDeco a, VDeco b => Nat.eqb a b
  | VChk a, VChk b => Nat.eqb a b
  | VIact a, VIact b => Nat.eqb a b
  | VNoProxy, VNoProxy => true
  | VModFun, VModFun => true
  | _, _ => false
  end.

Definition rkey_eqb (a b : rkey) : bool :=
  match a, b with
  | KType s, KType u => String.eqb s u
  | KMod s, KMod u => String.eqb s u
  | KOther n, KOther m => Nat.eqb n m
  | _, _ => false
  end.

(** [isinstance(v, Proxy)].  Objects lying about [__class__] and subclasses of
    Proxy are not modelled. *)
Definition is_proxy (v : value) : bool :=
  match v with VProxy _ => true | _ => false end.

(** Instances of built-in immutable types that never run foreign code when
    asked for [__Security_checker__]. *)
Definition is_atom (v : value) : bool :=
  match v with
  | VNone | VNotImpl | VBool _ | VInt _ | VStr _ | VNoProxy => true
  | _ => false
  end.

(** ** State updates *)

Definition set_dicts f s := mkState (st_next s) f (st_chks s) (st_prox s) (st_decos s)
  (st_reg s) (st_basic s) (st_tls s) (st_policy s) (st_inters s) (st_parts s) (st_app s).
Definition set_chks f s := mkState (st_next s) (st_dicts s) f (st_prox s) (st_decos s)
  (st_reg s) (st_basic s) (st_tls s) (st_policy s) (st_inters s) (st_parts s) (st_app s).
Definition set_prox f s := mkState (st_next s) (st_dicts s) (st_chks s) f (st_decos s)
  (st_reg s) (st_basic s) (st_tls s) (st_policy s) (st_inters s) (st_parts s) (st_app s).
Definition set_decos f s := mkState (st_next s) (st_dicts s) (st_chks s) (st_prox s) f
  (st_reg s) (st_basic s) (st_tls s) (st_policy s) (st_inters s) (st_parts s) (st_app s).
Definition set_reg f s := mkState (st_next s) (st_dicts s) (st_chks s) (st_prox s) (st_decos s)
  f (st_basic s) (st_tls s) (st_policy s) (st_inters s) (st_parts s) (st_app s).
Definition set_basic f s := mkState (st_next s) (st_dicts s) (st_chks s) (st_prox s) (st_decos s)
  (st_reg s) f (st_tls s) (st_policy s) (st_inters s) (st_parts s) (st_app s).
Definition set_tls f s := mkState (st_next s) (st_dicts s) (st_chks s) (st_prox s) (st_decos s)
  (st_reg s) (st_basic s) f (st_policy s) (st_inters s) (st_parts s) (st_app s).
Definition set_policy f s := mkState (st_next s) (st_dicts s) (st_chks s) (st_prox s) (st_decos s)
  (st_reg s) (st_basic s) (st_tls s) f (st_inters s) (st_parts s) (st_app s).
Definition set_inters f s := mkState (st_next s) (st_dicts s) (st_chks s) (st_prox s) (st_decos s)
  (st_reg s) (st_basic s) (st_tls s) (st_policy s) f (st_parts s) (st_app s).
Definition set_parts f s := mkState (st_next s) (st_dicts s) (st_chks s) (st_prox s) (st_decos s)
  (st_reg s) (st_basic s) (st_tls s) (st_policy s) (st_inters s) f (st_app s).
Definition set_next f s := mkState f (st_dicts s) (st_chks s) (st_prox s) (st_decos s)
  (st_reg s) (st_basic s) (st_tls s) (st_policy s) (st_inters s) (st_parts s) (st_app s).

(** A fresh identity. *)
Definition fresh : M id := fun s => (Ok (st_next s), set_next (S (st_next s)) s, []).

(** [raise] of non-AttributeErrors; [except AttributeError] also catches
    ForbiddenAttribute (interfaces.py 116). *)
Definition is_attribute_error (e : exn) : bool :=
  match e with EAttribute _ | EForbidden _ _ => true | _ => false end.
Definition is_unauthorized (e : exn) : bool :=
  match e with EUnauthorized _ _ _ => true | _ => false end.
Definition is_forbidden (e : exn) : bool :=
  match e with EForbidden _ _ => true | _ => false end.
Definition is_type_error (e : exn) : bool :=
  match e with EType _ => true | _ => false end.
