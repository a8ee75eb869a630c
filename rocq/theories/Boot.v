(** * Boot: what happens when the package is imported.

    _compat.py, the choice of implementations in proxy.py and checker.py, and the value of
    ZOPE_WATCH_CHECKERS.  Objects created while importing are known by name; [impl] comes
    from [Domain]. *)

From Coq Require Import List String Ascii Bool ZArith.
From Verif Require Import Base Domain CheckerModel.
Import ListNotations.
Open Scope string_scope.

(** ** Platforms *)

(** Exceptions while importing: ImportError, AttributeError, ValueError and others. *)
Inductive failure := FImport | FAttribute | FValue | FOther (msg : string).

Inductive outcome (A : Type) := Imported (a : A) | Failed (e : failure).
Arguments Imported {A}. Arguments Failed {A}.

Definition and_then {A B} (m : outcome A) (f : A -> outcome B) : outcome B :=
  match m with Imported a => f a | Failed e => Failed e end.

(** The process environment, the interpreter, and what happens when the extension modules
    are loaded: [None] if nothing goes wrong.  [x_checker] is about the module
    _zope_security_checker itself; it imports others (below). *)
Record platform := mkPlatform {
  x_environ : string -> option string;
  x_pypy : bool;
  x_proxy : option failure;
  x_checker : option failure
}.

(** ** int() of a string

    Simplified: ASCII only, and no limit on the number of digits. *)

Definition is_space (a : ascii) : bool :=
  match nat_of_ascii a with 9 | 10 | 11 | 12 | 13 | 32 => true | _ => false end.

Definition digit (a : ascii) : option Z :=
  let n := nat_of_ascii a in
  if (Nat.leb 48 n && Nat.leb n 57)%bool then Some (Z.of_nat (n - 48)) else None.

Fixpoint skip_spaces (s : string) : string :=
  match s with
  | String a s1 => if is_space a then skip_spaces s1 else s
  | EmptyString => s
  end.

Definition only_spaces (s : string) : bool :=
  match skip_spaces s with EmptyString => true | _ => false end.

(** After a digit. *)
Fixpoint more_digits (acc : Z) (s : string) : option Z :=
  match s with
  | EmptyString => Some acc
  | String a s1 =>
      match digit a with
      | Some x => more_digits (10 * acc + x)%Z s1
      | None =>
          if Ascii.eqb a "_" then
            match s1 with
            | String b s2 =>
                match digit b with
                | Some x => more_digits (10 * acc + x)%Z s2
                | None => None
                end
            | EmptyString => None
            end
          else if only_spaces s then Some acc else None
      end
  end.

Definition unsigned (s : string) : option Z :=
  match s with
  | String a s1 => match digit a with Some x => more_digits x s1 | None => None end
  | EmptyString => None
  end.

(** [int(s)]; [None] is ValueError. *)
Definition py_int (s : string) : option Z :=
  match skip_spaces s with
  | String a s1 =>
      if Ascii.eqb a "-" then option_map Z.opp (unsigned s1)
      else if Ascii.eqb a "+" then unsigned s1
      else unsigned (String a s1)
  | EmptyString => None
  end.

(** ** _compat.py *)

(** _compat.py 21-22: [int(os.environ.get('PURE_PYTHON', PYPY))]. *)
Definition PURE_PYTHON (x : platform) : outcome Z :=
  match x_environ x "PURE_PYTHON" with
  | Some v => match py_int v with Some z => Imported z | None => Failed FValue end
  | None => Imported (if x_pypy x then 1%Z else 0%Z)
  end.

(** ** proxy.py *)

(** [except (ImportError, AttributeError)] proxy.py 356, checker.py 515. *)
Definition tolerated (e : failure) : bool :=
  match e with FImport | FAttribute => true | FValue | FOther _ => false end.

(** proxy.py 352-367: the classes Proxy and the functions getChecker and getObject, which
    come from the same module. *)
Definition import_proxy (x : platform) (pure : Z) : outcome impl :=
  if (pure =? 0)%Z then
    match x_proxy x with
    | None => Imported ImplC
    | Some e => if tolerated e then Imported ImplPy else Failed e
    end
  else Imported ImplPy.

(** ** checker.py *)

(** The objects in question. *)
Inductive obj :=
| PyNoProxy | PyCheckers | PyDefault | PyAvailable     (** checker.py 489-508 *)
| PublicString | PublicProxy                           (** checker.py 348-357 *)
| CNoProxy | CCheckers | CDefault | CAvailable.        (** _zope_security_checker.c 585-657 *)

(** The classes: CheckerPy, the C Checker, and the classes of checker.py 533, 676, 685,
    which derive from one of them. *)
Inductive cls :=
| KPlain (b : impl) | KCombined (b : impl) | KWatching (b : impl) | KWatchingCombined (b : impl).

(** [issubclass(c, d)] *)
Definition subclass (c d : cls) : bool :=
  match c, d with
  | KPlain b, KPlain b' | KCombined b, KPlain b' | KWatching b, KPlain b'
  | KWatchingCombined b, KPlain b' | KCombined b, KCombined b'
  | KWatchingCombined b, KCombined b' | KWatching b, KWatching b'
  | KWatchingCombined b, KWatching b' | KWatchingCombined b, KWatchingCombined b' =>
      match b, b' with ImplPy, ImplPy | ImplC, ImplC => true | _, _ => false end
  | _, _ => false
  end.

(** Global variables of checker.py. *)
Record globals := mkGlobals {
  g_Proxy : impl;
  g_CheckerPublic : obj;
  g_Checker : cls;
  g_CombinedChecker : cls;
  g_selectChecker : impl;
  g_NoProxy : obj;
  g_checkers : obj;
  g_getChecker : obj;          (** the dictionary whose get method it is *)
  g_default : obj;
  g_available : obj
}.

(** Static variables of _zope_security_checker.c 16-17. *)
Record statics := mkStatics {
  c_checkers : obj;
  c_default : obj;
  c_available : obj;
  c_NoProxy : obj;
  c_Proxy : impl;
  c_CheckerPublic : obj
}.

(** The program after importing: the globals, the statics if the extension is in use, the
    classes of checkers, the contents of lists, and WATCH_CHECKERS. *)
Record world := mkWorld {
  w_globals : globals;
  w_statics : option statics;
  w_class : obj -> option cls;
  w_list : obj -> list name;
  w_watch : Z
}.

(** _zope_security_checker.c 568-673, called when checker.py has got to line 514: it imports
    zope.security._proxy, which fails as it failed before, and takes CheckerPublic from
    checker.py as far as it has been executed. *)
Definition init_statics (x : platform) (g : globals) : outcome statics :=
  match x_checker x with
  | Some e => Failed e
  | None =>
      match x_proxy x with
      | Some e => Failed e
      | None => Imported (mkStatics CCheckers CDefault CAvailable CNoProxy ImplC (g_CheckerPublic g))
      end
  end.

(** checker.py 97-103 *)
Definition WATCH_CHECKERS (x : platform) : Z :=
  match x_environ x "ZOPE_WATCH_CHECKERS" with
  | None | Some "" => 0%Z
  | Some v => match py_int v with Some z => z | None => 1%Z end
  end.

(** checker.py 293-508: the Python versions. *)
Definition python_globals (proxies : impl) : globals :=
  mkGlobals proxies PublicProxy (KPlain ImplPy) (KCombined ImplPy) ImplPy
    PyNoProxy PyCheckers PyCheckers PyDefault PyAvailable.

(** checker.py 519-524 *)
Definition optimized_globals (g : globals) (c : statics) : globals :=
  mkGlobals (g_Proxy g) (g_CheckerPublic g) (KPlain ImplC) (g_CombinedChecker g) ImplC
    (c_NoProxy c) (c_checkers c) (g_getChecker g) (c_default c) (c_available c).

(** checker.py 511-525 *)
Definition get_optimized (x : platform) (pure : Z) (g : globals)
  : outcome (globals * option statics) :=
  if (pure =? 0)%Z then
    match init_statics x g with
    | Imported c => Imported (optimized_globals g c, Some c)
    | Failed e => if tolerated e then Imported (g, None) else Failed e
    end
  else Imported (g, None).

Definition base_of (c : cls) : impl :=
  match c with KPlain b | KCombined b | KWatching b | KWatchingCombined b => b end.

(** checker.py 528 and 533: _getChecker, and CombinedChecker derived from what Checker is
    now. *)
Definition after_choice (g : globals) : globals :=
  mkGlobals (g_Proxy g) (g_CheckerPublic g) (g_Checker g) (KCombined (base_of (g_Checker g)))
    (g_selectChecker g) (g_NoProxy g) (g_checkers g) (g_checkers g) (g_default g) (g_available g).

(** checker.py 698-699 *)
Definition watching (g : globals) : globals :=
  mkGlobals (g_Proxy g) (g_CheckerPublic g) (KWatching (base_of (g_Checker g)))
    (KWatchingCombined (base_of (g_CombinedChecker g))) (g_selectChecker g) (g_NoProxy g)
    (g_checkers g) (g_getChecker g) (g_default g) (g_available g).

Definition obj_eqb (a b : obj) : bool :=
  match a, b with
  | PyNoProxy, PyNoProxy | PyCheckers, PyCheckers | PyDefault, PyDefault
  | PyAvailable, PyAvailable | PublicString, PublicString | PublicProxy, PublicProxy
  | CNoProxy, CNoProxy | CCheckers, CCheckers | CDefault, CDefault
  | CAvailable, CAvailable => true
  | _, _ => false
  end.

Definition assign {A} (f : obj -> A) (o : obj) (v : A) : obj -> A :=
  fun o' => if obj_eqb o' o then v else f o'.

(** The classes of the default checkers (checker.py 507, _zope_security_checker.c 585). *)
Definition first_classes (o : obj) : option cls :=
  match o with
  | PyDefault => Some (KPlain ImplPy)
  | CDefault => Some (KPlain ImplC)
  | _ => None
  end.

(** checker.py 70-727 *)
Definition import_checker_module (x : platform) (pure : Z) (proxies : impl) : outcome world :=
  let watch := WATCH_CHECKERS x in
  and_then (get_optimized x pure (python_globals proxies)) (fun gc =>
  let c_available := match snd gc with Some _ => true | None => false end in
  let g := after_choice (fst gc) in
  let g' := if (watch =? 0)%Z then g else watching g in
  (** checker.py 701-702: [_defaultChecker.__class__ = Checker] *)
  let classes := if ((watch =? 0)%Z || c_available)%bool then first_classes
                 else assign first_classes (g_default g') (Some (g_Checker g')) in
  (** checker.py 720-727: [_available_by_default[:] = ...] *)
  let lists := assign (fun _ => []) (g_available g') available_by_default in
  Imported (mkWorld g' (snd gc) classes lists watch)).

(** [import zope.security.checker], which imports the other modules first. *)
Definition import_package (x : platform) : outcome world :=
  and_then (PURE_PYTHON x) (fun pure =>
  and_then (import_proxy x pure) (fun proxies =>
  import_checker_module x pure proxies)).

(** ** What the functions use *)

(** The registry, the default checker and NoProxy as used by selectChecker (checker.py
    448-462: globals; _zope_security_checker.c 500-555: statics). *)
Definition selection_uses (w : world) : option (obj * obj * obj) :=
  match g_selectChecker (w_globals w), w_statics w with
  | ImplPy, _ => Some (g_getChecker (w_globals w), g_default (w_globals w), g_NoProxy (w_globals w))
  | ImplC, Some c => Some (c_checkers c, c_default c, c_NoProxy c)
  | ImplC, None => None
  end.

(** The class that selectChecker tests for (checker.py 456; _zope_security_checker.c 536). *)
Definition selection_class (w : world) : cls :=
  match g_selectChecker (w_globals w) with
  | ImplPy => g_Checker (w_globals w)
  | ImplC => KPlain ImplC
  end.

(** The list of names that are always available, and CheckerPublic, as used by the check
    methods of checkers derived from the Checker of [b]. *)
Definition checks_use (w : world) (b : impl) : option (list name * obj) :=
  match b, w_statics w with
  | ImplPy, _ => Some (w_list w (g_available (w_globals w)), g_CheckerPublic (w_globals w))
  | ImplC, Some c => Some (w_list w (c_available c), c_CheckerPublic c)
  | ImplC, None => None
  end.

(** The class of the proxies that the proxy methods of these checkers create. *)
Definition proxies_made (w : world) (b : impl) : option impl :=
  match b, w_statics w with
  | ImplPy, _ => Some (g_Proxy (w_globals w))
  | ImplC, Some c => Some (c_Proxy c)
  | ImplC, None => None
  end.
