(** * Imports: importing the modules of the package.

    The modules import each other in cycles, and so do other packages.  What a module does
    while it is imported is reduced to: which modules of the package it imports, which names it
    takes from them, which names it binds, in the order of its text.  The packages used by
    the core modules (zope.interface, zope.proxy, zope.schema, zope.location, ...) are assumed
    to import nothing of this package; zope.component and zope.configuration may. *)

From Coq Require Import List String Bool Arith.
Import ListNotations.
Open Scope string_scope.

(** Modules are named without "zope.security."; the package itself is "".  Modules of other
    packages have their full names.

    [SImport m]: import zope.security.m.  [SFrom m n a]: from zope.security.m import n as a.
    [SBind l]: classes, functions and variables defined at this point (names that are deleted again
    are left out, and names taken from other packages).  [SAlias w l]: n = o for each
    (n, o); with [w], only if WATCH_CHECKERS is set (checker.py 692-699).  [SForeign p]: a module of another package is imported.  [SPatch]:
    decorator.py 80-81, the descriptor is put into LocationProxy.  [SExt m l]: the extension
    module is imported, unless PURE_PYTHON is set; if that raises ImportError or AttributeError, it is
    passed over, else names are taken from it (proxy.py 352-367, where Proxy is made another
    name of _Proxy, and checker.py 511-525). *)
Inductive stmt : Type :=
| SImport (m : string)
| SFrom (m n a : string)
| SBind (l : list string)
| SAlias (w : bool) (l : list (string * string))
| SForeign (p : string)
| SPatch
| SExt (m : string) (l : list (string * string)).

(** __init__.py 20-23 *)
Definition body_package : list stmt :=
  [SImport "decorator"; SFrom "checker" "canAccess" "canAccess"; SFrom "checker" "canWrite"
   "canWrite"; SFrom "management" "checkPermission" "checkPermission"].

(** _compat.py 20-25 *)
Definition body_compat : list stmt :=
  [SBind ["py_impl"; "PYPY"; "PURE_PYTHON"; "implementer_if_needed"]].

(** _definitions.py 20-33 *)
Definition body_definitions : list stmt :=
  [SFrom "" "interfaces" "interfaces"; SBind ["thread_local"; "SystemUser"; "system_user"]].

(** i18n.py 16-22 *)
Definition body_i18n : list stmt :=
  [SBind ["__docformat__"; "ZopeMessageFactory"]].

(** interfaces.py 63-477 *)
Definition body_interfaces : list stmt :=
  [SFrom "i18n" "ZopeMessageFactory" "_"; SBind ["PUBLIC_PERMISSION_NAME"; "IUnauthorized";
   "Unauthorized"; "IForbidden"; "Forbidden"; "IForbiddenAttribute"; "ForbiddenAttribute";
   "ISecurityManagement"; "ISecurityChecking"; "ISecurityProxyFactory"; "IChecker";
   "INameBasedChecker"; "ISecurityPolicy"; "IInteraction"; "IParticipation"; "NoInteraction";
   "IInteractionManagement"; "IPrincipal"; "ISystemPrincipal"; "IGroupAwarePrincipal";
   "IGroupClosureAwarePrincipal"; "IGroup"; "IMemberGetterGroup"; "IMemberAwareGroup";
   "IPermission"]].

(** proxy.py 24-379 *)
Definition body_proxy : list stmt :=
  [SFrom "_compat" "PURE_PYTHON" "PURE_PYTHON"; SBind ["_check_name"; "_check_name_inplace";
   "_fmt_address"; "ProxyPy"; "getCheckerPy"; "_builtin_isinstance"; "getObjectPy";
   "_c_available"]; SAlias false [("getChecker", "getCheckerPy"); ("getObject", "getObjectPy");
   ("Proxy", "ProxyPy")]; SExt "_proxy" [("_Proxy", "_Proxy");
   ("getChecker", "getChecker"); ("getObject", "getObject"); ("_Proxy", "Proxy")]; SAlias false
   [("removeSecurityProxy", "getObject")]; SBind ["getTestProxyItems"; "isinstance"]].

(** checker.py 79-1076 *)
Definition body_checker : list stmt :=
  [SFrom "_compat" "PURE_PYTHON" "PURE_PYTHON"; SFrom "_compat" "implementer_if_needed"
   "implementer_if_needed"; SFrom "_definitions" "thread_local" "thread_local"; SFrom
   "interfaces" "ForbiddenAttribute" "ForbiddenAttribute"; SFrom "interfaces" "IChecker"
   "IChecker"; SFrom "interfaces" "INameBasedChecker" "INameBasedChecker"; SFrom "interfaces"
   "ISecurityProxyFactory" "ISecurityProxyFactory"; SFrom "interfaces" "Unauthorized"
   "Unauthorized"; SFrom "proxy" "Proxy" "Proxy"; SFrom "proxy" "getChecker" "getChecker"; SBind
   ["WATCH_CHECKERS"; "ProxyFactory"]; SFrom "" "proxy" "proxy"; SBind ["canWrite"; "canAccess";
   "CheckerPy"]; SAlias false [("Checker", "CheckerPy")]; SBind ["TracebackSupplement"; "Global";
   "CheckerPublic"]; SAlias false [("CP_HACK_XXX", "CheckerPublic")]; SBind ["CheckerPublic";
   "NamesChecker"; "InterfaceChecker"; "MultiChecker"; "selectCheckerPy"]; SAlias false
   [("selectChecker", "selectCheckerPy")]; SBind ["getCheckerForInstancesOf"; "DEFINABLE_TYPES"; "defineChecker";
   "undefineChecker"; "NoProxy"; "_checkers"; "_defaultChecker"; "_available_by_default";
   "_c_available"]; SExt "_zope_security_checker" [("Checker", "Checker"); ("NoProxy",
   "NoProxy"); ("_available_by_default", "_available_by_default"); ("_checkers", "_checkers");
   ("_defaultChecker", "_defaultChecker"); ("selectChecker", "selectChecker")]; SBind
   ["_getChecker"; "CombinedChecker"; "CheckerLoggingMixin"; "WatchingChecker";
   "WatchingCombinedChecker"]; SAlias true [("Checker",
   "WatchingChecker"); ("CombinedChecker", "WatchingCombinedChecker")]; SBind ["_instanceChecker";
   "moduleChecker"; "_callableChecker"; "_typeChecker"; "_namedChecker"; "_iteratorChecker";
   "_setChecker"; "_BasicTypes"; "BasicTypes"; "BasicTypes_examples"; "_Sequence";
   "_Declaration_checker"; "f"; "_default_checkers"; "_clear"]].

(** decorator.py 24-81 *)
Definition body_decorator : list stmt :=
  [SFrom "checker" "CombinedChecker" "CombinedChecker"; SFrom "checker" "selectChecker"
   "selectChecker"; SFrom "proxy" "Proxy" "Proxy"; SFrom "proxy" "getChecker" "getChecker";
   SBind ["DecoratedSecurityCheckerDescriptor"; "SecurityCheckerDecoratorBase";
   "DecoratorBase"]; SPatch].

(** simplepolicies.py 24-72 *)
Definition body_simplepolicies : list stmt :=
  [SFrom "_definitions" "system_user" "system_user"; SFrom "checker" "CheckerPublic"
   "CheckerPublic"; SFrom "interfaces" "IInteraction" "IInteraction"; SFrom "interfaces"
   "ISecurityPolicy" "ISecurityPolicy"; SBind ["ParanoidSecurityPolicy";
   "PermissiveSecurityPolicy"]].

(** management.py 23-162 *)
Definition body_management : list stmt :=
  [SFrom "_definitions" "system_user" "system_user"; SFrom "_definitions" "thread_local"
   "thread_local"; SFrom "checker" "CheckerPublic" "CheckerPublic"; SFrom "interfaces"
   "IInteractionManagement" "IInteractionManagement"; SFrom "interfaces" "ISecurityManagement"
   "ISecurityManagement"; SFrom "interfaces" "NoInteraction" "NoInteraction"; SFrom
   "simplepolicies" "ParanoidSecurityPolicy" "ParanoidSecurityPolicy"; SBind
   ["__all__"]; SAlias false [("_defaultPolicy", "ParanoidSecurityPolicy")]; SBind ["getSecurityPolicy"; "setSecurityPolicy"; "queryInteraction";
   "getInteraction"; "ExistingInteraction"; "newInteraction"; "endInteraction";
   "restoreInteraction"; "checkPermission"; "_clear"]].

(** adapter.py 20-112 *)
Definition body_adapter : list stmt :=
  [SFrom "checker" "ProxyFactory" "ProxyFactory"; SFrom "proxy" "removeSecurityProxy"
   "removeSecurityProxy"; SBind ["assertLocation"; "LocatingTrustedAdapterFactory";
   "TrustedAdapterFactory"; "LocatingUntrustedAdapterFactory"]].

(** protectclass.py 17-63 *)
Definition body_protectclass : list stmt :=
  [SFrom "checker" "Checker" "Checker"; SFrom "checker" "CheckerPublic" "CheckerPublic"; SFrom
   "checker" "defineChecker" "defineChecker"; SFrom "checker" "getCheckerForInstancesOf"
   "getCheckerForInstancesOf"; SFrom "interfaces" "PUBLIC_PERMISSION_NAME" "zope_Public"; SBind
   ["protectName"; "protectSetAttribute"; "protectLikeUnto"]].

(** permission.py 16-80 *)
Definition body_permission : list stmt :=
  [SBind ["__docformat__"]; SForeign "zope.component"; SFrom "checker" "CheckerPublic"
   "CheckerPublic"; SFrom "interfaces" "PUBLIC_PERMISSION_NAME" "zope_Public"; SFrom
   "interfaces" "IPermission" "IPermission"; SBind ["Permission"; "checkPermission";
   "allPermissions"; "PermissionsVocabulary"; "PermissionIdsVocabulary"]].

(** zcml.py 16-119 *)
Definition body_zcml : list stmt :=
  [SBind ["__docformat__"]; SForeign "zope.configuration.fields"; SFrom "_compat"
   "implementer_if_needed" "implementer_if_needed"; SFrom "interfaces" "PUBLIC_PERMISSION_NAME"
   "zope_Public"; SFrom "management" "setSecurityPolicy" "setSecurityPolicy"; SFrom "permission"
   "checkPermission" "checkPermission"; SBind ["Permission"; "ISecurityPolicyDirective";
   "securityPolicy"; "IPermissionDirective"; "permission"; "IRedefinePermission";
   "redefinePermission"]].

(** metadirectives.py 16-187 *)
Definition body_metadirectives : list stmt :=
  [SBind ["__docformat__"]; SForeign "zope.configuration.fields"; SImport "zcml"; SFrom "i18n"
   "ZopeMessageFactory" "_"; SFrom "zcml" "Permission" "Permission"; SBind ["IClassDirective";
   "IImplementsSubdirective"; "IRequireSubdirective"; "IAllowSubdirective";
   "IFactorySubdirective"; "IModule"; "IAllow"; "IRequire"]].

(** metaconfigure.py 16-224 *)
Definition body_metaconfigure : list stmt :=
  [SBind ["__docformat__"]; SForeign "zope.component.factory"; SForeign
   "zope.component.interface"; SForeign "zope.component.interfaces"; SForeign
   "zope.component.zcml"; SForeign "zope.configuration.exceptions"; SFrom "checker" "Checker"
   "Checker"; SFrom "checker" "CheckerPublic" "CheckerPublic"; SFrom "checker" "defineChecker"
   "defineChecker"; SFrom "checker" "moduleChecker" "moduleChecker"; SFrom "interfaces"
   "PUBLIC_PERMISSION_NAME" "PublicPermission"; SFrom "protectclass" "protectLikeUnto"
   "protectLikeUnto"; SFrom "protectclass" "protectName" "protectName"; SFrom "protectclass"
   "protectSetAttribute" "protectSetAttribute"; SBind ["dottedName";
   "ProtectionDeclarationException"; "ClassDirective"; "protectModule"; "_names"; "allow";
   "require"]].

(** testing.py 21-91 *)
Definition body_testing : list stmt :=
  [SImport "management"; SForeign "zope.component"; SFrom "" "interfaces" "interfaces"; SFrom
   "interfaces" "PUBLIC_PERMISSION_NAME" "PUBLIC_PERMISSION_NAME"; SFrom "permission"
   "Permission" "Permission"; SBind ["Principal"; "Participation"; "addCheckerPublic";
   "create_interaction"; "interaction"]].

(** _proxy.c 851-953: nothing of the package is imported. *)
Definition body__proxy : list stmt := [].
(** What it defines. *)
Definition exports_proxy : list string := ["_Proxy"; "getChecker"; "getObject"].

(** _zope_security_checker.c 609-655 *)
Definition body__zope_security_checker : list stmt :=
  [SFrom "_proxy" "_Proxy" "Proxy"; SFrom "_definitions" "thread_local" "thread_local";
   SFrom "interfaces" "ForbiddenAttribute" "ForbiddenAttribute";
   SFrom "interfaces" "Unauthorized" "Unauthorized"; SFrom "checker" "CheckerPublic" "CheckerPublic"].
Definition exports_checker : list string :=
  ["selectChecker"; "_checkers"; "NoProxy"; "_defaultChecker"; "_available_by_default"; "Checker"].

(** A module of the package, or the object that one execution of a definition has made. *)
Inductive value : Type :=
| VMod (m : string)
| VObj (stamp : nat).

Definition names := list (string * value).

(** [mods]: sys.modules, with the names each module has so far.  [clock]: number of objects
    made so far.  [takes]: who took which name from which module, and what it got.  [patched]:
    does LocationProxy have the descriptor.  [running], [completed]: initialisations of
    _zope_security_checker.  [nested]: has one begun while another was running. *)
Record st := mkSt {
  mods : list (string * names); clock : nat; takes : list (string * string * string * value);
  patched : bool; running : nat; completed : nat; nested : bool }.

Definition start : st := mkSt [] 0 [] false 0 0 false.

Fixpoint lookup {A : Type} (m : string) (l : list (string * A)) : option A :=
  match l with
  | [] => None
  | (k, v) :: l' => if String.eqb m k then Some v else lookup m l'
  end.
(** Is the module in sys.modules. *)
Definition known (m : string) (s : st) : bool :=
  match lookup m (mods s) with Some _ => true | None => false end.
(** The attribute [n] of the module. *)
Definition val (m n : string) (s : st) : option value :=
  match lookup m (mods s) with Some l => lookup n l | None => None end.

Definition set_mods (l : list (string * names)) (s : st) : st :=
  mkSt l (clock s) (takes s) (patched s) (running s) (completed s) (nested s).
Definition add_module (m : string) (l : names) (s : st) : st := set_mods ((m, l) :: mods s) s.
Definition remove_module (m : string) (s : st) : st :=
  set_mods (filter (fun e => negb (String.eqb m (fst e))) (mods s)) s.
(** A name of a module gets a value (extension modules that are not in sys.modules yet keep what
    they import in static variables). *)
Definition bind (m n : string) (v : value) (s : st) : st :=
  set_mods (map (fun e => if String.eqb m (fst e) then (fst e, (n, v) :: snd e) else e) (mods s)) s.
(** A new object. *)
Definition tick (s : st) : st :=
  mkSt (mods s) (S (clock s)) (takes s) (patched s) (running s) (completed s) (nested s).
Fixpoint define (m : string) (l : list string) (s : st) : st :=
  match l with
  | [] => s
  | n :: l' => define m l' (bind m n (VObj (clock s)) (tick s))
  end.
Definition took (m t n : string) (v : value) (s : st) : st :=
  mkSt (mods s) (clock s) ((m, t, n, v) :: takes s) (patched s) (running s) (completed s) (nested s).
Definition patch (s : st) : st :=
  mkSt (mods s) (clock s) (takes s) true (running s) (completed s) (nested s).

Section Import.
  (** Are PURE_PYTHON and WATCH_CHECKERS set; which extension modules are there. *)
  Variables pure watch : bool.
  Variables has_proxy has_checker : bool.
  (** What modules of other packages take from this package (directly or by importing further
      modules of other packages). *)
  Variable foreign : string -> list (string * string).
  (** The text of the package's __init__.py. *)
  Variable package : list stmt.

  Definition body (m : string) : list stmt :=
    if String.eqb m "" then package
    else if String.eqb m "_compat" then body_compat
    else if String.eqb m "_definitions" then body_definitions
    else if String.eqb m "i18n" then body_i18n
    else if String.eqb m "interfaces" then body_interfaces
    else if String.eqb m "proxy" then body_proxy
    else if String.eqb m "checker" then body_checker
    else if String.eqb m "decorator" then body_decorator
    else if String.eqb m "simplepolicies" then body_simplepolicies
    else if String.eqb m "management" then body_management
    else if String.eqb m "adapter" then body_adapter
    else if String.eqb m "protectclass" then body_protectclass
    else if String.eqb m "permission" then body_permission
    else if String.eqb m "zcml" then body_zcml
    else if String.eqb m "metadirectives" then body_metadirectives
    else if String.eqb m "metaconfigure" then body_metaconfigure
    else if String.eqb m "testing" then body_testing
    else if String.eqb m "_proxy" then body__proxy
    else if String.eqb m "_zope_security_checker" then body__zope_security_checker
    else map (fun e => SFrom (fst e) (snd e) (snd e)) (foreign m).

  Definition is_ext (m : string) : bool := String.eqb m "_proxy" || String.eqb m "_zope_security_checker".
  Definition available (m : string) : bool := if String.eqb m "_proxy" then has_proxy else has_checker.
  Definition exports (m : string) : list string := if String.eqb m "_proxy" then exports_proxy else exports_checker.
  (** Modules of other packages. *)
  Definition is_foreign (m : string) : bool := prefix "zope." m.

  Definition begin_init (m : string) (s : st) : st :=
    if String.eqb m "_zope_security_checker"
    then mkSt (mods s) (clock s) (takes s) (patched s) (S (running s)) (completed s)
           (nested s || negb (Nat.eqb (running s) 0))
    else s.
  Definition end_init (m : string) (ok : bool) (s : st) : st :=
    if String.eqb m "_zope_security_checker"
    then mkSt (mods s) (clock s) (takes s) (patched s) (running s - 1)
           (if ok then S (completed s) else completed s) (nested s)
    else s.

  (** A result is whether no exception is raised, and the state; [None]: too deep. *)
  Definition result := option (bool * st).
  Definition then_ (r : result) (f : st -> result) : result :=
    match r with
    | Some (true, s) => f s
    | _ => r
    end.

  Section Run.
    Variable imp : string -> st -> result.
    (** from zope.security.t import n as a, in [m]; if the package has no such name, a submodule
        is meant. *)
    Definition take (m t n a : string) (s : st) : result :=
      then_ (imp t s) (fun s1 =>
        match val t n s1 with
        | Some v => Some (true, bind m a v (took m t n v s1))
        | None =>
            if String.eqb t ""
            then then_ (imp n s1) (fun s2 => Some (true, bind m a (VMod n) (took m t n (VMod n) s2)))
            else Some (false, s1)
        end).
    Fixpoint take_all (m t : string) (l : list (string * string)) (s : st) : result :=
      match l with
      | [] => Some (true, s)
      | (n, a) :: l' => then_ (take m t n a s) (take_all m t l')
      end.
    (** n = o, for names of the module itself; NameError if there is no [o]. *)
    Fixpoint alias (m : string) (l : list (string * string)) (s : st) : result :=
      match l with
      | [] => Some (true, s)
      | (n, o) :: l' => match val m o s with
                        | Some v => alias m l' (bind m n v s)
                        | None => Some (false, s)
                        end
      end.
    Definition exec (m : string) (x : stmt) (s : st) : result :=
      match x with
      | SImport t => imp t s
      | SFrom t n a => take m t n a s
      | SBind l => Some (true, define m l s)
      | SAlias w l => if w && negb watch then Some (true, s) else alias m l s
      | SForeign p => imp p s
      | SPatch => Some (true, patch s)
      | SExt t l =>
          if pure then Some (true, s)
          else match imp t s with
               | None => None
               | Some (false, s1) => Some (true, s1)
               | Some (true, s1) => take_all m t l s1
               end
      end.
    Fixpoint run (m : string) (l : list stmt) (s : st) : result :=
      match l with
      | [] => Some (true, s)
      | x :: l' => then_ (exec m x s) (run m l')
      end.
  End Run.

  (** Importing a module: nothing if it is in sys.modules; else the package is imported first
      (which may import the module).  Python modules are entered into sys.modules before
      their text is executed, and removed again if that fails; extension modules afterwards.
      A submodule becomes a name in the package. *)
  Fixpoint imp (fuel : nat) (m : string) (s : st) : result :=
    match fuel with
    | O => None
    | S f =>
        if known m s then Some (true, s)
        else
          then_ (if String.eqb m "" || is_foreign m then Some (true, s) else imp f "" s) (fun s1 =>
            if known m s1 then Some (true, s1)
            else if is_ext m then
              if available m then
                match run (imp f) m (body m) (begin_init m s1) with
                | None => None
                | Some (false, s2) => Some (false, end_init m false s2)
                | Some (true, s2) =>
                    Some (true, bind "" m (VMod m)
                                  (define m (exports m) (add_module m [] (end_init m true s2))))
                end
              else Some (false, s1)
            else
              match run (imp f) m (body m) (add_module m [] s1) with
              | None => None
              | Some (true, s2) =>
                  Some (true, if String.eqb m "" || is_foreign m then s2 else bind "" m (VMod m) s2)
              | Some (false, s2) => Some (false, remove_module m s2)
              end)
    end.

  (** A program's import statements, one after the other, with their outcomes; those that fail
      are passed over. *)
  Fixpoint imports (fuel : nat) (l : list string) (s : st) : option (list bool * st) :=
    match l with
    | [] => Some ([], s)
    | m :: l' => match imp fuel m s with
                 | None => None
                 | Some (ok, s1) =>
                     match imports fuel l' s1 with
                     | None => None
                     | Some (oks, s2) => Some (ok :: oks, s2)
                     end
                 end
    end.
End Import.
