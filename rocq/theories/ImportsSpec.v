(** * ImportsSpec: what importing the modules of the package has to achieve. *)

From Coq Require Import List String Bool Arith.
From Verif Require Import Imports.
Import ListNotations.
Open Scope string_scope.

(** The modules which the package's __init__.py imports, directly or indirectly. *)
Definition core : list string :=
  [""; "_compat"; "_definitions"; "i18n"; "interfaces"; "proxy"; "checker"; "decorator";
   "simplepolicies"; "management"].
(** The other Python modules. *)
Definition outer : list string :=
  ["adapter"; "protectclass"; "permission"; "zcml"; "metadirectives"; "metaconfigure"; "testing"].
Definition extensions : list string := ["_proxy"; "_zope_security_checker"].

(** The names that a statement gives to its module, in every configuration. *)
Definition promised (x : stmt) : list string :=
  match x with
  | SFrom _ _ a => [a]
  | SBind l => l
  | SAlias false l => map fst l
  | _ => []
  end.

(** The modules that a statement imports. *)
Definition targets (x : stmt) : list string :=
  match x with
  | SImport t => [t]
  | SFrom t _ _ => [t]
  | SForeign p => [p]
  | SExt t _ => [t]
  | _ => []
  end.

Section Spec.
  Variable foreign : string -> list (string * string).
  Notation text := (body foreign body_package).

  (** The names a module must have once it is imported. *)
  Definition all_names (m : string) : list string :=
    if is_ext m then exports m else flat_map promised (text m).

  (** The module is there with all its names. *)
  Definition complete (m : string) (s : st) : Prop :=
    known m s = true /\ forall n, In n (all_names m) -> val m n s <> None.

  (** Outside the core there are no cycles: every module has a rank, and imports only the core
      and modules of lower rank.  Other packages ask only for names that exist. *)
  Definition layered (rank : string -> nat) : Prop :=
    (forall m x t, In m outer -> In x (text m) -> In t (targets x) ->
       In t core \/ rank t < rank m) /\
    (forall p t n, is_foreign p = true -> In (t, n) (foreign p) ->
       (In t core \/ In t outer /\ rank t < rank p) /\ In n (all_names t)).
End Spec.

(** Modules there are. *)
Definition valid (m : string) : Prop :=
  In m core \/ In m outer \/ In m extensions \/ is_foreign m = true.

(** Can the module be imported: extensions, if they have been compiled. *)
Definition importable (has_proxy has_checker : bool) (m : string) : bool :=
  if String.eqb m "_proxy" then has_proxy
  else if String.eqb m "_zope_security_checker" then has_proxy && has_checker
  else true.

(** Whoever took a name from a module has got what the module has under that name. *)
Definition same_objects (s : st) : Prop :=
  forall m t n v, In (m, t, n, v) (takes s) -> val t n s = Some v.

(** The names that C code and Python code share. *)
Definition shared : list string :=
  ["_checkers"; "_defaultChecker"; "_available_by_default"; "NoProxy"; "selectChecker"].

(** Names that mean the same object: a module and a name of it, another module and a name of that. *)
Definition agree (s : st) (l : list (string * string * string * string)) : Prop :=
  forall m n t o, In (m, n, t, o) l -> val m n s = val t o s /\ val m n s <> None.
(** In every process. *)
Definition aliases : list (string * string * string * string) :=
  [("proxy", "removeSecurityProxy", "proxy", "getObject"); ("checker", "getChecker", "proxy", "getChecker");
   ("checker", "Proxy", "proxy", "Proxy"); ("decorator", "Proxy", "proxy", "Proxy");
   ("decorator", "getChecker", "proxy", "getChecker");
   ("decorator", "CombinedChecker", "checker", "CombinedChecker");
   ("decorator", "selectChecker", "checker", "selectChecker");
   ("management", "_defaultPolicy", "simplepolicies", "ParanoidSecurityPolicy");
   ("management", "CheckerPublic", "checker", "CheckerPublic");
   ("simplepolicies", "CheckerPublic", "checker", "CheckerPublic");
   ("management", "thread_local", "checker", "thread_local");
   ("management", "system_user", "simplepolicies", "system_user")].
(** With ZOPE_WATCH_CHECKERS. *)
Definition watching : list (string * string * string * string) :=
  [("checker", "Checker", "checker", "WatchingChecker");
   ("checker", "CombinedChecker", "checker", "WatchingCombinedChecker")].
(** Without the C proxies. *)
Definition python_proxy : list (string * string * string * string) :=
  [("proxy", "Proxy", "proxy", "ProxyPy"); ("proxy", "getChecker", "proxy", "getCheckerPy");
   ("proxy", "getObject", "proxy", "getObjectPy")].
(** With the C proxies: a name of proxy.py, and the extension's name of it. *)
Definition c_proxy : list (string * string) :=
  [("Proxy", "_Proxy"); ("getChecker", "getChecker"); ("getObject", "getObject");
   ("removeSecurityProxy", "getObject")].
