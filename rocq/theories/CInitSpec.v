(** * CInitSpec: what the initialisation of the extensions has to achieve. *)

From Coq Require Import List String Bool Arith ZArith.
From Verif Require Import CInit.
Import ListNotations.
Open Scope string_scope.

(** The static strings declared in _proxy.c 48-109. *)
Definition declared_strings : list string :=
  ["str___3pow__"; "str___bool__"; "str___call__"; "str_check"; "str_check_getattr";
   "str_check_setattr"; "str___cmp__"; "str___contains__"; "str___delitem__"; "str___getitem__";
   "str___hash__"; "str___iter__"; "str___len__"; "str___next__"; "str_op_abs"; "str_op_add";
   "str_op_and"; "str_op_divmod"; "str_op_float"; "str_op_floordiv"; "str_op_iadd"; "str_op_iand";
   "str_op_ifloordiv"; "str_op_ilshift"; "str_op_imod"; "str_op_imul"; "str_op_int";
   "str_op_invert"; "str_op_ior"; "str_op_ipow"; "str_op_irshift"; "str_op_isub";
   "str_op_itruediv"; "str_op_ixor"; "str_op_lshift"; "str_op_mod"; "str_op_mul"; "str_op_neg";
   "str_op_or"; "str_op_pos"; "str_op_radd"; "str_op_rand"; "str_op_rdivmod"; "str_op_rfloordiv";
   "str_op_rlshift"; "str_op_rmod"; "str_op_rmul"; "str_op_ror"; "str_op_rrshift"; "str_op_rshift";
   "str_op_rsub"; "str_op_rtruediv"; "str_op_rxor"; "str_op_sub"; "str_op_truediv"; "str_op_xor";
   "str___pow__"; "str_proxy"; "str___repr__"; "str___rpow__"; "str___setitem__"; "str___str__"].

(** The text each must have: what follows "str_"; for operators, the special name. *)
Definition text_of (v : string) : string :=
  if prefix "str_op_" v then "__" ++ substring 7 (length v - 7) v ++ "__"
  else substring 4 (length v - 4) v.

(** The variable has the result of such a call. *)
Definition has_result (s : ist) (v : string) (k : call) : Prop :=
  exists o, vars s v = Some o /\ In (k, Some o) (log s).

(** Python code sees this object under this name in the module. *)
Definition exported (s : ist) (m : obj) (n : string) (o : obj) : Prop :=
  exists r, In (KAdd m n o, Some r) (log s).

(** The references that the static variables in [vs] hold. *)
Definition held (vs : list string) (s : ist) (o : obj) : Z :=
  fold_right (fun v n => ((match vars s v with Some x => if Nat.eqb o x then 1 else 0 | None => 0 end) + n)%Z)
    0%Z vs.

Definition one (x o : obj) : Z := if Nat.eqb o x then 1%Z else 0%Z.

Definition proxy_vars : list string :=
  declared_strings ++ ["__class__str"; "__name__str"; "__module__str"].

(** The variables declared in _zope_security_checker.c 16-18 and 49-51. *)
Definition checker_vars : list string :=
  ["_checkers"; "_defaultChecker"; "_available_by_default"; "NoProxy"; "Proxy"; "thread_local";
   "CheckerPublic"; "ForbiddenAttribute"; "Unauthorized"; "str_checkPermission";
   "str___Security_checker__"; "str_interaction"].

(** The attribute of the module that was imported under this name. *)
Definition from_module (s : ist) (v mname attr : string) : Prop :=
  exists m, In (KImport mname, Some m) (log s) /\ has_result s v (KGetAttr m attr).

Definition is_add (k : call) : bool := match k with KAdd _ _ _ => true | _ => false end.
