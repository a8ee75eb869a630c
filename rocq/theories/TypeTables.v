(** * TypeTables: which function of the package stands behind which operation.

    The type tables of _proxy.c and _zope_security_checker.c, as positional initialisers of the
    structs of the C API, and the class dictionary of ProxyPy as its loops build it.  What the
    tables leave open comes from the base class, which belongs to zope.proxy and is arbitrary
    here. *)

From Coq Require Import List String Bool Arith ZArith.
From Verif Require CExt.
Import ListNotations.
Open Scope string_scope.

Definition field := string.
Definition fn := string.

(** ** The structs of the C API (Include/cpython/object.h, the same in all versions of Python 3
    as far as listed; tp_print and tp_reserved have newer names). *)

Definition PyNumberMethods : list field :=
  ["nb_add"; "nb_subtract"; "nb_multiply"; "nb_remainder"; "nb_divmod"; "nb_power";
   "nb_negative"; "nb_positive"; "nb_absolute"; "nb_bool"; "nb_invert";
   "nb_lshift"; "nb_rshift"; "nb_and"; "nb_xor"; "nb_or"; "nb_int"; "nb_reserved"; "nb_float";
   "nb_inplace_add"; "nb_inplace_subtract"; "nb_inplace_multiply"; "nb_inplace_remainder";
   "nb_inplace_power"; "nb_inplace_lshift"; "nb_inplace_rshift"; "nb_inplace_and";
   "nb_inplace_xor"; "nb_inplace_or";
   "nb_floor_divide"; "nb_true_divide"; "nb_inplace_floor_divide"; "nb_inplace_true_divide";
   "nb_index"; "nb_matrix_multiply"; "nb_inplace_matrix_multiply"].
Definition PySequenceMethods : list field :=
  ["sq_length"; "sq_concat"; "sq_repeat"; "sq_item"; "was_sq_slice"; "sq_ass_item";
   "was_sq_ass_slice"; "sq_contains"; "sq_inplace_concat"; "sq_inplace_repeat"].
Definition PyMappingMethods : list field := ["mp_length"; "mp_subscript"; "mp_ass_subscript"].
(** From tp_dealloc on; the names of nested tables, flags and texts are fields too. *)
Definition PyTypeObject : list field :=
  ["tp_dealloc"; "tp_print"; "tp_getattr"; "tp_setattr"; "tp_reserved"; "tp_repr";
   "tp_as_number"; "tp_as_sequence"; "tp_as_mapping"; "tp_hash"; "tp_call"; "tp_str";
   "tp_getattro"; "tp_setattro"; "tp_as_buffer"; "tp_flags"; "tp_doc"; "tp_traverse"; "tp_clear";
   "tp_richcompare"; "tp_weaklistoffset"; "tp_iter"; "tp_iternext"; "tp_methods"; "tp_members";
   "tp_getset"; "tp_base"; "tp_dict"; "tp_descr_get"; "tp_descr_set"; "tp_dictoffset"; "tp_init";
   "tp_alloc"; "tp_new"; "tp_free"; "tp_is_gc"].

(** An initialiser gives the fields in their order; what is not given is NULL. *)
Fixpoint fill (layout : list field) (inits : list (option fn)) (f : field) : option fn :=
  match layout, inits with
  | x :: layout', i :: inits' => if String.eqb f x then i else fill layout' inits' f
  | _, _ => None
  end.

(** ** _proxy.c: 684-764, 767-809 *)

(** 684-725 *)
Definition proxy_as_number : list (option fn) :=
  [Some "proxy_add"; Some "proxy_sub"; Some "proxy_mul"; Some "proxy_mod"; Some "proxy_divmod";
   Some "proxy_pow"; Some "proxy_neg"; Some "proxy_pos"; Some "proxy_abs"; Some "proxy_bool";
   Some "proxy_invert"; Some "proxy_lshift"; Some "proxy_rshift"; Some "proxy_and";
   Some "proxy_xor"; Some "proxy_or"; Some "proxy_int"; None; Some "proxy_float";
   Some "proxy_iadd"; Some "proxy_isub"; Some "proxy_imul"; Some "proxy_imod"; Some "proxy_ipow";
   Some "proxy_ilshift"; Some "proxy_irshift"; Some "proxy_iand"; Some "proxy_ixor";
   Some "proxy_ior"; Some "proxy_floordiv"; Some "proxy_truediv"; Some "proxy_ifloordiv";
   Some "proxy_itruediv"].
(** 727-737 *)
Definition proxy_as_sequence : list (option fn) :=
  [Some "proxy_length"; None; None; Some "proxy_igetitem"; None; Some "proxy_isetitem"; None;
   Some "proxy_contains"].
(** 739-744 *)
Definition proxy_as_mapping : list (option fn) :=
  [Some "proxy_length"; Some "proxy_getitem"; Some "proxy_setitem"].
(** 760-764: the sentinel ends the list. *)
Definition proxy_methods : list (string * fn) := [("__length_hint__", "proxy_length_hint")].
(** 767-809 *)
Definition SecurityProxyType : list (option fn) :=
  [Some "proxy_dealloc"; None; None; None; None; Some "proxy_repr";
   Some "&proxy_as_number"; Some "&proxy_as_sequence"; Some "&proxy_as_mapping";
   Some "proxy_hash"; Some "proxy_call"; Some "proxy_str"; Some "proxy_getattro";
   Some "proxy_setattro"; None; Some "DEFAULT|HAVE_GC|BASETYPE"; Some "proxy_doc";
   Some "proxy_traverse"; None; Some "proxy_richcompare"; None; Some "proxy_iter";
   Some "proxy_iternext"; Some "proxy_methods"; None; None; None; None; None; None; None;
   Some "proxy_init"; None; Some "proxy_new"; None].
(** 943-945, in the initialisation of the module. *)
Definition at_init (f : field) : option fn :=
  if String.eqb f "tp_alloc" then Some "PyType_GenericAlloc"
  else if String.eqb f "tp_free" then Some "PyObject_GC_Del"
  else if String.eqb f "tp_base" then Some "&ProxyType" else None.

Definition mem (x : string) (l : list string) : bool := existsb (String.eqb x) l.

(** The first entry of an association list. *)
Fixpoint assoc {A} (l : list (string * A)) (k : string) : option A :=
  match l with
  | [] => None
  | (x, a) :: l' => if String.eqb k x then Some a else assoc l' k
  end.

(** The nested tables by their addresses; a field of one is looked up behind the pointer in the
    type's table. *)
Definition proxy_tables : list (fn * list (option fn)) :=
  [("&proxy_as_number", proxy_as_number); ("&proxy_as_sequence", proxy_as_sequence);
   ("&proxy_as_mapping", proxy_as_mapping)].
Definition nested (pointer : field) (layout : list field) (f : field) : option fn :=
  match fill PyTypeObject SecurityProxyType pointer with
  | Some t => match assoc proxy_tables t with Some inits => fill layout inits f | None => None end
  | None => None
  end.

(** The fields of the type and of its tables as _proxy.c leaves them. *)
Definition proxy_own (f : field) : option fn :=
  if mem f PyNumberMethods then nested "tp_as_number" PyNumberMethods f
  else if mem f PySequenceMethods then nested "tp_as_sequence" PySequenceMethods f
  else if mem f PyMappingMethods then nested "tp_as_mapping" PyMappingMethods f
  else match at_init f with
       | Some g => Some g
       | None => fill PyTypeObject SecurityProxyType f
       end.

(** PyType_Ready (CPython, typeobject.c inherit_special and inherit_slots): a NULL field of the
    type gets the base's value; tp_traverse and tp_clear only if the type did not ask for garbage
    collection itself, tp_hash and tp_richcompare only together, as tp_getattr with tp_getattro
    and tp_setattr with tp_setattro; methods, members, attributes, dict and doc are the type's
    own. *)
Definition is_null (o : option fn) : bool := match o with None => true | Some _ => false end.
Definition inherit (gc : bool) (own base : field -> option fn) (f : field) : option fn :=
  match own f with
  | Some g => Some g
  | None =>
      if mem f ["tp_traverse"; "tp_clear"] then
        if gc then None
        else if is_null (own "tp_traverse") && is_null (own "tp_clear") then base f else None
      else if mem f ["tp_hash"; "tp_richcompare"] then
        if is_null (own "tp_hash") && is_null (own "tp_richcompare") then base f else None
      else if mem f ["tp_getattr"; "tp_getattro"] then
        if is_null (own "tp_getattr") && is_null (own "tp_getattro") then base f else None
      else if mem f ["tp_setattr"; "tp_setattro"] then
        if is_null (own "tp_setattr") && is_null (own "tp_setattro") then base f else None
      else if mem f ["tp_methods"; "tp_members"; "tp_getset"; "tp_dict"; "tp_doc"] then None
      else base f
  end.
Definition proxy_type (base : field -> option fn) : field -> option fn := inherit true proxy_own base.

(** ** Strings: 868-929 with the macros 863-866 *)

(** INIT_STRING(S): str_S is "S"; INIT_STRING_OP(S): str_op_S is "__S__". *)
Definition INIT_STRING (s : string) : string * string := ("str_" ++ s, s).
Definition INIT_STRING_OP (s : string) : string * string := ("str_op_" ++ s, "__" ++ s ++ "__").
Definition strings : list (string * string) :=
  (map INIT_STRING
    ["__3pow__"; "__bool__"; "__call__"; "check"; "check_getattr"; "check_setattr"; "__cmp__";
     "__contains__"; "__delitem__"; "__getitem__"; "__hash__"; "__iter__"; "__len__"; "__next__"] ++
   map INIT_STRING_OP
    ["abs"; "add"; "and"; "divmod"; "float"; "floordiv"; "iadd"; "iand"; "ifloordiv"; "ilshift";
     "imod"; "imul"; "int"; "invert"; "ior"; "ipow"; "irshift"; "isub"; "itruediv"; "ixor";
     "lshift"; "mod"; "mul"; "neg"; "or"; "pos"; "radd"; "rand"; "rdivmod"; "rfloordiv"; "rlshift";
     "rmod"; "rmul"; "ror"; "rrshift"; "rshift"; "rsub"; "rtruediv"; "rxor"; "sub"; "truediv"; "xor"] ++
   map INIT_STRING ["__pow__"; "proxy"; "__repr__"; "__rpow__"; "__setitem__"; "__str__"])%list.
(** A variable that is declared (48-109) but not set is NULL. *)
Definition str (v : string) : string := match assoc strings v with Some s => s | None => "NULL" end.

(** ** What the functions do: whom they ask, and what they call on which operand's object. *)

Inductive operand := Self | Other | Third.
Inductive step :=
| Asked (who : operand) (meth name : string)
| Did (who : operand) (api : string).

(** How a slot is called: which operands are proxies; is the value NULL (deletion); the name of
    the attribute; what the checkers grant. *)
Record ctx := mkCtx {
  cx_proxy : operand -> bool;
  cx_delete : bool;
  cx_attr : string;
  cx_ok : operand -> string -> string -> bool }.

Definition guard (c : ctx) (who : operand) (meth name api : string) : list step :=
  Asked who meth name :: if cx_ok c who meth name then [Did who api] else [].

(** check1, 177-187; check2, 189-221; check2i, 223-244 *)
Definition check1 (name api : string) (c : ctx) : list step := guard c Self (str "str_check") name api.
Definition check2 (name rname api : string) (c : ctx) : list step :=
  if cx_proxy c Self then guard c Self (str "str_check") name api
  else if cx_proxy c Other then guard c Other (str "str_check") rname api
  else [].
Definition check2i (name api : string) (c : ctx) : list step := guard c Self (str "str_check") name api.

(** 246-256 *)
Definition UNOP (n call : string) : fn * (ctx -> list step) :=
  ("proxy_" ++ n, check1 (str ("str_op_" ++ n)) call).
Definition BINOP (n call : string) : fn * (ctx -> list step) :=
  ("proxy_" ++ n, check2 (str ("str_op_" ++ n)) (str ("str_op_r" ++ n)) call).
Definition INPLACE (n call : string) : fn * (ctx -> list step) :=
  ("proxy_i" ++ n, check2i (str ("str_op_i" ++ n)) call).

(** 506-544 *)
Definition proxy_pow (c : ctx) : list step :=
  if cx_proxy c Self then guard c Self (str "str_check") (str "str___pow__") "PyNumber_Power"
  else if cx_proxy c Other then guard c Other (str "str_check") (str "str___rpow__") "PyNumber_Power"
  else if cx_proxy c Third then guard c Third (str "str_check") (str "str___3pow__") "PyNumber_Power"
  else [].
(** 422-452: after a refusal the text names the class, see C20 *)
Definition proxy_text (name api : string) (c : ctx) : list step := guard c Self (str "str_check") name api.
(** 666-678 *)
Definition proxy_setitem (c : ctx) : list step :=
  if cx_delete c then guard c Self (str "str_check") (str "str___delitem__") "PyObject_DelItem"
  else guard c Self (str "str_check") (str "str___setitem__") "PyObject_SetItem".
Definition proxy_getitem (c : ctx) : list step :=
  guard c Self (str "str_check") (str "str___getitem__") "PyObject_GetItem".

(** All functions of the tables: 263-381, 422-471, 499-580 (macros), 586-678.  Those that construct,
    destroy and traverse proxies (263-322) do nothing with the object itself. *)
Definition functions : list (fn * (ctx -> list step)) :=
  [BINOP "add" "PyNumber_Add"; BINOP "sub" "PyNumber_Subtract"; BINOP "mul" "PyNumber_Multiply";
   BINOP "mod" "PyNumber_Remainder"; BINOP "divmod" "PyNumber_Divmod";
   ("proxy_pow", proxy_pow);
   BINOP "lshift" "PyNumber_Lshift"; BINOP "rshift" "PyNumber_Rshift"; BINOP "and" "PyNumber_And";
   BINOP "xor" "PyNumber_Xor"; BINOP "or" "PyNumber_Or";
   UNOP "neg" "PyNumber_Negative"; UNOP "pos" "PyNumber_Positive"; UNOP "abs" "PyNumber_Absolute";
   ("proxy_bool", fun _ => [Did Self "PyObject_IsTrue"]);
   UNOP "invert" "PyNumber_Invert"; UNOP "int" "call_int"; UNOP "float" "call_float";
   INPLACE "add" "PyNumber_InPlaceAdd"; INPLACE "sub" "PyNumber_InPlaceSubtract";
   INPLACE "mul" "PyNumber_InPlaceMultiply"; INPLACE "mod" "PyNumber_InPlaceRemainder";
   INPLACE "pow" "call_ipow"; INPLACE "lshift" "PyNumber_InPlaceLshift";
   INPLACE "rshift" "PyNumber_InPlaceRshift"; INPLACE "and" "PyNumber_InPlaceAnd";
   INPLACE "xor" "PyNumber_InPlaceXor"; INPLACE "or" "PyNumber_InPlaceOr";
   BINOP "floordiv" "PyNumber_FloorDivide"; BINOP "truediv" "PyNumber_TrueDivide";
   INPLACE "floordiv" "PyNumber_InPlaceFloorDivide"; INPLACE "truediv" "PyNumber_InPlaceTrueDivide";
   ("proxy_richcompare", fun _ => [Did Self "PyObject_RichCompare"]);
   ("proxy_iter", fun c => guard c Self (str "str_check") (str "str___iter__") "PyObject_GetIter");
   ("proxy_iternext", fun c => guard c Self (str "str_check_getattr") (str "str___next__") "PyIter_Next");
   ("proxy_getattro", fun c => guard c Self (str "str_check_getattr") (cx_attr c) "PyObject_GetAttr");
   ("proxy_setattro", fun c => guard c Self (str "str_check_setattr") (cx_attr c) "PyObject_SetAttr");
   ("proxy_str", proxy_text (str "str___str__") "PyObject_Str");
   ("proxy_repr", proxy_text (str "str___repr__") "PyObject_Repr");
   ("proxy_hash", fun _ => [Did Self "PyObject_Hash"]);
   ("proxy_call", fun c => guard c Self (str "str_check") (str "str___call__") "PyObject_Call");
   ("proxy_length", fun c => guard c Self (str "str_check") (str "str___len__") "PyObject_Length");
   ("proxy_length_hint", fun _ => [Did Self "__length_hint__"]);
   ("proxy_igetitem", proxy_getitem);
   ("proxy_isetitem", proxy_setitem);
   ("proxy_contains", fun c => guard c Self (str "str_check") (str "str___contains__") "PySequence_Contains");
   ("proxy_getitem", proxy_getitem);
   ("proxy_setitem", proxy_setitem);
   ("proxy_dealloc", fun _ => []); ("proxy_traverse", fun _ => []); ("proxy_init", fun _ => []);
   ("proxy_new", fun _ => [])].

(** A slot is called.  What functions of the base do is [other]. *)
Definition run (other : fn -> ctx -> list step) (g : fn) (c : ctx) : list step :=
  match assoc functions g with Some b => b c | None => other g c end.
Definition call_slot (base : field -> option fn) (other : fn -> ctx -> list step) (f : field) (c : ctx)
  : option (list step) :=
  option_map (fun g => run other g c) (proxy_type base f).

(** ** _zope_security_checker.c: 430-434, 318-335, 438-481 *)

Definition Checker_as_mapping : list (option fn) := [None; Some "Checker_proxy"; Some "Checker_check_int"].
Definition Checker_methods : list (string * fn) :=
  [("permission_id", "Checker_permission_id"); ("setattr_permission_id", "Checker_setattr_permission_id");
   ("check_getattr", "Checker_check"); ("check_setattr", "Checker_check_setattr");
   ("check", "Checker_check"); ("proxy", "Checker_proxy")].
Definition CheckerType : list (option fn) :=
  [Some "Checker_dealloc"; None; None; None; None; None; None; None; Some "&Checker_as_mapping";
   None; None; None; None; None; None; Some "DEFAULT|BASETYPE|HAVE_GC"; Some "Security checker";
   Some "Checker_traverse"; Some "Checker_clear"; None; None; None; None; Some "Checker_methods";
   None; Some "Checker_getset"; None; None; None; None; None; Some "Checker_init"].

(** The type's fields; the table of the mapping protocol is found behind its pointer. *)
Definition checker_own (f : field) : option fn :=
  if mem f PyMappingMethods then
    match fill PyTypeObject CheckerType "tp_as_mapping" with
    | Some t => if String.eqb t "&Checker_as_mapping" then fill PyMappingMethods Checker_as_mapping f else None
    | None => None
    end
  else if mem f PyNumberMethods || mem f PySequenceMethods then None
  else if String.eqb f "tp_new" then Some "PyType_GenericNew"
  else fill PyTypeObject CheckerType f.
(** _zope_security_checker.c 579-580 (with tp_new above): the base is [object]. *)
Definition checker_type (base : field -> option fn) : field -> option fn := inherit true checker_own base.
(** Asking a C checker for a method: the type's methods. *)
Definition checker_method (m : string) : option fn :=
  match checker_own "tp_methods" with
  | Some t => if String.eqb t "Checker_methods" then assoc Checker_methods m else None
  | None => None
  end.

(** [checker[object] = name] and [del checker[object]], for which the interpreter passes NULL as
    name: the slot mp_ass_subscript is 139-198 and 430-434, which looks NULL up in the table or, without a
    table, at its type.  What happens after that is anyone's guess. *)
Section Checker.
  Import CExt.
  Variable oracle : nat -> answer.
  Variable args : list obj.
  Variables is_str char0 char1 is_iter : obj -> bool.
  Definition Checker_ass_subscript (self object : obj) (name : ptr) : C Z :=
    match name with
    | Some n => Checker_check_int oracle args is_str char0 char1 is_iter self object n
    | None =>
        t <- get1 args self ;;
        match t with
        | Some _ => _ <- PyDict_GetItem oracle args t None ;; ret (-1)%Z
        | None => _ <- deref args None ;; ret (-1)%Z
        end
    end.
End Checker.

(** ** proxy.py: 27-55, 82-254, 257-336 *)

(** An entry of the class ProxyPy: written in the class body, or made by one of the two
    decorators from a method of the base. *)
Inductive pyentry :=
| PyBody (asks : ctx -> list step)
| PyCheckName (meth : string) (wrap : bool)
| PyCheckInplace (meth : string).

(** 257-314 *)
Definition py_checked : list string :=
  ["__call__"; "__reduce__"; "__reduce_ex__"; "__getitem__"; "__setitem__"; "__delitem__"; "__iter__";
   "__next__"; "__contains__"; "__neg__"; "__pos__"; "__abs__"; "__invert__"; "__complex__"; "__int__";
   "__float__"; "__index__"; "__add__"; "__sub__"; "__mul__"; "__truediv__"; "__floordiv__"; "__mod__";
   "__divmod__"; "__pow__"; "__radd__"; "__rsub__"; "__rmul__"; "__rtruediv__"; "__rfloordiv__"; "__rmod__";
   "__rdivmod__"; "__rpow__"; "__lshift__"; "__rshift__"; "__and__"; "__xor__"; "__or__"; "__rlshift__";
   "__rrshift__"; "__rand__"; "__rxor__"; "__ror__"].
(** 316-320 *)
Definition py_unwrapped : list string := ["__len__"].
(** 322-336 *)
Definition py_inplace : list string :=
  ["__iadd__"; "__isub__"; "__imul__"; "__itruediv__"; "__ifloordiv__"; "__imod__"; "__ilshift__";
   "__irshift__"; "__iand__"; "__ixor__"; "__ior__"; "__ipow__"].

(** The slots of the class, which only its own code gets at (see C17, C29): not an operation on the
    object. *)
Definition private : list string := ["_wrapped"; "_checker"].
(** 82-254: the class body.  A refused str() or repr() shows the class, as in C. *)
Definition py_body : list (string * pyentry) :=
  [("__new__", PyBody (fun _ => [])); ("__init__", PyBody (fun _ => []));
   ("__getattribute__", PyBody (fun c =>
      if mem (cx_attr c) private then []
      else if mem (cx_attr c) ["__cmp__"; "__hash__"; "__bool__"; "__lt__"; "__le__"; "__eq__"; "__ne__";
                          "__ge__"; "__gt__"]
      then [Did Self "getattr"] else guard c Self "check_getattr" (cx_attr c) "getattr"));
   ("__getattr__", PyBody (fun c => [Asked Self "check_getattr" (cx_attr c)]));
   ("__setattr__", PyBody (fun c =>
      if mem (cx_attr c) private then [] else guard c Self "check_setattr" (cx_attr c) "setattr"));
   ("__delattr__", PyBody (fun c =>
      if mem (cx_attr c) private then [] else guard c Self "check_setattr" (cx_attr c) "delattr"));
   ("__lt__", PyBody (fun _ => [Did Self "<"])); ("__le__", PyBody (fun _ => [Did Self "<="]));
   ("__eq__", PyBody (fun _ => [Did Self "=="])); ("__ne__", PyBody (fun _ => [Did Self "!="]));
   ("__ge__", PyBody (fun _ => [Did Self ">="])); ("__gt__", PyBody (fun _ => [Did Self ">"]));
   ("__hash__", PyBody (fun _ => [Did Self "hash"])); ("__bool__", PyBody (fun _ => [Did Self "bool"]));
   ("__length_hint__", PyBody (fun _ => [Did Self "__length_hint__"]));
   ("__str__", PyCheckName "__str__" true); ("__repr__", PyCheckName "__repr__" true)].

(** [getattr(PyProxyBase, name)] must exist; [setattr] replaces. *)
Definition set_entry (base : string -> option string) (mk : string -> pyentry)
  (d : option (list (string * pyentry))) (n : string) : option (list (string * pyentry)) :=
  match d, base n with
  | Some d, Some meth => Some ((n, mk meth) :: d)
  | _, _ => None
  end.
(** [base n]: the [__name__] of the base's method [n], if there is one. *)
Definition ProxyPy_dict (base : string -> option string) : option (list (string * pyentry)) :=
  let d := fold_left (set_entry base (fun m => PyCheckName m true)) py_checked (Some py_body) in
  let d := fold_left (set_entry base (fun m => PyCheckName m false)) py_unwrapped d in
  fold_left (set_entry base PyCheckInplace) py_inplace d.

(** 27-55: [name = meth.__name__].  What the base's method does is to apply the operation to the
    wrapped object. *)
Definition run_entry (e : pyentry) (c : ctx) : list step :=
  match e with
  | PyBody b => b c
  | PyCheckName m _ => guard c Self "check" m m
  | PyCheckInplace m => guard c Self "check" m m
  end.
(** A special method of the type: the class's own or the base's, which is not the package's. *)
Definition call_special (d : list (string * pyentry)) (n : string) (c : ctx) : option (list step) :=
  option_map (fun e => run_entry e c) (assoc d n).
