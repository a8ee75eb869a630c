(** * TypeTablesSpec: which question belongs to which operation.

    From the documentation of Python's data model and of the C API's type slots: the special
    method behind each slot, and the function of the C API that is the operation.  Nothing here
    looks at the tables of the package. *)

From Coq Require Import List String Bool.
From Verif Require Import TypeTables.
Import ListNotations.
Open Scope string_scope.

(** Slot, special method, reflected special method, operation. *)
Definition binary : list (field * string * string * string) :=
  [("nb_add", "__add__", "__radd__", "PyNumber_Add");
   ("nb_subtract", "__sub__", "__rsub__", "PyNumber_Subtract");
   ("nb_multiply", "__mul__", "__rmul__", "PyNumber_Multiply");
   ("nb_remainder", "__mod__", "__rmod__", "PyNumber_Remainder");
   ("nb_divmod", "__divmod__", "__rdivmod__", "PyNumber_Divmod");
   ("nb_power", "__pow__", "__rpow__", "PyNumber_Power");
   ("nb_lshift", "__lshift__", "__rlshift__", "PyNumber_Lshift");
   ("nb_rshift", "__rshift__", "__rrshift__", "PyNumber_Rshift");
   ("nb_and", "__and__", "__rand__", "PyNumber_And");
   ("nb_xor", "__xor__", "__rxor__", "PyNumber_Xor");
   ("nb_or", "__or__", "__ror__", "PyNumber_Or");
   ("nb_floor_divide", "__floordiv__", "__rfloordiv__", "PyNumber_FloorDivide");
   ("nb_true_divide", "__truediv__", "__rtruediv__", "PyNumber_TrueDivide")].
(** Slot, special method, operation. *)
Definition unary : list (field * string * string) :=
  [("nb_negative", "__neg__", "PyNumber_Negative"); ("nb_positive", "__pos__", "PyNumber_Positive");
   ("nb_absolute", "__abs__", "PyNumber_Absolute"); ("nb_invert", "__invert__", "PyNumber_Invert");
   ("nb_int", "__int__", "call_int"); ("nb_float", "__float__", "call_float");
   ("nb_inplace_add", "__iadd__", "PyNumber_InPlaceAdd");
   ("nb_inplace_subtract", "__isub__", "PyNumber_InPlaceSubtract");
   ("nb_inplace_multiply", "__imul__", "PyNumber_InPlaceMultiply");
   ("nb_inplace_remainder", "__imod__", "PyNumber_InPlaceRemainder");
   ("nb_inplace_power", "__ipow__", "call_ipow");
   ("nb_inplace_lshift", "__ilshift__", "PyNumber_InPlaceLshift");
   ("nb_inplace_rshift", "__irshift__", "PyNumber_InPlaceRshift");
   ("nb_inplace_and", "__iand__", "PyNumber_InPlaceAnd");
   ("nb_inplace_xor", "__ixor__", "PyNumber_InPlaceXor");
   ("nb_inplace_or", "__ior__", "PyNumber_InPlaceOr");
   ("nb_inplace_floor_divide", "__ifloordiv__", "PyNumber_InPlaceFloorDivide");
   ("nb_inplace_true_divide", "__itruediv__", "PyNumber_InPlaceTrueDivide");
   ("sq_length", "__len__", "PyObject_Length"); ("mp_length", "__len__", "PyObject_Length");
   ("sq_contains", "__contains__", "PySequence_Contains");
   ("mp_subscript", "__getitem__", "PyObject_GetItem"); ("sq_item", "__getitem__", "PyObject_GetItem");
   ("tp_call", "__call__", "PyObject_Call"); ("tp_str", "__str__", "PyObject_Str");
   ("tp_repr", "__repr__", "PyObject_Repr"); ("tp_iter", "__iter__", "PyObject_GetIter")].

(** [rule f c who meth name api]: when the slot [f] is called as [c] says, the checker of the
    operand [who] is to be asked for [name] with [meth] before [api] is applied to the object. *)
Inductive rule : field -> ctx -> operand -> string -> string -> string -> Prop :=
| ru_left f n rn api c : In (f, n, rn, api) binary -> cx_proxy c Self = true ->
    rule f c Self "check" n api
| ru_right f n rn api c : In (f, n, rn, api) binary -> cx_proxy c Self = false -> cx_proxy c Other = true ->
    rule f c Other "check" rn api
| ru_modulus c : cx_proxy c Self = false -> cx_proxy c Other = false -> cx_proxy c Third = true ->
    rule "nb_power" c Third "check" "__3pow__" "PyNumber_Power"
| ru_unary f n api c : In (f, n, api) unary -> rule f c Self "check" n api
| ru_setitem f c : f = "mp_ass_subscript" \/ f = "sq_ass_item" -> cx_delete c = false ->
    rule f c Self "check" "__setitem__" "PyObject_SetItem"
| ru_delitem f c : f = "mp_ass_subscript" \/ f = "sq_ass_item" -> cx_delete c = true ->
    rule f c Self "check" "__delitem__" "PyObject_DelItem"
| ru_next c : rule "tp_iternext" c Self "check_getattr" "__next__" "PyIter_Next"
| ru_getattr c : rule "tp_getattro" c Self "check_getattr" (cx_attr c) "PyObject_GetAttr"
| ru_setattr c : rule "tp_setattro" c Self "check_setattr" (cx_attr c) "PyObject_SetAttr".

(** The question comes first; nothing happens without a grant, and nothing but the operation with
    one. *)
Definition asked_first (c : ctx) (who : operand) (meth name api : string) (l : list step) : Prop :=
  (cx_ok c who meth name = true -> l = [Asked who meth name; Did who api]) /\
  (cx_ok c who meth name = false -> l = [Asked who meth name]).

(** Comparison, hash and truth are available to everybody. *)
Definition open_slots : list field := ["tp_richcompare"; "tp_hash"; "nb_bool"].

(** Fields that are no functions called for an operation: tables, flags, texts, memory. *)
Definition data_fields : list field :=
  ["tp_as_number"; "tp_as_sequence"; "tp_as_mapping"; "tp_flags"; "tp_doc"; "tp_methods"; "tp_base";
   "tp_alloc"; "tp_free"].
Definition all_fields : list field :=
  (PyNumberMethods ++ PySequenceMethods ++ PyMappingMethods ++ PyTypeObject)%list.

(** What the tables do not mention. *)
Definition inherited_fields : list field :=
  ["nb_reserved"; "nb_index"; "nb_matrix_multiply"; "nb_inplace_matrix_multiply";
   "sq_concat"; "sq_repeat"; "was_sq_slice"; "was_sq_ass_slice"; "sq_inplace_concat"; "sq_inplace_repeat";
   "tp_print"; "tp_reserved"; "tp_as_buffer"; "tp_weaklistoffset"; "tp_descr_get"; "tp_descr_set";
   "tp_dictoffset"; "tp_is_gc"].

(** The special methods a slot provides (typeobject.c, slotdefs; documented for each slot). *)
Definition slotdefs : list (field * list string) :=
  (map (fun x => match x with (f, n, rn, _) => (f, [n; rn]) end) binary ++
   map (fun x => match x with (f, n, _) => (f, [n]) end) unary ++
   [("nb_bool", ["__bool__"]); ("nb_index", ["__index__"]);
    ("nb_matrix_multiply", ["__matmul__"; "__rmatmul__"]); ("nb_inplace_matrix_multiply", ["__imatmul__"]);
    ("mp_ass_subscript", ["__setitem__"; "__delitem__"]); ("sq_ass_item", ["__setitem__"; "__delitem__"]);
    ("sq_concat", ["__add__"]); ("sq_repeat", ["__mul__"; "__rmul__"]);
    ("sq_inplace_concat", ["__iadd__"]); ("sq_inplace_repeat", ["__imul__"]);
    ("tp_hash", ["__hash__"]); ("tp_iternext", ["__next__"]);
    ("tp_getattro", ["__getattribute__"; "__getattr__"]); ("tp_setattro", ["__setattr__"; "__delattr__"]);
    ("tp_richcompare", ["__lt__"; "__le__"; "__eq__"; "__ne__"; "__gt__"; "__ge__"]);
    ("tp_init", ["__init__"]); ("tp_new", ["__new__"]);
    ("tp_descr_get", ["__get__"]); ("tp_descr_set", ["__set__"; "__delete__"])])%list.
(** A special method that the type of C proxies has itself. *)
Definition c_has (n : string) : Prop :=
  (exists f ns, In (f, ns) slotdefs /\ In n ns /\ proxy_own f <> None) \/ In n (map fst proxy_methods).

(** The base class's methods carry their own names. *)
Definition well_named (base : string -> option string) : Prop := forall n m, base n = Some m -> m = n.

(** Special methods of the Python proxies: which question belongs to which. *)
Definition py_question (n : string) (c : ctx) : string * string :=
  if String.eqb n "__getattribute__" then ("check_getattr", cx_attr c)
  else if String.eqb n "__setattr__" || String.eqb n "__delattr__" then ("check_setattr", cx_attr c)
  else ("check", n).
Definition py_open : list string :=
  ["__lt__"; "__le__"; "__eq__"; "__ne__"; "__gt__"; "__ge__"; "__hash__"; "__bool__"; "__length_hint__"].
(** Attributes that can be read without being asked for. *)
Definition py_open_attributes : list string :=
  ["__cmp__"; "__hash__"; "__bool__"; "__lt__"; "__le__"; "__eq__"; "__ne__"; "__ge__"; "__gt__"].

(** What a C checker offers: the methods of IChecker and INameBasedChecker (interfaces.py 179-283). *)
Definition checker_offers : list (string * fn) :=
  [("check", "Checker_check"); ("check_getattr", "Checker_check");
   ("check_setattr", "Checker_check_setattr"); ("permission_id", "Checker_permission_id");
   ("proxy", "Checker_proxy"); ("setattr_permission_id", "Checker_setattr_permission_id")].

(** What the unguarded special methods of Python proxies do. *)
Definition py_open_does : list (string * string) :=
  [("__lt__", "<"); ("__le__", "<="); ("__eq__", "=="); ("__ne__", "!="); ("__gt__", ">"); ("__ge__", ">=");
   ("__hash__", "hash"); ("__bool__", "bool"); ("__length_hint__", "__length_hint__")].
(** The names of the proxy's own two slots. *)
Definition py_slots : list string := ["_checker"; "_wrapped"].
