(** * Defaults: the module-level part of checker.py (729-1082).

    Importing the module creates the default checkers, fills [_default_checkers] and
    [BasicTypes], and initialises the registry.  Types are labels as in [Domain];
    what depends on the Python version or on installed packages is a [platform]. *)

From Coq Require Import List String Bool Arith ZArith.
From Verif Require Import Base Domain CheckerModel.
Import ListNotations.
Open Scope string_scope.
Open Scope m_scope.

(** What the import finds: the names of three interfaces of zope.interface
    (checker.py 829, 901, 910); whether pytz is installed (794-799); the types met by
    [_fixup_dictlike] for OrderedDict (920-943) and, if BTrees is installed, for its
    BTrees (946-976), in order; the types met by [_fixup_itertools] (1018-1073). *)
Record platform := mkPlatform {
  pf_IDeclaration : list name;
  pf_IInterface : list name;
  pf_IMethod : list name;
  pf_pytz : bool;
  pf_dictlike : list string;
  pf_btrees : option (list string);
  pf_itertools : list string
}.

(** checker.py 729 *)
Definition callable_names : list name := ["__str__"; "__name__"; "__call__"].

(** checker.py 730-733 *)
Definition type_names : list name :=
  ["__str__"; "__name__"; "__module__"; "__bases__"; "__mro__"; "__implemented__"].

(** checker.py 735-738 *)
Definition iterator_names : list name :=
  ["next"; "__next__"; "__iter__"; "__len__"; "__length_hint__"].

(** checker.py 740-748 *)
Definition set_names : list name :=
  ["__iter__"; "__len__"; "__str__"; "__contains__";
   "copy"; "difference"; "intersection"; "issubset";
   "issuperset"; "symmetric_difference"; "union";
   "__and__"; "__or__"; "__sub__"; "__xor__";
   "__rand__"; "__ror__"; "__rsub__"; "__rxor__";
   "__eq__"; "__ne__"; "__lt__"; "__gt__";
   "__le__"; "__ge__"].

(** checker.py 843-846 *)
Definition dict_names : list name :=
  ["__getitem__"; "__len__"; "__iter__";
   "get"; "has_key"; "copy"; "__str__"; "keys";
   "values"; "items"; "iterkeys"; "iteritems";
   "itervalues"; "__contains__"].

(** checker.py 847-849 *)
Definition list_names : list name :=
  ["__getitem__"; "__len__"; "__iter__";
   "__contains__"; "index"; "count"; "__str__";
   "__add__"; "__radd__"].

(** checker.py 854-871 *)
Definition decimal_names : list name :=
  ["__bool__"; "__cmp__"; "__eq__";
   "__ne__"; "__hash__";
   "__str__";
   "__neg__"; "__pos__"; "__abs__";
   "__add__"; "__radd__";
   "__sub__"; "__rsub__";
   "__mul__"; "__rmul__";
   "__truediv__"; "__rtruediv__";
   "__divmod__"; "__rdivmod__";
   "__mod__"; "__rmod__";
   "__floordiv__"; "__rfloordiv__";
   "__float__"; "__int__";
   "__pow__"; "__rpow__";
   "adjusted"; "as_tuple"; "compare";
   "max"; "min"; "normalize";
   "quantize"; "remainder_near";
   "same_quantum"; "sqrt";
   "to_eng_string"; "to_integral"].

(** checker.py 874-876 *)
Definition tuple_names : list name :=
  ["__getitem__"; "__add__"; "__radd__";
   "__contains__"; "__len__"; "__iter__";
   "__str__"].

(** checker.py 774-799, the argument of [_BasicTypes]; all NoProxy. *)
Definition basic_types (pf : platform) : list (rkey * value) :=
  (map (fun t => (KType t, VNoProxy))
     ["object"; "int"; "float"; "complex"; "NoneType"; "str"; "bytes"; "Message"; "bool";
      "datetime.timedelta"; "datetime.datetime"; "datetime.date"; "datetime.time";
      "datetime.tzinfo"; "dict_values"; "dict_keys"; "dict_items"] ++
   (if pf_pytz pf then [(KType "pytz.UTC", VNoProxy)] else []))%list.

(** [if t not in _default_checkers: _default_checkers[t] = v]
    (checker.py 927-928, 931-932, 1031-1036, 1068-1069). *)
Definition add_if_absent (v : value) (d : list (rkey * value)) (t : string)
  : list (rkey * value) :=
  match dget rkey_eqb d (KType t) with
  | Some _ => d
  | None => dset rkey_eqb d (KType t) v
  end.

Section Import.
  Variable E : env.
  Variable pf : platform.

  (** checker.py 734.  [_namedChecker] is looked up by the function registered for
      modules (894); the model refers to it there by the fixed identity [named_cid],
      which it is given here instead of a fresh one. *)
  Definition new_namedChecker : M value :=
    match add_names [] (map (fun n => (n, PPublic)) ["__name__"]) with
    | Exc e => raise e
    | Ok d =>
        gi <- alloc_dict d ;;
        wi <- alloc_dict [] ;;
        s <- get ;;
        put (set_chks (upd (st_chks s) named_cid
                         (Some (mkChecker gi wi (Checker_class E)))) s) ;;;
        ret (VChk named_cid)
    end.

  (** NamesChecker with the default permission CheckerPublic. *)
  Definition public_names (names : list name) : M value := NamesChecker E names PPublic [].

  (** checker.py 729-748, 829-917: the checkers and the dictionary literal; returned
      with [_iteratorChecker], which the fixups use. *)
  Definition default_literal : M (value * list (rkey * value)) :=
    callableC <- public_names callable_names ;;
    typeC <- public_names type_names ;;
    namedC <- new_namedChecker ;;
    iteratorC <- public_names iterator_names ;;
    setC <- public_names set_names ;;
    declarationC <- InterfaceChecker E (pf_IDeclaration pf) PPublic
                      [("_implied", PPublic); ("subscribe", PPublic);
                       ("unsubscribe", PPublic); ("__call__", PPublic)] ;;
    dictC <- public_names dict_names ;;
    listC <- public_names list_names ;;
    decimalC <- public_names decimal_names ;;
    tupleC <- public_names tuple_names ;;
    weakrefC <- public_names ["__call__"] ;;
    interfaceC <- InterfaceChecker E (pf_IInterface pf) PPublic
                    [("__str__", PPublic); ("_implied", PPublic);
                     ("subscribe", PPublic); ("__len__", PPublic)] ;;
    methodC <- InterfaceChecker E (pf_IMethod pf) PPublic [] ;;
    ret (iteratorC, dupdate rkey_eqb []
      [ (KType "dict", dictC);
        (KType "list", listC);
        (KType "set", setC);
        (KType "frozenset", setC);
        (KType "decimal.Decimal", decimalC);
        (KType "tuple", tupleC);
        (KType "Proxy", VNoProxy);
        (KType "weakref", weakrefC);
        (KType "function", callableC);
        (KType "method", callableC);
        (KType "builtin_function_or_method", callableC);
        (KType "builtin_method", callableC);
        (KType "method-wrapper", callableC);
        (KType "type", typeC);
        (KType "module", VModFun);
        (KType "list_iterator", iteratorC);
        (KType "tuple_iterator", iteratorC);
        (KType "dict_keyiterator", iteratorC);
        (KType "set_iterator", iteratorC);
        (KType "iterator", iteratorC);
        (KType "generator", iteratorC);
        (KType "InterfaceClass", interfaceC);
        (KType "Method", methodC);
        (KType "ProvidesClass", declarationC);
        (KType "ClassProvides", declarationC);
        (KType "Implements", declarationC);
        (KType "Declaration", declarationC);
        (KType "ABCMeta", typeC) ]).

  (** checker.py 920-943 *)
  Definition fixup_dictlike (iteratorC : value) (types : list string)
             (d : list (rkey * value)) : list (rkey * value) :=
    fold_left (add_if_absent iteratorC) types d.

  (** checker.py 946-976 *)
  Definition fixup_btrees (iteratorC : value) (d : list (rkey * value))
    : list (rkey * value) :=
    match pf_btrees pf with
    | None => d
    | Some types =>
        fixup_dictlike iteratorC types
          (dset rkey_eqb d (KType "BTrees._base._TreeItems") iteratorC)
    end.

  (** checker.py 981-1015: the types of what [providedBy] returns. *)
  Definition fixup_zope_interface (d : list (rkey * value)) : list (rkey * value) :=
    dset rkey_eqb (dset rkey_eqb d (KType "Implements") VNoProxy)
         (KType "ProvidesClass") VNoProxy.

  (** checker.py 1018-1073 *)
  Definition fixup_itertools (iteratorC : value) (d : list (rkey * value))
    : list (rkey * value) :=
    fold_left (add_if_absent iteratorC) (pf_itertools pf) d.

  (** checker.py 842-1073 *)
  Definition default_checkers : M (list (rkey * value)) :=
    x <- default_literal ;;
    ret (fixup_itertools (fst x) (fixup_zope_interface (fixup_btrees (fst x)
           (fixup_dictlike (fst x) (pf_dictlike pf) (snd x))))).

  (** checker.py 505, 729-1082: the module body.  [BasicTypes] is created without
      touching the registry (801); then [_clear()] (1082).  The result is the table
      that later calls of [_clear] use. *)
  Definition import_checker : M (list (rkey * value)) :=
    s0 <- get ;;
    put (set_reg [] s0) ;;;
    d <- default_checkers ;;
    s <- get ;;
    put (set_basic (dupdate rkey_eqb [] (basic_types pf)) s) ;;;
    clear_checkers d ;;;
    ret d.
End Import.
