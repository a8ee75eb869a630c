(** * DefaultsSpec: what is documented about proxied built-in objects.

    Names and types of the language; [platform] only for the types that depend on the
    Python version. *)

From Coq Require Import List String Bool Arith ZArith.
From Verif Require Import Base Domain Spec RegSpec ProxySpec Defaults.
Import ListNotations.
Open Scope string_scope.

(** What may be read of the built-in containers without any permission. *)
Definition container_reads : list (string * list name) :=
  [ ("dict", [ "__contains__"; "__getitem__"; "__iter__"; "__len__"; "__str__";
               "copy"; "get"; "has_key"; "items"; "iteritems"; "iterkeys"; "itervalues";
               "keys"; "values" ]);
    ("list", [ "__add__"; "__contains__"; "__getitem__"; "__iter__"; "__len__"; "__radd__";
               "__str__"; "count"; "index" ]);
    ("tuple", [ "__add__"; "__contains__"; "__getitem__"; "__iter__"; "__len__";
                "__radd__"; "__str__" ]);
    ("set", [ "__and__"; "__contains__"; "__eq__"; "__ge__"; "__gt__"; "__iter__";
              "__le__"; "__len__"; "__lt__"; "__ne__"; "__or__"; "__rand__"; "__ror__";
              "__rsub__"; "__rxor__"; "__str__"; "__sub__"; "__xor__";
              "copy"; "difference"; "intersection"; "issubset"; "issuperset";
              "symmetric_difference"; "union" ]);
    ("frozenset", [ "__and__"; "__contains__"; "__eq__"; "__ge__"; "__gt__"; "__iter__";
              "__le__"; "__len__"; "__lt__"; "__ne__"; "__or__"; "__rand__"; "__ror__";
              "__rsub__"; "__rxor__"; "__str__"; "__sub__"; "__xor__";
              "copy"; "difference"; "intersection"; "issubset"; "issuperset";
              "symmetric_difference"; "union" ]) ].

Definition iterator_reads : list name :=
  [ "__iter__"; "__len__"; "__length_hint__"; "__next__"; "next" ].

(** The iterators of the language, and those found on the platform that are of none of
    the types with an entry of their own. *)
Definition language_iterators : list string :=
  [ "list_iterator"; "tuple_iterator"; "dict_keyiterator"; "set_iterator"; "iterator";
    "generator" ].
Definition other_types : list string :=
  [ "dict"; "list"; "set"; "frozenset"; "decimal.Decimal"; "tuple"; "Proxy"; "weakref";
    "function"; "method"; "builtin_function_or_method"; "builtin_method"; "method-wrapper";
    "type"; "module"; "InterfaceClass"; "Method"; "ProvidesClass"; "ClassProvides";
    "Implements"; "Declaration"; "ABCMeta" ].
(** Objects of these types are never wrapped. *)
Definition rock_types (pf : platform) : list string :=
  [ "object"; "int"; "float"; "complex"; "NoneType"; "str"; "bytes"; "Message"; "bool";
    "datetime.timedelta"; "datetime.datetime"; "datetime.date"; "datetime.time";
    "datetime.tzinfo"; "dict_values"; "dict_keys"; "dict_items" ] ++
  (if pf_pytz pf then ["pytz.UTC"] else []).
Definition found_types (pf : platform) : list string :=
  pf_dictlike pf ++ (match pf_btrees pf with
                     | Some l => "BTrees._base._TreeItems" :: l
                     | None => [] end) ++ pf_itertools pf.
Definition is_iterator_type (pf : platform) (t : string) : Prop :=
  In t language_iterators \/
  (In t (found_types pf) /\ ~ In t other_types /\ ~ In t (rock_types pf)).

(** [Readable pf t ns]: objects of type [t] are protected such that the names [ns],
    and no others, can be read. *)
Definition Readable (pf : platform) (t : string) (ns : list name) : Prop :=
  In (t, ns) container_reads \/ (is_iterator_type pf t /\ ns = iterator_reads).

(** The same for functions, classes and weak references: *)
Definition code_reads : list (string * list name) :=
  [ ("function", ["__call__"; "__name__"; "__str__"]);
    ("method", ["__call__"; "__name__"; "__str__"]);
    ("builtin_function_or_method", ["__call__"; "__name__"; "__str__"]);
    ("builtin_method", ["__call__"; "__name__"; "__str__"]);
    ("method-wrapper", ["__call__"; "__name__"; "__str__"]);
    ("type", ["__bases__"; "__implemented__"; "__module__"; "__mro__"; "__name__"; "__str__"]);
    ("ABCMeta", ["__bases__"; "__implemented__"; "__module__"; "__mro__"; "__name__"; "__str__"]);
    ("weakref", ["__call__"]) ].
(** and for decimals, interfaces and declarations: *)
Definition other_reads (pf : platform) : list (string * list name) :=
  [ ("decimal.Decimal",
      [ "__abs__"; "__add__"; "__bool__"; "__cmp__"; "__divmod__"; "__eq__"; "__float__";
        "__floordiv__"; "__hash__"; "__int__"; "__mod__"; "__mul__"; "__ne__"; "__neg__";
        "__pos__"; "__pow__"; "__radd__"; "__rdivmod__"; "__rfloordiv__"; "__rmod__";
        "__rmul__"; "__rpow__"; "__rsub__"; "__rtruediv__"; "__str__"; "__sub__";
        "__truediv__"; "adjusted"; "as_tuple"; "compare"; "max"; "min"; "normalize";
        "quantize"; "remainder_near"; "same_quantum"; "sqrt"; "to_eng_string";
        "to_integral" ]);
    ("InterfaceClass", pf_IInterface pf ++ ["__len__"; "__str__"; "_implied"; "subscribe"]);
    ("Method", pf_IMethod pf);
    ("ClassProvides", pf_IDeclaration pf ++ ["__call__"; "_implied"; "subscribe"; "unsubscribe"]);
    ("Declaration", pf_IDeclaration pf ++ ["__call__"; "_implied"; "subscribe"; "unsubscribe"]) ]%list.
(** Types that are not wrapped although they are no rocks: proxies, and what
    [zope.interface.providedBy] returns. *)
Definition bare_types : list string := ["Proxy"; "Implements"; "ProvidesClass"].

(** What makes functions, methods and classes dangerous to hand out. *)
Definition code_internals : list name :=
  [ "__globals__"; "__code__"; "__closure__"; "__defaults__"; "__kwdefaults__"; "__builtins__";
    "__annotations__"; "__dict__"; "__func__"; "__self__"; "__wrapped__"; "__get__";
    "__subclasses__"; "__base__"; "mro"; "__new__"; "__init__"; "__init_subclass__";
    "__getattribute__"; "__setattr__"; "__delattr__"; "__reduce__"; "__reduce_ex__";
    "__objclass__"; "__qualname__"; "__weakref__"; "__prepare__"; "__callback__" ].

(** ** Ways to change an object *)

Definition all_inops : list inop :=
  [IAdd; ISub; IMul; IMod; IPow; ILshift; IRshift; IAnd; IXor; IOr; IFloordiv; ITruediv].
Definition common_mutators : list name :=
  (map inplace_name all_inops ++
   [ "__setitem__"; "__delitem__"; "__setattr__"; "__delattr__"; "__init__"; "__setstate__";
     "__set__"; "__delete__"; "__dict__" ])%list.
Definition own_mutators (t : string) : list name :=
  if String.eqb t "dict" then
    [ "clear"; "pop"; "popitem"; "setdefault"; "update" ]
  else if String.eqb t "list" then
    [ "append"; "clear"; "extend"; "insert"; "pop"; "remove"; "reverse"; "sort" ]
  else if String.eqb t "set" then
    [ "add"; "clear"; "difference_update"; "discard"; "intersection_update"; "pop";
      "remove"; "symmetric_difference_update"; "update" ]
  else if String.eqb t "generator" then [ "close"; "send"; "throw" ]
  else [].
Definition mutator (t : string) (n : name) : Prop :=
  In n common_mutators \/ In n (own_mutators t).

(** ** The program around it *)

(** The keys of a dictionary are unique. *)
Definition unique_keys (s : state) : Prop := forall i, NoDup (map fst (st_dicts s i)).

(** What the import of the package created ([N] is the allocation counter afterwards)
    and existing proxies are left alone. *)
Definition defaults_kept (N : id) (s s' : state) : Prop :=
  N <= st_next s ->
  st_next s <= st_next s' /\
  (forall p x, p < st_next s -> st_prox s p = Some x -> st_prox s' p = Some x) /\
  (forall i, i < N -> st_chks s' i = st_chks s i /\ st_dicts s' i = st_dicts s i).

(** Programs: any number of threads, any application code, any policy, as long as it
    leaves those alone. *)
Definition respectful (N : id) (Env : env -> Prop) (other : state -> state -> Prop) : Prop :=
  (forall E, Env E -> e_watch E = 0 /\ foreign_keeps_proxies E /\
     forall t c s r s', e_run E t c s = (r, s') -> defaults_kept N s s') /\
  (forall s s', other s s' -> defaults_kept N s s').

(** The registry entry of type [t] is the one the import made. *)
Definition still_default (s1 s : state) (t : string) : Prop :=
  dget rkey_eqb (st_reg s) (KType t) = dget rkey_eqb (st_reg s1) (KType t).

(** ** The tables *)

(** [reads_only s c ns]: [c] is an ordinary checker that lets everybody read the names
    [ns], has no entry for any other name, and lets nobody write. *)
Definition reads_only (s : state) (c : value) (ns : list name) : Prop :=
  exists g, PlainChecker s c g [] /\
            (forall n, In n ns -> table_of g n = Some PPublic) /\
            (forall n, ~ In n ns -> table_of g n = None).

(** [w] is protected by default in [s3]: its type's entry is the one made at import, or
    it is a module for which no checker was defined. *)
Inductive DefaultProtected (E : env) (s1 s3 : state) (w : value) : list name -> Prop :=
| DP_type c ns :
    dget rkey_eqb (st_reg s1) (KType (concrete_type E s3 w)) = Some c ->
    reads_only s1 c ns -> still_default s1 s3 (concrete_type E s3 w) ->
    DefaultProtected E s1 s3 w ns
| DP_module m :
    w = VMod m -> still_default s1 s3 "module" ->
    dget rkey_eqb (st_reg s3) (KMod m) = None ->
    DefaultProtected E s1 s3 w ["__name__"].
