(** Proxies in the places where the language does more than to call a method:
    [isinstance], [issubclass], [except], [raise], [super], [class] and [with]
    statements, [dir].

    What the interpreter does there is written down from CPython (3.8 to 3.13:
    abstract.c, ceval.c, bltinmodule.c, typeobject.c); what it meets in a proxy
    is proxy.py and _proxy.c. *)

From Coq Require Import String List Arith Bool.
From Verif Require Import TypeTables.
Import ListNotations.
Open Scope string_scope.

(** An object is a security proxy (object and checker in its slots) or any
    other object, by number; types are among the latter. *)
Inductive obj := Plain (n : nat) | Prox (wrapped checker : obj).

Inductive outcome (X A : Type) := Returns (a : A) | Raises (x : X).
Arguments Returns {X A}. Arguments Raises {X A}.

Definition action (W X A : Type) := W -> outcome X A * W.
Definition give {W X A} (a : A) : action W X A := fun w => (Returns a, w).
Definition throw {W X A} (x : X) : action W X A := fun w => (Raises x, w).
Definition andthen {W X A B} (m : action W X A) (k : A -> action W X B) : action W X B :=
  fun w => match m w with
           | (Returns a, w') => k a w'
           | (Raises x, w') => (Raises x, w')
           end.

(** The interpreter, the application and the checkers; [W] is the state of the
    process, [X] the exceptions. *)
Record runtime (W X : Type) := {
  (** [type(x)] of the objects that are no proxies *)
  rt_type : nat -> nat;
  (** PyType_IsSubtype *)
  rt_sub : nat -> nat -> bool;
  (** the classes [type], [Proxy] and [BaseException] *)
  rt_metatype : nat;
  rt_proxy : nat;
  rt_exception : nat;
  (** the items of a tuple, the keys of a dictionary *)
  rt_tuple : nat -> option (list obj);
  rt_dict : W -> nat -> option (list string);
  (** [getattr], calls, [len], [x[i]] of objects that are no proxies *)
  rt_read : nat -> string -> action W X obj;
  rt_call : nat -> list obj -> action W X obj;
  rt_size : nat -> action W X nat;
  rt_item : nat -> nat -> action W X obj;
  (** [checker.check(object, name)] and [checker.proxy(value)]; checkers are
      first, in the order of the arguments *)
  rt_check : obj -> obj -> string -> action W X unit;
  rt_wrap : obj -> obj -> action W X obj;
  (** special methods in the type of a plain object, and in the classes behind
      Proxy (zope.proxy, object), by number, and calling one *)
  rt_slot : nat -> string -> option nat;
  rt_base_slot : string -> option nat;
  rt_method : nat -> obj -> list obj -> action W X obj;
  (** [bool] of what a special method returns *)
  rt_truth : obj -> action W X bool;
  (** the names that [dict.update(x)] takes over *)
  rt_update : obj -> action W X (list string);
  (** calling a metaclass other than Proxy *)
  rt_new : nat -> list obj -> action W X obj;
  (** [str(x)] and [format(x, spec)] of objects that are no proxies, and the text
      that stands for an object whose own text is withheld *)
  rt_str : nat -> action W X string;
  rt_format : nat -> string -> action W X string;
  rt_cover : obj -> action W X string;
  (** exceptions *)
  rt_is_type_error : X -> bool;
  rt_attribute_error : X -> bool;
  rt_missing : X;
  rt_type_error : X;
  rt_recursion : X
}.
Arguments rt_type {W X}. Arguments rt_sub {W X}. Arguments rt_metatype {W X}.
Arguments rt_proxy {W X}. Arguments rt_exception {W X}. Arguments rt_tuple {W X}.
Arguments rt_dict {W X}. Arguments rt_read {W X}. Arguments rt_call {W X}.
Arguments rt_size {W X}. Arguments rt_item {W X}. Arguments rt_check {W X}.
Arguments rt_wrap {W X}. Arguments rt_slot {W X}. Arguments rt_base_slot {W X}.
Arguments rt_method {W X}. Arguments rt_truth {W X}. Arguments rt_update {W X}.
Arguments rt_new {W X}. Arguments rt_str {W X}. Arguments rt_format {W X}.
Arguments rt_cover {W X}. Arguments rt_is_type_error {W X}. Arguments rt_attribute_error {W X}. Arguments rt_missing {W X}.
Arguments rt_type_error {W X}. Arguments rt_recursion {W X}.

Inductive build := Py | C.

(** The special methods that the type of proxies has itself: proxy.py 82-336;
    the slots and methods of _proxy.c 684-809. *)
Definition own_py : list string := (map fst py_body ++ py_checked ++ py_unwrapped ++ py_inplace)%list.
Definition own (b : build) : list string :=
  match b with
  | Py => own_py
  | C => filter (fun n => negb (mem n ["__reduce__"; "__reduce_ex__"; "__complex__"; "__index__"])) own_py
  end.

Section Functions.
  Context {W X : Type} (R : runtime W X) (b : build).

  (** ** What the interpreter meets in a proxy *)

  (** ProxyPy.__getattribute__ and __getattr__, proxy.py 95-159 (the second is
      tried after an AttributeError and asks again); proxy_getattro, _proxy.c
      363-373.  For the names used here, which are all checked. *)
  Fixpoint read (x : obj) (n : string) : action W X obj :=
    match x with
    | Plain k => rt_read R k n
    | Prox o c => fun w =>
        let first := andthen (rt_check R c o n) (fun _ => andthen (read o n) (rt_wrap R c)) in
        match b, first w with
        | Py, (Raises e, w') =>
            if rt_attribute_error R e
            then andthen (rt_check R c o n) (fun _ => throw (rt_missing R)) w'
            else (Raises e, w')
        | _, r => r
        end
    end.

  (** Calling: proxy.py 257 and 27-38; _proxy.c 460-471. *)
  Fixpoint call (x : obj) (args : list obj) : action W X obj :=
    match x with
    | Plain k => rt_call R k args
    | Prox o c => andthen (rt_check R c o "__call__") (fun _ => andthen (call o args) (rt_wrap R c))
    end.

  (** [len(x)]: proxy.py 316-320; _proxy.c 587-592. *)
  Fixpoint size (x : obj) : action W X nat :=
    match x with
    | Plain k => rt_size R k
    | Prox o c => andthen (rt_check R c o "__len__") (fun _ => size o)
    end.

  (** [x[i]]: proxy.py 272; _proxy.c 613-624, 653-664. *)
  Fixpoint item (x : obj) (i : nat) : action W X obj :=
    match x with
    | Plain k => rt_item R k i
    | Prox o c => andthen (rt_check R c o "__getitem__") (fun _ => andthen (item o i) (rt_wrap R c))
    end.

  (** ** The interpreter *)

  Definition type_of (x : obj) : nat :=
    match x with Plain k => rt_type R k | Prox _ _ => rt_proxy R end.
  (** PyType_Check *)
  Definition is_type (x : obj) : bool := rt_sub R (type_of x) (rt_metatype R).
  (** PyTuple_Check, and the items *)
  Definition as_tuple (x : obj) : option (list obj) :=
    match x with Plain k => rt_tuple R k | Prox _ _ => None end.
  (** PyDict_Check, and the keys *)
  Definition as_dict (w : W) (x : obj) : option (list string) :=
    match x with Plain k => rt_dict R w k | Prox _ _ => None end.
  (** identity (of proxies: the same object and checker) *)
  Fixpoint same (x y : obj) : bool :=
    match x, y with
    | Plain n, Plain m => Nat.eqb n m
    | Prox o c, Prox p d => same o p && same c d
    | _, _ => false
    end.

  (** _PyObject_LookupAttr: an AttributeError means that there is none. *)
  Definition lookup (x : obj) (n : string) : action W X (option obj) := fun w =>
    match read x n w with
    | (Returns v, w') => (Returns (Some v), w')
    | (Raises e, w') => if rt_attribute_error R e then (Returns None, w') else (Raises e, w')
    end.

  (** _PyObject_LookupSpecial: in the type, not through the object. *)
  Inductive found := Nothing | Own | Inherited (m : nat).
  Definition special (x : obj) (n : string) : found :=
    match x with
    | Plain k => match rt_slot R k n with Some m => Inherited m | None => Nothing end
    | Prox _ _ =>
        if mem n (own b) then Own
        else match rt_base_slot R n with Some m => Inherited m | None => Nothing end
    end.

  (** abstract.c check_class and abstract_get_bases: the tuple [x.__bases__]. *)
  Definition class_bases (x : obj) : action W X (list obj) :=
    andthen (lookup x "__bases__") (fun v =>
      match v with
      | None => throw (rt_type_error R)
      | Some y => match as_tuple y with
                  | None => throw (rt_type_error R)
                  | Some l => give l
                  end
      end).

  (** abstract.c abstract_issubclass, on what is not a type: is [cls] among the
      [__bases__] of the [__bases__] of [x]? *)
  Fixpoint abstract_issubclass (fuel : nat) (x cls : obj) : action W X bool :=
    match fuel with
    | O => throw (rt_recursion R)
    | S k =>
        if same x cls then give true
        else andthen (lookup x "__bases__") (fun v =>
          match v with
          | None => give false
          | Some y =>
              match as_tuple y with
              | None => give false
              | Some l =>
                  (fix any (l : list obj) : action W X bool :=
                     match l with
                     | [] => give false
                     | z :: l' => andthen (abstract_issubclass k z cls)
                                    (fun yes => if yes : bool then give true else any l')
                     end) l
              end
          end)
    end.

  (** abstract.c object_isinstance *)
  Definition object_isinstance (fuel : nat) (x cls : obj) : action W X bool :=
    if is_type cls then
      match cls with
      | Plain T =>
          if rt_sub R (type_of x) T then give true
          else andthen (lookup x "__class__") (fun v =>
            match v with
            | Some (Plain t) => give (is_type (Plain t) && negb (Nat.eqb t (type_of x)) && rt_sub R t T)
            | _ => give false
            end)
      | Prox _ _ => throw (rt_type_error R)
      end
    else
      andthen (class_bases cls) (fun _ =>
        andthen (lookup x "__class__") (fun v =>
          match v with
          | None => give false
          | Some y => abstract_issubclass fuel y cls
          end)).

  (** abstract.c object_recursive_isinstance, the builtin [isinstance]. *)
  Fixpoint isinstance (fuel : nat) (x cls : obj) : action W X bool :=
    match fuel with
    | O => throw (rt_recursion R)
    | S k =>
        if same (Plain (type_of x)) cls then give true
        else if Nat.eqb (type_of cls) (rt_metatype R) then object_isinstance k x cls
        else
          match as_tuple cls with
          | Some l =>
              (fix any (l : list obj) : action W X bool :=
                 match l with
                 | [] => give false
                 | z :: l' => andthen (isinstance k x z)
                                (fun yes => if yes : bool then give true else any l')
                 end) l
          | None =>
              match special cls "__instancecheck__" with
              | Inherited m => andthen (rt_method R m cls [x]) (rt_truth R)
              | _ => object_isinstance k x cls
              end
          end
    end.

  (** abstract.c recursive_issubclass *)
  Definition recursive_issubclass (fuel : nat) (x cls : obj) : action W X bool :=
    match x, cls with
    | Plain t, Plain T =>
        if is_type x && is_type cls then give (rt_sub R t T)
        else andthen (class_bases x) (fun _ => andthen (class_bases cls) (fun _ =>
               abstract_issubclass fuel x cls))
    | _, _ => andthen (class_bases x) (fun _ => andthen (class_bases cls) (fun _ =>
                abstract_issubclass fuel x cls))
    end.

  (** abstract.c object_issubclass, the builtin [issubclass], without tuples. *)
  Definition issubclass (fuel : nat) (x cls : obj) : action W X bool :=
    if Nat.eqb (type_of cls) (rt_metatype R) then
      if same x cls then give true else recursive_issubclass fuel x cls
    else match special cls "__subclasscheck__" with
         | Inherited m => andthen (rt_method R m cls [x]) (rt_truth R)
         | _ => recursive_issubclass fuel x cls
         end.

  (** PyExceptionClass_Check and PyExceptionInstance_Check *)
  Definition exception_class (x : obj) : bool :=
    match x with
    | Plain t => is_type x && rt_sub R t (rt_exception R)
    | Prox _ _ => false
    end.
  Definition exception_instance (x : obj) : bool := rt_sub R (type_of x) (rt_exception R).

  (** [except cls:], for an exception of type [t] being raised (ceval.c,
      CHECK_EXC_MATCH). *)
  Definition except_clause (t : nat) (cls : obj) : action W X bool :=
    match as_tuple cls with
    | Some l =>
        if forallb exception_class l
        then give (existsb (fun c => match c with Plain T => rt_sub R t T | _ => false end) l)
        else throw (rt_type_error R)
    | None =>
        match cls with
        | Plain T => if exception_class cls then give (rt_sub R t T) else throw (rt_type_error R)
        | Prox _ _ => throw (rt_type_error R)
        end
    end.

  (** [raise x]: the exception object (ceval.c do_raise). *)
  Definition raise_statement (x : obj) : action W X obj :=
    if exception_class x then
      andthen (call x []) (fun v =>
        if exception_instance v then give v else throw (rt_type_error R))
    else if exception_instance x then give x
    else throw (rt_type_error R).

  (** [super(cls, x)]: the class whose methods are looked up (typeobject.c
      super_init, supercheck). *)
  Definition super_object (cls x : obj) : action W X nat :=
    match cls with
    | Plain T =>
        if negb (is_type cls) then throw (rt_type_error R)
        else
          match x with
          | Plain t =>
              if is_type x && rt_sub R t T then give t
              else if rt_sub R (type_of x) T then give (type_of x)
              else andthen (lookup x "__class__") (fun v =>
                match v with
                | Some (Plain u) =>
                    if is_type (Plain u) && negb (Nat.eqb u (type_of x)) && rt_sub R u T
                    then give u else throw (rt_type_error R)
                | _ => throw (rt_type_error R)
                end)
          | Prox _ _ =>
              if rt_sub R (type_of x) T then give (type_of x)
              else andthen (lookup x "__class__") (fun v =>
                match v with
                | Some (Plain u) =>
                    if is_type (Plain u) && negb (Nat.eqb u (type_of x)) && rt_sub R u T
                    then give u else throw (rt_type_error R)
                | _ => throw (rt_type_error R)
                end)
          end
    | Prox _ _ => throw (rt_type_error R)
    end.

  (** ** The class statement *)

  (** bltinmodule.c update_bases *)
  Fixpoint resolve_bases (all bases : list obj) : action W X (list obj) :=
    match bases with
    | [] => give []
    | x :: rest =>
        if is_type x then andthen (resolve_bases all rest) (fun l => give (x :: l))
        else
          andthen (lookup x "__mro_entries__") (fun m =>
            match m with
            | None => andthen (resolve_bases all rest) (fun l => give (x :: l))
            | Some f =>
                andthen (call f all) (fun r =>
                  match as_tuple r with
                  | None => throw (rt_type_error R)
                  | Some l => andthen (resolve_bases all rest) (fun l' => give (l ++ l')%list)
                  end)
            end)
    end.

  (** typeobject.c _PyType_CalculateMetaclass *)
  Fixpoint metaclass (winner : nat) (bases : list obj) : action W X nat :=
    match bases with
    | [] => give winner
    | x :: rest =>
        if rt_sub R winner (type_of x) then metaclass winner rest
        else if rt_sub R (type_of x) winner then metaclass (type_of x) rest
        else throw (rt_type_error R)
    end.

  (** Calling the metaclass with name, bases and namespace.  Proxy takes an
      object and a checker: proxy.py 82, 88; _proxy.c 263-274. *)
  Definition make_class (m : nat) (bases : list obj) : action W X obj :=
    if Nat.eqb m (rt_proxy R) then throw (rt_type_error R) else rt_new R m bases.

  (** bltinmodule.c __build_class__, with [body] the statements in the class. *)
  Definition class_statement (body : action W X unit) (meta : option obj) (bases : list obj) :
    action W X obj :=
    andthen (resolve_bases bases bases) (fun bs =>
      let m := match meta with
               | Some m => m
               | None => match bs with [] => Plain (rt_metatype R) | x :: _ => Plain (type_of x) end
               end in
      match m with
      | Plain k =>
          if is_type m || match meta with None => true | _ => false end then
            andthen (metaclass k bs) (fun win =>
              andthen (lookup (Plain win) "__prepare__") (fun p =>
                andthen (match p with None => give m | Some f => call f bs end) (fun _ =>
                  andthen body (fun _ => make_class win bs))))
          else
            andthen (lookup m "__prepare__") (fun p =>
              andthen (match p with None => give m | Some f => call f bs end) (fun _ =>
                andthen body (fun _ => call m bs)))
      | Prox _ _ =>
          andthen (lookup m "__prepare__") (fun p =>
            andthen (match p with None => give m | Some f => call f bs end) (fun _ =>
              andthen body (fun _ => call m bs)))
      end).

  (** ** Operations that need a special method in the type *)

  (** [await x], [round(x)], [os.fspath(x)] and the like. *)
  Definition implicit (n : string) (x : obj) (args : list obj) : action W X obj :=
    match special x n with
    | Inherited m => rt_method R m x args
    | _ => throw (rt_type_error R)
    end.

  (** [with x: body], for a body that ends normally (ceval.c; AttributeError
      instead of TypeError before Python 3.11). *)
  Definition with_statement (body : action W X unit) (x none : obj) : action W X obj :=
    match special x "__enter__", special x "__exit__" with
    | Inherited m, Inherited k =>
        andthen (rt_method R m x []) (fun v =>
          andthen body (fun _ => andthen (rt_method R k x [none; none; none]) (fun _ => give v)))
    | _, _ => throw (rt_type_error R)
    end.

  (** ** dir *)

  (** typeobject.c merge_class_dict; the names as a list with repetitions. *)
  Fixpoint class_names (fuel : nat) (cls : obj) : action W X (list string) :=
    match fuel with
    | O => throw (rt_recursion R)
    | S k =>
        andthen (lookup cls "__dict__") (fun d =>
          andthen (match d with None => give [] | Some y => rt_update R y end) (fun here =>
            andthen (lookup cls "__bases__") (fun bs =>
              match bs with
              | None => give here
              | Some s => fun w =>
                  match size s w with
                  | (Raises _, w') => (Returns here, w')
                  | (Returns n, w') =>
                      (fix each (todo i : nat) (acc : list string) : action W X (list string) :=
                         match todo with
                         | O => give acc
                         | S todo' =>
                             andthen (item s i) (fun base =>
                               andthen (class_names k base) (fun l =>
                                 each todo' (S i) (acc ++ l)%list))
                         end) n O here w'
                  end
              end)))
    end.

  (** object.__dir__ (typeobject.c), which proxies inherit. *)
  Definition dir (fuel : nat) (x : obj) : action W X (list string) :=
    andthen (lookup x "__dict__") (fun d => fun w =>
      let mine := match d with
                  | Some y => match as_dict w y with Some l => l | None => [] end
                  | None => []
                  end in
      andthen (lookup x "__class__") (fun c =>
        match c with
        | None => give mine
        | Some y => andthen (class_names fuel y) (fun l => give (mine ++ l)%list)
        end) w).

  (** ** format *)

  (** [str(x)]: proxy.py 227-239 (everything but TypeError is replaced);
      proxy_str, _proxy.c 422-437 (a refusal is replaced). *)
  Fixpoint str (x : obj) : action W X string :=
    match x with
    | Plain k => rt_str R k
    | Prox o c => fun w =>
        match b with
        | Py => match andthen (rt_check R c o "__str__") (fun _ => str o) w with
                | (Raises e, w') => if rt_is_type_error R e then (Raises e, w') else rt_cover R o w'
                | r => r
                end
        | C => match rt_check R c o "__str__" w with
               | (Returns _, w') => str o w'
               | (Raises _, w') => rt_cover R o w'
               end
        end
    end.

  (** [format(x, spec)]; proxies inherit object.__format__ (typeobject.c). *)
  Definition format (x : obj) (spec : string) : action W X string :=
    match x with
    | Plain k => rt_format R k spec
    | Prox _ _ => if String.eqb spec "" then str x else throw (rt_type_error R)
    end.

  (** ** object.__getattribute__ *)

  (** The member descriptors of the type of proxies: proxy.py 80; tp_members and
      tp_getset, _proxy.c 798-799. *)
  Definition members : list string := match b with Py => ["_wrapped"; "_checker"] | C => [] end.

  (** What it can find: what is in a slot, a special method bound to the proxy,
      something that the classes behind Proxy have. *)
  Inductive got := InSlot (x : obj) | Method (n : string) (self : obj) | FromBase (m : nat).

  (** [object.__getattribute__(p, n)] of a proxy [p], as anybody can call it,
      and [type(p).n.__get__(p)] (object.c PyObject_GenericGetAttr). *)
  Definition generic_getattr (o c : obj) (n : string) : action W X got :=
    if mem n members then give (InSlot (if String.eqb n "_wrapped" then o else c))
    else if mem n (own b) then give (Method n (Prox o c))
    else match rt_base_slot R n with
         | Some m => give (FromBase m)
         | None => throw (rt_missing R)
         end.
End Functions.
