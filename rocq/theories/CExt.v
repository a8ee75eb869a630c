(** * CExt: references and memory in the C extensions (_proxy.c, _zope_security_checker.c).

    The other files model what the extensions decide; this one models what they do with
    references: which ones each function takes and gives back on every path, whether an
    object is used that may have been freed, and whether NULL is returned exactly when an
    exception is set.

    What calls into the interpreter do is decided by an oracle (any objects, any failure,
    any other reference dropped meanwhile); each call is modelled by its documented
    reference contract (new or borrowed reference, NULL with an exception, ...). *)

From Coq Require Import List Bool Arith ZArith.
Import ListNotations.
Open Scope Z_scope.

Definition obj := nat.
(** A [PyObject *]; [None] is NULL. *)
Definition ptr := option obj.

(** The oracle's answer to one call: the object returned if any, the sign and value of
    an integer result, and for every object whether other owners dropped it meanwhile. *)
Record answer := mkAns {
  an_ptr : ptr; an_neg : bool; an_nat : nat; an_drops : obj -> bool }.

(** What is called, as far as decisions depend on it: a check by the checker of a proxy, the
    wrapping of a result by it, the operation that a slot forwards, the description of an object
    in place of its text; a look into a permission table or into the registry, the thread's
    interaction, the question to the policy, the truth value of its answer, membership in
    [_available_by_default], hasattr(), isinstance(), a checker factory, [__Security_checker__]
    of a value, the construction of a proxy; an exception set by this code itself; the
    formatting of a text; anything else. *)
Inductive api : Type :=
| ACheck | AWrap | AOp | ADescribe
| AItem | AInteraction | APolicy | ATruth | AMember | AHas | AInstance | AFactory | AOwn | AProxy
| ARaise | AFormat | AEncode | AAttr | AArgs | AOther.
(** How a call ended: with an exception, with an object, with an int, with NULL and without an
    exception. *)
Inductive outcome : Type := Failed | Gave (o : obj) | Num (n : nat) | Nothing.
Record entry := mkE { en_api : api; en_args : list ptr; en_out : outcome }.

(** [own]: how many references the running C code owns.  [exc]: is an exception set.
    [weak]: objects known by borrowed references only.  [fault]: has anything undefined
    happened.  [step]: calls made so far.  [log]: which ones, the latest first; it is not
    part of the program.  [f1], [f2]: the two pointers in the struct of a
    proxy (proxy_object, proxy_checker) or checker (getperms, setperms). *)
Record cst := mkC {
  own : obj -> Z; exc : bool; weak : list obj; fault : bool; step : nat;
  f1 : obj -> ptr; f2 : obj -> ptr; log : list entry }.

(** Computations; [None]: does not return (only a loop can do that). *)
Definition C (A : Type) := cst -> option (A * cst).
Definition ret {A} (a : A) : C A := fun s => Some (a, s).
Definition bind {A B} (m : C A) (f : A -> C B) : C B := fun s =>
  match m s with
  | None => None
  | Some (a, s') => f a s'
  end.
Notation "x <- m ;; k" := (bind m (fun x => k)) (at level 61, m at next level, right associativity).
Notation "m ;;; k" := (bind m (fun _ => k)) (at level 61, right associativity).

(** Static objects of the interpreter and of the two modules. *)
Definition Py_None : obj := 0%nat.
Definition Py_True : obj := 1%nat.
Definition Py_False : obj := 2%nat.
Definition Py_NotImplemented : obj := 3%nat.
Definition CheckerPublic : obj := 4%nat.
Definition NoProxy : obj := 5%nat.
Definition defaultChecker : obj := 6%nat.
Definition checkers : obj := 7%nat.
Definition available_by_default : obj := 8%nat.
Definition thread_local : obj := 9%nat.
Definition Proxy : obj := 10%nat.
Definition ForbiddenAttribute : obj := 11%nat.
Definition Unauthorized : obj := 12%nat.
Definition PyExc_ValueError : obj := 13%nat.
Definition PyExc_Exception : obj := 14%nat.
Definition str_check : obj := 15%nat.
Definition str_check_getattr : obj := 16%nat.
Definition str_check_setattr : obj := 17%nat.
Definition str_proxy : obj := 18%nat.
Definition str_interaction : obj := 19%nat.
Definition str_checkPermission : obj := 20%nat.
Definition str_Security_checker : obj := 21%nat.
Definition str_class : obj := 22%nat.
Definition str_name : obj := 23%nat.
Definition str_module : obj := 24%nat.
(** The names of operations that are not macro arguments, interned by _proxy.c 44-109. *)
Definition str_iter : obj := 100%nat.
Definition str_next : obj := 101%nat.
Definition str_call : obj := 102%nat.
Definition str_str : obj := 103%nat.
Definition str_repr : obj := 104%nat.
Definition str_int : obj := 105%nat.
Definition str_float : obj := 106%nat.
Definition str_pow : obj := 107%nat.
Definition str_rpow : obj := 108%nat.
Definition str_pow3 : obj := 109%nat.
Definition str_len : obj := 110%nat.
Definition str_contains : obj := 111%nat.
Definition str_getitem : obj := 112%nat.
Definition str_setitem : obj := 113%nat.
Definition str_delitem : obj := 114%nat.
Definition static (o : obj) : bool := Nat.ltb o 26 || (Nat.leb 100 o && Nat.ltb o 120).

Definition bump (o : obj) (z : Z) (L : obj -> Z) : obj -> Z :=
  fun x => if Nat.eqb x o then L x + z else L x.
Definition set_own L s := mkC L (exc s) (weak s) (fault s) (step s) (f1 s) (f2 s) (log s).
Definition set_exc b s := mkC (own s) b (weak s) (fault s) (step s) (f1 s) (f2 s) (log s).
Definition set_fault s := mkC (own s) (exc s) (weak s) true (step s) (f1 s) (f2 s) (log s).
Definition upd {A} (f : obj -> A) (x : obj) (a : A) : obj -> A :=
  fun y => if Nat.eqb y x then a else f y.
Definition set_f1 f s := mkC (own s) (exc s) (weak s) (fault s) (step s) f (f2 s) (log s).
Definition set_f2 f s := mkC (own s) (exc s) (weak s) (fault s) (step s) (f1 s) f (log s).
Definition set_log l s := mkC (own s) (exc s) (weak s) (fault s) (step s) (f1 s) (f2 s) l.

Definition is_ptr (p : ptr) (o : obj) : bool :=
  match p with Some x => Nat.eqb x o | None => false end.

Section Ext.
  Variable oracle : nat -> answer.
  (** The objects the caller keeps alive during the call. *)
  Variable args : list obj.
  (** Types, which do not change: is it a security proxy, a Checker, a string; is its type
      the class [_Proxy] itself; has it the two mapping slots, nb_int, tp_iternext. *)
  Variables is_proxy is_checker is_str exact_proxy has_sub has_ass has_num has_next : obj -> bool.
  (** Text of a string: does it begin with one, two underscores; is it "__iter__". *)
  Variables char0 char1 is_iter : obj -> bool.

  (** Is it certain that the object exists: it is static, kept by the caller, in a struct
      kept by the caller, owned, or borrowed and not dropped by its owner. *)
  Definition alive (s : cst) (o : obj) : bool :=
    static o || existsb (Nat.eqb o) args
    || existsb (fun a => is_ptr (f1 s a) o || is_ptr (f2 s a) o) args
    || Z.ltb 0 (own s o) || existsb (Nat.eqb o) (weak s).

  Definition crash {A} (a : A) : C A := fun s => Some (a, set_fault s).
  (** An object is handed to the interpreter or looked at: it must not be NULL and must
      exist. *)
  Definition use (p : ptr) : C unit := fun s =>
    match p with
    | None => Some (tt, set_fault s)
    | Some o => if alive s o then Some (tt, s) else Some (tt, set_fault s)
    end.
  Fixpoint uses (l : list ptr) : C unit :=
    match l with
    | [] => ret tt
    | p :: l' => use p ;;; uses l'
    end.

  (** Something runs that the oracle decides. *)
  Definition elsewhere : C answer := fun s =>
    let a := oracle (step s) in
    Some (a, mkC (own s) (exc s) (filter (fun o => negb (an_drops a o)) (weak s)) (fault s)
                 (S (step s)) (f1 s) (f2 s) (log s)).
  (** A call into the interpreter; none may be made while an exception is set. *)
  Definition call (l : list ptr) : C answer :=
    uses l ;;;
    (fun s => if exc s then Some (tt, set_fault s) else Some (tt, s)) ;;;
    elsewhere.

  Definition incref (p : ptr) : C unit :=
    use p ;;;
    match p with
    | None => ret tt
    | Some o => fun s => Some (tt, set_own (bump o 1 (own s)) s)
    end.
  (** Giving back a reference that is not owned is a fault.  What is destroyed runs code. *)
  Definition decref (p : ptr) : C unit :=
    match p with
    | None => crash tt
    | Some o =>
        (fun s => if Z.ltb 0 (own s o) then Some (tt, set_own (bump o (-1) (own s)) s)
                  else Some (tt, set_fault s)) ;;;
        _ <- elsewhere ;; ret tt
    end.
  Definition xdecref (p : ptr) : C unit :=
    match p with None => ret tt | Some _ => decref p end.
  Definition raise_exc : C unit := fun s => Some (tt, set_exc true s).
  Definition PyErr_Clear : C unit := fun s => Some (tt, set_exc false s).

  Definition note (k : api) (l : list ptr) (x : outcome) : C unit := fun s =>
    Some (tt, set_log (mkE k l x :: log s) s).

  (** Calls that return a new reference, or NULL with an exception. *)
  Definition call_new (k : api) (l : list ptr) : C ptr :=
    a <- call l ;;
    match an_ptr a with
    | None => note k l Failed ;;; raise_exc ;;; ret None
    | Some o => note k l (Gave o) ;;; fun s => Some (Some o, set_own (bump o 1 (own s)) s)
    end.
  (** PyIter_Next: NULL also without exception.  The type must have tp_iternext. *)
  Definition PyIter_Next (p : ptr) : C ptr :=
    use p ;;;
    match p with
    | Some o =>
        if has_next o then
          a <- call [p] ;;
          match an_ptr a with
          | None => if an_neg a then note AOp [p] Failed ;;; raise_exc ;;; ret None
                    else note AOp [p] Nothing ;;; ret None
          | Some o => note AOp [p] (Gave o) ;;; fun s => Some (Some o, set_own (bump o 1 (own s)) s)
          end
        else crash None
    | None => ret None
    end.
  (** Calls that return an int, negative with an exception. *)
  Definition call_int (k : api) (l : list ptr) : C Z :=
    a <- call l ;;
    if an_neg a then note k l Failed ;;; raise_exc ;;; ret (-1)
    else note k l (Num (an_nat a)) ;;; ret (Z.of_nat (an_nat a)).
  (** PyObject_HasAttr and the like: never fails. *)
  Definition call_flag (k : api) (l : list ptr) : C bool :=
    a <- call l ;; note k l (Num (if an_neg a then 1 else 0)) ;;; ret (an_neg a).
  (** PyDict_GetItem: a borrowed reference or NULL; errors are swallowed. *)
  Definition PyDict_GetItem (d k : ptr) : C ptr :=
    a <- call [d; k] ;;
    match an_ptr a with
    | None => note AItem [d; k] Nothing ;;; ret None
    | Some o => note AItem [d; k] (Gave o) ;;; fun s => Some (Some o, mkC (own s) (exc s) (o :: weak s) (fault s) (step s) (f1 s) (f2 s) (log s))
    end.
  (** PyErr_SetObject *)
  Definition PyErr_SetObject (c v : ptr) : C unit :=
    uses [c; v] ;;; note ARaise [c; v] Failed ;;; raise_exc.

  (** Fields of a struct that is kept by the caller. *)
  Definition get1 (self : obj) : C ptr := use (Some self) ;;; fun s => Some (f1 s self, s).
  Definition get2 (self : obj) : C ptr := use (Some self) ;;; fun s => Some (f2 s self, s).
  (** [p->ob_type] *)
  Definition deref (p : ptr) : C obj :=
    use p ;;; match p with Some o => ret o | None => ret 0%nat end.

  (** ** _proxy.c *)

  (** 128-153 *)
  Definition check (self meth name : obj) : C Z :=
    chk <- get2 self ;;
    c <- deref chk ;;
    ob <- get1 self ;;
    if has_ass c && negb (Nat.eqb meth str_check_setattr) then
      call_int ACheck [chk; ob; Some name]
    else
      r <- call_new ACheck [chk; Some meth; ob; Some name] ;;
      match r with
      | None => ret (-1)
      | Some _ => decref r ;;; ret 0
      end.

  (** 161-173 *)
  Definition PROXY_RESULT (self : obj) (result : ptr) : C ptr :=
    match result with
    | None => ret None
    | Some _ =>
        chk <- get2 self ;;
        c <- deref chk ;;
        tmp <- (if has_sub c then call_new AWrap [chk; result]
                else call_new AWrap [chk; Some str_proxy; result]) ;;
        decref result ;;; ret tmp
    end.

  (** 177-187; also proxy_iter 336-347, proxy_getattro 362-373, proxy_call 460-471 and
      proxy_getitem 653-664, which differ in the name checked and in what is called with
      the object: [others] are the further arguments of that call. *)
  Definition checked (self meth name : obj) (others : list ptr) : C ptr :=
    i <- check self meth name ;;
    if Z.leb 0 i then
      ob <- get1 self ;;
      result <- call_new AOp (ob :: others) ;;
      PROXY_RESULT self result
    else ret None.
  Definition check1 (self opname : obj) : C ptr := checked self str_check opname [].

  Definition not_implemented : C ptr :=
    incref (Some Py_NotImplemented) ;;; ret (Some Py_NotImplemented).

  (** 189-221 *)
  Definition check2 (self other opname ropname : obj) : C ptr :=
    if is_proxy self then
      i <- check self str_check opname ;;
      if Z.leb 0 i then
        ob <- get1 self ;;
        result <- call_new AOp [ob; Some other] ;;
        PROXY_RESULT self result
      else ret None
    else if is_proxy other then
      i <- check other str_check ropname ;;
      if Z.leb 0 i then
        ob <- get1 other ;;
        result <- call_new AOp [Some self; ob] ;;
        PROXY_RESULT other result
      else ret None
    else not_implemented.

  Definition ptr_eqb (p q : ptr) : bool :=
    match p, q with
    | None, None => true
    | Some a, Some b => Nat.eqb a b
    | _, _ => false
    end.

  (** 223-244 *)
  Definition check2i (self other opname : obj) : C ptr :=
    i <- check self str_check opname ;;
    if Z.leb 0 i then
      ob <- get1 self ;;
      result <- call_new AOp [ob; Some other] ;;
      ob' <- get1 self ;;
      if ptr_eqb result ob' then
        decref result ;;; incref (Some self) ;;; ret (Some self)
      else PROXY_RESULT self result
    else ret None.

  (** 263-290.  [parsed]: the two arguments if parsing succeeds, else an exception is set;
      [fresh]: the new object, with NULL in its fields, if there is memory. *)
  Definition proxy_new (parsed : option (obj * obj)) (fresh : ptr) : C ptr :=
    match parsed with
    | None => raise_exc ;;; ret None
    | Some (object, checker) =>
        if Nat.eqb checker Py_None then raise_exc ;;; ret None
        else
          a <- call [] ;;
          match fresh with
          | None => raise_exc ;;; ret None
          | Some self =>
              (fun s => Some (tt, set_f2 (upd (f2 s) self None) (set_f1 (upd (f1 s) self None)
                                  (set_own (bump self 1 (own s)) s)))) ;;;
              incref (Some object) ;;; incref (Some checker) ;;;
              (fun s => Some (tt, set_f1 (upd (f1 s) self (Some object)) s)) ;;;
              (fun s => Some (tt, set_f2 (upd (f2 s) self (Some checker)) s)) ;;;
              ret (Some self)
          end
    end.

  (** The macro CLEAR, 116, on the field [proxy_checker]: the reference in the struct is
      given back after the field was reset. *)
  Definition clear2 (self : obj) : C unit := fun s =>
    match f2 s self with
    | None => Some (tt, s)
    | Some t => (_ <- elsewhere ;; ret tt)
                  (set_own (bump t (-1) (own s)) (set_f2 (upd (f2 s) self None) s))
    end.
  Definition clear1 (self : obj) : C unit := fun s =>
    match f1 s self with
    | None => Some (tt, s)
    | Some t => (_ <- elsewhere ;; ret tt)
                  (set_own (bump t (-1) (own s)) (set_f1 (upd (f1 s) self None) s))
    end.
  (** 300-306, with tp_clear of the base type, which clears [proxy_object] *)
  Definition proxy_clear (self : obj) : C unit := clear2 self ;;; clear1 self.

  (** 324-334 *)
  Definition proxy_richcompare (self other : obj) : C ptr :=
    ob <- get1 self ;;
    result <- call_new AOp [ob; Some other] ;;
    if ptr_eqb result (Some Py_True) || ptr_eqb result (Some Py_False) then ret result
    else PROXY_RESULT self result.

  (** 336-347 *)
  Definition proxy_iter (self : obj) : C ptr := checked self str_check str_iter [].

  (** 349-360 *)
  Definition proxy_iternext (self : obj) : C ptr :=
    i <- check self str_check_getattr str_next ;;
    if Z.leb 0 i then
      ob <- get1 self ;;
      result <- PyIter_Next ob ;;
      PROXY_RESULT self result
    else ret None.

  (** 362-373 *)
  Definition proxy_getattro (self name : obj) : C ptr :=
    checked self str_check_getattr name [Some name].

  (** 375-381; [value] NULL means deletion *)
  Definition proxy_setattro (self name : obj) (value : ptr) : C Z :=
    i <- check self str_check_setattr name ;;
    if Z.leb 0 i then
      ob <- get1 self ;;
      call_int AOp (ob :: Some name :: match value with None => [] | Some _ => [value] end)
    else ret (-1).

  (** MAKE_STRING, 26-27: PyUnicode_AsUTF8String makes a new bytes object; the macro
      PyBytes_AS_STRING computes an address within it, which for NULL is a wrong one
      different from NULL.  The result is that bytes object, [None] the wrong address. *)
  Definition MAKE_STRING (name : ptr) : C ptr := call_new AEncode [name].
  (** Reading characters *)
  Definition chars (p : ptr) : C unit := use p.

  (** PyUnicode_FromFormat with the texts and the address of the object: reads the texts. *)
  Definition from_format (object : ptr) (texts : list ptr) : C ptr :=
    uses texts ;;;
    a <- elsewhere ;;
    match an_ptr a with
    | None => note AFormat (object :: texts) Failed ;;; raise_exc ;;; ret None
    | Some o => note AFormat (object :: texts) (Gave o) ;;; fun s => Some (Some o, set_own (bump o 1 (own s)) s)
    end.

  (** 383-420.  The tests of [sname] and [smodule] against NULL never succeed, see
      MAKE_STRING. *)
  Definition default_repr (object : ptr) : C ptr :=
    klass <- call_new ADescribe [object; Some str_class] ;;
    match klass with
    | None => ret None
    | Some _ =>
        name <- call_new AAttr [klass; Some str_name] ;;
        match name with
        | None => decref klass ;;; ret None
        | Some _ =>
            sname <- MAKE_STRING name ;;
            module <- call_new AAttr [klass; Some str_module] ;;
            result <- match module with
                      | Some _ =>
                          smodule <- MAKE_STRING module ;;
                          from_format object [smodule; sname]
                      | None => PyErr_Clear ;;; from_format object [sname]
                      end ;;
            decref klass ;;; xdecref name ;;; xdecref module ;;; ret result
        end
    end.

  (** 422-437 for the name [str_str] and, with another function, 439-452 for [str_repr] *)
  Definition proxy_text (name self : obj) : C ptr :=
    i <- check self str_check name ;;
    if Z.leb 0 i then ob <- get1 self ;; call_new AOp [ob]
    else PyErr_Clear ;;; ob <- get1 self ;; default_repr ob.

  (** 454-458 *)
  Definition proxy_hash (self : obj) : C Z := ob <- get1 self ;; call_int AOp [ob].

  (** 460-471 *)
  Definition proxy_call (self a : obj) (kwds : ptr) : C ptr :=
    checked self str_check str_call
      (Some a :: match kwds with None => [] | Some _ => [kwds] end).

  (** 477-491: the macro NUMBER_METHOD *)
  Definition call_number (p : ptr) : C ptr :=
    o <- deref p ;;
    if has_num o then call_new AOp [p] else raise_exc ;;; ret None.
  (** UNOP(int, call_int) for the name [str_int], UNOP(float, call_float) for [str_float] *)
  Definition proxy_number (name self : obj) : C ptr :=
    i <- check self str_check name ;;
    if Z.leb 0 i then
      ob <- get1 self ;;
      result <- call_number ob ;;
      PROXY_RESULT self result
    else ret None.

  (** 506-544; the interpreter passes None for a missing modulus *)
  Definition proxy_pow (self other modulus : obj) : C ptr :=
    if is_proxy self then checked self str_check str_pow [Some other; Some modulus]
    else if is_proxy other then
      i <- check other str_check str_rpow ;;
      if Z.leb 0 i then
        ob <- get1 other ;;
        result <- call_new AOp [Some self; ob; Some modulus] ;;
        PROXY_RESULT other result
      else ret None
    else if is_proxy modulus then
      i <- check modulus str_check str_pow3 ;;
      if Z.leb 0 i then
        ob <- get1 modulus ;;
        result <- call_new AOp [Some self; Some other; ob] ;;
        PROXY_RESULT modulus result
      else ret None
    else not_implemented.

  (** 556-560 *)
  Definition proxy_bool (self : obj) : C Z := ob <- get1 self ;; call_int AOp [ob].

  (** 586-592, and 641-647 with [others] *)
  Definition checked_int (self name : obj) (others : list ptr) : C Z :=
    i <- check self str_check name ;;
    if Z.leb 0 i then ob <- get1 self ;; call_int AOp (ob :: others)
    else ret (-1).
  Definition proxy_length (self : obj) : C Z := checked_int self str_len [].
  Definition proxy_contains (self value : obj) : C Z := checked_int self str_contains [Some value].

  (** 594-607; [matches]: is the exception an AttributeError *)
  Definition proxy_length_hint (matches : bool) (self : obj) : C ptr :=
    ob <- get1 self ;;
    result <- call_new AOp [ob] ;;
    match result with
    | None => if matches then PyErr_Clear ;;; not_implemented else ret None
    | Some _ => ret result
    end.

  (** 653-664 *)
  Definition proxy_getitem (self key : obj) : C ptr :=
    checked self str_check str_getitem [Some key].

  (** 666-678 *)
  Definition proxy_setitem (self key : obj) (value : ptr) : C Z :=
    match value with
    | None => checked_int self str_delitem [Some key]
    | Some _ => checked_int self str_setitem [Some key; value]
    end.

  (** 613-624 *)
  Definition proxy_igetitem (self : obj) : C ptr :=
    key <- call_new AOther [] ;;
    match key with
    | None => ret None
    | Some k => res <- proxy_getitem self k ;; decref key ;;; ret res
    end.

  (** 627-638 *)
  Definition proxy_isetitem (self : obj) (value : ptr) : C Z :=
    key <- call_new AOther [] ;;
    match key with
    | None => ret (-1)
    | Some k => res <- proxy_setitem self k value ;; decref key ;;; ret res
    end.

  (** 811-824 *)
  Definition module_getChecker (arg : obj) : C ptr :=
    if is_proxy arg then result <- get2 arg ;; incref result ;;; ret result
    else raise_exc ;;; ret None.

  (** 826-838 *)
  Definition module_getObject (arg : obj) : C ptr :=
    result <- (if is_proxy arg then get1 arg else ret (Some arg)) ;;
    incref result ;;; ret result.

  (** ** _zope_security_checker.c *)

  (** 60-78, 80-98: the table is the first or second field *)
  Definition permission_id (get : obj -> C ptr) (self name : obj) : C ptr :=
    t <- get self ;;
    result <- match t with
              | Some _ =>
                  r <- PyDict_GetItem t (Some name) ;;
                  match r with None => ret (Some Py_None) | Some _ => ret r end
              | None => ret (Some Py_None)
              end ;;
    incref result ;;; ret result.

  (** 100-131 *)
  Definition checkPermission (permission : ptr) (object name : obj) : C Z :=
    interaction <- call_new AInteraction [Some thread_local; Some str_interaction] ;;
    match interaction with
    | None => ret (-1)
    | Some _ =>
        r <- call_new APolicy [interaction; Some str_checkPermission; permission; Some object] ;;
        decref interaction ;;;
        match r with
        | None => ret (-1)
        | Some _ =>
            i <- call_int ATruth [r] ;;
            decref r ;;;
            if Z.ltb i 0 then ret (-1)
            else if Z.eqb i 0 then
              r <- call_new AArgs [Some object; Some name; permission] ;;
              match r with
              | None => ret (-1)
              | Some _ => PyErr_SetObject (Some Unauthorized) r ;;; decref r ;;; ret (-1)
              end
            else ret 0
        end
    end.

  Definition forbidden (object name : obj) : C Z :=
    a <- call_new AArgs [Some name; Some object] ;;
    match a with
    | None => ret (-1)
    | Some _ => PyErr_SetObject (Some ForbiddenAttribute) a ;;; decref a ;;; ret (-1)
    end.

  (** 139-198.  [char0] and [char1] are what the text contains, if there is one. *)
  Definition Checker_check_int (self object name : obj) : C Z :=
    t <- get1 self ;;
    permission <- match t with
                  | Some _ => PyDict_GetItem t (Some name)
                  | None => ret None
                  end ;;
    match permission with
    | Some p =>
        if Nat.eqb p CheckerPublic then ret 0
        else i <- checkPermission permission object name ;;
             if Z.ltb i 0 then ret (-1) else ret 0
    | None =>
        operator <-
          (if is_str name then
             s0 <- MAKE_STRING (Some name) ;; chars s0 ;;;
             if char0 name then
               s1 <- MAKE_STRING (Some name) ;; chars s1 ;;; ret (char1 name)
             else ret false
           else ret false) ;;
        if operator : bool then
          ic <- call_int AMember [Some available_by_default; Some name] ;;
          if Z.ltb ic 0 then ret (-1)
          else if negb (Z.eqb ic 0) then ret 0
          else
            s2 <- MAKE_STRING (Some name) ;; chars s2 ;;;
            absent <- (if is_iter name then
                         h <- call_flag AHas [Some object; Some name] ;; ret (negb h)
                       else ret false) ;;
            if absent : bool then ret 0 else forbidden object name
        else forbidden object name
    end.

  Definition none : C ptr := incref (Some Py_None) ;;; ret (Some Py_None).

  (** 203-216; [parsed]: as in proxy_new *)
  Definition Checker_check (self : obj) (parsed : option (obj * obj)) : C ptr :=
    match parsed with
    | None => raise_exc ;;; ret None
    | Some (object, name) =>
        i <- Checker_check_int self object name ;;
        if Z.ltb i 0 then ret None else none
    end.

  (** 220-254 *)
  Definition Checker_check_setattr (self : obj) (parsed : option (obj * obj)) : C ptr :=
    match parsed with
    | None => raise_exc ;;; ret None
    | Some (object, name) =>
        t <- get2 self ;;
        permission <- match t with
                      | Some _ => PyDict_GetItem t (Some name)
                      | None => ret None
                      end ;;
        match permission with
        | Some p =>
            if Nat.eqb p CheckerPublic then none
            else i <- checkPermission permission object name ;;
                 if Z.ltb i 0 then ret None else none
        | None => _ <- forbidden object name ;; ret None
        end
    end.

  (** 535-550 *)
  Fixpoint select_loop (fuel : nat) (checker : ptr) (object : obj) : C ptr :=
    match fuel with
    | O => fun _ => None
    | S fuel' =>
        c <- deref checker ;;
        if is_checker c then ret checker
        else
          newchecker <- call_new AFactory [checker; Some object] ;;
          decref checker ;;;
          match newchecker with
          | None => ret None
          | Some n =>
              if Nat.eqb n NoProxy || Nat.eqb n Py_None then
                decref newchecker ;;; none
              else select_loop fuel' newchecker object
          end
    end.

  (** 500-555.  PyObject_IsInstance can fail, which counts as true. *)
  Definition selectChecker (fuel : nat) (object : obj) : C ptr :=
    c <- PyDict_GetItem (Some checkers) (Some object) ;;
    let checker := match c with None => Some defaultChecker | Some _ => c end in
    if ptr_eqb checker (Some NoProxy) then none
    else
      excluded <- (if ptr_eqb checker (Some defaultChecker) then
                     i <- call_int AInstance [Some object; Some PyExc_Exception] ;; ret (negb (Z.eqb i 0))
                   else ret false) ;;
      if excluded : bool then
        none
      else incref checker ;;; select_loop fuel checker object.

  (** 261-313 *)
  Definition Checker_proxy (fuel : nat) (value : obj) : C ptr :=
    if exact_proxy value then incref (Some value) ;;; ret (Some value)
    else
      checker <- call_new AOwn [Some value; Some str_Security_checker] ;;
      match checker with
      | None =>
          PyErr_Clear ;;;
          checker <- selectChecker fuel value ;;
          match checker with
          | None => ret None
          | Some c =>
              if Nat.eqb c Py_None then
                decref checker ;;; incref (Some value) ;;; ret (Some value)
              else
                r <- call_new AProxy [Some Proxy; Some value; checker] ;;
                decref checker ;;; ret r
          end
      | Some c =>
          if Nat.eqb c Py_None then
            errv <- call_new AArgs [Some value] ;;
            match errv with
            | None => ret None
            | Some _ => PyErr_SetObject (Some PyExc_ValueError) errv ;;; decref errv ;;; ret None
            end
          else
            r <- call_new AProxy [Some Proxy; Some value; checker] ;;
            decref checker ;;; ret r
      end.

  (** 337-343 *)
  Definition Checker_clear (self : obj) : C unit := clear1 self ;;; clear2 self.

  (** 364-381 *)
  Definition Checker_init (self : obj) (parsed : option (obj * ptr)) : C Z :=
    match parsed with
    | None => raise_exc ;;; ret (-1)
    | Some (getperms, setperms) =>
        incref (Some getperms) ;;;
        (fun s => Some (tt, set_f1 (upd (f1 s) self (Some getperms)) s)) ;;;
        match setperms with None => ret tt | Some _ => incref setperms end ;;;
        (fun s => Some (tt, set_f2 (upd (f2 s) self setperms) s)) ;;;
        ret 0
    end.

  (** 383-395; 397-409 is the same for the other field *)
  Definition Checker_get_get_permissions (self : obj) : C ptr :=
    t <- get1 self ;;
    match t with
    | Some _ => incref t ;;; ret t
    | None =>
        d <- call_new AOther [] ;;
        (fun s => Some (tt, set_f1 (upd (f1 s) self d) s)) ;;;
        match d with
        | None => ret None
        | Some _ => incref d ;;; ret d
        end
    end.
  Definition Checker_get_set_permissions (self : obj) : C ptr :=
    t <- get2 self ;;
    match t with
    | Some _ => incref t ;;; ret t
    | None =>
        d <- call_new AOther [] ;;
        (fun s => Some (tt, set_f2 (upd (f2 s) self d) s)) ;;;
        match d with
        | None => ret None
        | Some _ => incref d ;;; ret d
        end
    end.
End Ext.
