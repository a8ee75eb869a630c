(** * CExtAgreeSpec: when the calls made by the C code are answered as the model of the
    package says.

    CExt.v follows the C code reference by reference and leaves what other code answers to an
    oracle; CheckerModel.v and ProxyModel.v say what the extensions do in terms of Python
    objects.  Here: what a call logged by the former means in the latter. *)

From Coq Require Import List String Bool Arith ZArith.
From Verif Require Import Base Domain CheckerModel ProxyModel.
From Verif Require CExt.
Import ListNotations.
Open Scope string_scope.

(** What the objects of the C heap are: as a value; as a name, if it is a string; as a
    permission, if it is in a table; which dictionary, if it is one; the values in it, if it is
    a tuple; the text in it, if it is a bytes object. *)
Record world := mkWorld {
  vl : CExt.obj -> value;
  nm : CExt.obj -> name;
  pm : CExt.obj -> perm;
  tb : CExt.obj -> id;
  tup : CExt.obj -> list value;
  txt : CExt.obj -> string }.

(** The static objects are what they are called, and nothing else is. *)
Record named (W : world) : Prop := mkNamed {
  nd_none : forall o, vl W o = VNone <-> o = CExt.Py_None;
  nd_bool : forall o, (exists b, vl W o = VBool b) <-> o = CExt.Py_True \/ o = CExt.Py_False;
  nd_noproxy : forall o, vl W o = VNoProxy <-> o = CExt.NoProxy;
  nd_default : forall o, vl W o = VChk default_cid <-> o = CExt.defaultChecker;
  nd_public : forall o, pm W o = PPublic <-> o = CExt.CheckerPublic;
  nd_iter : nm W CExt.str_iter = "__iter__";
  nd_next : nm W CExt.str_next = "__next__";
  nd_call : nm W CExt.str_call = "__call__";
  nd_str : nm W CExt.str_str = "__str__";
  nd_repr : nm W CExt.str_repr = "__repr__";
  nd_int : nm W CExt.str_int = "__int__";
  nd_float : nm W CExt.str_float = "__float__";
  nd_pow : nm W CExt.str_pow = "__pow__";
  nd_rpow : nm W CExt.str_rpow = "__rpow__";
  nd_pow3 : nm W CExt.str_pow3 = "__3pow__";
  nd_len : nm W CExt.str_len = "__len__";
  nd_contains : nm W CExt.str_contains = "__contains__";
  nd_getitem : nm W CExt.str_getitem = "__getitem__";
  nd_setitem : nm W CExt.str_setitem = "__setitem__";
  nd_delitem : nm W CExt.str_delitem = "__delitem__" }.

(** What the types say: security proxies are proxies, and checkers of the package are called
    through their slots. *)
Record typed (W : world) (is_proxy exact_proxy has_sub has_ass : CExt.obj -> bool) : Prop := mkTyped {
  ty_proxy : forall o, is_proxy o = Domain.is_proxy (vl W o);
  ty_exact : forall o, exact_proxy o = Domain.is_proxy (vl W o);
  ty_ass : forall o, has_ass o = true <-> exists c, vl W o = VChk c }.

(** The method of a checker that a C string names. *)
Inductive method : CExt.obj -> chkmode -> Prop :=
| me_check : method CExt.str_check MCheck
| me_getattr : method CExt.str_check_getattr MGetattr
| me_setattr : method CExt.str_check_setattr MSetattr.

(** An int returned for a value. *)
Inductive counts : value -> nat -> Prop :=
| co_int n : counts (VInt (Z.of_nat n)) n
| co_true n : n <> O -> counts (VBool true) n
| co_false : counts (VBool false) 0
| co_done : counts VNone 0.

(** The structs of proxies are changed by nobody. *)
Definition calm (s s' : state) : Prop :=
  forall p x, st_prox s p = Some x -> st_prox s' p = Some x.

Section Answers.
  Variable E : env.
  Variable W : world.
  Variable is_checker : CExt.obj -> bool.
  (** Which operation on behalf of whom a slot forwards, given the arguments. *)
  Variable k : kind.
  Variable oper : list CExt.ptr -> option op.

  Notation call := CExt.mkE.

  (** [answers f calls x s x' s' tr]: from the state [s], the calls were answered as foreign code
      and the rest of the package, run with the fuel [f], answer them; that led to the state [s']
      with the events [tr].  [x], [x']: the exception set before and after, if any.  There is
      memory, and texts can be encoded: no answer says otherwise. *)
  Inductive answers : nat -> list CExt.entry -> option exn -> state -> option exn -> state -> list event -> Prop :=
  | an_done f x s : answers f [] x s x s []
  (* permission tables *)
  | an_item f t n p rest x s x' s' tr :
      t <> CExt.checkers -> dget String.eqb (st_dicts s (tb W t)) (nm W n) = Some (pm W p) ->
      answers f rest None s x' s' tr ->
      answers f (call CExt.AItem [Some t; Some n] (CExt.Gave p) :: rest) x s x' s' tr
  | an_no_item f t n rest x s x' s' tr :
      t <> CExt.checkers -> dget String.eqb (st_dicts s (tb W t)) (nm W n) = None ->
      answers f rest None s x' s' tr ->
      answers f (call CExt.AItem [Some t; Some n] CExt.Nothing :: rest) x s x' s' tr
  (* the policy *)
  | an_interaction f i rest x s x' s' tr :
      tl_inter (st_tls s (e_tid E)) = Some (vl W i) -> answers f rest None s x' s' tr ->
      answers f (call CExt.AInteraction [Some CExt.thread_local; Some CExt.str_interaction] (CExt.Gave i) :: rest)
        x s x' s' tr
  | an_no_interaction f rest x s x' s' tr :
      tl_inter (st_tls s (e_tid E)) = None ->
      answers f rest (Some (EAttribute "interaction")) s x' s' tr ->
      answers f (call CExt.AInteraction [Some CExt.thread_local; Some CExt.str_interaction] CExt.Failed :: rest)
        x s x' s' tr
  | an_policy f i p ob a n b rest x s s1 t1 x' s' t2 :
      ask E (interp_n E f) (vl W i) (pm W p) (vl W ob) s = (Ok b, s1, t1) ->
      (n = O <-> b = false) -> answers f rest None s1 x' s' t2 ->
      answers f (call CExt.APolicy [Some i; Some CExt.str_checkPermission; Some p; Some ob] (CExt.Gave a) ::
                 call CExt.ATruth [Some a] (CExt.Num n) :: rest) x s x' s' (t1 ++ t2)
  | an_no_policy f i p ob e rest x s s1 t1 x' s' t2 :
      ask E (interp_n E f) (vl W i) (pm W p) (vl W ob) s = (Exc e, s1, t1) ->
      answers f rest (Some e) s1 x' s' t2 ->
      answers f (call CExt.APolicy [Some i; Some CExt.str_checkPermission; Some p; Some ob] CExt.Failed :: rest)
        x s x' s' (t1 ++ t2)
  | an_no_truth f i p ob a e rest x s s1 t1 x' s' t2 :
      ask E (interp_n E f) (vl W i) (pm W p) (vl W ob) s = (Exc e, s1, t1) ->
      answers f rest (Some e) s1 x' s' t2 ->
      answers f (call CExt.APolicy [Some i; Some CExt.str_checkPermission; Some p; Some ob] (CExt.Gave a) ::
                 call CExt.ATruth [Some a] CExt.Failed :: rest) x s x' s' (t1 ++ t2)
  (* exceptions raised by the C code *)
  | an_unauthorized f ob n p v rest x s x' s' tr :
      answers f rest (Some (EUnauthorized (vl W ob) (nm W n) (pm W p))) s x' s' tr ->
      answers f (call CExt.AArgs [Some ob; Some n; Some p] (CExt.Gave v) ::
                 call CExt.ARaise [Some CExt.Unauthorized; Some v] CExt.Failed :: rest) x s x' s' tr
  | an_forbidden f ob n v rest x s x' s' tr :
      answers f rest (Some (EForbidden (nm W n) (vl W ob))) s x' s' tr ->
      answers f (call CExt.AArgs [Some n; Some ob] (CExt.Gave v) ::
                 call CExt.ARaise [Some CExt.ForbiddenAttribute; Some v] CExt.Failed :: rest) x s x' s' tr
  | an_value_error f ob v rest x s x' s' tr :
      answers f rest (Some (EValue "Invalid value, None. for security checker")) s x' s' tr ->
      answers f (call CExt.AArgs [Some ob] (CExt.Gave v) ::
                 call CExt.ARaise [Some CExt.PyExc_ValueError; Some v] CExt.Failed :: rest) x s x' s' tr
  (* names available by default *)
  | an_text f n b rest x s x' s' tr :
      txt W b = name_text (vl W n) -> answers f rest None s x' s' tr ->
      answers f (call CExt.AEncode [Some n] (CExt.Gave b) :: rest) x s x' s' tr
  | an_member f n i rest x s x' s' tr :
      (i = O <-> mem (nm W n) available_by_default = false) -> answers f rest None s x' s' tr ->
      answers f (call CExt.AMember [Some CExt.available_by_default; Some n] (CExt.Num i) :: rest) x s x' s' tr
  | an_has f ob n i b rest x s s1 t1 x' s' t2 :
      hasattr_c (interp_n E f) (vl W ob) (nm W n) s = (Ok b, s1, t1) ->
      (i = O <-> b = false) -> answers f rest None s1 x' s' t2 ->
      answers f (call CExt.AHas [Some ob; Some n] (CExt.Num i) :: rest) x s x' s' (t1 ++ t2)
  (* the check of a proxy by its checker: by method or by slot *)
  | an_method f c me m ob n o rest x s s1 t1 x' s' t2 :
      method me m -> i_check (interp_n E f) m (vl W c) (vl W ob) (nm W n) s = (Ok tt, s1, t1) ->
      calm s s1 -> answers f rest None s1 x' s' t2 ->
      answers f (call CExt.ACheck [Some c; Some me; Some ob; Some n] (CExt.Gave o) :: rest) x s x' s' (t1 ++ t2)
  | an_no_method f c me m ob n e rest x s s1 t1 x' s' t2 :
      method me m -> i_check (interp_n E f) m (vl W c) (vl W ob) (nm W n) s = (Exc e, s1, t1) ->
      calm s s1 -> answers f rest (Some e) s1 x' s' t2 ->
      answers f (call CExt.ACheck [Some c; Some me; Some ob; Some n] CExt.Failed :: rest) x s x' s' (t1 ++ t2)
  | an_slot f c ob n i rest x s s1 t1 x' s' t2 :
      i_check (interp_n E f) (slot_mode s (vl W c) MCheck) (vl W c) (vl W ob) (nm W n) s = (Ok tt, s1, t1) ->
      calm s s1 -> answers f rest None s1 x' s' t2 ->
      answers f (call CExt.ACheck [Some c; Some ob; Some n] (CExt.Num i) :: rest) x s x' s' (t1 ++ t2)
  | an_no_slot f c ob n e rest x s s1 t1 x' s' t2 :
      i_check (interp_n E f) (slot_mode s (vl W c) MCheck) (vl W c) (vl W ob) (nm W n) s = (Exc e, s1, t1) ->
      calm s s1 -> answers f rest (Some e) s1 x' s' t2 ->
      answers f (call CExt.ACheck [Some c; Some ob; Some n] CExt.Failed :: rest) x s x' s' (t1 ++ t2)
  (* the operation *)
  | an_op f l o r rest x s s1 t1 x' s' t2 :
      oper l = Some o -> i_op (interp_n E f) k o s = (Ok (vl W r), s1, t1) ->
      calm s s1 -> answers f rest None s1 x' s' t2 ->
      answers f (call CExt.AOp l (CExt.Gave r) :: rest) x s x' s' (t1 ++ t2)
  | an_op_int f l o v n rest x s s1 t1 x' s' t2 :
      oper l = Some o -> i_op (interp_n E f) k o s = (Ok v, s1, t1) -> counts v n ->
      calm s s1 -> answers f rest None s1 x' s' t2 ->
      answers f (call CExt.AOp l (CExt.Num n) :: rest) x s x' s' (t1 ++ t2)
  | an_no_op f l o e rest x s s1 t1 x' s' t2 :
      oper l = Some o -> i_op (interp_n E f) k o s = (Exc e, s1, t1) ->
      calm s s1 -> answers f rest (Some e) s1 x' s' t2 ->
      answers f (call CExt.AOp l CExt.Failed :: rest) x s x' s' (t1 ++ t2)
  (* tp_iternext: NULL without an exception is the end, which the interpreter makes an exception *)
  | an_stop f l o rest x s s1 t1 x' s' t2 :
      oper l = Some o -> i_op (interp_n E f) k o s = (Exc EStopIteration, s1, t1) ->
      calm s s1 -> answers f rest (Some EStopIteration) s1 x' s' t2 ->
      answers f (call CExt.AOp l CExt.Nothing :: rest) x s x' s' (t1 ++ t2)
  (* its result *)
  | an_wrap f c l v r rest x s s1 t1 x' s' t2 :
      l = [Some c; Some v] \/ l = [Some c; Some CExt.str_proxy; Some v] ->
      checker_proxy E (interp_n E f) (vl W c) (vl W v) s = (Ok (vl W r), s1, t1) ->
      calm s s1 -> answers f rest None s1 x' s' t2 ->
      answers f (call CExt.AWrap l (CExt.Gave r) :: rest) x s x' s' (t1 ++ t2)
  | an_no_wrap f c l v e rest x s s1 t1 x' s' t2 :
      l = [Some c; Some v] \/ l = [Some c; Some CExt.str_proxy; Some v] ->
      checker_proxy E (interp_n E f) (vl W c) (vl W v) s = (Exc e, s1, t1) ->
      calm s s1 -> answers f rest (Some e) s1 x' s' t2 ->
      answers f (call CExt.AWrap l CExt.Failed :: rest) x s x' s' (t1 ++ t2)
  (* the text in place of a refused str() or repr() *)
  | an_class f ob r rest x s s1 t1 x' s' t2 :
      i_op (interp_n E f) Probe (OGetattr (vl W ob) "__class__" None) s = (Ok (vl W r), s1, t1) ->
      calm s s1 -> answers f rest None s1 x' s' t2 ->
      answers f (call CExt.ADescribe [Some ob; Some CExt.str_class] (CExt.Gave r) :: rest) x s x' s' (t1 ++ t2)
  | an_no_class f ob e rest x s s1 t1 x' s' t2 :
      i_op (interp_n E f) Probe (OGetattr (vl W ob) "__class__" None) s = (Exc e, s1, t1) ->
      calm s s1 -> answers f rest (Some e) s1 x' s' t2 ->
      answers f (call CExt.ADescribe [Some ob; Some CExt.str_class] CExt.Failed :: rest) x s x' s' (t1 ++ t2)
  | an_attr f ob st n r rest x s s1 t1 x' s' t2 :
      st = CExt.str_name /\ n = "__name__" \/ st = CExt.str_module /\ n = "__module__" ->
      i_op (interp_n E f) Probe (OGetattr (vl W ob) n None) s = (Ok (vl W r), s1, t1) ->
      calm s s1 -> answers f rest None s1 x' s' t2 ->
      answers f (call CExt.AAttr [Some ob; Some st] (CExt.Gave r) :: rest) x s x' s' (t1 ++ t2)
  | an_no_attr f ob st n e rest x s s1 t1 x' s' t2 :
      st = CExt.str_name /\ n = "__name__" \/ st = CExt.str_module /\ n = "__module__" ->
      i_op (interp_n E f) Probe (OGetattr (vl W ob) n None) s = (Exc e, s1, t1) ->
      calm s s1 -> answers f rest (Some e) s1 x' s' t2 ->
      answers f (call CExt.AAttr [Some ob; Some st] CExt.Failed :: rest) x s x' s' (t1 ++ t2)
  | an_format2 f ob a b r rest x s x' s' tr :
      vl W r = VStr ("<security proxied " ++ txt W a ++ "." ++ txt W b
                     ++ " instance at " ++ e_addr E (vl W ob) ++ ">") ->
      answers f rest None s x' s' tr ->
      answers f (call CExt.AFormat [Some ob; Some a; Some b] (CExt.Gave r) :: rest) x s x' s' tr
  | an_format1 f ob b r rest x s x' s' tr :
      vl W r = VStr ("<security proxied " ++ txt W b
                     ++ " instance at " ++ e_addr E (vl W ob) ++ ">") ->
      answers f rest None s x' s' tr ->
      answers f (call CExt.AFormat [Some ob; Some b] (CExt.Gave r) :: rest) x s x' s' tr
  (* the choice of a checker *)
  | an_own f v c rest x s s1 t1 x' s' t2 :
      i_op (interp_n E f) Probe (OGetattr (vl W v) "__Security_checker__" None) s = (Ok (vl W c), s1, t1) ->
      answers f rest None s1 x' s' t2 ->
      answers f (call CExt.AOwn [Some v; Some CExt.str_Security_checker] (CExt.Gave c) :: rest) x s x' s' (t1 ++ t2)
  | an_no_own f v e rest x s s1 t1 x' s' t2 :
      i_op (interp_n E f) Probe (OGetattr (vl W v) "__Security_checker__" None) s = (Exc e, s1, t1) ->
      answers f rest (Some e) s1 x' s' t2 ->
      answers f (call CExt.AOwn [Some v; Some CExt.str_Security_checker] CExt.Failed :: rest) x s x' s' (t1 ++ t2)
  | an_registered f v c rest x s x' s' tr :
      dget rkey_eqb (st_reg s) (KType (type_of E s (vl W v))) = Some (vl W c) ->
      is_checker c = is_Checker E s (vl W c) -> answers f rest None s x' s' tr ->
      answers f (call CExt.AItem [Some CExt.checkers; Some v] (CExt.Gave c) :: rest) x s x' s' tr
  | an_unregistered f v rest x s x' s' tr :
      dget rkey_eqb (st_reg s) (KType (type_of E s (vl W v))) = None ->
      is_checker CExt.defaultChecker = is_Checker E s (VChk default_cid) -> answers f rest None s x' s' tr ->
      answers f (call CExt.AItem [Some CExt.checkers; Some v] CExt.Nothing :: rest) x s x' s' tr
  | an_instance f v i rest x s x' s' tr :
      (i = O <-> e_isexc E (type_of E s (vl W v)) = false) -> answers f rest None s x' s' tr ->
      answers f (call CExt.AInstance [Some v; Some CExt.PyExc_Exception] (CExt.Num i) :: rest) x s x' s' tr
  (* each round of the loop is a recursion of the model, with less fuel, of which enough is left *)
  | an_factory f c v n rest x s s1 t1 x' s' t2 :
      call_factory (interp_n E (S f)) (vl W c) (vl W v) s = (Ok (vl W n), s1, t1) ->
      is_checker n = is_Checker E s1 (vl W n) -> answers (S f) rest None s1 x' s' t2 ->
      answers (S (S f)) (call CExt.AFactory [Some c; Some v] (CExt.Gave n) :: rest) x s x' s' (t1 ++ t2)
  | an_no_factory f c v e rest x s s1 t1 x' s' t2 :
      call_factory (interp_n E f) (vl W c) (vl W v) s = (Exc e, s1, t1) ->
      answers f rest (Some e) s1 x' s' t2 ->
      answers (S f) (call CExt.AFactory [Some c; Some v] CExt.Failed :: rest) x s x' s' (t1 ++ t2)
  | an_new f v c r rest x s s1 t1 x' s' t2 :
      new_proxy (vl W v) (vl W c) s = (Ok (vl W r), s1, t1) -> answers f rest None s1 x' s' t2 ->
      answers f (call CExt.AProxy [Some CExt.Proxy; Some v; Some c] (CExt.Gave r) :: rest) x s x' s' (t1 ++ t2).

  (** A C function that returned [r], with the exception [x] set, did what [m] does. *)
  Definition did (r : CExt.ptr) (x : option exn) (m : M value) (s s' : state) (tr : list event) : Prop :=
    match r with
    | Some o => x = None /\ m s = (Ok (vl W o), s', tr)
    | None => exists e, x = Some e /\ m s = (Exc e, s', tr)
    end.
  (** The same for functions that return None, for those that return 0 or -1, and for those that
      return an int. *)
  Definition did_unit (r : CExt.ptr) (x : option exn) (m : M unit) (s s' : state) (tr : list event) : Prop :=
    match r with
    | Some o => o = CExt.Py_None /\ x = None /\ m s = (Ok tt, s', tr)
    | None => exists e, x = Some e /\ m s = (Exc e, s', tr)
    end.
  Definition did_status (i : Z) (x : option exn) (m : M unit) (s s' : state) (tr : list event) : Prop :=
    i = 0%Z /\ x = None /\ m s = (Ok tt, s', tr) \/
    i = (-1)%Z /\ exists e, x = Some e /\ m s = (Exc e, s', tr).
  Definition did_int (i : Z) (x : option exn) (m : M value) (s s' : state) (tr : list event) : Prop :=
    (exists n v, i = Z.of_nat n /\ counts v n /\ x = None /\ m s = (Ok v, s', tr)) \/
    i = (-1)%Z /\ exists e, x = Some e /\ m s = (Exc e, s', tr).

  (** For selectChecker, which returns None if there is to be no proxy. *)
  Definition did_option (r : CExt.ptr) (x : option exn) (m : M (option value)) (s s' : state) (tr : list event)
    : Prop :=
    match r with
    | Some o => x = None /\
        if Nat.eqb o CExt.Py_None then m s = (Ok None, s', tr) else m s = (Ok (Some (vl W o)), s', tr)
    | None => exists e, x = Some e /\ m s = (Exc e, s', tr)
    end.

  (** The text of a name, as C code looks at it. *)
  Definition spelled (is_str char0 char1 is_iter : CExt.obj -> bool) (n : CExt.obj) : Prop :=
    is_str n = true /\ char0 n && char1 n = String.prefix "__" (nm W n) /\
    is_iter n = String.eqb (nm W n) "__iter__".
  (** A field of a checker and the dictionary of the model; NULL is an empty one. *)
  Definition tabled (t : CExt.ptr) (d : id) (s : state) : Prop :=
    match t with
    | Some t => t <> CExt.checkers /\ tb W t = d
    | None => st_dicts s d = []
    end.
End Answers.

Section Slots.
  Variable E : env.
  Variable W : world.
  Variable oracle : nat -> CExt.answer.
  Variable args : list CExt.obj.
  Variables is_proxy has_sub has_ass has_num has_next : CExt.obj -> bool.
  Variable k : kind.
  Variable f : nat.

  Definition on1 (g : value -> op) (l : list CExt.ptr) : option op :=
    match l with [Some a] => Some (g (vl W a)) | _ => None end.
  Definition on2 (g : value -> value -> op) (l : list CExt.ptr) : option op :=
    match l with [Some a; Some b] => Some (g (vl W a) (vl W b)) | _ => None end.
  Definition on3 (g : value -> value -> value -> op) (l : list CExt.ptr) : option op :=
    match l with [Some a; Some b; Some c] => Some (g (vl W a) (vl W b) (vl W c)) | _ => None end.

  (** [object_op px ob p slot oper m]: called with the proxy [px] of [ob], the C function [slot],
      which forwards [oper], is the slot for the Python operation [m]; [p] is what the model calls
      the proxy.  _proxy.c 177-221, 246-252, 336-373, 460-544, 653-664.  The reflected operators
      are called by the interpreter after the left operand had its turn. *)
  Inductive object_op (px ob : CExt.obj) (p : id)
    : CExt.C CExt.ptr -> (list CExt.ptr -> option op) -> M value -> Prop :=
  | oo_unary u o : nm W o = c_unop_name u ->
      object_op px ob p (CExt.check1 oracle args has_sub has_ass px o) (on1 (OUn u))
        (i_op (interp_n E (S f)) k (OUn u (VProxy p)))
  | oo_number u o : nm W o = c_unop_name u -> has_num ob = true ->
      object_op px ob p (CExt.proxy_number oracle args has_sub has_ass has_num o px) (on1 (OUn u))
        (i_op (interp_n E (S f)) k (OUn u (VProxy p)))
  | oo_left b other o ro : nm W o = c_binop_name b ->
      object_op px ob p (CExt.check2 oracle args is_proxy has_sub has_ass px other o ro) (on2 (OBin b))
        (i_op (interp_n E (S f)) k (OBin b (VProxy p) (vl W other)))
  | oo_right b other o ro : nm W ro = c_rbinop_name b -> is_proxy other = false ->
      object_op px ob p (CExt.check2 oracle args is_proxy has_sub has_ass other px o ro) (on2 (OBin b))
        (proxy_bin_right E (interp_n E f) k p b (vl W other))
  | oo_iter :
      object_op px ob p (CExt.proxy_iter oracle args has_sub has_ass px) (on1 OIter)
        (i_op (interp_n E (S f)) k (OIter (VProxy p)))
  | oo_next : has_next ob = true ->
      object_op px ob p (CExt.proxy_iternext oracle args has_sub has_ass has_next px) (on1 ONext)
        (i_op (interp_n E (S f)) k (ONext (VProxy p)))
  | oo_getattr n fr :
      object_op px ob p (CExt.proxy_getattro oracle args has_sub has_ass px n)
        (fun l => match l with [Some a; Some b] => Some (OGetattr (vl W a) (nm W b) None) | _ => None end)
        (i_op (interp_n E (S f)) k (OGetattr (VProxy p) (nm W n) fr))
  | oo_call a :
      object_op px ob p (CExt.proxy_call oracle args has_sub has_ass px a None)
        (fun l => match l with [Some o; Some a] => Some (OCall (vl W o) (tup W a)) | _ => None end)
        (i_op (interp_n E (S f)) k (OCall (VProxy p) (tup W a)))
  | oo_pow other :
      object_op px ob p (CExt.proxy_pow oracle args is_proxy has_sub has_ass px other CExt.Py_None)
        (fun l => match l with [Some a; Some b; Some _] => Some (OBin BPow (vl W a) (vl W b)) | _ => None end)
        (i_op (interp_n E (S f)) k (OBin BPow (VProxy p) (vl W other)))
  | oo_rpow other : is_proxy other = false ->
      object_op px ob p (CExt.proxy_pow oracle args is_proxy has_sub has_ass other px CExt.Py_None)
        (fun l => match l with [Some a; Some b; Some _] => Some (OBin BPow (vl W a) (vl W b)) | _ => None end)
        (proxy_bin_right E (interp_n E f) k p BPow (vl W other))
  | oo_pow3 other modulus :
      object_op px ob p (CExt.proxy_pow oracle args is_proxy has_sub has_ass px other modulus) (on3 OPow3)
        (i_op (interp_n E (S f)) k (OPow3 (VProxy p) (vl W other) (vl W modulus)))
  | oo_rpow3 other modulus : is_proxy other = false ->
      object_op px ob p (CExt.proxy_pow oracle args is_proxy has_sub has_ass other px modulus) (on3 OPow3)
        (c_check1 E (interp_n E f) p MCheck "__rpow__"
           (fun w => i_op (interp_n E f) k (OPow3 (vl W other) w (vl W modulus))))
  | oo_3pow base other : is_proxy base = false -> is_proxy other = false ->
      object_op px ob p (CExt.proxy_pow oracle args is_proxy has_sub has_ass base other px) (on3 OPow3)
        (c_check1 E (interp_n E f) p MCheck "__3pow__"
           (fun w => i_op (interp_n E f) k (OPow3 (vl W base) (vl W other) w)))
  | oo_getitem key :
      object_op px ob p (CExt.proxy_getitem oracle args has_sub has_ass px key) (on2 OGetitem)
        (i_op (interp_n E (S f)) k (OGetitem (VProxy p) (vl W key))).

  (** The slots that return an int.  _proxy.c 375-381, 454-458, 556-560, 586-592, 641-647,
      666-678 *)
  Inductive int_op (px : CExt.obj) (p : id)
    : CExt.C Z -> (list CExt.ptr -> option op) -> M value -> Prop :=
  | io_setattr n v :
      int_op px p (CExt.proxy_setattro oracle args has_ass px n (Some v))
        (fun l => match l with
                  | [Some a; Some b; Some c] => Some (OSetattr (vl W a) (nm W b) (vl W c))
                  | _ => None end)
        (i_op (interp_n E (S f)) k (OSetattr (VProxy p) (nm W n) (vl W v)))
  | io_delattr n :
      int_op px p (CExt.proxy_setattro oracle args has_ass px n None)
        (fun l => match l with [Some a; Some b] => Some (ODelattr (vl W a) (nm W b)) | _ => None end)
        (i_op (interp_n E (S f)) k (ODelattr (VProxy p) (nm W n)))
  | io_len :
      int_op px p (CExt.proxy_length oracle args has_ass px) (on1 OLen)
        (i_op (interp_n E (S f)) k (OLen (VProxy p)))
  | io_contains v :
      int_op px p (CExt.proxy_contains oracle args has_ass px v) (on2 OContains)
        (i_op (interp_n E (S f)) k (OContains (VProxy p) (vl W v)))
  | io_setitem key v :
      int_op px p (CExt.proxy_setitem oracle args has_ass px key (Some v)) (on3 OSetitem)
        (i_op (interp_n E (S f)) k (OSetitem (VProxy p) (vl W key) (vl W v)))
  | io_delitem key :
      int_op px p (CExt.proxy_setitem oracle args has_ass px key None) (on2 ODelitem)
        (i_op (interp_n E (S f)) k (ODelitem (VProxy p) (vl W key)))
  | io_hash :
      int_op px p (CExt.proxy_hash oracle args px) (on1 OHash)
        (i_op (interp_n E (S f)) k (OHash (VProxy p)))
  | io_bool :
      int_op px p (CExt.proxy_bool oracle args px) (on1 OBool)
        (i_op (interp_n E (S f)) k (OBool (VProxy p))).

  (** The struct [px] of the C heap in the state [c] and the proxy [p] of the model in [s]: the
      same object and checker, and the checker exists. *)
  Definition stands (px ob chk : CExt.obj) (p : id) (c : CExt.cst) (s : state) : Prop :=
    vl W px = VProxy p /\ CExt.f1 c px = Some ob /\ CExt.f2 c px = Some chk /\
    st_prox s p = Some (vl W ob, vl W chk) /\
    (forall i, vl W chk = VChk i -> st_chks s i <> None).
End Slots.
