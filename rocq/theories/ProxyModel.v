(** * ProxyModel: proxy.py and _proxy.c.

    Every slot of the security proxy, for both implementations, and the
    interpreter of Python operations that dispatches between security proxies,
    decorators and foreign objects. *)

From Coq Require Import List String Bool Arith ZArith.
From Verif Require Import Base Domain CheckerModel.
Import ListNotations.
Open Scope string_scope.
Open Scope m_scope.

(** ** Operator names *)

(** _proxy.c 865-866: INIT_STRING_OP(S) interns "__" S "__". *)
Definition c_op_name (n : string) : name := "__" ++ n ++ "__".

(** _proxy.c 552-564: the NAME argument of UNOP. *)
Definition c_unop (u : unop) : string :=
  match u with
  | UNeg => "neg" | UPos => "pos" | UAbs => "abs"
  | UInvert => "invert" | UInt => "int" | UFloat => "float"
  end.

(** _proxy.c 500-504, 546-550, 577-578 and 104 (pow). *)
Definition c_binop (b : binop) : string :=
  match b with
  | BAdd => "add" | BSub => "sub" | BMul => "mul" | BMod => "mod"
  | BDivmod => "divmod" | BPow => "pow" | BLshift => "lshift" | BRshift => "rshift"
  | BAnd => "and" | BXor => "xor" | BOr => "or"
  | BFloordiv => "floordiv" | BTruediv => "truediv"
  end.

(** _proxy.c 566-580 *)
Definition c_inop (b : inop) : string :=
  match b with
  | IAdd => "add" | ISub => "sub" | IMul => "mul" | IMod => "mod"
  | IPow => "pow" | ILshift => "lshift" | IRshift => "rshift"
  | IAnd => "and" | IXor => "xor" | IOr => "or"
  | IFloordiv => "floordiv" | ITruediv => "truediv"
  end.

(** _proxy.c 246-256: str_op_NAME, str_op_rNAME, str_op_iNAME; 513, 522 for pow. *)
Definition c_unop_name (u : unop) : name := c_op_name (c_unop u).
Definition c_binop_name (b : binop) : name := c_op_name (c_binop b).
Definition c_rbinop_name (b : binop) : name := c_op_name ("r" ++ c_binop b).
Definition c_inop_name (b : inop) : name := c_op_name ("i" ++ c_inop b).

(** proxy.py 278-285 *)
Definition py_unop_name (u : unop) : name :=
  match u with
  | UNeg => "__neg__" | UPos => "__pos__" | UAbs => "__abs__"
  | UInvert => "__invert__" | UInt => "__int__" | UFloat => "__float__"
  end.
Definition py_unopx_name (u : unopx) : name :=
  match u with UComplex => "__complex__" | UIndex => "__index__" end.

(** proxy.py 286-293, 302-306 *)
Definition py_binop_name (b : binop) : name :=
  match b with
  | BAdd => "__add__" | BSub => "__sub__" | BMul => "__mul__" | BMod => "__mod__"
  | BDivmod => "__divmod__" | BPow => "__pow__"
  | BLshift => "__lshift__" | BRshift => "__rshift__"
  | BAnd => "__and__" | BXor => "__xor__" | BOr => "__or__"
  | BFloordiv => "__floordiv__" | BTruediv => "__truediv__"
  end.

(** proxy.py 294-301, 307-311 *)
Definition py_rbinop_name (b : binop) : name :=
  match b with
  | BAdd => "__radd__" | BSub => "__rsub__" | BMul => "__rmul__" | BMod => "__rmod__"
  | BDivmod => "__rdivmod__" | BPow => "__rpow__"
  | BLshift => "__rlshift__" | BRshift => "__rrshift__"
  | BAnd => "__rand__" | BXor => "__rxor__" | BOr => "__ror__"
  | BFloordiv => "__rfloordiv__" | BTruediv => "__rtruediv__"
  end.

(** proxy.py 322-334 *)
Definition py_inop_name (b : inop) : name :=
  match b with
  | IAdd => "__iadd__" | ISub => "__isub__" | IMul => "__imul__" | IMod => "__imod__"
  | IPow => "__ipow__" | ILshift => "__ilshift__" | IRshift => "__irshift__"
  | IAnd => "__iand__" | IXor => "__ixor__" | IOr => "__ior__"
  | IFloordiv => "__ifloordiv__" | ITruediv => "__itruediv__"
  end.

(** [name[3:-2]] proxy.py 53 *)
Definition slice_3_m2 (n : name) : string := substring 3 (String.length n - 5) n.

(** The comparison Python tries on the right operand. *)
Definition swap_cmp (c : cmpop) : cmpop :=
  match c with
  | CLt => CGt | CLe => CGe | CEq => CEq | CNe => CNe | CGt => CLt | CGe => CLe
  end.

(** proxy.py 106-108: attribute names that __getattribute__ does not check. *)
Definition py_unchecked_names : list name :=
  [ "__cmp__"; "__hash__"; "__bool__";
    "__lt__"; "__le__"; "__eq__"; "__ne__"; "__ge__"; "__gt__" ].

Section Model.
  Variable E : env.

  (** What the language guarantees about results of certain operations
      (e.g. str() returns a string or raises TypeError). *)
  Definition coerce (o : op) (v : value) : M value :=
    match o with
    | OStr _ | ORepr _ =>
        match v with VStr _ => ret v | _ => raise (EType "returned non-string") end
    | OLen _ | OHash _ =>
        match v with VInt _ => ret v | _ => raise (EType "returned non-integer") end
    | OBool _ | OContains _ _ =>
        match v with VBool _ => ret v | _ => raise (EType "returned non-bool") end
    | OSetattr _ _ _ | ODelattr _ _ | OSetitem _ _ _ | ODelitem _ _ => ret VNone
    | _ => ret v
    end.

  (** An operation on a value that is not a security proxy. *)
  Definition raw (k : kind) (o : op) : M value :=
    v <- foreign E k (CallOp o) ;; coerce o v.

  (** The two slots of a proxy (proxy.py 80; _proxy.c 111-114). *)
  Definition pget (p : id) : M (value * value) :=
    s <- get ;;
    match st_prox s p with
    | Some wc => ret wc
    | None => raise (EType "dangling proxy")
    end.

  Definition pset_wrapped (p : id) (w : value) : M unit :=
    wc <- pget p ;;
    s <- get ;;
    put (set_prox (upd (st_prox s) p (Some (w, snd wc))) s).

  Definition pset_checker (p : id) (c : value) : M unit :=
    wc <- pget p ;;
    s <- get ;;
    put (set_prox (upd (st_prox s) p (Some (fst wc, c))) s).

  (** ** The fallback text *)

  Definition name_text (v : value) : string :=
    match v with VStr s => s | _ => "?" end.

  (** _proxy.c 383-420.  Non-string names (impossible for real classes) are shown
      as "?". *)
  Definition default_repr_c (I : interp) (w : value) : M value :=
    klass <- i_op I Probe (OGetattr w "__class__" None) ;;
    nm <- i_op I Probe (OGetattr klass "__name__" None) ;;
    om <- catch (m <- i_op I Probe (OGetattr klass "__module__" None) ;; ret (Some m))
                (fun _ => ret None) ;;
    match om with
    | Some m => ret (VStr ("<security proxied " ++ name_text m ++ "." ++ name_text nm
                           ++ " instance at " ++ e_addr E w ++ ">"))
    | None => ret (VStr ("<security proxied " ++ name_text nm
                         ++ " instance at " ++ e_addr E w ++ ">"))
    end.

  (** proxy.py 237-240, 251-254 *)
  Definition default_repr_py (I : interp) (w : value) : M value :=
    k1 <- i_op I Probe (OGetattr w "__class__" None) ;;
    m <- i_op I Probe (OGetattr k1 "__module__" None) ;;
    k2 <- i_op I Probe (OGetattr w "__class__" None) ;;
    nm <- i_op I Probe (OGetattr k2 "__name__" None) ;;
    ret (VStr ("<security proxied " ++ name_text m ++ "." ++ name_text nm
               ++ " instance at " ++ e_addr E w ++ ">")).

  (** ** ProxyPy (proxy.py) *)

  (** proxy.py 27-38, wrap_result=True.  [meth] is the PyProxyBase method: the
      operation on the object currently wrapped. *)
  Definition py_check_name (I : interp) (p : id) (nm : name) (meth : value -> M value)
    : M value :=
    wc <- pget p ;;
    i_check I MCheck (snd wc) (fst wc) nm ;;;
    wc2 <- pget p ;;
    res <- meth (fst wc2) ;;
    checker_proxy E I (snd wc) res.

  (** proxy.py 27-38, wrap_result=False. *)
  Definition py_check_name_nowrap (I : interp) (p : id) (nm : name)
             (meth : value -> M value) : M value :=
    wc <- pget p ;;
    i_check I MCheck (snd wc) (fst wc) nm ;;;
    wc2 <- pget p ;;
    meth (fst wc2).

  (** proxy.py 41-55 *)
  Definition py_check_name_inplace (I : interp) (k : kind) (p : id) (nm : name)
             (arg : value) : M value :=
    wc <- pget p ;;
    let w := fst wc in
    let c := snd wc in
    i_check I MCheck c w nm ;;;
    w_meth <- catch (i_op I k (OGetattr w nm (Some (VProxy p))))
                    (fun e => if is_attribute_error e then ret VNone else raise e) ;;
    match w_meth with
    | VNone =>
        m <- i_op I k (OGetattr w ("__" ++ slice_3_m2 nm ++ "__") (Some (VProxy p))) ;;
        r <- i_op I k (OCall m [arg]) ;;
        new_proxy r c
    | _ =>
        r <- i_op I k (OCall w_meth [arg]) ;;
        pset_wrapped p r ;;;
        ret (VProxy p)
    end.

  (** proxy.py 95-134.  [super().__getattribute__(name)] is modelled as attribute
      access on the wrapped object (zope.proxy); attributes found only on the proxy
      class itself are not modelled. *)
  Definition py_getattribute (I : interp) (k : kind) (p : id) (n : name)
             (fr : option value) : M value :=
    let internal := String.eqb n "_wrapped" || String.eqb n "_checker" in
    let inside := match fr with Some v => value_eqb v (VProxy p) | None => false end in
    if internal && negb inside then raise (EAttribute n)
    else
      wc <- pget p ;;
      let w := fst wc in
      let c := snd wc in
      if String.eqb n "_wrapped" then ret w
      else if String.eqb n "_checker" then ret c
      else
        (if mem n py_unchecked_names then ret tt else i_check I MGetattr c w n) ;;;
        wc2 <- pget p ;;
        val <- i_op I k (OGetattr (if String.eqb n "__reduce__"
                                      || String.eqb n "__reduce_ex__"
                                      || String.eqb n "__module__"
                                   then w else fst wc2) n (Some (VProxy p))) ;;
        checker_proxy E I c val.

  (** proxy.py 136-159: called by Python when __getattribute__ raised an
      AttributeError. *)
  Definition py_getattr_fallback (I : interp) (p : id) (n : name) : M value :=
    wc <- pget p ;;
    i_check I MGetattr (snd wc) (fst wc) n ;;;
    raise (EAttribute n).

  Definition py_getattr (I : interp) (k : kind) (p : id) (n : name) (fr : option value)
    : M value :=
    catch (py_getattribute I k p n fr)
          (fun e => if is_attribute_error e then py_getattr_fallback I p n else raise e).

  (** proxy.py 161-167 *)
  Definition py_setattr (I : interp) (k : kind) (p : id) (n : name) (v : value)
    : M value :=
    if String.eqb n "_wrapped" then pset_wrapped p v ;;; ret VNone
    else if String.eqb n "_checker" then pset_checker p v ;;; ret VNone
    else
      wc <- pget p ;;
      i_check I MSetattr (snd wc) (fst wc) n ;;;
      i_op I k (OSetattr (fst wc) n v).

  (** proxy.py 169-175 *)
  Definition py_delattr (I : interp) (k : kind) (p : id) (n : name) : M value :=
    if String.eqb n "_wrapped" || String.eqb n "_checker" then raise (EAttribute "")
    else
      wc <- pget p ;;
      i_check I MSetattr (snd wc) (fst wc) n ;;;
      i_op I k (ODelattr (fst wc) n).

  (** proxy.py 177-205: no check, the result is returned as it is. *)
  Definition py_compare (I : interp) (k : kind) (p : id) (c : cmpop) (other : value)
    : M value :=
    wc <- pget p ;; i_op I k (OCmp c (fst wc) other).

  (** proxy.py 207-210 *)
  Definition py_hash (I : interp) (k : kind) (p : id) : M value :=
    wc <- pget p ;; i_op I k (OHash (fst wc)).

  (** proxy.py 212-215 *)
  Definition py_bool (I : interp) (k : kind) (p : id) : M value :=
    wc <- pget p ;; i_op I k (OBool (fst wc)).

  (** proxy.py 217-225 *)
  Definition py_length_hint (I : interp) (k : kind) (p : id) : M value :=
    wc <- pget p ;;
    oh <- catch (h <- i_op I k (OGetattr (fst wc) "__length_hint__" (Some (VProxy p))) ;;
                 ret (Some h))
                (fun e => if is_attribute_error e then ret None else raise e) ;;
    match oh with
    | None => ret VNotImpl
    | Some h => i_op I k (OCall h [])
    end.

  (** proxy.py 227-240 and 242-254 *)
  Definition py_str_like (I : interp) (p : id) (nm : name) (meth : value -> M value)
    : M value :=
    catch (py_check_name I p nm meth)
          (fun e => if is_type_error e then raise e
                    else wc <- pget p ;; default_repr_py I (fst wc)).

  (** ** The C proxy (_proxy.c) *)

  (** Which method a C proxy's call of the [__setitem__] slot ends up in: the
      checking function for Checker and CombinedChecker (checker.py 576),
      check_getattr for watching checkers (checker.py 652).  _proxy.c 133-143 *)
  Definition slot_mode (s : state) (c : value) (m : chkmode) : chkmode :=
    match c with
    | VChk i =>
        match st_chks s i with
        | Some k => match ck_kind k with
                    | CkWatching _ => MGetattr
                    | _ => MCheck
                    end
        | None => m
        end
    | _ => m
    end.

  (** _proxy.c 128-153 *)
  Definition c_check (I : interp) (p : id) (m : chkmode) (nm : name) : M unit :=
    wc <- pget p ;;
    s <- get ;;
    match m with
    | MSetattr => i_check I MSetattr (snd wc) (fst wc) nm
    | _ => i_check I (slot_mode s (snd wc) m) (snd wc) (fst wc) nm
    end.

  (** _proxy.c 161-173 *)
  Definition c_proxy_result (I : interp) (p : id) (v : value) : M value :=
    wc <- pget p ;; checker_proxy E I (snd wc) v.

  (** _proxy.c 177-187; also 336-347, 349-360, 362-373, 460-471, 653-664 which have
      the same shape. *)
  Definition c_check1 (I : interp) (p : id) (m : chkmode) (nm : name)
             (operation : value -> M value) : M value :=
    c_check I p m nm ;;;
    wc <- pget p ;;
    r <- operation (fst wc) ;;
    c_proxy_result I p r.

  (** _proxy.c 375-381, 586-592, 641-647, 666-678: checked, result not proxied. *)
  Definition c_check0 (I : interp) (p : id) (m : chkmode) (nm : name)
             (operation : value -> M value) : M value :=
    c_check I p m nm ;;;
    wc <- pget p ;;
    operation (fst wc).

  (** _proxy.c 223-244 *)
  Definition c_check2i (I : interp) (p : id) (nm : name) (operation : value -> M value)
    : M value :=
    c_check I p MCheck nm ;;;
    wc <- pget p ;;
    r <- operation (fst wc) ;;
    wc2 <- pget p ;;
    if value_eqb r (fst wc2) then ret (VProxy p)
    else c_proxy_result I p r.

  (** _proxy.c 324-334 *)
  Definition c_richcompare (I : interp) (k : kind) (p : id) (c : cmpop) (other : value)
    : M value :=
    wc <- pget p ;;
    r <- i_op I k (OCmp c (fst wc) other) ;;
    match r with
    | VBool _ => ret r
    | _ => c_proxy_result I p r
    end.

  (** _proxy.c 422-437, 439-452: any exception of the check is cleared. *)
  Definition c_str_like (I : interp) (p : id) (nm : name) (operation : value -> M value)
    : M value :=
    ok <- catch (c_check I p MCheck nm ;;; ret true) (fun _ => ret false) ;;
    wc <- pget p ;;
    if ok : bool then operation (fst wc) else default_repr_c I (fst wc).

  (** _proxy.c 594-607 *)
  Definition c_length_hint (I : interp) (k : kind) (p : id) : M value :=
    wc <- pget p ;;
    catch (h <- i_op I k (OGetattr (fst wc) "__length_hint__" None) ;;
           i_op I k (OCall h []))
          (fun e => if is_attribute_error e then ret VNotImpl else raise e).

  (** ** Dispatch *)

  Definition proxy_getattr (I : interp) (k : kind) (p : id) (n : name) (fr : option value)
    : M value :=
    match e_impl E with
    | ImplPy => py_getattr I k p n fr
    | ImplC => c_check1 I p MGetattr n (fun w => i_op I k (OGetattr w n None))
    end.

  (** proxy.py 161; _proxy.c 375-381 *)
  Definition proxy_setattr (I : interp) (k : kind) (p : id) (n : name) (v : value)
    : M value :=
    match e_impl E with
    | ImplPy => py_setattr I k p n v
    | ImplC => c_check0 I p MSetattr n (fun w => i_op I k (OSetattr w n v))
    end.

  (** proxy.py 169; _proxy.c 375-381 with value NULL *)
  Definition proxy_delattr (I : interp) (k : kind) (p : id) (n : name) : M value :=
    match e_impl E with
    | ImplPy => py_delattr I k p n
    | ImplC => c_check0 I p MSetattr n (fun w => i_op I k (ODelattr w n))
    end.

  (** A guarded operation named [nm] whose result is proxied; [m] is the checker
      method used by the C proxy. *)
  Definition proxy_guard (I : interp) (p : id) (m : chkmode) (nm : name)
             (operation : value -> M value) : M value :=
    match e_impl E with
    | ImplPy => py_check_name I p nm operation
    | ImplC => c_check1 I p m nm operation
    end.

  (** Left operand is a proxy: proxy.py 286-306; _proxy.c 195-203, 511-519. *)
  Definition proxy_bin_left (I : interp) (k : kind) (p : id) (b : binop) (r : value)
    : M value :=
    proxy_guard I p MCheck
      (match e_impl E with ImplPy => py_binop_name b | ImplC => c_binop_name b end)
      (fun w => i_op I k (OBin b w r)).

  (** Right operand is a proxy: proxy.py 294-311; _proxy.c 204-213, 520-529. *)
  Definition proxy_bin_right (I : interp) (k : kind) (p : id) (b : binop) (l : value)
    : M value :=
    proxy_guard I p MCheck
      (match e_impl E with ImplPy => py_rbinop_name b | ImplC => c_rbinop_name b end)
      (fun w => i_op I k (OBin b l w)).

  (** The binary operator that an in-place operator falls back to. *)
  Definition inop_bin (b : inop) : binop :=
    match b with
    | IAdd => BAdd | ISub => BSub | IMul => BMul | IMod => BMod
    | IPow => BPow | ILshift => BLshift | IRshift => BRshift
    | IAnd => BAnd | IXor => BXor | IOr => BOr
    | IFloordiv => BFloordiv | ITruediv => BTruediv
    end.

  (** proxy.py 41-55, 322-336; _proxy.c 254-256, 566-580 *)
  Definition proxy_inplace (I : interp) (k : kind) (p : id) (b : inop) (r : value)
    : M value :=
    match e_impl E with
    | ImplPy => py_check_name_inplace I k p (py_inop_name b) r
    | ImplC => c_check2i I p (c_inop_name b) (fun w => i_op I k (OIn b w r))
    end.

  (** Three-argument pow.  proxy.py 293; _proxy.c 506-544.  When only the second or
      third argument is a Python proxy, CPython does not call it. *)
  Definition proxy_pow3 (I : interp) (k : kind) (a b m : value) : M value :=
    match a with
    | VProxy p =>
        proxy_guard I p MCheck "__pow__" (fun w => i_op I k (OPow3 w b m))
    | _ =>
        if is_proxy b || is_proxy m then
          v <- raw k (OPow3 a b m) ;;
          if value_eqb v VNotImpl then
            match e_impl E with
            | ImplPy => raise (EType "unsupported operand type(s) for pow()")
            | ImplC =>
                match b, m with
                | VProxy p, _ =>
                    c_check1 I p MCheck "__rpow__" (fun w => i_op I k (OPow3 a w m))
                | _, VProxy p =>
                    c_check1 I p MCheck "__3pow__" (fun w => i_op I k (OPow3 a b w))
                | _, _ => ret v
                end
            end
          else ret v
        else raw k (OPow3 a b m)
    end.

  (** The attributes of a decorator that the package defines: decorator.py 34-58
      and zope.location's LocationProxy [__parent__]; everything else is zope.proxy
      forwarding, i.e. foreign code. *)
  Definition deco_getattr (I : interp) (k : kind) (d : id) (n : name) (fr : option value)
    : M value :=
    if String.eqb n "__Security_checker__" then Decorated_get E I d
    else
      s <- get ;;
      match st_decos s d with
      | Some x =>
          if String.eqb n "__parent__" && String.eqb (dc_class x) "LocationProxy"
          then ret (dc_parent x)
          else raw k (OGetattr (VDeco d) n fr)
      | None => raise (EType "dangling decorator")
      end.

  (** decorator.py 57-58 *)
  Definition deco_setattr (k : kind) (d : id) (n : name) (v : value) : M value :=
    if String.eqb n "__Security_checker__"
    then raise (EType "Can't set __Security_checker__ on a decorated object")
    else
      s <- get ;;
      match st_decos s d with
      | Some x =>
          if String.eqb n "__parent__" && String.eqb (dc_class x) "LocationProxy"
          then put (set_decos (upd (st_decos s) d
                      (Some (mkDeco (dc_class x) (dc_obj x) v))) s) ;;; ret VNone
          else raw k (OSetattr (VDeco d) n v)
      | None => raise (EType "dangling decorator")
      end.

  (** Perform a Python operation. *)
  Definition run_op (I : interp) (k : kind) (o : op) : M value :=
    match o with
    | OGetattr (VProxy p) n fr => proxy_getattr I k p n fr
    | OGetattr (VDeco d) n fr => deco_getattr I k d n fr
    | OGetattr v n fr =>
        if is_atom v && String.eqb n "__Security_checker__"
        then raise (EAttribute n)
        else raw k o
    | OSetattr (VProxy p) n v => proxy_setattr I k p n v
    | OSetattr (VDeco d) n v => deco_setattr k d n v
    | ODelattr (VProxy p) n => proxy_delattr I k p n
    | OCall (VProxy p) args =>
        proxy_guard I p MCheck "__call__" (fun w => i_op I k (OCall w args))
    | OUn u (VProxy p) =>
        proxy_guard I p MCheck
          (match e_impl E with ImplPy => py_unop_name u | ImplC => c_unop_name u end)
          (fun w => i_op I k (OUn u w))
    | OUnX u (VProxy p) =>
        match e_impl E with
        | ImplPy => py_check_name I p (py_unopx_name u) (fun w => i_op I k (OUnX u w))
        | ImplC => raw k o   (* slot inherited from zope.proxy: not modelled *)
        end
    | OBin b (VProxy p) r => proxy_bin_left I k p b r
    | OBin b l (VProxy p) =>
        v <- raw k o ;;
        if value_eqb v VNotImpl then proxy_bin_right I k p b l else ret v
    | OPow3 a b m => proxy_pow3 I k a b m
    | OIn b (VProxy p) r => proxy_inplace I k p b r
    | OIn b l (VProxy p) =>
        v <- raw k o ;;
        if value_eqb v VNotImpl then proxy_bin_right I k p (inop_bin b) l else ret v
    | OGetitem (VProxy p) key =>
        proxy_guard I p MCheck "__getitem__" (fun w => i_op I k (OGetitem w key))
    | OSetitem (VProxy p) key v =>
        match e_impl E with
        | ImplPy => py_check_name I p "__setitem__"
                      (fun w => i_op I k (OSetitem w key v)) ;;; ret VNone
        | ImplC => c_check0 I p MCheck "__setitem__"
                      (fun w => i_op I k (OSetitem w key v))
        end
    | ODelitem (VProxy p) key =>
        match e_impl E with
        | ImplPy => py_check_name I p "__delitem__"
                      (fun w => i_op I k (ODelitem w key)) ;;; ret VNone
        | ImplC => c_check0 I p MCheck "__delitem__"
                      (fun w => i_op I k (ODelitem w key))
        end
    | OContains (VProxy p) key =>
        match e_impl E with
        | ImplPy =>
            r <- py_check_name I p "__contains__" (fun w => i_op I k (OContains w key)) ;;
            b <- truth I r ;; ret (VBool b)
        | ImplC => c_check0 I p MCheck "__contains__"
                     (fun w => i_op I k (OContains w key))
        end
    | OLen (VProxy p) =>
        match e_impl E with
        | ImplPy => py_check_name_nowrap I p "__len__" (fun w => i_op I k (OLen w))
        | ImplC => c_check0 I p MCheck "__len__" (fun w => i_op I k (OLen w))
        end
    | OIter (VProxy p) =>
        proxy_guard I p MCheck "__iter__" (fun w => i_op I k (OIter w))
    | ONext (VProxy p) =>
        proxy_guard I p MGetattr "__next__" (fun w => i_op I k (ONext w))
    | OHash (VProxy p) =>
        match e_impl E with
        | ImplPy => py_hash I k p
        | ImplC => wc <- pget p ;; i_op I k (OHash (fst wc))      (* _proxy.c 454-458 *)
        end
    | OBool (VProxy p) =>
        match e_impl E with
        | ImplPy => py_bool I k p
        | ImplC => wc <- pget p ;; i_op I k (OBool (fst wc))      (* _proxy.c 556-560 *)
        end
    | OCmp c (VProxy p) other =>
        match e_impl E with
        | ImplPy => py_compare I k p c other
        | ImplC => c_richcompare I k p c other
        end
    | OCmp c v (VProxy p) =>
        r <- raw k o ;;
        if value_eqb r VNotImpl then
          match e_impl E with
          | ImplPy => py_compare I k p (swap_cmp c) v
          | ImplC => c_richcompare I k p (swap_cmp c) v
          end
        else ret r
    | OStr (VProxy p) =>
        r <- match e_impl E with
             | ImplPy => py_str_like I p "__str__" (fun w => i_op I k (OStr w))
             | ImplC => c_str_like I p "__str__" (fun w => i_op I k (OStr w))
             end ;;
        coerce o r
    | ORepr (VProxy p) =>
        r <- match e_impl E with
             | ImplPy => py_str_like I p "__repr__" (fun w => i_op I k (ORepr w))
             | ImplC => c_str_like I p "__repr__" (fun w => i_op I k (ORepr w))
             end ;;
        coerce o r
    | OLenHint (VProxy p) =>
        match e_impl E with
        | ImplPy => py_length_hint I k p
        | ImplC => c_length_hint I k p
        end
    | _ => raw k o
    end.

  (** Tie the knot.  Fuel is Python's recursion limit. *)
  Fixpoint interp_n (fuel : nat) : interp :=
    match fuel with
    | 0 => mkInterp (fun _ _ => raise EFuel)
                    (fun _ _ _ _ => raise EFuel)
                    (fun _ _ => raise EFuel)
    | S f => mkInterp (run_op (interp_n f))
                      (checker_check E (interp_n f))
                      (select_loop E (interp_n f))
    end.
End Model.

(** ** Entry points, with their recursion budget *)

(** Any Python operation performed by a client in environment [E]. *)
Definition perform (E : env) (fuel : nat) (o : op) : M value :=
  i_op (interp_n E fuel) Client o.

(** A method call on a checker. *)
Definition do_check (E : env) (fuel : nat) (m : chkmode) (c obj : value) (n : name)
  : M unit := i_check (interp_n E fuel) m c obj n.

(** zope.security.checker.selectChecker *)
Definition do_select (E : env) (fuel : nat) (obj : value) : M (option value) :=
  selectChecker E (interp_n E fuel) obj.

(** zope.security.checker.ProxyFactory *)
Definition do_ProxyFactory (E : env) (fuel : nat) (obj c : value) : M value :=
  ProxyFactory E (interp_n E fuel) obj c.

(** The [proxy] method of a checker. *)
Definition do_proxy (E : env) (fuel : nat) (c v : value) : M value :=
  checker_proxy E (interp_n E fuel) c v.

(** zope.security.checker.canAccess / canWrite *)
Definition do_canAccess (E : env) (fuel : nat) (obj : value) (n : name) : M bool :=
  canAccess E (interp_n E fuel) obj n.
Definition do_canWrite (E : env) (fuel : nat) (obj : value) (n : name) : M bool :=
  canWrite E (interp_n E fuel) obj n.

(** proxy.py 379-386: [isinstance] that looks through the proxy; the class test
    itself is a builtin, given by [isinst]. *)
Definition proxy_isinstance (isinst : value -> string -> bool) (obj : value) (cls : string)
  : M bool :=
  w <- removeSecurityProxy obj ;; ret (isinst w cls).

(** proxy.py 372-376: the table of a proxied object's checker (before sorting). *)
Definition getTestProxyItems (v : value) : M (list (name * perm)) :=
  c <- getChecker v ;;
  s <- get ;;
  match c with
  | VChk i => match st_chks s i with
              | Some k => ret (st_dicts s (ck_get k))
              | None => raise (EType "dangling checker")
              end
  | _ => raise (EAttribute "get_permissions")
  end.
