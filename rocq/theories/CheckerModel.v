(** * CheckerModel: checker.py, _zope_security_checker.c, decorator.py.

    Function by function transcription.  Functions that call arbitrary Python
    operations or other checkers take an [interp], the interpreter one recursion
    level down; the knot is tied in [ProxyModel.interp_n]. *)

From Coq Require Import List String Bool Arith ZArith.
From Verif Require Import Base Domain.
Import ListNotations.
Open Scope string_scope.
Open Scope m_scope.

(** The mutually recursive entry points: perform a Python operation; call a
    method of a checker; the [while] loop of selectChecker. *)
Record interp := mkInterp {
  i_op : kind -> op -> M value;
  i_check : chkmode -> value -> value -> name -> M unit;
  i_select : value -> value -> M (option value)
}.

(** checker.py 720-727: names that are available on every object. *)
Definition available_by_default : list name :=
  [ "__lt__"; "__le__"; "__eq__";
    "__gt__"; "__ge__"; "__ne__";
    "__hash__"; "__bool__";
    "__class__"; "__providedBy__"; "__implements__";
    "__repr__"; "__conform__";
    "__name__"; "__parent__" ].

(** Fixed identities of objects created at import time. *)
Definition default_cid : id := 0.   (* checker.py 507: _defaultChecker *)
Definition public_cid : id := 1.    (* checker.py 356: checker of CheckerPublic *)
Definition named_cid : id := 2.     (* checker.py 734: _namedChecker *)
Definition public_pid : id := 0.    (* checker.py 356: the proxy CheckerPublic *)
Definition public_oid : id := 0.    (* checker.py 348: the Global inside it *)

(** A permission as a Python value. *)
Definition perm_value (p : perm) : value :=
  match p with
  | PPublic => VProxy public_pid
  | PNone => VNone
  | PId _ s => VStr s
  end.

Section Model.
  Variable E : env.

  (** Run foreign code. *)
  Definition foreign (k : kind) (c : call) : M value := fun s =>
    match e_run E (e_tid E) c s with
    | (r, s') => (r, s', [ECall k (e_tid E) c])
    end.

  (** Run foreign code without an event of its own (questions to a policy, which
      get an [EAsk] event). *)
  Definition foreign_quiet (c : call) : M value := fun s =>
    match e_run E (e_tid E) c s with
    | (r, s') => (r, s', [])
    end.

  (** [type(v)], as the label used in the registry. *)
  Definition type_of (s : state) (v : value) : string :=
    match v with
    | VNone => "NoneType"
    | VNotImpl => "NotImplementedType"
    | VBool _ => "bool"
    | VInt _ => "int"
    | VStr _ => "str"
    | VObj o => e_type E o
    | VClass c => e_meta E c
    | VMod _ => "module"
    | VProxy _ => "Proxy"
    | VDeco d => match st_decos s d with Some x => dc_class x | None => "object" end
    | VChk _ => "Checker"
    | VIact _ => "Interaction"
    | VNoProxy => "object"
    | VModFun => "function"
    end.

  (** Truth value of a Python object ([if x:]). *)
  Definition truth (I : interp) (v : value) : M bool :=
    match v with
    | VNone => ret false
    | VBool b => ret b
    | VInt z => ret (negb (Z.eqb z 0))
    | VStr s => ret (negb (String.eqb s ""))
    | VNotImpl => ret true
    | _ => r <- i_op I Probe (OBool v) ;;
           match r with VBool b => ret b | _ => raise (EType "__bool__") end
    end.

  (** ** Interactions as seen by checkers *)

  (** simplepolicies.py 60-68 (Paranoid) and 77-78 (Permissive). *)
  Definition simple_checkPermission (s : state) (x : inter) (p : perm) : bool :=
    if in_permissive x then true
    else if perm_eqb p PPublic then true
    else
      let users := filter (fun q => match pt_principal (st_parts s q) with
                                    | SystemUser => false
                                    | User _ => true
                                    end) (in_parts x) in
      match users with [] => true | _ => false end.

  (** [interaction.checkPermission(permission, object)] and the truth value of the
      result, for any object bound as interaction. *)
  Definition ask (I : interp) (iv : value) (p : perm) (obj : value) : M bool :=
    match iv with
    | VIact i =>
        s <- get ;;
        match st_inters s i with
        | Some x =>
            let b := simple_checkPermission s x p in
            emit (EAsk (e_tid E) iv p obj (Some b)) ;;; ret b
        | None => raise (EAttribute "checkPermission")
        end
    | VNone | VNotImpl | VBool _ | VInt _ | VStr _ => raise (EAttribute "checkPermission")
    | _ =>
        b <- catch (v <- foreign_quiet (CallPerm iv p obj) ;; truth I v)
                   (fun e => emit (EAsk (e_tid E) iv p obj None) ;;; raise e) ;;
        emit (EAsk (e_tid E) iv p obj (Some b)) ;;; ret b
    end.

  (** [thread_local.interaction.checkPermission(permission, object)]:
      checker.py 251, 266; _zope_security_checker.c 106-121. *)
  Definition tl_checkPermission (I : interp) (p : perm) (obj : value) : M bool :=
    s <- get ;;
    match tl_inter (st_tls s (e_tid E)) with
    | None => raise (EAttribute "interaction")
    | Some iv => ask I iv p obj
    end.

  (** ** hasattr *)

  (** builtin [hasattr]: only AttributeErrors mean "no". *)
  Definition hasattr_py (I : interp) (obj : value) (n : name) : M bool :=
    catch (i_op I Probe (OGetattr obj n None) ;;; ret true)
          (fun e => if is_attribute_error e then ret false else raise e).

  (** [PyObject_HasAttr]: every exception means "no". *)
  Definition hasattr_c (I : interp) (obj : value) (n : name) : M bool :=
    catch (i_op I Probe (OGetattr obj n None) ;;; ret true)
          (fun _ => ret false).

  (** [dict.get(name)] with default None. *)
  Definition get_or_none (d : list (name * perm)) (n : name) : perm :=
    match dget String.eqb d n with Some p => p | None => PNone end.

  (** ** CheckerPy (checker.py 199-290) *)

  (** checker.py 232-234 *)
  Definition CheckerPy_permission_id (c : checker) (n : name) : M perm :=
    s <- get ;; ret (get_or_none (st_dicts s (ck_get c)) n).

  (** checker.py 236-239: an empty dictionary is false, the result is then None. *)
  Definition CheckerPy_setattr_permission_id (c : checker) (n : name) : M perm :=
    s <- get ;;
    match st_dicts s (ck_set c) with
    | [] => ret PNone
    | d => ret (get_or_none d n)
    end.

  (** checker.py 241-258 *)
  Definition CheckerPy_check_setattr (I : interp) (c : checker) (obj : value) (n : name)
    : M unit :=
    s <- get ;;
    let permission := match st_dicts s (ck_set c) with
                      | [] => PNone
                      | d => get_or_none d n
                      end in
    if negb (perm_eqb permission PNone) then
      if perm_eqb permission PPublic then ret tt
      else
        b <- tl_checkPermission I permission obj ;;
        if b then ret tt else raise (EUnauthorized obj n permission)
    else raise (EForbidden n obj).

  (** checker.py 260-278 *)
  Definition CheckerPy_check (I : interp) (c : checker) (obj : value) (n : name)
    : M unit :=
    s <- get ;;
    let permission := get_or_none (st_dicts s (ck_get c)) n in
    if negb (perm_eqb permission PNone) then
      if perm_eqb permission PPublic then ret tt
      else
        b <- tl_checkPermission I permission obj ;;
        if b then ret tt else raise (EUnauthorized obj n permission)
    else if mem n available_by_default then ret tt
    else
      forbid <- (if negb (String.eqb n "__iter__") then ret true
                 else hasattr_py I obj n) ;;
      if forbid then raise (EForbidden n obj) else ret tt.

  (** ** The C Checker (_zope_security_checker.c) *)

  (** _zope_security_checker.c 60-78 *)
  Definition CheckerC_permission_id (c : checker) (n : name) : M perm :=
    s <- get ;;
    match dget String.eqb (st_dicts s (ck_get c)) n with
    | None => ret PNone
    | Some p => ret p
    end.

  (** _zope_security_checker.c 80-98 *)
  Definition CheckerC_setattr_permission_id (c : checker) (n : name) : M perm :=
    s <- get ;;
    match dget String.eqb (st_dicts s (ck_set c)) n with
    | None => ret PNone
    | Some p => ret p
    end.

  (** _zope_security_checker.c 100-131 *)
  Definition CheckerC_checkPermission (I : interp) (p : perm) (obj : value) (n : name)
    : M unit :=
    b <- tl_checkPermission I p obj ;;
    if b then ret tt else raise (EUnauthorized obj n p).

  (** name[0] == '_' && name[1] == '_' (_zope_security_checker.c 163-165) *)
  Definition is_operator (n : name) : bool := String.prefix "__" n.

  (** _zope_security_checker.c 139-198 *)
  Definition CheckerC_check_int (I : interp) (c : checker) (obj : value) (n : name)
    : M unit :=
    s <- get ;;
    match dget String.eqb (st_dicts s (ck_get c)) n with
    | Some p =>
        if perm_eqb p PPublic then ret tt
        else CheckerC_checkPermission I p obj n
    | None =>
        if is_operator n then
          if mem n available_by_default then ret tt
          else if String.eqb n "__iter__" then
            h <- hasattr_c I obj n ;;
            if negb h then ret tt else raise (EForbidden n obj)
          else raise (EForbidden n obj)
        else raise (EForbidden n obj)
    end.

  (** _zope_security_checker.c 219-254 *)
  Definition CheckerC_check_setattr (I : interp) (c : checker) (obj : value) (n : name)
    : M unit :=
    s <- get ;;
    match dget String.eqb (st_dicts s (ck_set c)) n with
    | Some p =>
        if negb (perm_eqb p PPublic) then CheckerC_checkPermission I p obj n
        else ret tt
    | None => raise (EForbidden n obj)
    end.

  (** ** Method resolution: the class [Checker] before the WATCH switch
      (checker.py 293, 519). *)

  Definition Checker_permission_id (c : checker) (n : name) : M perm :=
    match e_cimpl E with
    | ImplPy => CheckerPy_permission_id c n
    | ImplC => CheckerC_permission_id c n
    end.

  Definition Checker_setattr_permission_id (c : checker) (n : name) : M perm :=
    match e_cimpl E with
    | ImplPy => CheckerPy_setattr_permission_id c n
    | ImplC => CheckerC_setattr_permission_id c n
    end.

  (** check and check_getattr are the same function in both implementations
      (checker.py 278; _zope_security_checker.c 325-330). *)
  Definition Checker_check (I : interp) (c : checker) (obj : value) (n : name) : M unit :=
    match e_cimpl E with
    | ImplPy => CheckerPy_check I c obj n
    | ImplC => CheckerC_check_int I c obj n
    end.

  Definition Checker_check_setattr (I : interp) (c : checker) (obj : value) (n : name)
    : M unit :=
    match e_cimpl E with
    | ImplPy => CheckerPy_check_setattr I c obj n
    | ImplC => CheckerC_check_setattr I c obj n
    end.

  (** ** CheckerLoggingMixin (checker.py 591-669) *)

  (** checker.py 607-609 with the formatting of the message, which calls
      [repr(object)] first, whatever the verbosity. *)
  Definition log_line (I : interp) (verbosity threshold : nat) (line : string)
             (n : name) (obj : value) : M unit :=
    i_op I Probe (ORepr obj) ;;;
    if Nat.leb threshold verbosity then emit (ELog line n obj) else ret tt.

  (** checker.py 611-628 *)
  Definition Watching_check (I : interp) (v : nat) (c : checker) (obj : value) (n : name)
    : M unit :=
    catch (Checker_check I c obj n ;;;
           if Nat.ltb 1 v then
             if mem n available_by_default
             then log_line I v 2 "[CHK] + Always available:" n obj
             else log_line I v 2 "[CHK] + Granted:" n obj
           else ret tt)
          (fun e =>
             if is_unauthorized e
             then log_line I v 1 "[CHK] - Unauthorized:" n obj ;;; raise e
             else if is_forbidden e
             then log_line I v 1 "[CHK] - Forbidden:" n obj ;;; raise e
             else raise e).

  (** checker.py 630-650 *)
  Definition Watching_check_getattr (I : interp) (v : nat) (c : checker) (obj : value)
             (n : name) : M unit :=
    catch (Checker_check I c obj n ;;;
           if Nat.ltb 1 v then
             if mem n available_by_default
             then log_line I v 2 "[CHK] + Always available getattr:" n obj
             else log_line I v 2 "[CHK] + Granted getattr:" n obj
           else ret tt)
          (fun e =>
             if is_unauthorized e
             then log_line I v 1 "[CHK] - Unauthorized getattr:" n obj ;;; raise e
             else if is_forbidden e
             then log_line I v 1 "[CHK] - Forbidden getattr:" n obj ;;; raise e
             else raise e).

  (** checker.py 654-669 *)
  Definition Watching_check_setattr (I : interp) (v : nat) (c : checker) (obj : value)
             (n : name) : M unit :=
    catch (Checker_check_setattr I c obj n ;;;
           if Nat.ltb 1 v
           then log_line I v 2 "[CHK] + Granted setattr:" n obj
           else ret tt)
          (fun e =>
             if is_unauthorized e
             then log_line I v 1 "[CHK] - Unauthorized setattr:" n obj ;;; raise e
             else if is_forbidden e
             then log_line I v 1 "[CHK] - Forbidden setattr:" n obj ;;; raise e
             else raise e).

  (** ** CombinedChecker (checker.py 532-588) *)

  (** The try statement of checker.py 566-574 and 580-588. *)
  Definition combine (first second : M unit) : M unit :=
    catch first
      (fun e =>
         if is_forbidden e then second
         else if is_unauthorized e then
           catch second (fun e2 => if is_forbidden e2 then raise e else raise e2)
         else raise e).

  (** [Checker.check(self, object, name)] inside CombinedChecker: the global
      [Checker] is the watching class when ZOPE_WATCH_CHECKERS is set
      (checker.py 692-699); its [super()] call then fails with TypeError for an
      instance of the original class. *)
  Definition Combined_first_check (I : interp) (c : checker) (obj : value) (n : name)
    : M unit :=
    match e_watch E, ck_kind c with
    | 0, _ => Checker_check I c obj n
    | _, CkWatchingCombined v _ => Watching_check I v c obj n
    | _, _ => raise (EType "super(type, obj): obj must be an instance or subtype of type")
    end.

  Definition Combined_first_check_setattr (I : interp) (c : checker) (obj : value)
             (n : name) : M unit :=
    match e_watch E, ck_kind c with
    | 0, _ => Checker_check_setattr I c obj n
    | _, CkWatchingCombined v _ => Watching_check_setattr I v c obj n
    | _, _ => raise (EType "super(type, obj): obj must be an instance or subtype of type")
    end.

  (** checker.py 564-576; also check_getattr and __setitem__. *)
  Definition Combined_check (I : interp) (c : checker) (second : value) (obj : value)
             (n : name) : M unit :=
    combine (Combined_first_check I c obj n) (i_check I MCheck second obj n).

  (** checker.py 578-588 *)
  Definition Combined_check_setattr (I : interp) (c : checker) (second : value)
             (obj : value) (n : name) : M unit :=
    combine (Combined_first_check_setattr I c obj n) (i_check I MSetattr second obj n).

  (** Method call on any checker object (dynamic dispatch). *)
  Definition checker_check (I : interp) (m : chkmode) (c obj : value) (n : name)
    : M unit :=
    match c with
    | VChk i =>
        s <- get ;;
        match st_chks s i with
        | None => raise (EType "dangling checker")
        | Some k =>
            match ck_kind k, m with
            | CkPlain, MSetattr => Checker_check_setattr I k obj n
            | CkPlain, _ => Checker_check I k obj n
            | CkCombined c2, MSetattr => Combined_check_setattr I k c2 obj n
            | CkCombined c2, _ => Combined_check I k c2 obj n
            | CkWatching v, MSetattr => Watching_check_setattr I v k obj n
            | CkWatching v, MCheck => Watching_check I v k obj n
            | CkWatching v, MGetattr => Watching_check_getattr I v k obj n
            | CkWatchingCombined _ c2, MSetattr => Combined_check_setattr I k c2 obj n
            | CkWatchingCombined _ c2, _ => Combined_check I k c2 obj n
            end
        end
    | _ => foreign Probe (CallCheck m c obj n) ;;; ret tt
    end.

  (** ** Selecting checkers *)

  (** [isinstance(x, Checker)].  In the Python build [Checker] is the watching
      class when ZOPE_WATCH_CHECKERS is set (checker.py 456, 698); the C function
      tests against the C base class (_zope_security_checker.c 536). *)
  Definition is_Checker (s : state) (v : value) : bool :=
    match v with
    | VChk i =>
        match st_chks s i with
        | None => false
        | Some k =>
            match e_cimpl E, e_watch E with
            | ImplC, _ => true
            | ImplPy, 0 => true
            | ImplPy, S _ => match ck_kind k with
                             | CkWatching _ | CkWatchingCombined _ _ => true
                             | _ => false
                             end
            end
        end
    | _ => false
    end.

  (** Calling a registry value with an object: [checker(object)].
      checker.py 457, 894; _zope_security_checker.c 539. *)
  Definition call_factory (I : interp) (f obj : value) : M value :=
    match f with
    | VModFun =>
        s <- get ;;
        match obj with
        | VMod m => ret (match dget rkey_eqb (st_reg s) (KMod m) with
                         | Some v => v
                         | None => VChk named_cid
                         end)
        | _ => ret (VChk named_cid)
        end
    | VNone | VNotImpl | VBool _ | VInt _ | VStr _ | VNoProxy | VChk _ =>
        raise (EType "object is not callable")
    | _ => i_op I Probe (OCall f [obj])
    end.

  (** The loop checker.py 456-462; _zope_security_checker.c 536-550. *)
  Definition select_loop (I : interp) (c obj : value) : M (option value) :=
    s <- get ;;
    if is_Checker s c then ret (Some c)
    else
      c' <- call_factory I c obj ;;
      if value_eqb c' VNoProxy || value_eqb c' VNone then ret None
      else i_select I c' obj.

  (** [_checkers.get(type(object), _defaultChecker)] checker.py 448 *)
  Definition registered (s : state) (obj : value) : value :=
    match dget rkey_eqb (st_reg s) (KType (type_of s obj)) with
    | Some v => v
    | None => VChk default_cid
    end.

  (** checker.py 431-462 *)
  Definition selectCheckerPy (I : interp) (obj : value) : M (option value) :=
    s <- get ;;
    let c := registered s obj in
    if value_eqb c VNoProxy then ret None
    else i_select I c obj.

  (** _zope_security_checker.c 500-555 *)
  Definition selectCheckerC (I : interp) (obj : value) : M (option value) :=
    s <- get ;;
    let c := registered s obj in
    if value_eqb c VNoProxy then ret None
    else if value_eqb c (VChk default_cid) && e_isexc E (type_of s obj) then ret None
    else i_select I c obj.

  Definition selectChecker (I : interp) (obj : value) : M (option value) :=
    match e_cimpl E with
    | ImplPy => selectCheckerPy I obj
    | ImplC => selectCheckerC I obj
    end.

  (** ** Creating proxies *)

  (** proxy.py 82-92; _proxy.c 263-290 *)
  Definition new_proxy (v c : value) : M value :=
    match c with
    | VNone => raise (EValue "None passed as proxy checker")
    | _ =>
        p <- fresh ;;
        s <- get ;;
        put (set_prox (upd (st_prox s) p (Some (v, c))) s) ;;;
        ret (VProxy p)
    end.

  (** [getattr(value, '__Security_checker__', None)] *)
  Definition getattr_sec_checker (I : interp) (v : value) : M value :=
    catch (i_op I Probe (OGetattr v "__Security_checker__" None))
          (fun e => if is_attribute_error e then ret VNone else raise e).

  (** checker.py 280-290 *)
  Definition CheckerPy_proxy (I : interp) (v : value) : M value :=
    if is_proxy v then ret v
    else
      c <- getattr_sec_checker I v ;;
      match c with
      | VNone =>
          oc <- selectChecker I v ;;
          match oc with
          | None => ret v
          | Some c' => new_proxy v c'
          end
      | _ => new_proxy v c
      end.

  (** [PyObject_GetAttr(value, str___Security_checker__)] where every exception is
      cleared; [None] is "raised" (_zope_security_checker.c 275-279). *)
  Definition getattr_sec_checker_c (I : interp) (v : value) : M (option value) :=
    catch (c <- i_op I Probe (OGetattr v "__Security_checker__" None) ;; ret (Some c))
          (fun _ => ret None).

  (** _zope_security_checker.c 260-313 *)
  Definition CheckerC_proxy (I : interp) (v : value) : M value :=
    if is_proxy v then ret v
    else
      oc <- getattr_sec_checker_c I v ;;
      match oc with
      | None =>
          sc <- selectCheckerC I v ;;
          match sc with
          | None => ret v
          | Some c => new_proxy v c
          end
      | Some VNone => raise (EValue "Invalid value, None. for security checker")
      | Some c => new_proxy v c
      end.

  (** The [proxy] method of any checker object.  No subclass in checker.py
      overrides it. *)
  Definition checker_proxy (I : interp) (c v : value) : M value :=
    match c with
    | VChk _ => match e_cimpl E with
                | ImplPy => CheckerPy_proxy I v
                | ImplC => CheckerC_proxy I v
                end
    | _ => foreign Probe (CallProxy c v)
    end.

  (** getCheckerPy proxy.py 339; module_getChecker _proxy.c 811-824 *)
  Definition getChecker (v : value) : M value :=
    match v with
    | VProxy p =>
        s <- get ;;
        match st_prox s p with
        | Some (_, c) => ret c
        | None => raise (EType "dangling proxy")
        end
    | _ => raise (EType "getChecker argument must be a _Proxy")
    end.

  (** getObjectPy proxy.py 346-349; module_getObject _proxy.c 826-838;
      removeSecurityProxy proxy.py 369 *)
  Definition removeSecurityProxy (v : value) : M value :=
    match v with
    | VProxy p =>
        s <- get ;;
        match st_prox s p with
        | Some (w, _) => ret w
        | None => raise (EType "dangling proxy")
        end
    | _ => ret v
    end.

  (** checker.py 106-132; [VNone] is the default argument. *)
  Definition ProxyFactory (I : interp) (obj c : value) : M value :=
    if is_proxy obj then
      match c with
      | VNone => ret obj
      | _ =>
          c0 <- getChecker obj ;;
          if value_eqb c c0 then ret obj
          else raise (EType "Tried to use ProxyFactory to change a Proxy's checker.")
      end
    else
      match c with
      | VNone =>
          c1 <- getattr_sec_checker I obj ;;
          match c1 with
          | VNone =>
              oc <- selectChecker I obj ;;
              match oc with
              | None => ret obj
              | Some c2 => new_proxy obj c2
              end
          | _ => new_proxy obj c1
          end
      | _ => new_proxy obj c
      end.

  (** checker.py 144-176 *)
  Definition canWrite (I : interp) (obj : value) (n : name) : M bool :=
    obj' <- ProxyFactory I obj VNone ;;
    c <- getChecker obj' ;;
    catch (i_check I MSetattr c obj' n ;;; ret true)
          (fun e =>
             if is_unauthorized e then ret false
             else if is_forbidden e then
               catch (i_check I MGetattr c obj' n)
                     (fun e2 => if is_unauthorized e2 then ret tt else raise e2) ;;;
               ret false
             else raise e).

  (** checker.py 179-195 *)
  Definition canAccess (I : interp) (obj : value) (n : name) : M bool :=
    obj' <- ProxyFactory I obj VNone ;;
    c <- getChecker obj' ;;
    catch (i_check I MGetattr c obj' n ;;; ret true)
          (fun e => if is_unauthorized e then ret false else raise e).

  (** ** Constructors of checkers *)

  Definition alloc_dict (d : list (name * perm)) : M id :=
    i <- fresh ;;
    s <- get ;;
    put (set_dicts (upd (st_dicts s) i d) s) ;;; ret i.

  Definition alloc_checker (k : checker) : M value :=
    i <- fresh ;;
    s <- get ;;
    put (set_chks (upd (st_chks s) i (Some k)) s) ;;; ret (VChk i).

  (** The class bound to the global name [Checker] after the WATCH switch. *)
  Definition Checker_class : ckind :=
    match e_watch E with 0 => CkPlain | S v => CkWatching (S v) end.

  (** [Checker(get_permissions, set_permissions)] on dictionary objects:
      checker.py 208-230; _zope_security_checker.c 364-381. *)
  Definition Checker_new (g w : list (name * perm)) : M value :=
    gi <- alloc_dict g ;;
    wi <- alloc_dict w ;;
    alloc_checker (mkChecker gi wi Checker_class).

  (** checker.py 556-562: the dictionaries of checker1 are shared.  A checker1
      without get_permissions attribute is an AttributeError. *)
  Definition CombinedChecker_new (c1 c2 : value) : M value :=
    s <- get ;;
    match c1 with
    | VChk i =>
        match st_chks s i with
        | Some k =>
            alloc_checker
              (mkChecker (ck_get k) (ck_set k)
                 (match e_watch E with
                  | 0 => CkCombined c2
                  | S v => CkWatchingCombined (S v) c2
                  end))
        | None => raise (EType "dangling checker")
        end
    | _ => raise (EAttribute "get_permissions")
    end.

  (** The loop body shared by NamesChecker (checker.py 377-380) and MultiChecker
      (418-421, 423-426): [data.get(name, p) is not p] raises. *)
  Fixpoint add_names (data : list (name * perm)) (items : list (name * perm))
    : res (list (name * perm)) :=
    match items with
    | [] => Ok data
    | (n, p) :: items' =>
        let cur := match dget String.eqb data n with Some q => q | None => p end in
        if negb (perm_eqb cur p) then Exc (EDuplication n)
        else add_names (dset String.eqb data n p) items'
    end.

  (** checker.py 366-382 *)
  Definition NamesChecker (names : list name) (p : perm) (kw : list (name * perm))
    : M value :=
    let data := dupdate String.eqb [] kw in
    match add_names data (map (fun n => (n, p)) names) with
    | Ok d => Checker_new d []
    | Exc e => raise e
    end.

  (** checker.py 385-390; an interface is the list of its names (all=True). *)
  Definition InterfaceChecker (iface : list name) (p : perm) (kw : list (name * perm))
    : M value := NamesChecker iface p kw.

  (** The two forms of specification of MultiChecker (checker.py 399-409). *)
  Inductive mspec :=
  | SNames (names : list name) (p : perm)
  | SIface (iface : list name) (p : perm)
  | SDict (items : list (name * perm)).

  (** checker.py 413-426 *)
  Fixpoint add_specs (data : list (name * perm)) (specs : list mspec)
    : res (list (name * perm)) :=
    match specs with
    | [] => Ok data
    | sp :: specs' =>
        let r := match sp with
                 | SNames names p => add_names data (map (fun n => (n, p)) names)
                 | SIface names p => add_names data (map (fun n => (n, p)) names)
                 | SDict items => add_names data items
                 end in
        match r with
        | Ok data' => add_specs data' specs'
        | Exc e => Exc e
        end
    end.

  (** checker.py 393-428 *)
  Definition MultiChecker (specs : list mspec) : M value :=
    match add_specs [] specs with
    | Ok d => Checker_new d []
    | Exc e => raise e
    end.

  (** ** The registry *)

  (** checker.py 468-469 *)
  Definition getCheckerForInstancesOf (k : rkey) : M value :=
    s <- get ;;
    ret (match dget rkey_eqb (st_reg s) k with Some v => v | None => VNone end).

  (** checker.py 709-717 *)
  Definition moduleChecker (k : rkey) : M value :=
    s <- get ;;
    ret (match dget rkey_eqb (st_reg s) k with Some v => v | None => VNone end).

  (** checker.py 472-486 *)
  Definition defineChecker (k : rkey) (c : value) : M unit :=
    match k with
    | KOther _ => raise (EType "type_ must be a type, class or module")
    | _ =>
        s <- get ;;
        match dget rkey_eqb (st_reg s) k with
        | Some _ => raise (EDuplication "type_")
        | None => put (set_reg (dset rkey_eqb (st_reg s) k c) s)
        end
    end.

  (** checker.py 489-490 *)
  Definition undefineChecker (k : rkey) : M unit :=
    s <- get ;;
    match dget rkey_eqb (st_reg s) k with
    | None => raise EKey
    | Some _ => put (set_reg (ddel rkey_eqb (st_reg s) k) s)
    end.

  (** checker.py 757-759 *)
  Definition BasicTypes_setitem (k : rkey) (v : value) : M unit :=
    s <- get ;;
    put (set_reg (dset rkey_eqb (st_reg s) k v)
           (set_basic (dset rkey_eqb (st_basic s) k v) s)).

  (** checker.py 761-763: two deletions, either may raise KeyError. *)
  Definition BasicTypes_delitem (k : rkey) : M unit :=
    s <- get ;;
    match dget rkey_eqb (st_basic s) k with
    | None => raise EKey
    | Some _ =>
        put (set_basic (ddel rkey_eqb (st_basic s) k) s) ;;;
        undefineChecker k
    end.

  (** checker.py 765-767 *)
  Definition BasicTypes_clear : M unit := raise ENotImplemented.

  (** checker.py 769-771 *)
  Definition BasicTypes_update (d : list (rkey * value)) : M unit :=
    s <- get ;;
    put (set_reg (dupdate rkey_eqb (st_reg s) d)
           (set_basic (dupdate rkey_eqb (st_basic s) d) s)).

  (** dict.pop is inherited from dict (checker.py 751): the registry is not
      touched. *)
  Definition BasicTypes_pop (k : rkey) : M value :=
    s <- get ;;
    match dget rkey_eqb (st_basic s) k with
    | None => raise EKey
    | Some v => put (set_basic (ddel rkey_eqb (st_basic s) k) s) ;;; ret v
    end.

  (** checker.py 1076-1079, given the table [_default_checkers]. *)
  Definition clear_checkers (defaults : list (rkey * value)) : M unit :=
    s <- get ;;
    put (set_reg (dupdate rkey_eqb (dupdate rkey_eqb [] defaults) (st_basic s)) s).

  (** ** decorator.py 34-55 *)
  Definition Decorated_get (I : interp) (d : id) : M value :=
    s <- get ;;
    match st_decos s d with
    | None => raise (EType "dangling decorator")
    | Some x =>
        let inner := dc_obj x in
        checker <- (if is_proxy inner then
                      c <- getChecker inner ;; ret (Some c)
                    else
                      c <- getattr_sec_checker I inner ;;
                      match c with
                      | VNone => selectChecker I inner
                      | _ => ret (Some c)
                      end) ;;
        wrapper <- selectChecker I (VDeco d) ;;
        match wrapper, checker with
        | None, None => raise (EAttribute "__Security_checker__")
        | None, Some c => ret c
        | Some w, None => ret w
        | Some w, Some c => CombinedChecker_new w c
        end
    end.
End Model.
