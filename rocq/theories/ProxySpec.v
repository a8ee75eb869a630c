(** * ProxySpec: what users of security proxies rely on.  Only the vocabulary of
    [Domain], [Spec] and [RegSpec] is used. *)

From Coq Require Import List String Bool Arith ZArith.
From Verif Require Import Base Domain Spec RegSpec.
Import ListNotations.
Open Scope string_scope.

(** ** The special method names of the language *)

Definition unary_name (u : unop) : name :=
  match u with
  | UNeg => "__neg__" | UPos => "__pos__" | UAbs => "__abs__"
  | UInvert => "__invert__" | UInt => "__int__" | UFloat => "__float__"
  end.
Definition unary_name_x (u : unopx) : name :=
  match u with UComplex => "__complex__" | UIndex => "__index__" end.
Definition binary_name (b : binop) : name :=
  match b with
  | BAdd => "__add__" | BSub => "__sub__" | BMul => "__mul__" | BMod => "__mod__"
  | BDivmod => "__divmod__" | BPow => "__pow__"
  | BLshift => "__lshift__" | BRshift => "__rshift__"
  | BAnd => "__and__" | BXor => "__xor__" | BOr => "__or__"
  | BFloordiv => "__floordiv__" | BTruediv => "__truediv__"
  end.
Definition reflected_name (b : binop) : name :=
  match b with
  | BAdd => "__radd__" | BSub => "__rsub__" | BMul => "__rmul__" | BMod => "__rmod__"
  | BDivmod => "__rdivmod__" | BPow => "__rpow__"
  | BLshift => "__rlshift__" | BRshift => "__rrshift__"
  | BAnd => "__rand__" | BXor => "__rxor__" | BOr => "__ror__"
  | BFloordiv => "__rfloordiv__" | BTruediv => "__rtruediv__"
  end.
Definition inplace_name (b : inop) : name :=
  match b with
  | IAdd => "__iadd__" | ISub => "__isub__" | IMul => "__imul__" | IMod => "__imod__"
  | IPow => "__ipow__" | ILshift => "__ilshift__" | IRshift => "__irshift__"
  | IAnd => "__iand__" | IXor => "__ixor__" | IOr => "__ior__"
  | IFloordiv => "__ifloordiv__" | ITruediv => "__itruediv__"
  end.
(** The operator that [x op= y] falls back to. *)
Definition plain_of (b : inop) : name :=
  match b with
  | IAdd => "__add__" | ISub => "__sub__" | IMul => "__mul__" | IMod => "__mod__"
  | IPow => "__pow__" | ILshift => "__lshift__" | IRshift => "__rshift__"
  | IAnd => "__and__" | IXor => "__xor__" | IOr => "__or__"
  | IFloordiv => "__floordiv__" | ITruediv => "__truediv__"
  end.

Inductive access := Read | Write.

(** Names that get special treatment by the Python proxy. *)
Definition internal_name (n : name) : Prop := n = "_wrapped" \/ n = "_checker".
Definition internal_nameb (n : name) : bool :=
  String.eqb n "_wrapped" || String.eqb n "_checker".
(** Attribute names whose reading the Python proxy does not check. *)
Definition unchecked_read (n : name) : bool :=
  mem n [ "__cmp__"; "__hash__"; "__bool__"; "__lt__"; "__le__"; "__eq__"; "__ne__";
          "__ge__"; "__gt__" ].

(** [guard_of b o]: the proxy on which operation [o] is performed, the name under
    which it is checked in build [b], and whether that is a read or write check.
    [None]: not an operation on a proxy, or one that is not checked. *)
Definition guard_of (b : impl) (o : op) : option (id * name * access) :=
  match o with
  | OGetattr (VProxy p) n _ =>
      match b with
      | ImplC => Some (p, n, Read)
      | ImplPy => if internal_nameb n || unchecked_read n then None else Some (p, n, Read)
      end
  | OSetattr (VProxy p) n _ | ODelattr (VProxy p) n =>
      match b with
      | ImplC => Some (p, n, Write)
      | ImplPy => if internal_nameb n then None else Some (p, n, Write)
      end
  | OCall (VProxy p) _ => Some (p, "__call__", Read)
  | OUn u (VProxy p) => Some (p, unary_name u, Read)
  | OUnX u (VProxy p) =>
      match b with ImplPy => Some (p, unary_name_x u, Read) | ImplC => None end
  | OBin op (VProxy p) _ => Some (p, binary_name op, Read)
  | OPow3 (VProxy p) _ _ => Some (p, "__pow__", Read)
  | OIn op (VProxy p) _ => Some (p, inplace_name op, Read)
  | OGetitem (VProxy p) _ => Some (p, "__getitem__", Read)
  | OSetitem (VProxy p) _ _ => Some (p, "__setitem__", Read)
  | ODelitem (VProxy p) _ => Some (p, "__delitem__", Read)
  | OContains (VProxy p) _ => Some (p, "__contains__", Read)
  | OLen (VProxy p) => Some (p, "__len__", Read)
  | OIter (VProxy p) => Some (p, "__iter__", Read)
  | ONext (VProxy p) => Some (p, "__next__", Read)
  | _ => None
  end.

(** The same operation on the object [w] in place of the proxy. *)
Definition on_object (o : op) (fr : option value) (w : value) : op :=
  match o with
  | OGetattr _ n _ => OGetattr w n fr
  | OSetattr _ n v => OSetattr w n v
  | ODelattr _ n => ODelattr w n
  | OCall _ args => OCall w args
  | OUn u _ => OUn u w
  | OUnX u _ => OUnX u w
  | OBin b _ r => OBin b w r
  | OPow3 _ b m => OPow3 w b m
  | OIn b _ r => OIn b w r
  | OGetitem _ k => OGetitem w k
  | OSetitem _ k v => OSetitem w k v
  | ODelitem _ k => ODelitem w k
  | OContains _ k => OContains w k
  | OLen _ => OLen w
  | OIter _ => OIter w
  | ONext _ => ONext w
  | OHash _ => OHash w
  | OBool _ => OBool w
  | OCmp c _ r => OCmp c w r
  | OStr _ => OStr w
  | ORepr _ => ORepr w
  | OLenHint _ => OLenHint w
  end.

(** Application code that one granted operation runs on behalf of the client: the
    operation on the wrapped object; for in-place operators of the Python proxy the
    lookup and call of the in-place method, or of the plain one.  [invoked m args l]:
    calling [m] may run [l]. *)
Definition reached (b : impl) (t : id) (invoked : value -> list value -> list event -> Prop)
           (p : id) (o : op) (w : value) (calls : list event) : Prop :=
  match b, o with
  | ImplPy, OIn i _ arg =>
      let look n := ECall Client t (CallOp (OGetattr w n (Some (VProxy p)))) in
      exists rest,
        (rest = [] \/ exists m, invoked m [arg] rest) /\
        (calls = look (inplace_name i) :: rest \/
         calls = look (inplace_name i) :: look (plain_of i) :: rest)
  | ImplPy, OGetattr _ _ _ =>
      calls = [ECall Client t (CallOp (on_object o (Some (VProxy p)) w))]
  | _, _ => calls = [ECall Client t (CallOp (on_object o None w))]
  end.

(** No other operand is a security proxy (whose own handler might run). *)
Definition other_operands_plain (o : op) : Prop :=
  match o with
  | OBin _ _ r | OIn _ _ r | OCmp _ _ r => is_proxy r = false
  | OPow3 _ b m => is_proxy b = false /\ is_proxy m = false
  | _ => True
  end.

(** Operations whose left operand is not a proxy but whose right operand is: the
    proxy, the name it checks, and the operation on the wrapped object. *)
Definition reflected_of (i : inop) : binop :=
  match i with
  | IAdd => BAdd | ISub => BSub | IMul => BMul | IMod => BMod
  | IPow => BPow | ILshift => BLshift | IRshift => BRshift
  | IAnd => BAnd | IXor => BXor | IOr => BOr
  | IFloordiv => BFloordiv | ITruediv => BTruediv
  end.
Definition guard_right (b : impl) (o : op) : option (id * name * (value -> op)) :=
  match o with
  | OBin op l (VProxy p) =>
      if is_proxy l then None else Some (p, reflected_name op, fun w => OBin op l w)
  | OIn op l (VProxy p) =>
      if is_proxy l then None
      else Some (p, reflected_name (reflected_of op), fun w => OBin (reflected_of op) l w)
  | OPow3 a e m =>
      match b with
      | ImplPy => None
      | ImplC =>
          if is_proxy a then None
          else match e, m with
               | VProxy p, _ => Some (p, "__rpow__", fun w => OPow3 a w m)
               | _, VProxy p => Some (p, "__3pow__", fun w => OPow3 a e w)
               | _, _ => None
               end
      end
  | _ => None
  end.

(** Operators of the language (attribute access aside). *)
Inductive operator :=
| KCall | KUn (u : unop) | KUnX (u : unopx) | KBin (b : binop) | KIn (i : inop)
| KGetitem | KSetitem | KDelitem | KContains | KLen | KIter | KNext.
Definition operator_of (o : op) : option operator :=
  match o with
  | OCall _ _ => Some KCall
  | OUn u _ => Some (KUn u)
  | OUnX u _ => Some (KUnX u)
  | OBin b _ _ => Some (KBin b)
  | OPow3 _ _ _ => Some (KBin BPow)
  | OIn i _ _ => Some (KIn i)
  | OGetitem _ _ => Some KGetitem
  | OSetitem _ _ _ => Some KSetitem
  | ODelitem _ _ => Some KDelitem
  | OContains _ _ => Some KContains
  | OLen _ => Some KLen
  | OIter _ => Some KIter
  | ONext _ => Some KNext
  | _ => None
  end.

(** The operand whose proxy handles the operation. *)
Definition principal_operand (o : op) : value :=
  match o with
  | OGetattr v _ _ | OSetattr v _ _ | ODelattr v _ | OCall v _ | OUn _ v | OUnX _ v
  | OBin _ v _ | OPow3 v _ _ | OIn _ v _ | OGetitem v _ | OSetitem v _ _ | ODelitem v _
  | OContains v _ | OLen v | OIter v | ONext v | OHash v | OBool v | OCmp _ v _
  | OStr v | ORepr v | OLenHint v => v
  end.

(** Built-in constants. *)
Definition constant (v : value) : Prop :=
  match v with VNone | VBool _ | VInt _ | VStr _ => True | _ => False end.

(** Operations through which the result of application code gets back to the caller
    protected.  The exceptions: the length hint; complex and index conversion of the
    C proxy (not modelled); comparisons and the internal names of the Python proxy. *)
Definition result_protected (b : impl) (o : op) : Prop :=
  match o with
  | OLenHint _ => False
  | OUnX _ _ => b = ImplPy
  | OCmp _ _ _ => b = ImplC
  | OGetattr v n fr => b = ImplC \/ ~ internal_name n \/ fr <> Some v
  | _ => True
  end.

(** Values that are neither proxies nor decorators: performing an operation on them
    runs application code directly. *)
Definition application_object := plain_object.

(** Foreign code does not rebind existing proxies (nor does it forget which
    identities are in use). *)
Definition proxies_kept (s s' : state) : Prop :=
  st_next s <= st_next s' /\
  (forall p x, p < st_next s -> st_prox s p = Some x -> st_prox s' p = Some x).

Definition foreign_keeps_proxies (E : env) : Prop :=
  forall t c s r s', e_run E t c s = (r, s') -> proxies_kept s s'.

(** [Wraps s p w c]: [p] is an existing proxy around [w] with checker [c]. *)
Definition Wraps (s : state) (p : id) (w c : value) : Prop :=
  st_prox s p = Some (w, c) /\ p < st_next s.

(** The table an access is looked up in. *)
Definition table_for (a : access) (g w : list (name * perm)) : table :=
  match a with Read => table_of g | Write => table_of w end.

(** The check an access has to pass against a name-based checker. *)
Definition AccessCheck (E : env) (s : state) (a : access) (g wt : list (name * perm))
           (w : value) (n : name) : res unit -> state -> list event -> Prop :=
  match a with
  | Read => ReadCheck E s (table_of g) w n
  | Write => WriteCheck E s (table_of wt) w n
  end.

(** Why an access with name [n] to [w] was allowed: the name is public; or nothing is
    recorded for it and it is available by default (reads only); or the calling
    thread's interaction answered yes when asked for the recorded permission on [w]. *)
Definition Authorised (E : env) (s : state) (a : access) (g wt : list (name * perm))
           (w : value) (n : name) (tr : list event) : Prop :=
  table_for a g wt n = Some PPublic \/
  (a = Read /\ table_for a g wt n = None /\ (always_available n \/ n = "__iter__")) \/
  (exists q iv, table_for a g wt n = Some q /\ q <> PPublic /\
                tl_inter (st_tls s (e_tid E)) = Some iv /\
                In (EAsk (e_tid E) iv q w (Some true)) tr).
