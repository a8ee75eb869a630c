(** * ShownSpec: which request reaches application code when a client makes a request, and
    whose methods the interpreter then calls with what. *)

From Coq Require Import List String Bool Arith ZArith.
From Verif Require Import Base Domain ProxyModel Spec RegSpec ProxySpec MediationSpec SessionSpec.
Import ListNotations.
Open Scope string_scope.

(** ** What reaches application code *)

(** [behind E s q v v']: [v'] is [v], or [v] is a proxy and [v'] is what it wraps, or what
    is behind that.  With [q = Some (n, a)] each proxy on the way was asked for [n] and let
    it pass; with [None] nobody was asked. *)
Inductive behind (E : env) (s : state) (q : option (name * access)) : value -> value -> Prop :=
| B_here v : behind E s q v v
| B_checked p w n a t v' :
    q = Some (n, a) -> Passed E s p w n a t -> behind E s q w v' ->
    behind E s q (VProxy p) v'
| B_open p w c s0 v' :
    q = None -> Evolves E s s0 -> st_prox s0 p = Some (w, c) -> behind E s q w v' ->
    behind E s q (VProxy p) v'.

(** What the target of an operation is asked. *)
Definition question (b : impl) (o : op) : option (name * access) :=
  match o with
  | OGetattr _ n _ =>
      match b with
      | ImplPy => if unchecked_read n then None else Some (n, Read)
      | ImplC => Some (n, Read)
      end
  | OSetattr _ n _ | ODelattr _ n => Some (n, Write)
  | OCall _ _ => Some ("__call__", Read)
  | OUn u _ => Some (unary_name u, Read)
  | OUnX u _ => Some (unary_name_x u, Read)
  | OGetitem _ _ => Some ("__getitem__", Read)
  | OSetitem _ _ _ => Some ("__setitem__", Read)
  | ODelitem _ _ => Some ("__delitem__", Read)
  | OContains _ _ => Some ("__contains__", Read)
  | OLen _ => Some ("__len__", Read)
  | OIter _ => Some ("__iter__", Read)
  | ONext _ => Some ("__next__", Read)
  | OStr _ => Some ("__str__", Read)
  | ORepr _ => Some ("__repr__", Read)
  | OHash _ | OBool _ | OLenHint _ | OCmp _ _ _ => None
  | OBin b _ _ => Some (binary_name b, Read)
  | OPow3 _ _ _ => Some ("__pow__", Read)
  | OIn i _ _ => Some (inplace_name i, Read)
  end.

(** The request [o'] that application code receives when the client asked for [o].  Of an
    operation with one target: the same request, the target unwrapped.  Of operators and
    comparisons: each operand may have been unwrapped, after being asked for the operator's
    name, or its reflected name; comparisons ask nobody. *)
Definition arrives (E : env) (s : state) (o o' : op) : Prop :=
  match o with
  | OBin b l r =>
      exists l' r', o' = OBin b l' r' /\
        behind E s (Some (binary_name b, Read)) l l' /\
        behind E s (Some (reflected_name b, Read)) r r'
  | OPow3 a e m =>
      exists a' e' m', o' = OPow3 a' e' m' /\
        behind E s (Some ("__pow__", Read)) a a' /\
        behind E s (Some ("__rpow__", Read)) e e' /\
        behind E s (Some ("__3pow__", Read)) m m'
  | OIn i l r =>
      (exists l', o' = OIn i l' r /\ behind E s (Some (inplace_name i, Read)) l l') \/
      (exists l' r', o' = OBin (reflected_of i) l' r' /\
         behind E s (Some (inplace_name i, Read)) l l' /\
         behind E s (Some (reflected_name (reflected_of i), Read)) r r') \/
      (e_impl E = ImplPy /\ is_proxy l = true /\
       ((exists v n fr, o' = OGetattr v n fr /\ (n = inplace_name i \/ n = plain_of i)) \/
        exists m, o' = OCall m [r]))
  | OCmp c l r =>
      exists l' r', (o' = OCmp c l' r' \/ o' = OCmp (mirrored c) r' l') /\
        behind E s None l l' /\ behind E s None r r'
  | OLenHint v =>
      o' = o \/ (exists w fr, o' = OGetattr w "__length_hint__" fr) \/ (exists h, o' = OCall h [])
  | _ =>
      exists w fr, o' = on_object o fr w /\
        behind E s (question (e_impl E) o) (principal_operand o) w
  end.

(** ** How the interpreter carries out operators on objects of the application *)

Definition cmp_name (c : cmpop) : name :=
  match c with
  | CLt => "__lt__" | CLe => "__le__" | CEq => "__eq__" | CNe => "__ne__"
  | CGt => "__gt__" | CGe => "__ge__"
  end.

(** The methods of application objects: receiver, name, arguments. *)
Definition methods := value -> name -> list value -> state -> res value * state.

(** First the left operand's method, then, if that answers NotImplemented, the right
    operand's (the Python language reference, 3.3.8; operands of unrelated classes).  If the
    right operand is a security proxy its turn is left to the proxy (ProxyModel.v). *)
Definition two_sided (meth : methods) (l : value) (n : name) (r : value) (rn : name)
           (s : state) : res value * state :=
  match meth l n [r] s with
  | (Ok VNotImpl, s1) => if is_proxy r then (Ok VNotImpl, s1) else meth r rn [l] s1
  | x => x
  end.

(** Application code that carries out operators and comparisons this way. *)
Definition dispatches (E : env) (meth : methods) : Prop :=
  (forall c l r s, e_run E (e_tid E) (CallOp (OCmp c l r)) s =
     two_sided meth l (cmp_name c) r (cmp_name (mirrored c)) s) /\
  (forall b l r s, e_run E (e_tid E) (CallOp (OBin b l r)) s =
     two_sided meth l (binary_name b) r (reflected_name b) s).
