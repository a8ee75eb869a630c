(** Comparisons between proxies and other objects, and proxies as keys: what
    proxy_richcompare (_proxy.c), the comparison methods of ProxyPy (proxy.py)
    and the interpreter's protocol of comparisons do together.

    Spec.v and ProxyModel.v take [wrapped == other] to be one call of
    application code; here the interpreter's part of it is spelled out: which
    operand is asked first, what happens after NotImplemented, and that asking
    a proxy starts all over with the object behind it. *)

From Coq Require Import List Arith Bool.
Import ListNotations.

Inductive build := Py | C.

(** The six comparisons, and the reflected ones (CPython, _Py_SwappedOp). *)
Inductive op := Lt | Le | Eq | Ne | Gt | Ge.

Definition swap (o : op) : op :=
  match o with Lt => Gt | Le => Ge | Eq => Eq | Ne => Ne | Gt => Lt | Ge => Le end.

(** An object, by number, or the proxy number [i] of something; different
    proxies have different numbers. *)
Inductive val := Obj (n : nat) | Pr (i : nat) (v : val).

(** What a comparison ends with: True or False, another object, such an object
    in a proxy, an exception. *)
Inductive res := Bool (b : bool) | Thing (n : nat) | Guarded (r : res) | Exc (e : nat).

Record world := {
  (** the type of an object; strict subtypes; the class Proxy *)
  w_type : nat -> nat;
  w_strict : nat -> nat -> bool;
  w_proxy : nat;
  (** the method of object [n] for a comparison; [None] is NotImplemented *)
  w_cmp : nat -> op -> val -> option res;
  (** the TypeError of an order that nobody implements *)
  w_no_order : nat;
  (** [hash()] of an object; its truth, for results of comparisons *)
  w_hash : nat -> nat;
  w_truth : nat -> bool
}.

Section Compare.
  Variable W : world.
  Variable b : build.

  (** [type(v)] *)
  Definition type_of (v : val) : nat :=
    match v with Obj n => w_type W n | Pr _ _ => w_proxy W end.

  (** [v is w] *)
  Definition same (v w : val) : bool :=
    match v, w with
    | Obj n, Obj m => Nat.eqb n m
    | Pr i _, Pr j _ => Nat.eqb i j
    | _, _ => false
    end.

  (** PROXY_RESULT in proxy_richcompare, _proxy.c 330-332: everything but True
      and False; what is a proxy already stays as it is (Checker_proxy), and so
      does NULL.  The Python methods return what they get (proxy.py 177-205). *)
  Definition result (r : res) : res :=
    match b, r with
    | C, Thing n => Guarded (Thing n)
    | _, _ => r
    end.

  (** Go on with the next way to compare after NotImplemented; the outer option
      is fuel. *)
  Definition otherwise (m : option (option res)) (k : option res) : option res :=
    match m with
    | None => None
    | Some (Some r) => Some r
    | Some None => k
    end.

  (** The end of do_richcompare: identity, or TypeError. *)
  Definition by_identity (v w : val) (o : op) : res :=
    match o with
    | Eq => Bool (same v w)
    | Ne => Bool (negb (same v w))
    | _ => Exc (w_no_order W)
    end.

  (** PyObject_RichCompare(v, w, o) (CPython, object.c do_richcompare): the
      right operand first if its type is a subtype of the left one's.  The slot
      of a proxy is proxy_richcompare, _proxy.c 324-334, or __lt__ ... __gt__,
      proxy.py 177-205: the whole protocol again, with the wrapped object. *)
  Fixpoint rich (fuel : nat) (v w : val) (o : op) : option res :=
    match fuel with
    | O => None
    | S k =>
        let slot x y o' :=
          match x with
          | Obj n => Some (w_cmp W n o' y)
          | Pr _ x' => match rich k x' y o' with
                       | Some r => Some (Some (result r))
                       | None => None
                       end
          end in
        if w_strict W (type_of w) (type_of v)
        then otherwise (slot w v (swap o)) (otherwise (slot v w o) (Some (by_identity v w o)))
        else otherwise (slot v w o) (otherwise (slot w v (swap o)) (Some (by_identity v w o)))
    end.

  (** [hash(v)]: proxy_hash, _proxy.c 454-458; proxy.py 207-210 *)
  Fixpoint hash (v : val) : nat :=
    match v with Obj n => w_hash W n | Pr _ x => hash x end.

  (** [bool(r)] of a result; a proxy is true if what it stands for is
      (proxy_bool, _proxy.c 556-560; proxy.py 212-215) *)
  Fixpoint truth (r : res) : bool :=
    match r with
    | Bool t => t
    | Thing n => w_truth W n
    | Guarded r' => truth r'
    | Exc _ => false
    end.

  (** Looking up a key among the entries of a dict or set, in the order in which
      they are probed (CPython, dictobject.c lookdict): the hash, identity, and
      [key == x]. *)
  Inductive found (D : Type) := Found (d : D) | Missing | Fails (e : nat) | Deep.
  Arguments Found {D}. Arguments Missing {D}. Arguments Fails {D}. Arguments Deep {D}.

  Fixpoint lookup {D} (fuel : nat) (entries : list (val * D)) (x : val) : found D :=
    match entries with
    | [] => Missing
    | (k, d) :: rest =>
        if Nat.eqb (hash k) (hash x) then
          if same k x then Found d
          else
            match rich fuel k x Eq with
            | None => Deep
            | Some (Exc e) => Fails e
            | Some r => if truth r then Found d else lookup fuel rest x
            end
        else lookup fuel rest x
    end.
End Compare.
Arguments Found {D}. Arguments Missing {D}. Arguments Fails {D}. Arguments Deep {D}.
