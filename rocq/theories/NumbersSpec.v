(** Specification of C90: what the caller of a wrapped object would get
    without the proxy, and what is allowed to differ. *)

From Coq Require Import ZArith String List.
From Verif Require Import Numbers.
Open Scope Z_scope.

(** [z] is a value of a signed C type of [b] bits. *)
Definition fits (b z : Z) : Prop := - 2 ^ (b - 1) <= z < 2 ^ (b - 1).

(** A C compiler: types have some bits. *)
Definition sane (p : platform) : Prop := 0 < long_bits p /\ 0 < size_bits p.

(** What CPython guarantees of any object: a hash fits Py_hash_t and is not -1
    (slot_tp_hash replaces it by -2); a length fits and is not negative. *)
Definition decent {W X V} (p : platform) (h : host W X V) : Prop :=
  (forall w z w', h_hash h w = (inl z, w') -> fits (size_bits p) z /\ z <> -1) /\
  (forall w z w', h_length h w = (inl z, w') -> fits (size_bits p) z /\ 0 <= z).

(** The operations on the wrapped object itself. *)
Definition plain_hash {W X V} (h : host W X V) : action W X Z := call (h_hash h).
Definition plain_length {W X V} (h : host W X V) : action W X Z := call (h_length h).
Definition plain_get {W X V} (h : host W X V) (i : Z) : action W X V :=
  from_the_end (plain_length h) (fun k => call (h_item h k)) i.
Definition plain_set {W X V} (h : host W X V) (i : Z) (v : option V) : action W X unit :=
  from_the_end (plain_length h) (fun k => call (h_assign h k v)) i.

(** The checker lets everything through, and asking changes nothing. *)
Definition lets_through {W X V} (h : host W X V) : Prop :=
  forall n w, h_ask h n w = (None, w).

(** The checker refuses [n], whatever the state. *)
Definition refuses {W X V} (h : host W X V) (n : string) : Prop :=
  forall w, fst (h_ask h n w) <> None.

(** Same checker. *)
Definition same_checker {W X V} (h h' : host W X V) : Prop :=
  forall n w, h_ask h n w = h_ask h' n w.

(** Nonnegative positions: x[k] and the slot sq_item mean the same.  True of
    tuples, lists, strings and instances of Python classes. *)
Definition is_sequence {W X V} (h : host W X V) : Prop :=
  forall k w, 0 <= k ->
    h_subscript h k w = h_item h k w /\
    forall v, h_ass_subscript h k v w = h_assign h k v w.

(** Instances of Python classes: both slots call __getitem__ (__setitem__,
    __delitem__) with the number. *)
Definition is_instance {W X V} (h : host W X V) : Prop :=
  forall k w,
    h_subscript h k w = h_item h k w /\
    forall v, h_ass_subscript h k v w = h_assign h k v w.

(** Lists and the like: x[k] with negative k counts from the end, and the
    slot sq_item does not. *)
Definition is_builtin {W X V} (h : host W X V) : Prop :=
  forall k w,
    call (h_subscript h k) w =
      from_the_end (plain_length h) (fun j => call (h_item h j)) k w.

(** The index, counted from the start, in the state [w]. *)
Inductive place {W X V} (h : host W X V) (w : W) (i : Z) : Z -> Prop :=
| place_start : 0 <= i -> place h w i i
| place_end l w' : i < 0 -> h_length h w = (inl l, w') -> place h w i (i + l).

(** Every place the index can mean can be told to the wrapped object in a
    [long]. *)
Definition narrow_enough {W X V} (p : platform) (h : host W X V) (w : W) (i : Z) : Prop :=
  forall k, place h w i k -> fits (long_bits p) k.

(** The index does not lie before the start. *)
Definition within {W X V} (h : host W X V) (w : W) (i : Z) : Prop :=
  forall k, place h w i k -> 0 <= k.

(** [m], and its value as a proxy. *)
Definition proxied {W X V} (h : host W X V) (m : action W X V) : action W X V :=
  andthen m (fun v => call (h_proxied h v)).

(** The operations as C code performs them on the proxy. *)
Definition proxy_get {W X V} (p : platform) (h : host W X V) (i : Z) : action W X V :=
  from_the_end (length_of_proxy h) (proxy_igetitem p h) i.
Definition proxy_set {W X V} (p : platform) (h : host W X V) (i : Z) (v : option V)
  : action W X unit :=
  from_the_end (length_of_proxy h) (fun k => proxy_isetitem p h k v) i.
