(** Numbers and positions in _proxy.c: the C types a hash, a length and an
    index pass through on their way from the interpreter to the wrapped object
    and back.

    CExt.v follows references and does not look at numbers; here it is the
    other way round.  Foreign code (the policy, the wrapped object) is an
    arbitrary function of the state of the process. *)

From Coq Require Import ZArith String List.
Import ListNotations.
Open Scope Z_scope.

(** ** C integers *)

(** Width in bits of [long] and of [Py_ssize_t]; [Py_hash_t] is as wide as
    [Py_ssize_t] (CPython, pyport.h). *)
Record platform := { long_bits : Z; size_bits : Z }.

(** Unix and macOS on 64-bit machines, Windows on 64-bit machines, 32-bit
    machines. *)
Definition lp64 : platform := {| long_bits := 64; size_bits := 64 |}.
Definition llp64 : platform := {| long_bits := 32; size_bits := 64 |}.
Definition ilp32 : platform := {| long_bits := 32; size_bits := 32 |}.

(** Conversion to a signed type of [b] bits: what every supported compiler
    does with a value that does not fit. *)
Definition signed (b z : Z) : Z :=
  let m := z mod 2 ^ b in if m <? 2 ^ (b - 1) then m else m - 2 ^ b.

(** A function that returns [long], called through a pointer to a function
    that returns [Py_hash_t] (the cast in _proxy.c 781).  If [Py_hash_t] is
    wider, C does not say what the caller sees; on real machines it is the
    [long] with something in the upper half of the register, which [upper]
    stands for. *)
Definition read_result (p : platform) (upper : Z -> Z) (z : Z) : Z :=
  if size_bits p <=? long_bits p then signed (size_bits p) z
  else signed (size_bits p) (z mod 2 ^ long_bits p + 2 ^ long_bits p * upper z).

(** ** Outcomes *)

(** What the caller of an operation gets: a value, an exception, or the
    interpreter's complaint (SystemError) that a C function reported failure
    without an exception, or a value with one. *)
Inductive outcome (X A : Type) :=
| Returns (a : A)
| Raises (x : X)
| Broken.
Arguments Returns {X A}. Arguments Raises {X A}. Arguments Broken {X A}.

Definition action (W X A : Type) := W -> outcome X A * W.

Definition andthen {W X A B} (m : action W X A) (k : A -> action W X B) : action W X B :=
  fun w => match m w with
           | (Returns a, w') => k a w'
           | (Raises x, w') => (Raises x, w')
           | (Broken, w') => (Broken, w')
           end.

(** ** The wrapped object and its checker *)

(** [h_ask n]: checker.check(o, n) (_proxy.c 128-140): [Some x] is a refusal.
    [h_item], [h_assign]: the slots sq_item and sq_ass_item of the type of the
    wrapped object, which C code reaches through PySequence_GetItem and
    PySequence_SetItem.  [h_subscript], [h_ass_subscript]: PyObject_GetItem,
    PyObject_SetItem and PyObject_DelItem (no value) with an int as key.
    [h_proxied]: checker.proxy(value), PROXY_RESULT (_proxy.c 116-121).
    [h_ends]: is this exception an IndexError or StopIteration? *)
Record host (W X V : Type) := {
  h_ask : string -> W -> option X * W;
  h_hash : W -> (Z + X) * W;
  h_length : W -> (Z + X) * W;
  h_item : Z -> W -> (V + X) * W;
  h_assign : Z -> option V -> W -> (unit + X) * W;
  h_subscript : Z -> W -> (V + X) * W;
  h_ass_subscript : Z -> option V -> W -> (unit + X) * W;
  h_proxied : V -> W -> (V + X) * W;
  h_ends : X -> bool }.
Arguments h_ask {W X V}. Arguments h_hash {W X V}. Arguments h_length {W X V}.
Arguments h_item {W X V}. Arguments h_assign {W X V}. Arguments h_subscript {W X V}.
Arguments h_ass_subscript {W X V}. Arguments h_proxied {W X V}. Arguments h_ends {W X V}.

Section Code.
  Context {W X V : Type}.
  Variable p : platform.
  Variable upper : Z -> Z.
  Variable h : host W X V.

  (** A call into the interpreter that returns an object or NULL. *)
  Definition call {A} (f : W -> (A + X) * W) : action W X A :=
    fun w => match f w with
             | (inl a, w') => (Returns a, w')
             | (inr x, w') => (Raises x, w')
             end.

  (** A call into the interpreter that returns a number: -1 and an exception
      for failure (PyObject_Hash, PyObject_Length). *)
  Definition call_number (f : W -> (Z + X) * W) (w : W) : Z * option X * W :=
    match f w with
    | (inl z, w') => (z, None, w')
    | (inr x, w') => (-1, Some x, w')
    end.

  (** The caller's side of a function that returns a number: -1 says that
      there is an exception (Python/bltinmodule.c builtin_hash,
      Objects/abstract.c; _Py_CheckFunctionResult for the mixed cases). *)
  Definition number_result (r : Z * option X * W) : outcome X Z * W :=
    match r with
    | (z, e, w) =>
        match (z =? -1), e with
        | true, Some x => (Raises x, w)
        | true, None => (Broken, w)
        | false, None => (Returns z, w)
        | false, Some _ => (Broken, w)
        end
    end.

  (** _proxy.c 128-140 [check]; only the answer matters here. *)
  Definition check (name : string) : action W X unit :=
    fun w => match h_ask h name w with
             | (None, w') => (Returns tt, w')
             | (Some x, w') => (Raises x, w')
             end.

  (** _proxy.c 454-458 [proxy_hash]: declared [static long]. *)
  Definition proxy_hash (w : W) : Z * option X * W :=
    match call_number (h_hash h) w with
    | (z, e, w') => (signed (long_bits p) z, e, w')
    end.

  (** hash(p): tp_hash is [(hashfunc)proxy_hash] (_proxy.c 781). *)
  Definition hash_of_proxy : action W X Z :=
    fun w => match proxy_hash w with
             | (z, e, w') => number_result (read_result p upper z, e, w')
             end.

  (** _proxy.c 586-592 [proxy_length]: declared [static Py_ssize_t], the type
      of the slot. *)
  Definition proxy_length (w : W) : Z * option X * W :=
    match check "__len__" w with
    | (Returns _, w') => call_number (h_length h) w'
    | (Raises x, w') => (-1, Some x, w')
    | (Broken, w') => (-1, None, w')
    end.

  (** len(p): sq_length and mp_length (_proxy.c 729, 741). *)
  Definition length_of_proxy : action W X Z :=
    fun w => number_result (proxy_length w).

  (** _proxy.c 653-664 [proxy_getitem] with an int as key. *)
  Definition proxy_getitem (key : Z) : action W X V :=
    andthen (check "__getitem__") (fun _ =>
    andthen (call (h_subscript h key)) (fun v => call (h_proxied h v))).

  (** _proxy.c 666-679 [proxy_setitem]; no value: deletion. *)
  Definition proxy_setitem (key : Z) (value : option V) : action W X unit :=
    match value with
    | None => andthen (check "__delitem__") (fun _ => call (h_ass_subscript h key None))
    | Some v => andthen (check "__setitem__") (fun _ => call (h_ass_subscript h key (Some v)))
    end.

  (** _proxy.c 22 and 616, 630: [PyInt_FromLong(i)] is [PyLong_FromLong(i)],
      whose argument is a [long]; [i] is a [Py_ssize_t]. *)
  Definition PyInt_FromLong (i : Z) : Z := signed (long_bits p) i.

  (** _proxy.c 613-624 [proxy_igetitem] (there is memory for the key). *)
  Definition proxy_igetitem (i : Z) : action W X V := proxy_getitem (PyInt_FromLong i).

  (** _proxy.c 627-638 [proxy_isetitem]. *)
  Definition proxy_isetitem (i : Z) (value : option V) : action W X unit :=
    proxy_setitem (PyInt_FromLong i) value.
End Code.

(** ** The interpreter's sequence protocol (Objects/abstract.c) *)

(** PySequence_GetItem, PySequence_SetItem and PySequence_DelItem: a negative
    index is counted from the end, by adding the length once; the slot gets
    the sum. *)
Definition from_the_end {W X A} (len : action W X Z) (slot : Z -> action W X A) (i : Z)
  : action W X A :=
  if i <? 0 then andthen len (fun l => slot (i + l)) else slot i.

(** reversed(x) of an object whose type has no __reversed__: the items at
    n-1, ..., 0 through PySequence_GetItem (Objects/enumobject.c
    reversed_next); IndexError and StopIteration end the iteration.  The
    answer: the values produced, and how it ended. *)
Fixpoint backwards {W X V} (ends : X -> bool) (item : Z -> action W X V) (n : nat) (w : W)
  : list V * outcome X unit * W :=
  match n with
  | O => ([], Returns tt, w)
  | S m =>
      match item (Z.of_nat m) w with
      | (Returns v, w') =>
          match backwards ends item m w' with
          | (vs, o, w'') => (v :: vs, o, w'')
          end
      | (Raises x, w') => ([], if ends x then Returns tt else Raises x, w')
      | (Broken, w') => ([], Broken, w')
      end
  end.

Definition reversed_items {W X V} (ends : X -> bool) (len : action W X Z)
           (item : Z -> action W X V) (w : W) : list V * outcome X unit * W :=
  match len w with
  | (Returns n, w') => backwards ends item (Z.to_nat n) w'
  | (Raises x, w') => ([], Raises x, w')
  | (Broken, w') => ([], Broken, w')
  end.
