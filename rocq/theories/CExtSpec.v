(** * CExtSpec: what a C function has to do with references. *)

From Coq Require Import List Bool Arith ZArith.
From Verif Require Import CExt.
Import ListNotations.
Open Scope Z_scope.

(** The reference handed to the caller. *)
Definition returned (r : ptr) (o : obj) : Z :=
  match r with Some x => if Nat.eqb o x then 1 else 0 | None => 0 end.

(** References to [o] in the struct of [x]. *)
Definition in_struct (s : cst) (x o : obj) : Z := returned (f1 s x) o + returned (f2 s x) o.

(** The state in which C code is entered: nothing has gone wrong, no exception is set. *)
Definition entered (s : cst) : Prop :=
  fault s = false /\ exc s = false /\ forall o, 0 <= own s o.

(** Every reference taken is given back, except the one that is returned; nothing
    undefined has happened; the structs are as before. *)
Definition balanced (s : cst) (r : ptr) (s' : cst) : Prop :=
  fault s' = false /\
  (forall o, own s' o = own s o + returned r o) /\
  (forall x, f1 s' x = f1 s x /\ f2 s' x = f2 s x).

(** The same when the struct of [x] may have changed: its references count. *)
Definition balanced_with (x : obj) (s : cst) (r : ptr) (s' : cst) : Prop :=
  fault s' = false /\
  (forall o, own s' o = own s o + returned r o + in_struct s' x o - in_struct s x o) /\
  (forall y, y <> x -> f1 s' y = f1 s y /\ f2 s' y = f2 s y).

(** A function that returns an object, from states with [P]: it is balanced and returns
    NULL exactly if it has set an exception. *)
Definition object_sound (P : cst -> Prop) (m : C ptr) : Prop :=
  forall s r s', entered s -> P s -> m s = Some (r, s') ->
    balanced s r s' /\ (r = None <-> exc s' = true).

(** A function that returns an int: negative exactly if it has set an exception. *)
Definition int_sound (P : cst -> Prop) (m : C Z) : Prop :=
  forall s i s', entered s -> P s -> m s = Some (i, s') ->
    balanced s None s' /\ (i < 0 <-> exc s' = true).

(** tp_iternext: NULL without an exception means exhausted. *)
Definition next_sound (P : cst -> Prop) (m : C ptr) : Prop :=
  forall s r s', entered s -> P s -> m s = Some (r, s') ->
    balanced s r s' /\ (exc s' = true -> r = None).

(** The proxies among the arguments are complete. *)
Definition proxies_complete (args : list obj) (is_proxy : obj -> bool) (s : cst) : Prop :=
  forall x, In x args -> is_proxy x = true -> f1 s x <> None /\ f2 s x <> None.

(** Nobody drops the object while C code runs. *)
Definition kept (oracle : nat -> answer) (o : obj) : Prop :=
  forall k, an_drops (oracle k) o = false.

(** The functions of _proxy.c, called as the interpreter calls them: with arguments that the
    caller keeps alive, the first of which is a proxy where the slot is only reached through
    the type. The names that are checked are static. *)
Section Functions.
  Variable oracle : nat -> answer.
  Variable args : list obj.
  Variables is_proxy is_checker is_str exact_proxy has_sub has_ass has_num has_next : obj -> bool.
  Variables char0 char1 is_iter : obj -> bool.

  Definition a_proxy (x : obj) : Prop := In x args /\ is_proxy x = true.
  Definition an_arg (p : ptr) : Prop := forall x, p = Some x -> In x args.

  Inductive object_function : C ptr -> Prop :=
  | of_check1 self op : a_proxy self -> static op = true ->
      object_function (check1 oracle args has_sub has_ass self op)
  | of_check2 self other op rop : In self args -> In other args ->
      static op = true -> static rop = true ->
      object_function (check2 oracle args is_proxy has_sub has_ass self other op rop)
  | of_check2i self other op : a_proxy self -> In other args -> static op = true ->
      object_function (check2i oracle args has_sub has_ass self other op)
  | of_richcompare self other : a_proxy self -> In other args ->
      object_function (proxy_richcompare oracle args has_sub self other)
  | of_iter self : a_proxy self -> object_function (proxy_iter oracle args has_sub has_ass self)
  | of_getattro self name : a_proxy self -> In name args ->
      object_function (proxy_getattro oracle args has_sub has_ass self name)
  | of_call self a kwds : a_proxy self -> In a args -> an_arg kwds ->
      object_function (proxy_call oracle args has_sub has_ass self a kwds)
  | of_number self name : a_proxy self -> static name = true ->
      object_function (proxy_number oracle args has_sub has_ass has_num name self)
  | of_pow self other modulus : In self args -> In other args -> In modulus args ->
      object_function (proxy_pow oracle args is_proxy has_sub has_ass self other modulus)
  | of_length_hint self matches : a_proxy self ->
      object_function (proxy_length_hint oracle args matches self)
  | of_getitem self key : a_proxy self -> In key args ->
      object_function (proxy_getitem oracle args has_sub has_ass self key)
  | of_igetitem self : a_proxy self ->
      object_function (proxy_igetitem oracle args has_sub has_ass self)
  | of_getChecker arg : In arg args -> object_function (module_getChecker args is_proxy arg)
  | of_getObject arg : In arg args -> object_function (module_getObject args is_proxy arg).

  Inductive int_function : C Z -> Prop :=
  | if_setattro self name value : a_proxy self -> In name args -> an_arg value ->
      int_function (proxy_setattro oracle args has_ass self name value)
  | if_hash self : a_proxy self -> int_function (proxy_hash oracle args self)
  | if_bool self : a_proxy self -> int_function (proxy_bool oracle args self)
  | if_length self : a_proxy self -> int_function (proxy_length oracle args has_ass self)
  | if_contains self value : a_proxy self -> In value args ->
      int_function (proxy_contains oracle args has_ass self value)
  | if_setitem self key value : a_proxy self -> In key args -> an_arg value ->
      int_function (proxy_setitem oracle args has_ass self key value)
  | if_isetitem self value : a_proxy self -> an_arg value ->
      int_function (proxy_isetitem oracle args has_ass self value).
End Functions.
