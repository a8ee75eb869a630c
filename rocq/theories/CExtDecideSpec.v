(** * CExtDecideSpec: which calls of the C extensions decide about access. *)

From Coq Require Import List Bool Arith ZArith.
From Verif Require Import CExt.
Import ListNotations.
Open Scope Z_scope.

(** The checker [chk] was asked by [meth] about [name] on [ob] and has not refused. *)
Definition grants (chk ob : ptr) (meth name : obj) (e : entry) : Prop :=
  en_api e = ACheck /\ en_out e <> Failed /\
  (en_args e = [chk; Some meth; ob; Some name] \/
   meth <> str_check_setattr /\ en_args e = [chk; ob; Some name]).

(** The checker [chk] has made [x] of [o]. *)
Definition wraps (chk : ptr) (o x : obj) (e : entry) : Prop :=
  en_api e = AWrap /\ en_out e = Gave x /\
  (en_args e = [chk; Some o] \/ en_args e = [chk; Some str_proxy; Some o]).

(** Of the calls made (the latest first): every operation is with the object [ob], and was
    granted before. *)
Definition mediated (chk ob : ptr) (meth name : obj) (calls : list entry) : Prop :=
  forall later e before,
    calls = later ++ e :: before -> en_api e = AOp ->
    In ob (en_args e) /\ exists g, In g before /\ grants chk ob meth name g.

(** What is returned was given by an operation and then made a proxy by the checker. *)
Definition wrapped (chk : ptr) (x : obj) (calls : list entry) : Prop :=
  exists later w o e before,
    calls = later ++ w :: e :: before /\
    en_api e = AOp /\ en_out e = Gave o /\ wraps chk o x w.

Section Slots.
  Variable oracle : nat -> answer.
  Variable args : list obj.
  Variables is_proxy is_checker is_str exact_proxy has_sub has_ass has_num has_next : obj -> bool.
  Variables char0 char1 is_iter : obj -> bool.

  (** The slots of the C proxy that return an object: which operand is the proxy that decides,
      by which method of its checker and for which name. *)
  Inductive object_slot : obj -> obj -> obj -> C ptr -> Prop :=
  | os_unary self op :
      object_slot self str_check op (check1 oracle args has_sub has_ass self op)
  | os_binary self other op rop : is_proxy self = true ->
      object_slot self str_check op (check2 oracle args is_proxy has_sub has_ass self other op rop)
  | os_reflected self other op rop : is_proxy self = false -> is_proxy other = true ->
      object_slot other str_check rop (check2 oracle args is_proxy has_sub has_ass self other op rop)
  | os_iter self :
      object_slot self str_check str_iter (proxy_iter oracle args has_sub has_ass self)
  | os_next self :
      object_slot self str_check_getattr str_next
        (proxy_iternext oracle args has_sub has_ass has_next self)
  | os_getattro self name :
      object_slot self str_check_getattr name (proxy_getattro oracle args has_sub has_ass self name)
  | os_call self a kwds :
      object_slot self str_check str_call (proxy_call oracle args has_sub has_ass self a kwds)
  | os_number self name :
      object_slot self str_check name (proxy_number oracle args has_sub has_ass has_num name self)
  | os_pow self other modulus : is_proxy self = true ->
      object_slot self str_check str_pow
        (proxy_pow oracle args is_proxy has_sub has_ass self other modulus)
  | os_rpow self other modulus : is_proxy self = false -> is_proxy other = true ->
      object_slot other str_check str_rpow
        (proxy_pow oracle args is_proxy has_sub has_ass self other modulus)
  | os_3pow self other modulus :
      is_proxy self = false -> is_proxy other = false -> is_proxy modulus = true ->
      object_slot modulus str_check str_pow3
        (proxy_pow oracle args is_proxy has_sub has_ass self other modulus)
  | os_getitem self key :
      object_slot self str_check str_getitem (proxy_getitem oracle args has_sub has_ass self key)
  | os_igetitem self :
      object_slot self str_check str_getitem (proxy_igetitem oracle args has_sub has_ass self).

  (** Those that return an int. *)
  Inductive int_slot : obj -> obj -> obj -> C Z -> Prop :=
  | is_setattro self name value :
      int_slot self str_check_setattr name (proxy_setattro oracle args has_ass self name value)
  | is_length self : int_slot self str_check str_len (proxy_length oracle args has_ass self)
  | is_contains self value :
      int_slot self str_check str_contains (proxy_contains oracle args has_ass self value)
  | is_setitem self key value :
      int_slot self str_check str_setitem (proxy_setitem oracle args has_ass self key (Some value))
  | is_delitem self key :
      int_slot self str_check str_delitem (proxy_setitem oracle args has_ass self key None)
  | is_isetitem self value :
      int_slot self str_check str_setitem (proxy_isetitem oracle args has_ass self (Some value))
  | is_idelitem self :
      int_slot self str_check str_delitem (proxy_isetitem oracle args has_ass self None).

  (** [table]: the permission table of the checker.  The reasons for which it may grant
      [name] on [object]. *)
  Inductive by_table (table : ptr) (object name : obj) (calls : list entry) : Prop :=
  | bt_public t :
      table = Some t -> In (mkE AItem [Some t; Some name] (Gave CheckerPublic)) calls ->
      by_table table object name calls
  | bt_asked t p i a n :
      table = Some t -> In (mkE AItem [Some t; Some name] (Gave p)) calls ->
      In (mkE AInteraction [Some thread_local; Some str_interaction] (Gave i)) calls ->
      In (mkE APolicy [Some i; Some str_checkPermission; Some p; Some object] (Gave a)) calls ->
      In (mkE ATruth [Some a] (Num n)) calls -> n <> O ->
      by_table table object name calls.
  Inductive by_default (table : ptr) (object name : obj) (calls : list entry) : Prop :=
  | bd_member n :
      is_str name = true -> char0 name = true -> char1 name = true ->
      (table = None \/ In (mkE AItem [table; Some name] Nothing) calls) ->
      In (mkE AMember [Some available_by_default; Some name] (Num n)) calls -> n <> O ->
      by_default table object name calls
  | bd_iter :
      is_str name = true -> is_iter name = true ->
      (table = None \/ In (mkE AItem [table; Some name] Nothing) calls) ->
      In (mkE AHas [Some object; Some name] (Num 0)) calls ->
      by_default table object name calls.

  (** Why selectChecker leaves a value alone: it is registered so, it is an exception without a
      checker of its own (or isinstance() failed), or a factory said so. *)
  Inductive left_alone (value : obj) (calls : list entry) : Prop :=
  | la_registered :
      In (mkE AItem [Some checkers; Some value] (Gave NoProxy)) calls -> left_alone value calls
  | la_exception x :
      In (mkE AInstance [Some value; Some PyExc_Exception] x) calls -> x <> Num 0 ->
      left_alone value calls
  | la_factory c n :
      In (mkE AFactory [Some c; Some value] (Gave n)) calls -> n = NoProxy \/ n = Py_None ->
      left_alone value calls.

  (** A call has failed. *)
  Definition failed (calls : list entry) : Prop := exists e, In e calls /\ en_out e = Failed.
End Slots.
