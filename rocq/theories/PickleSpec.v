(** * PickleSpec: vocabulary for pickling and copying security proxies. *)

From Coq Require Import List String Bool Arith ZArith.
From Verif Require Import Base Domain Spec RegSpec ProxySpec DefaultsSpec.
Import ListNotations.
Open Scope string_scope.

(** The two ways in which an object can say how to pickle or copy it. *)
Definition reducers : list name := ["__reduce_ex__"; "__reduce__"].

(** Object [o] is a global named [nm] of module [modname]: its [__reduce__] is a bound
    method that returns its name, its [__module__] is a string (the class Global,
    checker.py 325-345). *)
Record global_object (E : env) (o method : id) (modname nm : string) : Prop := {
  go_reduce : forall fr s,
    e_run E (e_tid E) (CallOp (OGetattr (VObj o) "__reduce__" fr)) s = (Ok (VObj method), s);
  go_module : forall fr s,
    e_run E (e_tid E) (CallOp (OGetattr (VObj o) "__module__" fr)) s = (Ok (VStr modname), s);
  go_call : forall s,
    e_run E (e_tid E) (CallOp (OCall (VObj method) [])) s = (Ok (VStr nm), s);
  go_true : forall s,
    e_run E (e_tid E) (CallOp (OBool (VObj method))) s = (Ok (VBool true), s);
  go_method : e_type E method = "method";
  go_no_checker : forall fr s,
    e_run E (e_tid E) (CallOp (OGetattr (VObj method) "__Security_checker__" fr)) s =
    (Exc (EAttribute "__Security_checker__"), s) }.

(** The marker for public access is the proxy with identity 0 around the object with
    identity 0; nothing of it can be read but what pickling needs. *)
Definition PublicMarker (s : state) : Prop :=
  Wraps s 0 (VObj 0) (VChk 1) /\ reads_only s (VChk 1) ["__reduce__"; "__module__"].

(** The types of functions and methods. *)
Definition callable_types : list string :=
  ["function"; "method"; "builtin_function_or_method"; "builtin_method"; "method-wrapper"].

(** Reducers of the object [w] are ordinary functions or methods. *)
Definition ordinary_reducers (E : env) (w : value) : Prop :=
  forall n fr s v s', In n reducers ->
    e_run E (e_tid E) (CallOp (OGetattr w n fr)) s = (Ok v, s') ->
    exists o, v = VObj o /\ In (e_type E o) callable_types.

(** Objects of type [T] have no [__Security_checker__]. *)
Definition no_own_checker (E : env) (T : string) : Prop :=
  forall o s, e_type E o = T ->
    e_run E (e_tid E) (CallOp (OGetattr (VObj o) "__Security_checker__" None)) s =
    (Exc (EAttribute "__Security_checker__"), s).

(** Application code does not change what the registry has for type [T]. *)
Definition registration_kept (E : env) (T : string) : Prop :=
  forall t c s r s', e_run E t c s = (r, s') ->
    dget rkey_eqb (st_reg s') (KType T) = dget rkey_eqb (st_reg s) (KType T).
