(** * FactorySpec: creating proxies, and predicting what may be done through them.
    Vocabulary of [Domain] only. *)

From Coq Require Import List String Bool Arith ZArith.
From Verif Require Import Base Domain Spec ProxySpec.
Import ListNotations.
Open Scope string_scope.

(** [Grown s s' p v c]: [s'] is [s] with a new proxy [p] around [v] with checker [c]. *)
Definition Grown (s s' : state) (p : id) (v c : value) : Prop :=
  p = st_next s /\
  s' = set_prox (upd (st_prox s) p (Some (v, c))) (set_next (S p) s).

(** [Own E s v c s']: looking up [v.__Security_checker__] gives [c] ([VNone]: there is
    none) and changes the state to [s']. *)
Inductive Own (E : env) (s : state) (v : value) : value -> state -> Prop :=
| Own_atom : is_atom v = true -> Own E s v VNone s
| Own_found c s' : plain_object v -> is_atom v = false ->
    e_run E (e_tid E) (CallOp (OGetattr v "__Security_checker__" None)) s = (Ok c, s') ->
    Own E s v c s'
| Own_missing e s' : plain_object v -> is_atom v = false ->
    e_run E (e_tid E) (CallOp (OGetattr v "__Security_checker__" None)) s = (Exc e, s') ->
    attribute_error e -> Own E s v VNone s'.

(** A policy that answers yes or no without raising, and to which the proxy [p] and
    the object [w] inside are the same. *)
Definition indifferent (E : env) (p : id) (w : value) : Prop :=
  forall iv q s, exists b s',
    e_run E (e_tid E) (CallPerm iv q (VProxy p)) s = (Ok (VBool b), s') /\
    e_run E (e_tid E) (CallPerm iv q w) s = (Ok (VBool b), s').
