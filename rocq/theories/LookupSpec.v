(** * LookupSpec: vocabulary for attribute probes. *)

From Coq Require Import List String Bool Arith ZArith.
From Verif Require Import Base Domain.
Open Scope string_scope.

(** The read of the wrapped object's attribute, as the proxy performs it. *)
Definition own_read (E : env) (p : id) (w : value) (n : name) : call :=
  CallOp (OGetattr w n (match e_impl E with ImplPy => Some (VProxy p) | ImplC => None end)).
