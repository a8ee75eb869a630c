(** * Lookup: the language's own attribute probes, [hasattr(v, n)] and
    [getattr(v, n, default)], as a client of the package performs them.  They are not
    code of the package, but what they say about a security proxy follows from
    ForbiddenAttribute being an AttributeError (interfaces.py 116-117) and Unauthorized
    not being one (interfaces.py 81). *)

From Coq Require Import List String Bool Arith ZArith.
From Verif Require Import Base Domain CheckerModel ProxyModel.
Import ListNotations.
Open Scope string_scope.
Open Scope m_scope.

(** builtin [hasattr]: the attribute is read; an AttributeError means no, any other
    exception propagates.  Exception classes: interfaces.py 84-117. *)
Definition client_hasattr (E : env) (fuel : nat) (v : value) (n : name) : M bool :=
  catch (perform E fuel (OGetattr v n None) ;;; ret true)
        (fun e => if is_attribute_error e then ret false else raise e).

(** builtin [getattr] with a default.  Exception classes: interfaces.py 84-117. *)
Definition client_getattr (E : env) (fuel : nat) (v : value) (n : name) (default : value)
  : M value :=
  catch (perform E fuel (OGetattr v n None))
        (fun e => if is_attribute_error e then ret default else raise e).
