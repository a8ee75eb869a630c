(** * SlotSpec: comparison, hash, truth, str, repr.  Vocabulary of [Domain] only. *)

From Coq Require Import List String Bool Arith ZArith.
From Verif Require Import Base Domain Spec ProxySpec.
Import ListNotations.
Open Scope string_scope.

(** Operations that need no permission. *)
Definition open_op (o : op) : Prop :=
  match o with OHash _ | OBool _ | OCmp _ _ _ => True | _ => False end.

(** What the language expects these operations to return; the C proxy hands through
    comparison results only if they are booleans (others are proxied). *)
Definition good_answer (b : impl) (o : op) (v : value) : Prop :=
  match o with
  | OHash _ => exists z, v = VInt z
  | OBool _ => exists x, v = VBool x
  | OCmp _ _ _ => match b with ImplC => exists x, v = VBool x | ImplPy => True end
  | _ => False
  end.

(** The text shown for an object whose representation may not be seen. *)
Definition masked (E : env) (w : value) (modname clsname : string) : string :=
  "<security proxied " ++ modname ++ "." ++ clsname ++ " instance at " ++ e_addr E w ++ ">".

(** [HasClass E w k m n]: [w.__class__] is the class [k], named [n], of module [m];
    finding that out has no effects. *)
Definition HasClass (E : env) (w : value) (k m n : string) : Prop :=
  forall s,
    e_run E (e_tid E) (CallOp (OGetattr w "__class__" None)) s = (Ok (VClass k), s) /\
    e_run E (e_tid E) (CallOp (OGetattr (VClass k) "__module__" None)) s = (Ok (VStr m), s) /\
    e_run E (e_tid E) (CallOp (OGetattr (VClass k) "__name__" None)) s = (Ok (VStr n), s).

(** str and repr, and the name each is checked under. *)
Definition shows (o : op) : option name :=
  match o with OStr _ => Some "__str__" | ORepr _ => Some "__repr__" | _ => None end.
