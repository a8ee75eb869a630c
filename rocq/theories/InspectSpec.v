(** * InspectSpec: what the helpers for looking at protected objects should tell. *)

From Coq Require Import List String Bool Arith ZArith Sorted.
From Verif Require Import Base Domain Spec.
Import ListNotations.
Open Scope string_scope.

(** Alphabetical order of names. *)
Definition alphabetical (a b : name) : Prop := String.leb a b = true.

(** [l] lists the table [tb], in alphabetical order. *)
Definition lists_table (l : list (name * perm)) (tb : name -> option perm) : Prop :=
  Sorted alphabetical (map fst l) /\ NoDup (map fst l) /\
  forall n q, In (n, q) l <-> tb n = Some q.

(** Class [cls] answers questions for its module and its name. *)
Definition named_class (E : env) (cls : value) (modname nm : string) : Prop :=
  forall s,
    e_run E (e_tid E) (CallOp (OGetattr cls "__module__" None)) s = (Ok (VStr modname), s) /\
    e_run E (e_tid E) (CallOp (OGetattr cls "__name__" None)) s = (Ok (VStr nm), s).

(** What separates two lines. *)
Definition newline : string := String (Ascii.ascii_of_nat 10) "".
