(** * PermSpec: what the permission listings should contain. *)

From Coq Require Import List String Bool Arith Sorted.
From Verif Require Import Base Domain Permission.
Import ListNotations.
Open Scope string_scope.

Definition public_id : string := "zope.Public".

(** The registered ids other than the public one. *)
Definition private_id (us : list utility) (n : string) : Prop :=
  In n (map fst us) /\ n <> public_id.

(** [ns] lists the ids satisfying [P], each once, in increasing order. *)
Definition listing (P : string -> Prop) (ns : list string) : Prop :=
  (forall n, In n ns <-> P n) /\
  StronglySorted (fun a b => String.compare a b = Lt) ns.

(** The term of an ordinary permission id, and that of the public permission. *)
Definition id_term (n : string) : term := mkTerm (TId n) n (Some n).
Definition public_term : term := mkTerm TPublic public_id (Some "Public").

(** Names are unique among registered utilities. *)
Definition names_unique (us : list utility) : Prop := NoDup (map fst us).
