(** * DeclThreadSpec: what concurrent declarations should amount to. *)

From Coq Require Import List String Bool Arith.
From Verif Require Import Base Domain ProtectSpec.
Import ListNotations.

(** What thread [t] contributed to a common order. *)
Definition part_of (t : id) (o : list (id * decl)) : list decl :=
  map snd (filter (fun x => Nat.eqb (fst x) t) o).

(** Not a like_class: this copies two whole dictionaries. *)
Definition single (d : decl) : Prop := match d with DLike _ _ => False | _ => True end.

(** A class that several threads declare something about has its checker already. *)
Definition no_race (ds : id -> list decl) (s : state) : Prop :=
  forall t t' d d', In d (ds t) -> In d' (ds t') -> target d = target d' -> t <> t' ->
    exists i, dget rkey_eqb (st_reg s) (target d) = Some (VChk i).

(** The protections of [s'] are those of [s] with the declarations [l] added in order. *)
Definition declared_in_order (l : list decl) (s s' : state) : Prop :=
  (forall k n, read_protection s' k n = declared_reads l (read_protection s) k n) /\
  (forall k n, write_protection s' k n = declared_writes l (write_protection s) k n).
