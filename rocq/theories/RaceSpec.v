(** * RaceSpec: which permissions may be found in a table while threads declare. *)

From Coq Require Import List String Bool Arith.
From Verif Require Import Base Domain ProxySpec ProtectSpec.
Import ListNotations.

(** The dictionary for reading ([w] false) or writing ([w] true) of the checker registered
    for [k]. *)
Definition holds (s : state) (k : rkey) (w : bool) (d : id) : Prop :=
  exists i c, live s k i c /\ d = if w then ck_set c else ck_get c.

(** Somebody is responsible for permission [p] on the name [n] of class [k]: it was there
    from the beginning, a thread declares it, a thread declares that [k] is like a class for
    which somebody is responsible, or the table has been another class's from the beginning. *)
Inductive granted (ds : id -> list decl) (s : state) : bool -> rkey -> name -> perm -> Prop :=
| granted_read k n p : read_protection s k n = Some p -> granted ds s false k n p
| granted_write k n p : write_protection s k n = Some p -> granted ds s true k n p
| granted_name t k n p : In (DName k n p) (ds t) -> granted ds s false k n (meant p)
| granted_set t k n p : In (DSet k n p) (ds t) -> granted ds s true k n (meant p)
| granted_like t w k l n p : In (DLike k l) (ds t) -> granted ds s w l n p -> granted ds s w k n p
| granted_shared w w' k k' n p d :
    holds s k w d -> holds s k' w' d -> granted ds s w' k' n p -> granted ds s w k n p.

(** The permission None is neither declared nor there from the beginning. *)
Definition never_none (ds : id -> list decl) (s : state) : Prop :=
  (forall k n, read_protection s k n <> Some PNone /\ write_protection s k n <> Some PNone) /\
  (forall t k n, ~ In (DName k n PNone) (ds t) /\ ~ In (DSet k n PNone) (ds t)).

(** Which of the two tables an access needs. *)
Definition writing (a : access) : bool := match a with Read => false | Write => true end.
