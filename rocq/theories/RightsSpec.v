(** * RightsSpec: who may do what, and programs that use proxies without declaring anything. *)

From Coq Require Import List String Bool Arith.
From Verif Require Import Base Domain CheckerModel ProxyModel.
Import ListNotations.
Open Scope string_scope.

(** Nothing that decides about access has changed: permission tables, existing checkers, the
    registry, the policy, the threads' interactions and who takes part in them. *)
Record same_rights (s s' : state) : Prop := {
  sr_next : st_next s <= st_next s';
  sr_tables : forall d, st_dicts s' d = st_dicts s d;
  sr_checkers : forall i, i < st_next s -> st_chks s' i = st_chks s i;
  sr_registry : st_reg s' = st_reg s /\ st_basic s' = st_basic s;
  sr_policy : st_policy s' = st_policy s;
  sr_threads : forall t, st_tls s' t = st_tls s t;
  sr_interactions : forall i, st_inters s' i = st_inters s i;
  sr_participations : forall i, st_parts s' i = st_parts s i
}.

(** Application code that only minds its own business. *)
Definition declares_nothing (E : env) : Prop :=
  forall t c s r s', e_run E t c s = (r, s') -> same_rights s s'.

(** Any use of proxies and of the functions of checker.py, by any threads. *)
Inductive Uses (Env : env -> Prop) : state -> state -> Prop :=
| U_done s : Uses Env s s
| U_op E f o s r s1 t s' :
    Env E -> perform E f o s = (r, s1, t) -> Uses Env s1 s' -> Uses Env s s'
| U_check E f m c obj n s r s1 t s' :
    Env E -> do_check E f m c obj n s = (r, s1, t) -> Uses Env s1 s' -> Uses Env s s'
| U_select E f obj s r s1 t s' :
    Env E -> do_select E f obj s = (r, s1, t) -> Uses Env s1 s' -> Uses Env s s'
| U_factory E f obj c s r s1 t s' :
    Env E -> do_ProxyFactory E f obj c s = (r, s1, t) -> Uses Env s1 s' -> Uses Env s s'
| U_proxy E f c v s r s1 t s' :
    Env E -> do_proxy E f c v s = (r, s1, t) -> Uses Env s1 s' -> Uses Env s s'
| U_canAccess E f obj n s r s1 t s' :
    Env E -> do_canAccess E f obj n s = (r, s1, t) -> Uses Env s1 s' -> Uses Env s s'
| U_canWrite E f obj n s r s1 t s' :
    Env E -> do_canWrite E f obj n s = (r, s1, t) -> Uses Env s1 s' -> Uses Env s s'.

(** Security policies and foreign checkers whose answers depend on nothing else, and are not
    proxies. *)
Definition decides_by_rights (E : env) : Prop :=
  (forall i p obj s s', same_rights s s' ->
     fst (e_run E (e_tid E) (CallPerm i p obj) s') = fst (e_run E (e_tid E) (CallPerm i p obj) s)) /\
  (forall m c obj n s s', same_rights s s' ->
     fst (e_run E (e_tid E) (CallCheck m c obj n) s') = fst (e_run E (e_tid E) (CallCheck m c obj n) s)) /\
  (forall v s s', same_rights s s' ->
     fst (e_run E (e_tid E) (CallOp (OBool v)) s') = fst (e_run E (e_tid E) (CallOp (OBool v)) s)) /\
  (forall i p obj s v s', e_run E (e_tid E) (CallPerm i p obj) s = (Ok v, s') -> is_proxy v = false).

(** Existing checkers: plain, combined to any depth, or foreign. *)
Inductive Existing (s : state) : value -> Prop :=
| Ex_plain i k : i < st_next s -> st_chks s i = Some k -> ck_kind k = CkPlain -> Existing s (VChk i)
| Ex_combined i k c2 : i < st_next s -> st_chks s i = Some k -> ck_kind k = CkCombined c2 ->
    Existing s c2 -> Existing s (VChk i)
| Ex_foreign c : (forall i, c <> VChk i) -> Existing s c.
