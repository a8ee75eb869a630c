(** * EndsSpec: when using proxies comes to an end. *)

From Coq Require Import List String Bool Arith.
From Verif Require Import Base Domain CheckerModel.
Import ListNotations.
Open Scope string_scope.

(** Some recursion depth is enough: with it, and with any greater one, the computation has
    one and the same outcome, which is not running out of depth. *)
Definition ends {A} (m : nat -> M A) (s : state) : Prop :=
  exists enough x, (forall f, enough <= f -> m f s = x) /\ fst (fst x) <> Exc EFuel.

(** The same, and the outcome is as [Q] says. *)
Definition ends_with {A} (m : nat -> M A) (s : state) (Q : res A -> state -> Prop) : Prop :=
  exists enough r s' t, (forall f, enough <= f -> m f s = (r, s', t)) /\ r <> Exc EFuel /\ Q r s'.

(** Proxies, decorators and checkers that exist. *)
Definition known (s : state) (v : value) : Prop :=
  match v with VProxy i | VDeco i | VChk i => i < st_next s | _ => True end.

(** Proxies, decorators and combined checkers are made of what was there before; registered
    factories are not proxies, and none is registered for a module that looks the module up
    again. *)
Record founded (s : state) : Prop := {
  fd_next : 3 <= st_next s;
  fd_proxy : forall p w c, st_prox s p = Some (w, c) ->
    p < st_next s /\ known s w /\ known s c /\ (forall q, w = VProxy q -> q < p);
  fd_deco : forall d x, st_decos s d = Some x ->
    known s (dc_obj x) /\ known s (dc_parent x) /\ (forall e, dc_obj x = VDeco e -> e < d);
  fd_checker : forall i k, st_chks s i = Some k ->
    i < st_next s /\
    (ck_kind k = CkPlain \/
     exists c2, ck_kind k = CkCombined c2 /\ forall j, c2 = VChk j -> j < i);
  fd_registry : forall k v, dget rkey_eqb (st_reg s) k = Some v ->
    known s v /\ (forall p, v <> VProxy p) /\ (forall m, k = KMod m -> v <> VModFun)
}.

(** Application code comes to an end, keeps all that, and returns what exists; factories
    return a checker or None or NoProxy. *)
Record tame (E : env) : Prop := {
  tame_ends : forall c s r s', founded s -> e_run E (e_tid E) c s = (r, s') ->
    founded s' /\ st_next s <= st_next s' /\ r <> Exc EFuel /\
    (forall v, r = Ok v -> known s' v);
  tame_factory : forall s k f obj v s', founded s -> dget rkey_eqb (st_reg s) k = Some f ->
    e_run E (e_tid E) (CallOp (OCall f [obj])) s = (Ok v, s') ->
    v = VNone \/ v = VNoProxy \/ is_Checker E s' v = true
}.

(** Operations that do not change what a proxy is made of: all but those that replace the
    object of a Python proxy. *)
Definition keeps_proxies (E : env) (s : state) (o : op) : Prop :=
  match o with
  | OIn _ (VProxy _) _ => e_impl E = ImplC
  | OSetattr v n w =>
      known s w /\ (e_impl E = ImplPy -> n <> "_wrapped" /\ n <> "_checker")
  | _ => True
  end.
