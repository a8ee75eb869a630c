(** * EndToEndSpec: what a proxy of a configured object does.

    In terms of the tables a configuration file describes ([ZcmlSpec]), operations and
    what can be observed of them ([ProxySpec]). *)

From Coq Require Import List String Bool Arith ZArith.
From Verif Require Import Base Domain CheckerModel ProxyModel Spec RegSpec ProxySpec ProxyOps SessionSpec.
Import ListNotations.
Open Scope string_scope.

(** The entry of the registry that protects [obj]: that of its class; for a module
    that of the module. *)
Inductive Keyed (E : env) (s : state) (obj : value) : rkey -> Prop :=
| Keyed_class : Keyed E s obj (KType (concrete_type E s obj))
| Keyed_module m : obj = VMod m ->
    dget rkey_eqb (st_reg s) (KType "module") = Some VModFun -> Keyed E s obj (KMod m).

(** The permission that [R] (reading, calling, other operations) or [W] (assigning,
    deleting) require. *)
Definition required (R W : table) (a : access) : table :=
  match a with Read => R | Write => W end.

(** In the state [s] the proxy [p] of [w] lets operations through exactly as the tables
    [R] and [W] say. *)
Definition Obeys (E : env) (R W : table) (p : id) (w : value) (s : state) : Prop :=
  forall f o n a,
    guard_of (e_impl E) o = Some (p, n, a) ->
    (** no permission: forbidden, and nothing happens *)
    (required R W a n = None -> (a = Read -> ~ always_available n /\ n <> "__iter__") ->
     perform E (S (S (S f))) o s = (Exc (EForbidden n w), s, [])) /\
    (** no interaction: nothing but the public names *)
    (forall q, required R W a n = Some q -> q <> PPublic ->
     tl_inter (st_tls s (e_tid E)) = None ->
     perform E (S (S (S f))) o s = (Exc (EAttribute "interaction"), s, [])) /\
    (** the policy refuses: Unauthorized, after exactly one question *)
    (forall q i x, required R W a n = Some q ->
     tl_inter (st_tls s (e_tid E)) = Some (VIact i) -> st_inters s i = Some x ->
     ~ simple_grants s x q ->
     perform E (S (S (S f))) o s =
     (Exc (EUnauthorized w n q), s, [EAsk (e_tid E) (VIact i) q w (Some false)])) /\
    (other_operands_plain o -> n <> "__Security_checker__" ->
     forall r s' tr, perform E (S (S (S f))) o s = (r, s', tr) ->
     let through := reached (e_impl E) (e_tid E) (Invoked E (S (S f))) p o w (client_calls tr) in
     (** public: let through *)
     (required R W a n = Some PPublic -> through) /\
     (** any policy: asked for this permission on the object; let through if and only
         if it says yes *)
     (forall q, required R W a n = Some q -> q <> PPublic ->
      exists answer s1 t1 t2, Asked E s q w answer s1 t1 /\ tr = (t1 ++ t2)%list /\
        client_calls t1 = [] /\
        (answer = Ok true -> through) /\ (answer <> Ok true -> client_calls tr = []))).

(** From [s0] on, and whatever the program does, the proxy [p] of [w] lets operations
    through exactly as the tables [R] and [W] say. *)
Definition Governed (Env : env -> Prop) (other : state -> state -> Prop)
           (R W : table) (p : id) (w : value) (s0 : state) : Prop :=
  forall E s, History Env other s0 s -> Env E -> Obeys E R W p w s.

(** What can be done to the registry without touching a checker. *)
Inductive registry_change (s : state) : M unit -> Prop :=
| Ch_define k c : registry_change s (defineChecker k c)
| Ch_undefine k : registry_change s (undefineChecker k)
| Ch_basic_set k v : registry_change s (BasicTypes_setitem k v)
| Ch_basic_del k : registry_change s (BasicTypes_delitem k)
| Ch_basic_update d : registry_change s (BasicTypes_update d)
| Ch_clear d : registry_change s (clear_checkers d).
