(** * AdapterSpec: what adapter factories and decorators promise. *)

From Coq Require Import List String Bool Arith.
From Verif Require Import Base Domain Spec RegSpec ProxySpec FactorySpec.
Import ListNotations.
Open Scope string_scope.

(** Is one of the arguments a security proxy? *)
Definition some_proxy (args : list value) : Prop := exists p, In (VProxy p) args.

(** The arguments with one security proxy removed from each. *)
Inductive Stripped (s : state) : list value -> list value -> Prop :=
| St_nil : Stripped s [] []
| St_proxy p w c args args' :
    st_prox s p = Some (w, c) -> Stripped s args args' -> Stripped s (VProxy p :: args) (w :: args')
| St_other v args args' :
    is_proxy v = false -> Stripped s args args' -> Stripped s (v :: args) (v :: args').

(** No proxy wraps a proxy. *)
Definition single_layer (s : state) : Prop :=
  forall p w c, st_prox s p = Some (w, c) -> is_proxy w = false.

(** No proxy wraps itself (Python cannot build one). *)
Definition no_self_wrap (s : state) : Prop :=
  forall p w c, st_prox s p = Some (w, c) -> w <> VProxy p.

(** The two operations that make up locating. *)
Definition ask_located (a : value) : call :=
  CallOp (OCall (VClass "zope.location.interfaces.ILocation.providedBy") [a]).
Definition read_parent (a : value) : call := CallOp (OGetattr a "__parent__" None).
Definition write_parent (a parent : value) : call := CallOp (OSetattr a "__parent__" parent).

(** [s'] is [s] with a new location proxy [d] around [a], whose parent is [parent]. *)
Definition NewLocation (s s' : state) (d : id) (a parent : value) : Prop :=
  d = st_next s /\
  s' = set_decos (st_decos s') (set_next (S d) s) /\
  st_decos s' d = Some (mkDeco "LocationProxy" a parent) /\
  forall d', d' <> d -> st_decos s' d' = st_decos s d'.

(** What is done to the adapter [a] (neither proxy nor decorator), from [s], to place it
    below [parent].  [wrap]: an adapter without location gets a location proxy. *)
Inductive Placed (E : env) (wrap : bool) (a parent : value) (s : state)
  : res value -> state -> list event -> Prop :=
| Pl_unknown e s1 :
    e_run E (e_tid E) (ask_located a) s = (Exc e, s1) ->
    Placed E wrap a parent s (Exc e) s1 [ECall Probe (e_tid E) (ask_located a)]
| Pl_wrapped s1 d s2 :
    wrap = true ->
    e_run E (e_tid E) (ask_located a) s = (Ok (VBool false), s1) ->
    NewLocation s1 s2 d a parent ->
    Placed E wrap a parent s (Ok (VDeco d)) s2 [ECall Probe (e_tid E) (ask_located a)]
| Pl_unlocated s1 :
    wrap = false ->
    e_run E (e_tid E) (ask_located a) s = (Ok (VBool false), s1) ->
    Placed E wrap a parent s (Ok a) s1 [ECall Probe (e_tid E) (ask_located a)]
| Pl_unreadable s1 e s2 :
    e_run E (e_tid E) (ask_located a) s = (Ok (VBool true), s1) ->
    e_run E (e_tid E) (read_parent a) s1 = (Exc e, s2) ->
    Placed E wrap a parent s (Exc e) s2
      [ECall Probe (e_tid E) (ask_located a); ECall Client (e_tid E) (read_parent a)]
| Pl_has_parent s1 q s2 :
    e_run E (e_tid E) (ask_located a) s = (Ok (VBool true), s1) ->
    e_run E (e_tid E) (read_parent a) s1 = (Ok q, s2) -> q <> VNone ->
    Placed E wrap a parent s (Ok a) s2
      [ECall Probe (e_tid E) (ask_located a); ECall Client (e_tid E) (read_parent a)]
| Pl_parent_set s1 s2 v s3 :
    e_run E (e_tid E) (ask_located a) s = (Ok (VBool true), s1) ->
    e_run E (e_tid E) (read_parent a) s1 = (Ok VNone, s2) ->
    e_run E (e_tid E) (write_parent a parent) s2 = (Ok v, s3) ->
    Placed E wrap a parent s (Ok a) s3
      [ECall Probe (e_tid E) (ask_located a); ECall Client (e_tid E) (read_parent a);
       ECall Client (e_tid E) (write_parent a parent)]
| Pl_parent_refused s1 s2 e s3 :
    e_run E (e_tid E) (ask_located a) s = (Ok (VBool true), s1) ->
    e_run E (e_tid E) (read_parent a) s1 = (Ok VNone, s2) ->
    e_run E (e_tid E) (write_parent a parent) s2 = (Exc e, s3) ->
    Placed E wrap a parent s (Exc e) s3
      [ECall Probe (e_tid E) (ask_located a); ECall Client (e_tid E) (read_parent a);
       ECall Client (e_tid E) (write_parent a parent)].

(** [ILocation.providedBy] answers with a bool. *)
Definition provided_is_bool (E : env) : Prop :=
  forall a s v s1, e_run E (e_tid E) (ask_located a) s = (Ok v, s1) -> exists b, v = VBool b.

(** The factory is called with [args]. *)
Definition factory_call (E : env) (factory : value) (args : list value) : event :=
  ECall Client (e_tid E) (CallOp (OCall factory args)).

(** ** Decorators *)

(** The checker of the object inside a decorator, [select] being selectChecker: that of
    its proxy, its own [__Security_checker__], or the selected one. *)
Inductive Inner (E : env) (select : value -> M (option value)) (s : state) (v : value)
  : option value -> state -> Prop :=
| Inner_proxy p w c :
    v = VProxy p -> st_prox s p = Some (w, c) -> Inner E select s v (Some c) s
| Inner_own c s1 : Own E s v c s1 -> c <> VNone -> Inner E select s v (Some c) s1
| Inner_selected s1 oc s2 t :
    Own E s v VNone s1 -> select v s1 = (Ok oc, s2, t) -> Inner E select s v oc s2.

(** selectChecker settles on the name-based checker [c] for the type of [v]. *)
Definition ByType (E : env) (s : state) (v c : value) (g w : list (name * perm)) : Prop :=
  PlainChecker s c g w /\
  ((registered_for E s v = Some c /\ c <> spec_default) \/
   (registered_for E s v = None /\ c = spec_default /\
    (e_cimpl E = ImplC -> e_isexc E (concrete_type E s v) = false))).

(** The type of [v] is declared to need no proxy. *)
Definition Unguarded (E : env) (s : state) (v : value) : Prop :=
  registered_for E s v = Some VNoProxy.

(** [Stack E s n v gs ws]: [v] is an object or proxy below [n] decorators; [gs] and [ws]
    are the read and write tables that apply to it, those of outer decorators first. *)
Inductive Stack (E : env) (s : state) : nat -> value -> list table -> list table -> Prop :=
| Sk_proxied p w c gs ws :
    st_prox s p = Some (w, c) -> Chain s c gs ws -> Stack E s 0 (VProxy p) gs ws
| Sk_own v c gs ws :
    Own E s v c s -> c <> VNone -> Chain s c gs ws -> Stack E s 0 v gs ws
| Sk_by_type v c g w :
    Own E s v VNone s -> ByType E s v c g w -> Stack E s 0 v [table_of g] [table_of w]
| Sk_unguarded v :
    Own E s v VNone s -> Unguarded E s v -> Stack E s 0 v [] []
| Sk_decorated n d x c g w gs ws :
    st_decos s d = Some x -> ByType E s (VDeco d) c g w -> Stack E s n (dc_obj x) gs ws ->
    Stack E s (S n) (VDeco d) (table_of g :: gs) (table_of w :: ws)
| Sk_transparent n d x gs ws :
    st_decos s d = Some x -> Unguarded E s (VDeco d) -> Stack E s n (dc_obj x) gs ws ->
    Stack E s (S n) (VDeco d) gs ws.

(** Nothing but new checkers has been added. *)
Definition only_new_checkers (s s' : state) : Prop :=
  s' = set_chks (st_chks s') (set_next (st_next s') s) /\ st_next s <= st_next s' /\
  forall i k, st_chks s i = Some k -> st_chks s' i = Some k.

(** [Found s oc gs ws]: [oc] is a checker made of the tables, [None] if there are none. *)
Definition Found (s : state) (oc : option value) (gs ws : list table) : Prop :=
  match oc with
  | None => gs = [] /\ ws = []
  | Some c => Chain s c gs ws
  end.
