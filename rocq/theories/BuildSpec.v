(** * BuildSpec: when the C and the Python implementation should agree.

    Vocabulary of [Domain]; [heap_ok], [proxies_kept], [plain_object] from the other
    specifications. *)

From Coq Require Import List String Bool Arith ZArith.
From Verif Require Import Base Domain ProxyModel Spec RegSpec ProxySpec MediationSpec.
Import ListNotations.
Open Scope string_scope.

(** The same program with the proxies of [pb] and the checkers of [cb]. *)
Definition builds (pb cb : impl) (E : env) : env :=
  mkEnv pb cb (e_watch E) (e_tid E) (e_type E) (e_meta E) (e_isexc E) (e_addr E) (e_run E).

(** The same program in build [b]. *)
Definition build (b : impl) (E : env) : env := builds b b E.

(** ** Traces *)

(** What well-behaved code does not look at: the calling frame of an attribute access,
    and which of the synonyms [check] and [check_getattr] is called. *)
Definition erase_op (o : op) : op :=
  match o with OGetattr v n _ => OGetattr v n None | _ => o end.
Definition erase_mode (m : chkmode) : chkmode :=
  match m with MGetattr => MCheck | _ => m end.
Definition erase_call (c : call) : call :=
  match c with
  | CallOp o => CallOp (erase_op o)
  | CallCheck m c obj n => CallCheck (erase_mode m) c obj n
  | _ => c
  end.
Definition erase (ev : event) : event :=
  match ev with ECall k t c => ECall k t (erase_call c) | _ => ev end.
Definition same_trace (t1 t2 : list event) : Prop := map erase t1 = map erase t2.

(** ** States and application code *)

(** Checkers have string or CheckerPublic permissions and are instances of Checker or
    CombinedChecker; proxies wrap ordinary objects; None and booleans are not wrapped;
    exception classes have a checker of their own; no decorators. *)
Record ordinary (E : env) (s : state) : Prop := {
  or_heap : heap_ok s;
  or_wrapped : forall p w c, st_prox s p = Some (w, c) -> plain_object w;
  or_tables : forall d n p, In (n, p) (st_dicts s d) -> p <> PNone;
  or_kinds : forall i k, st_chks s i = Some k ->
    ck_kind k = CkPlain \/ exists c, ck_kind k = CkCombined c;
  or_none : dget rkey_eqb (st_reg s) (KType "NoneType") = Some VNoProxy;
  or_bool : dget rkey_eqb (st_reg s) (KType "bool") = Some VNoProxy;
  or_exceptions : forall T, e_isexc E T = true ->
    exists v, dget rkey_eqb (st_reg s) (KType T) = Some v /\ v <> spec_default;
  or_decorators : forall d, st_decos s d = None }.

(** Application code keeps states ordinary and proxies as they are, does not look at
    what [erase] removes; [__Security_checker__] is a checker or missing; looking up
    [__iter__] succeeds or raises AttributeError; comparisons give booleans (or
    NotImplemented, if the other operand is a proxy); no decorators are made. *)
Record ordinary_code (E : env) : Prop := {
  oc_state : forall t c s r s',
    e_run E t c s = (r, s') -> ordinary E s -> ordinary E s' /\ proxies_kept s s';
  oc_erase : forall t c s, e_run E t c s = e_run E t (erase_call c) s;
  oc_own : forall t v fr s c s',
    e_run E t (CallOp (OGetattr v "__Security_checker__" fr)) s = (Ok c, s') -> c <> VNone;
  oc_own_exc : forall t v fr s e s',
    e_run E t (CallOp (OGetattr v "__Security_checker__" fr)) s = (Exc e, s') ->
    attribute_error e;
  oc_iter_exc : forall t v fr s e s',
    e_run E t (CallOp (OGetattr v "__iter__" fr)) s = (Exc e, s') -> attribute_error e;
  oc_compare : forall t c l r s v s',
    e_run E t (CallOp (OCmp c l r)) s = (Ok v, s') ->
    (exists b, v = VBool b) \/ (v = VNotImpl /\ is_proxy r = true);
  oc_decorators : forall t c s d s', e_run E t c s <> (Ok (VDeco d), s') }.

(** ** Operations *)

(** Operations on which the builds should agree: all, except that with a security proxy
    as the object operated on, string conversion, [__length_hint__], in-place operators,
    [complex()] and [operator.index()], three-argument [pow] with further proxies, and the
    attributes the Python proxy treats specially are left out. Attribute access, item
    assignment and deletion, and membership are considered separately. *)
Definition common_op (o : op) : Prop :=
  match o with
  | OGetattr v _ _ => is_proxy v = false
  | OSetattr (VProxy _) n _ | ODelattr (VProxy _) n => ~ internal_name n
  | OStr v | ORepr v | OLenHint v | OUnX _ v => is_proxy v = false
  | OSetitem v _ _ | ODelitem v _ | OContains v _ => is_proxy v = false
  | OIn _ l _ => is_proxy l = false
  | OPow3 _ b m => is_proxy b = false /\ is_proxy m = false
  | _ => True
  end.

(** Names that attribute access treats alike in both builds. *)
Definition common_name (n : name) : Prop := ~ internal_name n /\ unchecked_read n = false.

(** ** Outcomes *)

(** Same result or exception, same state, same trace up to [erase]. *)
Definition same_outcome {A} (x y : res A * state * list event) : Prop :=
  let '(r1, s1, t1) := x in
  let '(r2, s2, t2) := y in
  r1 = r2 /\ s1 = s2 /\ same_trace t1 t2.

(** The recursion budget did not suffice. *)
Definition out_of_fuel {A} (x : res A * state * list event) : Prop :=
  fst (fst x) = Exc EFuel.

(** Item assignment, deletion and membership on a proxy. *)
Definition item_of (o : op) : option id :=
  match o with
  | OSetitem (VProxy p) _ _ | ODelitem (VProxy p) _ | OContains (VProxy p) _ => Some p
  | _ => None
  end.

(** ** Client programs *)

(** A client performs operations one after the other, each possibly depending on the
    outcomes of the earlier ones. *)
Inductive client : Type :=
| Done
| Do (o : op) (k : res value -> client).

(** [Runs E f ok c s h s' t]: client [c], started in [s], performs the operations [h]
    (with their outcomes) and stops in [s']; each step satisfies [ok]. *)
Inductive Runs (E : env) (f : nat) (ok : state -> op -> res value -> Prop)
  : client -> state -> list (op * res value) -> state -> list event -> Prop :=
| Run_done s : Runs E f ok Done s [] s []
| Run_do o k s r s1 t1 h s' t :
    perform E f o s = (r, s1, t1) -> ok s o r -> Runs E f ok (k r) s1 h s' t ->
    Runs E f ok (Do o k) s ((o, r) :: h) s' (t1 ++ t)%list.

(** Steps of which the outcome should be the same in both builds: common operations,
    item operations on proxies with a package checker, successful attribute access, and
    attribute access refused because the name is not in the table. *)
Inductive comparable (s : state) : op -> res value -> Prop :=
| Cm_common o r : common_op o -> comparable s o r
| Cm_item o r p w c :
    item_of o = Some p -> st_prox s p = Some (w, VChk c) -> comparable s o r
| Cm_read p n fr v : common_name n -> comparable s (OGetattr (VProxy p) n fr) (Ok v)
| Cm_refused p n fr r w c g wt :
    common_name n -> st_prox s p = Some (w, c) -> PlainChecker s c g wt ->
    table_of g n = None -> ~ always_available n -> n <> "__iter__" ->
    comparable s (OGetattr (VProxy p) n fr) r.
