(** * RegSpec: the checker registry as a pair of finite maps, and what selecting a
    checker means.  Only the vocabulary of [Domain] is used. *)

From Coq Require Import List String Bool Arith ZArith.
From Verif Require Import Base Domain.
Import ListNotations.
Open Scope string_scope.

(** The calls a program can make on the registry and on BasicTypes. *)
Inductive raction :=
| RDefine (k : rkey) (c : value)        (* defineChecker(k, c) *)
| RUndefine (k : rkey)                  (* undefineChecker(k) *)
| RLookup (k : rkey)                    (* getCheckerForInstancesOf(k) *)
| RModule (k : rkey)                    (* moduleChecker(k) *)
| RBasicSet (k : rkey) (v : value)      (* BasicTypes[k] = v *)
| RBasicDel (k : rkey)                  (* del BasicTypes[k] *)
| RBasicUpdate (d : list (rkey * value))(* BasicTypes.update(d) *)
| RBasicClear                           (* BasicTypes.clear() *)
| RBasicPop (k : rkey)                  (* BasicTypes.pop(k) *)
| RReset.                               (* the cleanup function _clear() *)

(** Abstract registry: which value a type or module is bound to, in the registry
    and in BasicTypes. *)
Definition rmap := rkey -> option value.
Record amaps := mkMaps { m_reg : rmap; m_basic : rmap }.

Definition bound (m : rmap) (k : rkey) : bool :=
  match m k with Some _ => true | None => false end.
Definition madd (m : rmap) (k : rkey) (v : value) : rmap :=
  fun k' => if rkey_eqb k k' then Some v else m k'.
Definition mdrop (m : rmap) (k : rkey) : rmap :=
  fun k' => if rkey_eqb k k' then None else m k'.

(** The last entry for [k] in a list of items. *)
Fixpoint last_entry (d : list (rkey * value)) (k : rkey) : option value :=
  match d with
  | [] => None
  | (k', v) :: d' =>
      match last_entry d' k with
      | Some v' => Some v'
      | None => if rkey_eqb k' k then Some v else None
      end
  end.

Definition moverlay (top base : rmap) : rmap :=
  fun k => match top k with Some v => Some v | None => base k end.

Definition type_or_module (k : rkey) : bool :=
  match k with KOther _ => false | _ => true end.

Definition or_none (o : option value) : value :=
  match o with Some v => v | None => VNone end.

(** What each call returns and does to the two maps. *)
Definition spec_step (defaults : list (rkey * value)) (a : raction) (m : amaps)
  : res value * amaps :=
  match a with
  | RDefine k c =>
      if negb (type_or_module k) then (Exc (EType "type_ must be a type, class or module"), m)
      else if bound (m_reg m) k then (Exc (EDuplication "type_"), m)
      else (Ok VNone, mkMaps (madd (m_reg m) k c) (m_basic m))
  | RUndefine k =>
      if bound (m_reg m) k then (Ok VNone, mkMaps (mdrop (m_reg m) k) (m_basic m))
      else (Exc EKey, m)
  | RLookup k | RModule k => (Ok (or_none (m_reg m k)), m)
  | RBasicSet k v =>
      (Ok VNone, mkMaps (madd (m_reg m) k v) (madd (m_basic m) k v))
  | RBasicDel k =>
      if bound (m_basic m) k then
        (if bound (m_reg m) k then Ok VNone else Exc EKey,
         mkMaps (mdrop (m_reg m) k) (mdrop (m_basic m) k))
      else (Exc EKey, m)
  | RBasicUpdate d =>
      (Ok VNone, mkMaps (moverlay (last_entry d) (m_reg m))
                        (moverlay (last_entry d) (m_basic m)))
  | RBasicClear => (Exc ENotImplemented, m)
  | RBasicPop k =>
      match m_basic m k with
      | None => (Exc EKey, m)
      | Some v => (Ok v, mkMaps (m_reg m) (mdrop (m_basic m) k))
      end
  | RReset => (Ok VNone, mkMaps (moverlay (m_basic m) (last_entry defaults)) (m_basic m))
  end.

(** A history: the answers in order and the final maps. *)
Fixpoint spec_run (defaults : list (rkey * value)) (h : list raction) (m : amaps)
  : list (res value) * amaps :=
  match h with
  | [] => ([], m)
  | a :: h' =>
      let '(r, m1) := spec_step defaults a m in
      let '(rs, m2) := spec_run defaults h' m1 in
      (r :: rs, m2)
  end.

(** A state holds the maps [m]; BasicTypes is a real dictionary: one entry a key. *)
Definition holds (s : state) (m : amaps) : Prop :=
  (forall k, dget rkey_eqb (st_reg s) k = m_reg m k) /\
  (forall k, dget rkey_eqb (st_basic s) k = m_basic m k) /\
  NoDup (map fst (st_basic s)).

(** Everything but the registry and BasicTypes is the same. *)
Definition same_but_registry (s s' : state) : Prop :=
  s' = set_reg (st_reg s') (set_basic (st_basic s') s).

(** Calls about other keys than [k] (cleanup concerns every key). *)
Definition about (k : rkey) (a : raction) : Prop :=
  match a with
  | RDefine k' _ | RUndefine k' | RBasicSet k' _ | RBasicDel k' | RBasicPop k' => k' = k
  | RBasicUpdate d => In k (map fst d)
  | RLookup _ | RModule _ | RBasicClear | RReset => False
  end.

(** ** Selecting a checker *)

(** The label of the concrete type of an object. *)
Definition concrete_type (E : env) (s : state) (v : value) : string :=
  match v with
  | VNone => "NoneType"
  | VNotImpl => "NotImplementedType"
  | VBool _ => "bool"
  | VInt _ => "int"
  | VStr _ => "str"
  | VObj o => e_type E o
  | VClass c => e_meta E c
  | VMod _ => "module"
  | VProxy _ => "Proxy"
  | VDeco d => match st_decos s d with Some x => dc_class x | None => "object" end
  | VChk _ => "Checker"
  | VIact _ => "Interaction"
  | VNoProxy => "object"
  | VModFun => "function"
  end.

(** [IsChecker E s v]: [v] is an existing instance of the Checker class that
    selectChecker recognises (in the Python build with ZOPE_WATCH_CHECKERS only the
    watching classes are). *)
Definition IsChecker (E : env) (s : state) (v : value) : Prop :=
  exists i k, v = VChk i /\ st_chks s i = Some k /\
    (e_cimpl E = ImplC \/ e_watch E = 0 \/
     match ck_kind k with CkWatching _ | CkWatchingCombined _ _ => True | _ => False end).

(** Values that Python cannot call, other than recognised checkers. *)
Definition not_callable (v : value) : Prop :=
  match v with
  | VNone | VNotImpl | VBool _ | VInt _ | VStr _ | VNoProxy | VChk _ => True
  | _ => False
  end.

(** Callables whose call is foreign code. *)
Definition foreign_callable (v : value) : Prop :=
  match v with
  | VObj _ | VClass _ | VMod _ | VDeco _ | VIact _ => True
  | _ => False
  end.

(** The identity of the checker registered for modules without checker of their own
    and of the default checker. *)
Definition spec_default : value := VChk 0.
Definition spec_named : value := VChk 2.

(** [Selects E obj s v r s' tr]: from registry value [v] the search for a checker of
    [obj] ends with [r]. *)
Inductive Selects (E : env) (obj : value)
  : state -> value -> res (option value) -> state -> list event -> Prop :=
| Sel_checker s c : IsChecker E s c -> Selects E obj s c (Ok (Some c)) s []
| Sel_not_callable s c :
    ~ IsChecker E s c -> not_callable c ->
    Selects E obj s c (Exc (EType "object is not callable")) s []
| Sel_module_rock s m v :
    obj = VMod m -> dget rkey_eqb (st_reg s) (KMod m) = Some v ->
    (v = VNone \/ v = VNoProxy) -> Selects E obj s VModFun (Ok None) s []
| Sel_module s m v r s' tr :
    obj = VMod m -> dget rkey_eqb (st_reg s) (KMod m) = Some v ->
    v <> VNone -> v <> VNoProxy ->
    Selects E obj s v r s' tr -> Selects E obj s VModFun r s' tr
| Sel_module_default s r s' tr :
    (forall m, obj = VMod m -> dget rkey_eqb (st_reg s) (KMod m) = None) ->
    Selects E obj s spec_named r s' tr -> Selects E obj s VModFun r s' tr
| Sel_factory_raises s f e s' :
    foreign_callable f ->
    e_run E (e_tid E) (CallOp (OCall f [obj])) s = (Exc e, s') ->
    Selects E obj s f (Exc e) s' [ECall Probe (e_tid E) (CallOp (OCall f [obj]))]
| Sel_factory_rock s f v s' :
    foreign_callable f ->
    e_run E (e_tid E) (CallOp (OCall f [obj])) s = (Ok v, s') ->
    (v = VNone \/ v = VNoProxy) ->
    Selects E obj s f (Ok None) s' [ECall Probe (e_tid E) (CallOp (OCall f [obj]))]
| Sel_factory s f v s1 r s' tr :
    foreign_callable f ->
    e_run E (e_tid E) (CallOp (OCall f [obj])) s = (Ok v, s1) ->
    v <> VNone -> v <> VNoProxy ->
    Selects E obj s1 v r s' tr ->
    Selects E obj s f r s' (ECall Probe (e_tid E) (CallOp (OCall f [obj])) :: tr).

(** What the registry has for the object's concrete type. *)
Definition registered_for (E : env) (s : state) (obj : value) : option value :=
  dget rkey_eqb (st_reg s) (KType (concrete_type E s obj)).

(** The outcome of selectChecker(obj). *)
Inductive SelectChecker (E : env) (s : state) (obj : value)
  : res (option value) -> state -> list event -> Prop :=
| SC_rock :
    registered_for E s obj = Some VNoProxy ->
    SelectChecker E s obj (Ok None) s []
| SC_exception :
    (registered_for E s obj = None \/ registered_for E s obj = Some spec_default) ->
    e_cimpl E = ImplC -> e_isexc E (concrete_type E s obj) = true ->
    SelectChecker E s obj (Ok None) s []
| SC_default r s' tr :
    (registered_for E s obj = None \/ registered_for E s obj = Some spec_default) ->
    (e_cimpl E = ImplC -> e_isexc E (concrete_type E s obj) = false) ->
    Selects E obj s spec_default r s' tr ->
    SelectChecker E s obj r s' tr
| SC_registered v r s' tr :
    registered_for E s obj = Some v -> v <> VNoProxy -> v <> spec_default ->
    Selects E obj s v r s' tr ->
    SelectChecker E s obj r s' tr.

(** No security proxies among the checker factories, now or later. *)
Definition clean_registry (s : state) : Prop :=
  forall k v, dget rkey_eqb (st_reg s) k = Some v -> is_proxy v = false.
Definition no_proxied_factories (E : env) (s : state) : Prop :=
  clean_registry s /\
  forall t f args s1 v s2,
    clean_registry s1 -> e_run E t (CallOp (OCall f args)) s1 = (Ok v, s2) ->
    is_proxy v = false /\ clean_registry s2.

(** The registry value settles the matter without running foreign code. *)
Definition settled (E : env) (s : state) (obj : value) : Prop :=
  match registered_for E s obj with
  | None => True
  | Some v => v = VNoProxy \/ not_callable v
  end.

(** Why the object [v] was handed out without a proxy, judged by the state [s] afterwards
    and by the events [t] meanwhile: its type is registered as needing none; it is an
    exception without checker of its own (C build); it is a module marked so; or a
    registered factory was called with it. *)
Definition needs_none (E : env) (s : state) (t : list event) (v : value) : Prop :=
  registered_for E s v = Some VNoProxy \/
  (e_cimpl E = ImplC /\ e_isexc E (concrete_type E s v) = true /\
   (registered_for E s v = None \/ registered_for E s v = Some spec_default)) \/
  (exists m x, v = VMod m /\ dget rkey_eqb (st_reg s) (KMod m) = Some x /\
               (x = VNone \/ x = VNoProxy)) \/
  (exists k f, In (ECall k (e_tid E) (CallOp (OCall f [v]))) t).
