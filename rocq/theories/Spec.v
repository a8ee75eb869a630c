(** * Spec: what users of checkers rely on, stated without the model's functions.

    Only the vocabulary of [Domain] (values, states, events, foreign code) is used. *)

From Coq Require Import List String Bool Arith ZArith.
From Verif Require Import Base Domain.
Import ListNotations.
Open Scope string_scope.

(** A permission table: what [Checker(d)] was given, as a partial function. *)
Definition table := name -> option perm.

Definition table_of (d : list (name * perm)) : table := fun n => dget String.eqb d n.

(** The names documented as available on every object whatever its checker. *)
Definition always_available (n : name) : Prop :=
  In n [ "__class__"; "__providedBy__"; "__implements__"; "__repr__"; "__conform__";
         "__name__"; "__parent__"; "__hash__"; "__bool__";
         "__eq__"; "__ne__"; "__lt__"; "__le__"; "__gt__"; "__ge__" ].

(** Objects that are neither security proxies nor decorators. *)
Definition plain_object (v : value) : Prop :=
  match v with VProxy _ | VDeco _ => False | _ => True end.

(** Truth value of built-in constants. *)
Definition constant_truth (v : value) : option bool :=
  match v with
  | VNone => Some false
  | VNotImpl => Some true
  | VBool b => Some b
  | VInt z => Some (negb (Z.eqb z 0))
  | VStr x => Some (negb (String.eqb x ""))
  | _ => None
  end.

(** [BoolOf E s v r s' tr]: what asking [v] for its truth value comes to.  A security
    proxy passes the question on to what it wraps, unless proxies are nested beyond the
    recursion limit. *)
Inductive BoolOf (E : env) (s : state) : value -> res bool -> state -> list event -> Prop :=
| Bo_object v r s' :
    is_proxy v = false ->
    e_run E (e_tid E) (CallOp (OBool v)) s = (r, s') ->
    BoolOf E s v (match r with
                  | Ok (VBool b) => Ok b
                  | Ok _ => Exc (EType "returned non-bool")
                  | Exc e => Exc e
                  end) s' [ECall Probe (e_tid E) (CallOp (OBool v))]
| Bo_proxy p w c r s' tr :
    st_prox s p = Some (w, c) -> BoolOf E s w r s' tr -> BoolOf E s (VProxy p) r s' tr
| Bo_dangling p :
    st_prox s p = None -> BoolOf E s (VProxy p) (Exc (EType "dangling proxy")) s []
| Bo_too_deep v : BoolOf E s v (Exc EFuel) s [].

(** The truth of any value: constants need not be asked. *)
Definition TruthOf (E : env) (s : state) (v : value) (r : res bool) (s' : state)
           (tr : list event) : Prop :=
  match constant_truth v with
  | Some b => r = Ok b /\ s' = s /\ tr = []
  | None => BoolOf E s v r s' tr
  end.

(** A simple interaction grants [p]: it is permissive, or [p] is public, or all its
    participants are the system user. *)
Definition simple_grants (s : state) (x : inter) (p : perm) : Prop :=
  in_permissive x = true \/ p = PPublic \/
  forall q, In q (in_parts x) -> pt_principal (st_parts s q) = SystemUser.

(** Values on which [checkPermission] cannot be called at all. *)
Definition not_an_interaction (s : state) (iv : value) : Prop :=
  match iv with
  | VIact i => st_inters s i = None
  | VNone | VNotImpl | VBool _ | VInt _ | VStr _ => True
  | _ => False
  end.

(** Interactions whose [checkPermission] is foreign code. *)
Definition foreign_interaction (iv : value) : Prop :=
  match iv with
  | VIact _ | VNone | VNotImpl | VBool _ | VInt _ | VStr _ => False
  | _ => True
  end.

(** [Asked E s p obj r s' tr]: the current interaction of the running thread is asked,
    exactly once, whether it grants [p] on [obj]; [r] is the truth of the answer or
    the exception; [s'] the state afterwards; [tr] what could be observed. *)
Inductive Asked (E : env) (s : state) (p : perm) (obj : value)
  : res bool -> state -> list event -> Prop :=
| Asked_no_interaction :
    tl_inter (st_tls s (e_tid E)) = None ->
    Asked E s p obj (Exc (EAttribute "interaction")) s []
| Asked_bad_interaction iv :
    tl_inter (st_tls s (e_tid E)) = Some iv ->
    not_an_interaction s iv ->
    Asked E s p obj (Exc (EAttribute "checkPermission")) s []
| Asked_simple i x b :
    tl_inter (st_tls s (e_tid E)) = Some (VIact i) ->
    st_inters s i = Some x ->
    (b = true <-> simple_grants s x p) ->
    Asked E s p obj (Ok b) s [EAsk (e_tid E) (VIact i) p obj (Some b)]
| Asked_foreign iv v s1 r s' tr0 :
    tl_inter (st_tls s (e_tid E)) = Some iv ->
    foreign_interaction iv ->
    e_run E (e_tid E) (CallPerm iv p obj) s = (Ok v, s1) ->
    TruthOf E s1 v r s' tr0 ->
    Asked E s p obj r s'
          (tr0 ++ [EAsk (e_tid E) iv p obj (match r with Ok b => Some b | Exc _ => None end)])
| Asked_foreign_raises iv e s' :
    tl_inter (st_tls s (e_tid E)) = Some iv ->
    foreign_interaction iv ->
    e_run E (e_tid E) (CallPerm iv p obj) s = (Exc e, s') ->
    Asked E s p obj (Exc e) s' [EAsk (e_tid E) iv p obj None].

(** The outcome of a check that depends on a permission. *)
Definition by_answer (r : res bool) (obj : value) (n : name) (p : perm) : res unit :=
  match r with
  | Ok true => Ok tt
  | Ok false => Exc (EUnauthorized obj n p)
  | Exc e => Exc e
  end.

(** Whether an exception is an AttributeError (ForbiddenAttribute is one). *)
Definition attribute_error (e : exn) : Prop :=
  match e with EAttribute _ | EForbidden _ _ => True | _ => False end.

(** [ReadCheck E s tb obj n r s' tr]: outcome of checking read/operation [n] on [obj]
    against table [tb]. *)
Inductive ReadCheck (E : env) (s : state) (tb : table) (obj : value) (n : name)
  : res unit -> state -> list event -> Prop :=
| RC_public :
    tb n = Some PPublic -> ReadCheck E s tb obj n (Ok tt) s []
| RC_permission p r s' tr :
    tb n = Some p -> p <> PPublic -> Asked E s p obj r s' tr ->
    ReadCheck E s tb obj n (by_answer r obj n p) s' tr
| RC_available :
    tb n = None -> always_available n -> ReadCheck E s tb obj n (Ok tt) s []
| RC_iter_present v s' :
    tb n = None -> n = "__iter__" ->
    e_run E (e_tid E) (CallOp (OGetattr obj n None)) s = (Ok v, s') ->
    ReadCheck E s tb obj n (Exc (EForbidden n obj)) s'
              [ECall Probe (e_tid E) (CallOp (OGetattr obj n None))]
| RC_iter_missing e s' :
    tb n = None -> n = "__iter__" ->
    e_run E (e_tid E) (CallOp (OGetattr obj n None)) s = (Exc e, s') ->
    (e_cimpl E = ImplC \/ attribute_error e) ->
    ReadCheck E s tb obj n (Ok tt) s'
              [ECall Probe (e_tid E) (CallOp (OGetattr obj n None))]
| RC_iter_raises e s' :
    tb n = None -> n = "__iter__" ->
    e_run E (e_tid E) (CallOp (OGetattr obj n None)) s = (Exc e, s') ->
    e_cimpl E = ImplPy -> ~ attribute_error e ->
    ReadCheck E s tb obj n (Exc e) s'
              [ECall Probe (e_tid E) (CallOp (OGetattr obj n None))]
| RC_forbidden :
    tb n = None -> ~ always_available n -> n <> "__iter__" ->
    ReadCheck E s tb obj n (Exc (EForbidden n obj)) s [].

(** The same for assignment and deletion: no name is available by default. *)
Inductive WriteCheck (E : env) (s : state) (tb : table) (obj : value) (n : name)
  : res unit -> state -> list event -> Prop :=
| WC_public :
    tb n = Some PPublic -> WriteCheck E s tb obj n (Ok tt) s []
| WC_permission p r s' tr :
    tb n = Some p -> p <> PPublic -> Asked E s p obj r s' tr ->
    WriteCheck E s tb obj n (by_answer r obj n p) s' tr
| WC_forbidden :
    tb n = None -> WriteCheck E s tb obj n (Exc (EForbidden n obj)) s [].

(** Tables made of permission ids and CheckerPublic only. *)
Definition no_none (tb : table) : Prop := forall n, tb n <> Some PNone.

(** A table in which None entries count as absent (the documented meaning). *)
Definition drop_none (tb : table) : table :=
  fun n => match tb n with Some PNone => None | x => x end.

(** [GuardedBy s c g w]: [c] is a checker object made by Checker/NamesChecker/...
    whose read and write tables are the dictionaries [g] and [w]. *)
Definition PlainChecker (s : state) (c : value) (g w : list (name * perm)) : Prop :=
  exists i k, c = VChk i /\ st_chks s i = Some k /\ ck_kind k = CkPlain /\
              st_dicts s (ck_get k) = g /\ st_dicts s (ck_set k) = w.

(** ** Traces *)

Definition is_ask (ev : event) : bool :=
  match ev with EAsk _ _ _ _ _ => true | _ => false end.
Definition is_log (ev : event) : bool :=
  match ev with ELog _ _ _ => true | _ => false end.
Definition is_client_call (ev : event) : bool :=
  match ev with ECall Client _ _ => true | _ => false end.

(** The questions put to interactions, in order. *)
Definition asks (tr : list event) : list event := filter is_ask tr.
(** The lines written to the log, in order. *)
Definition logs (tr : list event) : list event := filter is_log tr.
(** Application code run on behalf of the client, in order. *)
Definition client_calls (tr : list event) : list event := filter is_client_call tr.

(** ** Combination of checkers *)

Definition denial (e : exn) : Prop :=
  match e with EForbidden _ _ | EUnauthorized _ _ _ => True | _ => False end.

Definition is_denied (r : res unit) : Prop :=
  match r with Exc e => denial e | Ok _ => False end.

(** [Tries E obj n ck s tbs rs s' tr]: the members [tbs] are checked in order, from
    state [s], by [ck], until one grants or fails with something that is not a
    denial; [rs] are their outcomes. *)
Section Tries.
  Variable ck : state -> table -> res unit -> state -> list event -> Prop.

  Inductive Tries : state -> list table -> list (res unit) -> state -> list event -> Prop :=
  | Tries_last s tb r s' tr :
      ck s tb r s' tr -> Tries s [tb] [r] s' tr
  | Tries_stop s tb tbs r s' tr :
      ck s tb r s' tr -> ~ is_denied r -> tbs <> [] ->
      Tries s (tb :: tbs) [r] s' tr
  | Tries_next s tb tbs r s1 t1 rs s' t2 :
      ck s tb r s1 t1 -> is_denied r -> Tries s1 tbs rs s' t2 ->
      Tries s (tb :: tbs) (r :: rs) s' (t1 ++ t2).
End Tries.

(** The verdict of a sequence of outcomes: what the last one says unless that is
    Forbidden, in which case the last Unauthorized, if any, is reported. *)
Fixpoint last_unauthorized (rs : list (res unit)) : option exn :=
  match rs with
  | [] => None
  | r :: rs' =>
      match last_unauthorized rs' with
      | Some e => Some e
      | None => match r with
                | Exc (EUnauthorized o n p) => Some (EUnauthorized o n p)
                | _ => None
                end
      end
  end.

Definition verdict (rs : list (res unit)) : res unit :=
  match last rs (Ok tt) with
  | Exc (EForbidden n o) =>
      match last_unauthorized rs with
      | Some e => Exc e
      | None => Exc (EForbidden n o)
      end
  | r => r
  end.

(** A right-nested combination CombinedChecker(c1, CombinedChecker(c2, ... cn)) of
    name-based checkers with read tables [gs] and write tables [ws]. *)
Inductive Chain (s : state) : value -> list table -> list table -> Prop :=
| Chain_one c g w :
    PlainChecker s c g w -> Chain s c [table_of g] [table_of w]
| Chain_more i k c2 gs ws :
    st_chks s i = Some k -> ck_kind k = CkCombined c2 -> Chain s c2 gs ws ->
    Chain s (VChk i) (table_of (st_dicts s (ck_get k)) :: gs)
          (table_of (st_dicts s (ck_set k)) :: ws).

(** Foreign code leaves existing checkers and their tables alone. *)
Definition checkers_kept (s s' : state) : Prop :=
  forall i k, st_chks s i = Some k ->
    st_chks s' i = Some k /\ st_dicts s' (ck_get k) = st_dicts s (ck_get k) /\
    st_dicts s' (ck_set k) = st_dicts s (ck_set k).

Definition foreign_keeps_checkers (E : env) : Prop :=
  forall t c s r s', e_run E t c s = (r, s') -> checkers_kept s s'.

(** Foreign code without side effects, and permission answers independent of
    everything but interaction, permission and object. *)
Definition foreign_pure (E : env) : Prop :=
  forall t c s r s', e_run E t c s = (r, s') -> s' = s.

(** ** Watching checkers *)

(** [SameTables s c c']: [c'] is the watching variant, with verbosity [v], of the
    plain checker [c]. *)
Definition WatchingVariant (s : state) (c c' : value) (v : nat) : Prop :=
  exists i i' k k', c = VChk i /\ c' = VChk i' /\
    st_chks s i = Some k /\ st_chks s i' = Some k' /\
    ck_kind k = CkPlain /\ ck_kind k' = CkWatching v /\
    st_dicts s (ck_get k') = st_dicts s (ck_get k) /\
    st_dicts s (ck_set k') = st_dicts s (ck_set k).

(** Number of log lines a check with outcome [r] owes at verbosity [v]. *)
Definition owed_lines (v : nat) (r : res unit) : nat :=
  match r with
  | Ok _ => if Nat.ltb 1 v then 1 else 0
  | Exc (EUnauthorized _ _ _) | Exc (EForbidden _ _) => if Nat.ltb 0 v then 1 else 0
  | Exc _ => 0
  end.

(** A log line reporting outcome [r] of checking [n] on [obj]: its sign is "+" for a
    grant and "-" for a denial. *)
Definition reports (r : res unit) (n : name) (obj : value) (ev : event) : Prop :=
  exists line, ev = ELog line n obj /\
    String.prefix (match r with Ok _ => "[CHK] + " | Exc _ => "[CHK] - " end) line = true.
