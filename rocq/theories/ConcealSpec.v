(** * ConcealSpec: clients as programs, and what it means that an object's checkers conceal
    part of it. *)

From Coq Require Import List String Bool Arith ZArith.
From Verif Require Import Base Domain ProxyModel Spec RegSpec ProxySpec MediationSpec
  SessionSpec.
Import ListNotations.
Open Scope string_scope.

(** ** Clients *)

(** A client performs operations one after the other; which one comes next may depend in
    any way on the results and exceptions seen so far. *)
Inductive client :=
| Finished
| Request (o : op) (next : res value -> client).

(** What a client gets to see, the final state, and what could be observed meanwhile. *)
Fixpoint run_client (E : env) (fuel : nat) (c : client) (s : state)
  : list (res value) * state * list event :=
  match c with
  | Finished => ([], s, [])
  | Request o next =>
      match perform E fuel o s with
      | (r, s1, t1) =>
          match run_client E fuel (next r) s1 with
          | (rs, s2, t2) => (r :: rs, s2, (t1 ++ t2)%list)
          end
      end
  end.

(** The client never names the object [w] itself (it works with proxies) and, in the
    Python build, performs no operation that rebinds a proxy. *)
Fixpoint polite (b : impl) (w : value) (c : client) : Prop :=
  match c with
  | Finished => True
  | Request o next =>
      ~ In w (operands o) /\ rebinds_nothing b o /\ forall r, polite b w (next r)
  end.

(** ** Concealment *)

(** The environment with other application code. *)
Definition with_run (E : env) (run : id -> call -> state -> res value * state) : env :=
  mkEnv (e_impl E) (e_cimpl E) (e_watch E) (e_tid E) (e_type E) (e_meta E) (e_isexc E) (e_addr E) run.

(** [concerns hidden w o]: performing [o] directly runs the special method of [w], or
    accesses the attribute of [w], of a name in [hidden]. *)
Definition concerns (hidden : name -> Prop) (w : value) (o : op) : Prop :=
  match o with
  | OGetattr v n _ | OSetattr v n _ | ODelattr v n => v = w /\ hidden n
  | OCall v _ => v = w /\ hidden "__call__"
  | OUn u v => v = w /\ hidden (unary_name u)
  | OUnX u v => v = w /\ hidden (unary_name_x u)
  | OBin b l r => (l = w /\ hidden (binary_name b)) \/ (r = w /\ hidden (reflected_name b))
  | OPow3 a b m => (a = w /\ hidden "__pow__") \/ (b = w /\ hidden "__rpow__") \/
                   (m = w /\ hidden "__3pow__")
  | OIn b l r => (l = w /\ (hidden (inplace_name b) \/
                            hidden (binary_name (reflected_of b)))) \/
                 (r = w /\ hidden (reflected_name (reflected_of b)))
  | OGetitem v _ => v = w /\ hidden "__getitem__"
  | OSetitem v _ _ => v = w /\ hidden "__setitem__"
  | ODelitem v _ => v = w /\ hidden "__delitem__"
  | OContains v _ => v = w /\ hidden "__contains__"
  | OLen v => v = w /\ hidden "__len__"
  | OIter v => v = w /\ hidden "__iter__"
  | ONext v => v = w /\ hidden "__next__"
  | OStr v => v = w /\ hidden "__str__"
  | ORepr v => v = w /\ hidden "__repr__"
  | OHash _ | OBool _ | OCmp _ _ _ | OLenHint _ => False
  end.

(** Names that can be concealed: not those every checker grants, not those whose reading
    the Python proxy does not check, and not those the machinery itself looks up on, or
    calls of, objects that other application code returned. *)
Definition concealable (n : name) : Prop :=
  ~ always_available n /\ unchecked_read n = false /\
  ~ In n ["__iter__"; "__length_hint__"; "__Security_checker__"; "__module__"; "__call__"].

(** [a += b] may end up in [a.__add__]: whoever conceals the operator conceals its
    in-place form. *)
Definition inplace_too (hidden : name -> Prop) : Prop :=
  forall b, hidden (binary_name (reflected_of b)) -> hidden (inplace_name b).

Section Conceal.
  Variable E : env.
  (** The object; the names concealed; the checkers it may be wrapped with; permissions
      that the client will not be granted on it. *)
  Variable w : value.
  Variable hidden : name -> Prop.
  Variable guards : list (id * checker).
  Variable lacking : perm -> Prop.

  Definition guard_value (c : value) : Prop := exists i k, c = VChk i /\ In (i, k) guards.

  (** A table that does not let the client use the concealed names. *)
  Definition withholds (tb : table) : Prop :=
    forall n q, hidden n -> tb n = Some q -> q <> PPublic /\ lacking q.

  (** The thread's interaction, if any, does not grant these permissions on the object:
      now if it is of one of the package's policies, never if it is of another one. *)
  Definition refuses_lacking (s : state) : Prop :=
    forall q, lacking q ->
      match tl_inter (st_tls s (e_tid E)) with
      | None => True
      | Some (VIact i) => forall x, st_inters s i = Some x -> ~ simple_grants s x q
      | Some iv => forall s1 v s2, e_run E (e_tid E) (CallPerm iv q w) s1 = (Ok v, s2) ->
                                   constant_truth v = Some false
      end.

  Record Concealed (s : state) : Prop := {
    (* the checkers are there and withhold the names, also in combination *)
    cc_guards : forall i k, In (i, k) guards ->
      st_chks s i = Some k /\ i < st_next s /\
      withholds (table_of (st_dicts s (ck_get k))) /\
      withholds (table_of (st_dicts s (ck_set k))) /\
      match ck_kind k with
      | CkCombined c2 | CkWatchingCombined _ c2 => guard_value c2
      | _ => True
      end;
    (* every proxy around the object has one of them *)
    cc_proxies : forall p c, st_prox s p = Some (w, c) -> guard_value c;
    (* new proxies around the object will get one of them, if any is made *)
    cc_registry : guard_value (match registered_for E s w with
                               | Some v => v | None => spec_default end);
    (* the interaction does not grant the permissions *)
    cc_policy : refuses_lacking s;
    (* identities of existing proxies are below the allocation counter *)
    cc_heap : heap_ok s
  }.

  (** The application's other code: it leaves existing proxies alone, keeps the above,
      and if the object has an own checker it is one of the guards. *)
  Record respects : Prop := {
    rs_proxies : forall t c s r s', e_run E t c s = (r, s') -> proxies_kept s s';
    rs_state : forall t c s r s', e_run E t c s = (r, s') -> Concealed s -> Concealed s';
    rs_own : forall t fr s v s',
      e_run E t (CallOp (OGetattr w "__Security_checker__" fr)) s = (Ok v, s') ->
      v = VNone \/ guard_value v
  }.

  (** Other application code that differs from that of [E] at most in how [w] implements
      the concealed names. *)
  Definition differs_only_there (run : id -> call -> state -> res value * state) : Prop :=
    forall t c s, (forall o, c = CallOp o -> ~ concerns hidden w o) ->
                  run t c s = e_run E t c s.
End Conceal.
