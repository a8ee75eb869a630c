(** * MediationSpec: complete mediation, stated for every operation, whatever its
    operands, and for whole sessions of a client. *)

From Coq Require Import List String Bool Arith ZArith.
From Verif Require Import Base Domain ProxyModel Spec RegSpec ProxySpec.
Import ListNotations.
Open Scope string_scope.

(** [strips b o p n a w o2]: to carry out [o], of which proxy [p] (around [w]) is an
    operand, [o2] may be carried out, provided a check of name [n] passes.  Only the
    names the language prescribes occur. *)
Inductive strips (b : impl) : op -> id -> name -> access -> value -> op -> Prop :=
| S_left o p n a w fr :
    guard_of b o = Some (p, n, a) ->
    (b = ImplC \/ match o with OIn _ _ _ => False | _ => True end) ->
    strips b o p n a w (on_object o fr w)
| S_right o p n onw w :
    guard_right b o = Some (p, n, onw) -> strips b o p n Read w (onw w)
| S_str p w : strips b (OStr (VProxy p)) p "__str__" Read w (OStr w)
| S_repr p w : strips b (ORepr (VProxy p)) p "__repr__" Read w (ORepr w)
| S_inplace_lookup i p arg w n fr :
    b = ImplPy -> n = inplace_name i \/ n = plain_of i ->
    strips b (OIn i (VProxy p) arg) p (inplace_name i) Read w (OGetattr w n fr)
| S_inplace_call i p arg w m :
    b = ImplPy ->
    strips b (OIn i (VProxy p) arg) p (inplace_name i) Read w (OCall m [arg]).

(** The comparison with its operands exchanged. *)
Definition mirrored (c : cmpop) : cmpop :=
  match c with
  | CLt => CGt | CLe => CGe | CEq => CEq | CNe => CNe | CGt => CLt | CGe => CLe
  end.

(** [opens b o p w o2]: the same for operations that are not checked: comparisons,
    hash, truth, length hint, and in the Python proxy reading the attributes of
    these names. *)
Inductive opens (b : impl) : op -> id -> value -> op -> Prop :=
| O_hash p w : opens b (OHash (VProxy p)) p w (OHash w)
| O_bool p w : opens b (OBool (VProxy p)) p w (OBool w)
| O_cmp c p w v : opens b (OCmp c (VProxy p) v) p w (OCmp c w v)
| O_cmp_right c p w v :
    is_proxy v = false -> opens b (OCmp c v (VProxy p)) p w (OCmp (mirrored c) w v)
| O_hint_lookup p w fr :
    opens b (OLenHint (VProxy p)) p w (OGetattr w "__length_hint__" fr)
| O_hint_call p w h : opens b (OLenHint (VProxy p)) p w (OCall h [])
| O_getattr p n w fr fr' :
    b = ImplPy -> unchecked_read n = true ->
    opens b (OGetattr (VProxy p) n fr) p w (OGetattr w n fr').

(** ** States during an operation *)

(** The package itself makes proxies, checkers and decorators, and assigns to decorators;
    existing proxies and checkers stay as they are, as does everything else. *)
Definition own_step (s s' : state) : Prop :=
  s' = set_prox (st_prox s') (set_chks (st_chks s') (set_decos (st_decos s')
         (set_next (st_next s') s))) /\
  proxies_kept s s' /\
  (forall i, i < st_next s -> st_chks s' i = st_chks s i).

(** [Evolves E s s']: application code called by the running thread, and steps of the
    package itself, lead from [s] to [s']. *)
Inductive Evolves (E : env) : state -> state -> Prop :=
| Ev_here s : Evolves E s s
| Ev_foreign s c r s1 s2 :
    e_run E (e_tid E) c s = (r, s1) -> Evolves E s1 s2 -> Evolves E s s2
| Ev_own s s1 s2 : own_step s s1 -> Evolves E s1 s2 -> Evolves E s s2.

(** During an operation started in [s], a check of [n] on the object [w] wrapped by [p],
    against the checker of that very proxy, passed; [tr] is what could be observed of
    it. *)
Definition Passed (E : env) (s : state) (p : id) (w : value) (n : name) (a : access)
           (tr : list event) : Prop :=
  exists f m c s0 s1, Evolves E s s0 /\ st_prox s0 p = Some (w, c) /\
                      (m = MSetattr <-> a = Write) /\
                      do_check E f m c w n s0 = (Ok tt, s1, tr).

(** [Mediated E s o tr o']: when a client asked for [o] in [s], application code may be
    asked for [o'], [tr] having been observed before: [o'] is [o] with proxies replaced
    by the objects they wrap, each replacement but those of [opens] after a check that
    passed. *)
Inductive Mediated (E : env) (s : state) : op -> list event -> op -> Prop :=
| Md_direct o tr :
    is_proxy (principal_operand o) = false -> Mediated E s o tr o
| Md_inherited u v tr :          (* slots of zope.proxy, not modelled *)
    e_impl E = ImplC -> Mediated E s (OUnX u v) tr (OUnX u v)
| Md_checked o p n a w o2 t0 t1 t2 o' :
    strips (e_impl E) o p n a w o2 -> Passed E s p w n a t1 -> Mediated E s o2 t2 o' ->
    Mediated E s o (t0 ++ t1 ++ t2) o'
| Md_open o p w c s0 o2 t0 t2 o' :
    opens (e_impl E) o p w o2 -> Evolves E s s0 -> st_prox s0 p = Some (w, c) ->
    Mediated E s o2 t2 o' ->
    Mediated E s o (t0 ++ t2) o'.

(** Identities of existing proxies are below the allocation counter. *)
Definition heap_ok (s : state) : Prop :=
  forall p x, st_prox s p = Some x -> p < st_next s.
Definition foreign_heap_ok (E : env) : Prop :=
  forall t c s r s', e_run E t c s = (r, s') -> heap_ok s -> heap_ok s'.
