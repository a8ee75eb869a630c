(** * WatchSpec: what ZOPE_WATCH_CHECKERS should change: log lines, nothing else. *)

From Coq Require Import List String Bool Arith.
From Verif Require Import Base Domain CheckerModel ProxyModel EndsSpec BuildSpec.
Import ListNotations.
Open Scope string_scope.

(** The same process started without ZOPE_WATCH_CHECKERS, with application code [run0]. *)
Definition unwatched (E : env) (run0 : id -> call -> state -> res value * state) : env :=
  mkEnv (e_impl E) (e_cimpl E) 0 (e_tid E) (e_type E) (e_meta E) (e_isexc E) (e_addr E) run0.

(** [counterpart E i x y]: checker [i] is [x] in the process that does not watch and [y] in the
    one that does.  Some checkers are made before the classes are replaced: with the C
    implementation the default checker, in both the checker of CheckerPublic (number 1). *)
Inductive counterpart (E : env) (i : id) : option checker -> option checker -> Prop :=
| Cp_none : counterpart E i None None
| Cp_early g w : e_cimpl E = ImplC \/ i = 1 ->
    counterpart E i (Some (mkChecker g w CkPlain)) (Some (mkChecker g w CkPlain))
| Cp_plain g w v :
    counterpart E i (Some (mkChecker g w CkPlain)) (Some (mkChecker g w (CkWatching v)))
| Cp_combined g w v c :
    counterpart E i (Some (mkChecker g w (CkCombined c)))
                    (Some (mkChecker g w (CkWatchingCombined v c))).

(** [matches E s0 s]: the two processes are in the same state, but for the classes of their
    checkers.  No proxy is the object of a proxy, the checker of CheckerPublic is not
    registered for a type. *)
Record matches (E : env) (s0 s : state) : Prop := {
  mt_rest : s = set_chks (st_chks s) s0;
  mt_checkers : forall i, counterpart E i (st_chks s0 i) (st_chks s i);
  mt_founded : founded s0;
  mt_bare : forall p w c, st_prox s0 p = Some (w, c) -> forall q, w <> VProxy q;
  mt_public : e_cimpl E = ImplPy -> forall k, dget rkey_eqb (st_reg s0) k <> Some (VChk 1)
}.

(** Application code does not care: called in matching states it does the same thing and comes
    to an end; factories return checkers (as in C79). *)
Record indifferent (E : env) (run0 : id -> call -> state -> res value * state) : Prop := {
  in_run : forall c s0 s, matches E s0 s ->
    exists r s0' s', run0 (e_tid E) c s0 = (r, s0') /\ e_run E (e_tid E) c s = (r, s') /\
      matches E s0' s' /\ st_next s0 <= st_next s0' /\ r <> Exc EFuel /\
      (forall v, r = Ok v -> known s0' v);
  in_factory : forall s0 s k f obj v s0', matches E s0 s ->
    dget rkey_eqb (st_reg s0) k = Some f ->
    run0 (e_tid E) (CallOp (OCall f [obj])) s0 = (Ok v, s0') ->
    v = VNone \/ v = VNoProxy \/
    exists i, v = VChk i /\ st_chks s0' i <> None /\ (e_cimpl E = ImplPy -> i <> 1)
}.

(** repr() of objects changes nothing and does not raise. *)
Definition reprs (E : env) : Prop :=
  forall s0 s v, matches E s0 s -> (forall q, v <> VProxy q) ->
    exists x, e_run E (e_tid E) (CallOp (ORepr v)) s = (Ok (VStr x), s).

(** [Logged t0 t]: [t] is [t0] with log lines, and the calls of repr() needed for them, added. *)
Inductive Logged : list event -> list event -> Prop :=
| Lg_nil : Logged [] []
| Lg_keep e t0 t : Logged t0 t -> Logged (e :: t0) (e :: t)
| Lg_repr t0 t n v : Logged t0 t -> Logged t0 (ECall Probe n (CallOp (ORepr v)) :: t)
| Lg_line t0 t l n v : Logged t0 t -> Logged t0 (ELog l n v :: t).

(** Both processes, given enough depth of recursion, do the same thing, but for log lines. *)
Definition alike {A} (E : env) (m0 m : nat -> M A) (s0 s : state) : Prop :=
  exists enough r s0' t0 s' t,
    (forall f, enough <= f -> m0 f s0 = (r, s0', t0)) /\
    (forall f, enough <= f -> m f s = (r, s', t)) /\
    r <> Exc EFuel /\ matches E s0' s' /\ Logged t0 t.

(** The questions asked to policies, and the calls of application code made on behalf of the
    client. *)
Definition visible (e : event) : bool :=
  match e with
  | EAsk _ _ _ _ _ => true
  | ECall Client _ _ => true
  | _ => false
  end.

(** A client program, run to its end: the outcomes of its operations. *)
Fixpoint session (E : env) (f : nat) (c : client) : M (list (res value)) := fun s =>
  match c with
  | Done => (Ok [], s, [])
  | Do o k =>
      let '(r, s1, t1) := perform E f o s in
      let '(rest, s2, t2) := session E f (k r) s1 in
      (match rest with Ok l => Ok (r :: l) | Exc e => Exc e end, s2, (t1 ++ t2)%list)
  end.

(** A client that works with the values it has got, and does not replace what a Python proxy
    is made of. *)
Fixpoint careful (E : env) (c : client) (s : state) : Prop :=
  match c with
  | Done => True
  | Do o k => keeps_proxies E s o /\
      forall r s', st_next s <= st_next s' -> (forall v, r = Ok v -> known s' v) ->
        careful E (k r) s'
  end.
