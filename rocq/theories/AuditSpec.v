(** * AuditSpec: the questions a security policy gets to see when an operation is performed. *)

From Coq Require Import List String Bool Arith ZArith.
From Verif Require Import Base Domain ProxyModel Spec RegSpec ProxySpec MediationSpec.
Import ListNotations.
Open Scope string_scope.

(** A possible question: the proxy [p] is asked for the name [n]. *)
Definition query : Type := (id * name * access)%type.

(** The name-based checkers that a checker consists of, in the order in which they are tried:
    one, or for a CombinedChecker its own tables and then those of the other checker. *)
Inductive Links (s : state) : value -> list id -> Prop :=
| Li_one i k : st_chks s i = Some k -> ck_kind k = CkPlain \/ (exists v, ck_kind k = CkWatching v) ->
    Links s (VChk i) [i]
| Li_more i k c l : st_chks s i = Some k ->
    ck_kind k = CkCombined c \/ (exists v, ck_kind k = CkWatchingCombined v c) ->
    Links s c l -> Links s (VChk i) (i :: l).

(** A question, and the one of these checkers on whose behalf it is put. *)
Definition question : Type := (query * id)%type.

(** The event [ev] is the question [q]: it is about the object behind the proxy, and the
    permission is the one that the table of the checker has for the name, which is
    not CheckerPublic. *)
Definition about (s : state) (q : question) (ev : event) : Prop :=
  let '((p, n, a), j) := q in
  exists t iv perm obj ans c k,
    ev = EAsk t iv perm obj ans /\
    st_prox s p = Some (obj, c) /\ st_chks s j = Some k /\
    table_of (st_dicts s (match a with Read => ck_get k | Write => ck_set k end)) n = Some perm /\
    perm <> PPublic.

(** The questions in the trace [tr] are some of [qs], in this order, each asked at most
    once. *)
Inductive explained (s : state) : list question -> list event -> Prop :=
| X_done qs : explained s qs []
| X_other qs e tr : is_ask e = false -> explained s qs tr -> explained s qs (e :: tr)
| X_unused q qs tr : explained s qs tr -> explained s (q :: qs) tr
| X_asked q qs e tr : about s q e -> explained s qs tr -> explained s (q :: qs) (e :: tr).

(** [ls] gives the checkers behind each proxy; the questions of a list of queries. *)
Definition chains (s : state) (ls : id -> list id) : Prop :=
  forall p w c, st_prox s p = Some (w, c) -> Links s c (ls p).
Definition expand (ls : id -> list id) (q : query) : list question :=
  map (fun j => (q, j)) (ls (fst (fst q))).
Definition each (ls : id -> list id) (qs : list query) : list question := flat_map (expand ls) qs.

(** The question for an operand. *)
Definition on_proxy (v : value) (n : name) (a : access) : list query :=
  match v with VProxy p => [(p, n, a)] | _ => [] end.

(** The questions an operation may lead to: one for each proxied operand that takes part.
    Comparison, hash, truth and length hint: none.  Reading attributes in the Python build: a
    second time if the first attempt ends with an AttributeError. *)
Definition queries (b : impl) (o : op) : list query :=
  (match o with
   | OGetattr v n _ =>
       on_proxy v n Read ++
       match b with
       | ImplPy => if unchecked_read n then [] else on_proxy v n Read
       | ImplC => []
       end
   | OSetattr v n _ | ODelattr v n => on_proxy v n Write
   | OCall v _ => on_proxy v "__call__" Read
   | OUn u v => on_proxy v (unary_name u) Read
   | OUnX u v => match b with ImplPy => on_proxy v (unary_name_x u) Read | ImplC => [] end
   | OBin op l r => on_proxy l (binary_name op) Read ++ on_proxy r (reflected_name op) Read
   | OPow3 x e m => on_proxy x "__pow__" Read ++ on_proxy e "__rpow__" Read ++ on_proxy m "__3pow__" Read
   | OIn op l r => on_proxy l (inplace_name op) Read ++ on_proxy r (reflected_name (reflected_of op)) Read
   | OGetitem v _ => on_proxy v "__getitem__" Read
   | OSetitem v _ _ => on_proxy v "__setitem__" Read
   | ODelitem v _ => on_proxy v "__delitem__" Read
   | OContains v _ => on_proxy v "__contains__" Read
   | OLen v => on_proxy v "__len__" Read
   | OIter v => on_proxy v "__iter__" Read
   | ONext v => on_proxy v "__next__" Read
   | OStr v => on_proxy v "__str__" Read
   | ORepr v => on_proxy v "__repr__" Read
   | OHash _ | OBool _ | OLenHint _ | OCmp _ _ _ => []
   end)%list.

(** ** Where this is so *)

(** What a checker factory may be: calling it gives a checker, NoProxy or None. *)
Definition registrable (E : env) (v : value) : Prop :=
  match v with
  | VProxy _ => False
  | VObj _ | VClass _ | VMod _ | VDeco _ | VIact _ =>
      forall t obj s c s', e_run E t (CallOp (OCall v [obj])) s = (Ok c, s') ->
        c = VNone \/ c = VNoProxy \/ exists i, c = VChk i
  | _ => True
  end.

(** Identities of checkers and their tables are in use. *)
Definition chks_ok (s : state) : Prop :=
  forall i k, st_chks s i = Some k -> i < st_next s /\ ck_get k < st_next s /\ ck_set k < st_next s.

(** Proxies are not nested, and have checkers of this package. *)
Record calm (E : env) (s : state) : Prop := {
  ca_heap : heap_ok s;
  ca_chks : chks_ok s;
  ca_proxies : forall p w c, st_prox s p = Some (w, c) ->
    is_proxy w = false /\ exists i k, c = VChk i /\ st_chks s i = Some k;
  ca_registry : forall key v, dget rkey_eqb (st_reg s) key = Some v -> registrable E v }.

(** Existing proxies, checkers and tables stay as they are. *)
Definition undisturbed (s s' : state) : Prop :=
  (forall p x, st_prox s p = Some x -> st_prox s' p = Some x) /\
  (forall i k, st_chks s i = Some k ->
     st_chks s' i = Some k /\ st_dicts s' (ck_get k) = st_dicts s (ck_get k) /\
     st_dicts s' (ck_set k) = st_dicts s (ck_set k)).

(** Application code, including the policy, declares nothing meanwhile; what an object says is
    its checker is one; classes and length hints are not proxied. *)
Record calm_code (E : env) : Prop := {
  cc_state : forall t c s r s',
    e_run E t c s = (r, s') -> calm E s -> calm E s' /\ undisturbed s s';
  cc_own : forall t v fr s c s', calm E s ->
    e_run E t (CallOp (OGetattr v "__Security_checker__" fr)) s = (Ok c, s') ->
    c = VNone \/ exists i k, c = VChk i /\ st_chks s' i = Some k;
  cc_attr : forall t v n fr s c s', n = "__class__" \/ n = "__length_hint__" ->
    e_run E t (CallOp (OGetattr v n fr)) s = (Ok c, s') -> is_proxy c = false }.

(** All operations but two: in-place operators on Python proxies, and assigning to the slots of
    Python proxies. *)
Definition auditable (b : impl) (o : op) : Prop :=
  match o with
  | OIn _ l _ => b = ImplPy -> is_proxy l = false
  | OSetattr v n _ => b = ImplPy -> is_proxy v = true -> ~ internal_name n
  | _ => True
  end.

(** The proxies among the operands exist. *)
Definition known (s : state) (b : impl) (o : op) : Prop :=
  forall p n a, In (p, n, a) (queries b o) -> exists x, st_prox s p = Some x.
