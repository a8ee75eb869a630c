(** * Property C67: looking at protected objects. *)

From Coq Require Import List String Bool Arith ZArith Lia Sorted.
From Verif Require Import Base Domain CheckerModel ProxyModel MFacts Spec RegSpec Witness
  CheckFacts ProxySpec ProxyProps Inspect InspectSpec InspectFacts.
Import ListNotations.
Open Scope string_scope.

(** getTestProxyItems lists the names and permissions of the checker, in alphabetical order,
    and changes nothing. *)
Theorem C67_items :
  forall s p w c g wt,
    st_prox s p = Some (w, c) -> PlainChecker s c g wt -> NoDup (map fst g) ->
    exists l, sortedTestProxyItems (VProxy p) s = (Ok l, s, []) /\ lists_table l (table_of g).
Proof. exact items_lemma. Qed.
Print Assumptions C67_items.

(** The list tells what can be read (names that are always available aside): what it does
    not list is forbidden, and of the rest what the policy grants can be read. *)
Theorem C67_items_tell :
  forall s p w c g wt,
    st_prox s p = Some (w, c) -> PlainChecker s c g wt -> NoDup (map fst g) ->
    no_none (table_of g) ->
    exists l, sortedTestProxyItems (VProxy p) s = (Ok l, s, []) /\
    forall E f m n i x r s' tr,
      m <> MSetattr -> n <> "__iter__" -> ~ always_available n ->
      tl_inter (st_tls s (e_tid E)) = Some (VIact i) -> st_inters s i = Some x ->
      do_check E (S (S f)) m c w n s = (r, s', tr) ->
      (r = Ok tt <-> exists q, In (n, q) l /\ simple_grants s x q) /\
      (r = Exc (EForbidden n w) <-> forall q, ~ In (n, q) l).
Proof. exact items_tell_lemma. Qed.
Print Assumptions C67_items_tell.

(** It tells nothing about objects without a proxy. *)
Theorem C67_items_non_proxy :
  forall s v l s' t,
    is_proxy v = false -> sortedTestProxyItems v s <> (Ok l, s', t).
Proof. intros s v l s' t Hv H. exact (items_non_proxy s v l s' t Hv H). Qed.
Print Assumptions C67_items_non_proxy.

(** For combined checkers the list is incomplete: it has only what the first checker
    grants, although the second one can grant more. *)
Theorem C67_combined_refuted :
  exists s p c l n,
    st_prox s p = Some (VObj 5, c) /\
    sortedTestProxyItems (VProxy p) s = (Ok l, s, []) /\
    (forall q, ~ In (n, q) l) /\ ~ always_available n /\
    forall b, do_check (wenv b) 5 MGetattr c (VObj 5) n s = (Ok tt, s, []).
Proof.
  exists (set_prox (fun p => match p with 40 => Some (VObj 5, VChk 12) | _ => None end)
                   (w_state_in false)), 40, (VChk 12), [("bar", p_view); ("foo", PPublic)], "baz".
  split; [reflexivity|]. split; [reflexivity|].
  split; [intros q; simpl; intuition discriminate|].
  split; [unfold always_available; simpl; intuition discriminate|].
  intros []; reflexivity.
Qed.
Print Assumptions C67_combined_refuted.

Example C67_example :
  st_prox (a_state false) 40 = Some (VObj 5, VChk 10) /\
  PlainChecker (a_state false) (VChk 10) (a_dicts 20) (a_dicts 21) /\
  NoDup (map fst (a_dicts 20)) /\ no_none (table_of (a_dicts 20)) /\
  sortedTestProxyItems (VProxy 40) (a_state false) =
    (Ok [("__add__", PPublic); ("__call__", PPublic); ("__iadd__", PPublic);
         ("__isub__", PPublic); ("bar", p_view); ("foo", PPublic)], a_state false, []).
Proof.
  split; [reflexivity|]. split; [exists 10, (mkChecker 20 21 CkPlain); repeat split|].
  split; [repeat constructor; simpl; intuition discriminate|].
  split; [|reflexivity].
  intros n. unfold table_of, a_dicts. cbn [dget].
  repeat match goal with |- context [String.eqb ?a n] => destruct (String.eqb a n) end;
    intros H; discriminate H.
Qed.

(** The text that is added to tracebacks of refusals: computing it never raises, whatever
    the object, its class and their metaclasses do. *)
Theorem C67_info_total :
  forall E f obj s, exists x s' t, getInfo E f obj s = (Ok x, s', t).
Proof. exact info_total_lemma. Qed.
Print Assumptions C67_info_total.

(** It names the class the object claims to have and its type. *)
Theorem C67_info :
  forall E f o cls m1 n1 m2 n2 s,
    (forall s, e_run E (e_tid E) (CallOp (OGetattr (VObj o) "__class__" None)) s =
               (Ok (VClass cls), s)) ->
    named_class E (VClass cls) m1 n1 -> named_class E (VClass (e_type E o)) m2 n2 ->
    exists t, getInfo E (S f) (VObj o) s =
      (Ok (("   - class: " ++ m1 ++ "." ++ n1) ++ newline ++
           ("   - type: " ++ m2 ++ "." ++ n2)), s, t).
Proof. exact info_exact_lemma. Qed.
Print Assumptions C67_info.

(** Object 5 claims the class app.Thing, which is its type; object 6 raises when asked. *)
Example C67_info_example b :
  let run := fun t c s =>
    match c with
    | CallOp (OGetattr (VObj 5) "__class__" _) => (Ok (VClass "app.Thing"), s)
    | CallOp (OGetattr (VObj 6) _ _) => (Exc (EApp 1), s)
    | CallOp (OGetattr (VClass _) "__module__" _) => (Ok (VStr "app"), s)
    | CallOp (OGetattr (VClass _) "__name__" _) => (Ok (VStr "Thing"), s)
    | _ => quiet_run t c s
    end in
  let E := wenv_run b run in
  (forall s, e_run E (e_tid E) (CallOp (OGetattr (VObj 5) "__class__" None)) s =
             (Ok (VClass "app.Thing"), s)) /\
  named_class E (VClass "app.Thing") "app" "Thing" /\
  fst (fst (getInfo E 3 (VObj 6) (w_state_in true))) = Ok "   - type: app.Thing".
Proof.
  split; [reflexivity|]. split; [intros s; split; reflexivity|]. destruct b; reflexivity.
Qed.
