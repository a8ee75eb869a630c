(** * Property C92: what an auditing policy gets to see. *)

From Coq Require Import List String Bool Arith ZArith Lia.
From Verif Require Import Base Domain CheckerModel ProxyModel Spec RegSpec ProxySpec MediationSpec AuditSpec
  AuditFacts AuditWitness Witness.
Import ListNotations.
Open Scope string_scope.

(** ** C92 *)

(** The questions that reach the policy while an operation is performed are among those for
    its proxied operands, in the order of the operands, each at most once; each is about the
    object behind the proxy, and asks for the permission which the table of the proxy's checker
    had for the operation's name when the operation began; if the checker is a combined one, one
    question for each of the checkers it consists of, in their order.  Nothing else that goes on (wrapping
    the result, combining the checkers of decorators, selecting checkers, texts for the log, length hints) is a question. *)
Theorem C92_questions :
  forall E f o ls s r s' tr, calm_code E -> calm E s -> chains s ls ->
    auditable (e_impl E) o -> known s (e_impl E) o ->
    perform E f o s = (r, s', tr) -> explained s (each ls (queries (e_impl E) o)) tr.
Proof. exact questions. Qed.
Print Assumptions C92_questions.

(** So their number is bounded by the number of proxied operands (twice for reading
    attributes in the Python build), for combined checkers by the number of their parts. *)
Theorem C92_count :
  forall E f o ls s r s' tr, calm_code E -> calm E s -> chains s ls ->
    auditable (e_impl E) o -> known s (e_impl E) o ->
    perform E f o s = (r, s', tr) -> List.length (asks tr) <= List.length (each ls (queries (e_impl E) o)).
Proof.
  exact (fun E f o ls s r s' tr HC H0 HL Ha Hk H =>
           explained_count s _ tr (questions E f o ls s r s' tr HC H0 HL Ha Hk H)).
Qed.
Print Assumptions C92_count.

(** Reading an attribute that is there: at most once, in both builds. *)
Theorem C92_reading :
  forall E f p n fr ls s v s' tr, calm_code E -> calm E s -> chains s ls ->
    (exists x, st_prox s p = Some x) ->
    perform E f (OGetattr (VProxy p) n fr) s = (Ok v, s', tr) -> explained s (each ls [(p, n, Read)]) tr.
Proof. exact reading. Qed.
Print Assumptions C92_reading.

(** And not less than once: when an operation on a proxy got through to the object, and the name
    needs a permission, the questions asked are exactly one, for this permission on this object,
    put to the thread's interaction and answered yes. *)
Theorem C92_once :
  forall E f o p n a w c g wt q ls s r s' tr,
    calm_code E -> calm E s -> chains s ls -> foreign_keeps_proxies E -> auditable (e_impl E) o ->
    guard_of (e_impl E) o = Some (p, n, a) -> Wraps s p w c -> PlainChecker s c g wt ->
    no_none (table_of g) -> no_none (table_of wt) -> plain_object w -> other_operands_plain o ->
    n <> "__Security_checker__" -> table_for a g wt n = Some q -> q <> PPublic ->
    perform E (S (S (S f))) o s = (r, s', tr) -> client_calls tr <> [] ->
    (forall v m fr, e_impl E = ImplPy -> o = OGetattr v m fr -> exists x, r = Ok x) ->
    exists iv, tl_inter (st_tls s (e_tid E)) = Some iv /\ asks tr = [EAsk (e_tid E) iv q w (Some true)].
Proof. exact once. Qed.
Print Assumptions C92_once.

(** In the Python build, reading an attribute that is not there puts the same question twice
    while the object is asked once. *)
Theorem C92_python_twice_refuted :
  exists E s o r s' tr, e_impl E = ImplPy /\ calm_code E /\ calm E s /\ auditable ImplPy o /\ known s ImplPy o /\
    perform E 9 o s = (r, s', tr) /\
    (exists e, asks tr = [e; e]) /\ List.length (client_calls tr) = 1.
Proof. exact twice_refuted. Qed.
Print Assumptions C92_python_twice_refuted.

(** A policy's notes: a public name, a read, a write, a sum of two proxies, a missing attribute,
    a comparison, a refused name; a combined checker whose first part is refused; an attribute
    that is a decorator. *)
Example C92_example : forall b,
  calm_code (audit_env b) /\ calm (audit_env b) audit_state /\ chains audit_state audit_links /\
  known audit_state b (OBin BAdd (VProxy 40) (VProxy 41)) /\
  audited b (OGetattr (VProxy 40) "foo" None) = [] /\
  audited b (OGetattr (VProxy 40) "bar" None) = [(p_view, VObj 5)] /\
  audited b (OSetattr (VProxy 40) "bar" VNone) = [(p_edit, VObj 5)] /\
  audited b (OBin BAdd (VProxy 40) (VProxy 41)) = [(p_view, VObj 5); (p_edit, VObj 6)] /\
  audited b (OGetattr (VProxy 40) "gone" None) =
    match b with ImplPy => [(p_view, VObj 5); (p_view, VObj 5)] | ImplC => [(p_view, VObj 5)] end /\
  audited b (OCmp CEq (VProxy 40) (VProxy 41)) = [] /\
  audited b (OGetattr (VProxy 41) "bar" None) = [] /\
  audited b (OGetattr (VProxy 42) "both" None) = [(p_edit, VObj 7); (p_view, VObj 7)] /\
  (exists x, fst (fst (perform (audit_env b) 9 (OGetattr (VProxy 42) "both" None) audit_state)) = Ok x) /\
  audited b (OGetattr (VProxy 40) "deco" None) = [(p_view, VObj 5)].
Proof.
  intro b. split; [apply audit_code|]. split; [apply audit_calm|]. split; [apply audit_chains|]. split.
  { apply audit_known. intros p n a H. cbn in H.
    destruct H as [H|[H|[]]]; injection H as <- _ _; auto. }
  destruct b; repeat split; try (lazy; reflexivity); eexists; lazy; reflexivity.
Qed.

(** The hypotheses of C92_once are met by reading "bar". *)
Example C92_once_example : forall b,
  foreign_keeps_proxies (audit_env b) /\
  guard_of b (OGetattr (VProxy 40) "bar" None) = Some (40, "bar", Read) /\
  Wraps audit_state 40 (VObj 5) (VChk 10) /\
  PlainChecker audit_state (VChk 10) (audit_dicts 20) (audit_dicts 21) /\
  table_for Read (audit_dicts 20) (audit_dicts 21) "bar" = Some p_view /\
  plain_object (VObj 5) /\
  match perform (audit_env b) 9 (OGetattr (VProxy 40) "bar" None) audit_state with
  | (r, _, tr) => (exists x, r = Ok x) /\ client_calls tr <> []
  end.
Proof.
  intro b. split; [intros t c s r s' H; injection H as _ <-; split; [lia|auto]|].
  split; [destruct b; reflexivity|]. split; [split; [reflexivity|cbn; lia]|].
  split; [eexists 10, _; repeat split|]. split; [reflexivity|]. split; [exact I|].
  destruct b; (lazy; split; [eexists; reflexivity|discriminate]).
Qed.
