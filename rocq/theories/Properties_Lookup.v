(** * Property C64: hasattr() and getattr() with a default on security proxies. *)

From Coq Require Import List String Bool Arith ZArith.
From Verif Require Import Base Domain CheckerModel ProxyModel Spec RegSpec Witness ProxySpec
  Lookup LookupSpec LookupFacts ProxyProps.
Import ListNotations.
Open Scope string_scope.

(** A name the checker does not grant looks absent: False, or the default; nothing of the
    application runs, nothing is asked, nothing changes. *)
Theorem C64_forbidden_looks_absent :
  forall E f p n w c g wt s d,
    guard_of (e_impl E) (OGetattr (VProxy p) n None) = Some (p, n, Read) ->
    st_prox s p = Some (w, c) ->
    PlainChecker s c g wt -> no_none (table_of g) -> no_none (table_of wt) ->
    table_of g n = None -> ~ always_available n -> n <> "__iter__" ->
    client_hasattr E (S (S (S f))) (VProxy p) n s = (Ok false, s, []) /\
    client_getattr E (S (S (S f))) (VProxy p) n d s = (Ok d, s, []).
Proof. exact lookup_forbidden. Qed.
Print Assumptions C64_forbidden_looks_absent.

(** A name whose permission the interaction refuses does not look absent: both functions
    raise Unauthorized. *)
Theorem C64_unauthorised_raises :
  forall E f p n w c g wt s q i x d,
    guard_of (e_impl E) (OGetattr (VProxy p) n None) = Some (p, n, Read) ->
    st_prox s p = Some (w, c) ->
    PlainChecker s c g wt -> no_none (table_of g) -> no_none (table_of wt) ->
    plain_object w -> table_of g n = Some q ->
    tl_inter (st_tls s (e_tid E)) = Some (VIact i) -> st_inters s i = Some x ->
    ~ simple_grants s x q ->
    client_hasattr E (S (S (S f))) (VProxy p) n s =
      (Exc (EUnauthorized w n q), s, [EAsk (e_tid E) (VIact i) q w (Some false)]) /\
    client_getattr E (S (S (S f))) (VProxy p) n d s =
      (Exc (EUnauthorized w n q), s, [EAsk (e_tid E) (VIact i) q w (Some false)]).
Proof. exact lookup_unauthorised. Qed.
Print Assumptions C64_unauthorised_raises.

(** True is never a guess: the read was authorised and performed, and nothing else was
    run on the client's behalf. *)
Theorem C64_true_means_read :
  forall E f p n w c g wt s s' tr,
    foreign_keeps_proxies E ->
    guard_of (e_impl E) (OGetattr (VProxy p) n None) = Some (p, n, Read) ->
    Wraps s p w c ->
    PlainChecker s c g wt -> no_none (table_of g) -> no_none (table_of wt) ->
    plain_object w -> n <> "__Security_checker__" ->
    client_hasattr E (S (S (S f))) (VProxy p) n s = (Ok true, s', tr) ->
    Authorised E s Read g wt w n tr /\
    client_calls tr = [ECall Client (e_tid E) (own_read E p w n)].
Proof. exact lookup_present. Qed.
Print Assumptions C64_true_means_read.

(** Under a simple policy, False for a protected name means that the permission is
    granted (so that the object itself lacks the attribute). *)
Theorem C64_false_means_granted :
  forall E f p n w c g wt s q i x s' tr,
    guard_of (e_impl E) (OGetattr (VProxy p) n None) = Some (p, n, Read) ->
    st_prox s p = Some (w, c) ->
    PlainChecker s c g wt -> no_none (table_of g) -> no_none (table_of wt) ->
    plain_object w -> table_of g n = Some q ->
    tl_inter (st_tls s (e_tid E)) = Some (VIact i) -> st_inters s i = Some x ->
    client_hasattr E (S (S (S f))) (VProxy p) n s = (Ok false, s', tr) ->
    simple_grants s x q.
Proof. exact lookup_false_granted. Qed.
Print Assumptions C64_false_means_granted.

(** A public name that the object lacks. *)
Theorem C64_public_missing :
  forall E f p n w c g wt g2 wt2 s e s2,
    guard_of (e_impl E) (OGetattr (VProxy p) n None) = Some (p, n, Read) ->
    st_prox s p = Some (w, c) -> PlainChecker s c g wt ->
    st_prox s2 p = Some (w, c) -> PlainChecker s2 c g2 wt2 ->
    table_of g n = Some PPublic -> table_of g2 n = Some PPublic ->
    no_none (table_of g) -> no_none (table_of wt) ->
    no_none (table_of g2) -> no_none (table_of wt2) ->
    plain_object w -> n <> "__Security_checker__" ->
    e_run E (e_tid E) (own_read E p w n) s = (Exc e, s2) -> attribute_error e ->
    client_hasattr E (S (S (S f))) (VProxy p) n s =
      (Ok false, s2, [ECall Client (e_tid E) (own_read E p w n)]).
Proof. exact lookup_missing. Qed.
Print Assumptions C64_public_missing.

(** But a missing interaction is an AttributeError too: an attribute that exists and is
    protected by a permission then looks absent instead of being refused. *)
Theorem C64_no_interaction_looks_absent :
  forall E f p n w c g wt s q d,
    guard_of (e_impl E) (OGetattr (VProxy p) n None) = Some (p, n, Read) ->
    st_prox s p = Some (w, c) ->
    PlainChecker s c g wt -> no_none (table_of g) -> no_none (table_of wt) ->
    plain_object w -> table_of g n = Some q -> q <> PPublic ->
    tl_inter (st_tls s (e_tid E)) = None ->
    client_hasattr E (S (S (S f))) (VProxy p) n s = (Ok false, s, []) /\
    client_getattr E (S (S (S f))) (VProxy p) n d s = (Ok d, s, []).
Proof. exact lookup_no_interaction. Qed.
Print Assumptions C64_no_interaction_looks_absent.

(** One proxy, six outcomes: forbidden, refused, granted and present, no interaction, and
    a public name that is present, or missing. *)
Example C64_example :
  let p := VProxy 40 in
  guard_of ImplPy (OGetattr p "zip" None) = Some (40, "zip", Read) /\
  client_hasattr (aenv ImplPy) 5 p "zip" (a_state false) = (Ok false, a_state false, []) /\
  client_getattr (aenv ImplC) 5 p "zip" (VInt 3) (a_state false) =
    (Ok (VInt 3), a_state false, []) /\
  fst (fst (client_hasattr (aenv ImplPy) 5 p "bar" (a_state false))) =
    Exc (EUnauthorized (VObj 5) "bar" p_view) /\
  fst (fst (client_getattr (aenv ImplC) 5 p "bar" VNone (a_state false))) =
    Exc (EUnauthorized (VObj 5) "bar" p_view) /\
  fst (fst (client_hasattr (aenv ImplPy) 6 p "bar" (a_state true))) = Ok true /\
  fst (fst (client_hasattr (aenv ImplC) 6 p "bar" (a_state true))) = Ok true /\
  client_hasattr (wenv ImplPy) 5 p "bar" w_state = (Ok false, w_state, []) /\
  client_hasattr (wenv ImplC) 5 p "bar" w_state = (Ok false, w_state, []) /\
  client_hasattr (aenv ImplPy) 6 p "__isub__" (a_state false) =
    (Ok false, a_state false, [ECall Client 0 (own_read (aenv ImplPy) 40 (VObj 5) "__isub__")]) /\
  client_hasattr (aenv ImplC) 6 p "__isub__" (a_state false) =
    (Ok false, a_state false, [ECall Client 0 (own_read (aenv ImplC) 40 (VObj 5) "__isub__")]).
Proof. repeat split; reflexivity. Qed.
