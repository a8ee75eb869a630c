(** * Property C65: refusals leak nothing. *)

From Coq Require Import List String Bool Arith ZArith.
From Verif Require Import Base Domain ProxyModel Spec RegSpec Witness ProxySpec MediationSpec
  SessionSpec ProxyProps ConcealSpec ConcealFacts ConcealProps.
Import ListNotations.
Open Scope string_scope.

(** Whatever a client does with the proxies it has, and however it reacts to results and
    exceptions: the results it sees, the resulting state, the questions put to the policy
    and the calls into the application are the same if the concealed attributes and
    special methods of [w] are implemented in any other way. *)
Theorem C65_refusals_leak_nothing :
  forall E run2 w (hidden : name -> Prop) guards lacking,
    plain_object w ->
    (forall n, hidden n -> concealable n) ->
    inplace_too hidden ->
    respects E w hidden guards lacking ->
    differs_only_there E w hidden run2 ->
    forall f c s,
      Concealed E w hidden guards lacking s -> polite (e_impl E) w c ->
      run_client E f c s = run_client (with_run E run2) f c s.
Proof. exact client_same. Qed.
Print Assumptions C65_refusals_leak_nothing.

(** And the object is as concealed afterwards as it was before. *)
Theorem C65_stays_concealed :
  forall E w (hidden : name -> Prop) guards lacking,
    plain_object w ->
    (forall n, hidden n -> concealable n) ->
    inplace_too hidden ->
    respects E w hidden guards lacking ->
    forall f c s rs s' t,
      Concealed E w hidden guards lacking s -> polite (e_impl E) w c ->
      run_client E f c s = (rs, s', t) -> Concealed E w hidden guards lacking s'.
Proof. exact still_concealed. Qed.
Print Assumptions C65_stays_concealed.

(** The restriction to concealable names is needed: no checker can withhold
    [__length_hint__], which both builds call without asking. *)
Theorem C65_length_hint_refuted :
  exists E run2 w (hidden : name -> Prop) guards lacking f c s,
    plain_object w /\ inplace_too hidden /\
    (forall n, hidden n -> ~ always_available n) /\
    respects E w hidden guards lacking /\ differs_only_there E w hidden run2 /\
    Concealed E w hidden guards lacking s /\ polite (e_impl E) w c /\
    (forall i k, In (i, k) guards -> forall n, hidden n ->
       table_of (st_dicts s (ck_get k)) n = None) /\
    run_client E f c s <> run_client (with_run E run2) f c s.
Proof.
  exists (aenv ImplC), hint_run, (VObj 5), hint, kept_guards, kept_perms, 5,
    (Request (OLenHint (VProxy 40)) (fun _ => Finished)), (a_state false).
  split; [exact I|].
  split; [intros b H; destruct b; discriminate H|].
  split; [intros n ->; unfold always_available; simpl; intuition discriminate|].
  split; [apply hint_respects|]. split; [apply hint_differs|].
  split; [apply hint_concealed|].
  split; [simpl; intuition discriminate|].
  split.
  - intros i k H n ->. simpl in H.
    destruct H as [[= <- <-]|[[= <- <-]|[]]]; reflexivity.
  - intros H. apply (f_equal (fun x => fst (fst x))) in H. vm_compute in H. discriminate.
Qed.
Print Assumptions C65_length_hint_refuted.

(** The hypotheses hold for both builds of the example application, whose two versions
    really differ, and for a client that tries to read, assign and take items. *)
Example C65_example : forall b,
  plain_object (VObj 5) /\ (forall n, kept n -> concealable n) /\ inplace_too kept /\
  respects (aenv b) (VObj 5) kept kept_guards kept_perms /\
  differs_only_there (aenv b) (VObj 5) kept other_run /\
  Concealed (aenv b) (VObj 5) kept kept_guards kept_perms (a_state false) /\
  polite b (VObj 5) nosy /\
  fst (app_run 0 (CallOp (OGetattr (VObj 5) "bar" None)) (a_state false)) <>
  fst (other_run 0 (CallOp (OGetattr (VObj 5) "bar" None)) (a_state false)) /\
  fst (fst (run_client (with_run (aenv b) other_run) 8 nosy (a_state false))) =
  [ Exc (EUnauthorized (VObj 5) "bar" p_view);
    Exc (EUnauthorized (VObj 5) "bar" p_edit);
    Exc (EForbidden "__getitem__" (VObj 5));
    Exc (EForbidden "zip" (VObj 5));
    Ok (VProxy 50);
    Ok (VStr "<security proxied app.Thing instance at 0x1>") ].
Proof.
  intros b. split; [exact I|]. split; [exact kept_concealable|].
  split; [exact kept_inplace|]. split; [apply a_respects|]. split; [apply other_differs|].
  split; [apply a_concealed|]. split; [apply nosy_polite|].
  split; [discriminate|]. destruct b; reflexivity.
Qed.

(** With the permission granted the two versions can be told apart. *)
Example C65_granted_differs : forall b,
  run_client (aenv b) 8 nosy (a_state true) <>
  run_client (with_run (aenv b) other_run) 8 nosy (a_state true).
Proof.
  intros b H. apply (f_equal (fun x => st_prox (snd (fst x)) 50)) in H. destruct b; vm_compute in H; discriminate.
Qed.
