(** * Properties C15-C25, C27-C31, C57 (and C03 for proxies): security proxies. *)

From Coq Require Import List String Bool Arith ZArith Lia.
From Verif Require Import Base Domain CheckerModel ProxyModel Spec RegSpec Witness ProxySpec
  MediationSpec SessionSpec SlotSpec FactorySpec ProxyFacts ProxyOps ProxyTable ProxyResults
  Mediation Session Slots Factory ProxyProps.
Import ListNotations.
Open Scope string_scope.

(** ** C03, for proxies *)

(** Without an interaction in the calling thread, an operation on a proxy that needs a
    permission raises, runs nothing and changes nothing. *)
Theorem C03_proxy_fail_closed :
  forall E f o p n a w c g wt s q,
    guard_of (e_impl E) o = Some (p, n, a) -> st_prox s p = Some (w, c) ->
    PlainChecker s c g wt -> no_none (table_of g) -> no_none (table_of wt) ->
    plain_object w ->
    table_for a g wt n = Some q -> q <> PPublic ->
    tl_inter (st_tls s (e_tid E)) = None ->
    perform E (S (S (S f))) o s = (Exc (EAttribute "interaction"), s, []).
Proof. exact no_interaction_lemma. Qed.
Print Assumptions C03_proxy_fail_closed.

Example C03_proxy_example :
  guard_of ImplC (OGetattr (VProxy 40) "bar" None) = Some (40, "bar", Read) /\
  st_prox w_state 40 = Some (VObj 5, VChk 10) /\
  tl_inter (st_tls w_state 0) = None /\
  table_for Read (w_dicts 20) (w_dicts 21) "bar" = Some p_view /\
  perform (wenv ImplC) 5 (OGetattr (VProxy 40) "bar" None) w_state =
    (Exc (EAttribute "interaction"), w_state, []) /\
  perform (wenv ImplPy) 5 (OSetattr (VProxy 40) "bar" VNone) w_state =
    (Exc (EAttribute "interaction"), w_state, []).
Proof. repeat split; reflexivity. Qed.

(** ** C15 *)

(** At any point of any run, whatever operation a client performs on whatever operands:
    application code is asked (on the client's behalf, in the client's thread) only for
    operations obtained from the client's by replacing proxies with the objects they
    wrap, each replacement after a successful check of the corresponding name on that
    object against that proxy's checker (comparison, hash, truth and length hint
    excepted). *)
Theorem C15_complete_mediation :
  forall (Env : env -> Prop) s0 s E f o r s' tr,
    (forall E, Env E -> foreign_keeps_proxies E /\ foreign_heap_ok E) ->
    heap_ok s0 -> Run Env s0 s -> Env E ->
    perform E f o s = (r, s', tr) ->
    forall t1 th c t2, tr = (t1 ++ ECall Client th c :: t2)%list ->
      th = e_tid E /\ exists o', c = CallOp o' /\ Mediated E s o t1 o'.
Proof. exact run_mediated. Qed.
Print Assumptions C15_complete_mediation.

(** A check by a name-based checker that passed: the name is public, or available by
    default, or the thread's interaction granted the permission recorded. *)
Theorem C15_passed_authorised :
  forall E f m a c g wt w n s s1 t1,
    PlainChecker s c g wt -> no_none (table_of g) -> no_none (table_of wt) ->
    (m = MSetattr <-> a = Write) ->
    do_check E f m c w n s = (Ok tt, s1, t1) ->
    Authorised E s a g wt w n t1.
Proof. exact passed_authorised. Qed.
Print Assumptions C15_passed_authorised.

(** ... so what [Passed] means for a proxy that existed when the operation began, whose
    checker is name-based. *)
Theorem C15_passed :
  forall E s p w0 c g wt w n a tr,
    foreign_keeps_proxies E -> foreign_keeps_checkers E ->
    Wraps s p w0 c -> PlainChecker s c g wt -> (forall i, c = VChk i -> i < st_next s) ->
    no_none (table_of g) -> no_none (table_of wt) ->
    Passed E s p w n a tr ->
    w = w0 /\ exists s0, Evolves E s s0 /\ Authorised E s0 a g wt w n tr.
Proof. exact passed_means. Qed.
Print Assumptions C15_passed.

(** Both together for one guarded operation. *)
Theorem C15_authorised :
  forall E f o p n a w c g wt s r s' tr,
    foreign_keeps_proxies E ->
    guard_of (e_impl E) o = Some (p, n, a) -> Wraps s p w c ->
    PlainChecker s c g wt -> no_none (table_of g) -> no_none (table_of wt) ->
    plain_object w -> other_operands_plain o -> n <> "__Security_checker__" ->
    perform E (S (S (S f))) o s = (r, s', tr) ->
    client_calls tr <> [] ->
    Authorised E s a g wt w n tr.
Proof. exact authorised_lemma. Qed.
Print Assumptions C15_authorised.

Example C15_withheld_example :
  (forall b w t, ~ Passed (aenv b) (a_state true) 40 w "quux" Read t) /\
  (forall b, exists t, Passed (aenv b) (a_state true) 40 (VObj 5) "bar" Read t).
Proof.
  split.
  - intros b w t. apply a_not_passed; [reflexivity|unfold always_available; simpl; intuition discriminate
                                      |discriminate].
  - intros b. eexists. exists 5, MGetattr, (VChk 10), (a_state true), (a_state true).
    split; [constructor|]. split; [reflexivity|]. split; [split; discriminate|].
    destruct b; reflexivity.
Qed.

Example C15_example :
  (forall E, E = aenv ImplPy -> foreign_keeps_proxies E /\ foreign_heap_ok E) /\
  heap_ok (a_state true) /\
  (exists r s t, perform (aenv ImplPy) 6 (OIn IAdd (VProxy 40) (VProxy 41)) (a_state true) =
                 (r, s, t) /\ List.length (client_calls t) = 2) /\
  client_calls (snd (perform (aenv ImplC) 5 (OGetattr (VProxy 40) "bar" None) (a_state true))) =
    [ECall Client 0 (CallOp (OGetattr (VObj 5) "bar" None))] /\
  asks (snd (perform (aenv ImplC) 5 (OGetattr (VProxy 40) "bar" None) (a_state true))) =
    [EAsk 0 (VIact 45) p_view (VObj 5) (Some true)].
Proof.
  split.
  { intros E ->. split; [apply pure_keeps_proxies|apply pure_heap_ok]; apply aenv_pure. }
  split; [apply a_heap_ok|].
  split; [do 3 eexists; split; reflexivity|].
  split; reflexivity.
Qed.

(** ** C16 *)

(** The result of an operation on a proxy (with a checker of this package) is a proxy, a
    constant, or a value that needs none: the registry says so when the operation ends, or
    a registered factory was asked about it meanwhile. *)
Theorem C16_results :
  forall E f o p i w s u s' t,
    foreign_keeps_proxies E -> principal_operand o = VProxy p -> Wraps s p w (VChk i) ->
    result_protected (e_impl E) o ->
    perform E (S f) o s = (Ok u, s', t) ->
    is_proxy u = true \/ constant u \/ needs_none E s' t u.
Proof. exact result_lemma. Qed.
Print Assumptions C16_results.

(** A client that starts with proxies and basic values only ever holds such values. *)
Theorem C16_viral :
  forall E reg, basic_closed E reg ->
  forall held s held' s',
    Session E reg held s held' s' -> st_reg s = reg ->
    Forall (Held E reg) held -> Forall (Held E reg) held'.
Proof. exact session_lemma. Qed.
Print Assumptions C16_viral.

(** The objects the client works on are not basic; what it obtains is. *)
Example C16_example :
  basic_closed (aenv ImplC) [] /\
  Held (aenv ImplC) [] (VProxy 40) /\ ~ Held (aenv ImplC) [] (VObj 9) /\
  (exists s1 s2 p q,
     Session (aenv ImplC) [] [VProxy 40] (a_state true) [VInt 3; VProxy q; VProxy p; VProxy 40] s2 /\
     st_prox s1 p = Some (VObj 9, VChk 0) /\ st_prox s2 q = Some (VObj 9, VChk 0)) /\
  fst (e_run (aenv ImplC) 0 (CallOp (OGetattr (VObj 5) "foo" None)) (a_state true)) =
    Ok (VObj 9) /\
  (forall b, let x := perform (aenv b) 6 (OGetattr (VProxy 40) "foo" None) (a_state true) in
     fst (fst x) = Ok (VProxy 50) /\ ~ needs_none (aenv b) (snd (fst x)) (snd x) (VObj 9)).
Proof.
  split; [apply app_closed|].
  split; [left; reflexivity|].
  split; [intros [H|H]; [discriminate|apply empty_not_basic in H; exact H]|].
  split; [|split; [reflexivity|]].
  2: { intros b. destruct b; (split; [reflexivity|]);
         (intros [H|[(H & H1 & _)|[(m & x & H & _)|(k & g & H)]]];
          [discriminate|discriminate|discriminate|];
          vm_compute in H; intuition discriminate). }
  set (x1 := perform (aenv ImplC) 6 (OGetattr (VProxy 40) "foo" None) (a_state true)).
  set (x2 := perform (aenv ImplC) 6 (OCall (VProxy 40) []) (snd (fst x1))).
  exists (snd (fst x1)), (snd (fst x2)), 50, 51.
  split; [|split; reflexivity].
  eapply Se_result with (o := OGetattr (VProxy 40) "foo" None) (f := 6).
  { simpl; tauto. } { left. left. reflexivity. } { reflexivity. }
  eapply Se_result with (o := OCall (VProxy 40) []) (f := 6).
  { simpl; tauto. } { left. exact I. } { reflexivity. }
  eapply Se_constant with (v := VInt 3). { exact I. }
  apply Se_done.
Qed.

(** Comparisons through the Python proxy return whatever the object returned. *)
Theorem C16_py_comparison_refuted :
  exists E o p i w s u s' t,
    e_impl E = ImplPy /\ foreign_keeps_proxies E /\ principal_operand o = VProxy p /\
    Wraps s p w (VChk i) /\ perform E 6 o s = (Ok u, s', t) /\
    u = VObj 9 /\ ~ Held E [] u.
Proof.
  exists (aenv ImplPy), (OCmp CEq (VProxy 40) (VInt 1)), 40, 10, (VObj 5), (a_state true),
    (VObj 9). do 2 eexists.
  split; [reflexivity|]. split; [apply pure_keeps_proxies, aenv_pure|].
  split; [reflexivity|]. split; [split; [reflexivity|simpl; lia]|].
  split; [reflexivity|]. split; [reflexivity|].
  intros [H|H]; [discriminate|apply empty_not_basic in H; exact H].
Qed.
Print Assumptions C16_py_comparison_refuted.

(** [__length_hint__] (operator.length_hint) is neither checked nor protected, in both
    builds. *)
Theorem C16_length_hint_refuted :
  forall b, exists o p i w s u s' t,
    Wraps s p w (VChk i) /\ principal_operand o = VProxy p /\
    perform (aenv b) 6 o s = (Ok u, s', t) /\ u = VObj 9 /\ ~ Held (aenv b) [] u /\
    table_of (st_dicts s 20) "__length_hint__" = None.
Proof.
  intros b. exists (OLenHint (VProxy 40)), 40, 10, (VObj 5), (a_state true), (VObj 9).
  destruct b; do 2 eexists; (split; [split; [reflexivity|simpl; lia]|]);
    (split; [reflexivity|]); (split; [reflexivity|]); (split; [reflexivity|]);
    (split; [|reflexivity]);
    (intros [H|H]; [discriminate|apply empty_not_basic in H; exact H]).
Qed.
Print Assumptions C16_length_hint_refuted.

(** ** C17 *)

(** Over any history of operations, checks and creations of proxies in any threads
    (in the Python build: without in-place operators and assignments to the proxy's
    internal names), a proxy keeps its object and its checker. *)
Theorem C17_bound_forever :
  forall (Env : env -> Prop) (other : state -> state -> Prop) s s' p w c,
    (forall E, Env E -> foreign_keeps_proxies E) ->
    (forall s1 s2, other s1 s2 -> proxies_kept s1 s2) ->
    History Env other s s' -> Wraps s p w c -> Wraps s' p w c.
Proof. exact history_wraps. Qed.
Print Assumptions C17_bound_forever.

Example C17_example :
  exists s', History (fun E => E = aenv ImplC) (fun _ _ => False) (a_state true) s' /\
             Wraps (a_state true) 40 (VObj 5) (VChk 10) /\ st_next s' = 51.
Proof.
  set (x1 := perform (aenv ImplC) 6 (OIn IAdd (VProxy 40) (VInt 1)) (a_state true)).
  set (x2 := perform (aenv ImplC) 6 (OGetattr (VProxy 40) "foo" None) (snd (fst x1))).
  exists (snd (fst x2)). split; [|split; [split; [reflexivity|simpl; lia]|reflexivity]].
  eapply Hi_op with (E := aenv ImplC) (f := 6) (o := OIn IAdd (VProxy 40) (VInt 1));
    [reflexivity|exact I|reflexivity|].
  eapply Hi_op with (E := aenv ImplC) (f := 6) (o := OGetattr (VProxy 40) "foo" None);
    [reflexivity|exact I|reflexivity|].
  apply Hi_done.
Qed.

(** An in-place operator of the Python proxy rebinds the proxy to whatever the object's
    method returned, keeping the checker of the old object. *)
Theorem C17_py_inplace_refuted :
  exists E s p w c o r s' t,
    e_impl E = ImplPy /\ foreign_keeps_proxies E /\ Wraps s p w c /\
    perform E 6 o s = (Ok r, s', t) /\ st_prox s' p = Some (VInt 7, c) /\ w = VObj 5.
Proof.
  exists (aenv ImplPy), (a_state true), 40, (VObj 5), (VChk 10), (OIn IAdd (VProxy 40) (VInt 7)).
  do 3 eexists. split; [reflexivity|]. split; [apply pure_keeps_proxies, aenv_pure|].
  split; [split; [reflexivity|simpl; lia]|]. split; [reflexivity|]. split; reflexivity.
Qed.
Print Assumptions C17_py_inplace_refuted.

(** Assigning to the internal names of a Python proxy is not checked. *)
Theorem C17_py_setattr_refuted :
  exists E s p w c r s' t,
    e_impl E = ImplPy /\ foreign_keeps_proxies E /\ Wraps s p w c /\
    perform E 6 (OSetattr (VProxy p) "_checker" (VChk 11)) s = (Ok r, s', t) /\
    t = [] /\ c = VChk 10 /\ st_prox s' p = Some (w, VChk 11).
Proof.
  exists (aenv ImplPy), (a_state true), 40, (VObj 5), (VChk 10). do 3 eexists.
  split; [reflexivity|]. split; [apply pure_keeps_proxies, aenv_pure|].
  split; [split; [reflexivity|simpl; lia]|]. split; [reflexivity|].
  split; [reflexivity|]. split; reflexivity.
Qed.
Print Assumptions C17_py_setattr_refuted.

(** ** C18 *)

(** An operation on a proxy consists of one check, of exactly the name [guard_of] gives
    (the language's special method name) on the wrapped object, and, if that passes, of
    the operation on the wrapped object. *)
Theorem C18_checked_under_its_name :
  forall E f o p n a w c s r s' tr,
    foreign_keeps_proxies E ->
    guard_of (e_impl E) o = Some (p, n, a) -> Wraps s p w c -> c <> VNone ->
    plain_object w -> other_operands_plain o -> n <> "__Security_checker__" ->
    perform E (S (S f)) o s = (r, s', tr) ->
    exists m r0 s1 t1 t2, (m = MSetattr <-> a = Write) /\
      do_check E (S f) m c w n s = (r0, s1, t1) /\ tr = (t1 ++ t2)%list /\
      client_calls t1 = [] /\
      match r0 with
      | Exc _ => client_calls t2 = []
      | Ok _ => reached (e_impl E) (e_tid E) (Invoked E (S f)) p o w (client_calls t2)
      end.
Proof. exact effect_lemma. Qed.
Print Assumptions C18_checked_under_its_name.

(** Operations whose right operand is a proxy, when the left one does not know what to
    do: checked under the reflected name. *)
Theorem C18_reflected :
  forall E f o p n onw w c s r0 s0,
    guard_right (e_impl E) o = Some (p, n, onw) ->
    e_run E (e_tid E) (CallOp o) s = (r0, s0) ->
    st_prox s0 p = Some (w, c) ->
    RightSteps E f o p n onw w c s r0 s0.
Proof. exact right_lemma. Qed.
Print Assumptions C18_reflected.

(** No two operators share a name. *)
Theorem C18_distinct :
  forall b o1 o2 p1 p2 n a1 a2 k1 k2,
    guard_of b o1 = Some (p1, n, a1) -> guard_of b o2 = Some (p2, n, a2) ->
    operator_of o1 = Some k1 -> operator_of o2 = Some k2 -> k1 = k2.
Proof. exact distinct_lemma. Qed.
Print Assumptions C18_distinct.

Theorem C18_distinct_reflected :
  forall b o1 o2 p1 p2 n a f2 k,
    guard_of b o1 = Some (p1, n, a) -> operator_of o1 = Some k ->
    guard_right b o2 = Some (p2, n, f2) -> False.
Proof. exact distinct_reflected_lemma. Qed.
Print Assumptions C18_distinct_reflected.

Example C18_example :
  guard_of ImplC (OBin BAdd (VProxy 40) (VInt 1)) = Some (40, "__add__", Read) /\
  perform (aenv ImplC) 6 (OBin BSub (VProxy 40) (VInt 1)) (a_state true) =
    (Exc (EForbidden "__sub__" (VObj 5)), a_state true, []) /\
  client_calls (snd (perform (aenv ImplC) 6 (OBin BAdd (VProxy 40) (VInt 1)) (a_state true))) =
    [ECall Client 0 (CallOp (OBin BAdd (VObj 5) (VInt 1)))] /\
  client_calls (snd (perform (aenv ImplPy) 6 (OIn ISub (VProxy 40) (VInt 1)) (a_state true))) =
    [ECall Client 0 (CallOp (OGetattr (VObj 5) "__isub__" (Some (VProxy 40))));
     ECall Client 0 (CallOp (OGetattr (VObj 5) "__sub__" (Some (VProxy 40))));
     ECall Client 0 (CallOp (OCall (VObj 9) [VInt 1]))].
Proof. repeat split; reflexivity. Qed.

(** ** C19 *)

(** Comparison, hash and truth: exactly the same operation on the wrapped object, same
    result or exception, no check, no question, and nothing else. *)
Theorem C19_always_available :
  forall E f o p w c s r s1,
    open_op o -> principal_operand o = VProxy p -> st_prox s p = Some (w, c) ->
    plain_object w -> other_operands_plain o ->
    e_run E (e_tid E) (CallOp (on_object o None w)) s = (r, s1) ->
    (forall v, r = Ok v -> good_answer (e_impl E) o v) ->
    perform E (S (S f)) o s =
    (r, s1, [ECall Client (e_tid E) (CallOp (on_object o None w))]).
Proof. exact open_forward. Qed.
Print Assumptions C19_always_available.

Example C19_example :
  forall b,
  perform (wenv b) 4 (OHash (VProxy 40)) w_state =
    (Ok (VInt 1), w_state, [ECall Client 0 (CallOp (OHash (VObj 5)))]) /\
  perform (wenv b) 4 (OBool (VProxy 41)) w_state =
    (Ok (VBool true), w_state, [ECall Client 0 (CallOp (OBool (VObj 6)))]).
Proof. intros []; split; reflexivity. Qed.

(** ** C20 *)

(** If the checker refuses, str/repr give the fixed text, run nothing on the client's
    behalf, and ask the policy nothing more. *)
Theorem C20_masked :
  forall E f o nm p w c g wt s r s' tr k md cn,
    foreign_keeps_proxies E ->
    shows o = Some nm -> principal_operand o = VProxy p -> Wraps s p w c ->
    PlainChecker s c g wt -> no_none (table_of g) -> plain_object w ->
    HasClass E w k md cn ->
    perform E (S (S (S f))) o s = (r, s', tr) ->
    exists r0 s1 t1, ReadCheck E s (table_of g) w nm r0 s1 t1 /\
      forall e, r0 = Exc e -> (e_impl E = ImplC \/ is_type_error e = false) ->
        r = Ok (VStr (masked E w md cn)) /\ s' = s1 /\ client_calls tr = [] /\
        asks tr = asks t1.
Proof. exact show_refused_lemma. Qed.
Print Assumptions C20_masked.

(** If it grants, the object's own text is the result. *)
Theorem C20_granted :
  forall E f o nm p w c g wt s,
    foreign_keeps_proxies E ->
    shows o = Some nm -> principal_operand o = VProxy p -> Wraps s p w c ->
    PlainChecker s c g wt -> no_none (table_of g) -> plain_object w ->
    exists r0 s1 t1, ReadCheck E s (table_of g) w nm r0 s1 t1 /\
      forall x s2, r0 = Ok tt ->
        e_run E (e_tid E) (CallOp (on_object o None w)) s1 = (Ok (VStr x), s2) ->
        (e_impl E = ImplPy -> registered_for E s2 (VStr x) = Some VNoProxy) ->
        perform E (S (S (S f))) o s =
        (Ok (VStr x), s2,
         (t1 ++ [ECall Client (e_tid E) (CallOp (on_object o None w))])%list).
Proof. exact show_granted_lemma. Qed.
Print Assumptions C20_granted.

(** The default checker does not list [__str__]; [__repr__] is always available. *)
Example C20_example :
  HasClass (aenv ImplPy) (VObj 6) "app.Thing" "app" "Thing" /\
  forall b,
    fst (fst (perform (aenv b) 6 (OStr (VProxy 41)) (a_state false))) =
      Ok (VStr "<security proxied app.Thing instance at 0x1>") /\
    fst (fst (perform (aenv b) 6 (ORepr (VProxy 41))
                (set_reg [(KType "str", VNoProxy)] (a_state false)))) = Ok (VStr "an object").
Proof.
  split; [intros s; repeat split; reflexivity|]. intros []; split; vm_compute; reflexivity.
Qed.

(** ** C21 *)

(** ProxyFactory(p) is p; ProxyFactory(p, its checker) is p; with any other checker it
    raises TypeError and creates nothing. *)
Theorem C21_proxy_unchanged :
  forall E f p s, do_ProxyFactory E f (VProxy p) VNone s = (Ok (VProxy p), s, []).
Proof. exact factory_proxy_none. Qed.
Print Assumptions C21_proxy_unchanged.

Theorem C21_cannot_change_checker :
  forall E f p w c c' s,
    st_prox s p = Some (w, c) -> c' <> VNone ->
    (c' = c -> do_ProxyFactory E f (VProxy p) c' s = (Ok (VProxy p), s, [])) /\
    (c' <> c -> exists msg, do_ProxyFactory E f (VProxy p) c' s = (Exc (EType msg), s, [])).
Proof. exact factory_proxy_checker. Qed.
Print Assumptions C21_cannot_change_checker.

(** A given checker is used. *)
Theorem C21_given_checker :
  forall E f v c s,
    is_proxy v = false -> c <> VNone ->
    exists s', do_ProxyFactory E f v c s = (Ok (VProxy (st_next s)), s', []) /\
               Grown s s' (st_next s) v c.
Proof. exact factory_given. Qed.
Print Assumptions C21_given_checker.

(** Otherwise the object's own [__Security_checker__], whatever the registry says. *)
Theorem C21_own_checker :
  forall E f v c s s1,
    Own E s v c s1 -> c <> VNone ->
    exists s' t, do_ProxyFactory E (S f) v VNone s = (Ok (VProxy (st_next s1)), s', t) /\
                 Grown s1 s' (st_next s1) v c /\ client_calls t = [].
Proof. exact factory_own. Qed.
Print Assumptions C21_own_checker.

(** Otherwise what selectChecker says; basic objects come back as they are. *)
Theorem C21_registry :
  forall E f v s s1 oc s2 t2,
    Own E s v VNone s1 -> do_select E (S f) v s1 = (Ok oc, s2, t2) ->
    match oc with
    | None => exists t, do_ProxyFactory E (S f) v VNone s = (Ok v, s2, t)
    | Some c => exists s' t,
        do_ProxyFactory E (S f) v VNone s = (Ok (VProxy (st_next s2)), s', t) /\
        Grown s2 s' (st_next s2) v c
    end.
Proof. exact factory_selected. Qed.
Print Assumptions C21_registry.

(** The result is the argument itself or a proxy, which ProxyFactory leaves alone. *)
Theorem C21_idempotent :
  forall E f v s u s' t,
    do_ProxyFactory E f v VNone s = (Ok u, s', t) ->
    u = v \/ (is_proxy u = true /\
              forall f2 s2, do_ProxyFactory E f2 u VNone s2 = (Ok u, s2, [])).
Proof. exact factory_idempotent. Qed.
Print Assumptions C21_idempotent.

Example C21_example :
  Own (aenv ImplC) (a_state true) (VObj 5) VNone (a_state true) /\
  fst (fst (do_ProxyFactory (aenv ImplC) 5 (VObj 5) VNone (a_state true))) = Ok (VProxy 50) /\
  fst (fst (do_ProxyFactory (aenv ImplC) 5 (VObj 5) (VChk 11) (a_state true))) = Ok (VProxy 50) /\
  fst (fst (do_ProxyFactory (aenv ImplC) 5 (VProxy 40) (VChk 11) (a_state true))) =
    Exc (EType "Tried to use ProxyFactory to change a Proxy's checker.") /\
  fst (fst (do_ProxyFactory (aenv ImplPy) 5 (VStr "x") VNone
              (set_reg [(KType "str", VNoProxy)] (a_state true)))) = Ok (VStr "x").
Proof.
  split.
  { eapply Own_missing with (e := EAttribute "__Security_checker__"); simpl; auto. }
  repeat split; reflexivity.
Qed.

(** ** C22 *)

(** At any later time of a history the proxy yields what it was made of. *)
Theorem C22_round_trip :
  forall (Env : env -> Prop) (other : state -> state -> Prop) o c s p s1 t s2,
    (forall E, Env E -> foreign_keeps_proxies E) ->
    (forall x y, other x y -> proxies_kept x y) ->
    new_proxy o c s = (Ok (VProxy p), s1, t) -> History Env other s1 s2 ->
    removeSecurityProxy (VProxy p) s2 = (Ok o, s2, []) /\
    getChecker (VProxy p) s2 = (Ok c, s2, []).
Proof. exact round_trip_lemma. Qed.
Print Assumptions C22_round_trip.

Theorem C22_remove_non_proxy :
  forall v s, is_proxy v = false -> removeSecurityProxy v s = (Ok v, s, []).
Proof. exact remove_plain. Qed.
Print Assumptions C22_remove_non_proxy.

Theorem C22_getChecker_non_proxy :
  forall v s, is_proxy v = false -> exists msg, getChecker v s = (Exc (EType msg), s, []).
Proof. exact getChecker_plain. Qed.
Print Assumptions C22_getChecker_non_proxy.

Theorem C22_no_checker :
  forall v s, new_proxy v VNone s = (Exc (EValue "None passed as proxy checker"), s, []).
Proof. exact new_proxy_none. Qed.
Print Assumptions C22_no_checker.

Example C22_example :
  exists s1, new_proxy (VObj 3) (VChk 11) (a_state true) = (Ok (VProxy 50), s1, []) /\
    History (fun E => E = aenv ImplC) (fun _ _ => False) s1
      (snd (fst (perform (aenv ImplC) 6 (OGetattr (VProxy 40) "foo" None) s1))) /\
    removeSecurityProxy (VProxy 50) s1 = (Ok (VObj 3), s1, []).
Proof.
  eexists. split; [reflexivity|]. split; [|reflexivity].
  eapply Hi_op with (E := aenv ImplC) (f := 6) (o := OGetattr (VProxy 40) "foo" None);
    [reflexivity|exact I|reflexivity|].
  apply Hi_done.
Qed.

(** ** C23 *)

(** A checker's [proxy] returns a proxy as it is (CheckerPublic is proxy 0). *)
Theorem C23_proxy_identity :
  forall E f i p s, do_proxy E f (VChk i) (VProxy p) s = (Ok (VProxy p), s, []).
Proof. exact proxy_identity. Qed.
Print Assumptions C23_proxy_identity.

(** No history creates a proxy around a proxy. *)
Theorem C23_never_nested :
  forall (Env : env -> Prop) (other : state -> state -> Prop) s s',
    (forall E, Env E -> foreign_flat E) ->
    (forall s1 s2, other s1 s2 -> flat s1 -> flat s2) ->
    History Env other s s' -> flat s -> flat s'.
Proof. exact history_flat. Qed.
Print Assumptions C23_never_nested.

Example C23_example :
  flat (a_state true) /\
  exists s', History (fun E => E = aenv ImplC) (fun _ _ => False) (a_state true) s' /\
             st_prox s' 50 = Some (VObj 9, VChk 0) /\
  fst (fst (perform (aenv ImplC) 6 (OCall (VProxy 40) [VProxy 0]) (a_state true))) =
    Ok (VProxy 0).
Proof.
  split; [apply a_flat|].
  exists (snd (fst (perform (aenv ImplC) 6 (OGetattr (VProxy 40) "foo" None) (a_state true)))).
  split; [|split; reflexivity].
  eapply Hi_op with (E := aenv ImplC) (f := 6) (o := OGetattr (VProxy 40) "foo" None);
    [reflexivity|exact I|reflexivity|].
  apply Hi_done.
Qed.

(** The Python proxy's in-place operators may wrap a proxy, when they fall back to the
    plain operator and that returns a proxy. *)
Theorem C23_py_inplace_refuted :
  exists E s o r s' t p q c,
    e_impl E = ImplPy /\ foreign_flat E /\ flat s /\ perform E 6 o s = (Ok r, s', t) /\
    r = VProxy p /\ st_prox s' p = Some (VProxy q, c).
Proof.
  exists (aenv ImplPy), (a_state true), (OIn ISub (VProxy 40) (VProxy 41)). do 3 eexists.
  exists 50, 41, (VChk 10).
  split; [reflexivity|]. split; [apply pure_flat, aenv_pure|]. split; [apply a_flat|].
  split; [reflexivity|]. split; reflexivity.
Qed.
Print Assumptions C23_py_inplace_refuted.

(** ** C24 *)

(** For every operation checked under [n] for reading (attribute access among them), and
    a policy to which proxy and object are the same: canAccess says True if and only if
    the operation reaches the object, False if and only if it is Unauthorized,
    ForbiddenAttribute if and only if it is forbidden. *)
Theorem C24_canAccess_predicts :
  forall E f o p n w c g wt s,
    foreign_keeps_proxies E -> guard_of (e_impl E) o = Some (p, n, Read) -> Wraps s p w c ->
    PlainChecker s c g wt -> no_none (table_of g) -> no_none (table_of wt) ->
    plain_object w -> other_operands_plain o -> n <> "__Security_checker__" ->
    indifferent E p w -> n <> "__iter__" ->
    exists ra sa ta rp sp tp,
      do_canAccess E (S (S f)) (VProxy p) n s = (ra, sa, ta) /\
      perform E (S (S (S f))) o s = (rp, sp, tp) /\
      ((ra = Ok true /\
        reached (e_impl E) (e_tid E) (Invoked E (S (S f))) p o w (client_calls tp)) \/
       (client_calls tp = [] /\
        ((ra = Ok false /\ exists q, rp = Exc (EUnauthorized w n q)) \/
         (ra = Exc (EForbidden n (VProxy p)) /\ rp = Exc (EForbidden n w)) \/
         (exists x, ra = Exc (EAttribute x) /\ rp = Exc (EAttribute x))))).
Proof. exact canAccess_lemma. Qed.
Print Assumptions C24_canAccess_predicts.

(** On an unproxied object: the answer for the proxy ProxyFactory makes of it. *)
Theorem C24_unproxied :
  forall E f v n s p s1 t1,
    do_ProxyFactory E f v VNone s = (Ok (VProxy p), s1, t1) ->
    fst (fst (do_canAccess E f v n s)) = fst (fst (do_canAccess E f (VProxy p) n s1)) /\
    fst (fst (do_canWrite E f v n s)) = fst (fst (do_canWrite E f (VProxy p) n s1)).
Proof. exact can_reduce_lemma. Qed.
Print Assumptions C24_unproxied.

(** On an object that ProxyFactory does not proxy: TypeError, whatever the name. *)
Theorem C24_basic_type_error :
  forall E f v n s s1 t1,
    is_proxy v = false -> do_ProxyFactory E f v VNone s = (Ok v, s1, t1) ->
    (exists msg, fst (fst (do_canAccess E f v n s)) = Exc (EType msg)) /\
    (exists msg, fst (fst (do_canWrite E f v n s)) = Exc (EType msg)).
Proof. exact can_basic_lemma. Qed.
Print Assumptions C24_basic_type_error.

Example C24_example :
  indifferent (aenv ImplC) 40 (VObj 5) /\
  forall b,
    fst (fst (do_canAccess (aenv b) 5 (VProxy 40) "foo" (a_state false))) = Ok true /\
    fst (fst (do_canAccess (aenv b) 5 (VProxy 40) "bar" (a_state false))) = Ok false /\
    fst (fst (do_canAccess (aenv b) 5 (VProxy 40) "bar" (a_state true))) = Ok true /\
    fst (fst (do_canAccess (aenv b) 5 (VProxy 40) "baz" (a_state true))) =
      Exc (EForbidden "baz" (VProxy 40)) /\
    fst (fst (do_canAccess (aenv b) 5 (VStr "x") "upper"
                (set_reg [(KType "str", VNoProxy)] (a_state true)))) =
      Exc (EType "getChecker argument must be a _Proxy").
Proof.
  split.
  { intros iv q s. exists false, s. split; reflexivity. }
  intros []; repeat split; reflexivity.
Qed.

(** The name [__iter__]: canAccess asks the proxy whether there is such an attribute,
    access asks the object; the answer True is wrong. *)
Theorem C24_iter_refuted :
  forall b, exists s p w c,
    indifferent (aenv b) p w /\ Wraps s p w c /\
    fst (fst (do_canAccess (aenv b) 6 (VProxy p) "__iter__" s)) = Ok true /\
    perform (aenv b) 7 (OIter (VProxy p)) s = (Exc (EForbidden "__iter__" w), s,
      [ECall Probe 0 (CallOp (OGetattr w "__iter__" None))]).
Proof.
  intros b. exists (a_state true), 40, (VObj 5), (VChk 10).
  split; [intros iv q s; exists false, s; split; reflexivity|].
  split; [split; [reflexivity|simpl; lia]|].
  destruct b; split; reflexivity.
Qed.
Print Assumptions C24_iter_refuted.

(** ** C25 *)

Theorem C25_canWrite_predicts :
  forall E f o o2 p n w c g wt s,
    foreign_keeps_proxies E ->
    guard_of (e_impl E) o = Some (p, n, Write) -> guard_of (e_impl E) o2 = Some (p, n, Read) ->
    Wraps s p w c ->
    PlainChecker s c g wt -> no_none (table_of g) -> no_none (table_of wt) ->
    plain_object w -> other_operands_plain o -> other_operands_plain o2 ->
    n <> "__Security_checker__" ->
    indifferent E p w -> n <> "__iter__" ->
    exists ra sa ta rp sp tp rq sq tq,
      do_canWrite E (S (S f)) (VProxy p) n s = (ra, sa, ta) /\
      perform E (S (S (S f))) o s = (rp, sp, tp) /\
      perform E (S (S (S f))) o2 s = (rq, sq, tq) /\
      ((ra = Ok true /\
        reached (e_impl E) (e_tid E) (Invoked E (S (S f))) p o w (client_calls tp)) \/
       (client_calls tp = [] /\
        ((ra = Ok false /\ exists q, rp = Exc (EUnauthorized w n q)) \/
         (exists x, ra = Exc (EAttribute x) /\ rp = Exc (EAttribute x)) \/
         (rp = Exc (EForbidden n w) /\
          ((ra = Ok false /\
            reached (e_impl E) (e_tid E) (Invoked E (S (S f))) p o2 w (client_calls tq)) \/
           (client_calls tq = [] /\
            ((ra = Ok false /\ exists q, rq = Exc (EUnauthorized w n q)) \/
             (ra = Exc (EForbidden n (VProxy p)) /\ rq = Exc (EForbidden n w)) \/
             (exists x, ra = Exc (EAttribute x) /\ rq = Exc (EAttribute x))))))))).
Proof. exact canWrite_lemma. Qed.
Print Assumptions C25_canWrite_predicts.

Example C25_example :
  guard_of ImplPy (OSetattr (VProxy 40) "foo" (VInt 1)) = Some (40, "foo", Write) /\
  forall b,
    fst (fst (do_canWrite (aenv b) 5 (VProxy 40) "foo" (a_state false))) = Ok true /\
    fst (fst (do_canWrite (aenv b) 5 (VProxy 40) "bar" (a_state false))) = Ok false /\
    fst (fst (do_canWrite (aenv b) 5 (VProxy 40) "__add__" (a_state true))) = Ok false /\
    fst (fst (do_canWrite (aenv b) 5 (VProxy 40) "baz" (a_state true))) =
      Exc (EForbidden "baz" (VProxy 40)).
Proof. split; [reflexivity|]. intros []; repeat split; reflexivity. Qed.

(** ** C27 *)

(** If the check refuses, no application code runs on the client's behalf, the state is
    what the check left, and the refusal is what comes out.  (Reading an attribute
    through the Python proxy repeats the check if the refusal is an AttributeError; then
    the second answer counts, and it is an exception in any case.) *)
Theorem C27_refusal_has_no_effect :
  forall E f o p n a w c g wt s r s' tr,
    foreign_keeps_proxies E -> foreign_keeps_checkers E ->
    guard_of (e_impl E) o = Some (p, n, a) -> Wraps s p w c ->
    PlainChecker s c g wt -> no_none (table_of g) -> no_none (table_of wt) ->
    plain_object w ->
    perform E (S (S (S f))) o s = (r, s', tr) ->
    exists r0 s1 t1, AccessCheck E s a g wt w n r0 s1 t1 /\
      forall e, r0 = Exc e ->
        client_calls tr = [] /\
        ((r = Exc e /\ s' = s1 /\ tr = t1) \/
         (e_impl E = ImplPy /\ is_getattr o = true /\ attribute_error e /\
          exists r2 t2, AccessCheck E s1 a g wt w n r2 s' t2 /\ tr = (t1 ++ t2)%list /\
                        r = Exc (match r2 with Exc e2 => e2 | Ok _ => EAttribute n end))).
Proof. exact refusal_lemma. Qed.
Print Assumptions C27_refusal_has_no_effect.

(** Forbidden names: ForbiddenAttribute, nothing happens at all. *)
Theorem C27_forbidden :
  forall E f o p n a w c g wt s,
    guard_of (e_impl E) o = Some (p, n, a) -> st_prox s p = Some (w, c) ->
    PlainChecker s c g wt -> no_none (table_of g) -> no_none (table_of wt) ->
    table_for a g wt n = None -> (a = Read -> ~ always_available n /\ n <> "__iter__") ->
    perform E (S (S (S f))) o s = (Exc (EForbidden n w), s, []).
Proof. exact forbidden_lemma. Qed.
Print Assumptions C27_forbidden.

(** Refused by an interaction of this package: Unauthorized, nothing happens. *)
Theorem C27_unauthorised :
  forall E f o p n a w c g wt s q i x,
    guard_of (e_impl E) o = Some (p, n, a) -> st_prox s p = Some (w, c) ->
    PlainChecker s c g wt -> no_none (table_of g) -> no_none (table_of wt) ->
    plain_object w ->
    table_for a g wt n = Some q ->
    tl_inter (st_tls s (e_tid E)) = Some (VIact i) -> st_inters s i = Some x ->
    ~ simple_grants s x q ->
    perform E (S (S (S f))) o s =
    (Exc (EUnauthorized w n q), s, [EAsk (e_tid E) (VIact i) q w (Some false)]).
Proof. exact unauthorised_lemma. Qed.
Print Assumptions C27_unauthorised.

Example C27_example :
  forall b,
    perform (aenv b) 6 (ODelitem (VProxy 40) (VInt 1)) (a_state true) =
      (Exc (EForbidden "__delitem__" (VObj 5)), a_state true, []) /\
    perform (aenv b) 6 (OSetattr (VProxy 40) "bar" (VInt 1)) (a_state false) =
      (Exc (EUnauthorized (VObj 5) "bar" p_edit), a_state false,
       [EAsk 0 (VIact 45) p_edit (VObj 5) (Some false)]).
Proof. intros []; split; reflexivity. Qed.

(** ** C28 *)

(** The exceptions of refused operations carry the wrapped object itself. *)
Theorem C28_denials_hand_out_object_refuted :
  forall b, exists s p w c o e s' t,
    Wraps s p w c /\ ~ Held (aenv b) [] w /\
    perform (aenv b) 6 o s = (Exc e, s', t) /\ e = EForbidden "baz" w.
Proof.
  intros b. exists (a_state true), 40, (VObj 5), (VChk 10), (OGetattr (VProxy 40) "baz" None).
  eexists _, (a_state true), [].
  split; [split; [reflexivity|simpl; lia]|].
  split; [intros [H|H]; [discriminate|apply empty_not_basic in H; exact H]|].
  destruct b; split; reflexivity.
Qed.
Print Assumptions C28_denials_hand_out_object_refuted.

(** ** C29 *)

(** The C proxy gives no attribute name special treatment: whatever the name, an
    attribute operation on the proxy is checked under that name and, when the checker has
    no entry for it, forbidden. *)
Theorem C29_c_no_special_names :
  forall E f o p n a w c g wt s,
    e_impl E = ImplC ->
    (exists fr, o = OGetattr (VProxy p) n fr /\ a = Read) \/
    (exists v, o = OSetattr (VProxy p) n v /\ a = Write) \/
    (o = ODelattr (VProxy p) n /\ a = Write) ->
    internal_name n -> st_prox s p = Some (w, c) ->
    PlainChecker s c g wt -> no_none (table_of g) -> no_none (table_of wt) ->
    table_for a g wt n = None ->
    perform E (S (S (S f))) o s = (Exc (EForbidden n w), s, []).
Proof. exact c_internal_lemma. Qed.
Print Assumptions C29_c_no_special_names.

(** Reading the internal names of a Python proxy always raises (unless the calling frame
    has a local variable [self] bound to the proxy), as does deleting them. *)
Theorem C29_py_read :
  forall E f p n fr s r s' t,
    e_impl E = ImplPy -> internal_name n -> fr <> Some (VProxy p) ->
    perform E f (OGetattr (VProxy p) n fr) s = (r, s', t) ->
    exists e, r = Exc e.
Proof. exact py_internal_read. Qed.
Print Assumptions C29_py_read.

Theorem C29_py_delete :
  forall E f p n s,
    e_impl E = ImplPy -> internal_name n ->
    perform E (S f) (ODelattr (VProxy p) n) s = (Exc (EAttribute ""), s, []).
Proof. exact py_internal_delete. Qed.
Print Assumptions C29_py_delete.

Example C29_example :
  perform (aenv ImplC) 6 (OGetattr (VProxy 40) "_wrapped" None) (a_state true) =
    (Exc (EForbidden "_wrapped" (VObj 5)), a_state true, []) /\
  fst (fst (perform (aenv ImplPy) 6 (OGetattr (VProxy 40) "_checker" (Some (VObj 3)))
              (a_state true))) = Exc (EForbidden "_checker" (VObj 5)).
Proof. split; reflexivity. Qed.

(** A client function whose local variable [self] is the proxy reads the wrapped object
    of a Python proxy. *)
Theorem C29_py_frame_refuted :
  exists E s p w c,
    e_impl E = ImplPy /\ Wraps s p w c /\ ~ Held E [] w /\
    perform E 6 (OGetattr (VProxy p) "_wrapped" (Some (VProxy p))) s = (Ok w, s, []).
Proof.
  exists (aenv ImplPy), (a_state true), 40, (VObj 5), (VChk 10).
  split; [reflexivity|]. split; [split; [reflexivity|simpl; lia]|].
  split; [intros [H|H]; [discriminate|apply empty_not_basic in H; exact H]|].
  reflexivity.
Qed.
Print Assumptions C29_py_frame_refuted.

(** Assigning to them is not checked and replaces object or checker. *)
Theorem C29_py_setattr_refuted :
  exists E s p w c,
    e_impl E = ImplPy /\ Wraps s p w c /\
    (exists s1, perform E 6 (OSetattr (VProxy p) "_wrapped" (VInt 3)) s = (Ok VNone, s1, []) /\
                st_prox s1 p = Some (VInt 3, c)) /\
    (exists s2, perform E 6 (OSetattr (VProxy p) "_checker" (VInt 3)) s = (Ok VNone, s2, []) /\
                st_prox s2 p = Some (w, VInt 3)).
Proof.
  exists (aenv ImplPy), (a_state true), 40, (VObj 5), (VChk 10).
  split; [reflexivity|]. split; [split; [reflexivity|simpl; lia]|].
  split; eexists; split; reflexivity.
Qed.
Print Assumptions C29_py_setattr_refuted.

(** ** C30 *)

(** In-place operators of the C proxy: after the check of the in-place name, the
    operation on the object; if that returned the object itself the same proxy comes
    back, otherwise the new value, protected by the checker's [proxy]. *)
Theorem C30_c_inplace :
  forall E f b p w c x s s1 t1 r s2 t2,
    e_impl E = ImplC -> st_prox s p = Some (w, c) ->
    do_check E f (c_mode s c MCheck) c w (inplace_name b) s = (Ok tt, s1, t1) ->
    st_prox s1 p = Some (w, c) ->
    perform E f (OIn b w x) s1 = (Ok r, s2, t2) ->
    st_prox s2 p = Some (w, c) ->
    perform E (S f) (OIn b (VProxy p) x) s =
    if value_eqb r w then (Ok (VProxy p), s2, (t1 ++ t2)%list)
    else let '(r3, s3, t3) := do_proxy E f c r s2 in (r3, s3, (t1 ++ t2 ++ t3)%list).
Proof. exact c_inplace_lemma. Qed.
Print Assumptions C30_c_inplace.

Example C30_example :
  fst (fst (perform (aenv ImplC) 6 (OIn IAdd (VProxy 40) (VInt 1)) (a_state true))) =
    Ok (VProxy 40) /\
  fst (fst (perform (aenv ImplC) 6 (OIn IMul (VProxy 40) (VInt 1)) (a_state true))) =
    Exc (EForbidden "__imul__" (VObj 5)) /\
  fst (fst (perform (wenv ImplC) 6 (OIn IAdd (VProxy 40) (VInt 1))
              (set_reg [(KType "NoneType", VNoProxy)] (a_state true)))) = Ok VNone.
Proof. repeat split; reflexivity. Qed.

(** The Python proxy: a method that returns another value rebinds the proxy, and the new
    value is guarded by the old object's checker. *)
Theorem C30_py_refuted :
  exists E s p w c o s' t,
    e_impl E = ImplPy /\ Wraps s p w c /\
    perform E 6 o s = (Ok (VProxy p), s', t) /\
    w = VObj 5 /\ st_prox s' p = Some (VObj 8, c) /\
    fst (fst (do_select E 6 (VObj 8) s')) = Ok (Some (VChk 0)) /\ c = VChk 10.
Proof.
  exists (aenv ImplPy), (a_state true), 40, (VObj 5), (VChk 10), (OIn IAdd (VProxy 40) (VObj 8)).
  do 2 eexists. split; [reflexivity|]. split; [split; [reflexivity|simpl; lia]|].
  split; [reflexivity|]. repeat split; reflexivity.
Qed.
Print Assumptions C30_py_refuted.

(** ** C31 *)

(** Assignment and deletion: the same check, hence the same refusal (all names in the C
    build, all but the internal names in the Python build). *)
Theorem C31_same_refusal :
  forall E f p n v w c s e s1 t1,
    (e_impl E = ImplC \/ ~ internal_name n) -> st_prox s p = Some (w, c) ->
    do_check E f MSetattr c w n s = (Exc e, s1, t1) ->
    perform E (S f) (OSetattr (VProxy p) n v) s = (Exc e, s1, t1) /\
    perform E (S f) (ODelattr (VProxy p) n) s = (Exc e, s1, t1).
Proof. exact set_del_lemma. Qed.
Print Assumptions C31_same_refusal.

(** If the check passes both are carried out on the object. *)
Theorem C31_same_grant :
  forall E f o p n w c s,
    (exists v, o = OSetattr (VProxy p) n v) \/ o = ODelattr (VProxy p) n ->
    (e_impl E = ImplC \/ ~ internal_name n) -> st_prox s p = Some (w, c) ->
    forall r0 s1 t1, do_check E f MSetattr c w n s = (r0, s1, t1) ->
    match r0 with
    | Exc e => perform E (S f) o s = (Exc e, s1, t1)
    | Ok _ => st_prox s1 p = Some (w, c) ->
              perform E (S f) o s =
              let '(r, s', t) := perform E f (on_object o None w) s1 in (r, s', (t1 ++ t)%list)
    end.
Proof. exact write_lemma. Qed.
Print Assumptions C31_same_grant.

Example C31_example :
  forall b,
    perform (aenv b) 6 (OSetattr (VProxy 40) "bar" (VInt 1)) (a_state false) =
      (Exc (EUnauthorized (VObj 5) "bar" p_edit), a_state false,
       [EAsk 0 (VIact 45) p_edit (VObj 5) (Some false)]) /\
    perform (aenv b) 6 (ODelattr (VProxy 40) "bar") (a_state false) =
      (Exc (EUnauthorized (VObj 5) "bar" p_edit), a_state false,
       [EAsk 0 (VIact 45) p_edit (VObj 5) (Some false)]) /\
    client_calls (snd (perform (aenv b) 6 (ODelattr (VProxy 40) "foo") (a_state false))) =
      [ECall Client 0 (CallOp (ODelattr (VObj 5) "foo"))].
Proof. intros []; repeat split; reflexivity. Qed.

(** The internal names of a Python proxy can be assigned but not deleted. *)
Theorem C31_py_internal_refuted :
  exists E s p n,
    e_impl E = ImplPy /\
    fst (fst (perform E 6 (OSetattr (VProxy p) n (VInt 1)) s)) = Ok VNone /\
    fst (fst (perform E 6 (ODelattr (VProxy p) n) s)) = Exc (EAttribute "").
Proof.
  exists (aenv ImplPy), (a_state true), 40, "_wrapped". repeat split; reflexivity.
Qed.
Print Assumptions C31_py_internal_refuted.

(** ** C57 *)

(** zope.security.proxy.isinstance sees the wrapped object, and changes nothing. *)
Theorem C57_isinstance :
  forall isinst s p w c cls,
    st_prox s p = Some (w, c) ->
    proxy_isinstance isinst (VProxy p) cls s = (Ok (isinst w cls), s, []).
Proof. exact isinstance_lemma. Qed.
Print Assumptions C57_isinstance.

Theorem C57_isinstance_factory :
  forall E f isinst v c s u s' t cls,
    do_ProxyFactory E f v c s = (Ok u, s', t) -> is_proxy v = false ->
    proxy_isinstance isinst u cls s' = (Ok (isinst v cls), s', []).
Proof. exact isinstance_factory_lemma. Qed.
Print Assumptions C57_isinstance_factory.

Example C57_example :
  proxy_isinstance (fun v _ => value_eqb v (VObj 5)) (VProxy 40) "app.Thing"
    (a_state true) = (Ok true, a_state true, []).
Proof. reflexivity. Qed.
