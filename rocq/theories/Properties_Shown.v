(** * Property C91: which request reaches the application, and whose methods see what. *)

From Coq Require Import List String Bool Arith ZArith Lia.
From Verif Require Import Base Domain ProxyModel Spec RegSpec ProxySpec MediationSpec SessionSpec
  Witness Mediation ShownSpec ShownFacts ShownWitness.
Import ListNotations.
Open Scope string_scope.

(** Every request that application code receives on behalf of a client is the client's
    own request, with nothing exchanged but targets for the objects they wrap: the same
    operation, the same name, the same arguments in the same order, proxies among them still
    proxies.  Of operators and comparisons both operands may have been exchanged. *)
Theorem C91_requests :
  forall E f o s r s' tr,
    foreign_keeps_proxies E -> foreign_heap_ok E -> heap_ok s ->
    perform E f o s = (r, s', tr) ->
    forall t1 th c t2, tr = (t1 ++ ECall Client th c :: t2)%list ->
      exists o', c = CallOp o' /\ arrives E s o o'.
Proof.
  exact (fun E f o s r s' tr HF HH Hs HP t1 th c t2 Ht =>
           match proj2 (mediation_lemma E f o s r s' tr HF HH Hs HP t1 th c t2 Ht) with
           | ex_intro _ o' (conj Hc HM) =>
               ex_intro _ o' (conj Hc (mediated_arrives E s o t1 o' HM))
           end).
Qed.
Print Assumptions C91_requests.

(** p == x, p < x, ...: whoever [p] belongs to, and whatever its checker says, if the wrapped
    object leaves the comparison to [x], the method of [x] is called with the object itself;
    nobody is asked. *)
Theorem C91_comparisons_show :
  forall E meth f k s p w c x s1 b s2,
    dispatches E meth -> st_prox s p = Some (w, c) -> is_proxy w = false -> is_proxy x = false ->
    meth w (cmp_name k) [x] s = (Ok VNotImpl, s1) ->
    meth x (cmp_name (mirrored k)) [w] s1 = (Ok (VBool b), s2) ->
    perform E (S (S f)) (OCmp k (VProxy p) x) s
    = (Ok (VBool b), s2, [ECall Client (e_tid E) (CallOp (OCmp k w x))]).
Proof. exact compare_shown. Qed.
Print Assumptions C91_comparisons_show.

(** The wish: a client with objects of its own never gets hold of an object that it has only
    as a proxy.  False: a client that is granted nothing, without any interaction, compares
    the proxy with its own object and has the object. *)
Theorem C91_comparison_refuted :
  forall b, exists s s' t,
    (foreign_keeps_proxies (shown_env b) /\ foreign_heap_ok (shown_env b) /\ heap_ok s) /\
    st_prox s 41 = Some (VObj 6, VChk 0) /\
    (exists k, st_chks s 0 = Some k /\ st_dicts s (ck_get k) = [] /\ st_dicts s (ck_set k) = []) /\
    tl_inter (st_tls s 0) = None /\ st_app s = 0 /\
    perform (shown_env b) 2 (OCmp CEq (VProxy 41) (VObj 99)) s = (Ok (VBool true), s', t) /\
    asks t = [] /\ st_app s' = 6.
Proof.
  intros b. do 3 eexists. split; [split; [| split]; [apply shown_env_fine .. | exact shown_heap] |].
  split; [reflexivity |].
  split; [eexists; repeat split; reflexivity |].
  split; [reflexivity |]. split; [reflexivity |].
  split; [destruct b; reflexivity |]. destruct b; split; reflexivity.
Qed.
Print Assumptions C91_comparison_refuted.

(** The same with an operator that is granted, and with [x in p], which compares the items of
    a list with [x]; the client has been granted neither the object nor the item. *)
Theorem C91_operators_refuted :
  forall b, exists s s1 t1 s2 t2 r1 r2,
    (foreign_keeps_proxies (shown_env b) /\ foreign_heap_ok (shown_env b) /\ heap_ok s) /\
    st_app s = 0 /\
    perform (shown_env b) 5 (OBin BAdd (VProxy 42) (VObj 99)) s = (r1, s1, t1) /\ st_app s1 = 5 /\
    perform (shown_env b) 5 (OContains (VProxy 43) (VObj 99)) s = (r2, s2, t2) /\ st_app s2 = 5.
Proof.
  intros b. exists shown_state. destruct b; do 6 eexists;
  (split; [split; [| split]; [apply shown_env_fine .. | exact shown_heap] |]);
  (split; [reflexivity |]); (split; [lazy; reflexivity |]); (split; [reflexivity |]);
  (split; [lazy; reflexivity |]); reflexivity.
Qed.
Print Assumptions C91_operators_refuted.

(** Instances of [arrives]: a call hands on its arguments as they are. *)
Example C91_call :
  forall E s p args o', arrives E s (OCall (VProxy p) args) o' -> exists w, o' = OCall w args.
Proof. intros E s p args o' (w & fr & -> & _). now exists w. Qed.

Example C91_setitem :
  forall E s p k v o', arrives E s (OSetitem (VProxy p) k v) o' -> exists w, o' = OSetitem w k v.
Proof. intros E s p k v o' (w & fr & -> & _). now exists w. Qed.

(** An operand that is not a proxy is handed on as it is. *)
Example C91_right :
  forall E s b p x o', is_proxy x = false ->
    arrives E s (OBin b (VProxy p) x) o' -> exists w, o' = OBin b w x.
Proof.
  intros E s b p x o' Hx (l' & r' & -> & _ & HR). exists l'.
  now rewrite (behind_plain _ _ _ _ _ HR Hx).
Qed.

Example C91_requests_case :
  forall b,
    exists r s' t2,
      perform (shown_env b) 5 (OContains (VProxy 43) (VProxy 42)) shown_state =
      (r, s', ([] ++ ECall Client 0 (CallOp (OContains (VObj 7) (VProxy 42))) :: t2)%list).
Proof. intros b. destruct b; do 3 eexists; lazy; reflexivity. Qed.
