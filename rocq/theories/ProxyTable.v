(** * ProxyTable: operations on proxies whose checker is name-based. *)

From Coq Require Import List String Bool Arith ZArith Lia.
From Verif Require Import Base Domain CheckerModel ProxyModel MFacts Spec RegSpec CheckFacts
  ProxySpec SafeFacts ProxyFacts ProxyOps.
Import ListNotations.
Open Scope string_scope.

Lemma plain_not_none s c g w : PlainChecker s c g w -> c <> VNone.
Proof. intros (i & k & -> & _). discriminate. Qed.

Lemma access_check E f m a c g wt w n s r0 s1 t1 :
  PlainChecker s c g wt -> no_none (table_of g) -> no_none (table_of wt) ->
  (a = Read -> n = "__iter__" -> plain_object w) ->
  (m = MSetattr <-> a = Write) ->
  do_check E (S (S f)) m c w n s = (r0, s1, t1) ->
  AccessCheck E s a g wt w n r0 s1 t1.
Proof.
  intros Hpc Hg Hwt Hw Hm H. destruct a; simpl.
  - eapply check_exact_lemma; eauto. intros ->. destruct Hm as [Hm _]. specialize (Hm eq_refl).
    discriminate.
  - assert (m = MSetattr) by tauto. subst m. eapply check_setattr_exact_lemma; eauto.
Qed.

(** Effect of an operation on a proxy with a name-based checker. *)
Lemma table_lemma E f o p n a w c g wt s r s' tr :
  foreign_keeps_proxies E ->
  guard_of (e_impl E) o = Some (p, n, a) -> Wraps s p w c ->
  PlainChecker s c g wt -> no_none (table_of g) -> no_none (table_of wt) ->
  plain_object w -> other_operands_plain o -> n <> "__Security_checker__" ->
  perform E (S (S (S f))) o s = (r, s', tr) ->
  exists r0 s1 t1 t2,
    AccessCheck E s a g wt w n r0 s1 t1 /\ tr = (t1 ++ t2)%list /\
    client_calls t1 = [] /\
    match r0 with
    | Exc _ => client_calls t2 = []
    | Ok _ => reached (e_impl E) (e_tid E) (Invoked E (S (S f))) p o w (client_calls t2)
    end.
Proof.
  intros HF Hg HW Hpc Hng Hnw Hw Ho Hn HP.
  destruct (effect_lemma E (S f) o p n a w c s r s' tr HF Hg HW (plain_not_none _ _ _ _ Hpc)
              Hw Ho Hn HP) as (m & r0 & s1 & t1 & t2 & Hm & Hc & Ht & Hq & Hr).
  exists r0, s1, t1, t2. split; [|auto].
  eapply access_check; eauto.
Qed.

Lemma access_ok_authorised E s a g wt w n s1 t1 :
  no_none (table_of g) -> no_none (table_of wt) ->
  AccessCheck E s a g wt w n (Ok tt) s1 t1 -> Authorised E s a g wt w n t1.
Proof.
  intros Hg Hwt H. unfold Authorised. destruct a; simpl in *.
  - remember (Ok tt) as r eqn:Hr. destruct H as [| q r1 s2 t2 Ht Hq HA | | | | | ];
      try discriminate; auto 7.
    + right; right. apply Asked_asks in HA.
      destruct HA as [[Ha [e ->]]|(iv & b & Ha & Hb & Hc)]; [discriminate|].
      exists q, iv. split; [auto|]. split; [auto|]. split; [auto|].
      destruct b as [[]|]; subst; simpl in *; try discriminate.
      * assert (Hin : In (EAsk (e_tid E) iv q w (Some true)) (asks t2)) by (rewrite Hb; simpl; auto).
        unfold asks in Hin. apply filter_In in Hin. tauto.
      * destruct Hc as [e ->]. discriminate.
  - remember (Ok tt) as r eqn:Hr. destruct H as [| q r1 s2 t2 Ht Hq HA | ];
      try discriminate; auto.
    right; right. apply Asked_asks in HA.
    destruct HA as [[Ha [e ->]]|(iv & b & Ha & Hb & Hc)]; [discriminate|].
    exists q, iv. split; [auto|]. split; [auto|]. split; [auto|].
    destruct b as [[]|]; subst; simpl in *; try discriminate.
    + assert (Hin : In (EAsk (e_tid E) iv q w (Some true)) (asks t2)) by (rewrite Hb; simpl; auto).
      unfold asks in Hin. apply filter_In in Hin. tauto.
    + destruct Hc as [e ->]. discriminate.
Qed.

(** If anything of the application ran, it was authorised. *)
Lemma authorised_lemma E f o p n a w c g wt s r s' tr :
  foreign_keeps_proxies E ->
  guard_of (e_impl E) o = Some (p, n, a) -> Wraps s p w c ->
  PlainChecker s c g wt -> no_none (table_of g) -> no_none (table_of wt) ->
  plain_object w -> other_operands_plain o -> n <> "__Security_checker__" ->
  perform E (S (S (S f))) o s = (r, s', tr) ->
  client_calls tr <> [] ->
  Authorised E s a g wt w n tr.
Proof.
  intros HF Hg HW Hpc Hng Hnw Hw Ho Hn HP Hne.
  destruct (table_lemma E f o p n a w c g wt s r s' tr HF Hg HW Hpc Hng Hnw Hw Ho Hn HP)
    as (r0 & s1 & t1 & t2 & HA & Ht & Hq & Hr).
  subst tr. destruct r0 as [[]|e].
  - apply access_ok_authorised in HA; auto.
    destruct HA as [HA|[HA|(q & iv & H1 & H2 & H3 & H4)]].
    + left; auto.
    + right; left; auto.
    + right; right. exists q, iv. split; [auto|]. split; [auto|]. split; [auto|].
      apply in_or_app. auto.
  - exfalso. apply Hne. rewrite client_calls_app, Hq, Hr. reflexivity.
Qed.

(** The mode-independent form of a refusal that leaves the state alone. *)
Lemma refused_pure E f o p n a w c s e :
  guard_of (e_impl E) o = Some (p, n, a) -> st_prox s p = Some (w, c) ->
  (forall m, (m = MSetattr <-> a = Write) -> do_check E f m c w n s = (Exc e, s, [])) ->
  perform E (S f) o s = (Exc e, s, []).
Proof.
  intros Hg Hp Hc.
  destruct (guarded_lemma E f o p n a w c s Hg Hp) as (m & Hm & _ & HL).
  destruct (HL _ _ _ (Hc m Hm)) as (_ & e' & s' & t2 & HP & _ & HA & HB).
  assert (Hcase : (e_impl E = ImplC \/ is_getattr o = false \/ ~ attribute_error e) \/
                  (e_impl E = ImplPy /\ is_getattr o = true /\ attribute_error e)).
  { destruct (impl_cases E); auto. destruct (is_getattr o); auto.
    destruct e; simpl; auto. }
  destruct Hcase as [H|H].
  - destruct (HA H) as (-> & -> & ->). exact HP.
  - destruct (HB H Hp) as (r2 & Hc2 & He). rewrite (Hc m Hm) in Hc2. injection Hc2 as <- <- <-.
    subst e'. exact HP.
Qed.

(** Names without permission are forbidden, and nothing at all happens. *)
Lemma forbidden_lemma E f o p n a w c g wt s :
  guard_of (e_impl E) o = Some (p, n, a) -> st_prox s p = Some (w, c) ->
  PlainChecker s c g wt -> no_none (table_of g) -> no_none (table_of wt) ->
  table_for a g wt n = None -> (a = Read -> ~ always_available n /\ n <> "__iter__") ->
  perform E (S (S (S f))) o s = (Exc (EForbidden n w), s, []).
Proof.
  intros Hg Hp Hpc Hng Hnw Ht Hav.
  eapply refused_pure; eauto. intros m Hm.
  destruct (do_check E (S (S f)) m c w n s) as [[r0 s1] t1] eqn:Hc.
  eapply access_check in Hc; eauto.
  - destruct a; simpl in *.
    + destruct (Hav eq_refl) as [H1 H2].
      apply ReadCheck_absent in Hc; auto. destruct Hc as (-> & -> & ->). reflexivity.
    + apply WriteCheck_absent in Hc; auto. destruct Hc as (-> & -> & ->). reflexivity.
  - intros Ha ->. destruct (Hav Ha) as [_ H2]. congruence.
Qed.

(** Without an interaction nothing that needs a permission works. *)
Lemma no_interaction_lemma E f o p n a w c g wt s q :
  guard_of (e_impl E) o = Some (p, n, a) -> st_prox s p = Some (w, c) ->
  PlainChecker s c g wt -> no_none (table_of g) -> no_none (table_of wt) ->
  plain_object w ->
  table_for a g wt n = Some q -> q <> PPublic ->
  tl_inter (st_tls s (e_tid E)) = None ->
  perform E (S (S (S f))) o s = (Exc (EAttribute "interaction"), s, []).
Proof.
  intros Hg Hp Hpc Hng Hnw Hw Ht Hq Htl.
  eapply refused_pure; eauto. intros m Hm.
  destruct (do_check E (S (S f)) m c w n s) as [[r0 s1] t1] eqn:Hc.
  eapply access_check in Hc; eauto. destruct a; simpl in *.
  - eapply ReadCheck_no_interaction in Hc; eauto. destruct Hc as (-> & -> & ->). reflexivity.
  - eapply WriteCheck_no_interaction in Hc; eauto. destruct Hc as (-> & -> & ->). reflexivity.
Qed.

(** A simple policy that refuses: asked once, about the wrapped object. *)
Lemma unauthorised_lemma E f o p n a w c g wt s q i x :
  guard_of (e_impl E) o = Some (p, n, a) -> st_prox s p = Some (w, c) ->
  PlainChecker s c g wt -> no_none (table_of g) -> no_none (table_of wt) ->
  plain_object w ->
  table_for a g wt n = Some q ->
  tl_inter (st_tls s (e_tid E)) = Some (VIact i) -> st_inters s i = Some x ->
  ~ simple_grants s x q ->
  perform E (S (S (S f))) o s =
  (Exc (EUnauthorized w n q), s, [EAsk (e_tid E) (VIact i) q w (Some false)]).
Proof.
  intros Hg Hp Hpc Hng Hnw Hw Ht Htl Hi Hno.
  assert (Hq : q <> PPublic).
  { intros ->. apply Hno. right; left; reflexivity. }
  assert (HA : forall r s' t, Asked E s q w r s' t ->
            r = Ok false /\ s' = s /\ t = [EAsk (e_tid E) (VIact i) q w (Some false)]).
  { intros r s' t HA. destruct HA; try congruence.
    - rewrite Htl in H. injection H as <-. simpl in H0. congruence.
    - rewrite Htl in H. injection H as <-. rewrite Hi in H0. injection H0 as <-.
      destruct b; [exfalso; tauto|auto].
    - rewrite Htl in H. injection H as <-. contradiction.
    - rewrite Htl in H. injection H as <-. contradiction. }
  assert (Hck : forall m, (m = MSetattr <-> a = Write) ->
     do_check E (S (S f)) m c w n s =
     (Exc (EUnauthorized w n q), s, [EAsk (e_tid E) (VIact i) q w (Some false)])).
  { intros m Hm.
    destruct (do_check E (S (S f)) m c w n s) as [[r0 s1] t1] eqn:Hc.
    eapply access_check in Hc; eauto. destruct a; simpl in *.
    - destruct Hc; try congruence.
      assert (p0 = q) by congruence. subst p0.
      apply HA in H1. destruct H1 as (-> & -> & ->). reflexivity.
    - destruct Hc; try congruence.
      assert (p0 = q) by congruence. subst p0.
      apply HA in H1. destruct H1 as (-> & -> & ->). reflexivity. }
  destruct (guarded_lemma E (S (S f)) o p n a w c s Hg Hp) as (m & Hm & _ & HL).
  destruct (HL _ _ _ (Hck m Hm)) as (_ & e' & s' & t2 & HP & _ & H1 & _).
  destruct H1 as (-> & -> & ->); [right; right; simpl; tauto|].
  rewrite app_nil_r in HP. exact HP.
Qed.
