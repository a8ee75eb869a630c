(** * ProxyResults: what operations on proxies return, and what they leave alone. *)

From Coq Require Import List String Bool Arith ZArith Lia.
From Verif Require Import Base Domain CheckerModel ProxyModel MFacts Spec RegSpec CheckFacts
  RegistryFacts RegistryProps ProxySpec SafeFacts ProxyFacts ProxyOps.
Import ListNotations.
Open Scope string_scope.
Open Scope m_scope.

(** ** Results of protected operations *)

Definition Protected E (s : state) (t : list event) (v : value) : Prop :=
  is_proxy v = true \/ constant v \/ needs_none E s t v.

Lemma needs_none_more E s t t' v : incl t t' -> needs_none E s t v -> needs_none E s t' v.
Proof.
  intros Hi [H|[H|[H|(k & f & H)]]]; [left|right; left|right; right; left|do 3 right]; eauto.
Qed.

Lemma protected_more E s t t' v : incl t t' -> Protected E s t v -> Protected E s t' v.
Proof.
  intros Hi [H|[H|H]]; [left|right; left|right; right]; eauto using needs_none_more.
Qed.

Lemma value_eqb_eq a b : value_eqb a b = true -> a = b.
Proof. destruct (value_eqb_spec a b); [auto|discriminate]. Qed.

(** A call that returns ran some application code with these arguments. *)
Lemma call_logged E f : forall k v args s u s' t,
  i_op (interp_n E f) k (OCall v args) s = (Ok u, s', t) ->
  exists k' c, In (ECall k' (e_tid E) (CallOp (OCall c args))) t.
Proof.
  induction f as [|f IH]; intros k v args s u s' t H; [discriminate|].
  simpl in H. destruct v;
    try (rewrite raw_call_eq in H; injection H as _ _ <-; do 2 eexists; left; reflexivity).
  unfold proxy_guard in H. destruct (e_impl E).
  - unfold py_check_name in H. mbind H; [discriminate|]. mbind Hf; [discriminate|].
    mbind Hf0; [discriminate|]. mbind Hf; [discriminate|].
    apply IH in Hm2. destruct Hm2 as (k' & c & Hin). exists k', c. subst.
    rewrite !in_app_iff. auto 10.
  - unfold c_check1 in H. mbind H; [discriminate|]. mbind Hf; [discriminate|].
    mbind Hf0; [discriminate|].
    apply IH in Hm1. destruct Hm1 as (k' & c & Hin). exists k', c. subst.
    rewrite !in_app_iff. auto 10.
Qed.

Lemma loop_none E f : forall c v s s' t,
  i_select (interp_n E f) c v s = (Ok None, s', t) -> needs_none E s' t v.
Proof.
  induction f as [|f IH]; intros c v s s' t H; [discriminate|].
  simpl in H. unfold select_loop in H. rewrite bind_get in H.
  destruct (is_Checker E s c); [discriminate|].
  mbind H; [discriminate|].
  destruct (value_eqb a VNoProxy || value_eqb a VNone)%bool eqn:Ha.
  - minj Hf.
    assert (Hx : a = VNone \/ a = VNoProxy).
    { apply orb_true_iff in Ha. destruct Ha as [Ha|Ha]; apply value_eqb_eq in Ha; auto. }
    unfold call_factory in Hm. destruct c; try discriminate;
      try (apply call_logged in Hm; destruct Hm as (k' & c' & Hin); do 3 right;
           exists k', c'; rewrite app_nil_r; exact Hin).
    rewrite bind_get in Hm. destruct v; try (minj Hm; destruct Hx; discriminate).
    destruct (dget rkey_eqb (st_reg s) (KMod m)) as [x|] eqn:Hd;
      minj Hm; [|destruct Hx; discriminate].
    right; right; left. exists m, a. repeat split; auto.
  - apply IH in Hf. subst. eapply needs_none_more; [|exact Hf]. apply incl_appr, incl_refl.
Qed.

Lemma select_none E f v s s' t :
  do_select E f v s = (Ok None, s', t) -> needs_none E s' t v.
Proof.
  unfold do_select, selectChecker, selectCheckerPy, selectCheckerC.
  assert (Hreg : value_eqb (registered E s v) VNoProxy = true -> registered_for E s v = Some VNoProxy).
  { intros H. apply value_eqb_eq in H. rewrite registered_spec in H.
    destruct (registered_for E s v); [congruence|discriminate]. }
  destruct (cimpl_cases E) as [Hi|Hi]; rewrite Hi, bind_get;
    destruct (value_eqb (registered E s v) VNoProxy) eqn:Hv.
  - intros H. minj H. left. auto.
  - apply loop_none.
  - intros H. minj H. left. auto.
  - destruct (_ && _)%bool eqn:Hb; [|apply loop_none].
    apply andb_true_iff in Hb. destruct Hb as [Hd Hx]. apply value_eqb_eq in Hd.
    intros H. minj H. right; left. rewrite type_of_spec in Hx. split; [auto|]. split; [auto|].
    rewrite registered_spec in Hd. destruct (registered_for E s' v); auto. right.
    rewrite Hd. reflexivity.
Qed.

Lemma select_c_eq E f v :
  e_cimpl E = ImplC -> selectCheckerC E (interp_n E f) v = do_select E f v.
Proof. intros Hi. unfold do_select, selectChecker. rewrite Hi. reflexivity. Qed.

Lemma new_proxy_result v c s u s' t : new_proxy v c s = (Ok u, s', t) -> is_proxy u = true.
Proof.
  intros H. unfold new_proxy in H.
  destruct c; try (unfold raise in H; discriminate);
    unfold bind, fresh, get, put, ret in H; simpl in H; minj H; reflexivity.
Qed.

Lemma proxy_result E f i v s u s' t :
  checker_proxy E (interp_n E f) (VChk i) v s = (Ok u, s', t) ->
  is_proxy u = true \/ (u = v /\ needs_none E s' t v).
Proof.
  unfold checker_proxy. destruct (cimpl_cases E) as [Hi|Hi]; rewrite Hi.
  - unfold CheckerPy_proxy. destruct (is_proxy v) eqn:Hv.
    { unfold ret. intros H. minj H. auto. }
    intros H. mbind H; [discriminate|].
    destruct a; try (left; eapply new_proxy_result; eauto; fail).
    mbind Hf; [discriminate|]. destruct a as [c'|].
    + left; eapply new_proxy_result; eauto.
    + unfold ret in Hf0. minj Hf0. right. split; [auto|].
      apply select_none in Hm0. eapply needs_none_more; [|exact Hm0].
      rewrite app_nil_r. apply incl_appr, incl_refl.
  - unfold CheckerC_proxy. destruct (is_proxy v) eqn:Hv.
    { unfold ret. intros H. minj H. auto. }
    intros H. mbind H; [discriminate|].
    destruct a as [c|].
    + destruct c; try (left; eapply new_proxy_result; eauto; fail). discriminate.
    + mbind Hf; [discriminate|]. destruct a as [c'|].
      * left; eapply new_proxy_result; eauto.
      * unfold ret in Hf0. minj Hf0. right. split; [auto|].
        rewrite (select_c_eq _ _ _ Hi) in Hm0.
        apply select_none in Hm0. eapply needs_none_more; [|exact Hm0].
        rewrite app_nil_r. apply incl_appr, incl_refl.
Qed.

Lemma proxy_protected E f i v s u s' t :
  checker_proxy E (interp_n E f) (VChk i) v s = (Ok u, s', t) -> Protected E s' t u.
Proof.
  intros H. apply proxy_result in H. destruct H as [H|[-> H]]; [left|right; right]; auto.
Qed.

(** Operations with a fixed type of result. *)
Definition typed_result (o : op) (v : value) : Prop :=
  match o with
  | OStr _ | ORepr _ => exists x, v = VStr x
  | OLen _ | OHash _ => exists z, v = VInt z
  | OBool _ | OContains _ _ => exists b, v = VBool b
  | OSetattr _ _ _ | ODelattr _ _ | OSetitem _ _ _ | ODelitem _ _ => v = VNone
  | _ => True
  end.

Lemma coerce_typed o v s u s' t : coerce o v s = (Ok u, s', t) -> typed_result o u.
Proof.
  unfold coerce, ret, raise. destruct o; simpl; auto;
    try (intros H; minj H; auto; fail); destruct v; intros H; minj H; eauto.
Qed.

Lemma raw_typed E k o s u s' t : raw E k o s = (Ok u, s', t) -> typed_result o u.
Proof. unfold raw. intros H. mbind H; [discriminate|]. eapply coerce_typed; eauto. Qed.

Lemma typed_any o : (forall v, typed_result o v) ->
  forall (m : M value) s u s' t, m s = (Ok u, s', t) -> typed_result o u.
Proof. auto. Qed.

Lemma pget_inv {B} p (k : value * value -> M B) s r s' t :
  bind (pget p) k s = (r, s', t) ->
  (st_prox s p = None /\ r = Exc (EType "dangling proxy")) \/
  (exists w c, st_prox s p = Some (w, c) /\ k (w, c) s = (r, s', t)).
Proof.
  destruct (st_prox s p) as [[w c]|] eqn:Hp.
  - rewrite (pget_ok _ _ _ _ Hp). right. eauto.
  - rewrite (pget_none _ _ _ Hp). intros H. minj H. auto.
Qed.

Lemma interp_typed E fuel : forall k o s u s' t,
  i_op (interp_n E fuel) k o s = (Ok u, s', t) -> typed_result o u.
Proof.
  induction fuel as [|f IH]; intros k o s u s' t H; [discriminate|].
  simpl in H. destruct o; simpl; auto; simpl in H.
  - (* setattr *)
    destruct v; try (eapply (raw_typed _ _ _ _ _ _ _ H); fail).
    + unfold proxy_setattr in H. destruct (e_impl E).
      * unfold py_setattr in H. destruct (String.eqb n "_wrapped").
        { mbind H; [discriminate|]. unfold ret in Hf. minj Hf. auto. }
        destruct (String.eqb n "_checker").
        { mbind H; [discriminate|]. unfold ret in Hf. minj Hf. auto. }
        apply pget_inv in H. destruct H as [[_ H]|(w0 & c & _ & H)]; [discriminate|].
        mbind H; [discriminate|]. apply IH in Hf. exact Hf.
      * unfold c_check0 in H. mbind H; [discriminate|].
        apply pget_inv in Hf. destruct Hf as [[_ Hf]|(w0 & c & _ & Hf)]; [discriminate|].
        apply IH in Hf. exact Hf.
    + unfold deco_setattr in H. destruct (String.eqb n "__Security_checker__"); [discriminate|].
      rewrite bind_get in H. destruct (st_decos s d); [|discriminate].
      destruct (_ && _)%bool.
      * rewrite bind_put in H. unfold ret in H. minj H. auto.
      * eapply (raw_typed _ _ _ _ _ _ _ H).
  - (* delattr *)
    destruct v; try (eapply (raw_typed _ _ _ _ _ _ _ H); fail).
    unfold proxy_delattr in H. destruct (e_impl E).
    + unfold py_delattr in H. destruct (_ || _)%bool; [discriminate|].
      apply pget_inv in H. destruct H as [[_ H]|(w0 & c & _ & H)]; [discriminate|].
      mbind H; [discriminate|]. apply IH in Hf. exact Hf.
    + unfold c_check0 in H. mbind H; [discriminate|].
      apply pget_inv in Hf. destruct Hf as [[_ Hf]|(w0 & c & _ & Hf)]; [discriminate|].
      apply IH in Hf. exact Hf.
  - (* setitem *)
    destruct v; try (eapply (raw_typed _ _ _ _ _ _ _ H); fail).
    destruct (e_impl E).
    + mbind H; [discriminate|]. unfold ret in Hf. minj Hf. auto.
    + unfold c_check0 in H. mbind H; [discriminate|].
      apply pget_inv in Hf. destruct Hf as [[_ Hf]|(w0 & c & _ & Hf)]; [discriminate|].
      apply IH in Hf. exact Hf.
  - (* delitem *)
    destruct v; try (eapply (raw_typed _ _ _ _ _ _ _ H); fail).
    destruct (e_impl E).
    + mbind H; [discriminate|]. unfold ret in Hf. minj Hf. auto.
    + unfold c_check0 in H. mbind H; [discriminate|].
      apply pget_inv in Hf. destruct Hf as [[_ Hf]|(w0 & c & _ & Hf)]; [discriminate|].
      apply IH in Hf. exact Hf.
  - (* contains *)
    destruct v; try (eapply (raw_typed _ _ _ _ _ _ _ H); fail).
    destruct (e_impl E).
    + mbind H; [discriminate|]. mbind Hf; [discriminate|]. unfold ret in Hf0. minj Hf0. eauto.
    + unfold c_check0 in H. mbind H; [discriminate|].
      apply pget_inv in Hf. destruct Hf as [[_ Hf]|(w0 & c & _ & Hf)]; [discriminate|].
      apply IH in Hf. exact Hf.
  - (* len *)
    destruct v; try (eapply (raw_typed _ _ _ _ _ _ _ H); fail).
    destruct (e_impl E).
    + unfold py_check_name_nowrap in H. apply pget_inv in H.
      destruct H as [[_ H]|(w0 & c & _ & H)]; [discriminate|].
      mbind H; [discriminate|]. apply pget_inv in Hf.
      destruct Hf as [[_ Hf]|(w1 & c1 & _ & Hf)]; [discriminate|].
      apply IH in Hf. exact Hf.
    + unfold c_check0 in H. mbind H; [discriminate|].
      apply pget_inv in Hf. destruct Hf as [[_ Hf]|(w0 & c & _ & Hf)]; [discriminate|].
      apply IH in Hf. exact Hf.
  - (* hash *)
    destruct v; try (eapply (raw_typed _ _ _ _ _ _ _ H); fail).
    unfold py_hash in H.
    destruct (e_impl E); apply pget_inv in H; destruct H as [[_ H]|(w0 & c & _ & H)];
      try discriminate; apply IH in H; exact H.
  - (* bool *)
    destruct v; try (eapply (raw_typed _ _ _ _ _ _ _ H); fail).
    unfold py_bool in H.
    destruct (e_impl E); apply pget_inv in H; destruct H as [[_ H]|(w0 & c & _ & H)];
      try discriminate; apply IH in H; exact H.
  - (* str *)
    destruct v; try (eapply (raw_typed _ _ _ _ _ _ _ H); fail).
    mbind H; [discriminate|]. unfold ret, raise in Hf. destruct a; minj Hf; eauto.
  - (* repr *)
    destruct v; try (eapply (raw_typed _ _ _ _ _ _ _ H); fail).
    mbind H; [discriminate|]. unfold ret, raise in Hf. destruct a; minj Hf; eauto.
Qed.

Lemma perform_typed E f o s u s' t :
  perform E f o s = (Ok u, s', t) -> typed_result o u.
Proof. apply interp_typed. Qed.

(** ** The result of a guarded operation *)

Lemma kept_op E f k o s r s' t :
  foreign_keeps_proxies E -> okop (e_impl E = ImplC) (e_impl E = ImplC) o ->
  i_op (interp_n E f) k o s = (r, s', t) -> proxies_kept s s'.
Proof.
  intros HF Ho H. destruct (kept_interp E f HF) as (Hc & _ & _).
  eapply (Hc k o); eauto.
Qed.

Ltac later H := eapply protected_more; [|exact H]; subst; repeat apply incl_appr; apply incl_refl.

Lemma check_name_protected E f p nm meth s i w u s' t :
  st_prox s p = Some (w, VChk i) ->
  py_check_name E (interp_n E f) p nm meth s = (Ok u, s', t) -> Protected E s' t u.
Proof.
  intros Hp H. unfold py_check_name in H. rewrite (pget_ok _ _ _ _ Hp) in H.
  mbind H; [discriminate|]. apply pget_inv in Hf.
  destruct Hf as [[_ Hf]|(w1 & c1 & _ & Hf)]; [discriminate|].
  mbind Hf; [discriminate|]. apply proxy_protected in Hf0. later Hf0.
Qed.

Lemma c_check_kept E f p m nm s r s' t x :
  foreign_keeps_proxies E -> st_prox s p = Some x ->
  c_check (interp_n E f) p m nm s = (r, s', t) -> proxies_kept s s'.
Proof.
  intros HF Hp H. destruct x as [w c]. rewrite (c_check_eq _ _ _ _ _ _ _ _ Hp) in H.
  eapply kept_check; eauto.
Qed.

Lemma c_result_protected E f p v s i w u s' t :
  st_prox s p = Some (w, VChk i) ->
  c_proxy_result E (interp_n E f) p v s = (Ok u, s', t) -> Protected E s' t u.
Proof.
  intros Hp H. unfold c_proxy_result in H. rewrite (pget_ok _ _ _ _ Hp) in H.
  eapply proxy_protected; eauto.
Qed.

Lemma check1_protected E f p m nm meth s i w u s' t :
  foreign_keeps_proxies E -> Wraps s p w (VChk i) ->
  (forall s1 r s2 t2 x, meth x s1 = (r, s2, t2) -> proxies_kept s1 s2) ->
  c_check1 E (interp_n E f) p m nm meth s = (Ok u, s', t) -> Protected E s' t u.
Proof.
  intros HF HW Hk H. unfold c_check1 in H. mbind H; [discriminate|].
  assert (K1 := c_check_kept _ _ _ _ _ _ _ _ _ _ HF (proj1 HW) Hm).
  apply (kept_wraps _ _ _ _ _ K1) in HW.
  rewrite (pget_ok _ _ _ _ (proj1 HW)) in Hf. mbind Hf; [discriminate|].
  apply Hk in Hm0. apply (kept_wraps _ _ _ _ _ Hm0) in HW.
  apply (c_result_protected _ _ _ _ _ _ _ _ _ _ (proj1 HW)) in Hf0. later Hf0.
Qed.

Lemma typed_protected E o u s' t :
  typed_result o u ->
  match o with
  | OStr _ | ORepr _ | OLen _ | OHash _ | OBool _ | OContains _ _
  | OSetattr _ _ _ | ODelattr _ _ | OSetitem _ _ _ | ODelitem _ _ => True
  | _ => False
  end -> Protected E s' t u.
Proof.
  intros H Ho. right; left. destruct o; try contradiction; simpl in H;
    first [rewrite H | destruct H as [? ->]]; exact I.
Qed.

Lemma guard_protected E f p m nm (o : value -> op) s i w u s' t :
  foreign_keeps_proxies E -> Wraps s p w (VChk i) ->
  (forall x, okop (e_impl E = ImplC) (e_impl E = ImplC) (o x)) ->
  proxy_guard E (interp_n E f) p m nm (fun w => i_op (interp_n E f) Client (o w)) s =
    (Ok u, s', t) -> Protected E s' t u.
Proof.
  intros HF HW Ho H. unfold proxy_guard in H.
  destruct (impl_cases E) as [Hi|Hi]; rewrite Hi in H.
  - eapply check_name_protected; [exact (proj1 HW)|eauto].
  - eapply check1_protected; eauto. intros. simpl in H0. eapply kept_op; eauto.
Qed.

(** What any operation on a proxy returns is protected, except where
    [result_protected] says so. *)
Lemma result_lemma E f o p i w s u s' t :
  foreign_keeps_proxies E -> principal_operand o = VProxy p -> Wraps s p w (VChk i) ->
  result_protected (e_impl E) o ->
  perform E (S f) o s = (Ok u, s', t) -> Protected E s' t u.
Proof.
  intros HF Hpo HW Hrp H. assert (Hty := perform_typed _ _ _ _ _ _ _ H).
  assert (Hp := proj1 HW).
  unfold perform in H. simpl i_op in H.
  destruct o; simpl in Hpo; subst; simpl in Hrp;
    try (eapply typed_protected; [exact Hty|exact I]);
    unfold run_op in H;
    try (eapply guard_protected with (4 := H); eauto; intros; exact I).
  - (* getattr *)
    unfold proxy_getattr in H. destruct (impl_cases E) as [Hi|Hi]; rewrite Hi in *.
    + unfold py_getattr in H. mcatch H.
      * minj Hr. unfold py_getattribute in Hm. cbv zeta in Hm.
        destruct ((String.eqb n "_wrapped" || String.eqb n "_checker") && negb _)%bool eqn:Hin;
          [discriminate|].
        rewrite (pget_ok _ _ _ _ Hp) in Hm. simpl fst in Hm. simpl snd in Hm.
        destruct (String.eqb_spec n "_wrapped") as [Hn|Hn].
        { exfalso. destruct Hrp as [?|[Hx|Hx]]; [discriminate|apply Hx; left; auto|].
          simpl in Hin. destruct frame_self as [fv|]; [|discriminate].
          destruct (value_eqb_spec fv (VProxy p)); [congruence|discriminate]. }
        destruct (String.eqb_spec n "_checker") as [Hn2|Hn2].
        { exfalso. destruct Hrp as [?|[Hx|Hx]]; [discriminate|apply Hx; right; auto|].
          simpl in Hin. destruct frame_self as [fv|]; [|discriminate].
          destruct (value_eqb_spec fv (VProxy p)); [congruence|discriminate]. }
        mbind Hm; [discriminate|]. apply pget_inv in Hf.
        destruct Hf as [[_ Hf]|(w1 & c1 & _ & Hf)]; [discriminate|].
        mbind Hf; [discriminate|]. apply proxy_protected in Hf0. later Hf0.
      * exfalso. destruct (is_attribute_error e); [|discriminate].
        unfold py_getattr_fallback in Hf. apply pget_inv in Hf.
        destruct Hf as [[_ Hf]|(w1 & c1 & _ & Hf)]; [discriminate|].
        mbind Hf; discriminate.
    + eapply check1_protected; eauto. intros s1 r s2 t2 x Hx. eapply kept_op; [exact HF| |exact Hx].
      exact I.
  - (* complex, index *)
    rewrite Hrp in H. eapply check_name_protected; eauto.
  - (* in place *)
    unfold proxy_inplace in H. destruct (impl_cases E) as [Hi|Hi]; rewrite Hi in *.
    + left. unfold py_check_name_inplace in H. rewrite (pget_ok _ _ _ _ Hp) in H.
      cbv zeta in H. simpl fst in H. simpl snd in H. mbind H; [discriminate|].
      mbind Hf; [discriminate|]. destruct a0;
        try (mbind Hf0; [discriminate|]; mbind Hf; [discriminate|];
             first [ eapply new_proxy_result; exact Hf0
                   | unfold ret in Hf0; minj Hf0; reflexivity ]).
    + unfold c_check2i in H. mbind H; [discriminate|].
      assert (K1 := c_check_kept _ _ _ _ _ _ _ _ _ _ HF Hp Hm).
      apply (kept_wraps _ _ _ _ _ K1) in HW.
      rewrite (pget_ok _ _ _ _ (proj1 HW)) in Hf. mbind Hf; [discriminate|].
      eapply kept_op in Hm0; [|exact HF|exact Hi]. rename Hm0 into K2.
      apply (kept_wraps _ _ _ _ _ K2) in HW.
      rewrite (pget_ok _ _ _ _ (proj1 HW)) in Hf0.
      destruct (value_eqb a0 (fst (w, VChk i))).
      * unfold ret in Hf0. minj Hf0. left. reflexivity.
      * apply (c_result_protected _ _ _ _ _ _ _ _ _ _ (proj1 HW)) in Hf0. later Hf0.
  - (* comparison *)
    rewrite Hrp in H. unfold c_richcompare in H. rewrite (pget_ok _ _ _ _ Hp) in H.
    mbind H; [discriminate|].
    assert (K2 : proxies_kept s s1).
    { eapply kept_op; [exact HF| |exact Hm]. exact I. }
    apply (kept_wraps _ _ _ _ _ K2) in HW.
    destruct a; try (apply (c_result_protected _ _ _ _ _ _ _ _ _ _ (proj1 HW)) in Hf; later Hf).
    unfold ret in Hf. minj Hf. right; left. exact I.
  - contradiction.
Qed.
