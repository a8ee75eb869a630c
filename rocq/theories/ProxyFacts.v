(** * ProxyFacts: instances of [SafeFacts] and the anatomy of guarded operations. *)

From Coq Require Import List String Bool Arith ZArith Lia.
From Verif Require Import Base Domain CheckerModel ProxyModel MFacts Spec RegSpec CheckFacts
  ProxySpec SafeFacts.
Import ListNotations.
Open Scope string_scope.
Open Scope m_scope.

(** ** Checks, selections and probes never run client code *)

Definition not_client (ev : event) : Prop := is_client_call ev = false.

Lemma client_calls_none t : Forall not_client t -> client_calls t = [].
Proof.
  unfold client_calls. induction 1 as [|ev t H _ IH]; simpl; auto.
  unfold not_client in H. rewrite H. exact IH.
Qed.

Definition quietR (s s' : state) : Prop := True.

Lemma quiet_interp E fuel :
  safe_interp quietR not_client (fun k => k = Probe) True True (interp_n E fuel).
Proof.
  apply interp_safe with (E := E); unfold quietR, not_client; auto.
  intros k c ->. reflexivity.
Qed.

Lemma quiet_check E f m c obj n s r s' t :
  do_check E f m c obj n s = (r, s', t) -> client_calls t = [].
Proof.
  intros H. apply client_calls_none.
  destruct (quiet_interp E f) as (_ & Hc & _). eapply (Hc m c obj n); eauto.
Qed.

Lemma quiet_probe E f o s r s' t :
  i_op (interp_n E f) Probe o s = (r, s', t) -> client_calls t = [].
Proof.
  intros H. apply client_calls_none.
  destruct (quiet_interp E f) as (Ho & _ & _). eapply (Ho Probe o); eauto.
  destruct o; simpl; auto.
Qed.

Section Quiet.
  Variable E : env.
  Local Ltac go L :=
    intros H; apply client_calls_none;
    first [ eapply L with (R := quietR) (P := not_client) (okkind := fun k => k = Probe)
              (allow_in := True) (allow_set := True) (E := E) in H
          | eapply L with (R := quietR) (P := not_client) (okkind := fun k => k = Probe)
              (allow_in := True) (allow_set := True) in H ];
    [ apply H | .. ]; try apply quiet_interp; unfold quietR, not_client; auto;
    try (intros ? ? ->; reflexivity).

  Lemma quiet_proxy f c v s r s' t :
    checker_proxy E (interp_n E f) c v s = (r, s', t) -> client_calls t = [].
  Proof. go @safe_checker_proxy. Qed.
  Lemma quiet_truth f v s r s' t :
    truth (interp_n E f) v s = (r, s', t) -> client_calls t = [].
  Proof. go @safe_truth. Qed.
  Lemma quiet_c_proxy_result f p v s r s' t :
    c_proxy_result E (interp_n E f) p v s = (r, s', t) -> client_calls t = [].
  Proof. go @safe_c_proxy_result. Qed.
  Lemma quiet_select f obj s r s' t :
    do_select E f obj s = (r, s', t) -> client_calls t = [].
  Proof. unfold do_select. go @safe_selectChecker. Qed.
  Lemma quiet_default_c f w s r s' t :
    default_repr_c E (interp_n E f) w s = (r, s', t) -> client_calls t = [].
  Proof. go @safe_default_repr_c. Qed.
  Lemma quiet_default_py f w s r s' t :
    default_repr_py E (interp_n E f) w s = (r, s', t) -> client_calls t = [].
  Proof. go @safe_default_repr_py. Qed.
  Lemma quiet_ProxyFactory f obj c s r s' t :
    do_ProxyFactory E f obj c s = (r, s', t) -> client_calls t = [].
  Proof. unfold do_ProxyFactory. go @safe_ProxyFactory. Qed.
  Lemma quiet_fallback f p n s r s' t :
    py_getattr_fallback (interp_n E f) p n s = (r, s', t) -> client_calls t = [].
  Proof.
    unfold py_getattr_fallback, pget. rewrite bind_assoc, bind_get.
    destruct (st_prox s p) as [x|]; msimpl.
    - intros H. mbind H.
      + eapply quiet_check; eauto.
      + unfold raise in Hf. minj Hf. rewrite app_nil_r. eapply quiet_check; eauto.
    - unfold raise. intros H. minj H. reflexivity.
  Qed.
End Quiet.

(** ** Existing proxies are kept *)

Lemma proxies_kept_refl s : proxies_kept s s.
Proof. split; auto. Qed.
Lemma proxies_kept_trans s1 s2 s3 :
  proxies_kept s1 s2 -> proxies_kept s2 s3 -> proxies_kept s1 s3.
Proof.
  intros [N1 H1] [N2 H2]. split; [lia|]. intros p x Hp Hx. apply H2; [lia|]. auto.
Qed.

Lemma kept_interp E fuel :
  foreign_keeps_proxies E ->
  safe_interp proxies_kept (fun _ => True) (fun _ => True) (e_impl E = ImplC)
              (e_impl E = ImplC) (interp_n E fuel).
Proof.
  intros HF. apply interp_safe with (E := E); auto.
  - apply proxies_kept_refl.
  - apply proxies_kept_trans.
  - intros. eapply HF; eauto.
  - intros s v c _. split; simpl; [lia|]. intros p x Hp Hx.
    rewrite upd_ne; [auto|lia].
  - intros s k. split; simpl; [lia|]. auto.
  - intros s p x y Hi [Ha|Ha]; congruence.
  - intros s d x v _. split; simpl; auto.
Qed.

Lemma kept_check E f m c obj n s r s' t :
  foreign_keeps_proxies E ->
  do_check E f m c obj n s = (r, s', t) -> proxies_kept s s'.
Proof.
  intros HF H. destruct (kept_interp E f HF) as (_ & Hc & _).
  eapply (Hc m c obj n); eauto.
Qed.

Lemma kept_wraps s s' p w c : proxies_kept s s' -> Wraps s p w c -> Wraps s' p w c.
Proof. intros [N K] [Hp Hl]. split; [apply K; auto|lia]. Qed.

(** ** Anatomy *)

Lemma pget_ok {B} p x (f : value * value -> M B) s :
  st_prox s p = Some x -> bind (pget p) f s = f x s.
Proof.
  intros H. unfold pget. rewrite bind_assoc, bind_get, H. apply bind_ret.
Qed.

Lemma pget_none {B} p (f : value * value -> M B) s :
  st_prox s p = None -> bind (pget p) f s = (Exc (EType "dangling proxy"), s, []).
Proof.
  intros H. unfold pget. rewrite bind_assoc, bind_get, H. reflexivity.
Qed.

(** [m] checks first ([chk]), then runs [opn] on [w], then only probes. *)
Definition Steps (chk : M unit) (opn : M value) (p : id) (w c : value) (m : M value)
           (s : state) : Prop :=
  forall r0 s1 t1, chk s = (r0, s1, t1) ->
    match r0 with
    | Exc e => m s = (Exc e, s1, t1)
    | Ok _ =>
        st_prox s1 p = Some (w, c) ->
        forall r1 s2 t2, opn s1 = (r1, s2, t2) ->
        exists r s' t3, m s = (r, s', t1 ++ t2 ++ t3)%list /\ client_calls t3 = [] /\
          (forall e, r1 = Exc e -> r = Exc e /\ s' = s2 /\ t3 = [])
    end.

Section Anatomy.
  Variable E : env.
  Variable f : nat.
  Let I := interp_n E f.

  Ltac fin_exc := eexists _, _, []; rewrite ?app_nil_r; split; [reflexivity|];
                  split; [reflexivity|]; intros ? [= ->]; auto.

  Lemma steps_py_check_name p nm meth s w c :
    st_prox s p = Some (w, c) ->
    Steps (i_check I MCheck c w nm) (meth w) p w c (py_check_name E I p nm meth) s.
  Proof.
    intros Hp r0 s1 t1 Hc. unfold py_check_name. rewrite (pget_ok _ _ _ _ Hp). simpl.
    destruct r0 as [u|e].
    - intros Hp1 r1 s2 t2 Hm. rewrite (bind_ok _ _ _ _ _ _ Hc).
      rewrite (pget_ok _ _ _ _ Hp1). simpl.
      destruct r1 as [v|e].
      + rewrite (bind_ok _ _ _ _ _ _ Hm).
        destruct (checker_proxy E I c v s2) as [[r s'] t3] eqn:Hx.
        exists r, s', t3. split; [reflexivity|]. split.
        * eapply quiet_proxy; eauto.
        * discriminate.
      + rewrite (bind_exc _ _ _ _ _ _ Hm). fin_exc.
    - apply bind_exc. auto.
  Qed.

  Lemma steps_py_nowrap p nm meth s w c :
    st_prox s p = Some (w, c) ->
    Steps (i_check I MCheck c w nm) (meth w) p w c (py_check_name_nowrap I p nm meth) s.
  Proof.
    intros Hp r0 s1 t1 Hc. unfold py_check_name_nowrap. rewrite (pget_ok _ _ _ _ Hp). simpl.
    destruct r0 as [u|e].
    - intros Hp1 r1 s2 t2 Hm. rewrite (bind_ok _ _ _ _ _ _ Hc).
      rewrite (pget_ok _ _ _ _ Hp1). simpl. rewrite Hm.
      exists r1, s2, []. rewrite app_nil_r. auto.
    - apply bind_exc. auto.
  Qed.

  Definition c_mode (s : state) (c : value) (m : chkmode) : chkmode :=
    match m with MSetattr => MSetattr | _ => slot_mode s c m end.

  Lemma c_check_eq p m nm s w c :
    st_prox s p = Some (w, c) ->
    c_check I p m nm s = i_check I (c_mode s c m) c w nm s.
  Proof.
    intros Hp. unfold c_check. rewrite (pget_ok _ _ _ _ Hp). simpl. rewrite bind_get.
    unfold c_mode. destruct m; reflexivity.
  Qed.

  Lemma steps_c_check1 p m nm meth s w c :
    st_prox s p = Some (w, c) ->
    Steps (i_check I (c_mode s c m) c w nm) (meth w) p w c (c_check1 E I p m nm meth) s.
  Proof.
    intros Hp r0 s1 t1 Hc. unfold c_check1.
    rewrite <- (c_check_eq _ _ _ _ _ _ Hp) in Hc.
    destruct r0 as [u|e].
    - intros Hp1 r1 s2 t2 Hm. rewrite (bind_ok _ _ _ _ _ _ Hc).
      rewrite (pget_ok _ _ _ _ Hp1). simpl.
      destruct r1 as [v|e].
      + rewrite (bind_ok _ _ _ _ _ _ Hm).
        destruct (c_proxy_result E I p v s2) as [[r s'] t3] eqn:Hx.
        exists r, s', t3. split; [reflexivity|]. split.
        * eapply quiet_c_proxy_result; eauto.
        * discriminate.
      + rewrite (bind_exc _ _ _ _ _ _ Hm). fin_exc.
    - apply bind_exc. auto.
  Qed.

  Lemma steps_c_check0 p m nm meth s w c :
    st_prox s p = Some (w, c) ->
    Steps (i_check I (c_mode s c m) c w nm) (meth w) p w c (c_check0 I p m nm meth) s.
  Proof.
    intros Hp r0 s1 t1 Hc. unfold c_check0.
    rewrite <- (c_check_eq _ _ _ _ _ _ Hp) in Hc.
    destruct r0 as [u|e].
    - intros Hp1 r1 s2 t2 Hm. rewrite (bind_ok _ _ _ _ _ _ Hc).
      rewrite (pget_ok _ _ _ _ Hp1). simpl. rewrite Hm.
      exists r1, s2, []. rewrite app_nil_r. auto.
    - apply bind_exc. auto.
  Qed.

  Lemma steps_c_check2i p nm meth s w c :
    st_prox s p = Some (w, c) ->
    Steps (i_check I (c_mode s c MCheck) c w nm) (meth w) p w c (c_check2i E I p nm meth) s.
  Proof.
    intros Hp r0 s1 t1 Hc. unfold c_check2i.
    rewrite <- (c_check_eq _ _ _ _ _ _ Hp) in Hc.
    destruct r0 as [u|e].
    - intros Hp1 r1 s2 t2 Hm. rewrite (bind_ok _ _ _ _ _ _ Hc).
      rewrite (pget_ok _ _ _ _ Hp1). simpl.
      destruct r1 as [v|e].
      + rewrite (bind_ok _ _ _ _ _ _ Hm).
        match goal with |- context [bind (pget p) ?k s2] =>
          destruct (bind (pget p) k s2) as [[r s'] t3] eqn:Hx end.
        exists r, s', t3. split; [reflexivity|]. split; [|discriminate].
        destruct (st_prox s2 p) as [x|] eqn:Hp2.
        * rewrite (pget_ok _ _ _ _ Hp2) in Hx.
          destruct (value_eqb v (fst x)).
          -- unfold ret in Hx. minj Hx. reflexivity.
          -- eapply quiet_c_proxy_result; eauto.
        * rewrite (pget_none _ _ _ Hp2) in Hx. minj Hx. reflexivity.
      + rewrite (bind_exc _ _ _ _ _ _ Hm). fin_exc.
    - apply bind_exc. auto.
  Qed.

  (** Post-processing that only probes. *)
  Lemma steps_post chk opn p w c m (k : value -> M value) s :
    (forall v s r s' t, k v s = (r, s', t) -> client_calls t = []) ->
    Steps chk opn p w c m s -> Steps chk opn p w c (bind m k) s.
  Proof.
    intros Hk HS r0 s1 t1 Hc. specialize (HS r0 s1 t1 Hc). destruct r0 as [u|e].
    - intros Hp1 r1 s2 t2 Hm. destruct (HS Hp1 r1 s2 t2 Hm) as (r & s' & t3 & He & Hq & Hx).
      destruct r as [v|e].
      + rewrite (bind_ok _ _ _ _ _ _ He).
        destruct (k v s') as [[r s''] t4] eqn:Hkv. exists r, s'', (t3 ++ t4)%list.
        split; [rewrite !app_assoc; reflexivity|].
        split; [rewrite client_calls_app, Hq; simpl; eauto|].
        intros e He1. destruct (Hx e He1) as [? _]. discriminate.
      + rewrite (bind_exc _ _ _ _ _ _ He). exists (Exc e), s', t3. auto.
    - apply bind_exc. auto.
  Qed.

  Lemma ret_none_quiet (v : value) s r s' t :
    (fun _ : value => ret VNone) v s = (r, s', t) -> client_calls t = [].
  Proof. unfold ret. intros H. minj H. reflexivity. Qed.
End Anatomy.

(** ** Names *)

Lemma c_unop_spec u : c_unop_name u = unary_name u.
Proof. destruct u; reflexivity. Qed.
Lemma py_unop_spec u : py_unop_name u = unary_name u.
Proof. destruct u; reflexivity. Qed.
Lemma py_unopx_spec u : py_unopx_name u = unary_name_x u.
Proof. destruct u; reflexivity. Qed.
Lemma c_binop_spec b : c_binop_name b = binary_name b.
Proof. destruct b; reflexivity. Qed.
Lemma py_binop_spec b : py_binop_name b = binary_name b.
Proof. destruct b; reflexivity. Qed.
Lemma c_rbinop_spec b : c_rbinop_name b = reflected_name b.
Proof. destruct b; reflexivity. Qed.
Lemma py_rbinop_spec b : py_rbinop_name b = reflected_name b.
Proof. destruct b; reflexivity. Qed.
Lemma c_inop_spec b : c_inop_name b = inplace_name b.
Proof. destruct b; reflexivity. Qed.
Lemma py_inop_spec b : py_inop_name b = inplace_name b.
Proof. destruct b; reflexivity. Qed.
Lemma inop_plain_spec b : ("__" ++ slice_3_m2 (py_inop_name b) ++ "__") = plain_of b.
Proof. destruct b; reflexivity. Qed.

Lemma slot_mode_read s c m : m <> MSetattr -> slot_mode s c m <> MSetattr.
Proof.
  intros H. unfold slot_mode. destruct c; auto.
  destruct (st_chks s c) as [k|]; auto. destruct (ck_kind k); discriminate.
Qed.

Lemma c_mode_access s c m a :
  (m = MSetattr <-> a = Write) -> (c_mode s c m = MSetattr <-> a = Write).
Proof.
  unfold c_mode. intros H. destruct m; try exact H;
    (split; [intros Hx; exfalso; revert Hx; apply slot_mode_read; discriminate
            |intros Hx; apply H in Hx; discriminate]).
Qed.

(** The Python proxy's attribute access and in-place operators have a shape of
    their own. *)
Definition irregular (b : impl) (o : op) : Prop :=
  b = ImplPy /\ match o with OGetattr _ _ _ | OIn _ _ _ => True | _ => False end.

Lemma steps_py_setattr E f k p n s w c (opn : M value) :
  st_prox s p = Some (w, c) -> k = opn ->
  Steps (i_check (interp_n E f) MSetattr c w n) opn p w c
        (wc <- pget p ;;
         i_check (interp_n E f) MSetattr (snd wc) (fst wc) n ;;; k) s.
Proof.
  intros Hp -> r0 s1 t1 Hc. rewrite (pget_ok _ _ _ _ Hp). simpl.
  destruct r0 as [u|e].
  - intros Hp1 r1 s2 t2 Hm. rewrite (bind_ok _ _ _ _ _ _ Hc). rewrite Hm.
    exists r1, s2, []. rewrite app_nil_r. auto.
  - apply bind_exc. auto.
Qed.

Lemma guarded_steps E f o p n a w c s :
  guard_of (e_impl E) o = Some (p, n, a) -> st_prox s p = Some (w, c) ->
  ~ irregular (e_impl E) o ->
  exists m, (m = MSetattr <-> a = Write) /\
    Steps (do_check E f m c w n) (perform E f (on_object o None w)) p w c
          (perform E (S f) o) s.
Proof.
  intros Hg Hp Hr. unfold perform, do_check. simpl. unfold run_op.
  destruct (impl_cases E) as [Hi|Hi]; rewrite Hi in *.
  - assert (Hm : MCheck = MSetattr <-> Read = Write) by (split; discriminate).
    assert (Hs : MSetattr = MSetattr <-> Write = Write) by tauto.
    destruct o; simpl in Hg; try discriminate;
      try (exfalso; apply Hr; split; simpl; auto; fail);
      try (destruct v; try discriminate); try (destruct l; try discriminate);
      try (destruct a0; try discriminate).
    + (* setattr *)
      unfold internal_nameb in Hg. simpl. unfold proxy_setattr. rewrite Hi. unfold py_setattr.
      destruct (String.eqb n0 "_wrapped"); [discriminate|].
      destruct (String.eqb n0 "_checker"); [discriminate|]. simpl in Hg.
      injection Hg as -> -> <-. exists MSetattr. split; auto.
      intros r0 s1 t1 Hc. rewrite (pget_ok _ _ _ _ Hp). simpl.
      destruct r0 as [u|e]; [|apply bind_exc; auto].
      intros Hp1 r1 s2 t2 Hm2. rewrite (bind_ok _ _ _ _ _ _ Hc). rewrite Hm2.
      exists r1, s2, []. rewrite app_nil_r. auto.
    + (* delattr *)
      unfold internal_nameb in Hg. simpl. unfold proxy_delattr. rewrite Hi. unfold py_delattr.
      destruct (String.eqb n0 "_wrapped" || String.eqb n0 "_checker")%bool; [discriminate|].
      injection Hg as -> -> <-. exists MSetattr. split; auto.
      intros r0 s1 t1 Hc. rewrite (pget_ok _ _ _ _ Hp). simpl.
      destruct r0 as [u|e]; [|apply bind_exc; auto].
      intros Hp1 r1 s2 t2 Hm2. rewrite (bind_ok _ _ _ _ _ _ Hc). rewrite Hm2.
      exists r1, s2, []. rewrite app_nil_r. auto.
    + injection Hg as -> <- <-. exists MCheck. split; auto. unfold proxy_guard. rewrite Hi.
      exact (steps_py_check_name E f p _ (fun w => i_op (interp_n E f) Client (OCall w args)) s w c Hp).
    + injection Hg as -> <- <-. exists MCheck. split; auto. unfold proxy_guard. rewrite Hi.

      exact (steps_py_check_name E f p _ (fun w => i_op (interp_n E f) Client (OUn u w)) s w c Hp).
    + injection Hg as -> <- <-. exists MCheck. split; auto.

      exact (steps_py_check_name E f p _ (fun w => i_op (interp_n E f) Client (OUnX u w)) s w c Hp).
    + injection Hg as -> <- <-. exists MCheck. split; auto.
      unfold proxy_bin_left, proxy_guard. rewrite Hi.
      exact (steps_py_check_name E f p _ (fun w => i_op (interp_n E f) Client (OBin b w r)) s w c Hp).
    + injection Hg as -> <- <-. exists MCheck. split; auto.
      unfold proxy_pow3, proxy_guard. rewrite Hi.
      exact (steps_py_check_name E f p _ (fun w => i_op (interp_n E f) Client (OPow3 w b m)) s w c Hp).
    + injection Hg as -> <- <-. exists MCheck. split; auto. unfold proxy_guard. rewrite Hi.
      exact (steps_py_check_name E f p _ (fun w => i_op (interp_n E f) Client (OGetitem w k)) s w c Hp).
    + injection Hg as -> <- <-. exists MCheck. split; auto.
      apply steps_post; [apply ret_none_quiet|].
      exact (steps_py_check_name E f p _ (fun w => i_op (interp_n E f) Client (OSetitem w k w0)) s w c Hp).
    + injection Hg as -> <- <-. exists MCheck. split; auto.
      apply steps_post; [apply ret_none_quiet|].
      exact (steps_py_check_name E f p _ (fun w => i_op (interp_n E f) Client (ODelitem w k)) s w c Hp).
    + injection Hg as -> <- <-. exists MCheck. split; auto.
      apply steps_post.
      { intros v s0 r s' t H. mbind H.
        - eapply quiet_truth; eauto.
        - unfold ret in Hf. minj Hf. rewrite app_nil_r. eapply quiet_truth; eauto. }
      exact (steps_py_check_name E f p _ (fun w => i_op (interp_n E f) Client (OContains w k)) s w c Hp).
    + injection Hg as -> <- <-. exists MCheck. split; auto.
      exact (steps_py_nowrap E f p _ (fun w => i_op (interp_n E f) Client (OLen w)) s w c Hp).
    + injection Hg as -> <- <-. exists MCheck. split; auto. unfold proxy_guard. rewrite Hi.
      exact (steps_py_check_name E f p _ (fun w => i_op (interp_n E f) Client (OIter w)) s w c Hp).
    + injection Hg as -> <- <-. exists MCheck. split; auto. unfold proxy_guard. rewrite Hi.
      exact (steps_py_check_name E f p _ (fun w => i_op (interp_n E f) Client (ONext w)) s w c Hp).
  - clear Hr.
    assert (Hm : c_mode s c MCheck = MSetattr <-> Read = Write)
      by (apply c_mode_access; split; discriminate).
    assert (Hn : c_mode s c MGetattr = MSetattr <-> Read = Write)
      by (apply c_mode_access; split; discriminate).
    assert (Hs : c_mode s c MSetattr = MSetattr <-> Write = Write)
      by (apply c_mode_access; tauto).
    destruct o; simpl in Hg; try discriminate;
      try (destruct v; try discriminate); try (destruct l; try discriminate);
      try (destruct a0; try discriminate); injection Hg as -> <- <-;
      unfold proxy_getattr, proxy_setattr, proxy_delattr, proxy_bin_left, proxy_inplace,
        proxy_pow3, proxy_guard; rewrite ?Hi;
      rewrite ?c_unop_spec, ?c_binop_spec, ?c_inop_spec.
    + exists (c_mode s c MGetattr). split; [assumption|].
      exact (steps_c_check1 E f p MGetattr _ (fun w => i_op (interp_n E f) Client (OGetattr w n0 None)) s w c Hp).
    + exists (c_mode s c MSetattr). split; [assumption|].
      exact (steps_c_check0 E f p MSetattr _ (fun w => i_op (interp_n E f) Client (OSetattr w n0 w0)) s w c Hp).
    + exists (c_mode s c MSetattr). split; [assumption|].
      exact (steps_c_check0 E f p MSetattr _ (fun w => i_op (interp_n E f) Client (ODelattr w n0)) s w c Hp).
    + exists (c_mode s c MCheck). split; [assumption|].
      exact (steps_c_check1 E f p MCheck _ (fun w => i_op (interp_n E f) Client (OCall w args)) s w c Hp).
    + exists (c_mode s c MCheck). split; [assumption|].
      exact (steps_c_check1 E f p MCheck _ (fun w => i_op (interp_n E f) Client (OUn u w)) s w c Hp).
    + exists (c_mode s c MCheck). split; [assumption|].
      exact (steps_c_check1 E f p MCheck _ (fun w => i_op (interp_n E f) Client (OBin b w r)) s w c Hp).
    + exists (c_mode s c MCheck). split; [assumption|].
      exact (steps_c_check1 E f p MCheck _ (fun w => i_op (interp_n E f) Client (OPow3 w b m)) s w c Hp).
    + exists (c_mode s c MCheck). split; [assumption|].
      exact (steps_c_check2i E f p _ (fun w => i_op (interp_n E f) Client (OIn b w r)) s w c Hp).
    + exists (c_mode s c MCheck). split; [assumption|].
      exact (steps_c_check1 E f p MCheck _ (fun w => i_op (interp_n E f) Client (OGetitem w k)) s w c Hp).
    + exists (c_mode s c MCheck). split; [assumption|].
      exact (steps_c_check0 E f p MCheck _ (fun w => i_op (interp_n E f) Client (OSetitem w k w0)) s w c Hp).
    + exists (c_mode s c MCheck). split; [assumption|].
      exact (steps_c_check0 E f p MCheck _ (fun w => i_op (interp_n E f) Client (ODelitem w k)) s w c Hp).
    + exists (c_mode s c MCheck). split; [assumption|].
      exact (steps_c_check0 E f p MCheck _ (fun w => i_op (interp_n E f) Client (OContains w k)) s w c Hp).
    + exists (c_mode s c MCheck). split; [assumption|].
      exact (steps_c_check0 E f p MCheck _ (fun w => i_op (interp_n E f) Client (OLen w)) s w c Hp).
    + exists (c_mode s c MCheck). split; [assumption|].
      exact (steps_c_check1 E f p MCheck _ (fun w => i_op (interp_n E f) Client (OIter w)) s w c Hp).
    + exists (c_mode s c MGetattr). split; [assumption|].
      exact (steps_c_check1 E f p MGetattr _ (fun w => i_op (interp_n E f) Client (ONext w)) s w c Hp).
Qed.

(** ** Attribute access on the Python proxy *)

Lemma unchecked_names_spec n : unchecked_read n = mem n py_unchecked_names.
Proof. reflexivity. Qed.

Lemma fallback_eq E f p n s w c r2 s' t :
  st_prox s p = Some (w, c) -> do_check E f MGetattr c w n s = (r2, s', t) ->
  py_getattr_fallback (interp_n E f) p n s =
  (Exc match r2 with Exc e2 => e2 | Ok _ => EAttribute n end, s', t).
Proof.
  intros Hp Hc. unfold py_getattr_fallback. rewrite (pget_ok _ _ _ _ Hp). simpl.
  unfold do_check in Hc. destruct r2 as [u|e].
  - rewrite (bind_ok _ _ _ _ _ _ Hc). unfold raise. rewrite app_nil_r. reflexivity.
  - rewrite (bind_exc _ _ _ _ _ _ Hc). reflexivity.
Qed.

Lemma fallback_exc E f p n s r s' t :
  py_getattr_fallback (interp_n E f) p n s = (r, s', t) -> exists e, r = Exc e.
Proof.
  unfold py_getattr_fallback, pget. rewrite bind_assoc, bind_get.
  destruct (st_prox s p) as [x|]; msimpl.
  - intros H. mbind H; [eauto|]. unfold raise in Hf. minj Hf. eauto.
  - unfold raise. intros H. minj H. eauto.
Qed.

Lemma py_getattr_steps E f p n fr s w c :
  e_impl E = ImplPy -> st_prox s p = Some (w, c) ->
  guard_of ImplPy (OGetattr (VProxy p) n fr) = Some (p, n, Read) ->
  forall r0 s1 t1, do_check E f MGetattr c w n s = (r0, s1, t1) ->
    match r0 with
    | Exc e =>
        (~ attribute_error e ->
         perform E (S f) (OGetattr (VProxy p) n fr) s = (Exc e, s1, t1)) /\
        (attribute_error e -> exists e' s' t2,
         perform E (S f) (OGetattr (VProxy p) n fr) s = (Exc e', s', (t1 ++ t2)%list) /\
         client_calls t2 = [] /\
         (st_prox s1 p = Some (w, c) ->
          exists r2, do_check E f MGetattr c w n s1 = (r2, s', t2) /\
                     e' = match r2 with Exc e2 => e2 | Ok _ => EAttribute n end))
    | Ok _ =>
        st_prox s1 p = Some (w, c) ->
        forall r1 s2 t2,
        perform E f (OGetattr w n (Some (VProxy p))) s1 = (r1, s2, t2) ->
        exists r s' t3,
          perform E (S f) (OGetattr (VProxy p) n fr) s = (r, s', (t1 ++ t2 ++ t3)%list) /\
          client_calls t3 = [] /\
          (forall e, r1 = Exc e -> ~ attribute_error e -> r = Exc e /\ s' = s2 /\ t3 = []) /\
          (forall e, r1 = Exc e -> exists e', r = Exc e') /\
          (forall v, r1 = Ok v -> exists r3 s3 t3',
             do_proxy E f c v s2 = (r3, s3, t3') /\
             match r3 with
             | Ok u => r = Ok u /\ s' = s3 /\ t3 = t3'
             | Exc e3 => exists e', r = Exc e'
             end)
    end.
Proof.
  intros Hi Hp Hg r0 s1 t1 Hc. simpl in Hg. unfold internal_nameb in Hg.
  unfold perform. simpl. unfold proxy_getattr. rewrite Hi. unfold py_getattr, py_getattribute.
  destruct (String.eqb n "_wrapped") eqn:Hw; [discriminate|].
  destruct (String.eqb n "_checker") eqn:Hk; [discriminate|]. cbv zeta.
  replace ((false || false) &&
    negb match fr with Some v => value_eqb v (VProxy p) | None => false end)%bool
    with false by reflexivity.
  rewrite <- unchecked_names_spec. simpl in Hg.
  destruct (unchecked_read n); [discriminate|].
  set (body := bind (pget p) _).
  assert (Hb : body s = bind (i_check (interp_n E f) MGetattr c w n)
     (fun _ => wc2 <- pget p ;;
        val <- i_op (interp_n E f) Client (OGetattr (if (String.eqb n "__reduce__"
                                      || String.eqb n "__reduce_ex__"
                                      || String.eqb n "__module__")%bool
                                   then w else fst wc2) n (Some (VProxy p))) ;;
        checker_proxy E (interp_n E f) c val) s).
  { unfold body. rewrite (pget_ok _ _ _ _ Hp). reflexivity. }
  clearbody body. unfold do_check in Hc.
  destruct r0 as [u|e].
  - intros Hp1 r1 s2 t2 Hm. rewrite (bind_ok _ _ _ _ _ _ Hc) in Hb.
    rewrite (pget_ok _ _ _ _ Hp1) in Hb. simpl in Hb.
    assert (Hw' : (if (String.eqb n "__reduce__" || String.eqb n "__reduce_ex__"
                       || String.eqb n "__module__")%bool then w else w) = w)
      by (destruct (String.eqb n "__reduce__" || _ || _)%bool; reflexivity).
    rewrite Hw' in Hb.
    destruct r1 as [v|e].
    + rewrite (bind_ok _ _ _ _ _ _ Hm) in Hb.
      destruct (checker_proxy E (interp_n E f) c v s2) as [[r3 s3] t3'] eqn:Hx.
      assert (Hq := quiet_proxy _ _ _ _ _ _ _ _ Hx).
      destruct r3 as [v3|e3].
      * rewrite (catch_ok _ _ _ _ _ _ Hb). exists (Ok v3), s3, t3'.
        repeat split; auto; try discriminate. intros v0 [= <-].
        exists (Ok v3), s3, t3'. auto.
      * rewrite (catch_exc _ _ _ _ _ _ Hb). destruct (is_attribute_error e3).
        -- destruct (py_getattr_fallback (interp_n E f) p n s3) as [[r4 s4] t4] eqn:Hf.
           destruct (fallback_exc _ _ _ _ _ _ _ _ Hf) as [e4 ->].
           exists (Exc e4), s4, (t3' ++ t4)%list. rewrite !app_assoc.
           split; [reflexivity|]. rewrite client_calls_app, Hq, (quiet_fallback _ _ _ _ _ _ _ _ Hf).
           split; [reflexivity|]. split; [discriminate|]. split; [discriminate|].
           intros v0 [= <-]. exists (Exc e3), s3, t3'. split; [exact Hx|eauto].
        -- unfold raise. exists (Exc e3), s3, t3'. rewrite app_nil_r.
           split; [reflexivity|]. split; [auto|]. split; [discriminate|].
           split; [discriminate|]. intros v0 [= <-]. exists (Exc e3), s3, t3'.
           split; [exact Hx|eauto].
    + rewrite (bind_exc _ _ _ _ _ _ Hm) in Hb. rewrite (catch_exc _ _ _ _ _ _ Hb).
      destruct (is_attribute_error e) eqn:He.
      * destruct (py_getattr_fallback (interp_n E f) p n s2) as [[r4 s4] t4] eqn:Hf.
        destruct (fallback_exc _ _ _ _ _ _ _ _ Hf) as [e4 ->].
        exists (Exc e4), s4, t4. rewrite app_assoc. split; [reflexivity|].
        split; [eapply quiet_fallback; eauto|]. split.
        { intros e0 [= <-] Hn. apply attribute_error_iff in He. tauto. }
        split; [eauto|discriminate].
      * exists (Exc e), s2, []. unfold raise. rewrite !app_nil_r. split; [reflexivity|].
        split; [reflexivity|]. split; [intros ? [= <-]; auto|]. split; [eauto|discriminate].
  - rewrite (bind_exc _ _ _ _ _ _ Hc) in Hb. split; intros He.
    + rewrite (catch_exc _ _ _ _ _ _ Hb).
      destruct (is_attribute_error e) eqn:Ha; [apply attribute_error_iff in Ha; tauto|].
      unfold raise. rewrite app_nil_r. reflexivity.
    + rewrite (catch_exc _ _ _ _ _ _ Hb).
      apply attribute_error_iff in He. rewrite He.
      destruct (py_getattr_fallback (interp_n E f) p n s1) as [[r4 s4] t4] eqn:Hf.
      destruct (fallback_exc _ _ _ _ _ _ _ _ Hf) as [e4 ->].
      exists e4, s4, t4. split; [reflexivity|]. split; [eapply quiet_fallback; eauto|].
      intros Hp1. destruct (do_check E f MGetattr c w n s1) as [[r2 s5] t5] eqn:Hc2.
      rewrite (fallback_eq _ _ _ _ _ _ _ _ _ _ Hp1 Hc2) in Hf.
      inversion Hf; subst. eauto.
Qed.

(** ** In-place operators of the Python proxy *)

Lemma py_inplace_steps E f p i arg s w c :
  e_impl E = ImplPy -> st_prox s p = Some (w, c) ->
  forall r0 s1 t1, do_check E f MCheck c w (inplace_name i) s = (r0, s1, t1) ->
    match r0 with
    | Exc e => perform E (S f) (OIn i (VProxy p) arg) s = (Exc e, s1, t1)
    | Ok _ =>
        forall r1 s2 t2,
        perform E f (OGetattr w (inplace_name i) (Some (VProxy p))) s1 = (r1, s2, t2) ->
        match r1 with
        | Exc e =>
            ~ attribute_error e ->
            perform E (S f) (OIn i (VProxy p) arg) s = (Exc e, s2, t1 ++ t2)%list
        | Ok m =>
            m <> VNone ->
            forall r2 s3 t3, perform E f (OCall m [arg]) s2 = (r2, s3, t3) ->
            match r2 with
            | Exc e =>
                perform E (S f) (OIn i (VProxy p) arg) s = (Exc e, s3, t1 ++ t2 ++ t3)%list
            | Ok v =>
                forall w' c', st_prox s3 p = Some (w', c') ->
                perform E (S f) (OIn i (VProxy p) arg) s =
                (Ok (VProxy p), set_prox (upd (st_prox s3) p (Some (v, c'))) s3,
                 t1 ++ t2 ++ t3)%list
            end
        end /\
        ((r1 = Ok VNone \/ exists e, r1 = Exc e /\ attribute_error e) ->
         forall r2 s3 t3,
         perform E f (OGetattr w (plain_of i) (Some (VProxy p))) s2 = (r2, s3, t3) ->
         match r2 with
         | Exc e => perform E (S f) (OIn i (VProxy p) arg) s = (Exc e, s3, t1 ++ t2 ++ t3)%list
         | Ok m =>
             forall r3 s4 t4, perform E f (OCall m [arg]) s3 = (r3, s4, t4) ->
             match r3 with
             | Exc e =>
                 perform E (S f) (OIn i (VProxy p) arg) s =
                 (Exc e, s4, t1 ++ t2 ++ t3 ++ t4)%list
             | Ok v =>
                 c <> VNone ->
                 perform E (S f) (OIn i (VProxy p) arg) s =
                 (Ok (VProxy (st_next s4)),
                  set_prox (upd (st_prox s4) (st_next s4) (Some (v, c)))
                           (set_next (S (st_next s4)) s4),
                  t1 ++ t2 ++ t3 ++ t4)%list
             end
         end)
    end.
Proof.
  intros Hi Hp r0 s1 t1 Hc.
  assert (HP : perform E (S f) (OIn i (VProxy p) arg) s =
               py_check_name_inplace (interp_n E f) Client p (py_inop_name i) arg s).
  { unfold perform. simpl. unfold proxy_inplace. rewrite Hi. reflexivity. }
  unfold py_check_name_inplace in HP. rewrite (pget_ok _ _ _ _ Hp) in HP. cbv zeta in HP.
  rewrite py_inop_spec in HP.
  assert (Hpl := inop_plain_spec i). rewrite py_inop_spec in Hpl. rewrite Hpl in HP.
  simpl fst in HP. simpl snd in HP.
  unfold do_check in Hc.
  destruct r0 as [u|e]; [|rewrite HP; apply bind_exc; auto].
  rewrite (bind_ok _ _ _ _ _ _ Hc) in HP.
  intros r1 s2 t2 Hg. unfold perform in Hg. split.
  - destruct r1 as [m|e].
    + intros Hm r2 s3 t3 Hcall. unfold perform in Hcall.
      rewrite (bind_ok _ _ _ _ _ _ (catch_ok _ _ _ _ _ _ Hg)) in HP.
      assert (Hk : forall A (x y : A), match m with VNone => x | _ => y end = y)
        by (intros; destruct m; congruence || reflexivity).
      destruct r2 as [v|e].
      * intros w' c' Hp3.
        destruct m; try congruence;
          rewrite (bind_ok _ _ _ _ _ _ Hcall) in HP; rewrite HP; unfold pset_wrapped;
          rewrite bind_assoc, (pget_ok _ _ _ _ Hp3); rewrite bind_assoc, bind_get;
          rewrite bind_put; simpl; unfold ret; rewrite ?app_nil_r; reflexivity.
      * destruct m; try congruence;
          rewrite (bind_exc _ _ _ _ _ _ Hcall) in HP; rewrite HP; reflexivity.
    + intros Hn. rewrite HP.
      assert (Hx : catch (i_op (interp_n E f) Client
                     (OGetattr w (inplace_name i) (Some (VProxy p))))
                 (fun e0 => if is_attribute_error e0 then ret VNone else raise e0) s1
                 = (Exc e, s2, t2)).
      { rewrite (catch_exc _ _ _ _ _ _ Hg). destruct (is_attribute_error e) eqn:Ha.
        - apply attribute_error_iff in Ha. tauto.
        - unfold raise. rewrite app_nil_r. reflexivity. }
      rewrite (bind_exc _ _ _ _ _ _ Hx). reflexivity.
  - intros Hnone r2 s3 t3 Hg2. unfold perform in Hg2.
    assert (Hx : catch (i_op (interp_n E f) Client
                     (OGetattr w (inplace_name i) (Some (VProxy p))))
                 (fun e0 => if is_attribute_error e0 then ret VNone else raise e0) s1
                 = (Ok VNone, s2, t2)).
    { destruct Hnone as [->|(e & -> & Ha)].
      - apply catch_ok. auto.
      - rewrite (catch_exc _ _ _ _ _ _ Hg). apply attribute_error_iff in Ha. rewrite Ha.
        unfold ret. rewrite app_nil_r. reflexivity. }
    rewrite (bind_ok _ _ _ _ _ _ Hx) in HP.
    destruct r2 as [m|e].
    + rewrite (bind_ok _ _ _ _ _ _ Hg2) in HP. intros r3 s4 t4 Hcall.
      unfold perform in Hcall. destruct r3 as [v|e].
      * rewrite (bind_ok _ _ _ _ _ _ Hcall) in HP. intros Hcn. rewrite HP. unfold new_proxy.
        destruct c; try congruence;
          unfold bind, fresh, get, put, ret; simpl; rewrite !app_nil_r; reflexivity.
      * rewrite (bind_exc _ _ _ _ _ _ Hcall) in HP. rewrite HP. reflexivity.
    + rewrite (bind_exc _ _ _ _ _ _ Hg2) in HP. rewrite HP. reflexivity.
Qed.
