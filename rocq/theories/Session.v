(** * Session: what a client can come to hold; what histories preserve. *)

From Coq Require Import List String Bool Arith ZArith Lia.
From Verif Require Import Base Domain CheckerModel ProxyModel MFacts Spec RegSpec CheckFacts
  ProxySpec MediationSpec SessionSpec SafeFacts ProxyFacts ProxyOps ProxyTable ProxyResults.
Import ListNotations.
Open Scope string_scope.
Open Scope m_scope.

(** ** A check that passed was authorised *)

Lemma passed_authorised E f m a c g wt w n s s1 t1 :
  PlainChecker s c g wt -> no_none (table_of g) -> no_none (table_of wt) ->
  (m = MSetattr <-> a = Write) ->
  do_check E f m c w n s = (Ok tt, s1, t1) ->
  Authorised E s a g wt w n t1.
Proof.
  intros Hpc Hg Hwt Hm H.
  assert (Hask : forall q r, Asked E s q w r s1 t1 -> by_answer r w n q = Ok tt ->
    exists iv, tl_inter (st_tls s (e_tid E)) = Some iv /\
               In (EAsk (e_tid E) iv q w (Some true)) t1).
  { intros q r HA Hr. apply Asked_asks in HA.
    destruct HA as [[Ha [e ->]]|(iv & b & Ha & Hb & Hc)]; [discriminate|].
    exists iv. split; auto. destruct b as [[]|]; subst; simpl in *; try discriminate.
    - assert (Hin : In (EAsk (e_tid E) iv q w (Some true)) (asks t1)) by (rewrite Hb; simpl; auto).
      unfold asks in Hin. apply filter_In in Hin. tauto.
    - destruct Hc as [e ->]. discriminate. }
  destruct f as [|f]; [discriminate|].
  destruct a.
  - assert (Hms : m <> MSetattr) by (intros ->; destruct Hm as [Hm _]; specialize (Hm eq_refl); discriminate).
    destruct Hpc as (i & k & -> & Hi & Hk & Hgd & Hwd).
    rewrite do_check_plain with (k := k) in H by auto.
    unfold Authorised. simpl.
    assert (Hcase : table_of g n = Some PPublic \/
        (table_of g n = None /\ (always_available n \/ n = "__iter__")) \/
        (exists q r, table_of g n = Some q /\ q <> PPublic /\ Asked E s q w r s1 t1 /\
                     by_answer r w n q = Ok tt)).
    { unfold Checker_check in H. destruct (cimpl_cases E) as [Hb|Hb]; rewrite Hb in H.
      - unfold CheckerPy_check in H. rewrite bind_get in H. cbv zeta in H.
        unfold get_or_none in H. rewrite Hgd in H. fold (table_of g n) in H.
        destruct (table_of g n) as [q|] eqn:Ht.
        + destruct (perm_eqb_spec q PNone) as [->|Hn]; [exfalso; apply (Hg n); auto|].
          simpl in H. destruct (perm_eqb_spec q PPublic) as [->|Hq]; [auto|].
          apply checkPermission_outcome in H. destruct H as (r0 & HA & Hr).
          right; right. exists q, r0. auto.
        + cbv beta iota delta [perm_eqb negb] in H.
          destruct (mem n available_by_default) eqn:Hav.
          * apply available_iff in Hav. auto.
          * destruct (String.eqb_spec n "__iter__") as [He|He]; [auto|].
            cbv beta iota delta [negb] in H. rewrite bind_ret in H. discriminate.
      - unfold CheckerC_check_int in H. rewrite bind_get, Hgd in H.
        fold (table_of g n) in H. destruct (table_of g n) as [q|] eqn:Ht.
        + destruct (perm_eqb_spec q PPublic) as [->|Hq]; [auto|].
          unfold CheckerC_checkPermission in H.
          apply checkPermission_outcome in H. destruct H as (r0 & HA & Hr).
          right; right. exists q, r0. auto.
        + destruct (is_operator n); [|discriminate].
          destruct (mem n available_by_default) eqn:Hav.
          * apply available_iff in Hav. auto.
          * destruct (String.eqb_spec n "__iter__") as [He|He]; [auto|discriminate]. }
    destruct Hcase as [Hc|[[Hc1 Hc2]|(q & r & H1 & H2 & H3 & H4)]].
    + auto.
    + right; left. auto.
    + right; right. destruct (Hask q r H3 H4) as (iv & Hx & Hy). exists q, iv. auto.
  - assert (m = MSetattr) as -> by tauto.
    eapply check_setattr_exact_lemma in H; eauto.
    eapply access_ok_authorised; eauto.
Qed.

(** ** Clients hold proxies and basic values only *)

Section Viral.
  Variable E : env.
  Variable reg : list (rkey * value).
  Hypothesis BC : basic_closed E reg.
  Definition inv (s : state) : Prop := st_reg s = reg.
  Notation held := (Held E reg).

  Lemma reg_interp fuel :
    safe_interp (fun s s' => inv s -> inv s') (fun _ => True) (fun _ => True)
                True True (interp_n E fuel).
  Proof.
    apply interp_safe with (E := E); auto.
    intros. eapply (bc_registry _ _ BC); eauto.
  Qed.
  Lemma reg_op f k o s r s' t :
    i_op (interp_n E f) k o s = (r, s', t) -> inv s -> inv s'.
  Proof.
    intros H. destruct (reg_interp f) as (Hc & _ & _).
    apply (Hc k o) in H; [apply H|exact I|]. destruct o; simpl; auto.
  Qed.
  Lemma reg_check f m c obj n s r s' t :
    i_check (interp_n E f) m c obj n s = (r, s', t) -> inv s -> inv s'.
  Proof. intros H. destruct (reg_interp f) as (_ & Hc & _). apply Hc in H. apply H. Qed.

  (** [HR m]: from a configured state, [m] keeps the registry and returns a held value. *)
  Definition HI {A} (m : M A) : Prop :=
    forall s r s' t, inv s -> m s = (r, s', t) -> inv s'.
  Definition HR (m : M value) : Prop :=
    forall s v s' t, inv s -> m s = (Ok v, s', t) -> held v.

  Lemma HR_bind {A} (m : M A) k : HI m -> (forall a, HR (k a)) -> HR (bind m k).
  Proof.
    intros H1 H2 s v s' t Hs H. mbind H; [discriminate|].
    eapply H2; [|exact Hf]. eapply H1; eauto.
  Qed.
  Lemma HR_ret v : held v -> HR (ret v).
  Proof. intros Hv s u s' t _ H. unfold ret in H. minj H. auto. Qed.
  Lemma HR_raise e : HR (raise e).
  Proof. intros s u s' t _ H. discriminate. Qed.
  Lemma HI_pget p : HI (pget p).
  Proof.
    intros s r s' t Hs H. unfold pget in H. rewrite bind_get in H.
    destruct (st_prox s p); unfold ret, raise in H; minj H; auto.
  Qed.
  Lemma HI_op f k o : HI (i_op (interp_n E f) k o).
  Proof. intros s r s' t Hs H. eapply reg_op; eauto. Qed.
  Lemma HI_check f m c obj n : HI (i_check (interp_n E f) m c obj n).
  Proof. intros s r s' t Hs H. eapply reg_check; eauto. Qed.

  Lemma HI_of_safe {A} (m : M A) :
    @safe (fun s s' => inv s -> inv s') (fun _ => True) A m -> HI m.
  Proof. intros H s r s' t Hs Hm. apply H in Hm. tauto. Qed.

  Lemma HI_catch {A} (m : M A) h : HI m -> (forall e, HI (h e)) -> HI (catch m h).
  Proof.
    intros H1 H2 s r s' t Hs H. mcatch H; [eapply H1; eauto|].
    eapply H2; [|exact Hf]. eapply H1; eauto.
  Qed.
  Lemma HI_bind {A B} (m : M A) (k : A -> M B) : HI m -> (forall a, HI (k a)) -> HI (bind m k).
  Proof.
    intros H1 H2 s r s' t Hs H. mbind H; [eapply H1; eauto|].
    eapply H2; [|exact Hf]. eapply H1; eauto.
  Qed.
  Lemma HI_ret {A} (a : A) : HI (ret a).
  Proof. intros s r s' t Hs H. unfold ret in H. minj H. auto. Qed.
  Lemma HI_raise {A} e : HI (@raise A e).
  Proof. intros s r s' t Hs H. unfold raise in H. minj H. auto. Qed.

  Lemma held_proxy v : is_proxy v = true -> held v.
  Proof. left. auto. Qed.
  Lemma held_constant v : constant v -> held v.
  Proof. right. left. auto. Qed.
  Lemma HR_new_proxy v c : HR (new_proxy v c).
  Proof. intros s u s' t _ H. apply held_proxy. eapply new_proxy_result; eauto. Qed.

  Lemma HI_getattr_sec f v : HI (getattr_sec_checker (interp_n E f) v).
  Proof.
    apply HI_catch; [apply HI_op|]. intros e. destruct (is_attribute_error e);
      [apply HI_ret|apply HI_raise].
  Qed.

  Lemma HR_select f v s oc s' t :
    inv s -> do_select E f v s = (Ok oc, s', t) -> oc = None -> held v.
  Proof. intros Hs H ->. right. right. exists f, s, s', t. auto. Qed.

  Lemma HR_checker_proxy f c v : HR (checker_proxy E (interp_n E f) c v).
  Proof.
    unfold checker_proxy.
    assert (Hfor : HR (foreign E Probe (CallProxy c v))).
    { intros s u s' t Hs H. unfold foreign in H.
      destruct (e_run E (e_tid E) (CallProxy c v) s) as [r0 s0] eqn:Hr. minj H.
      eapply (bc_checkers _ _ BC); eauto. }
    destruct c; try exact Hfor. clear Hfor.
    destruct (cimpl_cases E) as [Hi|Hi]; rewrite Hi.
    - unfold CheckerPy_proxy. destruct (is_proxy v) eqn:Hv; [apply HR_ret, held_proxy, Hv|].
      apply HR_bind; [apply HI_getattr_sec|]. intros a.
      destruct a; try apply HR_new_proxy.
      intros s u s' t Hs H. mbind H; [discriminate|]. destruct a as [c'|].
      + apply held_proxy. eapply new_proxy_result; eauto.
      + unfold ret in Hf. minj Hf. eapply HR_select; eauto.
    - unfold CheckerC_proxy. destruct (is_proxy v) eqn:Hv; [apply HR_ret, held_proxy, Hv|].
      apply HR_bind.
      { apply HI_catch; [|intros; apply HI_ret]. apply HI_bind; [apply HI_op|].
        intros; apply HI_ret. }
      intros [a|]; [destruct a; try apply HR_new_proxy; apply HR_raise|].
      intros s u s' t Hs H. mbind H; [discriminate|]. destruct a as [c'|].
      + apply held_proxy. eapply new_proxy_result; eauto.
      + unfold ret in Hf. minj Hf. eapply HR_select; [exact Hs| |reflexivity].
        unfold do_select, selectChecker. rewrite Hi. exact Hm.
  Qed.

  Lemma HR_c_proxy_result f p v : HR (c_proxy_result E (interp_n E f) p v).
  Proof.
    unfold c_proxy_result. apply HR_bind; [apply HI_pget|]. intros. apply HR_checker_proxy.
  Qed.

  Lemma HI_c_check f p m n : HI (c_check (interp_n E f) p m n).
  Proof.
    unfold c_check. apply HI_bind; [apply HI_pget|]. intros wc.
    apply HI_bind; [intros s r s' t Hs H; unfold get in H; minj H; auto|].
    intros s. destruct m; apply HI_check.
  Qed.

  Lemma HR_py_check_name f p n meth :
    (forall w, HI (meth w)) -> HR (py_check_name E (interp_n E f) p n meth).
  Proof.
    intros Hm. unfold py_check_name. apply HR_bind; [apply HI_pget|]. intros.
    apply HR_bind; [apply HI_check|]. intros. apply HR_bind; [apply HI_pget|]. intros.
    apply HR_bind; [apply Hm|]. intros. apply HR_checker_proxy.
  Qed.
  Lemma HR_c_check1 f p m n meth :
    (forall w, HI (meth w)) -> HR (c_check1 E (interp_n E f) p m n meth).
  Proof.
    intros Hm. unfold c_check1. apply HR_bind; [apply HI_c_check|]. intros.
    apply HR_bind; [apply HI_pget|]. intros.
    apply HR_bind; [apply Hm|]. intros. apply HR_c_proxy_result.
  Qed.
  Lemma HR_proxy_guard f p m n meth :
    (forall w, HI (meth w)) -> HR (proxy_guard E (interp_n E f) p m n meth).
  Proof.
    intros Hm. unfold proxy_guard. destruct (e_impl E);
      [apply HR_py_check_name|apply HR_c_check1]; auto.
  Qed.

  Lemma HR_richcompare f k p c v : HR (c_richcompare E (interp_n E f) k p c v).
  Proof.
    unfold c_richcompare. apply HR_bind; [apply HI_pget|]. intros wc.
    apply HR_bind; [apply HI_op|]. intros a.
    destruct a; try apply HR_c_proxy_result. apply HR_ret, held_constant. exact I.
  Qed.

  (** Operations on basic values. *)
  Lemma HR_raw o :
    is_proxy (principal_operand o) = false -> Forall held (operands o) ->
    HR (raw E Client o).
  Proof.
    intros Hp Ho s u s' t Hs H. unfold raw in H. mbind H; [discriminate|].
    unfold foreign in Hm. destruct (e_run E (e_tid E) (CallOp o) s) as [r0 s0] eqn:Hr.
    minj Hm.
    assert (Ha : held a) by (eapply (bc_operations _ _ BC); eauto).
    unfold coerce, ret, raise in Hf.
    destruct o; try (minj Hf; exact Ha); try (minj Hf; apply held_constant; exact I);
      destruct a; minj Hf; apply held_constant; exact I.
  Qed.
  Lemma HI_raw k o : HI (raw E k o).
  Proof.
    unfold raw. apply HI_bind.
    - intros s r s' t Hs H. unfold foreign in H.
      destruct (e_run E (e_tid E) (CallOp o) s) as [r0 s0] eqn:Hr. minj H.
      eapply (bc_registry _ _ BC); eauto.
    - intros v. unfold coerce. destruct o; try apply HI_ret; destruct v;
        try apply HI_ret; apply HI_raise.
  Qed.

  Lemma not_held_deco d : ~ held (VDeco d).
  Proof. intros [H|H]; [discriminate|]. eapply (bc_decorators _ _ BC); eauto. Qed.

  Lemma typed_held o u :
    typed_result o u ->
    match o with
    | OStr _ | ORepr _ | OLen _ | OHash _ | OBool _ | OContains _ _
    | OSetattr _ _ _ | ODelattr _ _ | OSetitem _ _ _ | ODelitem _ _ => True
    | _ => False
    end -> held u.
  Proof.
    intros H Ho. apply held_constant. destruct o; try contradiction; simpl in H;
      first [rewrite H | destruct H as [? ->]]; exact I.
  Qed.

  Lemma raw_held o s u s' t :
    inv s -> raw E Client o s = (Ok u, s', t) -> Forall held (operands o) ->
    is_proxy (principal_operand o) = false -> held u.
  Proof. intros Hs H Ho Hp. exact (HR_raw o Hp Ho _ _ _ _ Hs H). Qed.

  Lemma viral_op f o s u s' t :
    inv s -> Forall held (operands o) -> requestable (e_impl E) o ->
    perform E f o s = (Ok u, s', t) -> held u.
  Proof.
    intros Hs Ho Hrq H. destruct f as [|f]; [discriminate|].
    assert (Hty := perform_typed _ _ _ _ _ _ _ H).
    unfold perform in H. simpl i_op in H.
    destruct o;
      try (eapply typed_held; [exact Hty|exact I]);
      simpl in Hrq; simpl in Ho;
      try (assert (Ho1 := Forall_inv Ho));
      unfold run_op in H.
    - (* getattr *)
      destruct v; try (exact (raw_held _ _ _ _ _ Hs H Ho eq_refl));
        try (match type of H with (if ?b then _ else _) _ = _ => destruct b end;
             [discriminate|exact (raw_held _ _ _ _ _ Hs H Ho eq_refl)]);
        try (exfalso; exact (not_held_deco _ Ho1)).
      assert (Hrp : result_protected (e_impl E) (OGetattr (VProxy p) n frame_self)).
      { destruct Hrq as [Hrq|Hrq]; [exact Hrq|]. apply Forall_inv in Hrq. discriminate. }
      simpl in Hrp. unfold proxy_getattr in H.
      destruct (impl_cases E) as [Hi|Hi]; rewrite Hi in *.
      2:{ revert H. apply HR_c_check1; auto. intros. apply HI_op. }
      unfold py_getattr in H. mcatch H.
      + minj Hr. unfold py_getattribute in Hm. cbv zeta in Hm.
        destruct ((String.eqb n "_wrapped" || String.eqb n "_checker") && negb _)%bool eqn:Hin;
          [discriminate|].
        apply pget_inv in Hm. destruct Hm as [[_ Hm]|(w & c & Hp & Hm)]; [discriminate|].
        simpl fst in Hm. simpl snd in Hm.
        destruct (String.eqb_spec n "_wrapped") as [Hn|Hn].
        { exfalso. destruct Hrp as [?|[Hx|Hx]]; [discriminate|apply Hx; left; auto|].
          simpl in Hin. destruct frame_self as [fv|]; [|discriminate].
          destruct (value_eqb_spec fv (VProxy p)); [congruence|discriminate]. }
        destruct (String.eqb_spec n "_checker") as [Hn2|Hn2].
        { exfalso. destruct Hrp as [?|[Hx|Hx]]; [discriminate|apply Hx; right; auto|].
          simpl in Hin. destruct frame_self as [fv|]; [|discriminate].
          destruct (value_eqb_spec fv (VProxy p)); [congruence|discriminate]. }
        revert Hm. apply HR_bind; auto.
        { destruct (mem n py_unchecked_names); [apply HI_ret|apply HI_check]. }
        intros []. apply HR_bind; [apply HI_pget|]. intros wc2.
        apply HR_bind; [apply HI_op|]. intros. apply HR_checker_proxy.
      + exfalso. destruct (is_attribute_error e); [|discriminate].
        unfold py_getattr_fallback in Hf. apply pget_inv in Hf.
        destruct Hf as [[_ Hf]|(w1 & c1 & _ & Hf)]; [discriminate|].
        mbind Hf; discriminate.
    - destruct v; try (exact (raw_held _ _ _ _ _ Hs H Ho eq_refl)).
      revert H. apply HR_proxy_guard; auto. intros; apply HI_op.
    - destruct v; try (exact (raw_held _ _ _ _ _ Hs H Ho eq_refl)).
      revert H. apply HR_proxy_guard; auto. intros; apply HI_op.
    - destruct v; try (exact (raw_held _ _ _ _ _ Hs H Ho eq_refl)).
      destruct Hrq as [Hrq|Hrq]; [|apply Forall_inv in Hrq; discriminate].
      rewrite Hrq in H. revert H. apply HR_py_check_name; auto. intros; apply HI_op.
    - (* binary *)
      assert (Hright : forall p, is_proxy l = false -> r = VProxy p ->
        HR (v <- raw E Client (OBin b l r) ;;
            if value_eqb v VNotImpl then proxy_bin_right E (interp_n E f) Client p b l
            else ret v)).
      { intros p Hl ->. intros s0 v0 s0' t0 Hs0 H0. mbind H0; [discriminate|].
        destruct (value_eqb a VNotImpl).
        - assert (Hs1 : inv s1) by (eapply HI_raw; eauto).
          revert Hf. apply HR_proxy_guard; auto. intros; apply HI_op.
        - unfold ret in Hf. minj Hf.
          exact (HR_raw (OBin b l (VProxy p)) Hl Ho _ _ _ _ Hs0 Hm). }
      destruct l; try (destruct r; try (exact (raw_held _ _ _ _ _ Hs H Ho eq_refl));
                       exact (Hright _ eq_refl eq_refl _ _ _ _ Hs H)).
      revert H. apply HR_proxy_guard; auto. intros; apply HI_op.
    - (* pow *)
      unfold proxy_pow3 in H.
      assert (Hraw : is_proxy a = false ->
        HR (if is_proxy b || is_proxy m then
             v <- raw E Client (OPow3 a b m) ;;
             if value_eqb v VNotImpl then
               match e_impl E with
               | ImplPy => raise (EType "unsupported operand type(s) for pow()")
               | ImplC =>
                match b, m with
                | VProxy p, _ =>
                    c_check1 E (interp_n E f) p MCheck "__rpow__"
                      (fun w => i_op (interp_n E f) Client (OPow3 a w m))
                | _, VProxy p =>
                    c_check1 E (interp_n E f) p MCheck "__3pow__"
                      (fun w => i_op (interp_n E f) Client (OPow3 a b w))
                | _, _ => ret v
                end
               end
             else ret v
           else raw E Client (OPow3 a b m))).
      { intros Ha. destruct (is_proxy b || is_proxy m)%bool.
        2:{ exact (HR_raw (OPow3 a b m) Ha Ho). }
        intros s0 v0 s0' t0 Hs0 H0. mbind H0; [discriminate|].
        assert (Hv := HR_raw (OPow3 a b m) Ha Ho _ _ _ _ Hs0 Hm).
        assert (Hs1 : inv s1) by (eapply HI_raw; eauto).
        destruct (value_eqb a0 VNotImpl); [|unfold ret in Hf; minj Hf; exact Hv].
        revert Hf. revert Hs1. revert Hv. case (e_impl E); intros Hv Hs1 Hf; [discriminate|].
        destruct b; try (destruct m; try (unfold ret in Hf; minj Hf; exact Hv));
          (revert Hf; apply HR_c_check1; auto; intros; apply HI_op). }
      destruct a; try (exact (Hraw eq_refl _ _ _ _ Hs H)).
      revert H. apply HR_proxy_guard; auto. intros; apply HI_op.
    - (* in place *)
      assert (Hright : forall p, is_proxy l = false -> r = VProxy p ->
        HR (v <- raw E Client (OIn b l r) ;;
            if value_eqb v VNotImpl then proxy_bin_right E (interp_n E f) Client p (inop_bin b) l
            else ret v)).
      { intros p Hl ->. intros s0 v0 s0' t0 Hs0 H0. mbind H0; [discriminate|].
        destruct (value_eqb a VNotImpl).
        - assert (Hs1 : inv s1) by (eapply HI_raw; eauto).
          revert Hf. apply HR_proxy_guard; auto. intros; apply HI_op.
        - unfold ret in Hf. minj Hf.
          exact (HR_raw (OIn b l (VProxy p)) Hl Ho _ _ _ _ Hs0 Hm). }
      destruct l; try (destruct r; try (exact (raw_held _ _ _ _ _ Hs H Ho eq_refl));
                       exact (Hright _ eq_refl eq_refl _ _ _ _ Hs H)).
      unfold proxy_inplace in H. destruct (impl_cases E) as [Hi|Hi]; rewrite Hi in H.
      + apply held_proxy. unfold py_check_name_inplace in H. apply pget_inv in H.
        destruct H as [[_ H]|(w & c & Hp & H)]; [discriminate|].
        cbv zeta in H. simpl fst in H. simpl snd in H. mbind H; [discriminate|].
        mbind Hf; [discriminate|]. destruct a0;
          try (mbind Hf0; [discriminate|]; mbind Hf; [discriminate|];
               first [ eapply new_proxy_result; exact Hf0
                     | unfold ret in Hf0; minj Hf0; reflexivity ]).
      + revert H. unfold c_check2i. apply HR_bind; [apply HI_c_check| |exact Hs]. intros.
        apply HR_bind; [apply HI_pget|]. intros. apply HR_bind; [apply HI_op|]. intros.
        apply HR_bind; [apply HI_pget|]. intros. destruct (value_eqb a1 (fst a2)).
        * apply HR_ret, held_proxy. reflexivity.
        * apply HR_c_proxy_result.
    - destruct v; try (exact (raw_held _ _ _ _ _ Hs H Ho eq_refl)).
      revert H. apply HR_proxy_guard; auto. intros; apply HI_op.
    - destruct v; try (exact (raw_held _ _ _ _ _ Hs H Ho eq_refl)).
      revert H. apply HR_proxy_guard; auto. intros; apply HI_op.
    - destruct v; try (exact (raw_held _ _ _ _ _ Hs H Ho eq_refl)).
      revert H. apply HR_proxy_guard; auto. intros; apply HI_op.
    - (* comparison *)
      assert (Hright : forall p, is_proxy v = false -> w = VProxy p -> e_impl E = ImplC ->
        HR (r <- raw E Client (OCmp c v w) ;;
            if value_eqb r VNotImpl then
              match e_impl E with
              | ImplPy => py_compare (interp_n E f) Client p (swap_cmp c) v
              | ImplC => c_richcompare E (interp_n E f) Client p (swap_cmp c) v
              end
            else ret r)).
      { intros p Hl -> Hi. intros s0 v0 s0' t0 Hs0 H0. mbind H0; [discriminate|].
        destruct (value_eqb a VNotImpl).
        - assert (Hs1 : inv s1) by (eapply HI_raw; eauto).
          rewrite Hi in Hf. exact (HR_richcompare _ _ _ _ _ _ _ _ _ Hs1 Hf).
        - unfold ret in Hf. minj Hf.
          exact (HR_raw (OCmp c v (VProxy p)) Hl Ho _ _ _ _ Hs0 Hm). }
      destruct v; try (destruct w; try (exact (raw_held _ _ _ _ _ Hs H Ho eq_refl));
         (destruct Hrq as [Hrq|Hrq]; [|apply Forall_inv_tail, Forall_inv in Hrq; discriminate]);
         exact (Hright _ eq_refl eq_refl Hrq _ _ _ _ Hs H)).
      destruct Hrq as [Hrq|Hrq]; [|apply Forall_inv in Hrq; discriminate].
      rewrite Hrq in H. exact (HR_richcompare _ _ _ _ _ _ _ _ _ Hs H).
    - (* length hint *)
      destruct Hrq as [[]|Hrq]. apply Forall_inv in Hrq.
      destruct v; try discriminate; exact (raw_held _ _ _ _ _ Hs H Ho eq_refl).
  Qed.

  Lemma session_lemma hs s hs' s' :
    Session E reg hs s hs' s' -> inv s -> Forall held hs -> Forall held hs'.
  Proof.
    induction 1 as [hs s|hs s v hs' s' Hc _ IH
                   |hs s o f v s1 t hs' s' Hin Hrq HP _ IH
                   |hs s o f e s1 t hs' s' Hin Hrq HP _ IH|hs s s1 hs' s' Hr _ IH];
      intros Hs Hh; auto.
    - apply IH; auto. constructor; auto. apply held_constant. auto.
    - apply IH.
      + eapply reg_op; eauto.
      + constructor; auto. eapply viral_op; eauto. apply Forall_forall.
        intros x Hx. rewrite Forall_forall in Hh. auto.
    - apply IH; auto. eapply reg_op; eauto.
  Qed.
End Viral.

(** ** Histories *)

(** What every history preserves, for a relation [R] that foreign code, the other
    steps, and the allocations of the package respect. *)
Section Histories.
  Variable R : state -> state -> Prop.
  Variable Env : env -> Prop.
  Variable other : state -> state -> Prop.
  Hypothesis R_refl : forall s, R s s.
  Hypothesis R_trans : forall s1 s2 s3, R s1 s2 -> R s2 s3 -> R s1 s3.
  Hypothesis R_other : forall s s', other s s' -> R s s'.
  Hypothesis R_foreign : forall E c s r s',
    Env E -> e_run E (e_tid E) c s = (r, s') -> R s s'.
  Hypothesis R_new_proxy : forall s v c, is_proxy v = false ->
    R s (set_prox (upd (st_prox s) (st_next s) (Some (v, c))) (set_next (S (st_next s)) s)).
  Hypothesis R_new_checker : forall s k,
    R s (set_chks (upd (st_chks s) (st_next s) (Some k)) (set_next (S (st_next s)) s)).
  Hypothesis R_parent : forall s d x v,
    st_decos s d = Some x ->
    R s (set_decos (upd (st_decos s) d (Some (mkDeco (dc_class x) (dc_obj x) v))) s).

  Notation safeR E := (safe_interp R (fun _ => True) (fun _ => True)
                         (e_impl E = ImplC) (e_impl E = ImplC)).

  Lemma history_interp E f : Env E -> safeR E (interp_n E f).
  Proof.
    intros HE. apply interp_safe with (E := E); auto.
    - intros. eapply R_foreign; eauto.
    - intros s v c [Hv|[Hi Ha]]; [auto|congruence].
    - intros s p x y Hi [Ha|Ha]; congruence.
  Qed.

  Ltac fin L HE :=
    intros H;
    match type of HE with Env ?E =>
      match type of H with context [interp_n E ?f] =>
        eapply (L R (fun _ => True)) in H; [apply H| ..];
        try exact (history_interp E f HE); cbv beta; eauto;
        try (intros ? ? ? [Hv|[Hi Ha]]; [auto|congruence])
      end end.

  Lemma history_ProxyFactory E f obj c s r s' t :
    Env E -> do_ProxyFactory E f obj c s = (r, s', t) -> R s s'.
  Proof. intros HE. unfold do_ProxyFactory. fin @safe_ProxyFactory HE. Qed.
  Lemma history_proxy E f c v s r s' t :
    Env E -> do_proxy E f c v s = (r, s', t) -> R s s'.
  Proof. intros HE. unfold do_proxy. fin @safe_checker_proxy HE. Qed.
  Lemma history_canAccess E f obj n s r s' t :
    Env E -> do_canAccess E f obj n s = (r, s', t) -> R s s'.
  Proof. intros HE. unfold do_canAccess. fin @safe_canAccess HE. Qed.
  Lemma history_canWrite E f obj n s r s' t :
    Env E -> do_canWrite E f obj n s = (r, s', t) -> R s s'.
  Proof. intros HE. unfold do_canWrite. fin @safe_canWrite HE. Qed.

  Lemma history_op E f o s r s' t :
    Env E -> rebinds_nothing (e_impl E) o -> perform E f o s = (r, s', t) -> R s s'.
  Proof.
    intros HE Ho H. destruct (history_interp E f HE) as (Hc & _ & _).
    eapply (Hc Client o I) in H; [apply H|].
    destruct (impl_cases E) as [Hi|Hi]; rewrite Hi in *; destruct o; simpl in *; auto;
      try contradiction; intros Hn; exfalso; apply Ho; exact Hn.
  Qed.

  Lemma history_lemma s s' : History Env other s s' -> R s s'.
  Proof.
    induction 1 as [s|E f o s r s1 t s' HE Ho HP _ IH|E f m c obj n s r s1 t s' HE HP _ IH
      |E f obj c s r s1 t s' HE HP _ IH|E f c v s r s1 t s' HE HP _ IH
      |E f obj n s r s1 t s' HE HP _ IH|E f obj n s r s1 t s' HE HP _ IH|s s1 s' HP _ IH];
      auto; eapply R_trans; try exact IH.
    - eapply history_op; eauto.
    - destruct (history_interp E f HE) as (_ & Hc & _). eapply Hc in HP. apply HP.
    - eapply history_ProxyFactory; eauto.
    - eapply history_proxy; eauto.
    - eapply history_canAccess; eauto.
    - eapply history_canWrite; eauto.
    - auto.
  Qed.
End Histories.

Lemma history_kept (Env : env -> Prop) (other : state -> state -> Prop) s s' :
  (forall E, Env E -> foreign_keeps_proxies E) ->
  (forall s1 s2, other s1 s2 -> proxies_kept s1 s2) ->
  History Env other s s' -> proxies_kept s s'.
Proof.
  intros HF HO. apply history_lemma; auto.
  - apply proxies_kept_refl.
  - apply proxies_kept_trans.
  - intros. eapply HF; eauto.
  - intros s0 v c _. split; simpl; [lia|]. intros p x Hp Hx.
    rewrite upd_ne; [auto|lia].
  - intros s0 k. split; simpl; [lia|]. auto.
  - intros s0 d x v _. split; simpl; auto.
Qed.

Lemma history_wraps (Env : env -> Prop) (other : state -> state -> Prop) s s' p w c :
  (forall E, Env E -> foreign_keeps_proxies E) ->
  (forall s1 s2, other s1 s2 -> proxies_kept s1 s2) ->
  History Env other s s' -> Wraps s p w c -> Wraps s' p w c.
Proof. intros HF HO H. apply kept_wraps. eapply history_kept; eauto. Qed.

Lemma history_flat (Env : env -> Prop) (other : state -> state -> Prop) s s' :
  (forall E, Env E -> foreign_flat E) ->
  (forall s1 s2, other s1 s2 -> flat s1 -> flat s2) ->
  History Env other s s' -> flat s -> flat s'.
Proof.
  intros HF HO H. revert H.
  apply (history_lemma (fun s s' => flat s -> flat s')); auto.
  - intros. eapply HF; eauto.
  - intros s0 v c Hv Hs p w c' Hp. simpl in Hp. destruct (Nat.eq_dec p (st_next s0)) as [->|Hn].
    + rewrite upd_eq in Hp. congruence.
    + rewrite upd_ne in Hp; eauto.
Qed.
