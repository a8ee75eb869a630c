(** * SafeFacts: a small logic for "whatever the interpreter does".

    [safe R P m]: running [m] relates the states before and after by [R], and every
    event it emits satisfies [P].  [interp_safe] establishes this for all operations,
    checks and selections of the model at once. *)

From Coq Require Import List String Bool Arith ZArith Lia.
From Verif Require Import Base Domain CheckerModel ProxyModel MFacts.
Import ListNotations.
Open Scope string_scope.
Open Scope m_scope.

Lemma impl_cases E : {e_impl E = ImplPy} + {e_impl E = ImplC}.
Proof. destruct (e_impl E); auto. Qed.
Lemma cimpl_cases E : {e_cimpl E = ImplPy} + {e_cimpl E = ImplC}.
Proof. destruct (e_cimpl E); auto. Qed.

Section Safe.
  Variable R : state -> state -> Prop.
  Variable P : event -> Prop.
  Hypothesis R_refl : forall s, R s s.
  Hypothesis R_trans : forall s1 s2 s3, R s1 s2 -> R s2 s3 -> R s1 s3.

  Definition safe {A} (m : M A) : Prop :=
    forall s r s' t, m s = (r, s', t) -> R s s' /\ Forall P t.

  Lemma safe_ret {A} (a : A) : safe (ret a).
  Proof. intros s r s' t H. minj H. auto. Qed.
  Lemma safe_raise {A} e : @safe A (raise e).
  Proof. intros s r s' t H. minj H. auto. Qed.
  Lemma safe_get : safe get.
  Proof. intros s r s' t H. minj H. auto. Qed.
  Lemma safe_emit ev : P ev -> safe (emit ev).
  Proof. intros Hp s r s' t H. minj H. auto. Qed.

  Lemma safe_bind {A B} (m : M A) (f : A -> M B) :
    safe m -> (forall a, safe (f a)) -> safe (bind m f).
  Proof.
    intros Hm Hf s r s' t H. mbind H.
    - eapply Hm; eauto.
    - destruct (Hm _ _ _ _ Hm0) as [HR1 HP1]. destruct (Hf _ _ _ _ _ Hf0) as [HR2 HP2].
      subst t. split; [eauto|]. apply Forall_app. auto.
  Qed.

  Lemma safe_catch {A} (m : M A) (h : exn -> M A) :
    safe m -> (forall e, safe (h e)) -> safe (catch m h).
  Proof.
    intros Hm Hf s r s' t H. mcatch H.
    - eapply Hm; eauto.
    - destruct (Hm _ _ _ _ Hm0) as [HR1 HP1]. destruct (Hf _ _ _ _ _ Hf0) as [HR2 HP2].
      subst t. split; [eauto|]. apply Forall_app. auto.
  Qed.

  Section Interp.
    Variable E : env.
    (** Which kinds of calls are under consideration, and whether the operations that
        can rebind a Python proxy are. *)
    Variable okkind : kind -> Prop.
    Variables allow_in allow_set : Prop.
    Hypothesis ok_probe : okkind Probe.

    Hypothesis R_foreign : forall c s r s',
      e_run E (e_tid E) c s = (r, s') -> R s s'.
    Hypothesis P_call : forall k c, okkind k -> P (ECall k (e_tid E) c).
    Hypothesis P_ask : forall i p obj a, P (EAsk (e_tid E) i p obj a).
    Hypothesis P_log : forall l n obj, P (ELog l n obj).
    (** Only in-place operators of the Python proxy ever wrap a value that may be a
        security proxy itself. *)
    Hypothesis R_new_proxy : forall s v c,
      (is_proxy v = false \/ (e_impl E = ImplPy /\ allow_in)) ->
      R s (set_prox (upd (st_prox s) (st_next s) (Some (v, c)))
                    (set_next (S (st_next s)) s)).
    Hypothesis R_new_checker : forall s k,
      R s (set_chks (upd (st_chks s) (st_next s) (Some k)) (set_next (S (st_next s)) s)).
    Hypothesis R_pset : forall s p x y,
      e_impl E = ImplPy -> (allow_in \/ allow_set) ->
      st_prox s p = Some x -> R s (set_prox (upd (st_prox s) p (Some y)) s).
    Hypothesis R_parent : forall s d x v,
      st_decos s d = Some x ->
      R s (set_decos (upd (st_decos s) d (Some (mkDeco (dc_class x) (dc_obj x) v))) s).

    Definition okop (o : op) : Prop :=
      match o with
      | OIn _ _ _ => allow_in
      | OSetattr _ n _ => (n = "_wrapped" \/ n = "_checker") -> allow_set
      | _ => True
      end.

    Definition safe_interp (I : interp) : Prop :=
      (forall k o, okkind k -> okop o -> safe (i_op I k o)) /\
      (forall m c obj n, safe (i_check I m c obj n)) /\
      (forall c obj, safe (i_select I c obj)).

    Lemma safe_foreign k c : okkind k -> safe (foreign E k c).
    Proof.
      intros Hk s r s' t H. unfold foreign in H.
      destruct (e_run E (e_tid E) c s) as [r0 s0] eqn:Hr. minj H.
      split; [eauto|]. constructor; auto.
    Qed.
    Lemma safe_foreign_quiet c : safe (foreign_quiet E c).
    Proof.
      intros s r s' t H. unfold foreign_quiet in H.
      destruct (e_run E (e_tid E) c s) as [r0 s0] eqn:Hr. minj H.
      split; [eauto|constructor].
    Qed.

    Ltac safe1 :=
      first
      [ apply safe_ret | apply safe_raise | apply safe_get
      | apply safe_emit; solve [auto]
      | apply safe_foreign; solve [auto] | apply safe_foreign_quiet
      | match goal with
        | |- safe (bind _ _) => apply safe_bind; [|intros ?]
        | |- safe (catch _ _) => apply safe_catch; [|intros ?]
        | |- safe (match e_impl E with _ => _ end) => case (e_impl E)
        | |- safe (match ?x with _ => _ end) => destruct x
        | |- safe (let _ := _ in _) => cbv zeta
        | H : safe ?m |- safe ?m => exact H
        end
      | solve [eauto] ].
    Ltac safes := repeat safe1.

    Lemma safe_new_proxy v c :
      (is_proxy v = false \/ (e_impl E = ImplPy /\ allow_in)) -> safe (new_proxy v c).
    Proof.
      intros Hv. unfold new_proxy. destruct c; try apply safe_raise;
        (intros s0 r s' t H; unfold bind, fresh, get, put, ret in H; simpl in H; minj H;
         split; [apply R_new_proxy; exact Hv | apply Forall_nil]).
    Qed.
    Lemma safe_alloc_checker k : safe (alloc_checker k).
    Proof.
      intros s r s' t H. unfold alloc_checker, bind, fresh, get, put, ret in H.
      simpl in H. minj H. split; [apply R_new_checker | apply Forall_nil].
    Qed.
    Lemma safe_pget p : safe (pget p).
    Proof. unfold pget. safes. Qed.
    Lemma safe_getChecker v : safe (getChecker v).
    Proof. unfold getChecker. safes. Qed.
    Lemma safe_removeSecurityProxy v : safe (removeSecurityProxy v).
    Proof. unfold removeSecurityProxy. safes. Qed.

    Lemma safe_pset_wrapped p w :
      e_impl E = ImplPy -> (allow_in \/ allow_set) -> safe (pset_wrapped p w).
    Proof.
      intros Hi Ha s r s' t H. unfold pset_wrapped, pget in H.
      rewrite bind_assoc, bind_get in H.
      destruct (st_prox s p) as [x|] eqn:Hp; msimpl.
      - unfold put in H. minj H. split; [eapply R_pset; eauto|constructor].
      - minj H. auto.
    Qed.
    Lemma safe_pset_checker p w :
      e_impl E = ImplPy -> (allow_in \/ allow_set) -> safe (pset_checker p w).
    Proof.
      intros Hi Ha s r s' t H. unfold pset_checker, pget in H.
      rewrite bind_assoc, bind_get in H.
      destruct (st_prox s p) as [x|] eqn:Hp; msimpl.
      - unfold put in H. minj H. split; [eapply R_pset; eauto|constructor].
      - minj H. auto.
    Qed.

    Section Level.
      Variable I : interp.
      Hypothesis HI : safe_interp I.

      Lemma safe_op k o : okkind k -> okop o -> safe (i_op I k o).
      Proof. apply HI. Qed.
      Lemma safe_i_check m c obj n : safe (i_check I m c obj n).
      Proof. apply HI. Qed.
      Lemma safe_i_select c obj : safe (i_select I c obj).
      Proof. apply HI. Qed.

      Ltac op := apply safe_op; [solve [auto] | simpl; solve [auto | tauto]].
      Ltac safe2 := first [ op | apply safe_i_check | apply safe_i_select | apply safe_pget
                          | apply safe_getChecker | apply safe_new_proxy; solve [auto]
                          | apply safe_alloc_checker | safe1 ].
      Ltac safes2 := repeat safe2.

      Lemma safe_truth v : safe (truth I v).
      Proof. unfold truth. safes2. Qed.
      Lemma safe_ask iv p obj : safe (ask E I iv p obj).
      Proof.
        assert (Ht := safe_truth). unfold ask. repeat (first [apply Ht | safe2]).
      Qed.
      Lemma safe_tl p obj : safe (tl_checkPermission E I p obj).
      Proof. assert (Ha := safe_ask). unfold tl_checkPermission. safes2. Qed.
      Lemma safe_hasattr_py obj n : safe (hasattr_py I obj n).
      Proof. unfold hasattr_py. safes2. Qed.
      Lemma safe_hasattr_c obj n : safe (hasattr_c I obj n).
      Proof. unfold hasattr_c. safes2. Qed.

      Lemma safe_Checker_check k obj n : safe (Checker_check E I k obj n).
      Proof.
        assert (H1 := safe_tl). assert (H2 := safe_hasattr_py). assert (H3 := safe_hasattr_c).
        unfold Checker_check, CheckerPy_check, CheckerC_check_int, CheckerC_checkPermission.
        repeat (first [apply H1 | apply H2 | apply H3 | safe2]).
      Qed.
      Lemma safe_Checker_check_setattr k obj n : safe (Checker_check_setattr E I k obj n).
      Proof.
        assert (H1 := safe_tl).
        unfold Checker_check_setattr, CheckerPy_check_setattr, CheckerC_check_setattr,
          CheckerC_checkPermission.
        repeat (first [apply H1 | safe2]).
      Qed.
      Lemma safe_log_line v th l n obj : safe (log_line I v th l n obj).
      Proof. unfold log_line. safes2. Qed.

      Lemma safe_Watching_check v k obj n : safe (Watching_check E I v k obj n).
      Proof.
        assert (H1 := safe_Checker_check). assert (H2 := safe_log_line).
        unfold Watching_check. repeat (first [apply H1 | apply H2 | safe2]).
      Qed.
      Lemma safe_Watching_check_getattr v k obj n :
        safe (Watching_check_getattr E I v k obj n).
      Proof.
        assert (H1 := safe_Checker_check). assert (H2 := safe_log_line).
        unfold Watching_check_getattr. repeat (first [apply H1 | apply H2 | safe2]).
      Qed.
      Lemma safe_Watching_check_setattr v k obj n :
        safe (Watching_check_setattr E I v k obj n).
      Proof.
        assert (H1 := safe_Checker_check_setattr). assert (H2 := safe_log_line).
        unfold Watching_check_setattr. repeat (first [apply H1 | apply H2 | safe2]).
      Qed.

      Lemma safe_combine a b : safe a -> safe b -> safe (combine a b).
      Proof. intros. unfold combine. safes2. Qed.

      Lemma safe_checker_check m c obj n : safe (checker_check E I m c obj n).
      Proof.
        assert (H1 := safe_Checker_check). assert (H2 := safe_Checker_check_setattr).
        assert (H3 := safe_Watching_check). assert (H4 := safe_Watching_check_getattr).
        assert (H5 := safe_Watching_check_setattr).
        assert (Hf1 : forall k obj n, safe (Combined_first_check E I k obj n)).
        { intros. unfold Combined_first_check. repeat (first [apply H1 | apply H3 | safe2]). }
        assert (Hf2 : forall k obj n, safe (Combined_first_check_setattr E I k obj n)).
        { intros. unfold Combined_first_check_setattr.
          repeat (first [apply H2 | apply H5 | safe2]). }
        assert (Hc1 : forall k c obj n, safe (Combined_check E I k c obj n)).
        { intros. unfold Combined_check. apply safe_combine; [apply Hf1|apply safe_i_check]. }
        assert (Hc2 : forall k c obj n, safe (Combined_check_setattr E I k c obj n)).
        { intros. unfold Combined_check_setattr.
          apply safe_combine; [apply Hf2|apply safe_i_check]. }
        unfold checker_check.
        repeat (first [apply H1 | apply H2 | apply H3 | apply H4 | apply H5
                      | apply Hc1 | apply Hc2 | safe2]).
      Qed.

      Lemma safe_call_factory f obj : safe (call_factory I f obj).
      Proof. unfold call_factory. safes2. Qed.
      Lemma safe_select_loop c obj : safe (select_loop E I c obj).
      Proof.
        assert (H := safe_call_factory). unfold select_loop.
        repeat (first [apply H | safe2]).
      Qed.
      Lemma safe_selectChecker obj : safe (selectChecker E I obj).
      Proof. unfold selectChecker, selectCheckerPy, selectCheckerC. safes2. Qed.
      Lemma safe_selectCheckerC obj : safe (selectCheckerC E I obj).
      Proof. unfold selectCheckerC. safes2. Qed.
      Lemma safe_getattr_sec v : safe (getattr_sec_checker I v).
      Proof. unfold getattr_sec_checker. safes2. Qed.
      Lemma safe_getattr_sec_c v : safe (getattr_sec_checker_c I v).
      Proof. unfold getattr_sec_checker_c. safes2. Qed.

      Lemma safe_checker_proxy c v : safe (checker_proxy E I c v).
      Proof.
        assert (H1 := safe_selectChecker). assert (H2 := safe_selectCheckerC).
        assert (H3 := safe_getattr_sec). assert (H4 := safe_getattr_sec_c).
        unfold checker_proxy, CheckerPy_proxy, CheckerC_proxy.
        destruct (is_proxy v) eqn:Hv;
          repeat (first [apply H1 | apply H2 | apply H3 | apply H4 | safe2]).
      Qed.
      Lemma safe_ProxyFactory obj c : safe (ProxyFactory E I obj c).
      Proof.
        assert (H1 := safe_selectChecker). assert (H3 := safe_getattr_sec).
        unfold ProxyFactory. destruct (is_proxy obj) eqn:Hv;
          repeat (first [apply H1 | apply H3 | safe2]).
      Qed.
      Lemma safe_canAccess obj n : safe (canAccess E I obj n).
      Proof.
        assert (H1 := safe_ProxyFactory). unfold canAccess.
        repeat (first [apply H1 | safe2]).
      Qed.
      Lemma safe_canWrite obj n : safe (canWrite E I obj n).
      Proof.
        assert (H1 := safe_ProxyFactory). unfold canWrite.
        repeat (first [apply H1 | safe2]).
      Qed.
      Lemma safe_CombinedChecker_new c1 c2 : safe (CombinedChecker_new E c1 c2).
      Proof. unfold CombinedChecker_new. safes2. Qed.
      Lemma safe_Decorated_get d : safe (Decorated_get E I d).
      Proof.
        assert (H1 := safe_selectChecker). assert (H3 := safe_getattr_sec).
        assert (H4 := safe_CombinedChecker_new).
        unfold Decorated_get. repeat (first [apply H1 | apply H3 | apply H4 | safe2]).
      Qed.

      Lemma safe_coerce o v : safe (coerce o v).
      Proof. unfold coerce. safes2. Qed.
      Lemma safe_raw k o : okkind k -> safe (raw E k o).
      Proof.
        intros Hk. unfold raw. apply safe_bind; [apply safe_foreign; auto|].
        intros; apply safe_coerce.
      Qed.
      Lemma safe_default_repr_c w : safe (default_repr_c E I w).
      Proof. unfold default_repr_c. safes2. Qed.
      Lemma safe_default_repr_py w : safe (default_repr_py E I w).
      Proof. unfold default_repr_py. safes2. Qed.

      Lemma safe_c_check p m nm : safe (c_check I p m nm).
      Proof. unfold c_check. safes2. Qed.
      Lemma safe_c_proxy_result p v : safe (c_proxy_result E I p v).
      Proof.
        assert (H := safe_checker_proxy). unfold c_proxy_result.
        repeat (first [apply H | safe2]).
      Qed.

      Ltac safe3 := first [ apply safe_c_check | apply safe_c_proxy_result
        | apply safe_checker_proxy | apply safe_default_repr_c | apply safe_default_repr_py
        | apply safe_coerce | apply safe_raw; solve [auto] | apply safe_truth
        | apply safe_Decorated_get | safe2 ].

      Lemma safe_py_check_name p nm meth :
        (forall w, safe (meth w)) -> safe (py_check_name E I p nm meth).
      Proof. intros H. unfold py_check_name. repeat (first [apply H | safe3]). Qed.
      Lemma safe_py_check_name_nowrap p nm meth :
        (forall w, safe (meth w)) -> safe (py_check_name_nowrap I p nm meth).
      Proof. intros H. unfold py_check_name_nowrap. repeat (first [apply H | safe3]). Qed.
      Lemma safe_c_check1 p m nm meth :
        (forall w, safe (meth w)) -> safe (c_check1 E I p m nm meth).
      Proof. intros H. unfold c_check1. repeat (first [apply H | safe3]). Qed.
      Lemma safe_c_check0 p m nm meth :
        (forall w, safe (meth w)) -> safe (c_check0 I p m nm meth).
      Proof. intros H. unfold c_check0. repeat (first [apply H | safe3]). Qed.
      Lemma safe_c_check2i p nm meth :
        (forall w, safe (meth w)) -> safe (c_check2i E I p nm meth).
      Proof. intros H. unfold c_check2i. repeat (first [apply H | safe3]). Qed.
      Lemma safe_py_str_like p nm meth :
        (forall w, safe (meth w)) -> safe (py_str_like E I p nm meth).
      Proof.
        intros H. assert (H1 := safe_py_check_name p nm meth H). unfold py_str_like.
        repeat (first [apply H1 | safe3]).
      Qed.
      Lemma safe_c_str_like p nm meth :
        (forall w, safe (meth w)) -> safe (c_str_like E I p nm meth).
      Proof. intros H. unfold c_str_like. repeat (first [apply H | safe3]). Qed.
      Lemma safe_py_inplace k p nm arg :
        e_impl E = ImplPy -> allow_in -> okkind k ->
        safe (py_check_name_inplace I k p nm arg).
      Proof.
        intros Hi Ha Hk. unfold py_check_name_inplace.
        repeat (first [apply safe_pset_wrapped; solve [auto] | safe3]).
      Qed.
      Lemma safe_proxy_guard p m nm meth :
        (forall w, safe (meth w)) -> safe (proxy_guard E I p m nm meth).
      Proof.
        intros H. unfold proxy_guard. case (e_impl E);
          [apply safe_py_check_name | apply safe_c_check1]; auto.
      Qed.

      Lemma safe_proxy_getattr k p n fr : okkind k -> safe (proxy_getattr E I k p n fr).
      Proof.
        intros Hk. unfold proxy_getattr. case (e_impl E).
        - unfold py_getattr, py_getattribute, py_getattr_fallback. repeat safe3.
        - apply safe_c_check1. intros. op.
      Qed.
      Lemma safe_proxy_setattr k p n v :
        okkind k -> okop (OSetattr (VProxy p) n v) -> safe (proxy_setattr E I k p n v).
      Proof.
        intros Hk Ho. simpl in Ho. unfold proxy_setattr. destruct (impl_cases E) as [Hi|Hi]; rewrite Hi.
        - unfold py_setattr.
          destruct (String.eqb_spec n "_wrapped").
          { apply safe_bind; [|intros; apply safe_ret].
            apply safe_pset_wrapped; auto. }
          destruct (String.eqb_spec n "_checker").
          { apply safe_bind; [|intros; apply safe_ret].
            apply safe_pset_checker; auto. }
          repeat safe3.
        - apply safe_c_check0. intros. apply safe_op; auto.
      Qed.
      Lemma safe_proxy_delattr k p n : okkind k -> safe (proxy_delattr E I k p n).
      Proof.
        intros Hk. unfold proxy_delattr. case (e_impl E).
        - unfold py_delattr. repeat safe3.
        - apply safe_c_check0. intros. op.
      Qed.

      Ltac sguard := first
        [ apply safe_proxy_guard; intros; op
        | apply safe_py_check_name; intros; op
        | apply safe_py_check_name_nowrap; intros; op
        | apply safe_c_check1; intros; op
        | apply safe_c_check0; intros; op
        | apply safe_py_str_like; intros; op
        | apply safe_c_str_like; intros; op ].

      Lemma safe_bin_left k p b r : okkind k -> safe (proxy_bin_left E I k p b r).
      Proof. intros. unfold proxy_bin_left. sguard. Qed.
      Lemma safe_bin_right k p b r : okkind k -> safe (proxy_bin_right E I k p b r).
      Proof. intros. unfold proxy_bin_right. sguard. Qed.

      Lemma safe_proxy_inplace k p b r :
        okkind k -> allow_in -> safe (proxy_inplace E I k p b r).
      Proof.
        intros Hk Ha. unfold proxy_inplace. destruct (impl_cases E) as [Hi|Hi]; rewrite Hi.
        - apply safe_py_inplace; auto.
        - apply safe_c_check2i. intros. op.
      Qed.

      Lemma safe_pow3 k a b m : okkind k -> safe (proxy_pow3 E I k a b m).
      Proof.
        intros. unfold proxy_pow3. repeat (first [sguard | safe3]).
      Qed.

      Lemma safe_deco_getattr k d n fr : okkind k -> safe (deco_getattr E I k d n fr).
      Proof. intros. unfold deco_getattr. repeat safe3. Qed.

      Lemma safe_deco_setattr k d n v : okkind k -> safe (deco_setattr E k d n v).
      Proof.
        intros Hk. unfold deco_setattr. destruct (String.eqb n "__Security_checker__").
        { apply safe_raise. }
        intros s r s' t H. rewrite bind_get in H.
        destruct (st_decos s d) as [x|] eqn:Hd.
        - destruct (String.eqb n "__parent__" && String.eqb (dc_class x) "LocationProxy")%bool.
          + rewrite bind_put in H. unfold ret in H. minj H.
            split; [apply R_parent; auto|constructor].
          + eapply safe_raw; eauto.
        - unfold raise in H. minj H. auto.
      Qed.

      Lemma safe_compare k p c v : okkind k -> safe (py_compare I k p c v).
      Proof. intros. unfold py_compare. repeat safe3. Qed.
      Lemma safe_richcompare k p c v : okkind k -> safe (c_richcompare E I k p c v).
      Proof. intros. unfold c_richcompare. repeat safe3. Qed.

      Ltac safe4 := first
        [ sguard | apply safe_proxy_getattr; solve [auto]
        | apply safe_proxy_setattr; solve [auto] | apply safe_proxy_delattr; solve [auto]
        | apply safe_bin_left; solve [auto] | apply safe_bin_right; solve [auto]
        | apply safe_proxy_inplace; solve [auto] | apply safe_pow3; solve [auto]
        | apply safe_deco_getattr; solve [auto] | apply safe_deco_setattr; solve [auto]
        | apply safe_compare; solve [auto] | apply safe_richcompare; solve [auto]
        | safe3 ].

      Lemma safe_run_op k o : okkind k -> okop o -> safe (run_op E I k o).
      Proof.
        intros Hk Ho.
        assert (Hr := fun o => safe_raw k o Hk).
        destruct o; simpl in Ho; simpl.
        - destruct v; simpl; try apply Hr; try apply safe_raise; repeat safe4.
        - destruct v; try apply Hr; repeat safe4.
        - destruct v; try apply Hr; repeat safe4.
        - destruct v; try apply Hr; repeat safe4.
        - destruct v; try apply Hr; repeat safe4.
        - destruct v; try apply Hr; repeat safe4.
        - destruct l; try (apply safe_bin_left; auto; fail);
            destruct r; try apply Hr; repeat safe4.
        - apply safe_pow3; auto.
        - destruct l; try (apply safe_proxy_inplace; auto; fail);
            destruct r; try apply Hr; repeat safe4.
        - destruct v; try apply Hr; repeat safe4.
        - destruct v; try apply Hr; repeat safe4.
        - destruct v; try apply Hr; repeat safe4.
        - destruct v; try apply Hr; repeat safe4.
        - destruct v; try apply Hr; repeat safe4.
        - destruct v; try apply Hr; repeat safe4.
        - destruct v; try apply Hr; repeat safe4.
        - destruct v; try apply Hr; unfold py_hash; repeat safe4.
        - destruct v; try apply Hr; unfold py_bool; repeat safe4.
        - destruct v; try (case (e_impl E); [apply safe_compare|apply safe_richcompare];
                           auto; fail);
            destruct w; try apply Hr; repeat safe4.
        - destruct v; try apply Hr; repeat safe4.
        - destruct v; try apply Hr; repeat safe4.
        - destruct v; try apply Hr; unfold py_length_hint, c_length_hint; repeat safe4.
      Qed.
    End Level.

    Theorem interp_safe fuel : safe_interp (interp_n E fuel).
    Proof.
      induction fuel as [|f IH]; simpl.
      - split; [|split]; intros; simpl; apply safe_raise.
      - split; [|split].
        + intros k o Hk Ho. apply safe_run_op; auto.
        + intros m c obj n. apply safe_checker_check; auto.
        + intros c obj. apply safe_select_loop; auto.
    Qed.
  End Interp.
End Safe.
