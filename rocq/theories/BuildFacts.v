(** * BuildFacts: the two builds run in lock step. *)

From Coq Require Import List String Bool Arith ZArith Lia.
From Verif Require Import Base Domain CheckerModel ProxyModel MFacts Spec RegSpec
  CheckFacts RegistryFacts SafeFacts ProxySpec ProxyFacts MediationSpec BuildSpec.
Import ListNotations.
Open Scope string_scope.
Open Scope m_scope.
Local Arguments String.eqb : simpl never.

Section Lockstep.
  Variable E : env.
  Variable cb : impl.
  Hypothesis Hw : e_watch E = 0.
  Hypothesis HC : ordinary_code E.

  Notation Ep := (build ImplPy E).
  Notation Ec := (builds ImplC cb E).

  (** Unless the Python run exhausts the recursion budget, the C run has the same result,
      final state and erased trace, and the state stays ordinary. *)
  Definition sim {A} (Q : A -> Prop) (m1 m2 : M A) : Prop :=
    forall s r1 s1 t1 r2 s2 t2,
      ordinary E s -> m1 s = (r1, s1, t1) -> m2 s = (r2, s2, t2) ->
      r1 = Exc EFuel \/
      (r1 = r2 /\ s1 = s2 /\ same_trace t1 t2 /\ ordinary E s1 /\ proxies_kept s s1 /\
       forall a, r1 = Ok a -> Q a).

  Definition anyv {A} (a : A) : Prop := True.

  Lemma kept_refl s : proxies_kept s s.
  Proof. split; auto. Qed.
  Lemma kept_trans s1 s2 s3 : proxies_kept s1 s2 -> proxies_kept s2 s3 -> proxies_kept s1 s3.
  Proof.
    intros [A B] [A' B']. split; [lia|]. intros p x Hp Hx. apply B'; [lia|]. auto.
  Qed.

  Lemma sim_weaken {A} (Q Q' : A -> Prop) m1 m2 :
    (forall a, Q a -> Q' a) -> sim Q m1 m2 -> sim Q' m1 m2.
  Proof.
    intros HQ H s r1 s1 t1 r2 s2 t2 HO H1 H2.
    destruct (H _ _ _ _ _ _ _ HO H1 H2) as [X|(X1 & X2 & X3 & X4 & X5 & X6)]; [auto|].
    right. repeat (split; [assumption|]). auto.
  Qed.

  Lemma sim_ret {A} (Q : A -> Prop) a : Q a -> sim Q (ret a) (ret a).
  Proof.
    intros HQ s r1 s1 t1 r2 s2 t2 HO H1 H2. minj H1. minj H2. right.
    split; [auto|]. split; [auto|]. split; [reflexivity|]. split; [auto|].
    split; [apply kept_refl|]. intros a0 H. injection H as <-. auto.
  Qed.
  Lemma sim_raise {A} (Q : A -> Prop) e : sim Q (raise e) (raise e).
  Proof.
    intros s r1 s1 t1 r2 s2 t2 HO H1 H2. minj H1. minj H2. right.
    split; [auto|]. split; [auto|]. split; [reflexivity|]. split; [auto|].
    split; [apply kept_refl|]. discriminate.
  Qed.
  Lemma sim_fuel {A} (Q : A -> Prop) m : sim Q (raise EFuel) m.
  Proof. intros s r1 s1 t1 r2 s2 t2 HO H1 H2. minj H1. auto. Qed.
  Lemma sim_emit ev : sim anyv (emit ev) (emit ev).
  Proof.
    intros s r1 s1 t1 r2 s2 t2 HO H1 H2. minj H1. minj H2. right.
    split; [auto|]. split; [auto|]. split; [reflexivity|]. split; [auto|].
    split; [apply kept_refl|]. intros a _. exact I.
  Qed.

  Lemma same_trace_app a b c d :
    same_trace a b -> same_trace c d -> same_trace (a ++ c) (b ++ d).
  Proof. unfold same_trace. rewrite !map_app. congruence. Qed.

  Lemma sim_bind {A B} (P : A -> Prop) (Q : B -> Prop) m1 m2 f1 f2 :
    sim P m1 m2 -> (forall a, P a -> sim Q (f1 a) (f2 a)) -> sim Q (bind m1 f1) (bind m2 f2).
  Proof.
    intros Hm Hf s r1 s1 t1 r2 s2 t2 HO H1 H2. unfold bind in H1, H2.
    destruct (m1 s) as [[x1 y1] z1] eqn:E1. destruct (m2 s) as [[x2 y2] z2] eqn:E2.
    destruct (Hm _ _ _ _ _ _ _ HO E1 E2) as [->|(<- & <- & Ht & HO1 & HK1 & HP)].
    { minj H1. auto. }
    destruct x1 as [a|e].
    - destruct (f1 a y1) as [[u1 v1] w1] eqn:F1. destruct (f2 a y1) as [[u2 v2] w2] eqn:F2.
      minj H1. minj H2.
      destruct (Hf a (HP a eq_refl) _ _ _ _ _ _ _ HO1 F1 F2)
        as [->|(<- & <- & Ht2 & HO2 & HK2 & HQ)]; [auto|].
      right. split; [auto|]. split; [auto|]. split; [apply same_trace_app; auto|].
      split; [auto|]. split; [eapply kept_trans; eauto|]. auto.
    - minj H1. minj H2. right. split; [auto|]. split; [auto|]. split; [auto|]. split; [auto|].
      split; [auto|]. discriminate.
  Qed.

  (** The current state may be inspected. *)
  Lemma sim_get {B} (Q : B -> Prop) (f1 f2 : state -> M B) :
    (forall s, ordinary E s -> sim Q (f1 s) (f2 s)) ->
    sim Q (bind get f1) (bind get f2).
  Proof.
    intros Hf s r1 s1 t1 r2 s2 t2 HO H1 H2. rewrite bind_get in H1, H2.
    exact (Hf s HO _ _ _ _ _ _ _ HO H1 H2).
  Qed.

  Lemma sim_catch {A} (Q : A -> Prop) m1 m2 h1 h2 :
    sim Q m1 m2 -> (forall s, exists s' t, h1 EFuel s = (Exc EFuel, s', t)) ->
    (forall e, sim Q (h1 e) (h2 e)) -> sim Q (catch m1 h1) (catch m2 h2).
  Proof.
    intros Hm Hfu Hf s r1 s1 t1 r2 s2 t2 HO H1 H2. unfold catch in H1, H2.
    destruct (m1 s) as [[x1 y1] z1] eqn:E1. destruct (m2 s) as [[x2 y2] z2] eqn:E2.
    destruct (Hm _ _ _ _ _ _ _ HO E1 E2) as [->|(<- & <- & Ht & HO1 & HK1 & HP)].
    { destruct (Hfu y1) as (s' & t' & Hx). rewrite Hx in H1. minj H1. auto. }
    destruct x1 as [a|e].
    - minj H1. minj H2. right. split; [auto|]. split; [auto|]. split; [auto|]. split; [auto|].
      split; auto.
    - destruct (h1 e y1) as [[u1 v1] w1] eqn:F1. destruct (h2 e y1) as [[u2 v2] w2] eqn:F2.
      minj H1. minj H2.
      destruct (Hf e _ _ _ _ _ _ _ HO1 F1 F2)
        as [->|(<- & <- & Ht2 & HO2 & HK2 & HQ)]; [auto|].
      right. split; [auto|]. split; [auto|]. split; [apply same_trace_app; auto|].
      split; [auto|]. split; [eapply kept_trans; eauto|]. auto.
  Qed.

  (** ** Foreign code *)

  Definition not_deco (v : value) : Prop := match v with VDeco _ => False | _ => True end.

  Lemma run_erase t c1 c2 s : erase_call c1 = erase_call c2 -> e_run E t c1 s = e_run E t c2 s.
  Proof. intros H. rewrite (oc_erase E HC), H, <- (oc_erase E HC). reflexivity. Qed.

  Definition call_result (c : call) (v : value) : Prop :=
    not_deco v /\
    match c with
    | CallOp (OCmp _ _ r) => (exists b, v = VBool b) \/ (v = VNotImpl /\ is_proxy r = true)
    | CallOp (OGetattr _ n _) => n = "__Security_checker__" -> v <> VNone
    | _ => True
    end.

  Lemma run_result t c s v s' : e_run E t c s = (Ok v, s') -> call_result c v.
  Proof.
    intros H. split.
    - destruct v; simpl; auto. exfalso. eapply (oc_decorators E HC); eauto.
    - destruct c as [o| | | |]; auto. destruct o; auto.
      + intros ->. eapply (oc_own E HC); eauto.
      + eapply (oc_compare E HC); eauto.
  Qed.

  Lemma sim_foreign k c1 c2 :
    erase_call c1 = erase_call c2 -> sim (call_result c1) (foreign Ep k c1) (foreign Ec k c2).
  Proof.
    intros He s r1 s1 t1 r2 s2 t2 HO H1 H2. unfold foreign in H1, H2. simpl in H1, H2.
    rewrite <- (run_erase _ c1 c2 s He) in H2.
    destruct (e_run E (e_tid E) c1 s) as [r s'] eqn:Hr. minj H1. minj H2. right.
    destruct (oc_state E HC _ _ _ _ _ Hr HO) as [HO' HK].
    split; [auto|]. split; [auto|].
    split; [unfold same_trace; simpl; rewrite He; reflexivity|]. split; [auto|]. split; [auto|].
    intros a ->. eapply run_result; eauto.
  Qed.

  Lemma sim_foreign_quiet c :
    sim (call_result c) (foreign_quiet Ep c) (foreign_quiet Ec c).
  Proof.
    intros s r1 s1 t1 r2 s2 t2 HO H1 H2. unfold foreign_quiet in H1, H2. simpl in H1, H2.
    destruct (e_run E (e_tid E) c s) as [r s'] eqn:Hr. minj H1. minj H2. right.
    destruct (oc_state E HC _ _ _ _ _ Hr HO) as [HO' HK].
    split; [auto|]. split; [auto|]. split; [reflexivity|]. split; [auto|]. split; [auto|].
    intros a ->. eapply run_result; eauto.
  Qed.

  (** What is known about the result of an operation. *)
  Definition op_result (o : op) (v : value) : Prop :=
    not_deco v /\
    match o with
    | OCmp _ _ r => (exists b, v = VBool b) \/ (v = VNotImpl /\ is_proxy r = true)
    | OGetattr _ n _ => n = "__Security_checker__" -> v <> VNone
    | OBool _ | OContains _ _ => exists b, v = VBool b
    | OSetitem _ _ _ | ODelitem _ _ => v = VNone
    | _ => True
    end.

  Lemma sim_coerce o1 o2 v :
    erase_op o1 = erase_op o2 -> call_result (CallOp o1) v ->
    sim (op_result o1) (coerce o1 v) (coerce o2 v).
  Proof.
    intros He [Hd Hc].
    assert (Hs : coerce o2 v = coerce o1 v).
    { destruct o1, o2; simpl in He; try discriminate; try (injection He as -> ->); auto;
        congruence. }
    rewrite Hs.
    destruct o1; simpl; try (apply sim_ret; split; [exact Hd|]; simpl; auto; fail);
      try (destruct v; try apply sim_raise; apply sim_ret; split; simpl; eauto; fail);
      apply sim_ret; split; simpl; auto.
  Qed.

  Lemma sim_raw k o1 o2 :
    erase_op o1 = erase_op o2 -> sim (op_result o1) (raw Ep k o1) (raw Ec k o2).
  Proof.
    intros He. unfold raw. eapply sim_bind.
    - apply sim_foreign. simpl. congruence.
    - intros v Hv. apply sim_coerce; auto.
  Qed.

  (** ** The interpreter *)

  Definition check_ok (obj : value) (n : name) : Prop := n <> "__iter__" \/ plain_object obj.

  (** What is known about the result of a whole operation: for proxied objects only that
      comparisons and truth give booleans. *)
  Definition full_result (o : op) (v : value) : Prop :=
    not_deco v /\
    match o with
    | OCmp _ _ _ | OBool _ => exists b, v = VBool b
    | OGetattr _ n _ => n = "__Security_checker__" -> v <> VNone
    | _ => True
    end.

  (** Exceptions of a computation. *)
  Definition raises {A} (X : exn -> Prop) (m : M A) : Prop :=
    forall s e s1 t1, ordinary E s -> m s = (Exc e, s1, t1) -> e = EFuel \/ X e.

  Record sim_interp (I1 I2 : interp) : Prop := {
    si_op : forall k o1 o2, erase_op o1 = erase_op o2 -> common_op o1 ->
      sim (full_result o1) (i_op I1 k o1) (i_op I2 k o2);
    si_check : forall m1 m2 c obj n, erase_mode m1 = erase_mode m2 -> check_ok obj n ->
      sim anyv (i_check I1 m1 c obj n) (i_check I2 m2 c obj n);
    si_select : forall c obj, sim anyv (i_select I1 c obj) (i_select I2 c obj);
    si_own : forall v, plain_object v ->
      raises attribute_error (i_op I1 Probe (OGetattr v "__Security_checker__" None));
    si_iter : forall v, plain_object v ->
      raises attribute_error (i_op I1 Probe (OGetattr v "__iter__" None)) }.

  Section Step.
    Variables I1 I2 : interp.
    Hypothesis HI : sim_interp I1 I2.

    Lemma sim_truth v : sim anyv (truth I1 v) (truth I2 v).
    Proof.
      unfold truth.
      assert (H : sim anyv (r <- i_op I1 Probe (OBool v) ;;
                            match r with VBool b => ret b | _ => raise (EType "__bool__") end)
                           (r <- i_op I2 Probe (OBool v) ;;
                            match r with VBool b => ret b | _ => raise (EType "__bool__") end)).
      { eapply sim_bind; [apply (si_op _ _ HI); simpl; auto|].
        intros r _. destruct r; try apply sim_raise. apply sim_ret. exact I. }
      destruct v; try exact H; apply sim_ret; exact I.
    Qed.

    Lemma sim_ask iv p obj : sim anyv (ask Ep I1 iv p obj) (ask Ec I2 iv p obj).
    Proof.
      unfold ask.
      assert (H : sim anyv
        (b <- catch (v <- foreign_quiet Ep (CallPerm iv p obj) ;; truth I1 v)
               (fun e => emit (EAsk (e_tid Ep) iv p obj None) ;;; raise e) ;;
         emit (EAsk (e_tid Ep) iv p obj (Some b)) ;;; ret b)
        (b <- catch (v <- foreign_quiet Ec (CallPerm iv p obj) ;; truth I2 v)
               (fun e => emit (EAsk (e_tid Ec) iv p obj None) ;;; raise e) ;;
         emit (EAsk (e_tid Ec) iv p obj (Some b)) ;;; ret b)).
      { eapply sim_bind with (P := anyv).
        - apply sim_catch.
          + eapply sim_bind; [apply sim_foreign_quiet|]. intros v _. apply sim_truth.
          + intros s. eexists _, _. reflexivity.
          + intros e. eapply sim_bind; [apply sim_emit|]. intros _ _. apply sim_raise.
        - intros b _. eapply sim_bind; [apply sim_emit|]. intros _ _. apply sim_ret. exact I. }
      destruct iv; try exact H; try apply sim_raise.
      apply sim_get. intros s HO. destruct (st_inters s i) as [x|]; [|apply sim_raise].
      eapply sim_bind; [apply sim_emit|]. intros _ _. apply sim_ret. exact I.
    Qed.

    Lemma sim_tl p obj : sim anyv (tl_checkPermission Ep I1 p obj) (tl_checkPermission Ec I2 p obj).
    Proof.
      unfold tl_checkPermission. apply sim_get. intros s HO. simpl.
      destruct (tl_inter _) as [iv|]; [apply sim_ask|apply sim_raise].
    Qed.

    Lemma sim_perm p obj n :
      sim anyv (b <- tl_checkPermission Ep I1 p obj ;;
                if b then ret tt else raise (EUnauthorized obj n p))
               (CheckerC_checkPermission Ec I2 p obj n).
    Proof.
      unfold CheckerC_checkPermission. eapply sim_bind; [apply sim_tl|].
      intros b _. destruct b; [apply sim_ret; exact I|apply sim_raise].
    Qed.

    Lemma sim_hasattr obj :
      plain_object obj -> sim anyv (hasattr_py I1 obj "__iter__") (hasattr_c I2 obj "__iter__").
    Proof.
      intros Hp s r1 s1 t1 r2 s2 t2 HO H1 H2.
      unfold hasattr_py, hasattr_c, catch, bind in H1, H2.
      destruct (i_op I1 Probe (OGetattr obj "__iter__" None) s) as [[x1 y1] z1] eqn:E1.
      destruct (i_op I2 Probe (OGetattr obj "__iter__" None) s) as [[x2 y2] z2] eqn:E2.
      assert (Hco : common_op (OGetattr obj "__iter__" None))
        by (destruct obj; simpl in *; auto; contradiction).
      destruct (si_op _ _ HI Probe _ _ eq_refl Hco _ _ _ _ _ _ _ HO E1 E2)
        as [->|(<- & <- & Ht & HO1 & HK1 & HP)].
      { simpl in H1. minj H1. auto. }
      destruct x1 as [a|e].
      - simpl in H1, H2. minj H1. minj H2. right. rewrite !app_nil_r. unfold anyv. auto 10.
      - destruct (si_iter _ _ HI obj Hp s e y1 z1 HO E1) as [->|He].
        { simpl in H1. minj H1. auto. }
        apply attribute_error_iff in He. rewrite He in H1. simpl in H1, H2.
        minj H1. minj H2. right. rewrite !app_nil_r. unfold anyv. auto 10.
    Qed.

    Lemma sim_hasattr_py obj :
      plain_object obj -> sim anyv (hasattr_py I1 obj "__iter__") (hasattr_py I2 obj "__iter__").
    Proof.
      intros Hp. unfold hasattr_py. apply sim_catch.
      - eapply sim_bind; [apply (si_op _ _ HI Probe _ _ eq_refl);
          destruct obj; simpl in *; auto; contradiction|].
        intros _ _. apply sim_ret. exact I.
      - intros s. eexists _, _. reflexivity.
      - intros e. destruct (is_attribute_error e); [apply sim_ret; exact I|apply sim_raise].
    Qed.

    Lemma table_none s d n : ordinary E s -> dget String.eqb (st_dicts s d) n <> Some PNone.
    Proof.
      intros HO H. apply (dget_In _ String.eqb_spec) in H.
      eapply (or_tables E s HO); eauto.
    Qed.

    Lemma sim_Checker_check c obj n :
      check_ok obj n -> sim anyv (Checker_check Ep I1 c obj n) (Checker_check Ec I2 c obj n).
    Proof.
      intros Hok. unfold Checker_check. simpl e_cimpl. cbv iota.
      destruct cb.
      { unfold CheckerPy_check. apply sim_get. intros s HO. unfold get_or_none.
        destruct (negb (perm_eqb _ PNone)).
        - destruct (perm_eqb _ PPublic); [apply sim_ret; exact I|]. apply sim_perm.
        - destruct (mem n available_by_default); [apply sim_ret; exact I|].
          destruct (String.eqb_spec n "__iter__") as [->|Hn]; cbn [negb].
          + eapply sim_bind; [apply sim_hasattr_py; destruct Hok; [congruence|auto]|].
            intros b _. destruct b; [apply sim_raise|apply sim_ret; exact I].
          + apply (sim_bind anyv); [apply sim_ret; exact I|].
            intros b _. destruct b; [apply sim_raise|apply sim_ret; exact I]. }
      unfold CheckerPy_check, CheckerC_check_int. apply sim_get. intros s HO. unfold get_or_none.
      destruct (dget String.eqb (st_dicts s (ck_get c)) n) as [p|] eqn:Hd.
      - assert (Hp : perm_eqb p PNone = false).
        { destruct p; auto. exfalso. eapply table_none; eauto. }
        rewrite Hp. cbn [negb]. destruct (perm_eqb p PPublic); [apply sim_ret; exact I|].
        apply sim_perm.
      - cbn [perm_eqb negb].
        destruct (mem n available_by_default) eqn:Hm.
        + assert (Ho : is_operator n = true).
          { apply mem_In in Hm. clear - Hm. unfold available_by_default in Hm.
            repeat (destruct Hm as [<-|Hm]; [reflexivity|]). destruct Hm. }
          rewrite Ho. apply sim_ret. exact I.
        + destruct (String.eqb_spec n "__iter__") as [->|Hn].
          * cbn [negb]. change (is_operator "__iter__") with true. cbv iota.
            eapply sim_bind; [apply sim_hasattr; destruct Hok; [congruence|auto]|].
            intros b _. destruct b; [apply sim_raise|apply sim_ret; exact I].
          * cbn [negb]. intros s0 r1 s1 t1 r2 s2 t2 HO0 H1 H2.
            rewrite bind_ret in H1.
            assert (H2' : raise (EForbidden n obj) s0 = (r2, s2, t2)).
            { destruct (is_operator n); exact H2. }
            revert H1 H2'. apply (sim_raise anyv (EForbidden n obj)). exact HO0.
    Qed.

    Lemma sim_Checker_check_setattr c obj n :
      sim anyv (Checker_check_setattr Ep I1 c obj n) (Checker_check_setattr Ec I2 c obj n).
    Proof.
      unfold Checker_check_setattr. simpl e_cimpl. cbv iota.
      destruct cb.
      { unfold CheckerPy_check_setattr. apply sim_get. intros s HO. cbv zeta.
        destruct (negb (perm_eqb _ PNone)); [|apply sim_raise].
        destruct (perm_eqb _ PPublic); [apply sim_ret; exact I|]. apply sim_perm. }
      unfold CheckerPy_check_setattr, CheckerC_check_setattr. apply sim_get. intros s HO.
      destruct (st_dicts s (ck_set c)) as [|x l] eqn:Hl; [apply sim_raise|].
      rewrite <- Hl. unfold get_or_none. cbv zeta.
      destruct (dget String.eqb (st_dicts s (ck_set c)) n) as [p|] eqn:Hd.
      - assert (Hp : perm_eqb p PNone = false).
        { destruct p; auto. exfalso. eapply table_none; eauto. }
        rewrite Hp. cbn [negb]. destruct (perm_eqb p PPublic); cbn [negb];
          [apply sim_ret; exact I|]. apply sim_perm.
      - apply sim_raise.
    Qed.

    Lemma sim_combine m1 m2 n1 n2 :
      sim anyv m1 m2 -> sim anyv n1 n2 -> sim anyv (combine m1 n1) (combine m2 n2).
    Proof.
      intros Hm Hn. unfold combine. apply sim_catch; [exact Hm| |].
      - intros s. eexists _, _. reflexivity.
      - intros e. destruct (is_forbidden e); [exact Hn|].
        destruct (is_unauthorized e); [|apply sim_raise].
        apply sim_catch; [exact Hn| |].
        + intros s. eexists _, _. reflexivity.
        + intros e2. destruct (is_forbidden e2); apply sim_raise.
    Qed.

    Lemma sim_checker_check m1 m2 c obj n :
      erase_mode m1 = erase_mode m2 -> check_ok obj n ->
      sim anyv (checker_check Ep I1 m1 c obj n) (checker_check Ec I2 m2 c obj n).
    Proof.
      intros Hm Hok.
      assert (HF : sim anyv (foreign Ep Probe (CallCheck m1 c obj n) ;;; ret tt)
                            (foreign Ec Probe (CallCheck m2 c obj n) ;;; ret tt)).
      { eapply sim_bind; [apply sim_foreign; simpl; congruence|].
        intros _ _. apply sim_ret. exact I. }
      unfold checker_check. destruct c; try exact HF.
      apply sim_get. intros s HO. destruct (st_chks s c) as [k|] eqn:Hk; [|apply sim_raise].
      destruct (or_kinds E s HO c k Hk) as [Hp|[c2 Hp]]; rewrite Hp.
      - destruct m1, m2; simpl in Hm; try discriminate Hm; try apply sim_Checker_check; auto;
          apply sim_Checker_check_setattr.
      - assert (Hc : sim anyv (Combined_check Ep I1 k c2 obj n) (Combined_check Ec I2 k c2 obj n)).
        { unfold Combined_check, Combined_first_check. simpl e_watch. rewrite Hw. cbv iota.
          apply sim_combine; [apply sim_Checker_check; auto|].
          apply (si_check _ _ HI); auto. }
        assert (Hcs : sim anyv (Combined_check_setattr Ep I1 k c2 obj n)
                               (Combined_check_setattr Ec I2 k c2 obj n)).
        { unfold Combined_check_setattr, Combined_first_check_setattr. simpl e_watch. rewrite Hw.
          cbv iota. apply sim_combine; [apply sim_Checker_check_setattr|].
          apply (si_check _ _ HI); auto. }
        destruct m1, m2; simpl in Hm; try discriminate Hm; auto.
    Qed.

    (** ** Selection *)

    Lemma is_Checker_same s v : is_Checker Ep s v = is_Checker Ec s v.
    Proof.
      destruct v; simpl; auto. destruct (st_chks s c); auto. rewrite Hw. destruct cb; reflexivity.
    Qed.

    Lemma sim_call_factory f obj :
      sim anyv (call_factory I1 f obj) (call_factory I2 f obj).
    Proof.
      assert (H : sim anyv (i_op I1 Probe (OCall f [obj])) (i_op I2 Probe (OCall f [obj]))).
      { eapply sim_weaken; [|apply (si_op _ _ HI); simpl; auto]. intros; exact I. }
      unfold call_factory. destruct f; try exact H; try apply sim_raise.
      apply sim_get. intros s HO. destruct obj; apply sim_ret; exact I.
    Qed.

    Lemma sim_select_loop c obj :
      sim anyv (select_loop Ep I1 c obj) (select_loop Ec I2 c obj).
    Proof.
      unfold select_loop. apply sim_get. intros s HO. rewrite is_Checker_same.
      destruct (is_Checker Ec s c); [apply sim_ret; exact I|].
      eapply sim_bind; [apply sim_call_factory|]. intros c' _.
      destruct (value_eqb c' VNoProxy || value_eqb c' VNone)%bool; [apply sim_ret; exact I|].
      apply (si_select _ _ HI).
    Qed.

    Lemma sim_selectCheckerC obj :
      sim anyv (selectChecker Ep I1 obj) (selectCheckerC Ec I2 obj).
    Proof.
      unfold selectChecker. simpl e_cimpl. cbv iota. unfold selectCheckerPy, selectCheckerC.
      apply sim_get. intros s HO.
      assert (Hr : registered Ep s obj = registered Ec s obj) by (destruct obj; reflexivity).
      rewrite Hr. destruct (value_eqb (registered Ec s obj) VNoProxy); [apply sim_ret; exact I|].
      assert (Hx : (value_eqb (registered Ec s obj) (VChk default_cid)
                    && e_isexc Ec (type_of Ec s obj))%bool = false).
      { destruct (e_isexc Ec (type_of Ec s obj)) eqn:Hx; [|apply andb_false_r].
        destruct (or_exceptions E s HO _ Hx) as (v & Hv & Hne).
        unfold registered. rewrite Hv.
        destruct (value_eqb_spec v (VChk default_cid)); [contradiction|reflexivity]. }
      rewrite Hx. apply (si_select _ _ HI).
    Qed.

    Lemma sim_selectChecker obj :
      sim anyv (selectChecker Ep I1 obj) (selectChecker Ec I2 obj).
    Proof.
      unfold selectChecker at 2. simpl e_cimpl. destruct cb; [|apply sim_selectCheckerC].
      unfold selectChecker. simpl e_cimpl. cbv iota. unfold selectCheckerPy.
      apply sim_get. intros s HO.
      assert (Hr : registered (builds ImplC ImplPy E) s obj = registered Ep s obj)
        by (destruct obj; reflexivity).
      rewrite Hr. destruct (value_eqb (registered Ep s obj) VNoProxy); [apply sim_ret; exact I|].
      apply (si_select _ _ HI).
    Qed.

    (** ** Proxies *)

    Lemma ordinary_new_proxy s v c :
      ordinary E s -> plain_object v ->
      ordinary E (set_prox (upd (st_prox s) (st_next s) (Some (v, c)))
                           (set_next (S (st_next s)) s)).
    Proof.
      intros [A B C D F G K L] Hv. constructor; simpl; auto.
      - intros p x Hp. simpl in *. destruct (Nat.eq_dec p (st_next s)) as [->|Hn]; [lia|].
        rewrite upd_ne in Hp by auto. apply A in Hp. lia.
      - intros p w c0 Hp. destruct (Nat.eq_dec p (st_next s)) as [->|Hn].
        + rewrite upd_eq in Hp. congruence.
        + rewrite upd_ne in Hp by auto. eauto.
    Qed.

    Lemma sim_new_proxy v c :
      plain_object v -> sim not_deco (new_proxy v c) (new_proxy v c).
    Proof.
      intros Hv.
      assert (H : forall c0, sim not_deco
        (p <- fresh ;; s <- get ;;
         put (set_prox (upd (st_prox s) p (Some (v, c0))) s) ;;; ret (VProxy p))
        (p <- fresh ;; s <- get ;;
         put (set_prox (upd (st_prox s) p (Some (v, c0))) s) ;;; ret (VProxy p))).
      { intros c0 s r1 s1 t1 r2 s2 t2 HO H1 H2. rewrite H1 in H2. minj H2.
        unfold bind, fresh, get, put, ret in H1. simpl in H1. minj H1. right.
        split; [auto|]. split; [auto|]. split; [reflexivity|].
        split; [apply ordinary_new_proxy; auto|]. split.
        - split; simpl; [lia|]. intros p x Hp Hx. rewrite upd_ne by lia. auto.
        - intros a Ha. injection Ha as <-. exact I. }
      unfold new_proxy. destruct c; try apply sim_raise; apply H.
    Qed.

    Lemma plain_or_proxy v : not_deco v -> is_proxy v = false -> plain_object v.
    Proof. destruct v; simpl; auto; discriminate. Qed.

    Lemma sim_proxy_method v :
      not_deco v -> sim not_deco (CheckerPy_proxy Ep I1 v) (CheckerC_proxy Ec I2 v).
    Proof.
      intros Hd. unfold CheckerPy_proxy, CheckerC_proxy.
      destruct (is_proxy v) eqn:Hpv; [apply sim_ret; exact Hd|].
      assert (Hpl := plain_or_proxy v Hd Hpv).
      intros s r1 s1 t1 r2 s2 t2 HO H1 H2.
      unfold getattr_sec_checker, getattr_sec_checker_c in H1, H2.
      destruct (i_op I1 Probe (OGetattr v "__Security_checker__" None) s) as [[x1 y1] z1] eqn:E1.
      destruct (i_op I2 Probe (OGetattr v "__Security_checker__" None) s) as [[x2 y2] z2] eqn:E2.
      destruct (si_op _ _ HI Probe (OGetattr v "__Security_checker__" None) _ eq_refl Hpv
                  _ _ _ _ _ _ _ HO E1 E2)
        as [->|(<- & <- & Ht & HO1 & HK1 & HP)].
      { unfold bind, catch in H1. rewrite E1 in H1. simpl in H1. minj H1. auto. }
      assert (Hfin : forall m1 m2 u1 u2,
        sim not_deco m1 m2 ->
        (let '(r, s', t2) := m1 y1 in (r, s', (u1 ++ t2)%list)) = (r1, s1, t1) ->
        (let '(r, s', t2) := m2 y1 in (r, s', (u2 ++ t2)%list)) = (r2, s2, t2) ->
        same_trace u1 u2 ->
        r1 = Exc EFuel \/
        (r1 = r2 /\ s1 = s2 /\ same_trace t1 t2 /\ ordinary E s1 /\ proxies_kept s s1 /\
         forall a, r1 = Ok a -> not_deco a)).
      { intros m1 m2 u1 u2 Hs F1 F2 Hu.
        destruct (m1 y1) as [[a1 b1] c1] eqn:G1. destruct (m2 y1) as [[a2 b2] c2] eqn:G2.
        minj F1. minj F2.
        destruct (Hs _ _ _ _ _ _ _ HO1 G1 G2) as [->|(<- & <- & Ht2 & HO2 & HK2 & HQ)]; [auto|].
        right. split; [auto|]. split; [auto|]. split; [apply same_trace_app; auto|].
        split; [auto|]. split; [eapply kept_trans; eauto|]. auto. }
      destruct x1 as [c|e].
      - assert (Hc : c <> VNone) by (apply (proj2 (HP c eq_refl)); reflexivity).
        erewrite bind_ok in H1 by (apply catch_ok; exact E1).
        erewrite bind_ok in H2 by (apply catch_ok; rewrite (bind_ok _ _ _ _ _ _ E2); reflexivity).
        assert (Hs : sim not_deco
                  match c with
                  | VNone => oc <- selectChecker Ep I1 v ;;
                             match oc with None => ret v | Some c' => new_proxy v c' end
                  | _ => new_proxy v c
                  end
                  match Some c with
                  | None => sc <- selectCheckerC Ec I2 v ;;
                            match sc with None => ret v | Some c0 => new_proxy v c0 end
                  | Some VNone => raise (EValue "Invalid value, None. for security checker")
                  | Some c0 => new_proxy v c0
                  end) by (destruct c; try congruence; apply sim_new_proxy; auto).
        eapply Hfin; [exact Hs|exact H1|exact H2|]. rewrite app_nil_r. exact Ht.
      - destruct (si_own _ _ HI v Hpl s e y1 z1 HO E1) as [->|He].
        { unfold bind, catch in H1. rewrite E1 in H1. simpl in H1. minj H1. auto. }
        apply attribute_error_iff in He.
        erewrite bind_ok in H1
          by (rewrite (catch_exc _ _ _ _ _ _ E1); cbv beta; rewrite He; reflexivity).
        erewrite bind_ok in H2
          by (erewrite catch_exc by (apply bind_exc; exact E2); reflexivity).
        assert (Hs : sim not_deco
                  (oc <- selectChecker Ep I1 v ;;
                   match oc with None => ret v | Some c' => new_proxy v c' end)
                  (sc <- selectCheckerC Ec I2 v ;;
                   match sc with None => ret v | Some c0 => new_proxy v c0 end)).
        { eapply sim_bind; [apply sim_selectCheckerC|]. intros oc _.
          destruct oc; [apply sim_new_proxy; auto|apply sim_ret; auto]. }
        eapply Hfin; [exact Hs|exact H1|exact H2|]. rewrite !app_nil_r. exact Ht.
    Qed.

    Lemma sim_sec_checker v :
      is_proxy v = false ->
      sim anyv (getattr_sec_checker I1 v) (getattr_sec_checker I2 v).
    Proof.
      intros Hv. unfold getattr_sec_checker. apply sim_catch.
      - eapply sim_weaken; [|apply (si_op _ _ HI Probe
                               (OGetattr v "__Security_checker__" None) _ eq_refl Hv)].
        intros a _. exact I.
      - intros s. eexists _, _. reflexivity.
      - intros e. destruct (is_attribute_error e); [apply sim_ret; exact I|apply sim_raise].
    Qed.

    Lemma sim_checker_proxy c v :
      not_deco v -> sim not_deco (checker_proxy Ep I1 c v) (checker_proxy Ec I2 c v).
    Proof.
      intros Hv.
      assert (HF : sim not_deco (foreign Ep Probe (CallProxy c v)) (foreign Ec Probe (CallProxy c v))).
      { eapply sim_weaken; [|apply sim_foreign; reflexivity]. intros a H. apply H. }
      unfold checker_proxy. destruct c; try exact HF. simpl e_cimpl. cbv iota.
      pose proof (sim_proxy_method v Hv) as Hm. pose proof (sim_selectChecker v) as Hsel.
      destruct cb; [|exact Hm]. clear Hm.
      unfold CheckerPy_proxy. destruct (is_proxy v) eqn:Hpv; [apply sim_ret; exact Hv|].
      assert (Hpl := plain_or_proxy v Hv Hpv).
      eapply sim_bind; [apply sim_sec_checker; exact Hpv|]. intros c1 _.
      destruct c1; try (apply sim_new_proxy; exact Hpl).
      eapply sim_bind; [exact Hsel|]. intros oc _.
      destruct oc; [apply sim_new_proxy; exact Hpl|apply sim_ret; exact Hv].
    Qed.

    (** ** A known proxy *)

    Definition simw {A} (p : id) (w c : value) (Q : A -> Prop) (m1 m2 : M A) : Prop :=
      forall s r1 s1 t1 r2 s2 t2,
        ordinary E s -> st_prox s p = Some (w, c) ->
        m1 s = (r1, s1, t1) -> m2 s = (r2, s2, t2) ->
        r1 = Exc EFuel \/
        (r1 = r2 /\ s1 = s2 /\ same_trace t1 t2 /\ ordinary E s1 /\ proxies_kept s s1 /\
         forall a, r1 = Ok a -> Q a).

    Lemma simw_sim {A} p w c (Q : A -> Prop) m1 m2 : sim Q m1 m2 -> simw p w c Q m1 m2.
    Proof. intros H s r1 s1 t1 r2 s2 t2 HO _ H1 H2. eapply H; eauto. Qed.

    Lemma simw_bind {A B} p w c (P : A -> Prop) (Q : B -> Prop) m1 m2 f1 f2 :
      simw p w c P m1 m2 -> (forall a, P a -> simw p w c Q (f1 a) (f2 a)) ->
      simw p w c Q (bind m1 f1) (bind m2 f2).
    Proof.
      intros Hm Hf s r1 s1 t1 r2 s2 t2 HO Hx H1 H2. unfold bind in H1, H2.
      destruct (m1 s) as [[x1 y1] z1] eqn:E1. destruct (m2 s) as [[x2 y2] z2] eqn:E2.
      destruct (Hm _ _ _ _ _ _ _ HO Hx E1 E2) as [->|(<- & <- & Ht & HO1 & HK1 & HP)].
      { minj H1. auto. }
      assert (Hx1 : st_prox y1 p = Some (w, c)).
      { apply HK1; [|exact Hx]. apply (or_heap E s HO p _ Hx). }
      destruct x1 as [a|e].
      - destruct (f1 a y1) as [[u1 v1] w1] eqn:F1. destruct (f2 a y1) as [[u2 v2] w2] eqn:F2.
        minj H1. minj H2.
        destruct (Hf a (HP a eq_refl) _ _ _ _ _ _ _ HO1 Hx1 F1 F2)
          as [->|(<- & <- & Ht2 & HO2 & HK2 & HQ)]; [auto|].
        right. split; [auto|]. split; [auto|]. split; [apply same_trace_app; auto|].
        split; [auto|]. split; [eapply kept_trans; eauto|]. auto.
      - minj H1. minj H2. right. split; [auto|]. split; [auto|]. split; [auto|]. split; [auto|].
        split; [auto|]. discriminate.
    Qed.

    Lemma bind_pget {B} p w c (f : value * value -> M B) s :
      st_prox s p = Some (w, c) -> bind (pget p) f s = f (w, c) s.
    Proof.
      intros H. unfold pget, bind, get, ret. rewrite H. destruct (f (w, c) s) as [[? ?] ?].
      reflexivity.
    Qed.

    Lemma simw_pget_l {B} p w c (Q : B -> Prop) f1 m2 :
      simw p w c Q (f1 (w, c)) m2 -> simw p w c Q (bind (pget p) f1) m2.
    Proof.
      intros H s r1 s1 t1 r2 s2 t2 HO Hx H1 H2. rewrite (bind_pget _ _ _ _ _ Hx) in H1.
      exact (H _ _ _ _ _ _ _ HO Hx H1 H2).
    Qed.
    Lemma simw_pget_r {B} p w c (Q : B -> Prop) m1 f2 :
      simw p w c Q m1 (f2 (w, c)) -> simw p w c Q m1 (bind (pget p) f2).
    Proof.
      intros H s r1 s1 t1 r2 s2 t2 HO Hx H1 H2. rewrite (bind_pget _ _ _ _ _ Hx) in H2.
      exact (H _ _ _ _ _ _ _ HO Hx H1 H2).
    Qed.

    Lemma sim_open {B} p (Q : B -> Prop) f1 f2 :
      (forall w c, plain_object w -> simw p w c Q (f1 (w, c)) (f2 (w, c))) ->
      sim Q (bind (pget p) f1) (bind (pget p) f2).
    Proof.
      intros H s r1 s1 t1 r2 s2 t2 HO H1 H2.
      destruct (st_prox s p) as [[w c]|] eqn:Hx.
      - rewrite (bind_pget _ _ _ _ _ Hx) in H1. rewrite (bind_pget _ _ _ _ _ Hx) in H2.
        exact (H w c (or_wrapped E s HO p w c Hx) _ _ _ _ _ _ _ HO Hx H1 H2).
      - unfold pget, bind, get, raise in H1, H2. rewrite Hx in H1, H2. minj H1. minj H2.
        right. split; [auto|]. split; [auto|]. split; [reflexivity|]. split; [auto|].
        split; [apply kept_refl|]. discriminate.
    Qed.

    Lemma slot_mode_same s c m :
      ordinary E s -> m <> MSetattr -> erase_mode (slot_mode s c m) = MCheck.
    Proof.
      intros HO Hm. unfold slot_mode. destruct c; try (destruct m; simpl; congruence).
      destruct (st_chks s c) as [k|] eqn:Hk; [|destruct m; simpl; congruence].
      destruct (or_kinds E s HO c k Hk) as [Hp|[c2 Hp]]; rewrite Hp; reflexivity.
    Qed.

    (** Check, then go on with the known proxy. *)
    Lemma sim_checked {B} (Q : B -> Prop) p m1 m nm K1 K2 :
      erase_mode m1 = erase_mode m ->
      (forall w c, plain_object w -> simw p w c Q (K1 (w, c)) K2) ->
      sim Q (wc <- pget p ;; i_check I1 m1 (snd wc) (fst wc) nm ;;; K1 wc)
            (c_check I2 p m nm ;;; K2).
    Proof.
      intros Hm HK s r1 s1 t1 r2 s2 t2 HO H1 H2.
      assert (Hm2 : c_check I2 p m nm s =
                    (wc <- pget p ;;
                     i_check I2 (match m with MSetattr => MSetattr | _ => slot_mode s (snd wc) m end)
                             (snd wc) (fst wc) nm) s).
      { unfold c_check, pget, bind, get, ret, raise. destruct (st_prox s p); [|reflexivity].
        destruct m; simpl; destruct (i_check I2 _ _ _ nm s) as [[? ?] ?]; reflexivity. }
      assert (H2' : (wc <- pget p ;;
                     i_check I2 (match m with MSetattr => MSetattr | _ => slot_mode s (snd wc) m end)
                             (snd wc) (fst wc) nm ;;; K2) s = (r2, s2, t2)).
      { rewrite <- H2. unfold bind at 3. rewrite Hm2.
        unfold pget, bind, get, ret, raise. destruct (st_prox s p) as [[w c]|]; [|reflexivity].
        simpl. destruct (i_check I2 _ c w nm s) as [[x y] z]. destruct x; [|reflexivity].
        destruct (K2 y) as [[? ?] ?]. reflexivity. }
      clear H2 Hm2.
      destruct (st_prox s p) as [[w c]|] eqn:Hx.
      - rewrite (bind_pget _ _ _ _ _ Hx) in H1. rewrite (bind_pget _ _ _ _ _ Hx) in H2'. simpl fst in *. simpl snd in *.
        assert (Hp := or_wrapped E s HO p w c Hx).
        assert (Hsim : simw p w c Q (i_check I1 m1 c w nm ;;; K1 (w, c))
                  (i_check I2 (match m with MSetattr => MSetattr | _ => slot_mode s c m end)
                           c w nm ;;; K2)).
        { eapply simw_bind; [|intros _ _; apply HK; exact Hp].
          apply simw_sim. apply (si_check _ _ HI).
          - rewrite Hm. destruct m; try reflexivity;
              rewrite slot_mode_same by (auto; discriminate); reflexivity.
          - right. exact Hp. }
        exact (Hsim _ _ _ _ _ _ _ HO Hx H1 H2').
      - unfold pget, bind, get, raise in H1, H2'. rewrite Hx in H1, H2'. minj H1. minj H2'.
        right. split; [auto|]. split; [auto|]. split; [reflexivity|]. split; [auto|].
        split; [apply kept_refl|]. discriminate.
    Qed.

    Lemma simw_checked {B} (Q : B -> Prop) p w c m1 m nm K1 K2 :
      erase_mode m1 = erase_mode m -> plain_object w ->
      simw p w c Q (K1 (w, c)) K2 ->
      simw p w c Q (wc <- pget p ;; i_check I1 m1 (snd wc) (fst wc) nm ;;; K1 wc)
                   (c_check I2 p m nm ;;; K2).
    Proof.
      intros Hm Hp HK s r1 s1 t1 r2 s2 t2 HO Hx H1 H2.
      rewrite (bind_pget _ _ _ _ _ Hx) in H1. simpl fst in H1. simpl snd in H1.
      assert (Hm2 : c_check I2 p m nm s =
                    i_check I2 (match m with MSetattr => MSetattr | _ => slot_mode s c m end)
                            c w nm s).
      { unfold c_check. rewrite (bind_pget _ _ _ _ _ Hx). simpl fst. simpl snd.
        unfold bind, get. destruct m; destruct (i_check I2 _ c w nm s) as [[? ?] ?]; reflexivity. }
      assert (H2' : (i_check I2 (match m with MSetattr => MSetattr | _ => slot_mode s c m end)
                             c w nm ;;; K2) s = (r2, s2, t2)).
      { rewrite <- H2. unfold bind. rewrite Hm2. reflexivity. }
      assert (Hsim : simw p w c Q (i_check I1 m1 c w nm ;;; K1 (w, c))
                (i_check I2 (match m with MSetattr => MSetattr | _ => slot_mode s c m end)
                         c w nm ;;; K2)).
      { eapply simw_bind; [|intros _ _; exact HK].
        apply simw_sim. apply (si_check _ _ HI).
        - rewrite Hm. destruct m; try reflexivity;
            rewrite slot_mode_same by (auto; discriminate); reflexivity.
        - right. exact Hp. }
      exact (Hsim _ _ _ _ _ _ _ HO Hx H1 H2').
    Qed.

    Lemma sim_guard p m nm op1 op2 :
      m <> MSetattr ->
      (forall w, plain_object w -> sim not_deco (op1 w) (op2 w)) ->
      sim not_deco (py_check_name Ep I1 p nm op1) (c_check1 Ec I2 p m nm op2).
    Proof.
      intros Hm Hop. unfold py_check_name, c_check1.
      apply (sim_checked not_deco p MCheck m nm
               (fun wc => wc2 <- pget p ;; res <- op1 (fst wc2) ;; checker_proxy Ep I1 (snd wc) res)).
      - destruct m; simpl; congruence.
      - intros w c Hp. apply simw_pget_l, simw_pget_r. simpl fst. simpl snd.
        eapply simw_bind; [apply simw_sim, Hop; exact Hp|].
        intros v Hv. unfold c_proxy_result. apply simw_pget_r. apply simw_sim.
        apply sim_checker_proxy. exact Hv.
    Qed.

    Lemma sim_nowrap {Q : value -> Prop} p nm op1 op2 :
      (forall w, plain_object w -> sim Q (op1 w) (op2 w)) ->
      sim Q (py_check_name_nowrap I1 p nm op1) (c_check0 I2 p MCheck nm op2).
    Proof.
      intros Hop. unfold py_check_name_nowrap, c_check0.
      apply (sim_checked Q p MCheck MCheck nm (fun wc => wc2 <- pget p ;; op1 (fst wc2)));
        [reflexivity|].
      intros w c Hp. apply simw_pget_l, simw_pget_r. simpl fst. apply simw_sim, Hop, Hp.
    Qed.

    Lemma sim_set {Q : value -> Prop} p nm op1 op2 :
      (forall w, plain_object w -> sim Q (op1 w) (op2 w)) ->
      sim Q (wc <- pget p ;; i_check I1 MSetattr (snd wc) (fst wc) nm ;;; op1 (fst wc))
            (c_check0 I2 p MSetattr nm op2).
    Proof.
      intros Hop. unfold c_check0.
      apply (sim_checked Q p MSetattr MSetattr nm (fun wc => op1 (fst wc))); [reflexivity|].
      intros w c Hp. apply simw_pget_r. simpl fst. apply simw_sim, Hop, Hp.
    Qed.


    (** ** All operations *)

    Lemma raw_full k o1 o2 :
      erase_op o1 = erase_op o2 ->
      match o1 with OCmp _ _ r => is_proxy r = false | _ => True end ->
      sim (full_result o1) (raw Ep k o1) (raw Ec k o2).
    Proof.
      intros He Hr. eapply sim_weaken; [|apply sim_raw; exact He].
      intros v [Hd Hv]. split; [exact Hd|]. destruct o1; auto.
      destruct Hv as [Hv|[_ Hv]]; [exact Hv|]. congruence.
    Qed.

    Lemma raw_plain k o : sim not_deco (raw Ep k o) (raw Ec k o).
    Proof. eapply sim_weaken; [|apply sim_raw; reflexivity]. intros v [Hd _]. exact Hd. Qed.

    Lemma full_plain (o : op) (Q : value -> Prop) m1 m2 :
      (forall v, not_deco v -> Q v) -> sim not_deco m1 m2 -> sim Q m1 m2.
    Proof. intros H. apply sim_weaken. exact H. Qed.

    Lemma op_plain k o :
      common_op o -> sim not_deco (i_op I1 k o) (i_op I2 k o).
    Proof.
      intros Hc. eapply sim_weaken; [|apply (si_op _ _ HI k o o eq_refl Hc)].
      intros v [Hd _]. exact Hd.
    Qed.

    Lemma sim_bin_right k p b l :
      is_proxy l = false ->
      sim not_deco (proxy_bin_right Ep I1 k p b l) (proxy_bin_right Ec I2 k p b l).
    Proof.
      intros Hl. unfold proxy_bin_right, proxy_guard. simpl e_impl. cbv iota.
      assert (Hn : c_rbinop_name b = py_rbinop_name b) by (destruct b; reflexivity).
      rewrite Hn. apply sim_guard; [discriminate|]. intros w Hp. apply op_plain. exact I.
    Qed.

    Lemma sim_run_bin k b l r :
      sim not_deco (run_op Ep I1 k (OBin b l r)) (run_op Ec I2 k (OBin b l r)).
    Proof.
      destruct (is_proxy l) eqn:Hl.
      - destruct l as [| | | | | | | |p| | | | |]; try discriminate. simpl run_op.
        unfold proxy_bin_left, proxy_guard. simpl e_impl. cbv iota.
        assert (Hn : c_binop_name b = py_binop_name b) by (destruct b; reflexivity).
        rewrite Hn. apply sim_guard; [discriminate|]. intros w Hp. apply op_plain. exact I.
      - assert (Hn : forall p, r = VProxy p ->
          sim not_deco
            (v <- raw Ep k (OBin b l r) ;;
             if value_eqb v VNotImpl then proxy_bin_right Ep I1 k p b l else ret v)
            (v <- raw Ec k (OBin b l r) ;;
             if value_eqb v VNotImpl then proxy_bin_right Ec I2 k p b l else ret v)).
        { intros p _. eapply sim_bind; [apply raw_plain|]. intros v Hv.
          destruct (value_eqb v VNotImpl); [apply sim_bin_right; auto|apply sim_ret; exact Hv]. }
        destruct r as [| | | | | | | |p| | | | |];
          destruct l; try discriminate;
          try (exact (Hn p eq_refl)); exact (raw_plain k _).
    Qed.

    Lemma sim_run_in k b l r :
      is_proxy l = false ->
      sim not_deco (run_op Ep I1 k (OIn b l r)) (run_op Ec I2 k (OIn b l r)).
    Proof.
      intros Hl.
      assert (Hn : forall p, r = VProxy p ->
          sim not_deco
            (v <- raw Ep k (OIn b l r) ;;
             if value_eqb v VNotImpl then proxy_bin_right Ep I1 k p (inop_bin b) l else ret v)
            (v <- raw Ec k (OIn b l r) ;;
             if value_eqb v VNotImpl then proxy_bin_right Ec I2 k p (inop_bin b) l else ret v)).
      { intros p _. eapply sim_bind; [apply raw_plain|]. intros v Hv.
        destruct (value_eqb v VNotImpl); [apply sim_bin_right; auto|apply sim_ret; exact Hv]. }
      destruct r as [| | | | | | | |p| | | | |];
        destruct l; try discriminate;
        try (exact (Hn p eq_refl)); exact (raw_plain k _).
    Qed.

    Definition gives_bool (v : value) : Prop := exists b, v = VBool b.

    Lemma sim_compare k p c other :
      sim gives_bool (py_compare I1 k p c other) (c_richcompare Ec I2 k p c other).
    Proof.
      unfold py_compare, c_richcompare. apply sim_open. intros w ck Hp.
      assert (H : simw p w ck gives_bool
                (r <- i_op I1 k (OCmp c w other) ;; ret r)
                (r <- i_op I2 k (OCmp c w other) ;;
                 match r with VBool _ => ret r | _ => c_proxy_result Ec I2 p r end)).
      { eapply simw_bind; [apply simw_sim, (si_op _ _ HI k (OCmp c w other) _ eq_refl I)|].
        intros v [_ [b ->]]. apply simw_sim, sim_ret. exists b. reflexivity. }
      intros s r1 s1 t1 r2 s2 t2 HO Hx H1 H2.
      eapply H; eauto. simpl fst in *.
      unfold bind. rewrite H1. destruct r1; [|reflexivity]. simpl. rewrite app_nil_r. reflexivity.
    Qed.

    Lemma sim_run_cmp k c l r :
      sim gives_bool (run_op Ep I1 k (OCmp c l r)) (run_op Ec I2 k (OCmp c l r)).
    Proof.
      destruct (is_proxy l) eqn:Hl.
      - destruct l as [| | | | | | | |p| | | | |]; try discriminate. simpl run_op.
        apply sim_compare.
      - destruct (is_proxy r) eqn:Hr.
        + destruct r as [| | | | | | | |p| | | | |]; try discriminate.
          assert (H : sim gives_bool
            (v <- raw Ep k (OCmp c l (VProxy p)) ;;
             if value_eqb v VNotImpl then py_compare I1 k p (swap_cmp c) l else ret v)
            (v <- raw Ec k (OCmp c l (VProxy p)) ;;
             if value_eqb v VNotImpl then c_richcompare Ec I2 k p (swap_cmp c) l else ret v)).
          { eapply sim_bind; [apply sim_raw; reflexivity|]. intros v [_ Hv].
            destruct Hv as [[b ->]|[-> _]].
            - apply sim_ret. exists b. reflexivity.
            - apply sim_compare. }
          destruct l; try discriminate; exact H.
        + assert (H : sim gives_bool (raw Ep k (OCmp c l r)) (raw Ec k (OCmp c l r))).
          { eapply sim_weaken; [|apply (raw_full k (OCmp c l r) _ eq_refl Hr)].
            intros v [_ Hv]. exact Hv. }
          destruct l; try discriminate; destruct r; try discriminate; exact H.
    Qed.

    Lemma sim_run_op k o1 o2 :
      erase_op o1 = erase_op o2 -> common_op o1 ->
      sim (full_result o1) (run_op Ep I1 k o1) (run_op Ec I2 k o2).
    Proof.
      intros He Hc.
      assert (Hraw : match o1 with OCmp _ _ r => is_proxy r = false | _ => True end ->
                     sim (full_result o1) (raw Ep k o1) (raw Ec k o2))
        by (intros Hr; apply raw_full; auto).
      destruct o1 as [v n fr|v n x|v n|v args|u v|u v|b l r|a b m|b l r|v x|v x y|v x|v x|v|v|v|v|v
                     |c v x|v|v|v];
        destruct o2 as [v' n' fr'| | | | | | | | | | | | | | | | | | | | |];
        simpl in He; try discriminate He.
      1:{ injection He as <- <-. simpl in Hc.
          destruct v as [| | | | | | | |p|d| | | |]; try discriminate Hc; simpl run_op;
            try (destruct (String.eqb n "__Security_checker__");
                 [apply sim_raise|apply Hraw; exact I]);
            try (apply Hraw; exact I).
          unfold deco_getattr, Decorated_get.
          destruct (String.eqb n "__Security_checker__"); apply sim_get; intros s HO;
            rewrite (or_decorators E s HO d); apply sim_raise. }
      all: try (injection He as <- <- <-); try (injection He as <- <-); try (injection He as <-).
      - (* setattr *)
        destruct v as [| | | | | | | |p|d| | | |]; try exact (Hraw I).
        + simpl run_op. unfold proxy_setattr. simpl e_impl. cbv iota. unfold py_setattr.
          simpl in Hc. unfold internal_name in Hc.
          destruct (String.eqb_spec n "_wrapped"); [tauto|].
          destruct (String.eqb_spec n "_checker"); [tauto|].
          apply (sim_set p n (fun w => i_op I1 k (OSetattr w n x))).
          intros w Hp. eapply sim_weaken; [|apply op_plain].
          * intros v Hv. split; [exact Hv|exact I].
          * destruct w; simpl in *; auto; contradiction.
        + simpl run_op. unfold deco_setattr.
          destruct (String.eqb n "__Security_checker__"); [apply sim_raise|].
          apply sim_get. intros s HO. rewrite (or_decorators E s HO d). apply sim_raise.
      - (* delattr *)
        destruct v as [| | | | | | | |p| | | | |]; try exact (Hraw I).
        simpl run_op. unfold proxy_delattr. simpl e_impl. cbv iota. unfold py_delattr.
        simpl in Hc. unfold internal_name in Hc.
        destruct (String.eqb_spec n "_wrapped"); [tauto|].
        destruct (String.eqb_spec n "_checker"); [tauto|]. cbn [orb].
        apply (sim_set p n (fun w => i_op I1 k (ODelattr w n))).
        intros w Hp. eapply sim_weaken; [|apply op_plain].
        + intros v Hv. split; [exact Hv|exact I].
        + destruct w; simpl in *; auto; contradiction.
      - (* call *)
        eapply (full_plain (OCall v args)); [intros x Hx; split; [exact Hx|exact I]|].
        destruct v as [| | | | | | | |p| | | | |]; try exact (raw_plain k _).
        simpl run_op. apply sim_guard; [discriminate|]. intros w Hp. apply op_plain. exact I.
      - (* unary *)
        eapply (full_plain (OUn u v)); [intros x Hx; split; [exact Hx|exact I]|].
        destruct v as [| | | | | | | |p| | | | |]; try exact (raw_plain k _).
        simpl run_op. unfold proxy_guard. simpl e_impl. cbv iota.
        assert (Hn : c_unop_name u = py_unop_name u) by (destruct u; reflexivity).
        rewrite Hn. apply sim_guard; [discriminate|]. intros w Hp. apply op_plain. exact I.
      - destruct v; try discriminate Hc; exact (Hraw I).
      - eapply (full_plain (OBin b l r)); [intros x Hx; split; [exact Hx|exact I]|].
        apply sim_run_bin.
      - (* pow *)
        eapply (full_plain (OPow3 a b m)); [intros x Hx; split; [exact Hx|exact I]|].
        simpl in Hc. destruct Hc as [Hb Hm].
        destruct a as [| | | | | | | |p| | | | |];
          try (simpl run_op; unfold proxy_pow3; rewrite Hb, Hm; exact (raw_plain k _)).
        simpl run_op. unfold proxy_pow3. apply sim_guard; [discriminate|].
        intros w Hp. apply op_plain. simpl. auto.
      - eapply (full_plain (OIn b l r)); [intros x Hx; split; [exact Hx|exact I]|].
        apply sim_run_in. exact Hc.
      - (* getitem *)
        eapply (full_plain (OGetitem v x)); [intros y Hy; split; [exact Hy|exact I]|].
        destruct v as [| | | | | | | |p| | | | |]; try exact (raw_plain k _).
        simpl run_op. apply sim_guard; [discriminate|]. intros w Hp. apply op_plain. exact I.
      - destruct v; try discriminate Hc; exact (Hraw I).
      - destruct v; try discriminate Hc; exact (Hraw I).
      - destruct v; try discriminate Hc; exact (Hraw I).
      - (* len *)
        eapply (full_plain (OLen v)); [intros y Hy; split; [exact Hy|exact I]|].
        destruct v as [| | | | | | | |p| | | | |]; try exact (raw_plain k _).
        simpl run_op. apply sim_nowrap. intros w Hp. apply op_plain. exact I.
      - (* iter *)
        eapply (full_plain (OIter v)); [intros y Hy; split; [exact Hy|exact I]|].
        destruct v as [| | | | | | | |p| | | | |]; try exact (raw_plain k _).
        simpl run_op. apply sim_guard; [discriminate|]. intros w Hp. apply op_plain. exact I.
      - (* next *)
        eapply (full_plain (ONext v)); [intros y Hy; split; [exact Hy|exact I]|].
        destruct v as [| | | | | | | |p| | | | |]; try exact (raw_plain k _).
        simpl run_op. apply sim_guard; [discriminate|]. intros w Hp. apply op_plain. exact I.
      - (* hash *)
        eapply (full_plain (OHash v)); [intros y Hy; split; [exact Hy|exact I]|].
        destruct v as [| | | | | | | |p| | | | |]; try exact (raw_plain k _).
        simpl run_op. unfold py_hash. apply sim_open. intros w c Hp. apply simw_sim.
        apply op_plain. exact I.
      - (* bool *)
        assert (Hr : sim gives_bool (raw Ep k (OBool v)) (raw Ec k (OBool v))).
        { eapply sim_weaken; [|apply sim_raw; reflexivity]. intros y [_ Hy]. exact Hy. }
        eapply sim_weaken with (Q := gives_bool).
        { intros y [b ->]. split; [exact I|]. exists b. reflexivity. }
        destruct v as [| | | | | | | |p| | | | |]; try exact Hr.
        simpl run_op. unfold py_bool. apply sim_open. intros w c Hp. apply simw_sim.
        eapply sim_weaken; [|apply (si_op _ _ HI k (OBool w) _ eq_refl I)].
        intros y [_ Hy]. exact Hy.
      - (* compare *)
        eapply sim_weaken; [|apply sim_run_cmp]. intros y [b ->].
        split; [exact I|]. exists b. reflexivity.
      - destruct v; try discriminate Hc; exact (Hraw I).
      - destruct v; try discriminate Hc; exact (Hraw I).
      - destruct v; try discriminate Hc; exact (Hraw I).
    Qed.

    (** ** Attribute access *)

    Lemma sim_getattribute k p n fr :
      common_name n ->
      sim not_deco (py_getattribute Ep I1 k p n fr)
        (c_check1 Ec I2 p MGetattr n (fun w => i_op I2 k (OGetattr w n None))).
    Proof.
      intros [Hn Hu]. unfold internal_name in Hn. unfold py_getattribute.
      destruct (String.eqb_spec n "_wrapped"); [tauto|].
      destruct (String.eqb_spec n "_checker"); [tauto|]. cbn [orb andb].
      change (mem n py_unchecked_names) with (unchecked_read n). rewrite Hu.
      unfold c_check1.
      apply (sim_checked not_deco p MGetattr MGetattr n
        (fun wc => wc2 <- pget p ;;
           val <- i_op I1 k (OGetattr (if String.eqb n "__reduce__"
                                      || String.eqb n "__reduce_ex__"
                                      || String.eqb n "__module__"
                                   then fst wc else fst wc2) n (Some (VProxy p))) ;;
           checker_proxy Ep I1 (snd wc) val)); [reflexivity|].
      intros w c Hp. apply simw_pget_l, simw_pget_r. simpl fst. simpl snd.
      assert (Hw2 : (if (String.eqb n "__reduce__" || String.eqb n "__reduce_ex__"
                         || String.eqb n "__module__")%bool then w else w) = w)
        by (destruct (_ || _)%bool; reflexivity).
      rewrite Hw2.
      eapply simw_bind.
      - apply simw_sim, (si_op _ _ HI k (OGetattr w n (Some (VProxy p)))); [reflexivity|].
        destruct w; simpl in *; auto; contradiction.
      - intros v [Hv _]. unfold c_proxy_result. apply simw_pget_r. apply simw_sim.
        apply sim_checker_proxy. exact Hv.
    Qed.

    (** ** ProxyFactory, canAccess and canWrite *)

    Lemma sim_getChecker v : sim anyv (getChecker v) (getChecker v).
    Proof.
      unfold getChecker. destruct v; try apply sim_raise.
      apply sim_get. intros s HO. destruct (st_prox s p) as [[w c]|];
        [apply sim_ret; exact I|apply sim_raise].
    Qed.

    Lemma sim_ProxyFactory obj c :
      not_deco obj -> sim not_deco (ProxyFactory Ep I1 obj c) (ProxyFactory Ec I2 obj c).
    Proof.
      intros Hd. unfold ProxyFactory. destruct (is_proxy obj) eqn:Hp.
      - assert (H : sim not_deco
          (c0 <- getChecker obj ;;
           if value_eqb c c0 then ret obj
           else raise (EType "Tried to use ProxyFactory to change a Proxy's checker."))
          (c0 <- getChecker obj ;;
           if value_eqb c c0 then ret obj
           else raise (EType "Tried to use ProxyFactory to change a Proxy's checker."))).
        { eapply sim_bind; [apply sim_getChecker|]. intros c0 _.
          destruct (value_eqb c c0); [apply sim_ret; exact Hd|apply sim_raise]. }
        destruct c; try exact H. apply sim_ret. exact Hd.
      - assert (Hpl := plain_or_proxy obj Hd Hp).
        destruct c; try (apply sim_new_proxy; exact Hpl).
        eapply sim_bind; [apply sim_sec_checker; exact Hp|]. intros c1 _.
        destruct c1; try (apply sim_new_proxy; exact Hpl).
        eapply sim_bind; [apply sim_selectChecker|]. intros oc _.
        destruct oc; [apply sim_new_proxy; exact Hpl|apply sim_ret; exact Hd].
    Qed.

    Lemma sim_canAccess obj n :
      not_deco obj -> n <> "__iter__" ->
      sim anyv (canAccess Ep I1 obj n) (canAccess Ec I2 obj n).
    Proof.
      intros Hd Hn. unfold canAccess. eapply sim_bind; [apply sim_ProxyFactory; exact Hd|].
      intros o _. eapply sim_bind; [apply sim_getChecker|]. intros c _. apply sim_catch.
      - eapply sim_bind; [apply (si_check _ _ HI); [reflexivity|left; exact Hn]|].
        intros _ _. apply sim_ret. exact I.
      - intros s. eexists _, _. reflexivity.
      - intros e. destruct (is_unauthorized e); [apply sim_ret; exact I|apply sim_raise].
    Qed.

    Lemma sim_canWrite obj n :
      not_deco obj -> n <> "__iter__" ->
      sim anyv (canWrite Ep I1 obj n) (canWrite Ec I2 obj n).
    Proof.
      intros Hd Hn. unfold canWrite. eapply sim_bind; [apply sim_ProxyFactory; exact Hd|].
      intros o _. eapply sim_bind; [apply sim_getChecker|]. intros c _. apply sim_catch.
      - eapply sim_bind; [apply (si_check _ _ HI); [reflexivity|left; exact Hn]|].
        intros _ _. apply sim_ret. exact I.
      - intros s. eexists _, _. reflexivity.
      - intros e. destruct (is_unauthorized e); [apply sim_ret; exact I|].
        destruct (is_forbidden e); [|apply sim_raise].
        eapply (sim_bind anyv); [|intros _ _; apply sim_ret; exact I].
        apply sim_catch.
        + apply (si_check _ _ HI); [reflexivity|left; exact Hn].
        + intros s. eexists _, _. reflexivity.
        + intros e2. destruct (is_unauthorized e2); [apply sim_ret; exact I|apply sim_raise].
    Qed.
  End Step.

  (** ** The knot *)

  Lemma raises_raw (X : exn -> Prop) v n :
    (forall t c s e s', c = CallOp (OGetattr v n None) -> e_run E t c s = (Exc e, s') -> X e) ->
    raises X (raw Ep Probe (OGetattr v n None)).
  Proof.
    intros HX s e s1 t1 HO H. unfold raw, foreign in H.
    destruct (e_run Ep (e_tid Ep) (CallOp (OGetattr v n None)) s) as [r s'] eqn:Hr.
    unfold bind in H. rewrite Hr in H. destruct r; simpl in H; inversion H; subst.
    right. eapply HX; [reflexivity|exact Hr].
  Qed.

  Theorem interp_sim f : sim_interp (interp_n Ep f) (interp_n Ec f).
  Proof.
    induction f as [|f IH].
    - constructor; intros; simpl; try apply sim_fuel; intros s e s1 t1 _ H0; minj H0; auto.
    - constructor; intros; simpl i_op; simpl i_check; simpl i_select.
      + apply sim_run_op; auto.
      + apply sim_checker_check; auto.
      + apply sim_select_loop; auto.
      + assert (HR : raises attribute_error
                       (raw Ep Probe (OGetattr v "__Security_checker__" None))).
        { apply raises_raw. intros t c s e s' -> Hr. eapply oc_own_exc; eauto. }
        destruct v; simpl in *; try contradiction; try exact HR;
          intros s' e s1 t1 _ H0; minj H0; right; exact I.
      + assert (HR : raises attribute_error (raw Ep Probe (OGetattr v "__iter__" None))).
        { apply raises_raw. intros t c s e s' -> Hr. eapply oc_iter_exc; eauto. }
        destruct v; simpl in *; try contradiction; exact HR.
  Qed.

  (** ** Item assignment, deletion and membership *)

  (** None and booleans are not wrapped. *)
  Lemma keep_value f c v s :
    ordinary E s -> v = VNone \/ (exists b, v = VBool b) ->
    checker_proxy Ep (interp_n Ep f) (VChk c) v s = (Ok v, s, []) \/
    exists s' t, checker_proxy Ep (interp_n Ep f) (VChk c) v s = (Exc EFuel, s', t).
  Proof.
    intros HO Hv. destruct f as [|f].
    - right. destruct Hv as [->|[b ->]]; eexists _, _; reflexivity.
    - left.
      assert (Hs : selectChecker Ep (interp_n Ep (S f)) v s = (Ok None, s, [])).
      { assert (Hr : registered Ep s v = VNoProxy).
        { destruct Hv as [->|[b ->]]; unfold registered; simpl;
            [rewrite (or_none E s HO)|rewrite (or_bool E s HO)]; reflexivity. }
        change (selectCheckerPy Ep (interp_n Ep (S f)) v s = (Ok None, s, [])).
        unfold selectCheckerPy, bind, get. rewrite Hr. reflexivity. }
      change (CheckerPy_proxy Ep (interp_n Ep (S f)) v s = (Ok v, s, [])).
      unfold CheckerPy_proxy.
      assert (Hg : getattr_sec_checker (interp_n Ep (S f)) v s = (Ok VNone, s, []))
        by (destruct Hv as [->|[b ->]]; reflexivity).
      assert (Hp : is_proxy v = false) by (destruct Hv as [->|[b ->]]; reflexivity).
      rewrite Hp, (bind_ok _ _ _ _ _ _ Hg), (bind_ok _ _ _ _ _ _ Hs). reflexivity.
  Qed.

  Lemma bind_ext {A B} (m : M A) (f g : A -> M B) s :
    (forall a s0, f a s0 = g a s0) -> bind m f s = bind m g s.
  Proof.
    intros H. unfold bind. destruct (m s) as [[[a|e] s1] t1]; [|reflexivity].
    rewrite H. reflexivity.
  Qed.

  Lemma sim_item (U : value -> Prop) f p w c nm (op1 op2 K : value -> M value) :
    (forall v, U v -> v = VNone \/ exists b, v = VBool b) ->
    plain_object w -> sim U (op1 w) (op2 w) ->
    (forall v s, U v -> K v s = (Ok v, s, [])) ->
    simw p w (VChk c) U
      (v <- py_check_name Ep (interp_n Ep f) p nm op1 ;; K v)
      (c_check0 (interp_n Ec f) p MCheck nm op2).
  Proof.
    intros HU Hp Hop HK.
    assert (Hmain : simw p w (VChk c) U
      (wc <- pget p ;; i_check (interp_n Ep f) MCheck (snd wc) (fst wc) nm ;;;
       wc2 <- pget p ;; res <- op1 (fst wc2) ;;
       v <- checker_proxy Ep (interp_n Ep f) (snd wc) res ;; K v)
      (c_check0 (interp_n Ec f) p MCheck nm op2)).
    { unfold c_check0.
      apply (simw_checked _ _ (interp_sim f) U p w (VChk c) MCheck MCheck nm
               (fun wc => wc2 <- pget p ;; res <- op1 (fst wc2) ;;
                          v <- checker_proxy Ep (interp_n Ep f) (snd wc) res ;; K v));
        [reflexivity|exact Hp|].
      apply simw_pget_l, simw_pget_r. simpl fst. simpl snd. apply simw_sim.
      intros s r1 s1 t1 r2 s2 t2 HO H1 H2.
      destruct (op1 w s) as [[x1 y1] z1] eqn:E1.
      destruct (Hop _ _ _ _ _ _ _ HO E1 H2) as [->|(<- & <- & Ht & HO1 & HK1 & HP)].
      { rewrite (bind_exc _ _ _ _ _ _ E1) in H1. minj H1. auto. }
      destruct x1 as [v|e].
      - assert (Hv := HP v eq_refl). rewrite (bind_ok _ _ _ _ _ _ E1) in H1.
        destruct (keep_value f c v y1 HO1 (HU v Hv)) as [Hc|(s' & t' & Hc)].
        + rewrite (bind_ok _ _ _ _ _ _ Hc), (HK v y1 Hv) in H1. simpl in H1. minj H1.
          right. rewrite app_nil_r. split; [auto|]. split; [auto|]. split; [auto|].
          split; [auto|]. split; [auto|]. exact HP.
        + rewrite (bind_exc _ _ _ _ _ _ Hc) in H1. minj H1. auto.
      - rewrite (bind_exc _ _ _ _ _ _ E1) in H1. minj H1.
        right. split; [auto|]. split; [auto|]. split; [auto|].
        split; [auto|]. split; [auto|]. exact HP. }
    intros s r1 s1 t1 r2 s2 t2 HO Hx H1 H2.
    eapply Hmain; eauto. rewrite <- H1. unfold py_check_name.
    rewrite bind_assoc. apply bind_ext. intros wc s0. cbv beta.
    rewrite bind_assoc. apply bind_ext. intros u s3. cbv beta.
    rewrite bind_assoc. apply bind_ext. intros wc2 s4. cbv beta.
    rewrite bind_assoc. reflexivity.
  Qed.

  Lemma run_raw f k o :
    match o with
    | OSetitem w _ _ | ODelitem w _ | OContains w _ => plain_object w
    | _ => False
    end ->
    sim (fun v => match o with OContains _ _ => exists b, v = VBool b | _ => v = VNone end)
        (i_op (interp_n Ep f) k o) (i_op (interp_n Ec f) k o).
  Proof.
    intros Hp. destruct f as [|f]; [apply sim_fuel|].
    assert (HR : sim (fun v => match o with OContains _ _ => exists b, v = VBool b
                               | _ => v = VNone end) (raw Ep k o) (raw Ec k o)).
    { unfold raw. eapply sim_bind; [apply sim_foreign; reflexivity|].
      intros v _. destruct o; try contradiction; simpl; try (apply sim_ret; reflexivity).
      destruct v; try apply sim_raise. apply sim_ret. eexists. reflexivity. }
    destruct o as [| | | | | | | | | |v x y|v x|v x| | | | | | | | |]; try contradiction;
      destruct v; simpl in Hp; try contradiction; exact HR.
  Qed.

  Theorem item_sim f k o p w c :
    match o with
    | OSetitem (VProxy q) _ _ | ODelitem (VProxy q) _ | OContains (VProxy q) _ => q = p
    | _ => False
    end ->
    plain_object w ->
    simw p w (VChk c) anyv (i_op (interp_n Ep f) k o) (i_op (interp_n Ec f) k o).
  Proof.
    intros Ho Hp. destruct f as [|f]; [apply simw_sim, sim_fuel|].
    destruct o as [| | | | | | | | | |v x y|v x|v x| | | | | | | | |]; try contradiction;
      destruct v as [| | | | | | | |q| | | | |]; try contradiction; subst q; simpl i_op.
    - intros s r1 s1 t1 r2 s2 t2 HO Hx H1 H2.
      destruct (sim_item (fun v => v = VNone) f p w c "__setitem__"
                  (fun w0 => i_op (interp_n Ep f) k (OSetitem w0 x y))
                  (fun w0 => i_op (interp_n Ec f) k (OSetitem w0 x y)) (fun _ => ret VNone)
                  (fun v Hv => or_introl Hv) Hp (run_raw f k (OSetitem w x y) Hp)
                  (fun v s0 Hv => ltac:(rewrite Hv; reflexivity))
                  _ _ _ _ _ _ _ HO Hx H1 H2) as [G|(A & B & C & D & F & G)]; [auto|].
      right. split; [auto|]. split; [auto|]. split; [auto|]. split; [auto|].
      split; [auto|]. intros; exact I.
    - intros s r1 s1 t1 r2 s2 t2 HO Hx H1 H2.
      destruct (sim_item (fun v => v = VNone) f p w c "__delitem__"
                  (fun w0 => i_op (interp_n Ep f) k (ODelitem w0 x))
                  (fun w0 => i_op (interp_n Ec f) k (ODelitem w0 x)) (fun _ => ret VNone)
                  (fun v Hv => or_introl Hv) Hp (run_raw f k (ODelitem w x) Hp)
                  (fun v s0 Hv => ltac:(rewrite Hv; reflexivity))
                  _ _ _ _ _ _ _ HO Hx H1 H2) as [G|(A & B & C & D & F & G)]; [auto|].
      right. split; [auto|]. split; [auto|]. split; [auto|]. split; [auto|].
      split; [auto|]. intros; exact I.
    - intros s r1 s1 t1 r2 s2 t2 HO Hx H1 H2.
      destruct (sim_item (fun v => exists b, v = VBool b) f p w c "__contains__"
                  (fun w0 => i_op (interp_n Ep f) k (OContains w0 x))
                  (fun w0 => i_op (interp_n Ec f) k (OContains w0 x))
                  (fun r => b <- truth (interp_n Ep f) r ;; ret (VBool b))
                  (fun v Hv => or_intror Hv) Hp (run_raw f k (OContains w x) Hp)
                  (fun v s0 Hv => ltac:(destruct Hv as [b ->]; reflexivity))
                  _ _ _ _ _ _ _ HO Hx H1 H2) as [G|(A & B & C & D & F & G)]; [auto|].
      right. split; [auto|]. split; [auto|]. split; [auto|]. split; [auto|].
      split; [auto|]. intros; exact I.
  Qed.
End Lockstep.
