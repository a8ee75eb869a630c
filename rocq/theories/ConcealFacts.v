(** * ConcealFacts: runs with different implementations of what is concealed are equal. *)

From Coq Require Import List String Bool Arith ZArith Lia.
From Verif Require Import Base Domain CheckerModel ProxyModel MFacts Spec RegSpec CheckFacts
  RegistryFacts ProxySpec SafeFacts ProxyFacts MediationSpec SessionSpec ConcealSpec.
Import ListNotations.
Open Scope string_scope.
Open Scope m_scope.
Local Arguments String.eqb : simpl never.

Section NI.
  Variable E : env.
  Variable run2 : id -> call -> state -> res value * state.
  Variable w : value.
  Variable hidden : name -> Prop.
  Variable guards : list (id * checker).
  Variable lacking : perm -> Prop.
  Hypothesis Hplain : plain_object w.
  Hypothesis Hnames : forall n, hidden n -> concealable n.
  Hypothesis HR : respects E w hidden guards lacking.
  Hypothesis Hinpl : inplace_too hidden.
  Hypothesis HD : differs_only_there E w hidden run2.

  Notation E2 := (with_run E run2).
  Notation Inv := (Concealed E w hidden guards lacking).
  Notation okop o := (~ concerns hidden w o).

  Definition known (K : list (id * (value * value))) (s : state) : Prop :=
    forall p x, In (p, x) K -> st_prox s p = Some x.

  Lemma kept_refl s : proxies_kept s s.
  Proof. split; auto. Qed.
  Lemma kept_trans s1 s2 s3 : proxies_kept s1 s2 -> proxies_kept s2 s3 -> proxies_kept s1 s3.
  Proof.
    intros [A B] [A' B']. split; [lia|]. intros p x Hp Hx. apply B'; [lia|]. auto.
  Qed.
  Lemma known_kept K s s' : Inv s -> known K s -> proxies_kept s s' -> known K s'.
  Proof.
    intros HI HK [_ H] p x Hin. apply H; auto. eapply (cc_heap _ _ _ _ _ _ HI). eauto.
  Qed.

  (** Both computations do the same from every state in which the object is concealed, and
      it stays so. *)
  Definition ni_at {A} s (Q : A -> Prop) (m1 m2 : M A) : Prop :=
    m1 s = m2 s /\
    forall r s' t, m1 s = (r, s', t) ->
      Inv s' /\ proxies_kept s s' /\ forall a, r = Ok a -> Q a.
  Definition ni {A} K (Q : A -> Prop) (m1 m2 : M A) : Prop :=
    forall s, Inv s -> known K s -> ni_at s Q m1 m2.

  Lemma at_ni {A} K s (Q : A -> Prop) m1 m2 : Inv s -> known K s -> ni K Q m1 m2 -> ni_at s Q m1 m2.
  Proof. intros HI HK H. exact (H s HI HK). Qed.
  Lemma ni_get_at {B} K (Q : B -> Prop) (f1 f2 : state -> M B) :
    (forall s, Inv s -> known K s -> ni_at s Q (f1 s) (f2 s)) ->
    ni K Q (bind get f1) (bind get f2).
  Proof.
    intros Hf s HI HK. unfold ni_at. rewrite !bind_get. exact (Hf s HI HK).
  Qed.

  Definition anyv {A} (a : A) : Prop := True.

  Lemma ni_weaken {A} K (Q Q' : A -> Prop) m1 m2 :
    (forall a, Q a -> Q' a) -> ni K Q m1 m2 -> ni K Q' m1 m2.
  Proof.
    intros HQ H s HI HK. destruct (H s HI HK) as [Ha Hb]. split; [exact Ha|].
    intros r s' t Hr. destruct (Hb r s' t Hr) as (X1 & X2 & X3). auto.
  Qed.
  Lemma ni_less {A} K (Q : A -> Prop) m1 m2 : ni [] Q m1 m2 -> ni K Q m1 m2.
  Proof. intros H s HI HK. apply H; auto. intros p x []. Qed.
  Lemma ni_ret {A} K (Q : A -> Prop) a : Q a -> ni K Q (ret a) (ret a).
  Proof.
    intros HQ s HI HK. split; [reflexivity|]. intros r s' t H. minj H.
    split; [auto|]. split; [apply kept_refl|]. intros x [= <-]. auto.
  Qed.
  Lemma ni_raise {A} K (Q : A -> Prop) e : ni K Q (raise e) (raise e).
  Proof.
    intros s HI HK. split; [reflexivity|]. intros r s' t H. minj H.
    split; [auto|]. split; [apply kept_refl|]. discriminate.
  Qed.
  Lemma ni_emit K ev : ni K anyv (emit ev) (emit ev).
  Proof.
    intros s HI HK. split; [reflexivity|]. intros r s' t H. minj H.
    split; [auto|]. split; [apply kept_refl|]. intros; exact I.
  Qed.
  Lemma ni_bind {A B} K (P : A -> Prop) (Q : B -> Prop) m1 m2 f1 f2 :
    ni K P m1 m2 -> (forall a, P a -> ni K Q (f1 a) (f2 a)) -> ni K Q (bind m1 f1) (bind m2 f2).
  Proof.
    intros Hm Hf s HI HK. destruct (Hm s HI HK) as [Ha Hb]. unfold ni_at, bind. rewrite <- Ha.
    destruct (m1 s) as [[r1 s1] t1] eqn:H1.
    destruct (Hb _ _ _ eq_refl) as (HI1 & Hk1 & HP).
    destruct r1 as [a|e].
    - destruct (Hf a (HP a eq_refl) s1 HI1 (known_kept _ _ _ HI HK Hk1)) as [Hc Hd].
      rewrite <- Hc. split; [reflexivity|].
      destruct (f1 a s1) as [[r2 s2] t2] eqn:H2. intros r s' t H. minj H.
      destruct (Hd _ _ _ eq_refl) as (X1 & X2 & X3).
      split; [auto|]. split; [eapply kept_trans; eauto|auto].
    - split; [reflexivity|]. intros r s' t H. minj H. split; [auto|]. split; [auto|].
      discriminate.
  Qed.
  Lemma ni_get {B} K (Q : B -> Prop) (f1 f2 : state -> M B) :
    (forall s, Inv s -> known K s -> ni K Q (f1 s) (f2 s)) ->
    ni K Q (bind get f1) (bind get f2).
  Proof.
    intros Hf. apply ni_get_at. intros s HI HK. exact (Hf s HI HK s HI HK).
  Qed.
  Lemma ni_catch {A} K (Q : A -> Prop) m1 m2 h1 h2 :
    ni K Q m1 m2 -> (forall e, ni K Q (h1 e) (h2 e)) -> ni K Q (catch m1 h1) (catch m2 h2).
  Proof.
    intros Hm Hf s HI HK. destruct (Hm s HI HK) as [Ha Hb]. unfold ni_at, catch. rewrite <- Ha.
    destruct (m1 s) as [[r1 s1] t1] eqn:H1.
    destruct (Hb _ _ _ eq_refl) as (HI1 & Hk1 & HP).
    destruct r1 as [a|e].
    - split; [reflexivity|]. intros r s' t H. minj H. auto.
    - destruct (Hf e s1 HI1 (known_kept _ _ _ HI HK Hk1)) as [Hc Hd].
      rewrite <- Hc. split; [reflexivity|].
      destruct (h1 e s1) as [[r2 s2] t2] eqn:H2. intros r s' t H. minj H.
      destruct (Hd _ _ _ eq_refl) as (X1 & X2 & X3).
      split; [auto|]. split; [eapply kept_trans; eauto|auto].
  Qed.

  (** Reading a proxy's slots: they are known from then on. *)
  Definition guarded_pair (x : value * value) : Prop :=
    fst x = w -> guard_value guards (snd x).
  Lemma ni_pget {B} K (Q : B -> Prop) p (f1 f2 : value * value -> M B) :
    (forall x, guarded_pair x -> ni ((p, x) :: K) Q (f1 x) (f2 x)) ->
    ni K Q (bind (pget p) f1) (bind (pget p) f2).
  Proof.
    intros Hf s HI HK. unfold ni_at, bind, pget, get, ret, raise.
    unfold bind. simpl. destruct (st_prox s p) as [x|] eqn:Hp.
    - assert (Hx : guarded_pair x).
      { intros Hw. destruct x as [o c]. simpl in *. subst o.
        eapply (cc_proxies _ _ _ _ _ _ HI); eauto. }
      assert (HK2 : known ((p, x) :: K) s).
      { intros q y [[= <- <-]|Hin]; auto. }
      destruct (Hf x Hx s HI HK2) as [Ha Hb]. rewrite <- Ha.
      split; [reflexivity|].
      destruct (f1 x s) as [[r1 s1] t1]. intros r s' t H. minj H. apply (Hb _ _ _ eq_refl).
    - split; [reflexivity|]. intros r s' t H. minj H.
      split; [auto|]. split; [apply kept_refl|discriminate].
  Qed.
  Lemma ni_pget_known {B} K (Q : B -> Prop) p x (f1 f2 : value * value -> M B) :
    In (p, x) K -> ni K Q (f1 x) (f2 x) ->
    ni K Q (bind (pget p) f1) (bind (pget p) f2).
  Proof.
    intros Hin Hf s HI HK. assert (Hp := HK p x Hin). unfold ni_at.
    rewrite !(pget_ok _ _ _ _ Hp). apply Hf; auto.
  Qed.

  (** ** Foreign code *)

  Definition okcall (c : call) : Prop := forall o, c = CallOp o -> okop o.

  Lemma run_same t c s : okcall c -> run2 t c s = e_run E t c s.
  Proof. intros H. apply HD. exact H. Qed.

  Definition call_result (c : call) (v : value) : Prop :=
    forall fr, c = CallOp (OGetattr w "__Security_checker__" fr) ->
               v = VNone \/ guard_value guards v.

  Lemma ni_foreign K k c :
    okcall c -> ni K (call_result c) (foreign E k c) (foreign E2 k c).
  Proof.
    intros Hc s HI HK. unfold ni_at, foreign. simpl. rewrite (run_same _ _ _ Hc).
    split; [reflexivity|]. intros r s' t H.
    destruct (e_run E (e_tid E) c s) as [r1 s1] eqn:Hr. minj H.
    split; [eapply (rs_state _ _ _ _ _ HR); eauto|].
    split; [eapply (rs_proxies _ _ _ _ _ HR); eauto|].
    intros a -> fr ->. eapply (rs_own _ _ _ _ _ HR); eauto.
  Qed.
  Lemma ni_foreign_quiet K c :
    okcall c -> ni K anyv (foreign_quiet E c) (foreign_quiet E2 c).
  Proof.
    intros Hc s HI HK. unfold ni_at, foreign_quiet. simpl. rewrite (run_same _ _ _ Hc).
    split; [reflexivity|]. intros r s' t H.
    destruct (e_run E (e_tid E) c s) as [r1 s1] eqn:Hr. minj H.
    split; [eapply (rs_state _ _ _ _ _ HR); eauto|].
    split; [eapply (rs_proxies _ _ _ _ _ HR); eauto|].
    intros; exact I.
  Qed.

  Definition op_result (o : op) (v : value) : Prop :=
    forall fr, o = OGetattr w "__Security_checker__" fr -> v = VNone \/ guard_value guards v.

  Lemma ni_coerce K o v : op_result o v -> ni K (op_result o) (coerce o v) (coerce o v).
  Proof.
    intros Hv. unfold coerce.
    destruct o; try (apply ni_ret; exact Hv);
      try (apply ni_ret; intros fr Hx; discriminate Hx);
      destruct v; try apply ni_raise; apply ni_ret; intros fr Hx; discriminate Hx.
  Qed.

  Lemma ni_raw K k o : okop o -> ni K (op_result o) (raw E k o) (raw E2 k o).
  Proof.
    intros Ho. unfold raw. eapply ni_bind.
    - apply ni_foreign. intros o' [= <-]. exact Ho.
    - intros v Hv. apply ni_coerce. intros fr ->. eapply Hv. reflexivity.
  Qed.

  (** ** Names *)

  Lemma name_ok v n fr : ~ concealable n -> okop (OGetattr v n fr).
  Proof. intros Hn [_ H]. apply Hn, Hnames, H. Qed.

  Lemma not_concealable_available n : always_available n -> ~ concealable n.
  Proof. intros H [Hx _]. auto. Qed.
  Lemma not_concealable_listed n :
    In n ["__iter__"; "__length_hint__"; "__Security_checker__"; "__module__"; "__call__"] ->
    ~ concealable n.
  Proof. intros H (_ & _ & Hx). auto. Qed.
  Lemma not_concealable_unchecked n : unchecked_read n = true -> ~ concealable n.
  Proof. intros H (_ & Hx & _). congruence. Qed.

  Lemma ni_assoc {A B C} K (Q : C -> Prop) (m1 m2 : M A) (f1 f2 : A -> M B) (g1 g2 : B -> M C) :
    ni K Q (bind m1 (fun a => bind (f1 a) g1)) (bind m2 (fun a => bind (f2 a) g2)) ->
    ni K Q (bind (bind m1 f1) g1) (bind (bind m2 f2) g2).
  Proof.
    intros H s HI HK. destruct (H s HI HK) as [Ha Hb].
    unfold ni_at. rewrite !bind_assoc. auto.
  Qed.

  (** ** The package's own changes of the state *)

  Lemma registered_same s s' :
    st_reg s' = st_reg s -> registered_for E s' w = registered_for E s w.
  Proof.
    intros H. unfold registered_for. rewrite H.
    replace (concrete_type E s' w) with (concrete_type E s w); [reflexivity|].
    destruct w; try reflexivity; destruct Hplain.
  Qed.

  Lemma inv_prox s p v c :
    Inv s -> p < st_next s -> (v = w -> guard_value guards c) ->
    Inv (set_prox (upd (st_prox s) p (Some (v, c))) s).
  Proof.
    intros HI Hp Hc. destruct HI as [A B C D F].
    constructor; [exact A| |rewrite (registered_same s); auto|exact D|].
    - intros q c' H. simpl in H. unfold upd in H. destruct (Nat.eqb q p); [|eauto].
      injection H as -> ->. auto.
    - intros q x H. simpl in *. unfold upd in H.
      destruct (Nat.eqb_spec q p); [subst; auto|]. eauto.
  Qed.

  Lemma inv_next s : Inv s -> Inv (set_next (S (st_next s)) s).
  Proof.
    intros [A B C D F].
    constructor; [|exact B|rewrite (registered_same s); auto|exact D|].
    - intros i k H. destruct (A i k H) as (X1 & X2 & X3). simpl. auto.
    - intros q x H. simpl in *. apply F in H. lia.
  Qed.

  Lemma inv_chks s i k :
    Inv s -> (forall k0, ~ In (i, k0) guards) -> Inv (set_chks (upd (st_chks s) i (Some k)) s).
  Proof.
    intros [A B C D F] Hi.
    constructor; [|exact B|rewrite (registered_same s); auto|exact D|exact F].
    intros j k0 H. destruct (A j k0 H) as (X1 & X2 & X3). simpl. split; [|auto].
    unfold upd. destruct (Nat.eqb_spec j i); [subst; destruct (Hi _ H)|auto].
  Qed.

  Lemma inv_decos s d : Inv s -> Inv (set_decos d s).
  Proof.
    intros [A B C D F].
    constructor; [exact A|exact B|rewrite (registered_same s); auto|exact D|exact F].
  Qed.

  Lemma ni_new_proxy K v c :
    (v = w -> guard_value guards c) -> ni K anyv (new_proxy v c) (new_proxy v c).
  Proof.
    intros Hc s HI HK. split; [reflexivity|]. intros r s' t H.
    assert (HI1 := inv_next s HI).
    assert (Hk : forall x, proxies_kept s
              (set_prox (upd (st_prox s) (st_next s) x) (set_next (S (st_next s)) s))).
    { intros x. split; simpl; [lia|]. intros p y Hp Hy. rewrite upd_ne by lia. auto. }
    destruct c; try (unfold new_proxy, bind, fresh, get, put, ret in H; simpl in H; minj H;
      split; [apply (inv_prox _ _ _ _ HI1); simpl; auto|];
      split; [apply Hk|intros; exact I]).
    unfold new_proxy, raise in H. minj H.
    split; [auto|]. split; [apply kept_refl|discriminate].
  Qed.

  Lemma ni_alloc_checker K k : ni K anyv (alloc_checker k) (alloc_checker k).
  Proof.
    intros s HI HK. split; [reflexivity|]. intros r s' t H.
    unfold alloc_checker, bind, fresh, get, put, ret in H. simpl in H. minj H.
    assert (HI1 := inv_next s HI). split.
    - apply (inv_chks _ _ _ HI1). intros k0 Hin.
      destruct (cc_guards _ _ _ _ _ _ HI _ _ Hin) as (_ & X & _). lia.
    - split; [split; simpl; [lia|auto]|intros; exact I].
  Qed.

  Lemma ni_put_decos {A} K (Q : A -> Prop) (d : state -> id -> option deco) a :
    Q a -> ni K Q (s <- get ;; (put (set_decos (d s) s) ;;; ret a))
                  (s <- get ;; (put (set_decos (d s) s) ;;; ret a)).
  Proof.
    intros Ha s HI HK. split; [reflexivity|]. intros r s' t H.
    unfold bind, get, put, ret in H. simpl in H. minj H.
    split; [apply inv_decos; auto|]. split; [split; simpl; auto|].
    intros x [= <-]. auto.
  Qed.

  (** ** The interpreter one level down *)

  Variable I1 I2 : interp.
  Definition select_result (obj : value) (oc : option value) : Prop :=
    obj = w -> forall c, oc = Some c -> guard_value guards c.
  Definition check_result (c obj : value) (n : name) : Prop :=
    obj = w -> guard_value guards c -> ~ hidden n.

  Record ni_interp : Prop := {
    nii_op : forall K k o, okop o -> rebinds_nothing (e_impl E) o ->
      ni K (op_result o) (i_op I1 k o) (i_op I2 k o);
    nii_check : forall K m c obj n,
      ni K (fun _ => check_result c obj n) (i_check I1 m c obj n) (i_check I2 m c obj n);
    nii_select : forall K c obj, (obj = w -> guard_value guards c) ->
      ni K (select_result obj) (i_select I1 c obj) (i_select I2 c obj)
  }.
  Hypothesis HI12 : ni_interp.

  Lemma ni_any {A} K (Q : A -> Prop) m1 m2 : ni K Q m1 m2 -> ni K anyv m1 m2.
  Proof. apply ni_weaken. intros; exact I. Qed.

  (** For operations whose result does not matter. *)
  Lemma ni_op K k o :
    okop o -> rebinds_nothing (e_impl E) o -> ni K anyv (i_op I1 k o) (i_op I2 k o).
  Proof. intros H1 H2. eapply ni_any. apply (nii_op HI12); auto. Qed.

  Lemma rb_get v n fr : rebinds_nothing (e_impl E) (OGetattr v n fr).
  Proof. unfold rebinds_nothing. destruct (e_impl E); exact I. Qed.

  Lemma ni_truth K v :
    ni K (fun b => constant_truth v = Some false -> b = false) (truth I1 v) (truth I2 v).
  Proof.
    assert (Hgen : constant_truth v = None ->
      ni K (fun b => constant_truth v = Some false -> b = false)
        (r <- i_op I1 Probe (OBool v) ;;
         match r with VBool b => ret b | _ => raise (EType "__bool__") end)
        (r <- i_op I2 Probe (OBool v) ;;
         match r with VBool b => ret b | _ => raise (EType "__bool__") end)).
    { intros Hc. eapply ni_bind.
      - apply ni_op; [intros []|unfold rebinds_nothing; destruct (e_impl E); exact I].
      - intros a _. destruct a; try apply ni_raise. apply ni_ret. congruence. }
    destruct v; try (apply Hgen; reflexivity); simpl; apply ni_ret; congruence.
  Qed.

  Lemma ni_ask K iv p obj :
    (forall s1 v s2, e_run E (e_tid E) (CallPerm iv p obj) s1 = (Ok v, s2) ->
                     obj = w -> lacking p -> constant_truth v = Some false) ->
    (forall i, iv <> VIact i) ->
    ni K (fun b => obj = w -> lacking p -> b = false) (ask E I1 iv p obj) (ask E2 I2 iv p obj).
  Proof.
    intros Hr Hi.
    assert (Hgen :
      ni K (fun b => obj = w -> lacking p -> b = false)
         (b <- catch (v <- foreign_quiet E (CallPerm iv p obj) ;; truth I1 v)
                   (fun e => emit (EAsk (e_tid E) iv p obj None) ;;; raise e) ;;
          emit (EAsk (e_tid E) iv p obj (Some b)) ;;; ret b)
         (b <- catch (v <- foreign_quiet E2 (CallPerm iv p obj) ;; truth I2 v)
                   (fun e => emit (EAsk (e_tid E) iv p obj None) ;;; raise e) ;;
          emit (EAsk (e_tid E) iv p obj (Some b)) ;;; ret b)).
    { eapply ni_bind with (P := fun b => obj = w -> lacking p -> b = false).
      - apply ni_catch.
        + eapply ni_bind with
            (P := fun v => obj = w -> lacking p -> constant_truth v = Some false).
          * intros s HI HK.
            destruct (ni_foreign_quiet K (CallPerm iv p obj)) with (s := s) as [Ha Hb]; auto.
            { intros o [=]. }
            split; [exact Ha|]. intros r s' t H. destruct (Hb _ _ _ H) as (X1 & X2 & _).
            split; [auto|]. split; [auto|]. intros v -> Hw Hl.
            unfold foreign_quiet in H.
            destruct (e_run E (e_tid E) (CallPerm iv p obj) s) as [r1 s1] eqn:He. minj H.
            eapply Hr; eauto.
          * intros v Hv. eapply ni_weaken; [|apply ni_truth].
            intros b Hb Hw Hl. apply Hb. auto.
        + intros e. eapply ni_bind; [apply ni_emit|]. intros; apply ni_raise.
      - intros b Hb. eapply ni_bind; [apply ni_emit|]. intros; apply ni_ret. auto. }
    destruct iv; try exact Hgen; try apply ni_raise.
    destruct (Hi i eq_refl).
  Qed.

  Lemma ni_tl_check K p obj :
    ni K (fun b => obj = w -> lacking p -> b = false)
       (tl_checkPermission E I1 p obj) (tl_checkPermission E2 I2 p obj).
  Proof.
    unfold tl_checkPermission. change (e_tid E2) with (e_tid E).
    apply ni_get_at. intros s HI HK.
    assert (HP := cc_policy _ _ _ _ _ _ HI). unfold refuses_lacking in HP.
    destruct (tl_inter (st_tls s (e_tid E))) as [iv|]; [|exact (ni_raise K _ _ s HI HK)].
    assert (Hcase : (exists i, iv = VIact i) \/ (forall i, iv <> VIact i)).
    { destruct iv; eauto; right; congruence. }
    destruct Hcase as [[i ->]|Hi].
    - unfold ask, ni_at. rewrite !bind_get. change (e_tid E2) with (e_tid E).
      destruct (st_inters s i) as [x|] eqn:Hx; [|exact (ni_raise K _ _ s HI HK)].
      eapply (ni_bind K anyv); [apply ni_emit| |exact HI|exact HK].
      intros _ _. apply ni_ret. intros Hw Hl.
      destruct (simple_checkPermission s x p) eqn:Hb; [|reflexivity].
      exfalso. eapply HP; eauto. apply simple_check_spec. exact Hb.
    - apply (at_ni K); auto. apply ni_ask; auto. intros s1 v s2 Hr -> Hl. specialize (HP p Hl).
      destruct iv; try (eapply HP; eassumption). destruct (Hi i eq_refl).
  Qed.

  Lemma ni_hasattr_py K obj n :
    okop (OGetattr obj n None) ->
    ni K anyv (hasattr_py I1 obj n) (hasattr_py I2 obj n).
  Proof.
    intros Ho. unfold hasattr_py. apply ni_catch.
    - eapply ni_bind; [apply ni_op; [exact Ho|apply rb_get]|]. intros; apply ni_ret; exact I.
    - intros e. destruct (is_attribute_error e); [apply ni_ret; exact I|apply ni_raise].
  Qed.
  Lemma ni_hasattr_c K obj n :
    okop (OGetattr obj n None) ->
    ni K anyv (hasattr_c I1 obj n) (hasattr_c I2 obj n).
  Proof.
    intros Ho. unfold hasattr_c. apply ni_catch.
    - eapply ni_bind; [apply ni_op; [exact Ho|apply rb_get]|]. intros; apply ni_ret; exact I.
    - intros e. apply ni_ret; exact I.
  Qed.

  (** ** Checks *)

  Lemma iter_ok obj : okop (OGetattr obj "__iter__" None).
  Proof. apply name_ok. apply not_concealable_listed. simpl; auto. Qed.

  Definition in_guards (k : checker) : Prop := exists i, In (i, k) guards.
  Definition plain_result (k : checker) (obj : value) (n : name) : Prop :=
    obj = w -> in_guards k -> ~ hidden n.

  Lemma ni_by_permission K k p obj n (Hsay : obj = w -> in_guards k -> hidden n -> lacking p) :
    ni K (fun _ => plain_result k obj n)
       (b <- tl_checkPermission E I1 p obj ;;
        if b then ret tt else raise (EUnauthorized obj n p))
       (b <- tl_checkPermission E2 I2 p obj ;;
        if b then ret tt else raise (EUnauthorized obj n p)).
  Proof.
    eapply ni_bind; [apply ni_tl_check|]. intros b Hb.
    destruct b; [|apply ni_raise]. apply ni_ret. intros Hw Hk Hn.
    specialize (Hb Hw (Hsay Hw Hk Hn)). discriminate.
  Qed.

  Lemma guard_tables s k :
    Inv s -> in_guards k ->
    withholds hidden lacking (table_of (st_dicts s (ck_get k))) /\
    withholds hidden lacking (table_of (st_dicts s (ck_set k))).
  Proof.
    intros HI (i & Hi). destruct (cc_guards _ _ _ _ _ _ HI _ _ Hi) as (_ & _ & X & Y & _).
    auto.
  Qed.

  Lemma hidden_not_available n : hidden n -> mem n available_by_default = false.
  Proof. intros Hn. apply available_false. apply Hnames. exact Hn. Qed.
  Lemma hidden_not_iter n : hidden n -> n <> "__iter__".
  Proof. intros Hn ->. destruct (Hnames _ Hn) as (_ & _ & X). apply X. simpl; auto. Qed.

  Lemma ni_plain_check K k obj n :
    ni K (fun _ => plain_result k obj n) (Checker_check E I1 k obj n) (Checker_check E2 I2 k obj n).
  Proof.
    unfold Checker_check. change (e_cimpl E2) with (e_cimpl E). destruct (e_cimpl E) eqn:Himpl.
    - unfold CheckerPy_check. apply ni_get_at. intros s HI HK. unfold get_or_none.
      fold (table_of (st_dicts s (ck_get k)) n).
      assert (Hg : obj = w -> in_guards k -> hidden n -> forall q,
                table_of (st_dicts s (ck_get k)) n = Some q -> q <> PPublic /\ lacking q).
      { intros Hw Hk Hn q Hq. apply (proj1 (guard_tables s k HI Hk) n q Hn Hq). }
      destruct (perm_eqb_spec (match table_of (st_dicts s (ck_get k)) n with
                               | Some p => p | None => PNone end) PNone) as [Hp|Hp];
        cbn [negb].
      + apply (at_ni K); auto. destruct (mem n available_by_default) eqn:Hm.
        * apply ni_ret. intros _ _ Hn. rewrite hidden_not_available in Hm; auto. discriminate.
        * eapply ni_bind with (P := fun b => hidden n -> b = true).
          -- destruct (String.eqb_spec n "__iter__") as [->|Hn]; cbn [negb].
             ++ eapply ni_weaken; [|apply ni_hasattr_py, iter_ok].
                intros b _ Hn. destruct (hidden_not_iter _ Hn eq_refl).
             ++ apply ni_ret. auto.
          -- intros b Hb. destruct b; [apply ni_raise|]. apply ni_ret.
             intros _ _ Hn. discriminate (Hb Hn).
      + destruct (perm_eqb_spec (match table_of (st_dicts s (ck_get k)) n with
                               | Some p => p | None => PNone end) PPublic) as [Hq|Hq];
          apply (at_ni K); auto.
        * apply ni_ret. intros Hw Hk Hn.
          destruct (table_of (st_dicts s (ck_get k)) n) as [q|]; [|discriminate].
          destruct (Hg Hw Hk Hn q eq_refl). contradiction.
        * destruct (table_of (st_dicts s (ck_get k)) n) as [q|]; [|congruence].
          apply ni_by_permission. intros Hw Hk Hn. apply (Hg Hw Hk Hn q eq_refl).
    - unfold CheckerC_check_int, CheckerC_checkPermission. apply ni_get_at. intros s HI HK.
      fold (table_of (st_dicts s (ck_get k)) n).
      destruct (table_of (st_dicts s (ck_get k)) n) as [q|] eqn:Htb; apply (at_ni K); auto.
      + destruct (perm_eqb_spec q PPublic) as [Hq|Hq].
        * apply ni_ret. intros Hw Hk Hn.
          destruct (proj1 (guard_tables s k HI Hk) n q Hn Htb). contradiction.
        * apply ni_by_permission. intros Hw Hk Hn.
          apply (proj1 (guard_tables s k HI Hk) n q Hn Htb).
      + destruct (is_operator n); [|apply ni_raise].
        destruct (mem n available_by_default) eqn:Hm.
        * apply ni_ret. intros _ _ Hn. rewrite hidden_not_available in Hm; auto. discriminate.
        * destruct (String.eqb_spec n "__iter__") as [->|Hn]; [|apply ni_raise].
          eapply ni_bind; [apply ni_hasattr_c, iter_ok|]. intros h _.
          destruct h; cbn [negb]; [apply ni_raise|]. apply ni_ret.
          intros _ _ Hn. destruct (hidden_not_iter _ Hn eq_refl).
  Qed.

  Lemma ni_plain_check_setattr K k obj n :
    ni K (fun _ => plain_result k obj n)
       (Checker_check_setattr E I1 k obj n) (Checker_check_setattr E2 I2 k obj n).
  Proof.
    unfold Checker_check_setattr. change (e_cimpl E2) with (e_cimpl E).
    destruct (e_cimpl E) eqn:Himpl.
    - unfold CheckerPy_check_setattr. apply ni_get_at. intros s HI HK. cbv zeta.
      assert (Heq : match st_dicts s (ck_set k) with
                    | [] => PNone | (_ :: _) as d => get_or_none d n end =
                    match table_of (st_dicts s (ck_set k)) n with
                    | Some p => p | None => PNone end).
      { unfold get_or_none, table_of. destruct (st_dicts s (ck_set k)); reflexivity. }
      rewrite Heq. clear Heq. apply (at_ni K); auto.
      destruct (table_of (st_dicts s (ck_set k)) n) as [q|] eqn:Htb; [|apply ni_raise].
      destruct (perm_eqb q PNone); cbn [negb]; [apply ni_raise|].
      destruct (perm_eqb_spec q PPublic) as [Hq|Hq].
      + apply ni_ret. intros Hw Hk Hn.
        destruct (proj2 (guard_tables s k HI Hk) n q Hn Htb). contradiction.
      + apply ni_by_permission. intros Hw Hk Hn.
        apply (proj2 (guard_tables s k HI Hk) n q Hn Htb).
    - unfold CheckerC_check_setattr, CheckerC_checkPermission. apply ni_get_at. intros s HI HK.
      fold (table_of (st_dicts s (ck_set k)) n). apply (at_ni K); auto.
      destruct (table_of (st_dicts s (ck_set k)) n) as [q|] eqn:Htb; [|apply ni_raise].
      destruct (perm_eqb_spec q PPublic) as [Hq|Hq]; cbn [negb].
      + apply ni_ret. intros Hw Hk Hn.
        destruct (proj2 (guard_tables s k HI Hk) n q Hn Htb). contradiction.
      + apply ni_by_permission. intros Hw Hk Hn.
        apply (proj2 (guard_tables s k HI Hk) n q Hn Htb).
  Qed.

  Lemma ni_log K v t line n obj :
    ni K anyv (log_line I1 v t line n obj) (log_line I2 v t line n obj).
  Proof.
    unfold log_line. eapply ni_bind.
    - apply ni_op.
      + intros [_ H]. destruct (Hnames _ H) as [X _]. apply X. unfold always_available; simpl; auto 20.
      + unfold rebinds_nothing. destruct (e_impl E); exact I.
    - intros _ _. destruct (Nat.leb t v); [apply ni_emit|apply ni_ret; exact I].
  Qed.

  Lemma ni_watch K v n obj (Q : Prop) (m1 m2 : M unit) l1 l2 l3 l4 :
    ni K (fun _ => Q) m1 m2 ->
    ni K (fun _ => Q)
      (catch (m1 ;;; if Nat.ltb 1 v then
                if mem n available_by_default
                then log_line I1 v 2 l1 n obj else log_line I1 v 2 l2 n obj
              else ret tt)
         (fun e => if is_unauthorized e then log_line I1 v 1 l3 n obj ;;; raise e
                   else if is_forbidden e then log_line I1 v 1 l4 n obj ;;; raise e
                   else raise e))
      (catch (m2 ;;; if Nat.ltb 1 v then
                if mem n available_by_default
                then log_line I2 v 2 l1 n obj else log_line I2 v 2 l2 n obj
              else ret tt)
         (fun e => if is_unauthorized e then log_line I2 v 1 l3 n obj ;;; raise e
                   else if is_forbidden e then log_line I2 v 1 l4 n obj ;;; raise e
                   else raise e)).
  Proof.
    intros H. apply ni_catch.
    - eapply ni_bind; [exact H|]. intros u HQ; cbv beta in HQ.
      destruct (Nat.ltb 1 v); [|apply ni_ret; auto].
      destruct (mem n available_by_default);
        (eapply ni_weaken; [|apply ni_log]; auto).
    - intros e. destruct (is_unauthorized e).
      + eapply ni_bind; [apply ni_log|]. intros; apply ni_raise.
      + destruct (is_forbidden e); [|apply ni_raise].
        eapply ni_bind; [apply ni_log|]. intros; apply ni_raise.
  Qed.
  Lemma ni_watch_setattr K v n obj (Q : Prop) (m1 m2 : M unit) l1 l3 l4 :
    ni K (fun _ => Q) m1 m2 ->
    ni K (fun _ => Q)
      (catch (m1 ;;; if Nat.ltb 1 v then log_line I1 v 2 l1 n obj else ret tt)
         (fun e => if is_unauthorized e then log_line I1 v 1 l3 n obj ;;; raise e
                   else if is_forbidden e then log_line I1 v 1 l4 n obj ;;; raise e
                   else raise e))
      (catch (m2 ;;; if Nat.ltb 1 v then log_line I2 v 2 l1 n obj else ret tt)
         (fun e => if is_unauthorized e then log_line I2 v 1 l3 n obj ;;; raise e
                   else if is_forbidden e then log_line I2 v 1 l4 n obj ;;; raise e
                   else raise e)).
  Proof.
    intros H. apply ni_catch.
    - eapply ni_bind; [exact H|]. intros u HQ; cbv beta in HQ.
      destruct (Nat.ltb 1 v); [|apply ni_ret; auto].
      eapply ni_weaken; [|apply ni_log]; auto.
    - intros e. destruct (is_unauthorized e).
      + eapply ni_bind; [apply ni_log|]. intros; apply ni_raise.
      + destruct (is_forbidden e); [|apply ni_raise].
        eapply ni_bind; [apply ni_log|]. intros; apply ni_raise.
  Qed.

  Lemma ni_combine K (Q : Prop) (m1 m2 n1 n2 : M unit) :
    ni K (fun _ => Q) m1 m2 -> ni K (fun _ => Q) n1 n2 ->
    ni K (fun _ => Q) (combine m1 n1) (combine m2 n2).
  Proof.
    intros Hm Hn. unfold combine. apply ni_catch; [exact Hm|]. intros e.
    destruct (is_forbidden e); [exact Hn|]. destruct (is_unauthorized e); [|apply ni_raise].
    apply ni_catch; [exact Hn|]. intros e2. destruct (is_forbidden e2); apply ni_raise.
  Qed.

  Lemma ni_combined_first K k obj n :
    ni K (fun _ => plain_result k obj n)
       (Combined_first_check E I1 k obj n) (Combined_first_check E2 I2 k obj n).
  Proof.
    unfold Combined_first_check. change (e_watch E2) with (e_watch E).
    destruct (e_watch E); [apply ni_plain_check|].
    destruct (ck_kind k); try apply ni_raise. apply ni_watch, ni_plain_check.
  Qed.
  Lemma ni_combined_first_setattr K k obj n :
    ni K (fun _ => plain_result k obj n)
       (Combined_first_check_setattr E I1 k obj n) (Combined_first_check_setattr E2 I2 k obj n).
  Proof.
    unfold Combined_first_check_setattr. change (e_watch E2) with (e_watch E).
    destruct (e_watch E); [apply ni_plain_check_setattr|].
    destruct (ck_kind k); try apply ni_raise. apply ni_watch_setattr, ni_plain_check_setattr.
  Qed.

  Lemma ni_checker_check K m c obj n :
    ni K (fun _ => check_result c obj n) (checker_check E I1 m c obj n) (checker_check E2 I2 m c obj n).
  Proof.
    destruct c as [| |b0|z0|s0|o0|o0|o0|o0|o0|i|o0| |];
      try (unfold checker_check; eapply ni_bind;
      [apply ni_foreign; intros oo [=]|]; intros _ _; apply ni_ret;
      intros _ (j & k0 & [=] & _)).
    unfold checker_check. apply ni_get_at. intros s HI HK.
    destruct (st_chks s i) as [k|] eqn:Hk; apply (at_ni K); auto; [|apply ni_raise].
    assert (Hin : guard_value guards (VChk i) -> in_guards k).
    { intros (j & k0 & [= <-] & Hj). exists i.
      destruct (cc_guards _ _ _ _ _ _ HI _ _ Hj) as (X & _). congruence. }
    assert (Hsec : forall c2, (ck_kind k = CkCombined c2 \/
                               exists v, ck_kind k = CkWatchingCombined v c2) ->
                   guard_value guards (VChk i) -> guard_value guards c2).
    { intros c2 Hc (j & k0 & [= <-] & Hj).
      destruct (cc_guards _ _ _ _ _ _ HI _ _ Hj) as (X & _ & _ & _ & Y).
      replace k0 with k in Y by congruence.
      destruct Hc as [Hc|[v Hc]]; rewrite Hc in Y; exact Y. }
    assert (Hp : forall m1 m2 : M unit, ni K (fun _ => plain_result k obj n) m1 m2 ->
                 ni K (fun _ => check_result (VChk i) obj n) m1 m2).
    { intros m1 m2. apply ni_weaken. intros u H Hw Hg; cbv beta in H. apply H; auto. }
    assert (Hc : forall (c2 : value) (mo : chkmode), (ck_kind k = CkCombined c2 \/
                               exists v, ck_kind k = CkWatchingCombined v c2) ->
              ni K (fun _ => check_result (VChk i) obj n)
                   (i_check I1 mo c2 obj n) (i_check I2 mo c2 obj n)).
    { intros c2 mo Hc. eapply ni_weaken; [|apply (nii_check HI12)].
      intros u H Hw Hg; cbv beta in H. apply H; auto; eapply Hsec; eauto. }
    destruct (ck_kind k) eqn:Hkind; destruct m;
      first [ apply Hp, ni_plain_check | apply Hp, ni_plain_check_setattr
            | apply Hp, ni_watch, ni_plain_check
            | apply Hp, ni_watch_setattr, ni_plain_check_setattr
            | apply ni_combine; [apply Hp, ni_combined_first|apply Hc; eauto]
            | apply ni_combine; [apply Hp, ni_combined_first_setattr|apply Hc; eauto] ].
  Qed.

  (** ** Selecting checkers and making proxies *)

  Lemma call_ok f args : okop (OCall f args).
  Proof. intros [_ H]. apply (not_concealable_listed "__call__"); [simpl; auto 20|auto]. Qed.
  Lemma rb_call f args : rebinds_nothing (e_impl E) (OCall f args).
  Proof. unfold rebinds_nothing. destruct (e_impl E); exact I. Qed.

  Lemma ni_call_factory K f obj :
    ni K (fun v => guard_value guards f -> False) (call_factory I1 f obj) (call_factory I2 f obj).
  Proof.
    destruct f; simpl; try apply ni_raise;
      try (eapply ni_weaken; [|apply ni_op; [apply call_ok|apply rb_call]];
           intros v _ (j & k0 & [=] & _)).
    apply ni_get. intros s HI HK.
    destruct obj; apply ni_ret; intros (j & k0 & [=] & _).
  Qed.

  Lemma ni_select_loop K c obj :
    (obj = w -> guard_value guards c) ->
    ni K (select_result obj) (select_loop E I1 c obj) (select_loop E2 I2 c obj).
  Proof.
    intros Hc. unfold select_loop. apply ni_get. intros s HI HK.
    change (is_Checker E2 s c) with (is_Checker E s c).
    destruct (is_Checker E s c).
    - apply ni_ret. intros Hw c0 [= <-]. auto.
    - eapply ni_bind; [apply ni_call_factory|]. intros v Hv.
      destruct (value_eqb v VNoProxy || value_eqb v VNone).
      + apply ni_ret. intros _ c0 [=].
      + apply (nii_select HI12). intros Hw. destruct (Hv (Hc Hw)).
  Qed.

  Lemma registered_guard s obj :
    Inv s -> obj = w -> guard_value guards (registered E s obj).
  Proof.
    intros HI ->. assert (H := cc_registry _ _ _ _ _ _ HI).
    unfold registered. unfold registered_for in H. rewrite <- type_of_spec in H. exact H.
  Qed.

  Lemma ni_selectChecker K obj :
    ni K (select_result obj) (selectChecker E I1 obj) (selectChecker E2 I2 obj).
  Proof.
    unfold selectChecker. change (e_cimpl E2) with (e_cimpl E). destruct (e_cimpl E).
    - unfold selectCheckerPy. apply ni_get. intros s HI HK.
      change (registered E2 s obj) with (registered E s obj).
      destruct (value_eqb (registered E s obj) VNoProxy).
      + apply ni_ret. intros _ c [=].
      + apply (nii_select HI12). intros Hw. apply registered_guard; auto.
    - unfold selectCheckerC. apply ni_get. intros s HI HK.
      change (registered E2 s obj) with (registered E s obj).
      change (e_isexc E2 (type_of E2 s obj)) with (e_isexc E (type_of E s obj)).
      destruct (value_eqb (registered E s obj) VNoProxy).
      + apply ni_ret. intros _ c [=].
      + destruct (value_eqb (registered E s obj) (VChk default_cid) &&
                  e_isexc E (type_of E s obj)).
        * apply ni_ret. intros _ c [=].
        * apply (nii_select HI12). intros Hw. apply registered_guard; auto.
  Qed.

  Lemma sec_ok v fr : okop (OGetattr v "__Security_checker__" fr).
  Proof. apply name_ok. apply not_concealable_listed. simpl; auto 20. Qed.

  Definition own_result (v c : value) : Prop := v = w -> c = VNone \/ guard_value guards c.

  Lemma ni_getattr_sec K v :
    ni K (own_result v) (getattr_sec_checker I1 v) (getattr_sec_checker I2 v).
  Proof.
    unfold getattr_sec_checker. apply ni_catch.
    - eapply ni_weaken; [|apply (nii_op HI12); [apply sec_ok|apply rb_get]].
      intros c Hc ->. eapply Hc. reflexivity.
    - intros e. destruct (is_attribute_error e); [|apply ni_raise].
      apply ni_ret. intros _. auto.
  Qed.
  Lemma ni_getattr_sec_c K v :
    ni K (fun oc => forall c, oc = Some c -> own_result v c)
       (getattr_sec_checker_c I1 v) (getattr_sec_checker_c I2 v).
  Proof.
    unfold getattr_sec_checker_c. apply ni_catch.
    - eapply ni_bind; [apply (nii_op HI12); [apply sec_ok|apply rb_get]|].
      intros c Hc. apply ni_ret. intros c0 [= <-] ->. eapply Hc. reflexivity.
    - intros e. apply ni_ret. discriminate.
  Qed.

  Lemma ni_selected K v :
    ni K anyv (oc <- selectChecker E I1 v ;;
               match oc with None => ret v | Some c => new_proxy v c end)
              (oc <- selectChecker E2 I2 v ;;
               match oc with None => ret v | Some c => new_proxy v c end).
  Proof.
    eapply ni_bind; [apply ni_selectChecker|]. intros oc Hoc.
    destruct oc as [c|]; [|apply ni_ret; exact I]. apply ni_new_proxy. eauto.
  Qed.

  Lemma ni_checker_proxy K c v :
    ni K anyv (checker_proxy E I1 c v) (checker_proxy E2 I2 c v).
  Proof.
    assert (Hf : ni K anyv (foreign E Probe (CallProxy c v)) (foreign E2 Probe (CallProxy c v))).
    { eapply ni_any. apply ni_foreign. intros o [=]. }
    destruct c as [| |b0|z0|s0|o0|o0|o0|o0|o0|i|o0| |]; try exact Hf. unfold checker_proxy. change (e_cimpl E2) with (e_cimpl E).
    destruct (e_cimpl E) eqn:Himpl.
    - unfold CheckerPy_proxy. destruct (is_proxy v); [apply ni_ret; exact I|].
      eapply ni_bind; [apply ni_getattr_sec|]. intros c Hc.
      destruct c; try (apply ni_new_proxy; intros Hw; destruct (Hc Hw); [discriminate|auto]).
      apply ni_selected.
    - unfold CheckerC_proxy. destruct (is_proxy v); [apply ni_ret; exact I|].
      eapply ni_bind; [apply ni_getattr_sec_c|]. intros oc Hoc.
      destruct oc as [c|].
      + destruct c; try apply ni_raise;
          (apply ni_new_proxy; intros Hw; destruct (Hoc _ eq_refl Hw); [discriminate|auto]).
      + assert (H := ni_selected K v). unfold selectChecker in H.
        change (e_cimpl E2) with (e_cimpl E) in H. rewrite Himpl in H. exact H.
  Qed.

  Lemma ni_getChecker K v : ni K anyv (getChecker v) (getChecker v).
  Proof.
    destruct v; try apply ni_raise. unfold getChecker. apply ni_get. intros s HI HK.
    destruct (st_prox s p) as [[o c]|]; [apply ni_ret; exact I|apply ni_raise].
  Qed.

  Lemma ni_Combined_new K c1 c2 :
    ni K anyv (CombinedChecker_new E c1 c2) (CombinedChecker_new E2 c1 c2).
  Proof.
    unfold CombinedChecker_new. change (e_watch E2) with (e_watch E).
    apply ni_get. intros s HI HK. destruct c1; try apply ni_raise.
    destruct (st_chks s c); [apply ni_alloc_checker|apply ni_raise].
  Qed.

  Lemma ni_Decorated_get K d : ni K anyv (Decorated_get E I1 d) (Decorated_get E2 I2 d).
  Proof.
    unfold Decorated_get. apply ni_get. intros s HI HK.
    destruct (st_decos s d) as [x|]; [|apply ni_raise].
    eapply ni_bind with (P := anyv).
    - destruct (is_proxy (dc_obj x)).
      + eapply ni_bind; [apply ni_getChecker|]. intros c _. apply ni_ret. exact I.
      + eapply ni_bind; [apply ni_getattr_sec|]. intros c _.
        destruct c; try (apply ni_ret; exact I). eapply ni_any. apply ni_selectChecker.
    - intros oc _. eapply ni_bind; [apply ni_selectChecker|]. intros ow _.
      destruct ow as [cw|]; destruct oc as [c|]; try apply ni_raise;
        try (apply ni_ret; exact I). apply ni_Combined_new.
  Qed.

  (** ** Proxies *)

  Lemma pget_none {B} p (f : value * value -> M B) s :
    st_prox s p = None -> bind (pget p) f s = raise (EType "dangling proxy") s.
  Proof. intros H. unfold bind, pget, get, bind. simpl. rewrite H. reflexivity. Qed.

  Lemma ni_peek {A} K (Q : A -> Prop) p (m1 m2 : M A) e :
    (forall x, guarded_pair x -> ni ((p, x) :: K) Q m1 m2) ->
    (forall s, st_prox s p = None -> m1 s = raise e s /\ m2 s = raise e s) ->
    ni K Q m1 m2.
  Proof.
    intros Hs Hn s HI HK. destruct (st_prox s p) as [x|] eqn:Hp.
    - apply (Hs x); auto.
      + intros Hw. destruct x as [o c]. simpl in *. subst o.
        eapply (cc_proxies _ _ _ _ _ _ HI); eauto.
      + intros q y [[= <- <-]|Hin]; auto.
    - destruct (Hn s Hp) as [X1 X2]. unfold ni_at. rewrite X1, X2.
      exact (ni_raise K Q e s HI HK).
  Qed.

  (** What a check of [nm] establishes about the object that was checked. *)
  Definition may (nm : name) (v : value) : Prop := v = w -> ~ hidden nm.

  Lemma ni_checked {B} K (Q : B -> Prop) m x nm (f1 f2 : M B) :
    guarded_pair x -> (may nm (fst x) -> ni K Q f1 f2) ->
    ni K Q (i_check I1 m (snd x) (fst x) nm ;;; f1) (i_check I2 m (snd x) (fst x) nm ;;; f2).
  Proof.
    intros Hx Hf. eapply ni_bind; [apply (nii_check HI12)|]. intros u Hu. cbv beta in Hu.
    apply Hf. intros Hw. apply Hu; auto.
  Qed.

  Lemma ni_py_check_name K p nm meth1 meth2 :
    (forall K v, may nm v -> ni K anyv (meth1 v) (meth2 v)) ->
    ni K anyv (py_check_name E I1 p nm meth1) (py_check_name E2 I2 p nm meth2).
  Proof.
    intros Hm. unfold py_check_name. apply ni_pget. intros x Hx.
    apply ni_checked; [exact Hx|]. intros Hmay.
    apply ni_pget_known with (x := x); [simpl; auto|].
    eapply ni_bind; [apply Hm; exact Hmay|]. intros v _. apply ni_checker_proxy.
  Qed.
  Lemma ni_py_check_name_nowrap K p nm meth1 meth2 :
    (forall K v, may nm v -> ni K anyv (meth1 v) (meth2 v)) ->
    ni K anyv (py_check_name_nowrap I1 p nm meth1) (py_check_name_nowrap I2 p nm meth2).
  Proof.
    intros Hm. unfold py_check_name_nowrap. apply ni_pget. intros x Hx.
    apply ni_checked; [exact Hx|]. intros Hmay.
    apply ni_pget_known with (x := x); [simpl; auto|]. apply Hm; exact Hmay.
  Qed.

  Lemma ni_c_check {B} K (Q : B -> Prop) p x m nm (f1 f2 : M B) :
    In (p, x) K -> guarded_pair x -> (may nm (fst x) -> ni K Q f1 f2) ->
    ni K Q (c_check I1 p m nm ;;; f1) (c_check I2 p m nm ;;; f2).
  Proof.
    intros Hin Hx Hf. unfold c_check. apply ni_assoc.
    apply ni_pget_known with (x := x); [exact Hin|]. apply ni_assoc.
    apply ni_get. intros s HI HK. destruct m; apply ni_checked; auto.
  Qed.

  Lemma c_check_none {B} p m nm (f : M B) I s :
    st_prox s p = None -> (c_check I p m nm ;;; f) s = raise (EType "dangling proxy") s.
  Proof.
    intros H. unfold c_check. rewrite bind_assoc. apply pget_none. exact H.
  Qed.

  Lemma ni_c_proxy_result K p v :
    ni K anyv (c_proxy_result E I1 p v) (c_proxy_result E2 I2 p v).
  Proof. unfold c_proxy_result. apply ni_pget. intros x Hx. apply ni_checker_proxy. Qed.

  Lemma ni_c_check1 K p m nm meth1 meth2 :
    (forall K v, may nm v -> ni K anyv (meth1 v) (meth2 v)) ->
    ni K anyv (c_check1 E I1 p m nm meth1) (c_check1 E2 I2 p m nm meth2).
  Proof.
    intros Hm. apply ni_peek with (p := p) (e := EType "dangling proxy").
    - intros x Hx. unfold c_check1. apply ni_c_check with (x := x); [simpl; auto|exact Hx|].
      intros Hmay. apply ni_pget_known with (x := x); [simpl; auto|].
      eapply ni_bind; [apply Hm; exact Hmay|]. intros v _. apply ni_c_proxy_result.
    - intros s Hn. unfold c_check1. split; apply c_check_none; exact Hn.
  Qed.
  Lemma ni_c_check0 K p m nm meth1 meth2 :
    (forall K v, may nm v -> ni K anyv (meth1 v) (meth2 v)) ->
    ni K anyv (c_check0 I1 p m nm meth1) (c_check0 I2 p m nm meth2).
  Proof.
    intros Hm. apply ni_peek with (p := p) (e := EType "dangling proxy").
    - intros x Hx. unfold c_check0. apply ni_c_check with (x := x); [simpl; auto|exact Hx|].
      intros Hmay. apply ni_pget_known with (x := x); [simpl; auto|]. apply Hm; exact Hmay.
    - intros s Hn. unfold c_check0. split; apply c_check_none; exact Hn.
  Qed.
  Lemma ni_c_check2i K p nm meth1 meth2 :
    (forall K v, may nm v -> ni K anyv (meth1 v) (meth2 v)) ->
    ni K anyv (c_check2i E I1 p nm meth1) (c_check2i E2 I2 p nm meth2).
  Proof.
    intros Hm. apply ni_peek with (p := p) (e := EType "dangling proxy").
    - intros x Hx. unfold c_check2i. apply ni_c_check with (x := x); [simpl; auto|exact Hx|].
      intros Hmay. apply ni_pget_known with (x := x); [simpl; auto|].
      eapply ni_bind; [apply Hm; exact Hmay|]. intros v _. apply ni_pget. intros y Hy.
      destruct (value_eqb v (fst y)); [apply ni_ret; exact I|apply ni_c_proxy_result].
    - intros s Hn. unfold c_check2i. split; apply c_check_none; exact Hn.
  Qed.
  Lemma ni_proxy_guard K p m nm meth1 meth2 :
    (forall K v, may nm v -> ni K anyv (meth1 v) (meth2 v)) ->
    ni K anyv (proxy_guard E I1 p m nm meth1) (proxy_guard E2 I2 p m nm meth2).
  Proof.
    intros Hm. unfold proxy_guard. change (e_impl E2) with (e_impl E). destruct (e_impl E).
    - apply ni_py_check_name. exact Hm.
    - apply ni_c_check1. exact Hm.
  Qed.

  Lemma get_ok v n fr : always_available n \/ unchecked_read n = true \/
      In n ["__iter__"; "__length_hint__"; "__Security_checker__"; "__module__"; "__call__"] ->
      okop (OGetattr v n fr).
  Proof.
    intros H. apply name_ok. intros (X & Y & Z). destruct H as [H|[H|H]]; auto. congruence.
  Qed.

  Lemma ni_default_repr_c K v : ni K anyv (default_repr_c E I1 v) (default_repr_c E2 I2 v).
  Proof.
    unfold default_repr_c. change (e_addr E2 v) with (e_addr E v).
    eapply ni_bind; [apply ni_op; [apply get_ok; left; unfold always_available; simpl; auto 20|apply rb_get]|].
    intros kl _.
    eapply ni_bind; [apply ni_op; [apply get_ok; left; unfold always_available; simpl; auto 20|apply rb_get]|].
    intros nm _. eapply ni_bind with (P := anyv).
    - apply ni_catch.
      + eapply ni_bind; [apply ni_op; [apply get_ok; right; right; simpl; auto 20|apply rb_get]|].
        intros m _. apply ni_ret. exact I.
      + intros e. apply ni_ret. exact I.
    - intros om _. destruct om; apply ni_ret; exact I.
  Qed.
  Lemma ni_default_repr_py K v : ni K anyv (default_repr_py E I1 v) (default_repr_py E2 I2 v).
  Proof.
    unfold default_repr_py. change (e_addr E2 v) with (e_addr E v).
    eapply ni_bind; [apply ni_op; [apply get_ok; left; unfold always_available; simpl; auto 20|apply rb_get]|].
    intros kl _.
    eapply ni_bind; [apply ni_op; [apply get_ok; right; right; simpl; auto 20|apply rb_get]|].
    intros mo _.
    eapply ni_bind; [apply ni_op; [apply get_ok; left; unfold always_available; simpl; auto 20|apply rb_get]|].
    intros k2 _.
    eapply ni_bind; [apply ni_op; [apply get_ok; left; unfold always_available; simpl; auto 20|apply rb_get]|].
    intros nm _. apply ni_ret. exact I.
  Qed.

  Lemma ni_py_str_like K p nm meth1 meth2 :
    (forall K v, may nm v -> ni K anyv (meth1 v) (meth2 v)) ->
    ni K anyv (py_str_like E I1 p nm meth1) (py_str_like E2 I2 p nm meth2).
  Proof.
    intros Hm. unfold py_str_like. apply ni_catch; [apply ni_py_check_name; exact Hm|].
    intros e. destruct (is_type_error e); [apply ni_raise|].
    apply ni_pget. intros x Hx. apply ni_default_repr_py.
  Qed.
  Lemma ni_c_str_like K p nm meth1 meth2 :
    (forall K v, may nm v -> ni K anyv (meth1 v) (meth2 v)) ->
    ni K anyv (c_str_like E I1 p nm meth1) (c_str_like E2 I2 p nm meth2).
  Proof.
    intros Hm. apply ni_peek with (p := p) (e := EType "dangling proxy").
    - intros x Hx. unfold c_str_like.
      eapply ni_bind with (P := fun ok => ok = true -> may nm (fst x)).
      + apply ni_catch; [|intros e; apply ni_ret; discriminate].
        apply ni_c_check with (x := x); [simpl; auto|exact Hx|].
        intros Hmay. apply ni_ret. auto.
      + intros ok Hok. apply ni_pget_known with (x := x); [simpl; auto|].
        destruct ok; [apply Hm; auto|apply ni_default_repr_c].
    - assert (Hgen : forall En In me s, st_prox s p = None ->
          c_str_like En In p nm me s = raise (EType "dangling proxy") s).
      { intros En In me s Hn. unfold c_str_like. unfold bind at 1. unfold catch at 1.
        rewrite c_check_none by exact Hn. unfold raise at 1, ret at 1.
        rewrite pget_none by exact Hn. reflexivity. }
      intros s Hn. split; apply Hgen; exact Hn.
  Qed.

  Lemma ni_py_getattribute K k p n fr :
    ni K anyv (py_getattribute E I1 k p n fr) (py_getattribute E2 I2 k p n fr).
  Proof.
    unfold py_getattribute. cbv zeta.
    destruct ((String.eqb n "_wrapped" || String.eqb n "_checker") &&
              negb match fr with Some v => value_eqb v (VProxy p) | None => false end);
      [apply ni_raise|].
    apply ni_pget. intros x Hx.
    destruct (String.eqb n "_wrapped"); [apply ni_ret; exact I|].
    destruct (String.eqb n "_checker"); [apply ni_ret; exact I|].
    eapply ni_bind with (P := fun _ => may n (fst x)).
    - destruct (mem n py_unchecked_names) eqn:Hm.
      + apply ni_ret. intros _ Hn. destruct (Hnames _ Hn) as (_ & X & _).
        rewrite <- unchecked_names_spec in Hm. congruence.
      + eapply ni_weaken; [|apply (nii_check HI12)]. intros u Hu. cbv beta in Hu.
        intros Hw. apply Hu; auto.
    - intros _ Hmay. apply ni_pget_known with (x := x); [simpl; auto|].
      eapply ni_bind.
      + apply ni_op; [|apply rb_get].
        destruct (String.eqb n "__reduce__" || String.eqb n "__reduce_ex__" ||
                  String.eqb n "__module__"); intros [Hw Hn]; exact (Hmay Hw Hn).
      + intros v _. apply ni_checker_proxy.
  Qed.
  Lemma ni_py_getattr K k p n fr :
    ni K anyv (py_getattr E I1 k p n fr) (py_getattr E2 I2 k p n fr).
  Proof.
    unfold py_getattr. apply ni_catch; [apply ni_py_getattribute|]. intros e.
    destruct (is_attribute_error e); [|apply ni_raise].
    unfold py_getattr_fallback. apply ni_pget. intros x Hx.
    apply ni_checked; [exact Hx|]. intros _. apply ni_raise.
  Qed.

  (** ** Operations *)

  Lemma op_any K o m1 m2 :
    (forall fr, o <> OGetattr w "__Security_checker__" fr) ->
    ni K anyv m1 m2 -> ni K (op_result o) m1 m2.
  Proof. intros Ho. apply ni_weaken. intros v _ fr Hx. destruct (Ho fr Hx). Qed.

  Lemma bin_names b : py_binop_name b = binary_name b /\ c_binop_name b = binary_name b.
  Proof. destruct b; split; reflexivity. Qed.
  Lemma rbin_names b : py_rbinop_name b = reflected_name b /\ c_rbinop_name b = reflected_name b.
  Proof. destruct b; split; reflexivity. Qed.
  Lemma un_names u : py_unop_name u = unary_name u /\ c_unop_name u = unary_name u.
  Proof. destruct u; split; reflexivity. Qed.
  Lemma unx_names u : py_unopx_name u = unary_name_x u.
  Proof. destruct u; reflexivity. Qed.
  Lemma in_names b : c_inop_name b = inplace_name b.
  Proof. destruct b; reflexivity. Qed.
  Lemma inop_bin_spec b : inop_bin b = reflected_of b.
  Proof. destruct b; reflexivity. Qed.

  Lemma rb_bin b l r : rebinds_nothing (e_impl E) (OBin b l r).
  Proof. unfold rebinds_nothing. destruct (e_impl E); exact I. Qed.

  Lemma ni_bin_left K k p b r :
    (r = w -> ~ hidden (reflected_name b)) ->
    ni K anyv (proxy_bin_left E I1 k p b r) (proxy_bin_left E2 I2 k p b r).
  Proof.
    intros Hr. unfold proxy_bin_left. change (e_impl E2) with (e_impl E).
    apply ni_proxy_guard. intros K0 v Hv. apply ni_op; [|apply rb_bin].
    destruct (bin_names b) as [X Y]. destruct (e_impl E); rewrite ?X, ?Y in Hv;
      intros [[A B]|[A B]]; firstorder.
  Qed.
  Lemma ni_bin_right K k p b l :
    (l = w -> ~ hidden (binary_name b)) ->
    ni K anyv (proxy_bin_right E I1 k p b l) (proxy_bin_right E2 I2 k p b l).
  Proof.
    intros Hr. unfold proxy_bin_right. change (e_impl E2) with (e_impl E).
    apply ni_proxy_guard. intros K0 v Hv. apply ni_op; [|apply rb_bin].
    destruct (rbin_names b) as [X Y]. destruct (e_impl E); rewrite ?X, ?Y in Hv;
      intros [[A B]|[A B]]; firstorder.
  Qed.

  Lemma ni_raw_any K k o : okop o -> ni K anyv (raw E k o) (raw E2 k o).
  Proof. intros H. eapply ni_any. apply ni_raw. exact H. Qed.

  Lemma ni_pow3 K k a b m :
    okop (OPow3 a b m) -> ni K anyv (proxy_pow3 E I1 k a b m) (proxy_pow3 E2 I2 k a b m).
  Proof.
    intros Ho.
    assert (Hr : ni K anyv (raw E k (OPow3 a b m)) (raw E2 k (OPow3 a b m)))
      by (apply ni_raw_any; exact Ho).
    assert (Ha : a = w -> ~ hidden "__pow__") by (intros A B; apply Ho; left; auto).
    assert (Hb : b = w -> ~ hidden "__rpow__") by (intros A B; apply Ho; right; left; auto).
    assert (Hm : m = w -> ~ hidden "__3pow__") by (intros A B; apply Ho; right; right; auto).
    assert (Hrb : forall x y z, rebinds_nothing (e_impl E) (OPow3 x y z)).
    { intros. unfold rebinds_nothing. destruct (e_impl E); exact I. }
    assert (Hleft : forall p, a = VProxy p ->
      ni K anyv (proxy_guard E I1 p MCheck "__pow__" (fun w => i_op I1 k (OPow3 w b m)))
                (proxy_guard E2 I2 p MCheck "__pow__" (fun w => i_op I2 k (OPow3 w b m)))).
    { intros p _. apply ni_proxy_guard. intros K0 v Hv. apply ni_op; [|apply Hrb].
      intros [[A B]|[[A B]|[A B]]]; firstorder. }
    assert (Hrest :
      ni K anyv
        (if is_proxy b || is_proxy m then
          v <- raw E k (OPow3 a b m) ;;
          if value_eqb v VNotImpl then
            match e_impl E with
            | ImplPy => raise (EType "unsupported operand type(s) for pow()")
            | ImplC =>
                match b, m with
                | VProxy p, _ =>
                    c_check1 E I1 p MCheck "__rpow__" (fun w => i_op I1 k (OPow3 a w m))
                | _, VProxy p =>
                    c_check1 E I1 p MCheck "__3pow__" (fun w => i_op I1 k (OPow3 a b w))
                | _, _ => ret v
                end
            end
          else ret v
         else raw E k (OPow3 a b m))
        (if is_proxy b || is_proxy m then
          v <- raw E2 k (OPow3 a b m) ;;
          if value_eqb v VNotImpl then
            match e_impl E with
            | ImplPy => raise (EType "unsupported operand type(s) for pow()")
            | ImplC =>
                match b, m with
                | VProxy p, _ =>
                    c_check1 E2 I2 p MCheck "__rpow__" (fun w => i_op I2 k (OPow3 a w m))
                | _, VProxy p =>
                    c_check1 E2 I2 p MCheck "__3pow__" (fun w => i_op I2 k (OPow3 a b w))
                | _, _ => ret v
                end
            end
          else ret v
         else raw E2 k (OPow3 a b m))).
    { destruct (is_proxy b || is_proxy m); [|exact Hr].
      eapply ni_bind; [exact Hr|]. intros v _.
      destruct (value_eqb v VNotImpl); [|apply ni_ret; exact I].
      destruct (e_impl E) eqn:Himpl; [apply ni_raise|].
      assert (H2 : forall p, ni K anyv
        (c_check1 E I1 p MCheck "__rpow__" (fun w => i_op I1 k (OPow3 a w m)))
        (c_check1 E2 I2 p MCheck "__rpow__" (fun w => i_op I2 k (OPow3 a w m)))).
      { intros p. apply ni_c_check1. intros K0 u Hu. apply ni_op; [|rewrite Himpl; apply Hrb].
        intros [[A B]|[[A B]|[A B]]]; firstorder. }
      assert (H3 : forall p, ni K anyv
        (c_check1 E I1 p MCheck "__3pow__" (fun w => i_op I1 k (OPow3 a b w)))
        (c_check1 E2 I2 p MCheck "__3pow__" (fun w => i_op I2 k (OPow3 a b w)))).
      { intros p. apply ni_c_check1. intros K0 u Hu. apply ni_op; [|rewrite Himpl; apply Hrb].
        intros [[A B]|[[A B]|[A B]]]; firstorder. }
      destruct b; try apply H2; destruct m; try apply H3; apply ni_ret; exact I. }
    unfold proxy_pow3. change (e_impl E2) with (e_impl E).
    destruct a; try exact Hrest. eapply Hleft; reflexivity.
  Qed.

  Lemma ni_deco_getattr K k d n fr :
    ni K anyv (deco_getattr E I1 k d n fr) (deco_getattr E2 I2 k d n fr).
  Proof.
    unfold deco_getattr. destruct (String.eqb n "__Security_checker__").
    - apply ni_Decorated_get.
    - apply ni_get. intros s HI HK. destruct (st_decos s d) as [x|]; [|apply ni_raise].
      destruct (String.eqb n "__parent__" && String.eqb (dc_class x) "LocationProxy").
      + apply ni_ret. exact I.
      + apply ni_raw_any. intros [Hw _]. rewrite <- Hw in Hplain. exact Hplain.
  Qed.
  Lemma ni_deco_setattr K k d n v :
    ni K anyv (deco_setattr E k d n v) (deco_setattr E2 k d n v).
  Proof.
    unfold deco_setattr. destruct (String.eqb n "__Security_checker__"); [apply ni_raise|].
    apply ni_get_at. intros s HI HK. destruct (st_decos s d) as [x|];
      [|exact (ni_raise K _ _ s HI HK)].
    destruct (String.eqb n "__parent__" && String.eqb (dc_class x) "LocationProxy").
    - split; [reflexivity|]. intros r s' t H. unfold bind, put, ret in H. simpl in H. minj H.
      split; [apply inv_decos; auto|]. split; [split; simpl; auto|intros; exact I].
    - apply (at_ni K); auto. apply ni_raw_any.
      intros [Hw _]. rewrite <- Hw in Hplain. exact Hplain.
  Qed.

  Lemma ni_coerce_any K o v : ni K anyv (coerce o v) (coerce o v).
  Proof.
    unfold coerce. destruct o; try (apply ni_ret; exact I);
      destruct v; try apply ni_raise; apply ni_ret; exact I.
  Qed.

  Lemma rb_plain o' :
    match o' with OIn _ _ _ | OSetattr _ _ _ => False | _ => True end ->
    rebinds_nothing (e_impl E) o'.
  Proof.
    intros H. unfold rebinds_nothing. destruct (e_impl E), o'; try exact I; destruct H.
  Qed.

  Lemma ni_run_op K k o :
    okop o -> rebinds_nothing (e_impl E) o ->
    ni K (op_result o) (run_op E I1 k o) (run_op E2 I2 k o).
  Proof.
    intros Ho Hrb.
    assert (Hraw : ni K (op_result o) (raw E k o) (raw E2 k o)) by (apply ni_raw; exact Ho).
    assert (Hnp : forall p, VProxy p <> w).
    { intros p Hw. rewrite <- Hw in Hplain. exact Hplain. }
    assert (Hnd : forall d, VDeco d <> w).
    { intros d Hw. rewrite <- Hw in Hplain. exact Hplain. }
    destruct o as [v n fr|v n u|v n|v args|u v|u v|b l r|a b m|b l r|v key|v key u|v key|v key
                  |v|v|v|v|v|c l r|v|v|v].
    - (* getattr *)
      destruct v; simpl run_op;
        try (destruct (String.eqb n "__Security_checker__"); [apply ni_raise|exact Hraw]);
        try exact Hraw.
      + apply op_any; [intros fr0 [= H1]; exact (Hnp _ H1)|].
        unfold proxy_getattr. change (e_impl E2) with (e_impl E). destruct (e_impl E).
        * apply ni_py_getattr.
        * apply ni_c_check1. intros K0 v Hv. apply ni_op; [|apply rb_get].
          intros [A B]. exact (Hv A B).
      + apply op_any; [intros fr0 [= H1]; exact (Hnd _ H1)|]. apply ni_deco_getattr.
    - (* setattr *)
      apply op_any; [discriminate|]. eapply ni_any in Hraw.
      destruct v; try exact Hraw.
      + unfold run_op, proxy_setattr. change (e_impl E2) with (e_impl E).
        destruct (e_impl E) eqn:Himpl.
        * unfold py_setattr. simpl in Hrb.
          destruct (String.eqb_spec n "_wrapped") as [->|H1];
            [destruct Hrb; left; reflexivity|].
          destruct (String.eqb_spec n "_checker") as [->|H2];
            [destruct Hrb; right; reflexivity|].
          apply ni_pget. intros x Hx. apply ni_checked; [exact Hx|]. intros Hm.
          apply ni_op; [|rewrite Himpl; exact Hrb]. intros [A B]. exact (Hm A B).
        * apply ni_c_check0. intros K0 v Hv. apply ni_op; [|rewrite Himpl; exact I].
          intros [A B]. exact (Hv A B).
      + apply ni_deco_setattr.
    - (* delattr *)
      apply op_any; [discriminate|]. eapply ni_any in Hraw.
      destruct v; try exact Hraw.
      unfold run_op, proxy_delattr. change (e_impl E2) with (e_impl E).
      destruct (e_impl E) eqn:Himpl.
      + unfold py_delattr.
        destruct (String.eqb n "_wrapped" || String.eqb n "_checker"); [apply ni_raise|].
        apply ni_pget. intros x Hx. apply ni_checked; [exact Hx|]. intros Hm.
        apply ni_op; [|rewrite Himpl; exact I]. intros [A B]. exact (Hm A B).
      + apply ni_c_check0. intros K0 v Hv. apply ni_op; [|rewrite Himpl; exact I].
        intros [A B]. exact (Hv A B).
    - (* call *)
      apply op_any; [discriminate|]. eapply ni_any in Hraw.
      destruct v; try exact Hraw. simpl run_op.
      apply ni_proxy_guard. intros K0 v Hv. apply ni_op; [apply call_ok|apply rb_call].
    - (* unary *)
      apply op_any; [discriminate|]. eapply ni_any in Hraw.
      destruct v; try exact Hraw. simpl run_op.
      apply ni_proxy_guard. intros K0 v Hv. apply ni_op; [|apply rb_plain; exact I].
      destruct (un_names u) as [X Y].
      destruct (e_impl E); rewrite ?X, ?Y in Hv; intros [A B]; exact (Hv A B).
    - (* unary, C: inherited *)
      apply op_any; [discriminate|]. eapply ni_any in Hraw.
      destruct v; try exact Hraw. simpl run_op. destruct (e_impl E) eqn:Himpl; [|exact Hraw].
      apply ni_py_check_name. intros K0 v Hv. apply ni_op; [|rewrite Himpl; exact I].
      rewrite unx_names in Hv. intros [A B]; exact (Hv A B).
    - (* binary *)
      apply op_any; [discriminate|]. eapply ni_any in Hraw.
      assert (Hl : l = w -> ~ hidden (binary_name b)) by (intros A B; apply Ho; left; auto).
      assert (Hr : r = w -> ~ hidden (reflected_name b)) by (intros A B; apply Ho; right; auto).
      assert (Hcase : forall l, (l = w -> ~ hidden (binary_name b)) ->
        ni K anyv (raw E k (OBin b l r)) (raw E2 k (OBin b l r)) ->
        forall p, ni K anyv
          (v <- raw E k (OBin b l r) ;;
           if value_eqb v VNotImpl then proxy_bin_right E I1 k p b l else ret v)
          (v <- raw E2 k (OBin b l r) ;;
           if value_eqb v VNotImpl then proxy_bin_right E2 I2 k p b l else ret v)).
      { intros l0 Hl0 Hraw0 p. eapply ni_bind; [exact Hraw0|]. intros v _.
        destruct (value_eqb v VNotImpl); [apply ni_bin_right; auto|apply ni_ret; exact I]. }
      destruct l; try (apply ni_bin_left; exact Hr);
        (destruct r; try exact Hraw; apply Hcase; assumption).
    - (* pow *)
      apply op_any; [discriminate|]. apply ni_pow3. exact Ho.
    - (* in-place *)
      apply op_any; [discriminate|]. eapply ni_any in Hraw.
      assert (Hl : l = w -> ~ hidden (binary_name (reflected_of b)))
        by (intros A B; apply Ho; left; auto).
      assert (Hr : r = w -> ~ hidden (reflected_name (reflected_of b)))
        by (intros A B; apply Ho; right; auto).
      destruct (e_impl E) eqn:Himpl; [destruct Hrb|].
      assert (Hcase : forall l, (l = w -> ~ hidden (binary_name (reflected_of b))) ->
        ni K anyv (raw E k (OIn b l r)) (raw E2 k (OIn b l r)) ->
        forall p, ni K anyv
          (v <- raw E k (OIn b l r) ;;
           if value_eqb v VNotImpl then proxy_bin_right E I1 k p (inop_bin b) l else ret v)
          (v <- raw E2 k (OIn b l r) ;;
           if value_eqb v VNotImpl then proxy_bin_right E2 I2 k p (inop_bin b) l else ret v)).
      { intros l0 Hl0 Hraw0 p. eapply ni_bind; [exact Hraw0|]. intros v _.
        destruct (value_eqb v VNotImpl); [|apply ni_ret; exact I].
        apply ni_bin_right. rewrite inop_bin_spec. exact Hl0. }
      assert (Hleft : forall p, ni K anyv (proxy_inplace E I1 k p b r) (proxy_inplace E2 I2 k p b r)).
      { intros p. unfold proxy_inplace. change (e_impl E2) with (e_impl E). rewrite Himpl.
        apply ni_c_check2i. intros K0 v Hv. rewrite in_names in Hv.
        apply ni_op; [|rewrite Himpl; exact I].
        intros [[A [B|B]]|[A B]]; [exact (Hv A B)|exact (Hv A (Hinpl _ B))|exact (Hr A B)]. }
      destruct l; try apply Hleft; (destruct r; try exact Hraw; apply Hcase; assumption).
    - (* getitem *)
      apply op_any; [discriminate|]. eapply ni_any in Hraw.
      destruct v; try exact Hraw. simpl run_op.
      apply ni_proxy_guard. intros K0 v Hv. apply ni_op; [|apply rb_plain; exact I].
      intros [A B]; exact (Hv A B).
    - (* setitem *)
      apply op_any; [discriminate|]. eapply ni_any in Hraw.
      destruct v; try exact Hraw. simpl run_op.
      destruct (e_impl E).
      + eapply ni_bind; [apply ni_py_check_name|intros; apply ni_ret; exact I].
        intros K0 v Hv. apply ni_op; [|apply rb_plain; exact I].
        intros [A B]; exact (Hv A B).
      + apply ni_c_check0. intros K0 v Hv. apply ni_op; [|apply rb_plain; exact I].
        intros [A B]; exact (Hv A B).
    - (* delitem *)
      apply op_any; [discriminate|]. eapply ni_any in Hraw.
      destruct v; try exact Hraw. simpl run_op.
      destruct (e_impl E).
      + eapply ni_bind; [apply ni_py_check_name|intros; apply ni_ret; exact I].
        intros K0 v Hv. apply ni_op; [|apply rb_plain; exact I].
        intros [A B]; exact (Hv A B).
      + apply ni_c_check0. intros K0 v Hv. apply ni_op; [|apply rb_plain; exact I].
        intros [A B]; exact (Hv A B).
    - (* contains *)
      apply op_any; [discriminate|]. eapply ni_any in Hraw.
      destruct v; try exact Hraw. simpl run_op.
      destruct (e_impl E).
      + eapply ni_bind; [apply ni_py_check_name|].
        * intros K0 v Hv. apply ni_op; [|apply rb_plain; exact I].
          intros [A B]; exact (Hv A B).
        * intros v _. eapply ni_bind; [apply ni_truth|]. intros; apply ni_ret; exact I.
      + apply ni_c_check0. intros K0 v Hv. apply ni_op; [|apply rb_plain; exact I].
        intros [A B]; exact (Hv A B).
    - (* len *)
      apply op_any; [discriminate|]. eapply ni_any in Hraw.
      destruct v; try exact Hraw. simpl run_op.
      destruct (e_impl E).
      + apply ni_py_check_name_nowrap. intros K0 v Hv.
        apply ni_op; [|apply rb_plain; exact I]. intros [A B]; exact (Hv A B).
      + apply ni_c_check0. intros K0 v Hv. apply ni_op; [|apply rb_plain; exact I].
        intros [A B]; exact (Hv A B).
    - (* iter *)
      apply op_any; [discriminate|]. eapply ni_any in Hraw.
      destruct v; try exact Hraw. simpl run_op.
      apply ni_proxy_guard. intros K0 v Hv. apply ni_op; [|apply rb_plain; exact I].
      intros [A B]; exact (Hv A B).
    - (* next *)
      apply op_any; [discriminate|]. eapply ni_any in Hraw.
      destruct v; try exact Hraw. simpl run_op.
      apply ni_proxy_guard. intros K0 v Hv. apply ni_op; [|apply rb_plain; exact I].
      intros [A B]; exact (Hv A B).
    - (* hash *)
      apply op_any; [discriminate|]. eapply ni_any in Hraw.
      destruct v; try exact Hraw. simpl run_op.
      destruct (e_impl E); apply ni_pget; intros x Hx;
        (apply ni_op; [intros []|apply rb_plain; exact I]).
    - (* bool *)
      apply op_any; [discriminate|]. eapply ni_any in Hraw.
      destruct v; try exact Hraw. simpl run_op.
      destruct (e_impl E); apply ni_pget; intros x Hx;
        (apply ni_op; [intros []|apply rb_plain; exact I]).
    - (* comparison *)
      apply op_any; [discriminate|]. eapply ni_any in Hraw.
      assert (Hleft : forall p c0 x, ni K anyv
        (match e_impl E with
         | ImplPy => py_compare I1 k p c0 x
         | ImplC => c_richcompare E I1 k p c0 x
         end)
        (match e_impl E with
         | ImplPy => py_compare I2 k p c0 x
         | ImplC => c_richcompare E2 I2 k p c0 x
         end)).
      { intros p c0 x. destruct (e_impl E) eqn:Himpl.
        - apply ni_pget. intros y Hy. apply ni_op; [intros []|apply rb_plain; exact I].
        - apply ni_pget. intros y Hy. eapply ni_bind.
          + apply ni_op; [intros []|apply rb_plain; exact I].
          + intros v _. destruct v; try apply ni_c_proxy_result. apply ni_ret. exact I. }
      assert (Hright : forall p, ni K anyv
        (v <- raw E k (OCmp c l r) ;;
         if value_eqb v VNotImpl then
           match e_impl E with
           | ImplPy => py_compare I1 k p (swap_cmp c) l
           | ImplC => c_richcompare E I1 k p (swap_cmp c) l
           end
         else ret v)
        (v <- raw E2 k (OCmp c l r) ;;
         if value_eqb v VNotImpl then
           match e_impl E with
           | ImplPy => py_compare I2 k p (swap_cmp c) l
           | ImplC => c_richcompare E2 I2 k p (swap_cmp c) l
           end
         else ret v)).
      { intros p. eapply ni_bind; [exact Hraw|]. intros v _.
        destruct (value_eqb v VNotImpl); [apply Hleft|apply ni_ret; exact I]. }
      unfold run_op. change (e_impl E2) with (e_impl E).
      destruct l; try apply Hleft; (destruct r; try exact Hraw; apply Hright).
    - (* str *)
      apply op_any; [discriminate|]. eapply ni_any in Hraw.
      destruct v; try exact Hraw. unfold run_op. change (e_impl E2) with (e_impl E).
      eapply ni_bind with (P := anyv); [|intros; apply ni_coerce_any].
      assert (Hm : forall K v, may "__str__" v -> ni K anyv (i_op I1 k (OStr v)) (i_op I2 k (OStr v))).
      { intros K0 v Hv. apply ni_op; [|apply rb_plain; exact I]. intros [A B]; exact (Hv A B). }
      destruct (e_impl E); [apply ni_py_str_like|apply ni_c_str_like]; exact Hm.
    - (* repr *)
      apply op_any; [discriminate|]. eapply ni_any in Hraw.
      destruct v; try exact Hraw. unfold run_op. change (e_impl E2) with (e_impl E).
      eapply ni_bind with (P := anyv); [|intros; apply ni_coerce_any].
      assert (Hm : forall K v, may "__repr__" v -> ni K anyv (i_op I1 k (ORepr v)) (i_op I2 k (ORepr v))).
      { intros K0 v Hv. apply ni_op; [|apply rb_plain; exact I]. intros [A B]; exact (Hv A B). }
      destruct (e_impl E); [apply ni_py_str_like|apply ni_c_str_like]; exact Hm.
    - (* length hint *)
      apply op_any; [discriminate|]. eapply ni_any in Hraw.
      destruct v; try exact Hraw. unfold run_op. change (e_impl E2) with (e_impl E).
      assert (Hg : forall v fr, okop (OGetattr v "__length_hint__" fr)).
      { intros v fr. apply get_ok. right; right; simpl; auto 20. }
      destruct (e_impl E).
      + unfold py_length_hint. apply ni_pget. intros x Hx. eapply ni_bind with (P := anyv).
        * apply ni_catch.
          -- eapply ni_bind; [apply ni_op; [apply Hg|apply rb_get]|].
             intros; apply ni_ret; exact I.
          -- intros e. destruct (is_attribute_error e); [apply ni_ret; exact I|apply ni_raise].
        * intros oh _. destruct oh; [|apply ni_ret; exact I].
          apply ni_op; [apply call_ok|apply rb_call].
      + unfold c_length_hint. apply ni_pget. intros x Hx. apply ni_catch.
        * eapply ni_bind; [apply ni_op; [apply Hg|apply rb_get]|].
          intros h _. apply ni_op; [apply call_ok|apply rb_call].
        * intros e. destruct (is_attribute_error e); [apply ni_ret; exact I|apply ni_raise].
  Qed.
End NI.

Section Client.
  Variable E : env.
  Variable run2 : id -> call -> state -> res value * state.
  Variable w : value.
  Variable hidden : name -> Prop.
  Variable guards : list (id * checker).
  Variable lacking : perm -> Prop.
  Hypothesis Hplain : plain_object w.
  Hypothesis Hnames : forall n, hidden n -> concealable n.
  Hypothesis Hinpl : inplace_too hidden.
  Hypothesis HR : respects E w hidden guards lacking.
  Hypothesis HD : differs_only_there E w hidden run2.

  Lemma ni_interp_n f :
    ni_interp E w hidden guards lacking (interp_n E f) (interp_n (with_run E run2) f).
  Proof.
    induction f as [|f IH].
    - constructor; intros; apply ni_raise.
    - constructor.
      + intros K k o Ho Hrb. apply ni_run_op; auto.
      + intros K m c obj n. apply ni_checker_check; auto.
      + intros K c obj Hc. apply ni_select_loop; auto.
  Qed.

  Lemma untouched_ok o : ~ In w (operands o) -> ~ concerns hidden w o.
  Proof.
    intros H Hc. apply H. destruct o; simpl in *; intuition (subst; auto).
  Qed.

  Lemma perform_same f o s :
    Concealed E w hidden guards lacking s ->
    ~ In w (operands o) -> rebinds_nothing (e_impl E) o ->
    perform E f o s = perform (with_run E run2) f o s /\
    forall r s' t, perform E f o s = (r, s', t) -> Concealed E w hidden guards lacking s'.
  Proof.
    intros HI Ho Hrb.
    destruct (nii_op _ _ _ _ _ _ _ (ni_interp_n f) [] Client o (untouched_ok o Ho) Hrb s HI)
      as [Ha Hb].
    - intros p x [].
    - split; [exact Ha|]. intros r s' t H. apply (Hb r s' t H).
  Qed.

  Lemma client_same f c : forall s,
    Concealed E w hidden guards lacking s -> polite (e_impl E) w c ->
    run_client E f c s = run_client (with_run E run2) f c s.
  Proof.
    induction c as [|o next IH]; intros s HI Hp; [reflexivity|].
    simpl. destruct Hp as (Ho & Hrb & Hnext).
    destruct (perform_same f o s HI Ho Hrb) as [Ha Hb]. rewrite <- Ha.
    destruct (perform E f o s) as [[r s1] t1]. rewrite IH; auto.
    apply (Hb _ _ _ eq_refl).
  Qed.

  Lemma client_still_concealed f c : forall s rs s' t,
    Concealed E w hidden guards lacking s -> polite (e_impl E) w c ->
    run_client E f c s = (rs, s', t) -> Concealed E w hidden guards lacking s'.
  Proof.
    induction c as [|o next IH]; intros s rs s' t HI Hp Hr.
    - simpl in Hr. congruence.
    - simpl in Hr. destruct Hp as (Ho & Hrb & Hnext).
      destruct (perform_same f o s HI Ho Hrb) as [_ Hb].
      destruct (perform E f o s) as [[r s1] t1] eqn:H1.
      destruct (run_client E f (next r) s1) as [[rs2 s2] t2] eqn:H2.
      injection Hr as <- <- <-. eapply (IH r s1); [|apply Hnext|exact H2].
      apply (Hb _ _ _ eq_refl).
  Qed.
End Client.

Lemma still_concealed E w (hidden : name -> Prop) guards lacking :
  plain_object w -> (forall n, hidden n -> concealable n) -> inplace_too hidden ->
  respects E w hidden guards lacking ->
  forall f c s rs s' t,
    Concealed E w hidden guards lacking s -> polite (e_impl E) w c ->
    run_client E f c s = (rs, s', t) -> Concealed E w hidden guards lacking s'.
Proof.
  intros H1 H2 H3 H4. apply (client_still_concealed E (e_run E)); auto.
  intros t c s _. reflexivity.
Qed.
