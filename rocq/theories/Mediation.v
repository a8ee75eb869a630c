(** * Mediation: every client event of every operation is mediated. *)

From Coq Require Import List String Bool Arith ZArith Lia.
From Verif Require Import Base Domain CheckerModel ProxyModel MFacts Spec RegSpec CheckFacts
  ProxySpec MediationSpec SafeFacts ProxyFacts ProxyOps ProxyResults.
Import ListNotations.
Open Scope string_scope.
Open Scope m_scope.

Lemma mediated_prefix E sb o t0 tr o' :
  Mediated E sb o tr o' -> Mediated E sb o (t0 ++ tr) o'.
Proof.
  intros H. destruct H as [o tr Hp|u v tr Hi|o p n a w o2 t t1 t2 o' Hs Hc Hm
                          |o p w c s0 o2 t t2 o' Hs Hv Hp Hm].
  - apply Md_direct; auto.
  - apply Md_inherited; auto.
  - rewrite app_assoc. eapply Md_checked; eauto.
  - rewrite app_assoc. eapply Md_open; eauto.
Qed.

(** ** Predicates on the client events of a trace *)

Definition medP (E : env) (Q : list event -> op -> Prop) (t : list event) : Prop :=
  forall t1 th c t2, t = (t1 ++ ECall Client th c :: t2)%list ->
    th = e_tid E /\ exists o', c = CallOp o' /\ Q t1 o'.

Lemma medP_quiet E Q t : client_calls t = [] -> medP E Q t.
Proof.
  intros H t1 th c t2 ->. rewrite client_calls_app in H. simpl in H.
  apply app_eq_nil in H. destruct H as [_ H]. discriminate.
Qed.

Lemma medP_app E Q t1 t2 :
  medP E Q t1 -> medP E (fun pre o' => Q (t1 ++ pre)%list o') t2 -> medP E Q (t1 ++ t2).
Proof.
  intros H1 H2 a th c b Heq.
  assert (Hc : (exists d, t1 = a ++ ECall Client th c :: d)%list \/
               (exists d, a = t1 ++ d /\ t2 = d ++ ECall Client th c :: b)%list).
  { clear H1 H2. revert a Heq. induction t1 as [|x t1 IH]; intros a Heq; simpl in Heq.
    - right. exists a. auto.
    - destruct a as [|y a]; simpl in Heq.
      + injection Heq as -> _. left. exists t1. reflexivity.
      + injection Heq as -> Heq. destruct (IH a Heq) as [(d & ->)|(d & -> & ->)].
        * left. exists d. reflexivity.
        * right. exists d. auto. }
  destruct Hc as [(d & Hd)|(d & -> & Hd)].
  - eapply H1; eauto.
  - eapply H2; eauto.
Qed.

Lemma medP_impl E (Q Q' : list event -> op -> Prop) t :
  (forall pre o', Q pre o' -> Q' pre o') -> medP E Q t -> medP E Q' t.
Proof.
  intros HQ H t1 th c t2 Ht. destruct (H _ _ _ _ Ht) as (H1 & o' & H2 & H3). eauto.
Qed.

Lemma medP_raw E o s r s' t :
  raw E Client o s = (r, s', t) -> medP E (fun _ o' => o' = o) t.
Proof.
  intros H. apply raw_trace in H. subst t.
  intros t1 th c t2 Ht. destruct t1 as [|x t1]; simpl in Ht.
  - injection Ht as <- <- _. eauto.
  - injection Ht as _ Ht. destruct t1; discriminate.
Qed.

Lemma medP_direct E sb o s r s' t :
  is_proxy (principal_operand o) = false \/ (e_impl E = ImplC /\ exists u v, o = OUnX u v) ->
  raw E Client o s = (r, s', t) -> medP E (Mediated E sb o) t.
Proof.
  intros Hp H. eapply medP_impl; [|eapply medP_raw; eauto].
  intros pre o' ->. destruct Hp as [Hp|[Hi (u & v & ->)]].
  - apply Md_direct; auto.
  - apply Md_inherited; auto.
Qed.

(** ** heap_ok is an invariant *)

Lemma heap_interp E fuel :
  foreign_heap_ok E ->
  safe_interp (fun s s' => heap_ok s -> heap_ok s') (fun _ => True) (fun _ => True)
              True True (interp_n E fuel).
Proof.
  intros HF. apply interp_safe with (E := E); auto.
  - intros. eapply HF; eauto.
  - intros s v c _ H p x. simpl. unfold upd. destruct (Nat.eqb_spec p (st_next s)).
    + intros _. lia.
    + intros Hx. apply H in Hx. lia.
  - intros s k H p x. simpl. intros Hx. apply H in Hx. lia.
  - intros s p x y _ _ Hp H q z. simpl. unfold upd. destruct (Nat.eqb_spec q p).
    + subst. intros _. eapply H; eauto.
    + apply H.
Qed.

Lemma heap_check E f m c obj n s r s' t :
  foreign_heap_ok E -> do_check E f m c obj n s = (r, s', t) -> heap_ok s -> heap_ok s'.
Proof.
  intros HF H. destruct (heap_interp E f HF) as (_ & Hc & _).
  apply (Hc m c obj n) in H. apply H.
Qed.
Lemma heap_op E f k o s r s' t :
  foreign_heap_ok E -> i_op (interp_n E f) k o s = (r, s', t) -> heap_ok s -> heap_ok s'.
Proof.
  intros HF H. destruct (heap_interp E f HF) as (Hc & _ & _).
  apply (Hc k o) in H; [apply H|exact I|]. destruct o; simpl; auto.
Qed.

Lemma quiet_deco E f d s r s' t :
  Decorated_get E (interp_n E f) d s = (r, s', t) -> client_calls t = [].
Proof.
  intros H. apply client_calls_none.
  eapply @safe_Decorated_get with (R := quietR) (P := not_client)
    (okkind := fun k => k = Probe) (allow_in := True) (allow_set := True) in H;
    [ apply H | .. ]; try apply quiet_interp; unfold quietR, not_client; auto;
    try (intros ? ? ->; reflexivity).
Qed.

(** ** States that come about during an operation *)

Lemma evolves_trans E s1 s2 s3 : Evolves E s1 s2 -> Evolves E s2 s3 -> Evolves E s1 s3.
Proof.
  induction 1 as [s|s c r sa sc Hr _ IH|s sa sc Ho _ IH]; intros H; [exact H| |].
  - eapply Ev_foreign; eauto.
  - eapply Ev_own; eauto.
Qed.
Lemma evolves_own E s s' : own_step s s' -> Evolves E s s'.
Proof. intros H. eapply Ev_own; [exact H|constructor]. Qed.

Lemma evolves_interp E fuel :
  safe_interp (Evolves E) (fun _ => True) (fun _ => True) (e_impl E = ImplC)
              (e_impl E = ImplC) (interp_n E fuel).
Proof.
  apply interp_safe with (E := E); auto.
  - constructor.
  - apply evolves_trans.
  - intros. eapply Ev_foreign; [eauto|constructor].
  - intros s v c _. apply evolves_own. split; [destruct s; reflexivity|]. split.
    + split; simpl; [lia|]. intros p x Hp Hx. rewrite upd_ne; [auto|lia].
    + intros i Hi. reflexivity.
  - intros s k. apply evolves_own. split; [destruct s; reflexivity|]. split.
    + split; simpl; [lia|]. auto.
    + intros i Hi. simpl. rewrite upd_ne; [auto|lia].
  - intros s p x y Hi [Ha|Ha]; congruence.
  - intros s d x v _. apply evolves_own. split; [destruct s; reflexivity|]. split.
    + split; simpl; auto.
    + intros i Hi. reflexivity.
Qed.
Lemma evolves_check E f m c obj n s r s' t :
  do_check E f m c obj n s = (r, s', t) -> Evolves E s s'.
Proof.
  intros H. destruct (evolves_interp E f) as (_ & Hc & _). eapply (Hc m c obj n); eauto.
Qed.
Lemma evolves_op E f k o s r s' t :
  okop (e_impl E = ImplC) (e_impl E = ImplC) o ->
  i_op (interp_n E f) k o s = (r, s', t) -> Evolves E s s'.
Proof.
  intros Ho H. destruct (evolves_interp E f) as (Hc & _ & _). eapply (Hc k o); eauto.
Qed.

(** ** Dangling identities *)

Definition dies {A} (m : M A) (s : state) : Prop :=
  m s = (Exc (EType "dangling proxy"), s, []).
Lemma dies_bind {A B} (m : M A) (g : A -> M B) s : dies m s -> dies (bind m g) s.
Proof. intros H. unfold dies in *. rewrite (bind_exc _ _ _ _ _ _ H). reflexivity. Qed.
Lemma dies_catch {A} (m : M A) (h : M A) s :
  dies m s -> dies (catch m (fun e => if is_attribute_error e then h else raise e)) s.
Proof. intros H. unfold dies in *. unfold catch. rewrite H. reflexivity. Qed.

(** ** The theorem *)

Section Level.
  Variable E : env.
  Variable f : nat.
  Variable sb : state.
  Hypothesis HK : foreign_keeps_proxies E.
  Hypothesis HH : foreign_heap_ok E.
  (** Invariant: the state has come about during this operation. *)
  Definition J (s : state) : Prop := heap_ok s /\ Evolves E sb s.
  Hypothesis IH : forall o s r s' tr,
    J s -> perform E f o s = (r, s', tr) -> medP E (Mediated E sb o) tr.
  Notation I := (interp_n E f).

  Lemma J_check m c obj n s r s' t :
    do_check E f m c obj n s = (r, s', t) -> J s -> J s'.
  Proof.
    intros H [H1 H2]. split; [eapply heap_check; eauto|].
    eapply evolves_trans; [exact H2|]. eapply evolves_check; eauto.
  Qed.
  Lemma J_op k o s r s' t :
    i_op I k o s = (r, s', t) -> okop (e_impl E = ImplC) (e_impl E = ImplC) o -> J s -> J s'.
  Proof.
    intros H Ho [H1 H2]. split; [eapply heap_op; eauto|].
    eapply evolves_trans; [exact H2|]. eapply evolves_op; eauto.
  Qed.
  Lemma J_foreign c s r s' : e_run E (e_tid E) c s = (r, s') -> J s -> J s'.
  Proof.
    intros H [H1 H2]. split; [eapply HH; eauto|].
    eapply evolves_trans; [exact H2|]. eapply Ev_foreign; [exact H|constructor].
  Qed.

  Definition Med {A} (Q : list event -> op -> Prop) (m : M A) (s : state) : Prop :=
    forall r s' t, m s = (r, s', t) -> medP E Q t.
  Definition upc (Q : list event -> op -> Prop) : Prop :=
    forall t0 pre o', Q pre o' -> Q (t0 ++ pre)%list o'.
  Lemma upc_mediated o : upc (Mediated E sb o).
  Proof. intros t0 pre o' H. apply mediated_prefix. exact H. Qed.

  Lemma Med_bind {A B} Q (m : M A) (k : A -> M B) s :
    upc Q -> Med Q m s -> (forall a s1 t1, m s = (Ok a, s1, t1) -> Med Q (k a) s1) ->
    Med Q (bind m k) s.
  Proof.
    intros Hu H1 H2 r s' t H. mbind H.
    - subst. eapply H1; eauto.
    - subst. apply medP_app; [eapply H1; eauto|].
      eapply medP_impl; [|eapply H2; eauto]. intros pre o'. apply Hu.
  Qed.
  Lemma Med_catch {A} Q (m : M A) (h : exn -> M A) s :
    upc Q -> Med Q m s -> (forall e s1 t1, m s = (Exc e, s1, t1) -> Med Q (h e) s1) ->
    Med Q (catch m h) s.
  Proof.
    intros Hu H1 H2 r s' t H. mcatch H.
    - subst. eapply H1; eauto.
    - subst. apply medP_app; [eapply H1; eauto|].
      eapply medP_impl; [|eapply H2; eauto]. intros pre o'. apply Hu.
  Qed.
  Lemma Med_quiet {A} Q (m : M A) s :
    (forall r s' t, m s = (r, s', t) -> client_calls t = []) -> Med Q m s.
  Proof. intros H r s' t Hm. apply medP_quiet. eauto. Qed.
  Lemma Med_ret {A} Q (a : A) s : Med Q (ret a) s.
  Proof. apply Med_quiet. unfold ret. intros. minj H. reflexivity. Qed.
  Lemma Med_raise {A} Q e s : Med Q (@raise A e) s.
  Proof. apply Med_quiet. unfold raise. intros. minj H. reflexivity. Qed.
  Lemma Med_pget {B} Q p (k : value * value -> M B) s :
    (forall w c, st_prox s p = Some (w, c) -> Med Q (k (w, c)) s) ->
    Med Q (bind (pget p) k) s.
  Proof.
    intros H r s' t Hm. destruct (st_prox s p) as [[w c]|] eqn:Hp.
    - rewrite (pget_ok _ _ _ _ Hp) in Hm. eapply H; eauto.
    - rewrite (pget_none _ _ _ Hp) in Hm. minj Hm. apply medP_quiet. reflexivity.
  Qed.
  Lemma Med_coerce Q o v s : Med Q (coerce o v) s.
  Proof. destruct o; try apply Med_ret; destruct v; try apply Med_ret; apply Med_raise. Qed.
  Lemma Med_impl {A} (Q Q' : list event -> op -> Prop) (m : M A) s :
    (forall pre o', Q pre o' -> Q' pre o') -> Med Q m s -> Med Q' m s.
  Proof. intros H H1 r s' t Hm. eapply medP_impl; eauto. Qed.
  Lemma Med_op (Q : list event -> op -> Prop) o s :
    J s -> (forall pre o', Mediated E sb o pre o' -> Q pre o') ->
    Med Q (i_op I Client o) s.
  Proof. intros Hh HQ r s' t H. eapply medP_impl; [exact HQ|]. eapply IH; eauto. Qed.

  (** The check of [p], then code that may use [w]: what it does is mediated. *)
  Definition After (o : op) (p : id) (n : name) (a : access) (w : value)
             (pre : list event) (o' : op) : Prop :=
    exists o2, strips (e_impl E) o p n a w o2 /\ Mediated E sb o2 pre o'.
  Lemma upc_after o p n a w : upc (After o p n a w).
  Proof. intros t0 pre o' (o2 & H1 & H2). exists o2. split; auto. apply mediated_prefix; auto. Qed.
  Lemma Med_check {B} o p n a m w c s (k : unit -> M B) :
    st_prox s p = Some (w, c) -> J s -> (m = MSetattr <-> a = Write) ->
    (forall s1 t1, i_check I m c w n s = (Ok tt, s1, t1) -> st_prox s1 p = Some (w, c) ->
                   J s1 -> Med (After o p n a w) (k tt) s1) ->
    Med (Mediated E sb o) (bind (i_check I m c w n) k) s.
  Proof.
    intros Hp Hh Hm Hk r s' t H.
    mbind H.
    - apply medP_quiet. eapply quiet_check. unfold do_check. exact Hm0.
    - destruct a0. subst. apply medP_app.
      + apply medP_quiet. eapply quiet_check. unfold do_check. exact Hm0.
      + destruct (kept_wraps _ _ _ _ _ (kept_check _ _ _ _ _ _ _ _ _ _ HK Hm0)
                     (conj Hp (proj1 Hh _ _ Hp))) as [Hp1 _].
        eapply medP_impl; [|eapply (Hk _ _ Hm0 Hp1); eauto].
        * intros pre o' (o2 & Hs & Hmed).
          apply (Md_checked E sb o p n a w o2 [] t1 pre); auto.
          exists f, m, c, s, s1. split; [apply Hh|]. auto.
        * eapply J_check; eauto.
  Qed.

  (** The check passed, then [o2] was performed, then only probes. *)
  Lemma med_checked o p n a w c m s s1 t1 o2 s0 r2 s2 t0 t2 :
    strips (e_impl E) o p n a w o2 -> J s -> st_prox s p = Some (w, c) ->
    (m = MSetattr <-> a = Write) -> do_check E f m c w n s = (Ok tt, s1, t1) ->
    J s0 -> perform E f o2 s0 = (r2, s2, t2) ->
    medP E (fun pre o' => Mediated E sb o (t1 ++ t0 ++ pre) o') t2.
  Proof.
    intros Hs Hb Hp Hm Hc Hh Ho. eapply medP_impl; [|eapply IH; eauto].
    intros pre o' Hmed. cbv beta.
    apply (Md_checked E sb o p n a w o2 [] t1 (t0 ++ pre)%list); auto.
    - exists f, m, c, s, s1. split; [apply Hb|]. auto.
    - apply mediated_prefix. auto.
  Qed.

  Lemma med_open o p w c s o2 s0 r2 s2 t2 :
    opens (e_impl E) o p w o2 -> J s -> st_prox s p = Some (w, c) ->
    J s0 -> perform E f o2 s0 = (r2, s2, t2) ->
    medP E (Mediated E sb o) t2.
  Proof.
    intros Hs Hb Hp Hh Ho. eapply medP_impl; [|eapply IH; eauto].
    intros pre o' Hmed. apply (Md_open E sb o p w c s o2 [] pre o'); auto. apply Hb.
  Qed.

  Lemma dangling o p n a s :
    guard_of (e_impl E) o = Some (p, n, a) -> st_prox s p = None ->
    dies (perform E (S f) o) s.
  Proof.
    intros Hg Hp. unfold perform. simpl i_op. unfold run_op.
    assert (HD : forall B (g : value * value -> M B), dies (bind (pget p) g) s)
      by (intros; apply pget_none; exact Hp).
    destruct (impl_cases E) as [Hi|Hi]; rewrite Hi in *;
      destruct o; simpl in Hg; try discriminate;
        try (destruct v; try discriminate); try (destruct l; try discriminate);
        try (destruct a0; try discriminate);
        unfold proxy_getattr, proxy_setattr, proxy_delattr, proxy_bin_left, proxy_inplace,
          proxy_pow3, proxy_guard; rewrite ?Hi;
        unfold py_getattr, py_getattribute, py_setattr, py_delattr, py_check_name,
          py_check_name_nowrap, py_check_name_inplace, c_check1, c_check0, c_check2i, c_check;
        cbv zeta; unfold internal_nameb in Hg;
        try match type of Hg with context [String.eqb ?x "_wrapped"] =>
              destruct (String.eqb x "_wrapped"); [discriminate|];
              destruct (String.eqb x "_checker"); [discriminate|] end;
        try match type of Hg with context [unchecked_read ?x] =>
              destruct (unchecked_read x); [discriminate|] end;
        simpl in Hg; injection Hg as -> _ _; simpl andb; simpl orb; cbv iota;
        repeat first [ apply HD | apply dies_bind | apply dies_catch ].
  Qed.

  Lemma med_guarded o p n a s r s' tr :
    guard_of (e_impl E) o = Some (p, n, a) ->
    (e_impl E = ImplC \/ is_inplace o = false) ->
    J s -> perform E (S f) o s = (r, s', tr) -> medP E (Mediated E sb o) tr.
  Proof.
    intros Hg Hin Hh HP. destruct (st_prox s p) as [[w c]|] eqn:Hp.
    2:{ assert (He := dangling o p n a s Hg Hp). unfold dies in He. rewrite He in HP. minj HP.
        apply medP_quiet. reflexivity. }
    destruct (guarded_lemma E f o p n a w c s Hg Hp) as (m & Hm & _ & HL).
    destruct (do_check E f m c w n s) as [[r0 s1] t1] eqn:Hc.
    destruct (HL _ _ _ eq_refl) as [Hq1 HL']. clear HL.
    destruct r0 as [[]|e].
    - specialize (HL' Hin).
      destruct (kept_wraps _ _ _ _ _ (kept_check _ _ _ _ _ _ _ _ _ _ HK Hc)
                  (conj Hp (proj1 Hh _ _ Hp))) as [Hp1 _].
      destruct (perform E f (on_object o (frame_of E o p) w) s1) as [[r1 s2] t2] eqn:Hx.
      destruct (HL' Hp1 _ _ _ Hx) as (r' & s3 & t3 & He & Hq & _).
      rewrite He in HP. minj HP.
      apply medP_app; [apply medP_quiet; exact Hq1|].
      apply medP_app; [|apply medP_quiet; exact Hq].
      apply (med_checked o p n a w c m s s1 t1 _ s1 r1 s2 [] t2) with (7 := Hx); auto.
      + apply S_left; auto. destruct Hin as [?|Hin]; [auto|]. right. destruct o; auto.
        discriminate.
      + eapply J_check; eauto.
    - destruct HL' as (e' & s2 & t2 & He & Hq & _). rewrite He in HP. minj HP.
      apply medP_quiet. rewrite client_calls_app, Hq1, Hq. reflexivity.
  Qed.

  Lemma med_right o p n onw s r s' tr :
    guard_right (e_impl E) o = Some (p, n, onw) ->
    is_proxy (principal_operand o) = false ->
    J s -> perform E (S f) o s = (r, s', tr) -> medP E (Mediated E sb o) tr.
  Proof.
    intros Hg Hpo Hh HP.
    destruct (e_run E (e_tid E) (CallOp o) s) as [r0 s0] eqn:Hr.
    assert (Hh0 : J s0) by (eapply J_foreign; eauto).
    assert (Hfirst : medP E (Mediated E sb o) [ECall Client (e_tid E) (CallOp o)]).
    { intros t1 th c t2 Ht. destruct t1 as [|x t1]; simpl in Ht.
      - injection Ht as <- <- _. split; auto. exists o. split; auto. apply Md_direct; auto.
      - injection Ht as _ Ht. destruct t1; discriminate. }
    destruct (st_prox s0 p) as [[w c]|] eqn:Hp0.
    - destruct (right_lemma E f o p n onw w c s r0 s0 Hg Hr Hp0) as [HA HB].
      destruct r0 as [v|e]; [destruct (value_eqb_spec v VNotImpl) as [->|Hn]|].
      + destruct (HB eq_refl) as (m & Hm & HL). clear HA HB.
        destruct (do_check E f m c w n s0) as [[rc s1] t1] eqn:Hc.
        destruct (HL _ _ _ eq_refl) as [Hq1 HL']. clear HL. destruct rc as [[]|e].
        * destruct (kept_wraps _ _ _ _ _ (kept_check _ _ _ _ _ _ _ _ _ _ HK Hc)
                     (conj Hp0 (proj1 Hh0 _ _ Hp0))) as [Hp1 _].
          destruct (perform E f (onw w) s1) as [[r1 s2] t2] eqn:Hx.
          destruct (HL' Hp1 _ _ _ eq_refl) as (r' & s3 & t3 & He & Hq & _).
          rewrite He in HP. minj HP.
          change (ECall Client (e_tid E) (CallOp o) :: t1 ++ t2 ++ t3)%list with
            ([ECall Client (e_tid E) (CallOp o)] ++ t1 ++ t2 ++ t3)%list.
          apply medP_app; [exact Hfirst|].
          apply medP_app; [apply medP_quiet; exact Hq1|].
          apply medP_app; [|apply medP_quiet; exact Hq].
          eapply medP_impl with
            (Q := fun pre o' => Mediated E sb o (t1 ++ [] ++ pre) o').
          { intros pre o' Hmed. simpl in Hmed. apply mediated_prefix. exact Hmed. }
          apply (med_checked o p n Read w c m s0 s1 t1 (onw w) s1 r1 s2 [] t2); auto.
          -- apply S_right. auto.
          -- split; [intros ->; congruence|discriminate].
          -- eapply J_check; eauto.
        * rewrite HL' in HP. minj HP.
          change (ECall Client (e_tid E) (CallOp o) :: t1)%list with
            ([ECall Client (e_tid E) (CallOp o)] ++ t1)%list.
          apply medP_app; [exact Hfirst|]. apply medP_quiet. exact Hq1.
      + rewrite HA in HP by congruence. minj HP. exact Hfirst.
      + rewrite HA in HP by congruence. minj HP. exact Hfirst.
    - (* dangling *)
      assert (Htr : exists t2, tr = (ECall Client (e_tid E) (CallOp o) :: t2)%list /\
                               client_calls t2 = []).
      { assert (Hdang : forall m nm meth, proxy_guard E (interp_n E f) p m nm meth s0 =
                          (Exc (EType "dangling proxy"), s0, [])).
        { intros m nm meth. unfold proxy_guard, py_check_name, c_check1.
          destruct (impl_cases E) as [Hi|Hi]; rewrite Hi; [apply pget_none; auto|].
          apply bind_exc. apply pget_none. auto. }
        assert (Hgen : forall h, (forall v, coerce o v = ret v) ->
          (exists m nm meth, h s0 = proxy_guard E (interp_n E f) p m nm meth s0) ->
          bind (raw E Client o) (fun v => if value_eqb v VNotImpl then h else ret v) s
            = (r, s', tr) ->
          exists t2, tr = (ECall Client (e_tid E) (CallOp o) :: t2)%list /\
                     client_calls t2 = []).
        { intros h Hco (m & nm & meth & Hh0') Hb.
          rewrite (right_first E o h s r0 s0 Hr Hco) in Hb. rewrite Hh0', Hdang in Hb.
          exists []. destruct r0 as [v|e]; [destruct (value_eqb v VNotImpl)|]; minj Hb; auto. }
        unfold perform in HP. simpl i_op in HP.
        destruct o; simpl in Hg; try discriminate.
        - destruct r1; try discriminate. destruct (is_proxy l) eqn:Hl; [discriminate|].
          injection Hg as -> <- <-.
          apply (Hgen (proxy_bin_right E (interp_n E f) Client p b l)); [reflexivity| |].
          + unfold proxy_bin_right. eauto.
          + destruct l; try discriminate; exact HP.
        - destruct (impl_cases E) as [Hi|Hi]; rewrite Hi in Hg; [discriminate|].
          simpl in Hpo. rewrite Hpo in Hg.
          assert (HP' : proxy_pow3 E (interp_n E f) Client a b m s = (r, s', tr)) by exact HP.
          unfold proxy_pow3 in HP'. rewrite Hi in HP'.
          destruct b; try discriminate; try (destruct m; try discriminate);
            injection Hg as -> <- <-;
            (destruct a; try discriminate; simpl in HP';
             (eapply Hgen; [reflexivity| |exact HP']);
             unfold proxy_guard; rewrite Hi;
             eexists MCheck, _, _; reflexivity).
        - destruct r1; try discriminate. destruct (is_proxy l) eqn:Hl; [discriminate|].
          injection Hg as -> <- <-.
          apply (Hgen (proxy_bin_right E (interp_n E f) Client p (inop_bin b) l)); [reflexivity| |].
          + unfold proxy_bin_right. eauto.
          + destruct l; try discriminate; exact HP. }
      destruct Htr as (t2 & -> & Hq).
      change (ECall Client (e_tid E) (CallOp o) :: t2)%list with
            ([ECall Client (e_tid E) (CallOp o)] ++ t2)%list.
      apply medP_app; [exact Hfirst|]. apply medP_quiet. exact Hq.
  Qed.

  (** str() and repr() *)
  Lemma med_py_str o p nm onw s :
    (forall w, strips (e_impl E) o p nm Read w (onw w)) -> J s ->
    Med (Mediated E sb o) (py_str_like E I p nm (fun w => i_op I Client (onw w))) s.
  Proof.
    intros Hs Hh. unfold py_str_like. apply Med_catch; [apply upc_mediated| |].
    - unfold py_check_name. apply Med_pget. intros w c Hp. simpl.
      apply (Med_check o p nm Read); auto; [split; discriminate|].
      intros s1 t1 Hc Hp1 Hh1. apply Med_pget. intros w1 c1 Hp1'.
      assert (w1 = w) as -> by congruence. simpl.
      apply Med_bind; [apply upc_after| |].
      + apply Med_op; auto. intros pre o' Hmed. exists (onw w). auto.
      + intros v s2 t2 _. apply Med_quiet. intros. eapply quiet_proxy; eauto.
    - intros e s1 t1 _. destruct (is_type_error e); [apply Med_raise|].
      apply Med_pget. intros w c _. apply Med_quiet. intros. eapply quiet_default_py; eauto.
  Qed.

  Lemma med_c_str o p nm onw s :
    (forall w, strips (e_impl E) o p nm Read w (onw w)) -> J s ->
    Med (Mediated E sb o) (c_str_like E I p nm (fun w => i_op I Client (onw w))) s.
  Proof.
    intros Hs Hh. unfold c_str_like. intros r s' t H.
    destruct (st_prox s p) as [[w c]|] eqn:Hp.
    2:{ assert (Hx : catch (c_check I p MCheck nm ;;; ret true) (fun _ => ret false) s
                     = (Ok false, s, [])).
        { unfold c_check. unfold catch. rewrite bind_assoc, (pget_none _ _ _ Hp). reflexivity. }
        rewrite (bind_ok _ _ _ _ _ _ Hx), (pget_none _ _ _ Hp) in H. minj H.
        apply medP_quiet. reflexivity. }
    destruct (i_check I (slot_mode s c MCheck) c w nm s) as [[r0 s1] t1] eqn:Hc.
    assert (Hx : catch (c_check I p MCheck nm ;;; ret true) (fun _ => ret false) s
                 = (Ok (match r0 with Ok _ => true | Exc _ => false end), s1, t1)).
    { unfold c_check, catch. rewrite bind_assoc, (pget_ok _ _ _ _ Hp), bind_assoc, bind_get.
      simpl fst. simpl snd. unfold bind. rewrite Hc.
      destruct r0; unfold ret; rewrite ?app_nil_r; reflexivity. }
    destruct (kept_wraps _ _ _ _ _ (kept_check _ _ _ _ _ _ _ _ _ _ HK Hc)
                     (conj Hp (proj1 Hh _ _ Hp))) as [Hp1 _].
    rewrite (bind_ok _ _ _ _ _ _ Hx), (pget_ok _ _ _ _ Hp1) in H. simpl fst in H.
    assert (Hq : client_calls t1 = []) by (eapply quiet_check; exact Hc).
    destruct r0 as [[]|e]; cbv beta iota delta [fst] in H.
    - destruct (i_op I Client (onw w) s1) as [[r2 s2] t2] eqn:Ho. rewrite ?Ho in H. minj H.
      apply medP_app; [apply medP_quiet; exact Hq|].
      eapply medP_impl; [|eapply IH; [|exact Ho]; eapply J_check; eauto].
      intros pre o' Hmed. apply (Md_checked E sb o p nm Read w (onw w) [] t1 pre); auto.
      exists f, (slot_mode s c MCheck), c, s, s1. split; [apply Hh|]. split; auto. split; auto.
      split; [|discriminate]. intros Hx'. exfalso. revert Hx'. apply slot_mode_read. discriminate.
    - destruct (default_repr_c E I w s1) as [[r2 s2] t2] eqn:Ho. rewrite ?Ho in H. minj H.
      apply medP_quiet. rewrite client_calls_app, Hq. eapply quiet_default_c; eauto.
  Qed.

  (** In-place operators of the Python proxy *)
  Lemma med_py_inplace i p arg s :
    e_impl E = ImplPy -> J s ->
    Med (Mediated E sb (OIn i (VProxy p) arg))
        (py_check_name_inplace I Client p (py_inop_name i) arg) s.
  Proof.
    intros Hi Hh. unfold py_check_name_inplace.
    assert (Hpl := inop_plain_spec i). rewrite Hpl, py_inop_spec.
    apply Med_pget. intros w c Hp. simpl.
    apply (Med_check _ p (inplace_name i) Read); auto; [split; discriminate|].
    intros s1 t1 Hc Hp1 Hh1.
    assert (Hlook : forall n s, n = inplace_name i \/ n = plain_of i -> J s ->
      Med (After (OIn i (VProxy p) arg) p (inplace_name i) Read w)
          (i_op I Client (OGetattr w n (Some (VProxy p)))) s).
    { intros n0 s0 Hn Hh0. apply Med_op; auto. intros pre o' Hmed.
      exists (OGetattr w n0 (Some (VProxy p))). split; auto. rewrite Hi.
      apply S_inplace_lookup; auto. }
    assert (Hcall : forall m s, J s ->
      Med (After (OIn i (VProxy p) arg) p (inplace_name i) Read w)
          (i_op I Client (OCall m [arg])) s).
    { intros m s0 Hh0. apply Med_op; auto. intros pre o' Hmed.
      exists (OCall m [arg]). split; auto. rewrite Hi. apply S_inplace_call; auto. }
    apply Med_bind; [apply upc_after| |].
    - apply Med_catch; [apply upc_after|apply Hlook; auto|].
      intros e s2 t2 _. destruct (is_attribute_error e); [apply Med_ret|apply Med_raise].
    - intros m s2 t2 Hm.
      assert (Hh2 : J s2).
      { mcatch Hm.
        - eapply J_op; eauto; exact Logic.I.
        - destruct (is_attribute_error e); unfold ret, raise in Hf; minj Hf.
          eapply J_op; eauto; exact Logic.I. }
      assert (Hset : forall v s3, Med (After (OIn i (VProxy p) arg) p (inplace_name i) Read w)
                (pset_wrapped p v ;;; ret (VProxy p)) s3).
      { intros v s3. apply Med_quiet. unfold pset_wrapped. intros r s' t H.
        rewrite bind_assoc in H. destruct (st_prox s3 p) as [x|] eqn:Hp3.
        - rewrite (pget_ok _ _ _ _ Hp3), bind_assoc, bind_get, bind_put in H.
          unfold ret in H. minj H. reflexivity.
        - rewrite (pget_none _ _ _ Hp3) in H. minj H. reflexivity. }
      assert (Hset' : Med (After (OIn i (VProxy p) arg) p (inplace_name i) Read w)
                (bind (i_op I Client (OCall m [arg]))
                   (fun r => pset_wrapped p r ;;; ret (VProxy p))) s2).
      { apply Med_bind; [apply upc_after|apply Hcall; auto|]. intros. apply Hset. }
      destruct m; try exact Hset'. clear Hset'.
      apply Med_bind; [apply upc_after|apply Hlook; auto|]. intros m s3 t3 Hm3.
      assert (Hh3 : J s3) by (eapply J_op; eauto; exact Logic.I).
      apply Med_bind; [apply upc_after|apply Hcall; auto|]. intros v s4 t4 _.
      apply Med_quiet. intros r s' t H. unfold new_proxy in H.
      destruct c; unfold bind, fresh, get, put, ret, raise in H; simpl in H; minj H; reflexivity.
  Qed.

  Lemma Med_open {B} Q o p w c s0 o2 s (k : value -> M B) :
    upc Q -> (forall pre o', Mediated E sb o pre o' -> Q pre o') ->
    opens (e_impl E) o p w o2 -> J s0 -> st_prox s0 p = Some (w, c) -> J s ->
    (forall v s1 t1, i_op I Client o2 s = (Ok v, s1, t1) -> Med Q (k v) s1) ->
    Med Q (bind (i_op I Client o2) k) s.
  Proof.
    intros Hu HQ Ho Hb Hp Hh Hk. apply Med_bind; auto.
    apply Med_op; auto. intros pre o' Hmed. apply HQ.
    apply (Md_open E sb o p w c s0 o2 [] pre o'); auto. apply Hb.
  Qed.
  Lemma Med_open' o p w c s0 o2 s :
    opens (e_impl E) o p w o2 -> J s0 -> st_prox s0 p = Some (w, c) -> J s ->
    Med (Mediated E sb o) (i_op I Client o2) s.
  Proof.
    intros Ho Hb Hp Hh. apply Med_op; auto. intros pre o' Hmed.
    apply (Md_open E sb o p w c s0 o2 [] pre o'); auto. apply Hb.
  Qed.

  (** Comparisons *)
  Lemma med_compare o p c v s :
    (forall w, opens (e_impl E) o p w (OCmp c w v)) -> J s ->
    Med (Mediated E sb o)
        (match e_impl E with
         | ImplPy => py_compare I Client p c v
         | ImplC => c_richcompare E I Client p c v
         end) s.
  Proof.
    intros Ho Hh. destruct (impl_cases E) as [Hi|Hi]; rewrite Hi.
    - unfold py_compare. apply Med_pget. intros w c0 Hp. eapply Med_open'; [apply Ho|exact Hh|exact Hp|exact Hh].
    - unfold c_richcompare. apply Med_pget. intros w c0 Hp.
      eapply Med_open; [apply upc_mediated|exact (fun _ _ x => x)|apply Ho|exact Hh|exact Hp|exact Hh|].
      intros u s1 t1 _.
      assert (Hq : Med (Mediated E sb o) (c_proxy_result E I p u) s1).
      { apply Med_quiet. intros. eapply quiet_c_proxy_result; eauto. }
      destruct u; auto. apply Med_ret.
  Qed.

  (** Attributes that are not checked *)
  Lemma med_py_unchecked p n fr s :
    e_impl E = ImplPy -> internal_nameb n || unchecked_read n = true -> J s ->
    Med (Mediated E sb (OGetattr (VProxy p) n fr)) (py_getattr E I Client p n fr) s.
  Proof.
    intros Hi Hn Hh. unfold py_getattr. apply Med_catch; [apply upc_mediated| |].
    - unfold py_getattribute. cbv zeta.
      destruct (_ && _)%bool; [apply Med_raise|].
      apply Med_pget. intros w c Hp.
      unfold internal_nameb in Hn.
      destruct (String.eqb n "_wrapped"); [apply Med_ret|].
      destruct (String.eqb n "_checker"); [apply Med_ret|].
      simpl in Hn. rewrite unchecked_names_spec in Hn. rewrite Hn.
      intros r s' t H. rewrite bind_ret, (pget_ok _ _ _ _ Hp) in H. revert r s' t H.
      apply Med_bind; [apply upc_mediated| |].
      + match goal with |- context [if ?b then _ else _] => destruct b end;
          (eapply Med_open'; [rewrite Hi; apply O_getattr; auto;
           rewrite unchecked_names_spec; exact Hn|exact Hh|exact Hp|exact Hh]).
      + intros v s1 t1 _. apply Med_quiet. intros. eapply quiet_proxy; eauto.
    - intros e s1 t1 _. destruct (is_attribute_error e); [|apply Med_raise].
      apply Med_quiet. intros. eapply quiet_fallback; eauto.
  Qed.

  Lemma med_length_hint p s :
    J s ->
    Med (Mediated E sb (OLenHint (VProxy p)))
        (match e_impl E with
         | ImplPy => py_length_hint I Client p
         | ImplC => c_length_hint I Client p
         end) s.
  Proof.
    intros Hh. destruct (impl_cases E) as [Hi|Hi]; rewrite Hi.
    - unfold py_length_hint. apply Med_pget. intros w c Hp.
      apply Med_bind; [apply upc_mediated| |].
      + apply Med_catch; [apply upc_mediated| |].
        * eapply Med_open; [apply upc_mediated|exact (fun _ _ x => x)|apply O_hint_lookup|exact Hh|exact Hp|exact Hh|].
          intros. apply Med_ret.
        * intros e s1 t1 _. destruct (is_attribute_error e); [apply Med_ret|apply Med_raise].
      + intros [h|] s1 t1 Hm; [|apply Med_ret].
        eapply Med_open'; [apply O_hint_call|exact Hh|exact Hp|].
        mcatch Hm.
        * mbind Hm0; [discriminate|]. unfold ret in Hf. minj Hf. eapply J_op; eauto; exact Logic.I.
        * destruct (is_attribute_error e); unfold ret, raise in Hf; minj Hf.
    - unfold c_length_hint. apply Med_pget. intros w c Hp.
      apply Med_catch; [apply upc_mediated| |].
      + eapply Med_open; [apply upc_mediated|exact (fun _ _ x => x)|apply O_hint_lookup|exact Hh|exact Hp|exact Hh|].
        intros h s1 t1 Hm. eapply Med_open'; [apply O_hint_call|exact Hh|exact Hp|].
        eapply J_op; eauto; exact Logic.I.
      + intros e s1 t1 _. destruct (is_attribute_error e); [apply Med_ret|apply Med_raise].
  Qed.

  Lemma Med_raw o s :
    is_proxy (principal_operand o) = false \/ (e_impl E = ImplC /\ exists u v, o = OUnX u v) ->
    Med (Mediated E sb o) (raw E Client o) s.
  Proof. intros Ho r s' t H. eapply medP_direct; eauto. Qed.

  Lemma med_step o s :
    J s -> Med (Mediated E sb o) (perform E (S f) o) s.
  Proof.
    intros Hh.
    destruct (guard_of (e_impl E) o) as [[[p n] a]|] eqn:Hg.
    { destruct (is_inplace o) eqn:Hin.
      - destruct (impl_cases E) as [Hi|Hi].
        + destruct o; try discriminate. simpl in Hg. destruct l; try discriminate.
          unfold perform. simpl i_op. unfold run_op, proxy_inplace. rewrite Hi.
          apply med_py_inplace; auto.
        + intros r s' t H. eapply med_guarded; eauto.
      - intros r s' t H. eapply med_guarded; eauto. }
    destruct (guard_right (e_impl E) o) as [[[p n] onw]|] eqn:Hgr.
    { intros r s' t H. eapply med_right; eauto.
      destruct o; simpl in Hgr |- *; try discriminate.
      - destruct r0; try discriminate. destruct (is_proxy l); [discriminate|reflexivity].
      - destruct (e_impl E); [discriminate|]. destruct (is_proxy a); [discriminate|reflexivity].
      - destruct r0; try discriminate. destruct (is_proxy l); [discriminate|reflexivity]. }
    unfold perform. simpl i_op. unfold run_op.
    destruct o; simpl in Hg, Hgr.
    - (* getattr *)
      destruct v; try (apply Med_raw; left; reflexivity);
        try (destruct (is_atom _ && _)%bool; [apply Med_raise|apply Med_raw; left; reflexivity]).
      + destruct (impl_cases E) as [Hi|Hi]; rewrite Hi in Hg; [|discriminate].
        unfold proxy_getattr. rewrite Hi. apply med_py_unchecked; auto.
        destruct (_ || _)%bool; [reflexivity|discriminate].
      + unfold deco_getattr. destruct (String.eqb n "__Security_checker__").
        * apply Med_quiet. intros. eapply quiet_deco; eauto.
        * intros r s' t H. rewrite bind_get in H. revert r s' t H.
          destruct (st_decos s d) as [x|]; [|apply Med_raise].
          destruct (_ && _)%bool; [apply Med_ret|apply Med_raw; left; reflexivity].
    - (* setattr *)
      destruct v; try (apply Med_raw; left; reflexivity).
      + destruct (impl_cases E) as [Hi|Hi]; rewrite Hi in Hg; [|discriminate].
        unfold proxy_setattr. rewrite Hi. unfold py_setattr. unfold internal_nameb in Hg.
        assert (Hset : forall m : M unit, (forall r s' t, m s = (r, s', t) -> t = []) ->
                  Med (Mediated E sb (OSetattr (VProxy p) n w)) (m ;;; ret VNone) s).
        { intros m Hm. apply Med_quiet. intros r s' t H. mbind H.
          - apply Hm in Hm0. subst. reflexivity.
          - unfold ret in Hf. minj Hf. apply Hm in Hm0. subst. reflexivity. }
        assert (Hsp : forall g : value * value -> state -> state, forall r s' t,
          bind (pget p) (fun wc => bind get (fun s => put (g wc s))) s = (r, s', t) -> t = []).
        { intros g r s' t H. destruct (st_prox s p) as [x|] eqn:Hp.
          - rewrite (pget_ok _ _ _ _ Hp), bind_get in H. unfold put in H. minj H. reflexivity.
          - rewrite (pget_none _ _ _ Hp) in H. minj H. reflexivity. }
        destruct (String.eqb n "_wrapped").
        { apply Hset. unfold pset_wrapped. intros. eapply Hsp in H. exact H. }
        destruct (String.eqb n "_checker"); [|discriminate].
        apply Hset. unfold pset_checker. intros. eapply Hsp in H. exact H.
      + unfold deco_setattr. destruct (String.eqb n "__Security_checker__"); [apply Med_raise|].
        intros r s' t H. rewrite bind_get in H. revert r s' t H.
        destruct (st_decos s d) as [x|]; [|apply Med_raise].
        destruct (_ && _)%bool; [|apply Med_raw; left; reflexivity].
        intros r s' t H. rewrite bind_put in H. revert r s' t H. apply Med_ret.
    - (* delattr *)
      destruct v; try (apply Med_raw; left; reflexivity).
      destruct (impl_cases E) as [Hi|Hi]; rewrite Hi in Hg; [|discriminate].
      unfold proxy_delattr. rewrite Hi. unfold py_delattr. unfold internal_nameb in Hg.
      destruct (_ || _)%bool; [apply Med_raise|discriminate].
    - destruct v; try discriminate; apply Med_raw; left; reflexivity.
    - destruct v; try discriminate; apply Med_raw; left; reflexivity.
    - destruct v; try (apply Med_raw; left; reflexivity).
      destruct (impl_cases E) as [Hi|Hi]; rewrite Hi in Hg |- *; [discriminate|].
      apply Med_raw. right. eauto.
    - destruct l; try discriminate; destruct r; try discriminate;
        apply Med_raw; left; reflexivity.
    - (* pow *)
      unfold proxy_pow3.
      assert (Hraw : is_proxy a = false ->
        Med (Mediated E sb (OPow3 a b m))
          (if is_proxy b || is_proxy m then
             v <- raw E Client (OPow3 a b m) ;;
             if value_eqb v VNotImpl then
               match e_impl E with
               | ImplPy => raise (EType "unsupported operand type(s) for pow()")
               | ImplC =>
                match b, m with
                | VProxy p, _ =>
                    c_check1 E I p MCheck "__rpow__" (fun w => i_op I Client (OPow3 a w m))
                | _, VProxy p =>
                    c_check1 E I p MCheck "__3pow__" (fun w => i_op I Client (OPow3 a b w))
                | _, _ => ret v
                end
               end
             else ret v
           else raw E Client (OPow3 a b m)) s).
      { intros Ha. destruct (is_proxy b || is_proxy m)%bool; [|apply Med_raw; left; exact Ha].
        apply Med_bind; [apply upc_mediated|apply Med_raw; left; exact Ha|].
        intros v s1 t1 _. destruct (value_eqb v VNotImpl); [|apply Med_ret].
        destruct (impl_cases E) as [Hi|Hi]; rewrite Hi in Hgr |- *; [apply Med_raise|].
        rewrite Ha in Hgr.
        destruct b; try discriminate; destruct m; try discriminate; apply Med_ret. }
      destruct a; try (apply Hraw; reflexivity). discriminate.
    - destruct l; try discriminate; destruct r; try discriminate;
        apply Med_raw; left; reflexivity.
    - destruct v; try discriminate; apply Med_raw; left; reflexivity.
    - destruct v; try discriminate; apply Med_raw; left; reflexivity.
    - destruct v; try discriminate; apply Med_raw; left; reflexivity.
    - destruct v; try discriminate; apply Med_raw; left; reflexivity.
    - destruct v; try discriminate; apply Med_raw; left; reflexivity.
    - destruct v; try discriminate; apply Med_raw; left; reflexivity.
    - destruct v; try discriminate; apply Med_raw; left; reflexivity.
    - (* hash *)
      destruct v; try (apply Med_raw; left; reflexivity).
      destruct (e_impl E) eqn:Hi; unfold py_hash; apply Med_pget; intros w c Hp;
        (eapply Med_open'; [apply O_hash|exact Hh|exact Hp|exact Hh]).
    - (* bool *)
      destruct v; try (apply Med_raw; left; reflexivity).
      destruct (e_impl E) eqn:Hi; unfold py_bool; apply Med_pget; intros w c Hp;
        (eapply Med_open'; [apply O_bool|exact Hh|exact Hp|exact Hh]).
    - (* comparisons *)
      assert (Hright : is_proxy v = false -> forall p, w = VProxy p ->
        Med (Mediated E sb (OCmp c v w))
          (r <- raw E Client (OCmp c v w) ;;
           if value_eqb r VNotImpl then
             match e_impl E with
             | ImplPy => py_compare I Client p (swap_cmp c) v
             | ImplC => c_richcompare E I Client p (swap_cmp c) v
             end
           else ret r) s).
      { intros Hv p ->. apply Med_bind; [apply upc_mediated|apply Med_raw; left; exact Hv|].
        intros u s1 t1 Hr. destruct (value_eqb u VNotImpl); [|apply Med_ret].
        apply med_compare.
        - intros x. apply O_cmp_right. exact Hv.
        - unfold raw in Hr. mbind Hr; [discriminate|]. unfold foreign in Hm.
          destruct (e_run E (e_tid E) (CallOp (OCmp c v (VProxy p))) s) as [rr ss] eqn:Hrun.
          minj Hm. simpl in Hf. unfold ret in Hf. minj Hf. eapply J_foreign; eauto. }
      destruct v; try (destruct w; try (apply Med_raw; left; reflexivity);
                       apply Hright; reflexivity).
      apply med_compare; auto. intros x. apply O_cmp.
    - (* str *)
      destruct v; try (apply Med_raw; left; reflexivity).
      apply Med_bind; [apply upc_mediated| |intros; apply Med_coerce].
      destruct (impl_cases E) as [Hi|Hi]; rewrite Hi.
      + apply med_py_str with (onw := OStr); auto. intros. apply S_str.
      + apply med_c_str with (onw := OStr); auto. intros. apply S_str.
    - (* repr *)
      destruct v; try (apply Med_raw; left; reflexivity).
      apply Med_bind; [apply upc_mediated| |intros; apply Med_coerce].
      destruct (impl_cases E) as [Hi|Hi]; rewrite Hi.
      + apply med_py_str with (onw := ORepr); auto. intros. apply S_repr.
      + apply med_c_str with (onw := ORepr); auto. intros. apply S_repr.
    - (* length hint *)
      destruct v; try (apply Med_raw; left; reflexivity).
      apply med_length_hint. auto.
  Qed.
End Level.

Lemma mediation_from E f sb o s r s' tr :
  foreign_keeps_proxies E -> foreign_heap_ok E -> J E sb s ->
  perform E f o s = (r, s', tr) -> medP E (Mediated E sb o) tr.
Proof.
  intros HK HH. revert o s r s' tr. induction f as [|f IH]; intros o s r s' tr Hh H.
  - unfold perform in H. simpl in H. unfold raise in H. minj H. apply medP_quiet. reflexivity.
  - eapply med_step; eauto.
Qed.

Theorem mediation_lemma E f o s r s' tr :
  foreign_keeps_proxies E -> foreign_heap_ok E -> heap_ok s ->
  perform E f o s = (r, s', tr) -> medP E (Mediated E s o) tr.
Proof.
  intros HK HH Hs. apply mediation_from; auto. split; [exact Hs|constructor].
Qed.

(** Checkers and proxies that exist when the operation starts are still the same. *)
Lemma evolves_kept E s s' :
  foreign_keeps_proxies E -> foreign_keeps_checkers E -> Evolves E s s' ->
  proxies_kept s s' /\
  forall i k, st_chks s i = Some k -> i < st_next s ->
    st_chks s' i = Some k /\ st_dicts s' (ck_get k) = st_dicts s (ck_get k) /\
    st_dicts s' (ck_set k) = st_dicts s (ck_set k).
Proof.
  intros HP HC. induction 1 as [s|s c r s1 s2 Hr _ [IH1 IH2]|s s1 s2 Ho _ [IH1 IH2]].
  - split; [apply proxies_kept_refl|auto].
  - assert (K := HP _ _ _ _ _ Hr). assert (C := HC _ _ _ _ _ Hr).
    split; [eapply proxies_kept_trans; eauto|].
    intros i k Hi Hl. destruct (C i k Hi) as (C1 & C2 & C3).
    destruct (IH2 i k C1) as (D1 & D2 & D3); [destruct K; lia|].
    rewrite D1, D2, D3. auto.
  - destruct Ho as (Heq & K & C). split; [eapply proxies_kept_trans; eauto|].
    intros i k Hi Hl. destruct (IH2 i k) as (D1 & D2 & D3).
    + rewrite (C i Hl). exact Hi.
    + destruct K; lia.
    + rewrite D1, D2, D3. rewrite Heq. simpl. auto.
Qed.
