(** * ProxyOps: mediation, refusal and effect of operations on proxies. *)

From Coq Require Import List String Bool Arith ZArith Lia.
From Verif Require Import Base Domain CheckerModel ProxyModel MFacts Spec RegSpec CheckFacts
  ProxySpec SafeFacts ProxyFacts.
Import ListNotations.
Open Scope string_scope.
Open Scope m_scope.

Definition is_getattr (o : op) : bool :=
  match o with OGetattr _ _ _ => true | _ => false end.
Definition is_inplace (o : op) : bool :=
  match o with OIn _ _ _ => true | _ => false end.

Lemma guard_py_getattr v n0 fr p n a :
  guard_of ImplPy (OGetattr v n0 fr) = Some (p, n, a) -> v = VProxy p /\ n0 = n /\ a = Read.
Proof.
  simpl. destruct v; try discriminate.
  destruct (internal_nameb n0 || unchecked_read n0)%bool; [discriminate|].
  intros [= -> -> <-]; auto.
Qed.

(** The check mode, what a refusal does and what a grant does. *)
Definition RefusedAs E f o p n w c (m : chkmode) (s : state) (e : exn) s1 t1 : Prop :=
  exists e' s' t2, perform E (S f) o s = (Exc e', s', (t1 ++ t2)%list) /\
    client_calls t2 = [] /\
    ((e_impl E = ImplC \/ is_getattr o = false \/ ~ attribute_error e) ->
     e' = e /\ s' = s1 /\ t2 = []) /\
    ((e_impl E = ImplPy /\ is_getattr o = true /\ attribute_error e) ->
     st_prox s1 p = Some (w, c) ->
     exists r2, do_check E f m c w n s1 = (r2, s', t2) /\
                e' = match r2 with Exc e2 => e2 | Ok _ => EAttribute n end).

Definition frame_of (E : env) (o : op) (p : id) : option value :=
  if is_getattr o then match e_impl E with ImplPy => Some (VProxy p) | ImplC => None end
  else None.

Definition GrantedAs E f o p w c (s s1 : state) (t1 : list event) : Prop :=
  st_prox s1 p = Some (w, c) ->
  forall r1 s2 t2, perform E f (on_object o (frame_of E o p) w) s1 = (r1, s2, t2) ->
  exists r s' t3, perform E (S f) o s = (r, s', (t1 ++ t2 ++ t3)%list) /\
    client_calls t3 = [] /\ (forall e, r1 = Exc e -> exists e', r = Exc e').

(** A refused operation: the refusal is what comes out and nothing else happens.  A
    granted operation (in-place operators of the Python proxy aside): the same operation
    is performed on the wrapped object, and afterwards only probes. *)
Lemma guarded_lemma E f o p n a w c s :
  guard_of (e_impl E) o = Some (p, n, a) -> st_prox s p = Some (w, c) ->
  exists m, (m = MSetattr <-> a = Write) /\
  ((e_impl E = ImplPy /\ is_inplace o = true) -> m = MCheck) /\
  forall r0 s1 t1, do_check E f m c w n s = (r0, s1, t1) ->
    client_calls t1 = [] /\
    match r0 with
    | Exc e => RefusedAs E f o p n w c m s e s1 t1
    | Ok _ => (e_impl E = ImplC \/ is_inplace o = false) ->
              GrantedAs E f o p w c s s1 t1
    end.
Proof.
  intros Hg Hp.
  assert (Hreg : ~ irregular (e_impl E) o ->
          (e_impl E = ImplC \/ is_getattr o = false) ->
          (e_impl E = ImplC \/ is_inplace o = false) ->
    exists m, (m = MSetattr <-> a = Write) /\
    ((e_impl E = ImplPy /\ is_inplace o = true) -> m = MCheck) /\
    forall r0 s1 t1, do_check E f m c w n s = (r0, s1, t1) ->
    client_calls t1 = [] /\
    match r0 with
    | Exc e => RefusedAs E f o p n w c m s e s1 t1
    | Ok _ => (e_impl E = ImplC \/ is_inplace o = false) ->
              GrantedAs E f o p w c s s1 t1
    end).
  { intros Hr Hga Hni. destruct (guarded_steps E f o p n a w c s Hg Hp Hr) as (m & Hm & HS).
    exists m. split; [exact Hm|]. split.
    { intros [? ?]. destruct Hni; congruence. }
    intros r0 s1 t1 Hc. split; [eapply quiet_check; eauto|].
    specialize (HS _ _ _ Hc). destruct r0 as [u|e].
    - intros _ Hp1 r1 s2 t2 Hx.
      assert (Hfr : frame_of E o p = None).
      { unfold frame_of. destruct (is_getattr o); [|reflexivity].
        destruct Hga as [->|?]; [reflexivity|discriminate]. }
      rewrite Hfr in Hx.
      destruct (HS Hp1 r1 s2 t2 Hx) as (r & s' & t3 & He & Hq & Hn).
      exists r, s', t3. split; [exact He|]. split; [exact Hq|].
      intros e ->. destruct (Hn e eq_refl) as (-> & _). eauto.
    - exists e, s1, []. rewrite app_nil_r. split; [exact HS|]. split; [reflexivity|].
      split; [auto|]. intros (H1 & H2 & _). destruct Hga; congruence. }
  destruct (impl_cases E) as [Hi|Hi].
  - destruct (is_getattr o) eqn:Hga; [|destruct (is_inplace o) eqn:Hin].
    + destruct o; try discriminate. rewrite Hi in Hg. assert (Hg' := Hg).
      apply guard_py_getattr in Hg'. destruct Hg' as (-> & -> & ->).
      exists MGetattr. split; [split; discriminate|]. split; [intros [_ ?]; discriminate|].
      intros r0 s1 t1 Hc. split; [eapply quiet_check; eauto|].
      assert (HS := py_getattr_steps E f p n frame_self s w c Hi Hp Hg _ _ _ Hc).
      destruct r0 as [u|e].
      * intros _ Hp1 r1 s2 t2 Hx. unfold frame_of in Hx. simpl in Hx. rewrite Hi in Hx.
        destruct (HS Hp1 r1 s2 t2 Hx) as (r & s' & t3 & He & Hq & _ & Hn & _).
        exists r, s', t3. auto.
      * destruct HS as [H1 H2]. destruct (is_attribute_error e) eqn:Ha.
        -- apply attribute_error_iff in Ha. destruct (H2 Ha) as (e' & s' & t2 & Hx & Hq & Hy).
           exists e', s', t2. split; [exact Hx|]. split; [exact Hq|]. split.
           ++ intros [?|[?|?]]; [congruence|discriminate|tauto].
           ++ intros _. exact Hy.
        -- assert (Hna : ~ attribute_error e)
             by (intros Hb; apply attribute_error_iff in Hb; congruence).
           exists e, s1, []. rewrite app_nil_r. split; [auto|]. split; [reflexivity|].
           split; [auto|tauto].
    + destruct o; try discriminate. rewrite Hi in Hg. simpl in Hg.
      destruct l; try discriminate. injection Hg as -> <- <-.
      exists MCheck. split; [split; discriminate|]. split; [auto|]. intros r0 s1 t1 Hc.
      split; [eapply quiet_check; eauto|].
      assert (Hx := py_inplace_steps E f p b r s w c Hi Hp _ _ _ Hc).
      destruct r0 as [u|e].
      * intros [?|?]; [congruence|discriminate].
      * exists e, s1, []. rewrite app_nil_r. split; [exact Hx|]. split; [reflexivity|].
        split; [auto|]. intros (_ & ? & _). discriminate.
    + apply Hreg; auto. intros [_ Hr]. destruct o; simpl in *; try discriminate; contradiction.
  - apply Hreg; auto. intros [Hx _]; congruence.
Qed.

(** ** Operations on plain objects run application code, once *)

Lemma raw_trace E k o s r s' t :
  raw E k o s = (r, s', t) -> t = [ECall k (e_tid E) (CallOp o)].
Proof.
  unfold raw, foreign. intros H. unfold bind in H.
  destruct (e_run E (e_tid E) (CallOp o) s) as [[v|e] s0].
  - destruct (coerce o v s0) as [[r2 s2] t2] eqn:Hc.
    assert (Ht : t2 = []).
    { unfold coerce, ret, raise in Hc. destruct o; try (minj Hc; reflexivity);
        destruct v; minj Hc; reflexivity. }
    subst t2. minj H. reflexivity.
  - minj H. reflexivity.
Qed.

Lemma perform_plain E f o :
  plain_object (principal_operand o) -> other_operands_plain o ->
  (is_getattr o = true -> forall v n fr, o = OGetattr v n fr -> n <> "__Security_checker__") ->
  perform E (S f) o = raw E Client o.
Proof.
  intros Hp Ho Hn. unfold perform. simpl. destruct o; simpl in Hp, Ho;
    try (destruct v; try contradiction; try reflexivity; fail).
  - assert (Hne := Hn eq_refl _ _ _ eq_refl). apply String.eqb_neq in Hne.
    destruct v; try contradiction; simpl; rewrite ?Hne; reflexivity.
  - destruct l; try contradiction; destruct r; try discriminate; reflexivity.
  - destruct Ho as [Hb Hm]. unfold proxy_pow3.
    destruct a; try contradiction; destruct b; try discriminate; destruct m;
      try discriminate; reflexivity.
  - destruct l; try contradiction; destruct r; try discriminate; reflexivity.
  - destruct v; try contradiction; destruct w; try discriminate; reflexivity.
Qed.

Lemma on_object_other o fr w :
  other_operands_plain o -> other_operands_plain (on_object o fr w).
Proof. destruct o; simpl; auto. Qed.
Lemma on_object_principal o fr w : principal_operand (on_object o fr w) = w.
Proof. destruct o; reflexivity. Qed.

(** What calling [m] may run. *)
Definition Invoked E f (m : value) (args : list value) (l : list event) : Prop :=
  exists s r s' t, perform E f (OCall m args) s = (r, s', t) /\ l = client_calls t.

Lemma raw_client E o s r s' t :
  raw E Client o s = (r, s', t) -> client_calls t = [ECall Client (e_tid E) (CallOp o)].
Proof. intros H. apply raw_trace in H. subst. reflexivity. Qed.

Lemma getattr_raw E f w n fr :
  plain_object w -> n <> "__Security_checker__" ->
  perform E (S f) (OGetattr w n fr) = raw E Client (OGetattr w n fr).
Proof.
  intros Hw Hn. apply perform_plain; simpl; auto. intros _ v n1 fr1 [= _ <- _]. auto.
Qed.

Lemma inplace_not_sec i : inplace_name i <> "__Security_checker__".
Proof. destruct i; discriminate. Qed.
Lemma plain_not_sec i : plain_of i <> "__Security_checker__".
Proof. destruct i; discriminate. Qed.

(** The exact effect on a plain object. *)
Lemma effect_lemma E f o p n a w c s r s' tr :
  foreign_keeps_proxies E ->
  guard_of (e_impl E) o = Some (p, n, a) -> Wraps s p w c -> c <> VNone ->
  plain_object w -> other_operands_plain o -> n <> "__Security_checker__" ->
  perform E (S (S f)) o s = (r, s', tr) ->
  exists m r0 s1 t1 t2, (m = MSetattr <-> a = Write) /\
    do_check E (S f) m c w n s = (r0, s1, t1) /\ tr = (t1 ++ t2)%list /\
    client_calls t1 = [] /\
    match r0 with
    | Exc _ => client_calls t2 = []
    | Ok _ => reached (e_impl E) (e_tid E) (Invoked E (S f)) p o w (client_calls t2)
    end.
Proof.
  intros HF Hg HW Hcn Hw Ho Hn HP. assert (Hp := proj1 HW).
  destruct (guarded_lemma E (S f) o p n a w c s Hg Hp) as (m & Hm & Hmi & HL).
  destruct (do_check E (S f) m c w n s) as [[r0 s1] t1] eqn:Hc.
  destruct (HL _ _ _ eq_refl) as [Hq1 HL']. clear HL.
  assert (Hp1 := proj1 (kept_wraps _ _ _ _ _ (kept_check _ _ _ _ _ _ _ _ _ _ HF Hc) HW)).
  destruct r0 as [[]|e].
  2:{ destruct HL' as (e' & s2 & t2 & He & Hq & _).
      rewrite He in HP. minj HP. exists m, (Exc e), s1, t1, t2. auto 10. }
  assert (Hcases : (e_impl E = ImplPy /\ is_inplace o = true) \/
                   (e_impl E = ImplC \/ is_inplace o = false)).
  { destruct (impl_cases E); destruct (is_inplace o); auto. }
  destruct Hcases as [[Hi Hin]|Hreg].
  - specialize (Hmi (conj Hi Hin)). subst m. clear HL'.
    destruct o; try discriminate. rewrite Hi in Hg. simpl in Hg.
    destruct l; try discriminate. injection Hg as -> <- <-.
    assert (HS := py_inplace_steps E (S f) p b r0 s w c Hi Hp _ _ _ Hc). simpl in HS.
    destruct (perform E (S f) (OGetattr w (inplace_name b) (Some (VProxy p))) s1)
      as [[r1 s2] t2] eqn:Hg1.
    destruct (HS _ _ _ eq_refl) as [HA HB]. clear HS.
    assert (Ht2 : client_calls t2 =
      [ECall Client (e_tid E) (CallOp (OGetattr w (inplace_name b) (Some (VProxy p))))]).
    { rewrite (getattr_raw _ _ _ _ _ Hw (inplace_not_sec b)) in Hg1.
      eapply raw_client; eauto. }
    exists MCheck, (Ok tt), s1, t1. rewrite Hi. unfold reached.
    assert (Hsec : (r1 = Ok VNone \/ exists e, r1 = Exc e /\ attribute_error e) ->
      exists t3, tr = (t1 ++ t2 ++ t3)%list /\
        exists rest, (rest = [] \/ exists m, Invoked E (S f) m [r0] rest) /\
          client_calls t3 =
          ECall Client (e_tid E) (CallOp (OGetattr w (plain_of b) (Some (VProxy p)))) :: rest).
    { intros Hnone.
      destruct (perform E (S f) (OGetattr w (plain_of b) (Some (VProxy p))) s2)
        as [[r2 s3] t3] eqn:Hg2.
      assert (Ht3 : client_calls t3 =
        [ECall Client (e_tid E) (CallOp (OGetattr w (plain_of b) (Some (VProxy p))))]).
      { rewrite (getattr_raw _ _ _ _ _ Hw (plain_not_sec b)) in Hg2.
        eapply raw_client; eauto. }
      specialize (HB Hnone _ _ _ eq_refl). destruct r2 as [m|e].
      - destruct (perform E (S f) (OCall m [r0]) s3) as [[r3 s4] t4] eqn:Hcall.
        specialize (HB _ _ _ eq_refl).
        assert (Hinv : Invoked E (S f) m [r0] (client_calls t4))
          by (exists s3, r3, s4, t4; auto).
        destruct r3 as [v|e].
        + rewrite (HB Hcn) in HP. minj HP. exists (t3 ++ t4)%list.
          split; [rewrite ?app_assoc; reflexivity|].
          exists (client_calls t4). split; [eauto|]. rewrite client_calls_app, Ht3. reflexivity.
        + rewrite HB in HP. minj HP. exists (t3 ++ t4)%list.
          split; [rewrite ?app_assoc; reflexivity|].
          exists (client_calls t4). split; [eauto|]. rewrite client_calls_app, Ht3. reflexivity.
      - rewrite HB in HP. minj HP. exists t3. split; [reflexivity|].
        exists []. split; [auto|exact Ht3]. }
    destruct r1 as [m|e].
    + destruct (value_eqb_spec m VNone) as [Hv|Hv].
      * destruct Hsec as (t3 & Htr & rest & Hrest & Ht3); [left; congruence|].
        exists (t2 ++ t3)%list. split; [exact Hm|]. split; [exact Hc|].
        split; [rewrite Htr, ?app_assoc; reflexivity|]. split; [exact Hq1|].
        exists rest. split; [exact Hrest|]. right. rewrite client_calls_app, Ht2, Ht3. reflexivity.
      * specialize (HA Hv).
        destruct (perform E (S f) (OCall m [r0]) s2) as [[r2 s3] t3] eqn:Hcall.
        specialize (HA _ _ _ eq_refl).
        assert (Hinv : Invoked E (S f) m [r0] (client_calls t3))
          by (exists s2, r2, s3, t3; auto).
        destruct r2 as [v|e].
        -- exists (t2 ++ t3)%list. split; [exact Hm|]. split; [exact Hc|].
           assert (Htr : tr = (t1 ++ t2 ++ t3)%list).
           { destruct (st_prox s3 p) as [[w' c']|] eqn:Hp3.
             - rewrite (HA _ _ eq_refl) in HP. minj HP. reflexivity.
             - clear HA HB. unfold perform in HP. simpl i_op in HP. unfold run_op in HP.
               unfold proxy_inplace in HP. rewrite Hi in HP.
               unfold py_check_name_inplace in HP. rewrite (pget_ok _ _ _ _ Hp) in HP.
               cbv zeta in HP. rewrite py_inop_spec in HP. simpl fst in HP. simpl snd in HP.
               unfold do_check in Hc. unfold perform in Hg1, Hcall.
               rewrite (bind_ok _ _ _ _ _ _ Hc) in HP.
               rewrite (bind_ok _ _ _ _ _ _ (catch_ok _ _ _ _ _ _ Hg1)) in HP.
               destruct m; try congruence;
                 rewrite (bind_ok _ _ _ _ _ _ Hcall) in HP; unfold pset_wrapped in HP;
                 rewrite bind_assoc, (pget_none _ _ _ Hp3) in HP; rewrite ?app_nil_r in HP;
                 minj HP; reflexivity. }
           rewrite Htr. split; [rewrite ?app_assoc; reflexivity|]. split; [exact Hq1|].
           exists (client_calls t3). split; [eauto|]. left.
           rewrite client_calls_app, Ht2. reflexivity.
        -- rewrite HA in HP. minj HP. exists (t2 ++ t3)%list.
           split; [exact Hm|]. split; [exact Hc|]. split; [reflexivity|]. split; [exact Hq1|].
           exists (client_calls t3). split; [eauto|]. left.
           rewrite client_calls_app, Ht2. reflexivity.
    + destruct (is_attribute_error e) eqn:Ha.
      * apply attribute_error_iff in Ha.
        destruct Hsec as (t3 & Htr & rest & Hrest & Ht3); [eauto|].
        exists (t2 ++ t3)%list. split; [exact Hm|]. split; [exact Hc|].
        split; [rewrite Htr, ?app_assoc; reflexivity|]. split; [exact Hq1|].
        exists rest. split; [exact Hrest|]. right. rewrite client_calls_app, Ht2, Ht3. reflexivity.
      * assert (Hna : ~ attribute_error e)
          by (intros Hb; apply attribute_error_iff in Hb; congruence).
        rewrite (HA Hna) in HP. minj HP. exists t2.
        split; [exact Hm|]. split; [exact Hc|]. split; [reflexivity|]. split; [exact Hq1|].
        exists []. split; [auto|]. left. exact Ht2.
  - specialize (HL' Hreg).
    destruct (perform E (S f) (on_object o (frame_of E o p) w) s1) as [[r1 s2] t2] eqn:Hx.
    destruct (HL' Hp1 _ _ _ Hx) as (r' & s3 & t3 & He & Hq & _).
    rewrite He in HP. minj HP. exists m, (Ok tt), s1, t1, (t2 ++ t3)%list.
    split; [exact Hm|]. split; [exact Hc|]. split; [reflexivity|]. split; [exact Hq1|].
    rewrite client_calls_app, Hq, app_nil_r.
    rewrite perform_plain in Hx.
    + apply raw_client in Hx. rewrite Hx. unfold reached, frame_of.
      destruct (impl_cases E) as [Hi|Hi]; rewrite Hi; [|destruct o; reflexivity].
      destruct o; simpl; try reflexivity.
      destruct Hreg as [?|?]; [congruence|discriminate].
    + rewrite on_object_principal. auto.
    + apply on_object_other. auto.
    + intros _ v n1 fr1 Heq. destruct o; try discriminate. simpl in Heq.
      injection Heq as <- <- <-.
      intros ->. apply Hn. clear - Hg. simpl in Hg. destruct v0; try discriminate.
      destruct (e_impl E); congruence.
Qed.

(** ** Reflected operators *)

Lemma right_first E o (h : M value) s r0 s0 :
  e_run E (e_tid E) (CallOp o) s = (r0, s0) ->
  (forall v, coerce o v = ret v) ->
  bind (raw E Client o) (fun v => if value_eqb v VNotImpl then h else ret v) s =
  match r0 with
  | Ok v => if value_eqb v VNotImpl
            then let '(r, s', t) := h s0 in
                 (r, s', ECall Client (e_tid E) (CallOp o) :: t)
            else (Ok v, s0, [ECall Client (e_tid E) (CallOp o)])
  | Exc e => (Exc e, s0, [ECall Client (e_tid E) (CallOp o)])
  end.
Proof.
  intros Hr Hc. unfold raw, foreign, bind. rewrite Hr. destruct r0 as [v|e]; [|reflexivity].
  rewrite Hc. unfold ret. destruct (value_eqb v VNotImpl).
  - destruct (h s0) as [[r s'] t]. reflexivity.
  - reflexivity.
Qed.

Definition RightSteps E f o p n (onw : value -> op) w c s (r0 : res value) s0 : Prop :=
  let first := ECall Client (e_tid E) (CallOp o) in
  (r0 <> Ok VNotImpl -> perform E (S f) o s = (r0, s0, [first])) /\
  (r0 = Ok VNotImpl ->
   exists m, m <> MSetattr /\
   forall rc s1 t1, do_check E f m c w n s0 = (rc, s1, t1) ->
     client_calls t1 = [] /\
     match rc with
     | Exc e => perform E (S f) o s = (Exc e, s1, first :: t1)
     | Ok _ =>
         st_prox s1 p = Some (w, c) ->
         forall r1 s2 t2, perform E f (onw w) s1 = (r1, s2, t2) ->
         exists r s' t3, perform E (S f) o s = (r, s', (first :: t1 ++ t2 ++ t3)%list) /\
           client_calls t3 = [] /\ (forall e, r1 = Exc e -> r = Exc e)
     end).

Lemma right_guard E f o p n (onw : value -> op) w c s r0 s0 m :
  e_run E (e_tid E) (CallOp o) s = (r0, s0) ->
  (forall v, coerce o v = ret v) -> m <> MSetattr ->
  (perform E (S f) o s =
   bind (raw E Client o)
     (fun v => if value_eqb v VNotImpl
               then proxy_guard E (interp_n E f) p m n
                      (fun w => i_op (interp_n E f) Client (onw w))
               else ret v) s) ->
  st_prox s0 p = Some (w, c) ->
  RightSteps E f o p n onw w c s r0 s0.
Proof.
  intros Hr Hc Hms HP Hp0. rewrite (right_first E o _ s r0 s0 Hr Hc) in HP.
  split.
  - intros Hn. rewrite HP. destruct r0 as [v|e]; [|reflexivity].
    destruct (value_eqb_spec v VNotImpl); [congruence|reflexivity].
  - intros ->. simpl in HP.
    assert (HS : exists m', m' <> MSetattr /\
      Steps (i_check (interp_n E f) m' c w n) (i_op (interp_n E f) Client (onw w)) p w c
        (proxy_guard E (interp_n E f) p m n
           (fun w => i_op (interp_n E f) Client (onw w))) s0).
    { unfold proxy_guard. destruct (impl_cases E) as [Hi|Hi]; rewrite Hi.
      - exists MCheck. split; [discriminate|].
        exact (steps_py_check_name E f p n (fun w => i_op (interp_n E f) Client (onw w)) s0 w c Hp0).
      - exists (c_mode s0 c m). split.
        + unfold c_mode. destruct m; try congruence; apply slot_mode_read; discriminate.
        + exact (steps_c_check1 E f p m n (fun w => i_op (interp_n E f) Client (onw w)) s0 w c Hp0). }
    destruct HS as (m' & Hm' & HS). exists m'. split; [exact Hm'|].
    intros rc s1 t1 Hchk. split; [eapply quiet_check; eauto|].
    specialize (HS _ _ _ Hchk). destruct rc as [u|e].
    + intros Hp1 r1 s2 t2 Hx. destruct (HS Hp1 _ _ _ Hx) as (r & s' & t3 & He & Hq & Hy).
      exists r, s', t3. rewrite HP, He. split; [reflexivity|]. split; [exact Hq|].
      intros e He1. apply (Hy e He1).
    + rewrite HP, HS. reflexivity.
Qed.

Lemma right_lemma E f o p n onw w c s r0 s0 :
  guard_right (e_impl E) o = Some (p, n, onw) ->
  e_run E (e_tid E) (CallOp o) s = (r0, s0) ->
  st_prox s0 p = Some (w, c) ->
  RightSteps E f o p n onw w c s r0 s0.
Proof.
  intros Hg Hr Hp0.
  destruct o; simpl in Hg; try discriminate.
  - destruct r; try discriminate. destruct (is_proxy l) eqn:Hl; [discriminate|].
    injection Hg as -> <- <-.
    apply right_guard with (m := MCheck); auto; try discriminate.
    unfold perform. simpl i_op. unfold run_op.
    assert (Hn : match e_impl E with ImplPy => py_rbinop_name b | ImplC => c_rbinop_name b end
                 = reflected_name b)
      by (destruct (e_impl E); [apply py_rbinop_spec | apply c_rbinop_spec]).
    unfold proxy_bin_right. rewrite Hn.
    destruct l; try discriminate; reflexivity.
  - destruct (impl_cases E) as [Hi|Hi]; rewrite Hi in Hg; [discriminate|].
    destruct (is_proxy a) eqn:Ha; [discriminate|].
    assert (HP : forall x, perform E (S f) (OPow3 a b m) x =
      proxy_pow3 E (interp_n E f) Client a b m x) by reflexivity.
    destruct b; try discriminate; try (destruct m; try discriminate);
      injection Hg as -> <- <-;
      (apply right_guard with (m := MCheck); auto; try discriminate);
      rewrite HP; unfold proxy_pow3, proxy_guard; rewrite Hi;
      destruct a; try discriminate; reflexivity.
  - destruct r; try discriminate. destruct (is_proxy l) eqn:Hl; [discriminate|].
    injection Hg as -> <- <-.
    apply right_guard with (m := MCheck); auto; try discriminate.
    unfold perform. simpl i_op. unfold run_op.
    assert (Hb : inop_bin b = reflected_of b) by (destruct b; reflexivity).
    assert (Hn : match e_impl E with ImplPy => py_rbinop_name (inop_bin b)
                               | ImplC => c_rbinop_name (inop_bin b) end
                 = reflected_name (reflected_of b))
      by (rewrite Hb; destruct (e_impl E); [apply py_rbinop_spec | apply c_rbinop_spec]).
    unfold proxy_bin_right. rewrite Hn, Hb.
    destruct l; try discriminate; reflexivity.
Qed.

(** ** Distinct operators have distinct names *)

Lemma distinct_lemma b o1 o2 p1 p2 n a1 a2 k1 k2 :
  guard_of b o1 = Some (p1, n, a1) -> guard_of b o2 = Some (p2, n, a2) ->
  operator_of o1 = Some k1 -> operator_of o2 = Some k2 -> k1 = k2.
Proof.
  assert (T : exists tbl : operator -> name,
    (forall o p n a k, guard_of b o = Some (p, n, a) -> operator_of o = Some k -> n = tbl k) /\
    (forall x y, tbl x = tbl y -> x = y)).
  { exists (fun k => match k with
      | KCall => "__call__" | KUn u => unary_name u | KUnX u => unary_name_x u
      | KBin x => binary_name x | KIn i => inplace_name i | KGetitem => "__getitem__"
      | KSetitem => "__setitem__" | KDelitem => "__delitem__" | KContains => "__contains__"
      | KLen => "__len__" | KIter => "__iter__" | KNext => "__next__" end).
    split.
    - intros o p n0 a k Hg Hk. destruct o; simpl in Hg, Hk; try discriminate;
        injection Hk as <-;
        try (destruct v; try discriminate); try (destruct l; try discriminate);
        try (destruct a0; try discriminate); try (injection Hg as <- <- <-; reflexivity).
      destruct b; [injection Hg as <- <- <-; reflexivity|discriminate].
    - intros x y. destruct x as [|u|u|x|x| | | | | | |], y as [|u'|u'|y|y| | | | | | |];
        try destruct u; try destruct u'; try destruct x; try destruct y;
        intros H; try reflexivity; discriminate H. }
  destruct T as (tbl & H1 & H2). intros G1 G2 K1 K2. apply H2.
  rewrite <- (H1 _ _ _ _ _ G1 K1). apply (H1 _ _ _ _ _ G2 K2).
Qed.

Lemma distinct_reflected_lemma b o1 o2 p1 p2 n a f2 k :
  guard_of b o1 = Some (p1, n, a) -> operator_of o1 = Some k ->
  guard_right b o2 = Some (p2, n, f2) -> False.
Proof.
  intros G1 K1 G2.
  assert (Hn : (exists x, n = reflected_name x) \/ n = "__3pow__").
  { destruct o2; simpl in G2; try discriminate.
    - destruct r; try discriminate. destruct (is_proxy l); [discriminate|].
      injection G2 as _ <- _. eauto.
    - destruct b; [discriminate|]. destruct (is_proxy a0); [discriminate|].
      destruct b0; try discriminate; try (injection G2 as _ <- _; left; exists BPow; reflexivity);
        destruct m; try discriminate; injection G2 as _ <- _; auto.
    - destruct r; try discriminate. destruct (is_proxy l); [discriminate|].
      injection G2 as _ <- _. eauto. }
  clear G2.
  destruct o1; simpl in G1, K1; try discriminate;
    try (destruct v; try discriminate); try (destruct l; try discriminate);
    try (destruct a0; try discriminate); try (destruct b; try discriminate);
    injection G1 as _ <- _;
    (destruct Hn as [[x Hx]|Hx]; [destruct x|]; try discriminate Hx);
    try (destruct u; discriminate Hx); try (destruct b0; discriminate Hx);
    try (destruct b; discriminate Hx).
Qed.
