(** * RightsFacts: using proxies changes nobody's rights. *)

From Coq Require Import List String Bool Arith ZArith Lia.
From Verif Require Import Base Domain CheckerModel ProxyModel MFacts SafeFacts RightsSpec Witness.
Import ListNotations.
Open Scope string_scope.
Open Scope m_scope.
Local Arguments String.eqb : simpl never.

Lemma same_refl s : same_rights s s.
Proof. split; auto. Qed.

Lemma same_trans s1 s2 s3 : same_rights s1 s2 -> same_rights s2 s3 -> same_rights s1 s3.
Proof.
  intros [a b c [d d'] e f g h] [a' b' c' [e' e''] i j k l]. split; try congruence.
  - lia.
  - intros x Hx. rewrite c' by lia. apply c, Hx.
  - split; congruence.
Qed.

Section Keeps.
  Variable E : env.
  Hypothesis HE : declares_nothing E.

  Notation keeps := (safe same_rights (fun _ => True)).

  Lemma same_new_proxy s x :
    same_rights s (set_prox (upd (st_prox s) (st_next s) x) (set_next (S (st_next s)) s)).
  Proof. split; simpl; auto. Qed.
  Lemma same_new_checker s k :
    same_rights s (set_chks (upd (st_chks s) (st_next s) (Some k)) (set_next (S (st_next s)) s)).
  Proof. split; simpl; auto. intros i Hi. rewrite upd_ne; [reflexivity|lia]. Qed.

  Lemma keeps_interp f :
    safe_interp same_rights (fun _ => True) (fun _ => True) True True (interp_n E f).
  Proof.
    apply interp_safe; auto using same_refl, same_new_proxy, same_new_checker.
    - intros s1 s2 s3. apply same_trans.
    - intros c s r s'. apply HE.
    - intros. split; simpl; auto.
    - intros. split; simpl; auto.
  Qed.

  Lemma okop_all o : okop True True o.
  Proof. destruct o; simpl; auto. Qed.

  Ltac fin L :=
    intros H;
    match type of H with context [interp_n E ?f] =>
      eapply (L same_rights (fun _ => True)) in H; [apply H| ..];
      try exact (keeps_interp f); cbv beta;
      eauto using same_refl, same_trans, same_new_proxy, same_new_checker
    end.

  Lemma keeps_op f k o s r s' t : i_op (interp_n E f) k o s = (r, s', t) -> same_rights s s'.
  Proof. intros H. destruct (keeps_interp f) as (A & _). eapply (A k o I (okop_all o)) in H. apply H. Qed.
  Lemma keeps_check f m c obj n s r s' t :
    do_check E f m c obj n s = (r, s', t) -> same_rights s s'.
  Proof. intros H. destruct (keeps_interp f) as (_ & A & _). eapply A in H. apply H. Qed.
  Lemma keeps_select f obj s r s' t : do_select E f obj s = (r, s', t) -> same_rights s s'.
  Proof. unfold do_select. fin @safe_selectChecker. Qed.
  Lemma keeps_factory f obj c s r s' t :
    do_ProxyFactory E f obj c s = (r, s', t) -> same_rights s s'.
  Proof. unfold do_ProxyFactory. fin @safe_ProxyFactory. Qed.
  Lemma keeps_proxy f c v s r s' t : do_proxy E f c v s = (r, s', t) -> same_rights s s'.
  Proof. unfold do_proxy. fin @safe_checker_proxy. Qed.
  Lemma keeps_canAccess f obj n s r s' t :
    do_canAccess E f obj n s = (r, s', t) -> same_rights s s'.
  Proof. unfold do_canAccess. fin @safe_canAccess. Qed.
  Lemma keeps_canWrite f obj n s r s' t :
    do_canWrite E f obj n s = (r, s', t) -> same_rights s s'.
  Proof. unfold do_canWrite. fin @safe_canWrite. Qed.
End Keeps.

Lemma uses_keep_lemma (Env : env -> Prop) s s' :
  (forall E, Env E -> declares_nothing E) -> Uses Env s s' -> same_rights s s'.
Proof.
  intros HE. induction 1; [apply same_refl|..]; (eapply same_trans; [|exact IHUses]).
  - eapply keeps_op; eauto.
  - eapply keeps_check; eauto.
  - eapply keeps_select; eauto.
  - eapply keeps_factory; eauto.
  - eapply keeps_proxy; eauto.
  - eapply keeps_canAccess; eauto.
  - eapply keeps_canWrite; eauto.
Qed.

(** ** Decisions *)

Definition after {A} (x : res A * state * list event) : state := snd (fst x).
Definition answer {A} (x : res A * state * list event) : res A := fst (fst x).

(** From every state with the rights of [s0] the computation has the result it has from [s0],
    and leaves these rights. *)
Definition steady {A} (s0 : state) (m : M A) : Prop :=
  forall x, same_rights s0 x -> answer (m x) = answer (m s0) /\ same_rights x (after (m x)).

Lemma steady_ret {A} s0 (a : A) : steady s0 (ret a).
Proof. intros x _. split; [reflexivity|apply same_refl]. Qed.
Lemma steady_raise {A} s0 e : steady s0 (@raise A e).
Proof. intros x _. split; [reflexivity|apply same_refl]. Qed.
Lemma steady_emit s0 e : steady s0 (emit e).
Proof. intros x _. split; [reflexivity|apply same_refl]. Qed.

Lemma steady_bind {A B} s0 (m : M A) (f : A -> M B) :
  steady s0 m -> (forall a, steady s0 (f a)) -> steady s0 (bind m f).
Proof.
  intros Hm Hf x Hx. destruct (Hm x Hx) as [H1 H2]. destruct (Hm s0 (same_refl s0)) as [_ H3].
  unfold bind. destruct (m x) as [[r x1] t], (m s0) as [[r' s1] t']. unfold answer, after in *.
  cbn [fst snd] in *. subst r'. destruct r as [a|e]; [|split; [reflexivity|exact H2]].
  assert (Hx1 : same_rights s0 x1) by exact (same_trans _ _ _ Hx H2).
  destruct (Hf a x1 Hx1) as [H4 H5]. destruct (Hf a s1 H3) as [H6 _].
  unfold answer, after in *. destruct (f a x1) as [[ra xa] ta], (f a s1) as [[rb xb] tb].
  cbn [fst snd] in *. split; [congruence|]. exact (same_trans _ _ _ H2 H5).
Qed.

Lemma steady_catch {A} s0 (m : M A) (h : exn -> M A) :
  steady s0 m -> (forall e, steady s0 (h e)) -> steady s0 (catch m h).
Proof.
  intros Hm Hf x Hx. destruct (Hm x Hx) as [H1 H2]. destruct (Hm s0 (same_refl s0)) as [_ H3].
  unfold catch. destruct (m x) as [[r x1] t], (m s0) as [[r' s1] t']. unfold answer, after in *.
  cbn [fst snd] in *. subst r'. destruct r as [a|e]; [split; [reflexivity|exact H2]|].
  assert (Hx1 : same_rights s0 x1) by exact (same_trans _ _ _ Hx H2).
  destruct (Hf e x1 Hx1) as [H4 H5]. destruct (Hf e s1 H3) as [H6 _].
  unfold answer, after in *. destruct (h e x1) as [[ra xa] ta], (h e s1) as [[rb xb] tb].
  cbn [fst snd] in *. split; [congruence|]. exact (same_trans _ _ _ H2 H5).
Qed.

Lemma steady_get {A} s0 (k : state -> M A) :
  (forall x, same_rights s0 x -> k x = k s0) -> steady s0 (k s0) -> steady s0 (bind get k).
Proof.
  intros Hk H x Hx. rewrite !bind_get, (Hk x Hx). apply H, Hx.
Qed.

Section Decisions.
  Variable E : env.
  Hypothesis HE : declares_nothing E.
  Hypothesis HD : decides_by_rights E.
  Variable s0 : state.

  Lemma steady_foreign_quiet i p obj : steady s0 (foreign_quiet E (CallPerm i p obj)).
  Proof.
    intros x Hx. destruct HD as (H & _). specialize (H i p obj _ _ Hx).
    unfold foreign_quiet, answer, after. destruct (e_run E (e_tid E) (CallPerm i p obj) x) as [r x1] eqn:Hr.
    destruct (e_run E (e_tid E) (CallPerm i p obj) s0) as [r' s1]. cbn [fst snd] in *.
    split; [exact H|]. eapply HE, Hr.
  Qed.

  Lemma steady_bool f v : is_proxy v = false -> steady s0 (i_op (interp_n E f) Probe (OBool v)).
  Proof.
    intros Hv x Hx. split; [|destruct (i_op (interp_n E f) Probe (OBool v) x) as [[r x1] t] eqn:H;
      eapply keeps_op; eauto].
    destruct f as [|f]; [reflexivity|].
    assert (X : answer (raw E Probe (OBool v) x) = answer (raw E Probe (OBool v) s0)).
    { destruct HD as (_ & _ & H & _). specialize (H v _ _ Hx).
      unfold raw, foreign, bind, answer. destruct (e_run E (e_tid E) (CallOp (OBool v)) x) as [r x1].
      destruct (e_run E (e_tid E) (CallOp (OBool v)) s0) as [r' s1]. cbn [fst snd] in *. subst r'.
      destruct r as [u|e]; [|reflexivity]. unfold coerce. destruct u; reflexivity. }
    cbn [interp_n i_op]. destruct v; try discriminate Hv; exact X.
  Qed.

  Lemma steady_truth f v : is_proxy v = false -> steady s0 (truth (interp_n E f) v).
  Proof.
    intros Hv. unfold truth. destruct v; try apply steady_ret; try discriminate Hv;
      (apply steady_bind; [apply steady_bool; reflexivity|]; intros u; destruct u;
       first [apply steady_ret | apply steady_raise]).
  Qed.

  Lemma same_answer x y p : same_rights s0 x ->
    simple_checkPermission x y p = simple_checkPermission s0 y p.
  Proof.
    intros H. unfold simple_checkPermission.
    rewrite (filter_ext _ (fun q => match pt_principal (st_parts s0 q) with
                                    | SystemUser => false | User _ => true end)); [reflexivity|].
    intros q. rewrite (sr_participations _ _ H). reflexivity.
  Qed.

  Lemma steady_perm f i p obj :
    steady s0 (v <- foreign_quiet E (CallPerm i p obj) ;; truth (interp_n E f) v).
  Proof.
    (* the answer is not a proxy *)
    intros x Hx. destruct (steady_foreign_quiet i p obj x Hx) as [H1 H2].
    destruct (steady_foreign_quiet i p obj s0 (same_refl s0)) as [_ H3].
    destruct HD as (_ & _ & _ & HP).
    unfold bind. unfold foreign_quiet, answer, after in *.
    destruct (e_run E (e_tid E) (CallPerm i p obj) x) as [r x1] eqn:Hr.
    destruct (e_run E (e_tid E) (CallPerm i p obj) s0) as [r' s1]. cbn [fst snd] in *. subst r'.
    destruct r as [v|e]; [|split; [reflexivity|exact H2]].
    assert (Hv : is_proxy v = false) by (eapply HP, Hr).
    assert (Hx1 : same_rights s0 x1) by exact (same_trans _ _ _ Hx H2).
    destruct (steady_truth f v Hv x1 Hx1) as [H4 H5]. destruct (steady_truth f v Hv s1 H3) as [H6 _].
    unfold answer, after in *. destruct (truth (interp_n E f) v x1) as [[ra xa] ta],
      (truth (interp_n E f) v s1) as [[rb xb] tb]. cbn [fst snd] in *.
    split; [congruence|]. exact (same_trans _ _ _ H2 H5).
  Qed.

  Lemma steady_ask f iv p obj : steady s0 (ask E (interp_n E f) iv p obj).
  Proof.
    assert (X : steady s0 (b <- catch (v <- foreign_quiet E (CallPerm iv p obj) ;; truth (interp_n E f) v)
                   (fun e => emit (EAsk (e_tid E) iv p obj None) ;;; raise e) ;;
        emit (EAsk (e_tid E) iv p obj (Some b)) ;;; ret b)).
    { apply steady_bind; [apply steady_catch; [apply steady_perm|]|].
      - intros e. apply steady_bind; [apply steady_emit|]. intros _. apply steady_raise.
      - intros b. apply steady_bind; [apply steady_emit|]. intros _. apply steady_ret. }
    destruct iv; try apply steady_raise; try exact X.
    unfold ask. apply steady_get.
    - intros x Hx. rewrite (sr_interactions _ _ Hx).
      destruct (st_inters s0 i) as [y|]; [|reflexivity]. rewrite (same_answer x y p Hx). reflexivity.
    - destruct (st_inters s0 i) as [y|]; [|apply steady_raise].
      apply steady_bind; [apply steady_emit|]. intros _. apply steady_ret.
  Qed.

  Lemma steady_tl f p obj : steady s0 (tl_checkPermission E (interp_n E f) p obj).
  Proof.
    unfold tl_checkPermission. apply steady_get.
    - intros x Hx. rewrite (sr_threads _ _ Hx). reflexivity.
    - destruct (tl_inter (st_tls s0 (e_tid E))); [apply steady_ask|apply steady_raise].
  Qed.

  Lemma steady_allow f p obj n :
    steady s0 (b <- tl_checkPermission E (interp_n E f) p obj ;;
               if b : bool then ret tt else raise (EUnauthorized obj n p)).
  Proof.
    apply steady_bind; [apply steady_tl|]. intros []; [apply steady_ret|apply steady_raise].
  Qed.

  Lemma steady_plain f k obj n : n <> "__iter__" -> steady s0 (Checker_check E (interp_n E f) k obj n).
  Proof.
    intros Hn. apply String.eqb_neq in Hn. unfold Checker_check. destruct (e_cimpl E).
    - unfold CheckerPy_check. apply steady_get.
      { intros x Hx. rewrite (sr_tables _ _ Hx). reflexivity. }
      cbv zeta. destruct (negb _); [destruct (perm_eqb _ _); [apply steady_ret|apply steady_allow]|].
      destruct (mem n available_by_default); [apply steady_ret|]. rewrite Hn. simpl negb. cbv iota.
      apply steady_bind; [apply steady_ret|]. intros []; [apply steady_raise|apply steady_ret].
    - unfold CheckerC_check_int. apply steady_get.
      { intros x Hx. rewrite (sr_tables _ _ Hx). reflexivity. }
      rewrite Hn. destruct (dget _ _ _) as [p|].
      + destruct (perm_eqb _ _); [apply steady_ret|apply steady_allow].
      + destruct (is_operator n); [|apply steady_raise].
        destruct (mem n available_by_default); [apply steady_ret|apply steady_raise].
  Qed.

  Lemma steady_plain_set f k obj n : steady s0 (Checker_check_setattr E (interp_n E f) k obj n).
  Proof.
    unfold Checker_check_setattr. destruct (e_cimpl E).
    - unfold CheckerPy_check_setattr. apply steady_get.
      { intros x Hx. rewrite (sr_tables _ _ Hx). reflexivity. }
      cbv zeta. destruct (negb _); [destruct (perm_eqb _ _); [apply steady_ret|apply steady_allow]|].
      apply steady_raise.
    - unfold CheckerC_check_setattr. apply steady_get.
      { intros x Hx. rewrite (sr_tables _ _ Hx). reflexivity. }
      destruct (dget _ _ _) as [p|]; [|apply steady_raise].
      destruct (negb (perm_eqb _ _)); [apply steady_allow|apply steady_ret].
  Qed.

  Lemma steady_combine a b : steady s0 a -> steady s0 b -> steady s0 (combine a b).
  Proof.
    intros Ha Hb. unfold combine. apply steady_catch; [exact Ha|]. intros e.
    destruct (is_forbidden e); [exact Hb|]. destruct (is_unauthorized e); [|apply steady_raise].
    apply steady_catch; [exact Hb|]. intros e2. destruct (is_forbidden e2); apply steady_raise.
  Qed.

  Lemma steady_check c obj n :
    Existing s0 c -> n <> "__iter__" -> forall f m, steady s0 (i_check (interp_n E f) m c obj n).
  Proof.
    intros HC Hn. induction HC as [i k Hi Hk Hp|i k c2 Hi Hk Hp _ IH|c Hc]; intros f m;
      (destruct f as [|f]; [apply steady_raise|]); cbn [interp_n i_check].
    - unfold checker_check. apply steady_get.
      { intros x Hx. rewrite (sr_checkers _ _ Hx i Hi). reflexivity. }
      rewrite Hk, Hp. destruct m; first [apply steady_plain; exact Hn | apply steady_plain_set].
    - unfold checker_check. apply steady_get.
      { intros x Hx. rewrite (sr_checkers _ _ Hx i Hi). reflexivity. }
      rewrite Hk, Hp.
      destruct m; unfold Combined_check, Combined_check_setattr, Combined_first_check, Combined_first_check_setattr;
        rewrite Hp; (apply steady_combine; [|apply IH]);
        (destruct (e_watch E); [first [apply steady_plain; exact Hn | apply steady_plain_set]|apply steady_raise]).
    - assert (X : steady s0 (foreign E Probe (CallCheck m c obj n) ;;; ret tt)).
      { intros x Hx. destruct HD as (_ & H & _). specialize (H m c obj n _ _ Hx).
        unfold foreign, bind, answer, after. destruct (e_run E (e_tid E) (CallCheck m c obj n) x) as [r x1] eqn:Hr.
        destruct (e_run E (e_tid E) (CallCheck m c obj n) s0) as [r' s1]. cbn [fst snd] in *. subst r'.
        destruct r; (split; [reflexivity|]); eapply HE, Hr. }
      destruct c; try exact X. exfalso. eapply Hc. reflexivity.
  Qed.
End Decisions.

Lemma decisions_lemma (Env : env -> Prop) E f m c obj n s s' :
  (forall E, Env E -> declares_nothing E) -> Uses Env s s' ->
  declares_nothing E -> decides_by_rights E -> Existing s c -> n <> "__iter__" ->
  fst (fst (do_check E f m c obj n s')) = fst (fst (do_check E f m c obj n s)).
Proof.
  intros HEnv HU HE HD HC Hn. eapply (steady_check E HE HD s c obj n HC Hn f m).
  eapply uses_keep_lemma; eassumption.
Qed.

Lemma quiet_declares b : declares_nothing (wenv b).
Proof.
  intros t c s r s' H. assert (s' = s) as ->; [|apply same_refl].
  cbn [wenv e_run] in H. unfold quiet_run in H.
  repeat match type of H with context [match ?x with _ => _ end] => destruct x end; congruence.
Qed.
