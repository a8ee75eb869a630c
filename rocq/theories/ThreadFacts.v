(** * ThreadFacts: every interleaving projects to a run of the thread alone. *)

From Coq Require Import List String Bool Arith.
From Verif Require Import Base Domain CheckerModel Management MFacts MgmtSpec Threads ThreadSpec.
Import ListNotations.
Open Scope string_scope.

(** Weakest precondition of a thread's program: whatever the shared data turn out to
    be, the program ends in a result, locals and own trace that satisfy [Q]. *)
Fixpoint wp {A} (p : prog A) (Q : A -> tlocal -> list label -> Prop) (l : tlocal)
  (tr : list label) : Prop :=
  match p with
  | PRet a => Q a l tr
  | PGetTl a k => wp (k (get_attr a l)) Q l tr
  | PSetTl a v k => wp k Q (set_attr a (Some v) l) tr
  | PDelTl a k => wp k Q (set_attr a None l) tr
  | PGetPol k => forall p, wp (k p) Q l (tr ++ [LPolicy p])
  | PSetPol p k => wp k Q l (tr ++ [LSetPolicy p])
  | PNewIact b k => forall i, wp (k i) Q l (tr ++ [LIact b i])
  | PGetPart q k => forall o, wp (k o) Q l (tr ++ [LPart q o])
  | PSetPart q i k => wp k Q l (tr ++ [LBind q i])
  | PAppend i q k => wp k Q l (tr ++ [LAppend i q])
  | PForeign v ps k => forall r, wp (k r) Q l (tr ++ [LForeign v ps r])
  end.

Lemma wp_bind {A B} (p : prog A) (f : A -> prog B) Q l tr :
  wp p (fun a l1 tr1 => wp (f a) Q l1 tr1) l tr -> wp (pbind p f) Q l tr.
Proof. revert l tr. induction p; simpl; intros; auto. Qed.

Lemma wp_mono {A} (p : prog A) (Q R : A -> tlocal -> list label -> Prop) l tr :
  (forall a l1 tr1, Q a l1 tr1 -> R a l1 tr1) -> wp p Q l tr -> wp p R l tr.
Proof. intros HQ. revert l tr. induction p; simpl; intros; auto. Qed.

Lemma own_app t tr1 tr2 : own t (tr1 ++ tr2) = (own t tr1 ++ own t tr2)%list.
Proof. unfold own. rewrite filter_app, map_app. reflexivity. Qed.

Lemma own_same t ls : own t (map (fun x => (t, x)) ls) = ls.
Proof.
  unfold own. induction ls as [|x ls IH]; simpl; auto. rewrite Nat.eqb_refl. simpl.
  f_equal. exact IH.
Qed.

Lemma own_other t t' ls : t' <> t -> own t (map (fun x => (t', x)) ls) = [].
Proof.
  intros H. unfold own. induction ls as [|x ls IH]; simpl; auto.
  destruct (Nat.eqb_spec t' t); [congruence|exact IH].
Qed.

Section Facts.
  Variable E : env.
  Hypothesis HE : policies_keep_locals E.

  (** A step of a thread preserves its own weakest precondition. *)
  Lemma step_own {A} t (p p' : prog A) s s' ls Q tr :
    step E t p s = Some (p', s', ls) ->
    wp p Q (st_tls s t) tr -> wp p' Q (st_tls s' t) (tr ++ ls).
  Proof.
    destruct p; simpl; intros H HW; try discriminate;
      try (inversion H; subst; simpl; rewrite ?upd_eq, ?app_nil_r; auto; fail).
    - inversion H; subst. destruct (st_inters s i); simpl; auto.
    - destruct (e_run E t (CallPolicy v parts) s) as [r s1] eqn:Hr. inversion H; subst.
      rewrite (HE _ _ _ _ _ _ t Hr). apply HW.
  Qed.

  (** ... and the locals of every other thread. *)
  Lemma step_other {A} t t' (p p' : prog A) s s' ls :
    step E t p s = Some (p', s', ls) -> t' <> t -> st_tls s' t' = st_tls s t'.
  Proof.
    destruct p; simpl; intros H Ht; try discriminate;
      try (inversion H; subst; simpl; rewrite ?upd_ne; auto; fail).
    - inversion H; subst. destruct (st_inters s i); reflexivity.
    - destruct (e_run E t (CallPolicy v parts) s) as [r s1] eqn:Hr. inversion H; subst.
      apply (HE _ _ _ _ _ _ t' Hr).
  Qed.

  Lemma projection {A} (c c' : id -> prog A) s s' tr t Q pre :
    Interleave E c s tr c' s' ->
    wp (c t) Q (st_tls s t) pre -> wp (c' t) Q (st_tls s' t) (pre ++ own t tr).
  Proof.
    intros HI. revert pre. induction HI; intros pre HW.
    - unfold own. simpl. rewrite app_nil_r. exact HW.
    - rewrite own_app, app_assoc. apply IHHI.
      destruct (Nat.eq_dec t t0) as [->|Hne].
      + rewrite upd_eq, own_same. eapply step_own; eauto.
      + rewrite upd_ne by auto. rewrite own_other by auto. rewrite app_nil_r.
        erewrite step_other by eauto. exact HW.
    - apply IHHI. rewrite H. exact HW.
  Qed.
End Facts.

(** ** What the calls do *)

Lemma wp_add_all i parts (Q : res value -> tlocal -> list label -> Prop) l tr :
  (forall ls r, Adds i parts ls r -> Q r l (tr ++ ls)%list) -> wp (p_add_all i parts) Q l tr.
Proof.
  revert tr. induction parts as [|q parts IH]; intros tr HQ; simpl.
  - rewrite <- (app_nil_r tr). apply HQ. constructor.
  - intros [v|].
    + simpl. apply HQ. constructor.
    + simpl. apply IH. intros ls r HA. rewrite <- !app_assoc. simpl. apply HQ.
      constructor. exact HA.
Qed.

Lemma wp_call_policy pol parts (Q : res value -> tlocal -> list label -> Prop) l tr :
  (forall ls r, PolicyCall parts (LPolicy pol :: ls) r ->
                Q r l (tr ++ LPolicy pol :: ls)%list) ->
  wp (p_call_policy pol parts) Q l (tr ++ [LPolicy pol]).
Proof.
  intros HQ. destruct pol; simpl; intros i.
  - apply wp_add_all. intros ls r HA. rewrite <- !app_assoc. apply HQ. constructor. exact HA.
  - apply wp_add_all. intros ls r HA. rewrite <- !app_assoc. apply HQ. constructor. exact HA.
  - rewrite <- !app_assoc. apply HQ. constructor.
Qed.

Definition one_call (c : mcall) (l : tlocal) (ls : list label) (r : res value) (l1 : tlocal)
  : Prop :=
  (exists parts made, c = MNew parts /\ calls_policy c l = true /\ PolicyCall parts ls made /\
                      spec_mcall c made l = (r, l1)) \/
  (calls_policy c l = false /\ ls = [] /\ forall made, spec_mcall c made l = (r, l1)).

Lemma wp_mcall c (Q : res value -> tlocal -> list label -> Prop) l tr :
  (forall ls r l1, one_call c l ls r l1 -> Q r l1 (tr ++ ls)%list) -> wp (p_mcall c) Q l tr.
Proof.
  intros HQ.
  assert (HL : forall r l1, calls_policy c l = false ->
                 (forall made, spec_mcall c made l = (r, l1)) -> Q r l1 tr).
  { intros r l1 H1 H2. rewrite <- (app_nil_r tr). apply HQ. right. auto. }
  destruct c; simpl.
  - unfold p_new, p_query. simpl.
    assert (HP : calls_policy (MNew parts) l = true ->
      wp (PGetPol (fun pol =>
        pbind (p_call_policy pol parts) (fun r =>
          match r with
          | Ok i => PSetTl AInteraction i (PRet (Ok VNone))
          | Exc e => PRet (Exc e)
          end))) Q l tr).
    { intros HC. simpl. intros pol. apply wp_bind, wp_call_policy.
      intros ls r HPC. destruct r as [i|e]; simpl.
      - apply HQ. left. exists parts, (Ok i). repeat split; auto.
        unfold calls_policy in HC. simpl. destruct (tl_inter l) as [[]|]; simpl in *; congruence.
      - apply HQ. left. exists parts, (Exc e). repeat split; auto.
        unfold calls_policy in HC. simpl. destruct (tl_inter l) as [[]|]; simpl in *; congruence. }
    unfold calls_policy in *. simpl in HL.
    destruct (tl_inter l) as [v|]; simpl.
    + destruct v; simpl; try (apply HL; auto; fail). apply HP. reflexivity.
    + apply HP. reflexivity.
  - destruct (tl_inter l) as [v|] eqn:Hl; simpl; apply HL; try reflexivity;
      intros made; simpl; rewrite Hl; reflexivity.
  - destruct (tl_prev l) as [v|] eqn:Hl; simpl; apply HL; try reflexivity;
      intros made; simpl; rewrite Hl; reflexivity.
  - apply HL; [reflexivity|]. intros made. reflexivity.
  - apply HL; [reflexivity|]. intros made. simpl. destruct (tl_inter l); reflexivity.
Qed.

Lemma wp_mcalls cs (Q : list (res value) -> tlocal -> list label -> Prop) l tr :
  (forall ls rs l1, Calls cs l ls rs l1 -> Q rs l1 (tr ++ ls)%list) -> wp (p_mcalls cs) Q l tr.
Proof.
  revert Q l tr. induction cs as [|c cs IH]; intros Q l tr HQ; simpl.
  - rewrite <- (app_nil_r tr). apply HQ. constructor.
  - apply wp_bind, wp_mcall. intros ls r l1 H1. apply wp_bind, IH.
    intros ls2 rs l2 H2. simpl. rewrite <- app_assoc. apply HQ.
    destruct H1 as [(parts & made & -> & HC & HP & HS)|(HC & -> & HS)].
    + econstructor; eauto.
    + simpl. econstructor; eauto.
Qed.

Lemma isolation_lemma E cs c s tr c' s' t rs :
  policies_keep_locals E ->
  c t = p_mcalls cs -> Interleave E c s tr c' s' -> c' t = PRet rs ->
  Calls cs (st_tls s t) (own t tr) rs (st_tls s' t).
Proof.
  intros HE Hc HI Hc'.
  pose proof (projection E HE c c' s s' tr t
                (fun rs l ls => Calls cs (st_tls s t) ls rs l) [] HI) as H.
  rewrite Hc, Hc' in H. simpl in H. apply H.
  apply wp_mcalls. intros ls rs0 l1 HC. exact HC.
Qed.

(** [Calls] is a function of what the thread saw. *)
Lemma Adds_det i parts ls1 r1 ls2 r2 x y :
  Adds i parts ls1 r1 -> Adds i parts ls2 r2 -> (ls1 ++ x = ls2 ++ y)%list ->
  ls1 = ls2 /\ r1 = r2.
Proof.
  intros H. revert ls2 r2. induction H; intros ls2 r2 H2 Heq; inversion H2; subst; auto;
    simpl in Heq; try discriminate.
  - inversion Heq. subst. auto.
  - inversion Heq. destruct (IHAdds _ _ ltac:(eassumption) ltac:(eassumption)). subst. auto.
Qed.

Lemma PolicyCall_det parts ls1 r1 ls2 r2 x y :
  PolicyCall parts ls1 r1 -> PolicyCall parts ls2 r2 -> (ls1 ++ x = ls2 ++ y)%list ->
  ls1 = ls2 /\ r1 = r2.
Proof.
  intros H1 H2 Heq. inversion H1; inversion H2; subst; simpl in Heq; inversion Heq; subst;
    try (destruct (Adds_det _ _ _ _ _ _ _ _ H H4 ltac:(eassumption)); subst; auto; fail).
  auto.
Qed.

Lemma determined_lemma cs l ls rs1 l1 rs2 l2 :
  Calls cs l ls rs1 l1 -> Calls cs l ls rs2 l2 -> rs1 = rs2 /\ l1 = l2.
Proof.
  intros H. revert rs2 l2. induction H; intros rs' l' H'.
  - inversion H'; subst; auto.
  - inversion H'; subst; [|congruence].
    destruct (PolicyCall_det _ _ _ _ _ _ _ H0 ltac:(eassumption) ltac:(symmetry; eassumption))
      as [-> ->].
    assert (Hl : (ls2 = ls3)%list) by (eapply app_inv_head; symmetry; eassumption).
    subst. rewrite H1 in H9. inversion H9; subst.
    destruct (IHCalls _ _ H12). subst. auto.
  - inversion H'; subst; [congruence|].
    match goal with HX : forall made, spec_mcall _ made _ = (?r', _) |- (_ :: _ = ?r' :: _)%list /\ _ =>
      pose proof (HX (Ok VNone)) as HB end.
    pose proof (H0 (Ok VNone)) as HA. rewrite HB in HA. inversion HA; subst.
    destruct (IHCalls _ _ ltac:(eassumption)). subst. auto.
Qed.

(** ** A thread running alone executes the functions of [Management] *)

Lemma exec_bind E {A B} t (p : prog A) (f : A -> prog B) s :
  exec E t (pbind p f) s = let '(a, s1) := exec E t p s in exec E t (f a) s1.
Proof.
  revert s. induction p; simpl; intros; auto.
  destruct (e_run E t (CallPolicy v parts) s) as [r s1]. apply H.
Qed.

Lemma exec_add_all E t i parts s x :
  st_inters s i = Some x ->
  exec E t (p_add_all i parts) s =
  (let '(r, s', _) := (add_all i parts ;;; ret (VIact i))%m s in (r, s')).
Proof.
  revert s x. induction parts as [|q parts IH]; intros s x Hi; [reflexivity|].
  simpl add_all. rewrite bind_assoc. simpl.
  unfold Paranoid_add. rewrite bind_assoc, bind_get.
  destruct (pt_inter (st_parts s q)) as [v|]; [reflexivity|].
  rewrite bind_assoc, bind_put, bind_assoc, bind_get. simpl.
  rewrite Hi. rewrite bind_put. simpl.
  eapply IH. simpl. apply upd_eq.
Qed.

Lemma exec_call_policy E t pol parts s :
  e_tid E = t ->
  exec E t (p_call_policy pol parts) s =
  (let '(r, s', _) := call_policy E pol parts s in (r, s')).
Proof.
  intros Ht. destruct pol; simpl.
  - unfold Paranoid_new. rewrite bind_fresh, bind_get, bind_put.
    apply (exec_add_all E t _ parts _ (mkInter false [])). simpl. apply upd_eq.
  - unfold Paranoid_new. rewrite bind_fresh, bind_get, bind_put.
    apply (exec_add_all E t _ parts _ (mkInter true [])). simpl. apply upd_eq.
  - unfold foreign. rewrite Ht. destruct (e_run E t (CallPolicy v parts) s). reflexivity.
Qed.

(** The functions of [Management] for the calls. *)
Definition mcall_run (E : env) (c : mcall) : M value :=
  match c with
  | MNew parts => newInteraction E parts
  | MEnd => endInteraction E
  | MRestore => restoreInteraction E
  | MQuery => queryInteraction E
  | MGet => getInteraction E
  end.


Lemma sequential_lemma E c s :
  exec E (e_tid E) (p_mcall c) s = (let '(r, s', _) := mcall_run E c s in (r, s')).
Proof.
  destruct c; simpl.
  - unfold p_new, newInteraction, queryInteraction.
    rewrite bind_assoc, bind_get, bind_ret.
    destruct (negb _); [reflexivity|]. simpl.
    unfold getSecurityPolicy. rewrite bind_assoc, bind_get, bind_ret.
    rewrite exec_bind, (exec_call_policy E _ _ _ _ eq_refl).
    destruct (call_policy E (st_policy s) parts s) as [[[i|e] s1] t1] eqn:Hc.
    + rewrite (bind_ok _ _ _ _ _ _ Hc), bind_get. reflexivity.
    + rewrite (bind_exc _ _ _ _ _ _ Hc). reflexivity.
  - unfold endInteraction, set_tl. rewrite bind_get.
    destruct (tl_inter (st_tls s (e_tid E))) as [v|] eqn:Hv; simpl;
      rewrite ?bind_assoc, ?bind_get, ?bind_put, ?Hv; reflexivity.
  - unfold restoreInteraction, set_tl. rewrite bind_get.
    destruct (tl_prev (st_tls s (e_tid E))) as [v|] eqn:Hv; simpl;
      rewrite ?bind_assoc, ?bind_get, ?bind_put, ?Hv; reflexivity.
  - unfold queryInteraction. reflexivity.
  - unfold getInteraction. rewrite bind_get.
    destruct (tl_inter (st_tls s (e_tid E))); reflexivity.
Qed.

(** A thread running alone is one of the interleavings. *)
Lemma exec_interleaves E {A} t (p : prog A) s a s' (c : id -> prog A) :
  c t = p -> exec E t p s = (a, s') ->
  exists tr c', Interleave E c s tr c' s' /\ c' t = PRet a /\
                (forall t', t' <> t -> c' t' = c t').
Proof.
  revert s c.
  assert (HSTEP : forall (c : id -> prog A) s p1 s1 ls,
    step E t (c t) s = Some (p1, s1, ls) ->
    (exists tr c', Interleave E (upd c t p1) s1 tr c' s' /\ c' t = PRet a /\
                   (forall t', t' <> t -> c' t' = upd c t p1 t')) ->
    exists tr c', Interleave E c s tr c' s' /\ c' t = PRet a /\
                  (forall t', t' <> t -> c' t' = c t')).
  { intros c s p1 s1 ls Hst (tr & c' & HI & Hc' & Ho). do 2 eexists. split; [|split].
    - eapply Int_step; eauto.
    - exact Hc'.
    - intros t' Ht. rewrite Ho by auto. apply upd_ne. exact Ht. }
  revert a s' HSTEP.
  induction p; intros a' s' HSTEP s c0 Hc He; simpl in He;
    try (eapply HSTEP; [rewrite Hc; simpl; reflexivity|];
         match goal with IH : _ |- _ => eapply IH; [exact HSTEP|apply upd_eq|exact He] end; fail).
  - inversion He; subst. exists [], c0. split; [constructor|]. split; [congruence|auto].
  - destruct (e_run E t (CallPolicy v parts) s) as [r s1] eqn:Hr.
    eapply HSTEP; [rewrite Hc; simpl; rewrite Hr; reflexivity|].
    eapply H; [exact HSTEP|apply upd_eq|exact He].
Qed.
