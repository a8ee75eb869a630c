(** * ProxyProps: the lemmas behind the proxy properties, and witnesses. *)

From Coq Require Import List String Bool Arith ZArith Lia.
From Verif Require Import Base Domain CheckerModel ProxyModel MFacts Spec RegSpec Witness
  CheckFacts CombineFacts RegistryFacts RegistryProps ProxySpec MediationSpec SessionSpec
  SlotSpec FactorySpec SafeFacts ProxyFacts ProxyOps ProxyTable ProxyResults Mediation
  Session Slots Factory.
Import ListNotations.
Open Scope string_scope.
Open Scope m_scope.

(** ** Witness environment and state *)

(** Application code that returns unprotected objects and behaves as the identity
    function when called with one argument. *)
Definition app_run (t : id) (c : call) (s : state) : res value * state :=
  match c with
  | CallOp (OGetattr (VObj _) "__Security_checker__" _) =>
      (Exc (EAttribute "__Security_checker__"), s)
  | CallOp (OGetattr (VObj _) "__isub__" _) => (Exc (EAttribute "__isub__"), s)
  | CallOp (OGetattr (VObj _) "__class__" _) => (Ok (VClass "app.Thing"), s)
  | CallOp (OGetattr (VClass _) "__module__" _) => (Ok (VStr "app"), s)
  | CallOp (OGetattr (VClass _) "__name__" _) => (Ok (VStr "Thing"), s)
  | CallOp (OGetattr (VObj _) _ _) => (Ok (VObj 9), s)
  | CallOp (OCall (VObj _) [x]) => (Ok x, s)
  | CallOp (OCall (VObj _) []) => (Ok (VObj 9), s)
  | CallOp (OCmp _ (VObj _) _) => (Ok (VObj 9), s)
  | CallOp (OBin _ (VObj _) _) => (Ok (VObj 9), s)
  | CallOp (OIn _ (VObj o) _) => (Ok (VObj o), s)
  | CallOp (OIter (VObj _)) => (Ok (VObj 9), s)
  | _ => quiet_run t c s
  end.
Definition aenv (b : impl) : env := wenv_run b app_run.

Definition a_dicts (i : id) : list (name * perm) :=
  match i with
  | 20 => [("foo", PPublic); ("bar", p_view); ("__iadd__", PPublic); ("__isub__", PPublic);
           ("__add__", PPublic); ("__call__", PPublic)]
  | 21 => [("bar", p_edit); ("foo", PPublic)]
  | _ => []
  end.
(** [w_state_in] with more names in the tables of checker 10. *)
Definition a_state (permissive : bool) : state := set_dicts a_dicts (w_state_in permissive).

Lemma app_pure t c s r s' : app_run t c s = (r, s') -> s' = s.
Proof.
  assert (Hq : forall t c s, snd (quiet_run t c s) = s).
  { intros t0 c0 s0. unfold quiet_run. destruct c0 as [o| | | |]; try reflexivity.
    destruct o; try reflexivity.
    repeat match goal with |- snd (match ?x with _ => _ end) = _ => destruct x end; reflexivity. }
  intros H. assert (Hs : snd (app_run t c s) = s).
  { unfold app_run.
    repeat match goal with
           | |- snd (quiet_run _ _ _) = _ => apply Hq
           | |- snd (_, _) = _ => reflexivity
           | |- snd (match ?x with _ => _ end) = _ => destruct x
           end. }
  rewrite H in Hs. exact Hs.
Qed.
Lemma quiet_pure t c s r s' : quiet_run t c s = (r, s') -> s' = s.
Proof.
  intros H. assert (Hs : snd (quiet_run t c s) = s).
  { unfold quiet_run. destruct c as [o| | | |]; try reflexivity.
    destruct o; try reflexivity.
    repeat match goal with |- snd (match ?x with _ => _ end) = _ => destruct x end; reflexivity. }
  rewrite H in Hs. exact Hs.
Qed.

Lemma pure_keeps_proxies E : foreign_pure E -> foreign_keeps_proxies E.
Proof. intros H t c s r s' Hr. apply H in Hr. subst. split; auto. Qed.
Lemma pure_heap_ok E : foreign_pure E -> foreign_heap_ok E.
Proof. intros H t c s r s' Hr. apply H in Hr. subst. auto. Qed.
Lemma pure_flat E : foreign_pure E -> foreign_flat E.
Proof. intros H t c s r s' Hr. apply H in Hr. subst. auto. Qed.
Lemma pure_keeps_checkers E : foreign_pure E -> foreign_keeps_checkers E.
Proof. intros H t c s r s' Hr. apply H in Hr. subst. apply checkers_kept_refl. Qed.
Lemma aenv_pure b : foreign_pure (aenv b).
Proof. intros t c s r s' H. eapply app_pure; eauto. Qed.
Lemma wenv_pure b : foreign_pure (wenv b).
Proof. intros t c s r s' H. eapply quiet_pure; eauto. Qed.

Lemma a_heap_ok x : heap_ok (a_state x).
Proof.
  intros p y. simpl. intros H. unfold w_prox in H.
  assert (Hp : In p [0; 40; 41]).
  { do 42 (destruct p as [|p]; [simpl in H; try discriminate; simpl; tauto|]).
    discriminate. }
  simpl in Hp. intuition (subst; repeat constructor).
Qed.
Lemma a_flat x : flat (a_state x).
Proof.
  intros p w c. simpl. intros H. unfold w_prox in H.
  do 42 (destruct p as [|p]; [simpl in H; try discriminate; injection H as <- _; reflexivity|]).
  discriminate.
Qed.

(** With an empty registry nothing is basic but the constants. *)
Lemma empty_not_basic b run v : Basic (wenv_run b run) [] v -> constant v.
Proof.
  intros [H|(f & s & s' & t & Hr & H)]; [exact H|]. exfalso.
  unfold do_select, selectChecker, selectCheckerPy, selectCheckerC in H.
  assert (Hreg : registered (wenv_run b run) s v = VChk default_cid).
  { unfold registered. rewrite Hr. reflexivity. }
  assert (Hsel : i_select (interp_n (wenv_run b run) f) (VChk default_cid) v s <> (Ok None, s', t)).
  { destruct f as [|f]; [discriminate|]. simpl. unfold select_loop. rewrite bind_get.
    destruct (is_Checker _ s (VChk default_cid)); discriminate. }
  destruct b; simpl in H; rewrite bind_get, Hreg in H; simpl in H; contradiction.
Qed.

Lemma app_closed b : basic_closed (aenv b) [].
Proof.
  assert (HN : forall x, is_proxy x = false -> Held (aenv b) [] x -> constant x).
  { intros x Hx [H|H]; [congruence|]. eapply empty_not_basic; eauto. }
  assert (HC : forall x, constant x -> Held (aenv b) [] x) by (intros; right; left; auto).
  constructor.
  - intros t c s r s' H Hs. apply app_pure in H. subst. exact Hs.
  - intros o s v s' Hp Hops H. simpl in H. apply HC.
    assert (Hc : constant (principal_operand o)).
    { apply HN; auto. rewrite Forall_forall in Hops. apply Hops.
      destruct o; simpl; auto. }
    unfold app_run, quiet_run in H.
    destruct o; simpl in Hc;
      try (match goal with Hc : constant ?v |- _ => destruct v; try contradiction end);
      repeat match type of H with
             | (_, _) = (_, _) => injection H as <- <-
             | match ?x with _ => _ end = _ => destruct x
             end; try discriminate; simpl; auto.
  - intros c x s v s' H. simpl in H. injection H as <- <-. apply HC. exact I.
  - intros d H. apply empty_not_basic in H. exact H.
Qed.

(** ** C15: any operation at any point of a run *)

Lemma run_heap (Env : env -> Prop) s s' :
  (forall E, Env E -> foreign_heap_ok E) -> Run Env s s' -> heap_ok s -> heap_ok s'.
Proof.
  intros HH. induction 1 as [s|E f o s r s1 t s' HE HP _ IH|s s1 s' Ho _ IH]; intros Hs; auto.
  apply IH. eapply heap_op; eauto.
Qed.

Lemma run_mediated (Env : env -> Prop) s0 s E f o r s' tr :
  (forall E, Env E -> foreign_keeps_proxies E /\ foreign_heap_ok E) ->
  heap_ok s0 -> Run Env s0 s -> Env E ->
  perform E f o s = (r, s', tr) ->
  forall t1 th c t2, tr = (t1 ++ ECall Client th c :: t2)%list ->
    th = e_tid E /\ exists o', c = CallOp o' /\ Mediated E s o t1 o'.
Proof.
  intros HE Hs HR HE0 HP. destruct (HE E HE0) as [HF HH].
  assert (Hs1 : heap_ok s).
  { eapply run_heap; [|exact HR|exact Hs]. intros E1 H1. apply HE. exact H1. }
  exact (mediation_lemma E f o s r s' tr HF HH Hs1 HP).
Qed.

(** A passed check of a proxy that existed, with a name-based checker. *)
Lemma passed_means E s p w0 c g wt w n a tr :
  foreign_keeps_proxies E -> foreign_keeps_checkers E ->
  Wraps s p w0 c -> PlainChecker s c g wt -> (forall i, c = VChk i -> i < st_next s) ->
  no_none (table_of g) -> no_none (table_of wt) ->
  Passed E s p w n a tr ->
  w = w0 /\ exists s0, Evolves E s s0 /\ Authorised E s0 a g wt w n tr.
Proof.
  intros HP HC HW (i & k & -> & Hi & Hk & Hg & Hwt) Hl Hng Hnw
    (f & m & c' & s0 & s1 & He & Hp & Hm & Hc).
  destruct (evolves_kept E s s0 HP HC He) as [K C].
  destruct (kept_wraps _ _ _ _ _ K HW) as [Hp0 _].
  rewrite Hp in Hp0. injection Hp0 as -> ->. split; [reflexivity|]. exists s0. split; [exact He|].
  destruct (C i k Hi (Hl i eq_refl)) as (C1 & C2 & C3).
  eapply passed_authorised; eauto. exists i, k. rewrite C2, C3. auto.
Qed.

(** Nothing is read through proxy 40 but what its table allows. *)
Lemma a_not_passed b n w t :
  table_of (a_dicts 20) n = None -> ~ always_available n -> n <> "__iter__" ->
  ~ Passed (aenv b) (a_state true) 40 w n Read t.
Proof.
  intros Hn Ha Hi HP.
  assert (Hc : foreign_keeps_checkers (aenv b)).
  { intros t0 c s r s' H. apply aenv_pure in H. subst. intros i k Hk. auto. }
  destruct (passed_means (aenv b) (a_state true) 40 (VObj 5) (VChk 10) (a_dicts 20) (a_dicts 21)
              w n Read t) as (_ & s0 & _ & [H|[(_ & _ & [H|H])|(q & iv & H & _)]]); auto;
    try (simpl in H; congruence).
  - apply pure_keeps_proxies, aenv_pure.
  - split; [reflexivity|simpl; lia].
  - exists 10, (mkChecker 20 21 CkPlain). repeat split.
  - intros i H. injection H as <-. simpl. lia.
  - apply no_none_list. reflexivity.
  - apply no_none_list. reflexivity.
  - unfold table_for in H. rewrite Hn in H. discriminate.
  - unfold table_for in H. rewrite Hn in H. discriminate.
Qed.

(** ** C20 *)

Lemma show_refused_lemma E f o nm p w c g wt s r s' tr k md cn :
  foreign_keeps_proxies E ->
  shows o = Some nm -> principal_operand o = VProxy p -> Wraps s p w c ->
  PlainChecker s c g wt -> no_none (table_of g) -> plain_object w ->
  HasClass E w k md cn ->
  perform E (S (S (S f))) o s = (r, s', tr) ->
  exists r0 s1 t1, ReadCheck E s (table_of g) w nm r0 s1 t1 /\
    forall e, r0 = Exc e -> (e_impl E = ImplC \/ is_type_error e = false) ->
      r = Ok (VStr (masked E w md cn)) /\ s' = s1 /\ client_calls tr = [] /\ asks tr = asks t1.
Proof.
  intros HF Hs Hpr HW Hpc Hng Hw HC HP.
  destruct (show_masked E (S f) o nm p w c s Hs Hpr (proj1 HW)) as (m & Hm & HL).
  destruct (do_check E (S (S f)) m c w nm s) as [[r0 s1] t1] eqn:Hc.
  exists r0, s1, t1. split.
  { eapply check_exact_lemma; eauto. }
  intros e -> He.
  assert (HW1 := kept_wraps _ _ _ _ _ (kept_check _ _ _ _ _ _ _ _ _ _ HF Hc) HW).
  destruct (HL e s1 t1 k md cn eq_refl He (proj1 HW1) Hw HC) as (t2 & HP' & Hq & Ha).
  rewrite HP in HP'. injection HP' as -> -> ->.
  assert (Hq1 := quiet_check _ _ _ _ _ _ _ _ _ _ Hc).
  rewrite client_calls_app, Hq, Hq1, asks_app, Ha, !app_nil_r. auto.
Qed.

Lemma show_granted_lemma E f o nm p w c g wt s :
  foreign_keeps_proxies E ->
  shows o = Some nm -> principal_operand o = VProxy p -> Wraps s p w c ->
  PlainChecker s c g wt -> no_none (table_of g) -> plain_object w ->
  exists r0 s1 t1, ReadCheck E s (table_of g) w nm r0 s1 t1 /\
    forall x s2, r0 = Ok tt ->
      e_run E (e_tid E) (CallOp (on_object o None w)) s1 = (Ok (VStr x), s2) ->
      (e_impl E = ImplPy -> registered_for E s2 (VStr x) = Some VNoProxy) ->
      perform E (S (S (S f))) o s =
      (Ok (VStr x), s2, (t1 ++ [ECall Client (e_tid E) (CallOp (on_object o None w))])%list).
Proof.
  intros HF Hs Hpr HW Hpc Hng Hw.
  destruct (show_granted E (S f) o nm p w c s Hs Hpr (proj1 HW) Hw) as (m & Hm & HL).
  destruct (do_check E (S (S f)) m c w nm s) as [[r0 s1] t1] eqn:Hc.
  exists r0, s1, t1. split.
  { eapply check_exact_lemma; eauto. }
  intros x s2 -> Hr Hreg.
  assert (HW1 := kept_wraps _ _ _ _ _ (kept_check _ _ _ _ _ _ _ _ _ _ HF Hc) HW).
  eapply HL; eauto. { exact (proj1 HW1). }
  intros Hi. split; [|auto]. destruct Hpc as (i & k & -> & _). eauto.
Qed.

(** ** C22 *)

Lemma round_trip_lemma (Env : env -> Prop) (other : state -> state -> Prop) o c s p s1 t s2 :
  (forall E, Env E -> foreign_keeps_proxies E) ->
  (forall x y, other x y -> proxies_kept x y) ->
  new_proxy o c s = (Ok (VProxy p), s1, t) -> History Env other s1 s2 ->
  removeSecurityProxy (VProxy p) s2 = (Ok o, s2, []) /\
  getChecker (VProxy p) s2 = (Ok c, s2, []).
Proof.
  intros HF HO HN HH.
  assert (Hc : c <> VNone) by (intros ->; discriminate).
  destruct (new_proxy_grown o c s Hc) as (s' & HN' & HG).
  rewrite HN in HN'. injection HN' as -> -> _.
  apply look_inside. apply (history_wraps Env other s' s2 _ _ _ HF HO HH (grown_wraps _ _ _ _ _ HG)).
Qed.

Lemma remove_plain v s : is_proxy v = false -> removeSecurityProxy v s = (Ok v, s, []).
Proof. destruct v; try discriminate; reflexivity. Qed.
Lemma getChecker_plain v s :
  is_proxy v = false -> exists msg, getChecker v s = (Exc (EType msg), s, []).
Proof. destruct v; try discriminate; eexists; reflexivity. Qed.

(** ** C23 *)

Lemma proxy_identity E f i p s : do_proxy E f (VChk i) (VProxy p) s = (Ok (VProxy p), s, []).
Proof.
  unfold do_proxy, checker_proxy. destruct (cimpl_cases E) as [Hi|Hi]; rewrite Hi; reflexivity.
Qed.

(** ** C24, C25 for unproxied objects *)

Lemma can_reduce_lemma E f v n s p s1 t1 :
  do_ProxyFactory E f v VNone s = (Ok (VProxy p), s1, t1) ->
  fst (fst (do_canAccess E f v n s)) = fst (fst (do_canAccess E f (VProxy p) n s1)) /\
  fst (fst (do_canWrite E f v n s)) = fst (fst (do_canWrite E f (VProxy p) n s1)).
Proof.
  intros H. rewrite (canAccess_reduce _ _ _ _ _ _ _ _ H), (canWrite_reduce _ _ _ _ _ _ _ _ H).
  destruct (do_canAccess E f (VProxy p) n s1) as [[? ?] ?].
  destruct (do_canWrite E f (VProxy p) n s1) as [[? ?] ?]. split; reflexivity.
Qed.

Lemma can_basic_lemma E f v n s s1 t1 :
  is_proxy v = false -> do_ProxyFactory E f v VNone s = (Ok v, s1, t1) ->
  (exists msg, fst (fst (do_canAccess E f v n s)) = Exc (EType msg)) /\
  (exists msg, fst (fst (do_canWrite E f v n s)) = Exc (EType msg)).
Proof.
  intros Hv H. unfold do_canAccess, do_canWrite, canAccess, canWrite, do_ProxyFactory in *.
  rewrite !(bind_ok _ _ _ _ _ _ H).
  destruct (getChecker_plain v s1 Hv) as (msg & Hg).
  rewrite !(bind_exc _ _ _ _ _ _ Hg). simpl. eauto.
Qed.

(** ** C31 *)

Lemma set_del_lemma E f p n v w c s e s1 t1 :
  cleared E n -> st_prox s p = Some (w, c) ->
  do_check E f MSetattr c w n s = (Exc e, s1, t1) ->
  perform E (S f) (OSetattr (VProxy p) n v) s = (Exc e, s1, t1) /\
  perform E (S f) (ODelattr (VProxy p) n) s = (Exc e, s1, t1).
Proof.
  intros Hn Hp Hc. split.
  - exact (write_lemma E f (OSetattr (VProxy p) n v) p n w c s
             (or_introl (ex_intro _ v eq_refl)) Hn Hp _ _ _ Hc).
  - exact (write_lemma E f (ODelattr (VProxy p) n) p n w c s (or_intror eq_refl) Hn Hp _ _ _ Hc).
Qed.

(** ** C29 *)

Lemma c_internal_lemma E f o p n a w c g wt s :
  e_impl E = ImplC ->
  (exists fr, o = OGetattr (VProxy p) n fr /\ a = Read) \/
  (exists v, o = OSetattr (VProxy p) n v /\ a = Write) \/
  (o = ODelattr (VProxy p) n /\ a = Write) ->
  internal_name n -> st_prox s p = Some (w, c) ->
  PlainChecker s c g wt -> no_none (table_of g) -> no_none (table_of wt) ->
  table_for a g wt n = None ->
  perform E (S (S (S f))) o s = (Exc (EForbidden n w), s, []).
Proof.
  intros Hi Ho Hn Hp Hpc Hg Hwt Ht.
  eapply forbidden_lemma with (a := a); eauto.
  - rewrite Hi. destruct Ho as [(fr & -> & ->)|[(v & -> & ->)|(-> & ->)]]; reflexivity.
  - intros _. destruct Hn as [-> | ->]; (split; [|discriminate]);
      intros HA; apply available_iff in HA; discriminate.
Qed.

(** ** C57 *)

Lemma isinstance_factory_lemma E f isinst v c s u s' t cls :
  do_ProxyFactory E f v c s = (Ok u, s', t) -> is_proxy v = false ->
  proxy_isinstance isinst u cls s' = (Ok (isinst v cls), s', []).
Proof.
  intros H Hv.
  assert (HN : forall c0 s0 u0 s1 t0, new_proxy v c0 s0 = (Ok u0, s1, t0) ->
    proxy_isinstance isinst u0 cls s1 = (Ok (isinst v cls), s1, [])).
  { intros c0 s0 u0 s1 t0 HP. destruct (value_eqb_spec c0 VNone) as [->|Hc]; [discriminate|].
    rewrite (new_proxy_eq v c0 s0 Hc) in HP. injection HP as <- <- _.
    apply (isinstance_lemma _ _ _ _ c0). simpl. apply upd_eq. }
  assert (HV : proxy_isinstance isinst v cls s' = (Ok (isinst v cls), s', [])).
  { unfold proxy_isinstance. rewrite (bind_ok _ _ _ _ _ _ (remove_plain v s' Hv)). reflexivity. }
  unfold do_ProxyFactory, ProxyFactory in H. rewrite Hv in H.
  destruct c; try (eapply HN; exact H).
  mbind H; [discriminate|]. destruct a; try (eapply HN; exact Hf).
  mbind Hf; [discriminate|]. destruct a as [c|]; [eapply HN; exact Hf0|].
  minj Hf0. exact HV.
Qed.
