(** * Factory: ProxyFactory, getChecker, removeSecurityProxy, canAccess, canWrite. *)

From Coq Require Import List String Bool Arith ZArith Lia.
From Verif Require Import Base Domain CheckerModel ProxyModel MFacts Spec RegSpec CheckFacts
  CombineFacts RegistryFacts RegistryProps ProxySpec MediationSpec SessionSpec FactorySpec
  SafeFacts ProxyFacts ProxyOps ProxyTable ProxyResults Session Slots.
Import ListNotations.
Open Scope string_scope.
Open Scope m_scope.

(** ** ProxyFactory *)

Lemma new_proxy_grown v c s :
  c <> VNone -> exists s', new_proxy v c s = (Ok (VProxy (st_next s)), s', []) /\
                           Grown s s' (st_next s) v c.
Proof.
  intros H. rewrite (new_proxy_eq v c s H). eexists. split; [reflexivity|]. split; reflexivity.
Qed.
Lemma new_proxy_none v s :
  new_proxy v VNone s = (Exc (EValue "None passed as proxy checker"), s, []).
Proof. reflexivity. Qed.

Lemma factory_proxy_none E f p s :
  do_ProxyFactory E f (VProxy p) VNone s = (Ok (VProxy p), s, []).
Proof. reflexivity. Qed.

Lemma factory_proxy_checker E f p w c c' s :
  st_prox s p = Some (w, c) -> c' <> VNone ->
  (c' = c -> do_ProxyFactory E f (VProxy p) c' s = (Ok (VProxy p), s, [])) /\
  (c' <> c -> exists msg, do_ProxyFactory E f (VProxy p) c' s = (Exc (EType msg), s, [])).
Proof.
  intros Hp Hn.
  assert (Heq : do_ProxyFactory E f (VProxy p) c' s =
                (if value_eqb c' c then (Ok (VProxy p), s, [])
                 else (Exc (EType "Tried to use ProxyFactory to change a Proxy's checker."), s, []))).
  { unfold do_ProxyFactory, ProxyFactory. change (is_proxy (VProxy p)) with true. cbv iota.
    assert (Hg : getChecker (VProxy p) s = (Ok c, s, [])).
    { unfold getChecker. rewrite bind_get, Hp. reflexivity. }
    destruct c'; try congruence; rewrite (bind_ok _ _ _ _ _ _ Hg);
      match goal with |- context [value_eqb ?a ?b] => destruct (value_eqb a b) end; reflexivity. }
  rewrite Heq. destruct (value_eqb_spec c' c); split; intros; try contradiction; eauto.
Qed.

Lemma factory_given E f v c s :
  is_proxy v = false -> c <> VNone ->
  exists s', do_ProxyFactory E f v c s = (Ok (VProxy (st_next s)), s', []) /\
             Grown s s' (st_next s) v c.
Proof.
  intros Hv Hc. unfold do_ProxyFactory, ProxyFactory. rewrite Hv.
  destruct (new_proxy_grown v c s Hc) as (s' & H & HG).
  exists s'. destruct c; try congruence; auto.
Qed.

Lemma own_getattr E f s v c s' :
  Own E s v c s' ->
  exists t, getattr_sec_checker (interp_n E (S f)) v s = (Ok c, s', t) /\ client_calls t = [].
Proof.
  assert (Hraw : forall v0 r s1, plain_object v0 -> is_atom v0 = false ->
    e_run E (e_tid E) (CallOp (OGetattr v0 "__Security_checker__" None)) s = (r, s1) ->
    i_op (interp_n E (S f)) Probe (OGetattr v0 "__Security_checker__" None) s =
    (r, s1, [ECall Probe (e_tid E) (CallOp (OGetattr v0 "__Security_checker__" None))])).
  { intros v0 r s1 Hp Ha Hr. rewrite getattr_plain_eq, Hr; auto.
    rewrite Ha. reflexivity. }
  intros [Ha|c0 s1 Hp Ha Hr|e s1 Hp Ha Hr He].
  - exists []. split; [|reflexivity]. destruct v; try discriminate; reflexivity.
  - eexists. split.
    + unfold getattr_sec_checker. erewrite catch_ok; [reflexivity|]. apply Hraw; eauto.
    + reflexivity.
  - eexists. split.
    + unfold getattr_sec_checker. erewrite catch_exc; [|apply Hraw; eauto].
      apply attribute_error_iff in He. rewrite He. reflexivity.
    + reflexivity.
Qed.

Lemma own_not_proxy E s v c s' : Own E s v c s' -> is_proxy v = false.
Proof. intros [Ha|c0 s1 Hp Ha Hr|e s1 Hp Ha Hr He]; destruct v; try contradiction; auto. Qed.

Lemma factory_own E f v c s s1 :
  Own E s v c s1 -> c <> VNone ->
  exists s' t, do_ProxyFactory E (S f) v VNone s = (Ok (VProxy (st_next s1)), s', t) /\
               Grown s1 s' (st_next s1) v c /\ client_calls t = [].
Proof.
  intros HO Hc. destruct (own_getattr E f s v c s1 HO) as (t & Hg & Hq).
  unfold do_ProxyFactory, ProxyFactory. rewrite (own_not_proxy _ _ _ _ _ HO).
  destruct (new_proxy_grown v c s1 Hc) as (s' & H & HG).
  exists s', t. rewrite (bind_ok _ _ _ _ _ _ Hg).
  assert (Hm : match c with
               | VNone => oc <- selectChecker E (interp_n E (S f)) v ;;
                          match oc with None => ret v | Some c2 => new_proxy v c2 end
               | _ => new_proxy v c end s1 = new_proxy v c s1)
    by (destruct c; try reflexivity; congruence).
  rewrite Hm, H, app_nil_r. auto.
Qed.

Lemma factory_selected E f v s s1 oc s2 t2 :
  Own E s v VNone s1 -> do_select E (S f) v s1 = (Ok oc, s2, t2) ->
  match oc with
  | None => exists t, do_ProxyFactory E (S f) v VNone s = (Ok v, s2, t)
  | Some c => exists s' t, do_ProxyFactory E (S f) v VNone s = (Ok (VProxy (st_next s2)), s', t) /\
                           Grown s2 s' (st_next s2) v c
  end.
Proof.
  intros HO Hs. destruct (own_getattr E f s v VNone s1 HO) as (t & Hg & Hq).
  assert (Heq : do_ProxyFactory E (S f) v VNone s =
    let '(r, s', t') := (match oc with None => ret v | Some c => new_proxy v c end) s2 in
    (r, s', (t ++ t2 ++ t')%list)).
  { unfold do_ProxyFactory, ProxyFactory. rewrite (own_not_proxy _ _ _ _ _ HO).
    rewrite (bind_ok _ _ _ _ _ _ Hg).
    unfold do_select in Hs. rewrite (bind_ok _ _ _ _ _ _ Hs).
    destruct oc as [c|].
    - destruct (new_proxy v c s2) as [[r s'] t']. reflexivity.
    - reflexivity. }
  rewrite Heq. destruct oc as [c|].
  - assert (Hc : c <> VNone).
    { destruct (selectChecker_result_lemma _ _ _ _ _ _ _ Hs) as [Hx|(c' & Hx & (i & k & -> & _))];
        congruence. }
    destruct (new_proxy_grown v c s2 Hc) as (s' & H & HG). rewrite H. eauto.
  - simpl. eauto.
Qed.

(** Whatever comes out is the argument itself or a proxy. *)
Lemma factory_result E f v c s u s' t :
  do_ProxyFactory E f v c s = (Ok u, s', t) -> u = v \/ is_proxy u = true.
Proof.
  unfold do_ProxyFactory, ProxyFactory. intros H. destruct (is_proxy v) eqn:Hv.
  - left. destruct c; try (minj H; reflexivity);
      (mbind H; [discriminate|];
       match type of Hf with context [value_eqb ?x ?y] => destruct (value_eqb x y) end;
       [minj Hf; reflexivity|discriminate]).
  - assert (HN : forall c0 s0 u0 s0' t0, new_proxy v c0 s0 = (Ok u0, s0', t0) ->
                   is_proxy u0 = true) by (intros; eapply new_proxy_result; eauto).
    destruct c; try (right; eapply HN; exact H).
    mbind H; [discriminate|]. destruct a; try (right; eapply HN; exact Hf).
    mbind Hf; [discriminate|]. destruct a as [c|]; [right; eapply HN; exact Hf0|].
    minj Hf0. auto.
Qed.

Lemma factory_idempotent E f v s u s' t :
  do_ProxyFactory E f v VNone s = (Ok u, s', t) ->
  u = v \/ (is_proxy u = true /\
            forall f2 s2, do_ProxyFactory E f2 u VNone s2 = (Ok u, s2, [])).
Proof.
  intros H. destruct (factory_result _ _ _ _ _ _ _ _ H) as [->|Hu]; auto.
  right. split; auto. intros. destruct u; try discriminate. reflexivity.
Qed.

(** ** Looking inside *)

Lemma look_inside s p w c :
  st_prox s p = Some (w, c) ->
  removeSecurityProxy (VProxy p) s = (Ok w, s, []) /\ getChecker (VProxy p) s = (Ok c, s, []).
Proof.
  intros H. unfold removeSecurityProxy, getChecker. rewrite !bind_get, H. split; reflexivity.
Qed.

Lemma grown_wraps s s' p v c : Grown s s' p v c -> Wraps s' p v c.
Proof.
  intros [-> ->]. split; simpl; [|lia]. apply upd_eq.
Qed.

Lemma isinstance_lemma isinst s p w c cls :
  st_prox s p = Some (w, c) ->
  proxy_isinstance isinst (VProxy p) cls s = (Ok (isinst w cls), s, []).
Proof.
  intros H. unfold proxy_isinstance. destruct (look_inside s p w c H) as [Hr _].
  rewrite (bind_ok _ _ _ _ _ _ Hr). reflexivity.
Qed.

(** ** canAccess and canWrite *)

Lemma factory_then {A} E f v s p s1 t1 (k : value -> M A) :
  do_ProxyFactory E f v VNone s = (Ok (VProxy p), s1, t1) ->
  bind (ProxyFactory E (interp_n E f) v VNone) k s =
  let '(r, s', t) := k (VProxy p) s1 in (r, s', (t1 ++ t)%list).
Proof. intros H. apply (bind_ok _ _ _ _ _ _ H). Qed.

Lemma canAccess_reduce E f v n s p s1 t1 :
  do_ProxyFactory E f v VNone s = (Ok (VProxy p), s1, t1) ->
  do_canAccess E f v n s =
  let '(r, s', t) := do_canAccess E f (VProxy p) n s1 in (r, s', (t1 ++ t)%list).
Proof.
  intros H. unfold do_canAccess, canAccess. rewrite (factory_then _ _ _ _ _ _ _ _ H).
  rewrite (factory_then _ _ _ _ _ _ _ _ (factory_proxy_none E f p s1)).
  match goal with |- context [(bind (getChecker (VProxy p)) ?k) s1] =>
    destruct (bind (getChecker (VProxy p)) k s1) as [[r s'] t] end.
  reflexivity.
Qed.
Lemma canWrite_reduce E f v n s p s1 t1 :
  do_ProxyFactory E f v VNone s = (Ok (VProxy p), s1, t1) ->
  do_canWrite E f v n s =
  let '(r, s', t) := do_canWrite E f (VProxy p) n s1 in (r, s', (t1 ++ t)%list).
Proof.
  intros H. unfold do_canWrite, canWrite. rewrite (factory_then _ _ _ _ _ _ _ _ H).
  rewrite (factory_then _ _ _ _ _ _ _ _ (factory_proxy_none E f p s1)).
  match goal with |- context [(bind (getChecker (VProxy p)) ?k) s1] =>
    destruct (bind (getChecker (VProxy p)) k s1) as [[r s'] t] end.
  reflexivity.
Qed.

Lemma chkmode_eq_dec_aux m : m = MSetattr \/ m <> MSetattr.
Proof. destruct m; (left; reflexivity) || (right; discriminate). Qed.

(** A check by a name-based checker on the proxy and on the object inside: same
    outcome. *)
Definition swap_obj (o : value) (r : res unit) (n : name) : res unit :=
  match r with
  | Exc (EUnauthorized _ m q) => Exc (EUnauthorized o m q)
  | Exc (EForbidden m _) => Exc (EForbidden m o)
  | r => r
  end.

Definition shape (w : value) (n : name) (r : res unit) (s s1 : state) (t1 : list event) : Prop :=
  r = Ok tt \/ (exists q, r = Exc (EUnauthorized w n q)) \/
  (r = Exc (EForbidden n w) /\ s1 = s /\ t1 = []) \/
  (exists x, r = Exc (EAttribute x) /\ s1 = s /\ t1 = []).

Lemma tl_indifferent E f p w q s :
  indifferent E p w ->
  exists r s1, (forall obj, obj = VProxy p \/ obj = w ->
                 exists t, tl_checkPermission E (interp_n E f) q obj s = (r, s1, t) /\
                           ((exists x, r = Exc (EAttribute x)) -> t = [])) /\
    ((exists b, r = Ok b) \/ (exists x, r = Exc (EAttribute x) /\ s1 = s)).
Proof.
  intros HI. unfold tl_checkPermission.
  destruct (tl_inter (st_tls s (e_tid E))) as [iv|] eqn:Htl.
  2:{ exists (Exc (EAttribute "interaction")), s. split; [|right; eauto].
      intros obj _. exists []. rewrite bind_get, Htl. auto. }
  assert (Hbad : forall x, (forall obj, (s0 <- get ;; match tl_inter (st_tls s0 (e_tid E)) with
                    | None => raise (EAttribute "interaction")
                    | Some iv => ask E (interp_n E f) iv q obj end) s =
                    (Exc (EAttribute x), s, [])) ->
    exists r s1, (forall obj, obj = VProxy p \/ obj = w ->
                 exists t, (s0 <- get ;; match tl_inter (st_tls s0 (e_tid E)) with
                    | None => raise (EAttribute "interaction")
                    | Some iv => ask E (interp_n E f) iv q obj end) s = (r, s1, t) /\
                    ((exists x, r = Exc (EAttribute x)) -> t = [])) /\
    ((exists b, r = Ok b) \/ (exists x, r = Exc (EAttribute x) /\ s1 = s))).
  { intros x Hx. exists (Exc (EAttribute x)), s. split; [|right; eauto].
    intros obj _. exists []. rewrite Hx. auto. }
  assert (Hfor : (forall obj, (s0 <- get ;; match tl_inter (st_tls s0 (e_tid E)) with
                    | None => raise (EAttribute "interaction")
                    | Some iv => ask E (interp_n E f) iv q obj end) s =
      (b <- catch (v <- foreign_quiet E (CallPerm iv q obj) ;; truth (interp_n E f) v)
                   (fun e => emit (EAsk (e_tid E) iv q obj None) ;;; raise e) ;;
       emit (EAsk (e_tid E) iv q obj (Some b)) ;;; ret b) s) ->
    exists r s1, (forall obj, obj = VProxy p \/ obj = w ->
                 exists t, (s0 <- get ;; match tl_inter (st_tls s0 (e_tid E)) with
                    | None => raise (EAttribute "interaction")
                    | Some iv => ask E (interp_n E f) iv q obj end) s = (r, s1, t) /\
                    ((exists x, r = Exc (EAttribute x)) -> t = [])) /\
    ((exists b, r = Ok b) \/ (exists x, r = Exc (EAttribute x) /\ s1 = s))).
  { intros Hx. destruct (HI iv q s) as (b & s1 & H1 & H2).
    exists (Ok b), s1. split; [|left; eauto].
    intros obj Ho. rewrite Hx. unfold bind, catch, foreign_quiet.
    destruct Ho as [->| ->]; rewrite ?H1, ?H2; simpl;
      (eexists; split; [reflexivity|intros [? ?]; discriminate]). }
  destruct iv;
    try (apply (Hbad "checkPermission"); intros obj; rewrite bind_get, Htl; reflexivity);
    try (apply Hfor; intros obj; rewrite bind_get, Htl; reflexivity).
  destruct (st_inters s i) as [x|] eqn:Hi.
  - exists (Ok (simple_checkPermission s x q)), s. split; [|left; eauto].
    intros obj _. rewrite bind_get, Htl. unfold ask. rewrite bind_get, Hi.
    eexists. split; [reflexivity|]. intros [? ?]; discriminate.
  - apply (Hbad "checkPermission"). intros obj. rewrite bind_get, Htl.
    unfold ask. rewrite bind_get, Hi. reflexivity.
Qed.

Lemma check_indifferent E f m c g wt p w n s :
  indifferent E p w -> PlainChecker s c g wt ->
  no_none (table_of g) -> no_none (table_of wt) ->
  (m <> MSetattr -> n <> "__iter__") ->
  exists r s1 t1 t2,
    do_check E (S (S f)) m c w n s = (r, s1, t1) /\
    do_check E (S (S f)) m c (VProxy p) n s = (swap_obj (VProxy p) r n, s1, t2) /\
    shape w n r s s1 t1.
Proof.
  intros HI Hpc Hg Hwt Hn.
  set (a := match m with MSetattr => Write | _ => Read end).
  assert (Hm : m = MSetattr <-> a = Write) by (destruct m; subst a; split; congruence).
  set (tb := table_for a g wt n).
  (* what the model computes *)
  assert (Hcomp : forall obj,
    match tb with
    | Some PPublic => do_check E (S (S f)) m c obj n s = (Ok tt, s, [])
    | Some q => do_check E (S (S f)) m c obj n s =
                (b <- tl_checkPermission E (interp_n E (S f)) q obj ;;
                 if (b : bool) then ret tt else raise (EUnauthorized obj n q)) s
    | None => do_check E (S (S f)) m c obj n s = (Ok tt, s, []) /\ (a = Read /\ always_available n) \/
              do_check E (S (S f)) m c obj n s = (Exc (EForbidden n obj), s, []) /\
              ~ (a = Read /\ always_available n)
    end).
  { intros obj. destruct Hpc as (i & k & -> & Hi & Hk & Hgd & Hwd).
    subst tb. destruct (chkmode_eq_dec_aux m) as [Hms|Hms].
    - (* assignment *)
      subst m. subst a. cbv beta iota delta [table_for].
      rewrite do_check_plain_set with (k := k) by auto.
      unfold Checker_check_setattr. destruct (cimpl_cases E) as [Hb|Hb]; rewrite Hb.
      + unfold CheckerPy_check_setattr. rewrite bind_get. cbv zeta.
        assert (Hd : match st_dicts s (ck_set k) with [] => PNone | d => get_or_none d n end =
                     match table_of wt n with Some q => q | None => PNone end).
        { rewrite Hwd. unfold table_of, get_or_none. destruct wt; reflexivity. }
        rewrite Hd. destruct (table_of wt n) as [q|] eqn:Ht.
        * destruct q; [reflexivity|exfalso; apply (Hwt n); auto|reflexivity].
        * right. split; [reflexivity|]. intros [? _]; discriminate.
      + unfold CheckerC_check_setattr. rewrite bind_get, Hwd.
        fold (table_of wt n). destruct (table_of wt n) as [q|] eqn:Ht.
        * destruct q; [reflexivity|exfalso; apply (Hwt n); auto|reflexivity].
        * right. split; [reflexivity|]. intros [? _]; discriminate.
    - assert (Ha : a = Read) by (subst a; destruct m; congruence).
      rewrite Ha. clearbody a. subst a. cbv beta iota delta [table_for].
      specialize (Hn Hms).
      rewrite do_check_plain with (k := k) by auto.
      unfold Checker_check. destruct (cimpl_cases E) as [Hb|Hb]; rewrite Hb.
      + unfold CheckerPy_check. rewrite bind_get. cbv zeta.
        unfold get_or_none. rewrite Hgd. fold (table_of g n).
        destruct (table_of g n) as [q|] eqn:Ht.
        * destruct q; [reflexivity|exfalso; apply (Hg n); auto|reflexivity].
        * cbv beta iota delta [perm_eqb negb]. destruct (mem n available_by_default) eqn:Hav.
          -- left. apply available_iff in Hav. split; [reflexivity|auto].
          -- right. apply available_false in Hav. split; [|tauto].
             apply String.eqb_neq in Hn. rewrite Hn. reflexivity.
      + unfold CheckerC_check_int. rewrite bind_get, Hgd. fold (table_of g n).
        destruct (table_of g n) as [q|] eqn:Ht.
        * destruct q; [reflexivity|exfalso; apply (Hg n); auto|reflexivity].
        * destruct (mem n available_by_default) eqn:Hav.
          -- assert (Hop : is_operator n = true).
             { apply mem_In in Hav. unfold available_by_default in Hav. simpl in Hav.
               intuition (subst; reflexivity). }
             rewrite Hop. left. apply available_iff in Hav. split; [reflexivity|auto].
          -- right. apply available_false in Hav. split; [|tauto].
             destruct (is_operator n); [|reflexivity].
             apply String.eqb_neq in Hn. rewrite Hn. reflexivity. }
  assert (Hw := Hcomp w). assert (Hv := Hcomp (VProxy p)).
  destruct tb as [q|].
  - destruct q.
    + exists (Ok tt), s, [], []. split; [exact Hw|]. split; [exact Hv|]. left. reflexivity.
    + destruct (tl_indifferent E (S f) p w PNone s HI) as (r & s1 & HT & Hr).
      destruct (HT w (or_intror eq_refl)) as (t1 & H1 & Hz).
      destruct (HT (VProxy p) (or_introl eq_refl)) as (t2 & H2 & _).
      destruct Hr as [[b ->]|(x & -> & ->)].
      * rewrite (bind_ok _ _ _ _ _ _ H1) in Hw. rewrite (bind_ok _ _ _ _ _ _ H2) in Hv.
        destruct b; eexists _, _, _, _; (split; [exact Hw|]); (split; [exact Hv|]).
        -- left; reflexivity.
        -- right; left. eauto.
      * rewrite (bind_exc _ _ _ _ _ _ H1) in Hw. rewrite (bind_exc _ _ _ _ _ _ H2) in Hv.
        eexists _, _, _, _. split; [exact Hw|]. split; [exact Hv|]. right; right; right. exists x.
        split; [reflexivity|]. split; [reflexivity|]. apply Hz. eauto.
    + destruct (tl_indifferent E (S f) p w (PId ident text) s HI) as (r & s1 & HT & Hr).
      destruct (HT w (or_intror eq_refl)) as (t1 & H1 & Hz).
      destruct (HT (VProxy p) (or_introl eq_refl)) as (t2 & H2 & _).
      destruct Hr as [[b ->]|(x & -> & ->)].
      * rewrite (bind_ok _ _ _ _ _ _ H1) in Hw. rewrite (bind_ok _ _ _ _ _ _ H2) in Hv.
        destruct b; eexists _, _, _, _; (split; [exact Hw|]); (split; [exact Hv|]).
        -- left; reflexivity.
        -- right; left. eauto.
      * rewrite (bind_exc _ _ _ _ _ _ H1) in Hw. rewrite (bind_exc _ _ _ _ _ _ H2) in Hv.
        eexists _, _, _, _. split; [exact Hw|]. split; [exact Hv|]. right; right; right. exists x.
        split; [reflexivity|]. split; [reflexivity|]. apply Hz. eauto.
  - destruct Hw as [[Hw Ha]|[Hw Ha]]; destruct Hv as [[Hv Hb]|[Hv Hb]]; try tauto.
    + exists (Ok tt), s, [], []. split; [exact Hw|]. split; [exact Hv|]. left; reflexivity.
    + exists (Exc (EForbidden n w)), s, [], []. split; [exact Hw|]. split; [exact Hv|].
      right; right; left. auto.
Qed.

Lemma check_mode E f m m' c g wt w n s :
  PlainChecker s c g wt -> (m = MSetattr <-> m' = MSetattr) ->
  do_check E (S f) m c w n s = do_check E (S f) m' c w n s.
Proof.
  intros (i & k & -> & Hi & Hk & _) Hm. destruct (chkmode_eq_dec_aux m) as [->|Hn].
  - destruct Hm as [Hm _]. rewrite Hm; reflexivity.
  - rewrite !do_check_plain with (k := k); auto. tauto.
Qed.

(** What a checked operation does, given the outcome of the check. *)
Lemma outcome E f o p n a w c g wt s m r0 s1 t1 :
  foreign_keeps_proxies E -> guard_of (e_impl E) o = Some (p, n, a) -> Wraps s p w c ->
  PlainChecker s c g wt -> no_none (table_of g) -> no_none (table_of wt) ->
  plain_object w -> other_operands_plain o -> n <> "__Security_checker__" ->
  (m = MSetattr <-> a = Write) ->
  do_check E (S (S f)) m c w n s = (r0, s1, t1) -> shape w n r0 s s1 t1 ->
  exists rp sp tp, perform E (S (S (S f))) o s = (rp, sp, tp) /\
    match r0 with
    | Ok _ => reached (e_impl E) (e_tid E) (Invoked E (S (S f))) p o w (client_calls tp)
    | Exc e => rp = Exc e /\ client_calls tp = []
    end.
Proof.
  intros HF Hg HW Hpc Hng Hnw Hw Ho Hn Hm Hc Hsh.
  destruct (perform E (S (S (S f))) o s) as [[rp sp] tp] eqn:HP.
  exists rp, sp, tp. split; [reflexivity|].
  destruct (effect_lemma E (S f) o p n a w c s rp sp tp HF Hg HW (plain_not_none _ _ _ _ Hpc)
              Hw Ho Hn HP) as (m' & r1 & s2 & t2 & t3 & Hm' & Hc' & Ht & Hq & Hr).
  rewrite (check_mode E (S f) m' m c g wt w n s Hpc) in Hc' by tauto.
  rewrite Hc in Hc'. injection Hc' as <- <- <-.
  assert (Hcc : client_calls tp = client_calls t3).
  { rewrite Ht, client_calls_app, Hq. reflexivity. }
  destruct r0 as [[]|e].
  - rewrite Hcc. exact Hr.
  - split; [|rewrite Hcc; exact Hr].
    destruct Hsh as [?|[(q & Hq')|Hpure]]; [discriminate| |].
    + injection Hq' as ->.
      destruct (guarded_lemma E (S (S f)) o p n a w c s Hg (proj1 HW)) as (m2 & Hm2 & _ & HL).
      assert (Hc2 : do_check E (S (S f)) m2 c w n s = (Exc (EUnauthorized w n q), s1, t1)).
      { rewrite (check_mode E (S f) m2 m c g wt w n s Hpc) by tauto. exact Hc. }
      destruct (HL _ _ _ Hc2) as (_ & e' & s' & t4 & HP' & _ & HA & _).
      rewrite HP in HP'. injection HP' as -> -> ->.
      destruct HA as (-> & _); [|reflexivity]. right; right. intros HX; inversion HX.
    + assert (Hp : do_check E (S (S f)) m c w n s = (Exc e, s, [])).
      { destruct Hpure as [(_ & -> & ->)|(x & _ & -> & ->)]; exact Hc. }
      assert (HQ : perform E (S (S (S f))) o s = (Exc e, s, [])).
      { eapply refused_pure; [exact Hg|exact (proj1 HW)|].
        intros m2 Hm2. rewrite (check_mode E (S f) m2 m c g wt w n s Hpc) by tauto. exact Hp. }
      rewrite HP in HQ. injection HQ as -> _ _. reflexivity.
Qed.

Lemma canAccess_lemma E f o p n w c g wt s :
  foreign_keeps_proxies E -> guard_of (e_impl E) o = Some (p, n, Read) -> Wraps s p w c ->
  PlainChecker s c g wt -> no_none (table_of g) -> no_none (table_of wt) ->
  plain_object w -> other_operands_plain o -> n <> "__Security_checker__" ->
  indifferent E p w -> n <> "__iter__" ->
  exists ra sa ta rp sp tp,
    do_canAccess E (S (S f)) (VProxy p) n s = (ra, sa, ta) /\
    perform E (S (S (S f))) o s = (rp, sp, tp) /\
    ((ra = Ok true /\
      reached (e_impl E) (e_tid E) (Invoked E (S (S f))) p o w (client_calls tp)) \/
     (client_calls tp = [] /\
      ((ra = Ok false /\ exists q, rp = Exc (EUnauthorized w n q)) \/
       (ra = Exc (EForbidden n (VProxy p)) /\ rp = Exc (EForbidden n w)) \/
       (exists x, ra = Exc (EAttribute x) /\ rp = Exc (EAttribute x))))).
Proof.
  intros HF Hg HW Hpc Hng Hnw Hw Ho Hn HI Hni.
  destruct (check_indifferent E f MGetattr c g wt p w n s HI Hpc Hng Hnw (fun _ => Hni))
    as (r & s1 & t1 & t2 & Hc & Hcp & Hsh).
  assert (Hm : MGetattr = MSetattr <-> Read = Write) by (split; discriminate).
  destruct (outcome E f o p n Read w c g wt s MGetattr r s1 t1 HF Hg HW Hpc Hng Hnw Hw Ho Hn
              Hm Hc Hsh) as (rp & sp & tp & HP & Hout).
  assert (Hca : do_canAccess E (S (S f)) (VProxy p) n s =
    match swap_obj (VProxy p) r n with
    | Ok _ => (Ok true, s1, t2)
    | Exc e => if is_unauthorized e then (Ok false, s1, t2) else (Exc e, s1, t2)
    end).
  { unfold do_canAccess, canAccess.
    rewrite (factory_then _ _ _ _ _ _ _ _ (factory_proxy_none E (S (S f)) p s)).
    rewrite (bind_ok _ _ _ _ _ _ (proj2 (look_inside _ _ _ _ (proj1 HW)))).
    unfold do_check in Hcp. unfold catch, bind. rewrite Hcp.
    destruct (swap_obj (VProxy p) r n) as [[]|e]; simpl; rewrite ?app_nil_r; auto.
    destruct (is_unauthorized e); simpl; rewrite ?app_nil_r; reflexivity. }
  rewrite Hca. destruct Hsh as [->|[(q & ->)|[(-> & _)|(x & -> & _)]]]; simpl in *;
    do 6 eexists; (split; [reflexivity|]); (split; [exact HP|]).
  - left. auto.
  - right. destruct Hout as [-> Hq]. split; [exact Hq|]. left. eauto.
  - right. destruct Hout as [-> Hq]. split; [exact Hq|]. right; left. eauto.
  - right. destruct Hout as [-> Hq]. split; [exact Hq|]. right; right. eauto.
Qed.

Lemma canWrite_lemma E f o o2 p n w c g wt s :
  foreign_keeps_proxies E ->
  guard_of (e_impl E) o = Some (p, n, Write) -> guard_of (e_impl E) o2 = Some (p, n, Read) ->
  Wraps s p w c ->
  PlainChecker s c g wt -> no_none (table_of g) -> no_none (table_of wt) ->
  plain_object w -> other_operands_plain o -> other_operands_plain o2 ->
  n <> "__Security_checker__" ->
  indifferent E p w -> n <> "__iter__" ->
  exists ra sa ta rp sp tp rq sq tq,
    do_canWrite E (S (S f)) (VProxy p) n s = (ra, sa, ta) /\
    perform E (S (S (S f))) o s = (rp, sp, tp) /\
    perform E (S (S (S f))) o2 s = (rq, sq, tq) /\
    ((ra = Ok true /\
      reached (e_impl E) (e_tid E) (Invoked E (S (S f))) p o w (client_calls tp)) \/
     (client_calls tp = [] /\
      ((ra = Ok false /\ exists q, rp = Exc (EUnauthorized w n q)) \/
       (exists x, ra = Exc (EAttribute x) /\ rp = Exc (EAttribute x)) \/
       (rp = Exc (EForbidden n w) /\
        ((ra = Ok false /\
          reached (e_impl E) (e_tid E) (Invoked E (S (S f))) p o2 w (client_calls tq)) \/
         (client_calls tq = [] /\
          ((ra = Ok false /\ exists q, rq = Exc (EUnauthorized w n q)) \/
           (ra = Exc (EForbidden n (VProxy p)) /\ rq = Exc (EForbidden n w)) \/
           (exists x, ra = Exc (EAttribute x) /\ rq = Exc (EAttribute x))))))))).
Proof.
  intros HF Hg Hg2 HW Hpc Hng Hnw Hw Ho Ho2 Hn HI Hni.
  destruct (check_indifferent E f MSetattr c g wt p w n s HI Hpc Hng Hnw
              (fun _ => Hni)) as (r & s1 & t1 & t2 & Hc & Hcp & Hsh).
  destruct (check_indifferent E f MGetattr c g wt p w n s HI Hpc Hng Hnw (fun _ => Hni))
    as (r' & s1' & t1' & t2' & Hc' & Hcp' & Hsh').
  assert (Hm : MSetattr = MSetattr <-> Write = Write) by tauto.
  assert (Hm' : MGetattr = MSetattr <-> Read = Write) by (split; discriminate).
  destruct (outcome E f o p n Write w c g wt s MSetattr r s1 t1 HF Hg HW Hpc Hng Hnw Hw Ho Hn
              Hm Hc Hsh) as (rp & sp & tp & HP & Hout).
  destruct (outcome E f o2 p n Read w c g wt s MGetattr r' s1' t1' HF Hg2 HW Hpc Hng Hnw Hw
              Ho2 Hn Hm' Hc' Hsh') as (rq & sq & tq & HQ & Hout').
  assert (Hcw : exists sa ta, do_canWrite E (S (S f)) (VProxy p) n s =
    (match r with
     | Ok _ => Ok true
     | Exc (EUnauthorized _ _ _) => Ok false
     | Exc (EForbidden _ _) =>
         match r' with
         | Ok _ => Ok false
         | Exc (EUnauthorized _ _ _) => Ok false
         | Exc (EForbidden m _) => Exc (EForbidden m (VProxy p))
         | Exc e => Exc e
         end
     | Exc e => Exc e
     end, sa, ta)).
  { unfold do_canWrite, canWrite.
    rewrite (factory_then _ _ _ _ _ _ _ _ (factory_proxy_none E (S (S f)) p s)).
    rewrite (bind_ok _ _ _ _ _ _ (proj2 (look_inside _ _ _ _ (proj1 HW)))).
    unfold do_check in Hcp, Hcp'. unfold catch, bind. rewrite Hcp.
    destruct Hsh as [->|[(q & ->)|[(-> & -> & _)|(x & -> & _)]]];
      cbv beta iota delta [swap_obj is_unauthorized is_forbidden ret raise]; eauto.
    rewrite Hcp'.
    destruct Hsh' as [->|[(q' & ->)|[(-> & _)|(x & -> & _)]]];
      cbv beta iota delta [swap_obj is_unauthorized is_forbidden ret raise]; eauto. }
  destruct Hcw as (sa & ta & Hcw). rewrite Hcw.
  do 9 eexists. split; [reflexivity|]. split; [exact HP|]. split; [exact HQ|].
  destruct Hsh as [->|[(q & ->)|[(-> & _)|(x & -> & _)]]]; simpl in *.
  - left. auto.
  - right. destruct Hout as [-> Hq]. split; [exact Hq|]. left. eauto.
  - right. destruct Hout as [-> Hq]. split; [exact Hq|]. right; right. split; [reflexivity|].
    destruct Hsh' as [->|[(q & ->)|[(-> & _)|(x & -> & _)]]]; simpl in *.
    + left. auto.
    + right. destruct Hout' as [-> Hq']. split; [exact Hq'|]. left. eauto.
    + right. destruct Hout' as [-> Hq']. split; [exact Hq'|]. right; left. eauto.
    + right. destruct Hout' as [-> Hq']. split; [exact Hq'|]. right; right. eauto.
  - right. destruct Hout as [-> Hq]. split; [exact Hq|]. right; left. eauto.
Qed.
