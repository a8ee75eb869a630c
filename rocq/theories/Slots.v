(** * Slots: comparison, hash, truth, str, repr, attribute slots and in-place operators. *)

From Coq Require Import List String Bool Arith ZArith Lia.
From Verif Require Import Base Domain CheckerModel ProxyModel MFacts Spec RegSpec CheckFacts
  CombineFacts ProxySpec SlotSpec SafeFacts ProxyFacts ProxyOps ProxyTable ProxyResults.
Import ListNotations.
Open Scope string_scope.
Open Scope m_scope.

Lemma pget_run p x s : st_prox s p = Some x -> pget p s = (Ok x, s, []).
Proof. intros H. unfold pget. rewrite bind_get, H. reflexivity. Qed.

(** ** Comparison, hash, truth *)

Lemma hash_forward E f p w c s :
  st_prox s p = Some (w, c) ->
  perform E (S f) (OHash (VProxy p)) s = perform E f (OHash w) s.
Proof.
  intros H. unfold perform. simpl. destruct (impl_cases E) as [Hi|Hi]; rewrite Hi;
    unfold py_hash; rewrite (pget_ok _ _ _ _ H); reflexivity.
Qed.
Lemma bool_forward E f p w c s :
  st_prox s p = Some (w, c) ->
  perform E (S f) (OBool (VProxy p)) s = perform E f (OBool w) s.
Proof.
  intros H. unfold perform. simpl. destruct (impl_cases E) as [Hi|Hi]; rewrite Hi;
    unfold py_bool; rewrite (pget_ok _ _ _ _ H); reflexivity.
Qed.
Lemma cmp_forward E f k p w c x s r s1 t1 :
  st_prox s p = Some (w, c) ->
  perform E f (OCmp k w x) s = (r, s1, t1) ->
  (e_impl E = ImplPy \/ forall v, r = Ok v -> exists b, v = VBool b) ->
  perform E (S f) (OCmp k (VProxy p) x) s = (r, s1, t1).
Proof.
  intros H HP Hr. unfold perform in *. simpl. destruct (impl_cases E) as [Hi|Hi]; rewrite Hi.
  - unfold py_compare. rewrite (pget_ok _ _ _ _ H). exact HP.
  - unfold c_richcompare. rewrite (pget_ok _ _ _ _ H). simpl fst.
    destruct r as [v|e].
    + rewrite (bind_ok _ _ _ _ _ _ HP).
      destruct Hr as [Hr|Hr]; [congruence|]. destruct (Hr v eq_refl) as [b ->].
      unfold ret. rewrite app_nil_r. reflexivity.
    + apply (bind_exc _ _ _ _ _ _ HP).
Qed.

Lemma open_forward E f o p w c s r s1 :
  open_op o -> principal_operand o = VProxy p -> st_prox s p = Some (w, c) ->
  plain_object w -> other_operands_plain o ->
  e_run E (e_tid E) (CallOp (on_object o None w)) s = (r, s1) ->
  (forall v, r = Ok v -> good_answer (e_impl E) o v) ->
  perform E (S (S f)) o s = (r, s1, [ECall Client (e_tid E) (CallOp (on_object o None w))]).
Proof.
  intros Ho Hpr Hp Hw Hoth Hrun Hty.
  assert (Hraw : perform E (S f) (on_object o None w) s =
                 (r, s1, [ECall Client (e_tid E) (CallOp (on_object o None w))])).
  { rewrite perform_plain.
    - unfold raw, bind, foreign. rewrite Hrun. destruct r as [v|e]; [|reflexivity].
      specialize (Hty v eq_refl). unfold coerce.
      destruct o; try contradiction; simpl in *.
      + destruct Hty as [z ->]. reflexivity.
      + destruct Hty as [b ->]. reflexivity.
      + reflexivity.
    - rewrite on_object_principal. exact Hw.
    - apply on_object_other. exact Hoth.
    - destruct o; try contradiction; simpl; discriminate. }
  destruct o; try contradiction; simpl in Hpr; subst.
  - rewrite (hash_forward _ _ _ _ _ _ Hp). exact Hraw.
  - rewrite (bool_forward _ _ _ _ _ _ Hp). exact Hraw.
  - apply (cmp_forward _ _ _ _ _ _ _ _ _ _ _ Hp Hraw).
    destruct (impl_cases E) as [Hi|Hi]; [auto|]. right. intros v ->.
    specialize (Hty v eq_refl). simpl in Hty. rewrite Hi in Hty. exact Hty.
Qed.

(** ** str and repr *)

Definition shown_name (o : op) : name :=
  match shows o with Some nm => nm | None => "" end.

Lemma attr_raw E f k v n s x :
  plain_object v -> n <> "__Security_checker__" ->
  e_run E (e_tid E) (CallOp (OGetattr v n None)) s = (Ok x, s) ->
  i_op (interp_n E (S f)) k (OGetattr v n None) s =
  (Ok x, s, [ECall k (e_tid E) (CallOp (OGetattr v n None))]).
Proof.
  intros Hv Hn Hr.
  assert (Hraw : i_op (interp_n E (S f)) k (OGetattr v n None) = raw E k (OGetattr v n None)).
  { simpl. apply String.eqb_neq in Hn. destruct v; try contradiction; simpl;
      rewrite ?Hn; reflexivity. }
  rewrite Hraw. unfold raw, bind, foreign. rewrite Hr. reflexivity.
Qed.

Lemma default_text E f w k m n s :
  plain_object w -> HasClass E w k m n ->
  exists t, (match e_impl E with
             | ImplPy => default_repr_py E (interp_n E (S f)) w
             | ImplC => default_repr_c E (interp_n E (S f)) w end) s =
            (Ok (VStr (masked E w m n)), s, t) /\ client_calls t = [] /\ asks t = [].
Proof.
  intros Hw HC. destruct (HC s) as (H1 & H2 & H3).
  assert (A1 := attr_raw E f Probe w "__class__" s _ Hw ltac:(discriminate) H1).
  assert (A2 := attr_raw E f Probe (VClass k) "__module__" s _ I ltac:(discriminate) H2).
  assert (A3 := attr_raw E f Probe (VClass k) "__name__" s _ I ltac:(discriminate) H3).
  destruct (impl_cases E) as [Hi|Hi]; rewrite Hi.
  - unfold default_repr_py.
    rewrite (bind_ok _ _ _ _ _ _ A1), (bind_ok _ _ _ _ _ _ A2),
      (bind_ok _ _ _ _ _ _ A1), (bind_ok _ _ _ _ _ _ A3).
    eexists. split; [reflexivity|]. split; reflexivity.
  - unfold default_repr_c.
    rewrite (bind_ok _ _ _ _ _ _ A1), (bind_ok _ _ _ _ _ _ A3).
    assert (A4 : catch (m0 <- i_op (interp_n E (S f)) Probe (OGetattr (VClass k) "__module__" None) ;;
                        ret (Some m0)) (fun _ => ret None) s =
                 (Ok (Some (VStr m)), s,
                  [ECall Probe (e_tid E) (CallOp (OGetattr (VClass k) "__module__" None))])).
    { erewrite catch_ok; [reflexivity|]. rewrite (bind_ok _ _ _ _ _ _ A2). reflexivity. }
    rewrite (bind_ok _ _ _ _ _ _ A4).
    eexists. split; [reflexivity|]. split; reflexivity.
Qed.

Lemma show_eq E f o nm p :
  shows o = Some nm -> principal_operand o = VProxy p ->
  perform E (S f) o =
  (r <- match e_impl E with
        | ImplPy => py_str_like E (interp_n E f) p nm
                      (fun w => i_op (interp_n E f) Client (on_object o None w))
        | ImplC => c_str_like E (interp_n E f) p nm
                      (fun w => i_op (interp_n E f) Client (on_object o None w))
        end ;; coerce o r).
Proof.
  intros Hs Hp. unfold perform. destruct o; try discriminate; simpl in *; injection Hs as <-;
    subst; destruct (impl_cases E) as [Hi|Hi]; rewrite Hi; reflexivity.
Qed.

Lemma coerce_show o nm x : shows o = Some nm -> coerce o (VStr x) = ret (VStr x).
Proof. destruct o; try discriminate; reflexivity. Qed.

(** The check mode used; a refusal gives the masked text. *)
Lemma show_masked E f o nm p w c s :
  shows o = Some nm -> principal_operand o = VProxy p -> st_prox s p = Some (w, c) ->
  exists m, m <> MSetattr /\
  forall e s1 t1 k md cn, do_check E (S f) m c w nm s = (Exc e, s1, t1) ->
    (e_impl E = ImplC \/ is_type_error e = false) ->
    st_prox s1 p = Some (w, c) -> plain_object w -> HasClass E w k md cn ->
    exists t2, perform E (S (S f)) o s = (Ok (VStr (masked E w md cn)), s1, (t1 ++ t2)%list) /\
               client_calls t2 = [] /\ asks t2 = [].
Proof.
  intros Hs Hpr Hp.
  exists (match e_impl E with ImplPy => MCheck | ImplC => c_mode s c MCheck end).
  split.
  { destruct (impl_cases E) as [Hi|Hi]; rewrite Hi; [discriminate|].
    unfold c_mode. apply slot_mode_read. discriminate. }
  intros e s1 t1 k md cn Hc He Hp1 Hw HC.
  destruct (default_text E f w k md cn s1 Hw HC) as (t2 & HT & Hq1 & Hq2).
  exists t2. rewrite (show_eq E (S f) o nm p Hs Hpr).
  destruct (impl_cases E) as [Hi|Hi]; rewrite Hi in *; split; auto.
  - destruct He as [He|He]; [discriminate|].
    erewrite bind_ok.
    2:{ unfold py_str_like. erewrite catch_exc.
        2:{ unfold py_check_name. rewrite (pget_ok _ _ _ _ Hp). simpl.
            apply (bind_exc _ _ _ _ _ _ Hc). }
        rewrite He. rewrite (pget_ok _ _ _ _ Hp1). simpl fst. rewrite HT. reflexivity. }
    rewrite (coerce_show o nm _ Hs). unfold ret. rewrite app_nil_r. reflexivity.
  - assert (Hc' : c_check (interp_n E (S f)) p MCheck nm s = (Exc e, s1, t1))
      by (rewrite (c_check_eq E (S f) p MCheck nm s w c Hp); exact Hc).
    erewrite bind_ok.
    2:{ unfold c_str_like. erewrite bind_ok.
        2:{ erewrite catch_exc.
            2:{ apply (bind_exc _ _ _ _ _ _ Hc'). }
            reflexivity. }
        rewrite (pget_ok _ _ _ _ Hp1). simpl fst. rewrite HT. reflexivity. }
    rewrite (coerce_show o nm _ Hs). unfold ret. rewrite !app_nil_r. reflexivity.
Qed.

(** A grant: the object's own method runs, and nothing else of the application. *)
Lemma show_granted E f o nm p w c s :
  shows o = Some nm -> principal_operand o = VProxy p -> st_prox s p = Some (w, c) ->
  plain_object w ->
  exists m, m <> MSetattr /\
  forall s1 t1 x s2, do_check E (S f) m c w nm s = (Ok tt, s1, t1) ->
    st_prox s1 p = Some (w, c) ->
    e_run E (e_tid E) (CallOp (on_object o None w)) s1 = (Ok (VStr x), s2) ->
    (e_impl E = ImplPy ->
     (exists i, c = VChk i) /\ registered_for E s2 (VStr x) = Some VNoProxy) ->
    perform E (S (S f)) o s =
    (Ok (VStr x), s2, (t1 ++ [ECall Client (e_tid E) (CallOp (on_object o None w))])%list).
Proof.
  intros Hs Hpr Hp Hw.
  exists (match e_impl E with ImplPy => MCheck | ImplC => c_mode s c MCheck end).
  split.
  { destruct (impl_cases E) as [Hi|Hi]; rewrite Hi; [discriminate|].
    unfold c_mode. apply slot_mode_read. discriminate. }
  intros s1 t1 x s2 Hc Hp1 Hrun Hreg.
  assert (Hm : i_op (interp_n E (S f)) Client (on_object o None w) s1 =
               (Ok (VStr x), s2, [ECall Client (e_tid E) (CallOp (on_object o None w))])).
  { change (perform E (S f) (on_object o None w) s1 =
               (Ok (VStr x), s2, [ECall Client (e_tid E) (CallOp (on_object o None w))])).
    rewrite perform_plain.
    - unfold raw, bind, foreign. rewrite Hrun. destruct o; try discriminate; reflexivity.
    - rewrite on_object_principal. auto.
    - apply on_object_other. destruct o; try discriminate; exact I.
    - destruct o; discriminate. }
  rewrite (show_eq E (S f) o nm p Hs Hpr).
  destruct (impl_cases E) as [Hi|Hi]; rewrite Hi in *.
  - destruct (Hreg eq_refl) as ((i & ->) & Hr).
    erewrite bind_ok.
    2:{ unfold py_str_like. erewrite catch_ok; [reflexivity|].
        unfold py_check_name. rewrite (pget_ok _ _ _ _ Hp). simpl fst. simpl snd.
        erewrite bind_ok; [|exact Hc]. rewrite (pget_ok _ _ _ _ Hp1). simpl fst.
        rewrite (bind_ok _ _ _ _ _ _ Hm).
        assert (HX : checker_proxy E (interp_n E (S f)) (VChk i) (VStr x) s2 =
                     (Ok (VStr x), s2, [])).
        { unfold checker_proxy. destruct (cimpl_cases E) as [Hci|Hci]; rewrite Hci.
          - unfold CheckerPy_proxy. cbv beta iota delta [is_proxy].
            assert (HG : getattr_sec_checker (interp_n E (S f)) (VStr x) s2 = (Ok VNone, s2, []))
              by reflexivity.
            rewrite (bind_ok _ _ _ _ _ _ HG).
            assert (HS : selectChecker E (interp_n E (S f)) (VStr x) s2 = (Ok None, s2, [])).
            { unfold selectChecker. rewrite Hci. unfold selectCheckerPy. rewrite bind_get.
              cbv zeta. unfold registered.
              replace (dget rkey_eqb (st_reg s2) (KType (type_of E s2 (VStr x))))
                with (Some VNoProxy) by (symmetry; exact Hr). reflexivity. }
            rewrite (bind_ok _ _ _ _ _ _ HS). reflexivity.
          - unfold CheckerC_proxy. cbv beta iota delta [is_proxy].
            assert (HG : getattr_sec_checker_c (interp_n E (S f)) (VStr x) s2 = (Ok None, s2, []))
              by reflexivity.
            rewrite (bind_ok _ _ _ _ _ _ HG).
            assert (HS : selectCheckerC E (interp_n E (S f)) (VStr x) s2 = (Ok None, s2, [])).
            { unfold selectCheckerC. rewrite bind_get.
              cbv zeta. unfold registered.
              replace (dget rkey_eqb (st_reg s2) (KType (type_of E s2 (VStr x))))
                with (Some VNoProxy) by (symmetry; exact Hr). reflexivity. }
            rewrite (bind_ok _ _ _ _ _ _ HS). reflexivity. }
        rewrite HX. reflexivity. }
    rewrite (coerce_show o nm _ Hs). unfold ret. rewrite !app_nil_r. reflexivity.
  - assert (Hc' : c_check (interp_n E (S f)) p MCheck nm s = (Ok tt, s1, t1))
      by (rewrite (c_check_eq E (S f) p MCheck nm s w c Hp); exact Hc).
    erewrite bind_ok.
    2:{ unfold c_str_like. erewrite bind_ok.
        2:{ erewrite catch_ok; [reflexivity|]. rewrite (bind_ok _ _ _ _ _ _ Hc'). reflexivity. }
        rewrite (pget_ok _ _ _ _ Hp1). simpl fst. rewrite Hm. reflexivity. }
    rewrite (coerce_show o nm _ Hs). unfold ret. rewrite !app_nil_r. reflexivity.
Qed.

(** ** Refusals *)

Lemma plain_check_keeps E f m a c g wt w n s r0 s1 t1 :
  foreign_keeps_checkers E -> PlainChecker s c g wt ->
  (a = Read -> n = "__iter__" -> plain_object w) -> (m = MSetattr <-> a = Write) ->
  do_check E (S (S f)) m c w n s = (r0, s1, t1) -> checkers_kept s s1.
Proof.
  intros HK (i & k & -> & Hi & Hk & _) Hw Hm H. destruct a.
  - rewrite do_check_plain with (k := k) in H; auto.
    + eapply Checker_check_keeps; eauto.
    + intros ->. destruct Hm as [Hm _]. specialize (Hm eq_refl). discriminate.
  - assert (m = MSetattr) as -> by tauto. rewrite do_check_plain_set with (k := k) in H by auto.
    eapply Checker_check_setattr_keeps; eauto.
Qed.

Lemma refusal_lemma E f o p n a w c g wt s r s' tr :
  foreign_keeps_proxies E -> foreign_keeps_checkers E ->
  guard_of (e_impl E) o = Some (p, n, a) -> Wraps s p w c ->
  PlainChecker s c g wt -> no_none (table_of g) -> no_none (table_of wt) ->
  plain_object w ->
  perform E (S (S (S f))) o s = (r, s', tr) ->
  exists r0 s1 t1, AccessCheck E s a g wt w n r0 s1 t1 /\
    forall e, r0 = Exc e ->
      client_calls tr = [] /\
      ((r = Exc e /\ s' = s1 /\ tr = t1) \/
       (e_impl E = ImplPy /\ is_getattr o = true /\ attribute_error e /\
        exists r2 t2, AccessCheck E s1 a g wt w n r2 s' t2 /\ tr = (t1 ++ t2)%list /\
                      r = Exc (match r2 with Exc e2 => e2 | Ok _ => EAttribute n end))).
Proof.
  intros HF HK Hg HW Hpc Hng Hnw Hw HP.
  destruct HW as [Hp Hlt].
  destruct (guarded_lemma E (S (S f)) o p n a w c s Hg Hp) as (m & Hm & _ & HL).
  destruct (do_check E (S (S f)) m c w n s) as [[r0 s1] t1] eqn:Hc.
  destruct (HL _ _ _ eq_refl) as [Hq HR]. clear HL.
  exists r0, s1, t1. split; [eapply access_check; eauto|].
  intros e ->. destruct HR as (e' & s2 & t2 & HP2 & Hq2 & HA & HB).
  rewrite HP2 in HP. injection HP as <- <- <-. split.
  { rewrite client_calls_app, Hq, Hq2. reflexivity. }
  destruct (is_attribute_error e) eqn:Ha.
  2:{ left. destruct HA as (-> & -> & ->).
      - right; right. intros Hx. apply attribute_error_iff in Hx. congruence.
      - rewrite app_nil_r. auto. }
  apply attribute_error_iff in Ha.
  destruct (impl_cases E) as [Hi|Hi].
  2:{ left. destruct HA as (-> & -> & ->); auto. rewrite app_nil_r. auto. }
  destruct (is_getattr o) eqn:Hga.
  2:{ left. destruct HA as (-> & -> & ->); auto. rewrite app_nil_r. auto. }
  right. split; [auto|]. split; [auto|]. split; [auto|].
  assert (Hk := kept_check _ _ _ _ _ _ _ _ _ _ HF Hc).
  assert (Hp1 : Wraps s1 p w c) by (eapply kept_wraps; eauto; split; auto).
  destruct (HB ltac:(auto) (proj1 Hp1)) as (r2 & Hc2 & ->).
  exists r2, t2. split; [|auto].
  eapply access_check; eauto. eapply PlainChecker_kept; eauto.
  eapply plain_check_keeps; eauto.
Qed.

(** ** Assignment and deletion *)

Definition cleared (E : env) (n : name) : Prop := e_impl E = ImplC \/ ~ internal_name n.

Lemma internal_nameb_iff n : internal_nameb n = true <-> internal_name n.
Proof.
  unfold internal_nameb, internal_name. rewrite orb_true_iff, !String.eqb_eq. tauto.
Qed.

(** [p.n = v] and [del p.n]: the same check, the same refusal; if it passes, the
    operation on the wrapped object. *)
Lemma write_lemma E f o p n w c s :
  (exists v, o = OSetattr (VProxy p) n v) \/ o = ODelattr (VProxy p) n ->
  cleared E n -> st_prox s p = Some (w, c) ->
  forall r0 s1 t1, do_check E f MSetattr c w n s = (r0, s1, t1) ->
  match r0 with
  | Exc e => perform E (S f) o s = (Exc e, s1, t1)
  | Ok _ => st_prox s1 p = Some (w, c) ->
            perform E (S f) o s =
            let '(r, s', t) := perform E f (on_object o None w) s1 in (r, s', (t1 ++ t)%list)
  end.
Proof.
  intros Ho Hn Hp r0 s1 t1 Hc. unfold perform, do_check in *.
  destruct Ho as [[v ->]| ->]; simpl; unfold proxy_setattr, proxy_delattr;
    (destruct (impl_cases E) as [Hi|Hi]; rewrite Hi;
     [ destruct Hn as [Hn|Hn]; [congruence|];
       unfold py_setattr, py_delattr;
       destruct (String.eqb_spec n "_wrapped") as [->|H1]; [exfalso; apply Hn; left; auto|];
       destruct (String.eqb_spec n "_checker") as [->|H2]; [exfalso; apply Hn; right; auto|];
       cbn [orb]; rewrite (pget_ok _ _ _ _ Hp); simpl fst; simpl snd;
       destruct r0 as [u|e];
       [ intros Hp1; rewrite (bind_ok _ _ _ _ _ _ Hc); reflexivity
       | apply (bind_exc _ _ _ _ _ _ Hc) ]
     | unfold c_check0;
       assert (Hc' : c_check (interp_n E f) p MSetattr n s = (r0, s1, t1))
         by (rewrite (c_check_eq E f p MSetattr n s w c Hp); exact Hc);
       destruct r0 as [u|e];
       [ intros Hp1; rewrite (bind_ok _ _ _ _ _ _ Hc'), (pget_ok _ _ _ _ Hp1); reflexivity
       | apply (bind_exc _ _ _ _ _ _ Hc') ] ]).
Qed.

(** ** Internals *)

(** Without a calling frame whose [self] is the proxy, the Python proxy answers
    AttributeError (or the refusal of a check) for the internal names. *)
Lemma py_internal_read E f p n fr s r s' t :
  e_impl E = ImplPy -> internal_name n -> fr <> Some (VProxy p) ->
  perform E f (OGetattr (VProxy p) n fr) s = (r, s', t) ->
  exists e, r = Exc e.
Proof.
  intros Hi Hn Hfr H. destruct f as [|f]; [minj H; eauto|].
  unfold perform in H. simpl in H. unfold proxy_getattr in H. rewrite Hi in H.
  unfold py_getattr in H.
  assert (Hg : py_getattribute E (interp_n E f) Client p n fr s = (Exc (EAttribute n), s, [])).
  { unfold py_getattribute. apply internal_nameb_iff in Hn. unfold internal_nameb in Hn.
    rewrite Hn. destruct fr as [v|]; [|reflexivity].
    destruct (value_eqb_spec v (VProxy p)); [congruence|reflexivity]. }
  rewrite (catch_exc _ _ _ _ _ _ Hg) in H. simpl in H.
  destruct (py_getattr_fallback (interp_n E f) p n s) as [[r1 s1] t1] eqn:Hf. minj H.
  unfold py_getattr_fallback in Hf. apply pget_inv in Hf.
  destruct Hf as [[_ ->]|(w & c & _ & Hf)]; [eauto|].
  mbind Hf; [eauto|]. unfold raise in Hf0. minj Hf0. eauto.
Qed.

Lemma py_internal_delete E f p n s :
  e_impl E = ImplPy -> internal_name n ->
  perform E (S f) (ODelattr (VProxy p) n) s = (Exc (EAttribute ""), s, []).
Proof.
  intros Hi Hn. unfold perform. simpl. unfold proxy_delattr. rewrite Hi. unfold py_delattr.
  apply internal_nameb_iff in Hn. unfold internal_nameb in Hn. rewrite Hn. reflexivity.
Qed.

(** ** In-place operators of the C proxy *)

Lemma c_inplace_lemma E f b p w c x s s1 t1 r s2 t2 :
  e_impl E = ImplC -> st_prox s p = Some (w, c) ->
  do_check E f (c_mode s c MCheck) c w (inplace_name b) s = (Ok tt, s1, t1) ->
  st_prox s1 p = Some (w, c) ->
  perform E f (OIn b w x) s1 = (Ok r, s2, t2) ->
  st_prox s2 p = Some (w, c) ->
  perform E (S f) (OIn b (VProxy p) x) s =
  if value_eqb r w then (Ok (VProxy p), s2, (t1 ++ t2)%list)
  else let '(r3, s3, t3) := do_proxy E f c r s2 in (r3, s3, (t1 ++ t2 ++ t3)%list).
Proof.
  intros Hi Hp Hc Hp1 Hop Hp2. unfold perform in *. simpl. unfold proxy_inplace. rewrite Hi.
  assert (Hnm : c_inop_name b = inplace_name b) by (destruct b; reflexivity).
  rewrite Hnm. unfold c_check2i.
  assert (Hc' : c_check (interp_n E f) p MCheck (inplace_name b) s = (Ok tt, s1, t1))
    by (rewrite (c_check_eq E f p MCheck _ s w c Hp); exact Hc).
  rewrite (bind_ok _ _ _ _ _ _ Hc'), (pget_ok _ _ _ _ Hp1). simpl fst.
  rewrite (bind_ok _ _ _ _ _ _ Hop), (pget_ok _ _ _ _ Hp2).
  change (fst (w, c)) with w. destruct (value_eqb r w).
  - unfold ret. rewrite app_nil_r. reflexivity.
  - unfold c_proxy_result. rewrite (pget_ok _ _ _ _ Hp2). simpl snd. unfold do_proxy.
    destruct (checker_proxy E (interp_n E f) c r s2) as [[r3 s3] t3].
    reflexivity.
Qed.
