(** * PickleFacts: pickling and copying security proxies. *)

From Coq Require Import List String Bool Arith ZArith Lia.
From Verif Require Import Base Domain CheckerModel ProxyModel MFacts Spec RegSpec Witness
  CheckFacts RegistryFacts RegistryProps SafeFacts ProxySpec ProxyFacts ProxyOps ProxyTable
  ProxyResults MediationSpec SessionSpec Session Slots FactorySpec Factory Defaults DefaultsSpec
  DefaultsFacts DefaultsImport DefaultsProps Lookup LookupFacts Pickle PickleSpec.
Import ListNotations.
Open Scope string_scope.
Open Scope m_scope.
Local Arguments String.eqb : simpl never.

(** ** Reading public names *)

Lemma public_check E f m c g wt w n s :
  PlainChecker s c g wt -> table_of g n = Some PPublic -> m <> MSetattr ->
  i_check (interp_n E (S f)) m c w n s = (Ok tt, s, []).
Proof.
  intros (i & k & -> & Hk & Hkind & Hg & _) Ht Hm. simpl. rewrite bind_get, Hk, Hkind.
  unfold table_of in Ht.
  assert (Hc : Checker_check E (interp_n E f) k w n s = (Ok tt, s, [])).
  { unfold Checker_check. destruct (e_cimpl E).
    - unfold CheckerPy_check. rewrite bind_get, Hg. unfold get_or_none. rewrite Ht. reflexivity.
    - unfold CheckerC_check_int. rewrite bind_get, Hg, Ht. reflexivity. }
  destruct m; congruence.
Qed.

Lemma slot_mode_plain s c g wt m :
  PlainChecker s c g wt -> m <> MSetattr -> slot_mode s c m <> MSetattr.
Proof.
  intros (i & k & -> & Hk & Hkind & _) Hm. unfold slot_mode. rewrite Hk, Hkind. discriminate.
Qed.

(** A public attribute of a plain object, read through the proxy: the object's own
    attribute, then the checker's [proxy]. *)
Lemma public_get E f p n w i g wt s v s1 r s2 t2 :
  guard_of (e_impl E) (OGetattr (VProxy p) n None) = Some (p, n, Read) ->
  st_prox s p = Some (w, VChk i) -> PlainChecker s (VChk i) g wt ->
  table_of g n = Some PPublic -> plain_object w -> n <> "__Security_checker__" ->
  (forall fr, e_run E (e_tid E) (CallOp (OGetattr w n fr)) s = (Ok v, s1)) ->
  st_prox s1 p = Some (w, VChk i) ->
  checker_proxy E (interp_n E (S (S f))) (VChk i) v s1 = (Ok r, s2, t2) ->
  exists t, perform E (S (S (S f))) (OGetattr (VProxy p) n None) s = (Ok r, s2, t).
Proof.
  intros Hg Hp Hc Ht Hw Hn HR Hp1 HP.
  unfold perform. change (i_op (interp_n E (S (S (S f)))) Client (OGetattr (VProxy p) n None))
    with (proxy_getattr E (interp_n E (S (S f))) Client p n None).
  assert (Hraw : forall fr, i_op (interp_n E (S (S f))) Client (OGetattr w n fr) s =
            (Ok v, s1, [ECall Client (e_tid E) (CallOp (OGetattr w n fr))])).
  { intros fr. change (perform E (S (S f)) (OGetattr w n fr) s = (Ok v, s1,
      [ECall Client (e_tid E) (CallOp (OGetattr w n fr))])).
    rewrite (getattr_raw E (S f) w n fr Hw Hn).
    unfold raw, bind, foreign. rewrite HR. reflexivity. }
  unfold proxy_getattr. destruct (impl_cases E) as [Hi|Hi]; rewrite Hi in *.
  - simpl in Hg. unfold internal_nameb in Hg.
    unfold py_getattr, py_getattribute.
    destruct (String.eqb n "_wrapped") eqn:Hw1; [discriminate|].
    destruct (String.eqb n "_checker") eqn:Hk1; [discriminate|]. cbv zeta.
    change ((false || false) && negb false)%bool with false. cbv iota.
    rewrite <- unchecked_names_spec. simpl in Hg.
    destruct (unchecked_read n); [discriminate|].
    eexists. erewrite catch_ok; [reflexivity|].
    rewrite (pget_ok _ _ _ _ Hp). cbn [fst snd].
    rewrite (bind_ok _ _ _ _ _ _ (public_check E (S f) MGetattr _ g wt w n s Hc Ht ltac:(discriminate))).
    rewrite (pget_ok _ _ _ _ Hp). cbn [fst snd].
    replace (if (String.eqb n "__reduce__" || String.eqb n "__reduce_ex__"
                 || String.eqb n "__module__")%bool then w else w) with w
      by (destruct (_ || _)%bool; reflexivity).
    rewrite (bind_ok _ _ _ _ _ _ (Hraw _)). rewrite HP. reflexivity.
  - unfold c_check1, c_check. eexists. 
    assert (Hck : (wc <- pget p;; s0 <- get;;
                   i_check (interp_n E (S (S f))) (slot_mode s0 (snd wc) MGetattr) (snd wc) (fst wc) n)
                  s = (Ok tt, s, [])).
    { rewrite (pget_ok _ _ _ _ Hp), bind_get. cbn [fst snd].
      rewrite (public_check E (S f) _ _ g wt w n s Hc Ht); [reflexivity|].
      eapply slot_mode_plain; [exact Hc|discriminate]. }
    rewrite (bind_ok _ _ _ _ _ _ Hck). rewrite (pget_ok _ _ _ _ Hp). cbn [fst snd].
    rewrite (bind_ok _ _ _ _ _ _ (Hraw _)). unfold c_proxy_result.
    rewrite (pget_ok _ _ _ _ Hp1). cbn [fst snd]. rewrite HP. reflexivity.
Qed.

Lemma public_call E f q w i g wt s args v s1 r s2 t2 :
  st_prox s q = Some (w, VChk i) -> PlainChecker s (VChk i) g wt ->
  table_of g "__call__" = Some PPublic -> plain_object w ->
  e_run E (e_tid E) (CallOp (OCall w args)) s = (Ok v, s1) ->
  st_prox s1 q = Some (w, VChk i) ->
  checker_proxy E (interp_n E (S (S f))) (VChk i) v s1 = (Ok r, s2, t2) ->
  exists t, perform E (S (S (S f))) (OCall (VProxy q) args) s = (Ok r, s2, t).
Proof.
  intros Hp Hc Ht Hw HR Hp1 HP.
  assert (Hraw : i_op (interp_n E (S (S f))) Client (OCall w args) s =
            (Ok v, s1, [ECall Client (e_tid E) (CallOp (OCall w args))])).
  { destruct w; try contradiction; simpl; unfold raw, bind, foreign; rewrite HR; reflexivity. }
  unfold perform. change (i_op (interp_n E (S (S (S f)))) Client (OCall (VProxy q) args))
    with (proxy_guard E (interp_n E (S (S f))) q MCheck "__call__"
            (fun w => i_op (interp_n E (S (S f))) Client (OCall w args))).
  unfold proxy_guard. destruct (impl_cases E) as [Hi|Hi]; rewrite Hi; eexists.
  - unfold py_check_name. rewrite (pget_ok _ _ _ _ Hp). cbn [fst snd].
    rewrite (bind_ok _ _ _ _ _ _ (public_check E (S f) MCheck _ g wt w _ s Hc Ht ltac:(discriminate))).
    rewrite (pget_ok _ _ _ _ Hp). cbn [fst snd].
    rewrite (bind_ok _ _ _ _ _ _ Hraw). rewrite HP. reflexivity.
  - unfold c_check1, c_check.
    assert (Hck : (wc <- pget q;; s0 <- get;;
                   i_check (interp_n E (S (S f))) (slot_mode s0 (snd wc) MCheck) (snd wc) (fst wc)
                     "__call__") s = (Ok tt, s, [])).
    { rewrite (pget_ok _ _ _ _ Hp), bind_get. cbn [fst snd].
      rewrite (public_check E (S f) _ _ g wt w _ s Hc Ht); [reflexivity|].
      eapply slot_mode_plain; [exact Hc|discriminate]. }
    rewrite (bind_ok _ _ _ _ _ _ Hck). rewrite (pget_ok _ _ _ _ Hp). cbn [fst snd].
    rewrite (bind_ok _ _ _ _ _ _ Hraw). unfold c_proxy_result.
    rewrite (pget_ok _ _ _ _ Hp1). cbn [fst snd]. rewrite HP. reflexivity.
Qed.

(** ** What [proxy] makes of strings and of functions *)

Lemma select_impl E f v s :
  match e_cimpl E with
  | ImplPy => selectChecker E (interp_n E f) v s
  | ImplC => selectCheckerC E (interp_n E f) v s
  end = do_select E f v s.
Proof. unfold do_select, selectChecker. destruct (e_cimpl E); reflexivity. Qed.

Lemma str_stays E f i x s :
  dget rkey_eqb (st_reg s) (KType "str") = Some VNoProxy ->
  checker_proxy E (interp_n E (S f)) (VChk i) (VStr x) s = (Ok (VStr x), s, []).
Proof.
  intros Hr.
  assert (Hs : do_select E (S f) (VStr x) s = (Ok None, s, [])).
  { unfold do_select, selectChecker, selectCheckerPy, selectCheckerC.
    assert (Hx : registered E s (VStr x) = VNoProxy).
    { unfold registered. simpl type_of. rewrite Hr. reflexivity. }
    destruct (e_cimpl E); rewrite bind_get, Hx; reflexivity. }
  rewrite <- select_impl in Hs.
  unfold checker_proxy. destruct (e_cimpl E) eqn:Hi.
  - unfold CheckerPy_proxy. cbn [is_proxy].
    assert (Hg : getattr_sec_checker (interp_n E (S f)) (VStr x) s = (Ok VNone, s, []))
      by reflexivity.
        rewrite (bind_ok _ _ _ _ _ _ Hg), (bind_ok _ _ _ _ _ _ Hs). reflexivity.
  - unfold CheckerC_proxy. cbn [is_proxy].
    assert (Hg : getattr_sec_checker_c (interp_n E (S f)) (VStr x) s = (Ok None, s, []))
      by reflexivity.
        rewrite (bind_ok _ _ _ _ _ _ Hg), (bind_ok _ _ _ _ _ _ Hs). reflexivity.
Qed.

Lemma own_missing E f o s e s1 :
  e_run E (e_tid E) (CallOp (OGetattr (VObj o) "__Security_checker__" None)) s = (Exc e, s1) ->
  attribute_error e ->
  (exists t, getattr_sec_checker (interp_n E (S f)) (VObj o) s = (Ok VNone, s1, t)) /\
  (exists t, getattr_sec_checker_c (interp_n E (S f)) (VObj o) s = (Ok None, s1, t)).
Proof.
  intros HR He.
  assert (H : i_op (interp_n E (S f)) Probe (OGetattr (VObj o) "__Security_checker__" None) s =
    (Exc e, s1, [ECall Probe (e_tid E) (CallOp (OGetattr (VObj o) "__Security_checker__" None))])).
  { simpl. unfold raw, bind, foreign. rewrite HR. reflexivity. }
  split; eexists.
  - unfold getattr_sec_checker. erewrite catch_exc; [|exact H].
    apply attribute_error_iff in He. rewrite He. reflexivity.
  - unfold getattr_sec_checker_c. erewrite catch_exc; [reflexivity|].
    apply bind_exc. exact H.
Qed.

Lemma selected_wrapped E f i o s e s1 c s2 t2 :
  e_run E (e_tid E) (CallOp (OGetattr (VObj o) "__Security_checker__" None)) s = (Exc e, s1) ->
  attribute_error e ->
  do_select E (S f) (VObj o) s1 = (Ok (Some c), s2, t2) -> c <> VNone ->
  exists t, checker_proxy E (interp_n E (S f)) (VChk i) (VObj o) s =
            (Ok (VProxy (st_next s2)),
             set_prox (upd (st_prox s2) (st_next s2) (Some (VObj o, c)))
                      (set_next (S (st_next s2)) s2), t).
Proof.
  intros HR He Hs Hc. destruct (own_missing E f o s e s1 HR He) as [[t Hg] [t' Hg']].
  rewrite <- select_impl in Hs.
  unfold checker_proxy. destruct (e_cimpl E) eqn:Hi; eexists.
  - unfold CheckerPy_proxy. cbn [is_proxy].
    rewrite (bind_ok _ _ _ _ _ _ Hg), (bind_ok _ _ _ _ _ _ Hs).
    rewrite new_proxy_eq by exact Hc. reflexivity.
  - unfold CheckerC_proxy. cbn [is_proxy].
    rewrite (bind_ok _ _ _ _ _ _ Hg'), (bind_ok _ _ _ _ _ _ Hs).
    rewrite new_proxy_eq by exact Hc. reflexivity.
Qed.

Lemma select_chk E f v s i :
  e_watch E = 0 -> registered_for E s v = Some (VChk i) -> i <> default_cid ->
  (exists k, st_chks s i = Some k) ->
  do_select E (S f) v s = (Ok (Some (VChk i)), s, []).
Proof.
  intros Hw Hr Hi [k Hk].
  rewrite do_select_settled by (unfold settled; rewrite Hr; right; exact I).
  rewrite registered_spec, Hr. unfold settled_outcome.
  assert (HC : is_Checker E s (VChk i) = true)
    by (simpl; rewrite Hk, Hw; destruct (e_cimpl E); reflexivity).
  rewrite HC.
  assert (Hne : value_eqb (VChk i) (VChk default_cid) = false).
  { destruct (value_eqb_spec (VChk i) (VChk default_cid)) as [H|H]; [congruence|reflexivity]. }
  rewrite Hne, andb_false_r. reflexivity.
Qed.

(** ** The marker *)

Definition Marker (N : id) (s : state) : Prop :=
  3 <= N /\ N <= st_next s /\ st_prox s 0 = Some (VObj 0, VChk 1) /\
  exists d w, d < N /\ w < N /\ st_chks s 1 = Some (mkChecker d w CkPlain) /\
    st_dicts s d = [("__reduce__", PPublic); ("__module__", PPublic)] /\ st_dicts s w = [].

Lemma marker_public N s : Marker N s -> PublicMarker s.
Proof.
  intros (HN & Hle & Hp & d & w & Hd & Hw & Hc & Hd2 & Hw2). split.
  - split; [exact Hp|lia].
  - exists [("__reduce__", PPublic); ("__module__", PPublic)]. split; [|split].
    + exists 1, (mkChecker d w CkPlain). repeat split; auto.
    + intros n [<-|[<-|[]]]; reflexivity.
    + intros n Hn. unfold table_of. cbn [dget].
      destruct (String.eqb_spec "__reduce__" n) as [<-|_]; [exfalso; apply Hn; left; reflexivity|].
      destruct (String.eqb_spec "__module__" n) as [<-|_];
        [exfalso; apply Hn; right; left; reflexivity|]. reflexivity.
Qed.

Lemma import_public_lemma s :
  3 <= st_next s ->
  exists s1, import_public s = (Ok (VProxy 0), s1, []) /\ Marker (st_next s1) s1.
Proof.
  intros Hn. eexists. split; [reflexivity|].
  unfold Marker. cbn [st_next st_prox st_chks st_dicts set_next set_dicts set_chks set_prox].
  split; [lia|]. split; [lia|]. split; [apply upd_eq|].
  exists (st_next s), (S (st_next s)). split; [lia|]. split; [lia|].
  unfold public_cid. split; [apply upd_eq|]. split.
  - rewrite !upd_eq. rewrite upd_ne by lia. rewrite upd_eq. reflexivity.
  - rewrite !upd_ne by lia. rewrite upd_eq. reflexivity.
Qed.

Lemma marker_import N s s' : Marker N s -> N = st_next s -> Grow only_named s s' -> Marker (st_next s') s'.
Proof.
  intros (HN & Hle & Hp & d & w & Hd & Hw & Hc & Hd2 & Hw2) -> (G1 & G2 & G3 & G4 & _).
  split; [lia|]. split; [lia|]. split; [rewrite G4; exact Hp|].
  exists d, w. split; [lia|]. split; [lia|]. split.
  - rewrite G3; [exact Hc|lia|]. unfold only_named, named_cid. discriminate.
  - rewrite !G2 by auto. auto.
Qed.

Lemma marker_kept N s s' : Marker N s -> defaults_kept N s s' -> Marker N s'.
Proof.
  intros (HN & Hle & Hp & d & w & Hd & Hw & Hc & Hd2 & Hw2) HK.
  destruct (HK Hle) as (K1 & K2 & K3).
  split; [lia|]. split; [lia|]. split; [apply K2; [lia|exact Hp]|].
  exists d, w. split; [lia|]. split; [lia|]. split.
  - rewrite (proj1 (K3 1 ltac:(lia))). exact Hc.
  - rewrite (proj2 (K3 d Hd)), (proj2 (K3 w Hw)). auto.
Qed.

Lemma lookup_some E f v n s u s1 t :
  perform E f (OGetattr v n None) s = (Ok u, s1, t) ->
  lookup_attr E f v n s = (Ok (Some u), s1, (t ++ [])%list).
Proof. intros H. unfold lookup_attr. erewrite catch_ok; [reflexivity|]. erewrite bind_ok; eauto. reflexivity. Qed.

Lemma lookup_none E f v n s e s1 t :
  perform E f (OGetattr v n None) s = (Exc e, s1, t) -> attribute_error e ->
  lookup_attr E f v n s = (Ok None, s1, (t ++ [])%list).
Proof.
  intros H He. unfold lookup_attr. erewrite catch_exc; [|eapply bind_exc; exact H].
  apply attribute_error_iff in He. rewrite He. reflexivity.
Qed.

Lemma reads_only_none s c ns : reads_only s c ns -> c <> VNone.
Proof. intros (g & (i & k & -> & _) & _). discriminate. Qed.

Lemma reads_only_no_none g ns :
  (forall n, In n ns -> table_of g n = Some PPublic) ->
  (forall n, ~ In n ns -> table_of g n = None) -> no_none (table_of g).
Proof.
  intros H1 H2 n Hx. destruct (in_dec string_dec n ns) as [H|H];
    [rewrite (H1 n H) in Hx|rewrite (H2 n H) in Hx]; discriminate.
Qed.

(** A name that is not listed looks absent. *)
Lemma lookup_unlisted E f p n w c ns s :
  guard_of (e_impl E) (OGetattr (VProxy p) n None) = Some (p, n, Read) ->
  st_prox s p = Some (w, c) -> reads_only s c ns -> ~ In n ns ->
  ~ always_available n -> n <> "__iter__" ->
  lookup_attr E (S (S (S f))) (VProxy p) n s = (Ok None, s, []).
Proof.
  intros Hg Hp (g & Hc & H1 & H2) Hn Ha Hi.
  rewrite (lookup_none E (S (S (S f))) (VProxy p) n s (EForbidden n w) s []); [reflexivity| |exact I].
  assert (Hng : no_none (table_of g)) by (eapply reads_only_no_none; eauto).
  assert (Hnw : no_none (table_of [])) by (intros m Hx; discriminate).
  eapply (forbidden_lemma E f _ p n Read w c g [] s); simpl; auto.
Qed.

(** ** The marker is a global *)

Definition wrapped_in (s : state) (m : id) (c : value) : state :=
  set_prox (upd (st_prox s) (st_next s) (Some (VObj m, c))) (set_next (S (st_next s)) s).

Section Marker.
  Variables (E : env) (f N : nat) (m : id) (c : value) (modname nm : string).
  Hypothesis HW : e_watch E = 0.
  Hypothesis HGo : global_object E 0 m modname nm.
  Variable s : state.
  Hypothesis HM : Marker N s.
  Hypothesis Hreg : dget rkey_eqb (st_reg s) (KType "method") = Some c.
  Hypothesis HD : DC s c callable_names.
  Hypothesis Hstr : dget rkey_eqb (st_reg s) (KType "str") = Some VNoProxy.

  Lemma guard_read n :
    internal_nameb n = false -> unchecked_read n = false ->
    guard_of (e_impl E) (OGetattr (VProxy 0) n None) = Some (0, n, Read).
  Proof. intros H1 H2. simpl. destruct (e_impl E); rewrite ?H1, ?H2; reflexivity. Qed.

  Lemma marker_reduce_ex n :
    n = "__reduce_ex__" \/ n = "__deepcopy__" ->
    lookup_attr E (S (S (S f))) (VProxy 0) n s = (Ok None, s, []).
  Proof.
    intros Hn. destruct (marker_public N s HM) as [[Hp _] HR].
    eapply lookup_unlisted; [|exact Hp|exact HR| | |];
      destruct Hn as [-> | ->]; try (apply guard_read; reflexivity);
      try (intros [H|[H|[]]]; discriminate); try discriminate; 
      unfold always_available; simpl; intuition discriminate.
  Qed.

  Lemma marker_reduce :
    exists t, perform E (S (S (S f))) (OGetattr (VProxy 0) "__reduce__" None) s =
              (Ok (VProxy (st_next s)), wrapped_in s m c, t).
  Proof.
    destruct HM as (HN & Hle & Hp & d & w & Hd & Hw & Hc & Hd2 & Hw2).
    destruct HD as (i & k & -> & Hi & Hk & _).
    destruct (selected_wrapped E (S f) 1 m s _ s (VChk i) s [] (go_no_checker _ _ _ _ _ HGo None s) I)
      as (t & Ht).
    - apply select_chk; auto.
      + unfold registered_for. simpl. rewrite (go_method _ _ _ _ _ HGo). exact Hreg.
      + unfold default_cid. lia.
      + eauto.
    - discriminate.
    - eapply public_get; eauto.
      + apply guard_read; reflexivity.
      + exists 1, (mkChecker d w CkPlain). repeat split; eauto.
      + simpl. rewrite Hd2. reflexivity.
      + exact I.
      + discriminate.
      + intros fr. apply (go_reduce _ _ _ _ _ HGo).
  Qed.

  Lemma wrapped_marker : Marker N (wrapped_in s m c).
  Proof.
    destruct HM as (HN & Hle & Hp & d & w & Hd & Hw & Hc & Hd2 & Hw2).
    split; [lia|]. split; [simpl; lia|]. split; [simpl; rewrite upd_ne by lia; exact Hp|].
    exists d, w. simpl. auto 10.
  Qed.

  Lemma marker_call :
    exists t, perform E (S (S (S f))) (OCall (VProxy (st_next s)) []) (wrapped_in s m c) =
              (Ok (VStr nm), wrapped_in s m c, t).
  Proof.
    destruct HD as (i & k & -> & Hi & Hk & Hkind & Hg & Hs & Hds & Ht).
    eapply public_call.
    - simpl. apply upd_eq.
    - exists i, k. simpl. repeat split; eauto.
    - simpl. rewrite Ht. reflexivity.
    - exact I.
    - apply (go_call _ _ _ _ _ HGo).
    - simpl. apply upd_eq.
    - apply str_stays. exact Hstr.
  Qed.

  Lemma marker_module :
    exists t, perform E (S (S (S f))) (OGetattr (VProxy 0) "__module__" None) (wrapped_in s m c) =
              (Ok (VStr modname), wrapped_in s m c, t).
  Proof.
    destruct wrapped_marker as (HN & Hle & Hp & d & w & Hd & Hw & Hc & Hd2 & Hw2).
    eapply public_get; eauto.
    - apply guard_read; reflexivity.
    - exists 1, (mkChecker d w CkPlain). repeat split; eauto.
    - simpl in Hd2 |- *. rewrite Hd2. reflexivity.
    - exact I.
    - discriminate.
    - intros fr. apply (go_module _ _ _ _ _ HGo).
    - apply str_stays. exact Hstr.
  Qed.

  Lemma marker_true :
    exists t, truth (interp_n E (S (S (S f)))) (VProxy (st_next s)) (wrapped_in s m c) =
              (Ok true, wrapped_in s m c, t).
  Proof.
    assert (Hp : st_prox (wrapped_in s m c) (st_next s) = Some (VObj m, c)) by (simpl; apply upd_eq).
    unfold truth.
    assert (H : exists t, i_op (interp_n E (S (S (S f)))) Probe (OBool (VProxy (st_next s)))
                 (wrapped_in s m c) = (Ok (VBool true), wrapped_in s m c, t)).
    { change (i_op (interp_n E (S (S (S f)))) Probe (OBool (VProxy (st_next s))))
        with (run_op E (interp_n E (S (S f))) Probe (OBool (VProxy (st_next s)))).
      unfold run_op, py_bool. 
      destruct (e_impl E); rewrite (pget_ok _ _ _ _ Hp); cbn [fst snd]; simpl;
        unfold raw, bind, foreign; rewrite (go_true _ _ _ _ _ HGo); simpl; eauto. }
    destruct H as (t & H). rewrite (bind_ok _ _ _ _ _ _ H). simpl. eauto.
  Qed.

  Lemma marker_pickles globals which protocol :
    globals modname nm = Some (VProxy 0) ->
    exists s' t, pickle E (S (S (S f))) globals which protocol (VProxy 0) s =
                 (Ok (ByName modname nm), s', t).
  Proof.
    intros HG. destruct marker_reduce as (t1 & H1). destruct marker_call as (t2 & H2).
    destruct marker_module as (t3 & H3).
    unfold pickle.
    assert (HR : exists t, reduce E (S (S (S f))) protocol (VProxy 0) s =
                           (Ok (Some (VStr nm)), wrapped_in s m c, t)).
    { eexists. unfold reduce.
      rewrite (bind_ok _ _ _ _ _ _ (marker_reduce_ex "__reduce_ex__" (or_introl eq_refl))).
      rewrite (bind_ok _ _ _ _ _ _ (lookup_some _ _ _ _ _ _ _ _ H1)).
      rewrite (bind_ok _ _ _ _ _ _ H2). reflexivity. }
    destruct HR as (t & HR). do 2 eexists. rewrite (bind_ok _ _ _ _ _ _ HR). cbv iota.
    unfold save_global. rewrite (bind_ok _ _ _ _ _ _ (lookup_some _ _ _ _ _ _ _ _ H3)).
    cbv iota. unfold bind, ret at 1. rewrite HG. reflexivity.
  Qed.

  Lemma marker_copies memo :
    exists s' t, copy E (S (S (S f))) memo (VProxy 0) s = (Ok (Copy (VProxy 0)), s', t).
  Proof.
    destruct marker_reduce as (t1 & H1). destruct marker_call as (t2 & H2).
    destruct marker_true as (t3 & H3). unfold copy.
    assert (Hd : match memo with
            | None => ret None
            | Some d =>
                c <- lookup_attr E (S (S (S f))) (VProxy 0) "__deepcopy__" ;;
                match c with
                | None | Some VNone => ret None
                | Some g => y <- perform E (S (S (S f))) (OCall g [d]) ;; ret (Some y)
                end
            end s = (Ok None, s, [])).
    { destruct memo; [|reflexivity].
      rewrite (bind_ok _ _ _ _ _ _ (marker_reduce_ex "__deepcopy__" (or_intror eq_refl))).
      reflexivity. }
    rewrite (bind_ok _ _ _ _ _ _ Hd).
    rewrite (bind_ok _ _ _ _ _ _ (marker_reduce_ex "__reduce_ex__" (or_introl eq_refl))).
    assert (HR : exists t, (r <- lookup_attr E (S (S (S f))) (VProxy 0) "__reduce__" ;;
                  match r with
                  | None => ret None
                  | Some g =>
                      b <- truth (interp_n E (S (S (S f)))) g ;;
                      if b then v <- perform E (S (S (S f))) (OCall g []) ;; ret (Some v) else ret None
                  end) s = (Ok (Some (VStr nm)), wrapped_in s m c, t)).
    { eexists. rewrite (bind_ok _ _ _ _ _ _ (lookup_some _ _ _ _ _ _ _ _ H1)).
      rewrite (bind_ok _ _ _ _ _ _ H3), (bind_ok _ _ _ _ _ _ H2). reflexivity. }
    destruct HR as (t & HR). do 2 eexists. rewrite (bind_ok _ _ _ _ _ _ HR). reflexivity.
  Qed.
End Marker.

(** After import, whatever the program did since. *)
Lemma default_callable pf s it lit T :
  Literal pf s it lit -> AfterImport pf s it lit -> In T callable_types ->
  exists c, dget rkey_eqb (st_reg s) (KType T) = Some c /\ DC s c callable_names.
Proof.
  intros (HI & _ & _ & _ & _ & HL & HK) HA HT. rewrite HA.
  destruct (in_dec string_dec T (rock_types pf)) as [Hx|_].
  { exfalso. revert Hx. apply (rock_apart pf callable_types); [right; reflexivity|exact HT]. }
  destruct (in_dec string_dec T ["Implements"; "ProvidesClass"]) as [Hx|_].
  { exfalso. revert Hx. apply (disjb_spec callable_types); [reflexivity|exact HT]. }
  destruct (HL T callable_names) as (c & Hc & HD).
  { unfold lit_spec. simpl in HT |- *. intuition (subst; auto 20). }
  rewrite Hc. eauto.
Qed.

Lemma default_tuple pf s it lit :
  Literal pf s it lit -> AfterImport pf s it lit ->
  exists c, dget rkey_eqb (st_reg s) (KType "tuple") = Some c /\ DC s c tuple_names.
Proof.
  intros (HI & _ & _ & _ & _ & HL & HK) HA. rewrite HA.
  destruct (in_dec string_dec "tuple" (rock_types pf)) as [Hx|_].
  { exfalso. revert Hx. apply (rock_apart pf ["tuple"]); [right; reflexivity|left; reflexivity]. }
  destruct (in_dec string_dec "tuple" ["Implements"; "ProvidesClass"]) as [Hx|_].
  { exfalso. simpl in Hx. intuition discriminate. }
  destruct (HL "tuple" tuple_names) as (c & Hc & HD); [simpl; auto 20|].
  rewrite Hc. eauto.
Qed.

Lemma default_str pf s it lit :
  AfterImport pf s it lit -> dget rkey_eqb (st_reg s) (KType "str") = Some VNoProxy.
Proof.
  intros HA. rewrite HA. destruct (in_dec string_dec "str" (rock_types pf)) as [_|Hx]; [reflexivity|].
  exfalso. apply Hx. unfold rock_types. apply in_or_app. left. simpl. auto 20.
Qed.

Section Imported.
  Variables (pf : platform) (E0 : env) (s0 : state) (p : value) (s1 : state) (t1 : list event)
            (d : list (rkey * value)) (s2 : state) (t2 : list event)
            (Env : env -> Prop) (other : state -> state -> Prop).
  Hypothesis Hw0 : e_watch E0 = 0.
  Hypothesis Hn0 : 3 <= st_next s0.
  Hypothesis HP : import_public s0 = (Ok p, s1, t1).
  Hypothesis HI : import_checker E0 pf s1 = (Ok d, s2, t2).
  Hypothesis HR : respectful (st_next s2) Env other.

  Lemma imported_facts :
    p = VProxy 0 /\ Marker (st_next s2) s2 /\ 3 <= st_next s1 /\
    exists it lit, Literal pf s2 it lit /\ AfterImport pf s2 it lit.
  Proof.
    destruct (import_public_lemma s0 Hn0) as (s1' & HP' & HM).
    rewrite HP in HP'. minj HP'. split; [reflexivity|].
    assert (H3 : 3 <= st_next s1') by (destruct HM; lia).
    destruct (import_only _ _ _ _ _ _ Hw0 H3 HI) as (it & lit & HG & HL & HA).
    split; [eapply marker_import; eauto|]. eauto.
  Qed.

  Lemma marker_lemma s : History Env other s2 s -> PublicMarker s.
  Proof.
    intros H. destruct imported_facts as (_ & HM & _).
    eapply marker_public, marker_kept; [exact HM|]. eapply dk_history; eauto.
  Qed.

  Lemma round_trip_lemma E f s m globals which protocol memo :
    History Env other s2 s -> Env E ->
    still_default s2 s "method" -> still_default s2 s "str" ->
    global_object E 0 m "zope.security.checker" "CheckerPublic" ->
    globals "zope.security.checker" "CheckerPublic" = Some p ->
    (exists x s' t, pickle E (S (S (S f))) globals which protocol p s = (Ok x, s', t) /\
                    x = ByName "zope.security.checker" "CheckerPublic" /\
                    unpickle globals x = Some p) /\
    (exists s' t, copy E (S (S (S f))) memo p s = (Ok (Copy p), s', t)).
  Proof.
    intros HH HE HSm HSs HGo HGl. destruct imported_facts as (-> & HM & _ & it & lit & HL & HA).
    assert (HK := dk_history _ _ _ _ _ HR HH).
    assert (HMs := marker_kept _ _ _ HM HK).
    destruct (default_callable pf s2 it lit "method" HL HA) as (c & Hc & HD);
      [simpl; auto|].
    assert (HDs := DC_kept _ _ _ _ HK HD).
    assert (Hwe := proj1 (proj1 HR E HE)).
    unfold still_default in HSm, HSs. rewrite Hc in HSm.
    rewrite (default_str pf s2 it lit HA) in HSs.
    split.
    - destruct (marker_pickles E f _ m c _ _ Hwe HGo s HMs HSm HDs HSs globals which protocol HGl)
        as (s' & t & H).
      do 3 eexists. split; [exact H|]. split; [reflexivity|exact HGl].
    - eapply marker_copies; eauto.
  Qed.
End Imported.

(** ** Refusals *)

Lemma guard_reducer E p n :
  In n ["__reduce_ex__"; "__reduce__"; "__deepcopy__"] ->
  guard_of (e_impl E) (OGetattr (VProxy p) n None) = Some (p, n, Read).
Proof. intros [<-|[<-|[<-|[]]]]; simpl; destruct (e_impl E); reflexivity. Qed.

Lemma reducer_not_available n :
  In n ["__reduce_ex__"; "__reduce__"; "__deepcopy__"] ->
  ~ always_available n /\ n <> "__iter__" /\ n <> "__Security_checker__".
Proof.
  intros Hn. unfold always_available. simpl in *.
  split; [|split]; intros H; intuition (subst; discriminate).
Qed.

Lemma lookup_absent E f p n w c g wt s :
  In n ["__reduce_ex__"; "__reduce__"; "__deepcopy__"] -> st_prox s p = Some (w, c) ->
  PlainChecker s c g wt -> no_none (table_of g) -> no_none (table_of wt) ->
  table_of g n = None -> lookup_attr E (S (S (S f))) (VProxy p) n s = (Ok None, s, []).
Proof.
  intros Hn Hp Hc Hng Hnw Ht. destruct (reducer_not_available n Hn) as (Ha & Hi & _).
  rewrite (lookup_none E (S (S (S f))) (VProxy p) n s (EForbidden n w) s []); [reflexivity| |exact I].
  eapply (forbidden_lemma E f _ p n Read w c g wt s); auto using guard_reducer.
Qed.

Lemma lookup_refused E f p n w c g wt s q i x :
  In n ["__reduce_ex__"; "__reduce__"; "__deepcopy__"] -> st_prox s p = Some (w, c) ->
  PlainChecker s c g wt -> no_none (table_of g) -> no_none (table_of wt) ->
  plain_object w -> table_of g n = Some q ->
  tl_inter (st_tls s (e_tid E)) = Some (VIact i) -> st_inters s i = Some x ->
  ~ simple_grants s x q ->
  lookup_attr E (S (S (S f))) (VProxy p) n s =
    (Exc (EUnauthorized w n q), s, [EAsk (e_tid E) (VIact i) q w (Some false)]).
Proof.
  intros Hn Hp Hc Hng Hnw Hw Ht Htl Hi Hno.
  assert (H := unauthorised_lemma E f _ p n Read w c g wt s q i x (guard_reducer E p n Hn)
                 Hp Hc Hng Hnw Hw Ht Htl Hi Hno).
  unfold lookup_attr. erewrite catch_exc; [|eapply bind_exc; exact H]. reflexivity.
Qed.

Lemma pickle_forbidden E f globals which protocol p w c g wt s r s' t :
  st_prox s p = Some (w, c) -> PlainChecker s c g wt ->
  no_none (table_of g) -> no_none (table_of wt) ->
  table_of g "__reduce_ex__" = None -> table_of g "__reduce__" = None ->
  perform E (S (S (S f))) (ORepr (VProxy p)) s = (r, s', t) ->
  exists t', pickle E (S (S (S f))) globals which protocol (VProxy p) s =
    (match r with Ok _ => Ok PicklingError | Exc e => Exc e end, s', t') /\ t' = t /\
  copy E (S (S (S f))) None (VProxy p) s = (Ok CopyError, s, []) /\
  (table_of g "__deepcopy__" = None ->
   forall memo, copy E (S (S (S f))) memo (VProxy p) s = (Ok CopyError, s, [])).
Proof.
  intros Hp Hc Hng Hnw H1 H2 HP.
  assert (L1 : lookup_attr E (S (S (S f))) (VProxy p) "__reduce_ex__" s = (Ok None, s, []))
    by (eapply lookup_absent; eauto; simpl; auto).
  assert (L2 : lookup_attr E (S (S (S f))) (VProxy p) "__reduce__" s = (Ok None, s, []))
    by (eapply lookup_absent; eauto; simpl; auto).
  exists t. split; [|split; [reflexivity|]].
  - unfold pickle, reduce. rewrite bind_assoc, (bind_ok _ _ _ _ _ _ L1).
    rewrite bind_assoc, (bind_ok _ _ _ _ _ _ L2).
    unfold bind, ret. rewrite HP. destruct r; rewrite ?app_nil_r; reflexivity.
  - assert (Hcopy : forall memo,
       (memo <> None -> lookup_attr E (S (S (S f))) (VProxy p) "__deepcopy__" s = (Ok None, s, [])) ->
       copy E (S (S (S f))) memo (VProxy p) s = (Ok CopyError, s, [])).
    { intros memo Hm. unfold copy.
      assert (Hd : match memo with
              | None => ret None
              | Some d =>
                  c <- lookup_attr E (S (S (S f))) (VProxy p) "__deepcopy__" ;;
                  match c with
                  | None | Some VNone => ret None
                  | Some g => y <- perform E (S (S (S f))) (OCall g [d]) ;; ret (Some y)
                  end
              end s = (Ok None, s, [])).
      { destruct memo; [|reflexivity]. rewrite (bind_ok _ _ _ _ _ _ (Hm ltac:(discriminate))).
        reflexivity. }
      rewrite (bind_ok _ _ _ _ _ _ Hd), (bind_ok _ _ _ _ _ _ L1).
      rewrite bind_assoc, (bind_ok _ _ _ _ _ _ L2). reflexivity. }
    split; [apply Hcopy; congruence|].
    intros H3 memo. apply Hcopy. intros _. eapply lookup_absent; eauto. simpl. auto.
Qed.

Lemma pickle_unauthorised E f globals which protocol p w c g wt s i x n q :
  st_prox s p = Some (w, c) -> PlainChecker s c g wt ->
  no_none (table_of g) -> no_none (table_of wt) -> plain_object w ->
  (n = "__reduce_ex__" \/ (n = "__reduce__" /\ table_of g "__reduce_ex__" = None)) ->
  table_of g n = Some q ->
  tl_inter (st_tls s (e_tid E)) = Some (VIact i) -> st_inters s i = Some x ->
  ~ simple_grants s x q ->
  pickle E (S (S (S f))) globals which protocol (VProxy p) s =
    (Exc (EUnauthorized w n q), s, [EAsk (e_tid E) (VIact i) q w (Some false)]) /\
  copy E (S (S (S f))) None (VProxy p) s =
    (Exc (EUnauthorized w n q), s, [EAsk (e_tid E) (VIact i) q w (Some false)]).
Proof.
  intros Hp Hc Hng Hnw Hw Hn Ht Htl Hi Hno.
  assert (Hin : In n ["__reduce_ex__"; "__reduce__"; "__deepcopy__"]).
  { destruct Hn as [-> |[-> _]]; simpl; auto. }
  assert (L := lookup_refused E f p n w c g wt s q i x Hin Hp Hc Hng Hnw Hw Ht Htl Hi Hno).
  destruct Hn as [-> |[-> H1]].
  - split.
    + unfold pickle, reduce. rewrite bind_assoc, (bind_exc _ _ _ _ _ _ L). reflexivity.
    + unfold copy. unfold bind at 1, ret at 1. rewrite (bind_exc _ _ _ _ _ _ L). reflexivity.
  - assert (L1 : lookup_attr E (S (S (S f))) (VProxy p) "__reduce_ex__" s = (Ok None, s, []))
      by (eapply lookup_absent; eauto; simpl; auto).
    split.
    + unfold pickle, reduce. rewrite bind_assoc, (bind_ok _ _ _ _ _ _ L1).
      rewrite bind_assoc, (bind_exc _ _ _ _ _ _ L). reflexivity.
    + unfold copy. unfold bind at 1, ret at 1. rewrite (bind_ok _ _ _ _ _ _ L1).
      rewrite bind_assoc, (bind_exc _ _ _ _ _ _ L). reflexivity.
Qed.

(** ** Pickling by value *)

Lemma reduce_inv E f protocol obj s v s' t :
  reduce E f protocol obj s = (Ok (Some v), s', t) ->
  exists n sa ta g s1 t1 args t2, In n reducers /\ 
    (sa = s /\ ta = [] \/
     exists e, perform E f (OGetattr obj "__reduce_ex__" None) s = (Exc e, sa, ta)) /\
    perform E f (OGetattr obj n None) sa = (Ok g, s1, t1) /\
    perform E f (OCall g args) s1 = (Ok v, s', t2) /\
    t = (ta ++ t1 ++ t2)%list.
Proof.
  assert (HL : forall n s0 x s0' t0, lookup_attr E f obj n s0 = (Ok x, s0', t0) ->
    match x with
    | Some u => perform E f (OGetattr obj n None) s0 = (Ok u, s0', t0)
    | None => exists e, perform E f (OGetattr obj n None) s0 = (Exc e, s0', t0)
    end).
  { intros n s0 x s0' t0 H. unfold lookup_attr, catch, bind in H.
    destruct (perform E f (OGetattr obj n None) s0) as [[[u|e] s3] t3] eqn:HP.
    - unfold ret in H. rewrite app_nil_r in H. minj H. reflexivity.
    - destruct (is_attribute_error e); unfold ret, raise in H; rewrite app_nil_r in H; minj H.
      eauto. }
  unfold reduce. intros H. mbind H; [discriminate|]. apply HL in Hm. destruct a as [g|].
  - mbind Hf; [discriminate|]. unfold ret in Hf0. minj Hf0.
    exists "__reduce_ex__", s, [], g. do 4 eexists.
    split; [left; reflexivity|]. split; [auto|]. split; [exact Hm|]. split; [exact Hm0|].
    subst. rewrite app_nil_r. reflexivity.
  - mbind Hf; [discriminate|]. apply HL in Hm0. destruct a as [g|]; [|discriminate].
    mbind Hf0; [discriminate|]. unfold ret in Hf. minj Hf.
    exists "__reduce__". do 7 eexists. split; [right; left; reflexivity|].
    split; [right; exact Hm|]. split; [exact Hm0|]. split; [exact Hm1|].
    subst. rewrite app_nil_r. reflexivity.
Qed.

Lemma pickle_value_inv E f globals which protocol obj s v s' t :
  pickle E f globals which protocol obj s = (Ok (ByValue v), s', t) ->
  reduce E f protocol obj s = (Ok (Some v), s', t) /\ is_tuple E v = true.
Proof.
  unfold pickle. intros H. mbind H; [discriminate|]. destruct a as [u|].
  - assert (Hx : (if is_tuple E u then ret (ByValue u) else ret PicklingError) s1 =
                 (Ok (ByValue v), s', t2) -> reduce E f protocol obj s = (Ok (Some v), s', t) /\
                 is_tuple E v = true).
    { destruct (is_tuple E u) eqn:Hu; unfold ret; intros Hx; minj Hx.
      subst. rewrite app_nil_r. auto. }
    destruct u; auto.
    exfalso. unfold save_global in Hf. mbind Hf; [discriminate|]. mbind Hf0; [discriminate|].
    destruct (globals _ _) as [y|]; [destruct (value_eqb y obj)|]; discriminate.
  - mbind Hf; discriminate.
Qed.

Lemma not_by_value_bare E f globals which protocol p w i s v s' t :
  foreign_keeps_proxies E -> Wraps s p w (VChk i) ->
  pickle E (S f) globals which protocol (VProxy p) s = (Ok (ByValue v), s', t) ->
  exists n sa g s1 t1 args t2, In n reducers /\
    perform E (S f) (OGetattr (VProxy p) n None) sa = (Ok g, s1, t1) /\
    perform E (S f) (OCall g args) s1 = (Ok v, s', t2) /\
    (constant g \/ needs_none E s1 t1 g \/
     exists q, g = VProxy q /\ forall w' j, Wraps s1 q w' (VChk j) -> needs_none E s' t2 v).
Proof.
  intros HF HW H. apply pickle_value_inv in H. destruct H as [HR Ht].
  destruct (reduce_inv _ _ _ _ _ _ _ _ HR) as (n & sa & ta & g & s1 & t1 & args & t2 & Hn & Ha & H1 & H2 & ->).
  exists n, sa, g, s1, t1, args, t2. split; [exact Hn|]. split; [exact H1|]. split; [exact H2|].
  assert (HWa : Wraps sa p w (VChk i)).
  { destruct Ha as [[-> _]|(e & Hx)]; [exact HW|].
    eapply kept_wraps; [|exact HW]. eapply kept_op; [exact HF| |exact Hx]. exact I. }
  assert (Hres := result_lemma E f (OGetattr (VProxy p) n None) p i w sa g s1 t1 HF eq_refl HWa).
  destruct Hres as [Hg|[Hg|Hg]]; auto.
  { simpl. right. right. discriminate. }
  destruct g as [| | | | | | | |q| | | | |]; try discriminate. right. right.
  exists q. split; [reflexivity|]. intros w' j Hq.
  destruct (result_lemma E f (OCall (VProxy q) args) q j w' s1 v s' t2 HF eq_refl
              Hq I H2) as [Hv|[Hv|Hv]]; auto; exfalso;
    destruct v; try discriminate; try contradiction.
Qed.

(** ** By default nothing is pickled by value *)

Section ByDefault.
  Variables (E : env) (N : id) (Ts : list string).
  Hypothesis HF : foreign_keeps_proxies E.
  Hypothesis HK : forall t c s r s', e_run E t c s = (r, s') -> defaults_kept N s s'.
  Hypothesis HT : forall T, In T Ts -> registration_kept E T.

  Definition Rk (s s' : state) : Prop :=
    proxies_kept s s' /\ defaults_kept N s s' /\
    forall T, In T Ts -> dget rkey_eqb (st_reg s') (KType T) = dget rkey_eqb (st_reg s) (KType T).

  Lemma Rk_refl s : Rk s s.
  Proof. split; [apply proxies_kept_refl|]. split; [apply dk_refl|auto]. Qed.
  Lemma Rk_trans s1 s2 s3 : Rk s1 s2 -> Rk s2 s3 -> Rk s1 s3.
  Proof.
    intros (A1 & A2 & A3) (B1 & B2 & B3). split; [eapply proxies_kept_trans; eauto|].
    split; [eapply dk_trans; eauto|]. intros T H. rewrite B3, A3; auto.
  Qed.
  Lemma Rk_foreign E' c s r s' : E' = E -> e_run E' (e_tid E') c s = (r, s') -> Rk s s'.
  Proof.
    intros -> H. split; [eapply HF; eauto|]. split; [eapply HK; eauto|].
    intros T HTt. eapply HT; eauto.
  Qed.
  Lemma Rk_new_proxy s v c : is_proxy v = false ->
    Rk s (set_prox (upd (st_prox s) (st_next s) (Some (v, c))) (set_next (S (st_next s)) s)).
  Proof.
    intros _. split; [|split; [|reflexivity]].
    - split; simpl; [lia|]. intros p x Hp Hx. rewrite upd_ne by lia. auto.
    - intros HN. split; simpl; [lia|]. split; [|auto].
      intros p x Hp Hx. rewrite upd_ne by lia. auto.
  Qed.
  Lemma Rk_new_checker s k :
    Rk s (set_chks (upd (st_chks s) (st_next s) (Some k)) (set_next (S (st_next s)) s)).
  Proof.
    split; [|split; [|reflexivity]].
    - split; simpl; [lia|]. auto.
    - intros HN. split; simpl; [lia|]. split; [auto|].
      intros i Hi. rewrite upd_ne by lia. auto.
  Qed.
  Lemma Rk_parent s d x v : st_decos s d = Some x ->
    Rk s (set_decos (upd (st_decos s) d (Some (mkDeco (dc_class x) (dc_obj x) v))) s).
  Proof.
    intros _. split; [|split; [|reflexivity]]; [split; simpl; auto|].
    intros HN. split; simpl; [lia|]. auto.
  Qed.

  Lemma Rk_op f o s r s' t :
    rebinds_nothing (e_impl E) o -> perform E f o s = (r, s', t) -> Rk s s'.
  Proof.
    apply (history_op Rk (fun E' => E' = E) Rk_refl Rk_trans
             Rk_foreign Rk_new_proxy Rk_new_checker Rk_parent). reflexivity.
  Qed.
  Lemma Rk_check f m c obj n s r s' t : do_check E f m c obj n s = (r, s', t) -> Rk s s'.
  Proof.
    intros H. destruct (history_interp Rk (fun E' => E' = E) Rk_refl Rk_trans
             Rk_foreign Rk_new_proxy Rk_new_checker Rk_parent E f eq_refl) as (_ & Hc & _).
    eapply (Hc m c obj n) in H. apply H.
  Qed.
  Lemma Rk_raw k o s r s' t : raw E k o s = (r, s', t) -> Rk s s'.
  Proof.
    unfold raw, bind, foreign. destruct (e_run E (e_tid E) (CallOp o) s) as [r1 s1] eqn:H.
    apply (Rk_foreign E _ _ _ _ eq_refl) in H.
    destruct r1 as [v|e]; [|intros H1; minj H1; exact H].
    unfold coerce, ret, raise. destruct o; try (intros H1; minj H1; exact H);
      destruct v; intros H1; minj H1; exact H.
  Qed.
  Lemma Rk_c_check f p m nm s w c r s' t :
    st_prox s p = Some (w, c) -> c_check (interp_n E f) p m nm s = (r, s', t) -> Rk s s'.
  Proof.
    intros Hp H. unfold c_check in H. rewrite (pget_ok _ _ _ _ Hp), bind_get in H.
    cbn [fst snd] in H. destruct m; eapply Rk_check; exact H.
  Qed.

  Lemma raw_value k o s v s' t :
    (forall u, coerce o u = ret u) ->
    raw E k o s = (Ok v, s', t) -> e_run E (e_tid E) (CallOp o) s = (Ok v, s').
  Proof.
    intros Hco. unfold raw, bind, foreign.
    destruct (e_run E (e_tid E) (CallOp o) s) as [r1 s1] eqn:H.
    destruct r1 as [u|e]; [rewrite Hco|]; intros H1; minj H1; reflexivity.
  Qed.

  Definition Passed f i o s v s' : Prop :=
    exists r sx sy tx, e_run E (e_tid E) (CallOp o) sx = (Ok r, sy) /\ Rk s sy /\
      checker_proxy E (interp_n E f) (VChk i) r sy = (Ok v, s', tx).

  Lemma passed_c f p m nm o w i s v s' t :
    st_prox s p = Some (w, VChk i) -> p < st_next s -> (forall u, coerce (o w) u = ret u) ->
    (forall x, i_op (interp_n E f) Client (o w) x = raw E Client (o w) x) ->
    c_check1 E (interp_n E f) p m nm (fun w => i_op (interp_n E f) Client (o w)) s =
      (Ok v, s', t) -> Passed f i (o w) s v s'.
  Proof.
    intros Hp Hl Hco Hop H. unfold c_check1 in H. mbind H; [discriminate|].
    assert (K1 := Rk_c_check _ _ _ _ _ _ _ _ _ _ Hp Hm).
    assert (W1 := kept_wraps _ _ _ _ _ (proj1 K1) (conj Hp Hl)).
    rewrite (pget_ok _ _ _ _ (proj1 W1)) in Hf. cbn [fst] in Hf. mbind Hf; [discriminate|].
    rewrite Hop in Hm0. assert (K2 := Rk_raw _ _ _ _ _ _ Hm0). apply raw_value in Hm0; [|intros; try apply Hco; reflexivity].
    assert (W2 := kept_wraps _ _ _ _ _ (proj1 K2) W1).
    unfold c_proxy_result in Hf0. rewrite (pget_ok _ _ _ _ (proj1 W2)) in Hf0.
    do 4 eexists. split; [exact Hm0|]. split; [eapply Rk_trans; eauto|]. exact Hf0.
  Qed.

  Lemma read_passed f p n w i s g s' t :
    In n reducers -> plain_object w -> Wraps s p w (VChk i) ->
    perform E (S (S f)) (OGetattr (VProxy p) n None) s = (Ok g, s', t) ->
    exists fr, Passed (S f) i (OGetattr w n fr) s g s'.
  Proof.
    intros Hn Hw [Hp Hl] H.
    assert (Hsc : n <> "__Security_checker__")
      by (destruct Hn as [<-|[<-|[]]]; discriminate).
    assert (Hop : forall fr x, i_op (interp_n E (S f)) Client (OGetattr w n fr) x =
                               raw E Client (OGetattr w n fr) x).
    { intros fr x. assert (Hx := getattr_raw E f w n fr Hw Hsc). unfold perform in Hx.
      rewrite Hx. reflexivity. }
    unfold perform in H. change (i_op (interp_n E (S (S f)))) with (run_op E (interp_n E (S f))) in H.
    unfold run_op, proxy_getattr in H. destruct (impl_cases E) as [Hi|Hi]; rewrite Hi in H.
    - unfold py_getattr in H. mcatch H.
      + minj Hr. unfold py_getattribute in Hm. cbv zeta in Hm.
        assert (Hno : String.eqb n "_wrapped" = false /\ String.eqb n "_checker" = false /\
                      mem n py_unchecked_names = false)
          by (destruct Hn as [<-|[<-|[]]]; auto).
        destruct Hno as (E1 & E2 & E3). rewrite E1, E2, E3 in Hm. cbn [orb andb] in Hm.
        rewrite (pget_ok _ _ _ _ Hp) in Hm. cbn [fst snd] in Hm.
        mbind Hm; [discriminate|]. assert (K1 := Rk_check _ _ _ _ _ _ _ _ _ Hm0).
        assert (W1 := kept_wraps _ _ _ _ _ (proj1 K1) (conj Hp Hl)).
        rewrite (pget_ok _ _ _ _ (proj1 W1)) in Hf. cbn [fst] in Hf.
        assert (Hsame : (if (String.eqb n "__reduce__" || String.eqb n "__reduce_ex__"
                             || String.eqb n "__module__")%bool then w else w) = w)
          by (destruct (_ || _ || _)%bool; reflexivity).
        rewrite Hsame in Hf. mbind Hf; [discriminate|].
        rewrite Hop in Hm. assert (K2 := Rk_raw _ _ _ _ _ _ Hm). apply raw_value in Hm; [|reflexivity].
        exists (Some (VProxy p)). do 4 eexists. split; [exact Hm|].
        split; [eapply Rk_trans; eauto|]. exact Hf0.
      + exfalso. destruct (is_attribute_error e); [|discriminate].
        unfold py_getattr_fallback in Hf. apply pget_inv in Hf.
        destruct Hf as [[_ Hf]|(w1 & c1 & _ & Hf)]; [discriminate|].
        mbind Hf; discriminate.
    - exists None.
      eapply (passed_c (S f) p _ _ (fun w => OGetattr w n None)); eauto.
  Qed.

  Lemma call_passed f p args w i s g s' t :
    plain_object w -> Wraps s p w (VChk i) ->
    perform E (S (S f)) (OCall (VProxy p) args) s = (Ok g, s', t) ->
    Passed (S f) i (OCall w args) s g s'.
  Proof.
    intros Hw [Hp Hl] H.
    assert (Hop : forall x, i_op (interp_n E (S f)) Client (OCall w args) x =
                            raw E Client (OCall w args) x).
    { intros x. destruct w; try contradiction; reflexivity. }
    unfold perform in H. change (i_op (interp_n E (S (S f)))) with (run_op E (interp_n E (S f))) in H.
    unfold run_op, proxy_guard in H. destruct (impl_cases E) as [Hi|Hi]; rewrite Hi in H.
    - unfold py_check_name in H. rewrite (pget_ok _ _ _ _ Hp) in H. cbn [fst snd] in H.
      mbind H; [discriminate|]. assert (K1 := Rk_check _ _ _ _ _ _ _ _ _ Hm).
      assert (W1 := kept_wraps _ _ _ _ _ (proj1 K1) (conj Hp Hl)).
      rewrite (pget_ok _ _ _ _ (proj1 W1)) in Hf. cbn [fst] in Hf. mbind Hf; [discriminate|].
      rewrite Hop in Hm0. assert (K2 := Rk_raw _ _ _ _ _ _ Hm0). apply raw_value in Hm0; [|intros; try apply Hco; reflexivity].
      do 4 eexists. split; [exact Hm0|]. split; [eapply Rk_trans; eauto|]. exact Hf0.
    - eapply (passed_c (S f) p _ _ (fun w => OCall w args)); eauto.
  Qed.

  (** What a value of one of these types becomes. *)
  Hypothesis Hwatch : e_watch E = 0.
  Hypothesis HO : forall T, In T Ts -> no_own_checker E T.

  Lemma default_wrapped f i o s ns c :
    In (e_type E o) Ts -> dget rkey_eqb (st_reg s) (KType (e_type E o)) = Some c -> DC s c ns ->
    exists t, checker_proxy E (interp_n E (S f)) (VChk i) (VObj o) s =
              (Ok (VProxy (st_next s)), wrapped_in s o c, t).
  Proof.
    intros HIn Hr (j & k & -> & Hj & Hk & _).
    apply (selected_wrapped E f i o s _ s (VChk j) s [] (HO _ HIn o s eq_refl) I).
    - apply select_chk; auto.
      + unfold default_cid. lia.
      + eauto.
    - discriminate.
  Qed.
End ByDefault.

Lemma default_by_value pf E0 s0 p0 s1 t1 d s2 t2 Env other E f s globals which protocol p w i x s' t :
  e_watch E0 = 0 -> 3 <= st_next s0 -> import_public s0 = (Ok p0, s1, t1) ->
  import_checker E0 pf s1 = (Ok d, s2, t2) -> respectful (st_next s2) Env other ->
  History Env other s2 s -> Env E ->
  (forall T, In T ("tuple" :: callable_types) ->
     still_default s2 s T /\ registration_kept E T /\ no_own_checker E T) ->
  Wraps s p w (VChk i) -> plain_object w -> ordinary_reducers E w ->
  pickle E (S (S f)) globals which protocol (VProxy p) s = (Ok x, s', t) ->
  forall v, x <> ByValue v.
Proof.
  intros Hw0 Hn0 HP HI HR HH HE HT HW Hw Hord H v ->.
  destruct (imported_facts pf E0 s0 p0 s1 t1 d s2 t2 Hw0 Hn0 HP HI)
    as (_ & _ & _ & it & lit & HL & HA).
  assert (HK0 := dk_history _ _ _ _ _ HR HH).
  destruct (proj1 HR E HE) as (Hwe & HF & HK).
  set (Ts := "tuple" :: callable_types) in *.
  assert (HTk : forall T, In T Ts -> registration_kept E T) by (intros T HIn; apply HT; auto).
  assert (HTo : forall T, In T Ts -> no_own_checker E T) by (intros T HIn; apply HT; auto).
  assert (Hdef : forall sx T, Rk (st_next s2) Ts s sx -> In T Ts ->
            exists c ns, dget rkey_eqb (st_reg sx) (KType T) = Some c /\ DC sx c ns).
  { intros sx T (_ & K2 & K3) HIn.
    assert (Hc : exists c ns, dget rkey_eqb (st_reg s2) (KType T) = Some c /\ DC s2 c ns).
    { destruct HIn as [<-|HIn].
      - destruct (default_tuple pf s2 it lit HL HA) as (c & Hc & HD). eauto.
      - destruct (default_callable pf s2 it lit T HL HA HIn) as (c & Hc & HD). eauto. }
    destruct Hc as (c & ns & Hc & HD). exists c, ns.
    split; [rewrite K3 by exact HIn; destruct (HT T HIn) as (Hs & _); unfold still_default in Hs;
            congruence|].
    eapply DC_kept; [|exact HD]. eapply dk_trans; eauto. }
  apply pickle_value_inv in H. destruct H as [Hred Htup].
  destruct (reduce_inv _ _ _ _ _ _ _ _ Hred)
    as (n & sa & ta & g & sb & tb & args & tc & Hn & Ha & H1 & H2 & ->).
  assert (KA : Rk (st_next s2) Ts s sa).
  { destruct Ha as [[-> _]|(e & Hx)]; [apply Rk_refl|].
    eapply Rk_op with (5 := Hx); auto. destruct (e_impl E); exact I. }
  destruct (read_passed E (st_next s2) Ts HF HK HTk f p n w i sa g sb tb Hn Hw
              (kept_wraps _ _ _ _ _ (proj1 KA) HW) H1)
    as (fr & r & sx & sy & tx & Hrun & Ky & Hwrap).
  assert (KY := Rk_trans _ _ _ _ _ KA Ky).
  destruct (Hord _ _ _ _ _ Hn Hrun) as (o & -> & Hty).
  destruct (Hdef sy (e_type E o) KY) as (c & ns & Hc & HD); [right; exact Hty|].
  destruct (default_wrapped E Ts Hwe HTo f i o sy ns c (or_intror Hty) Hc HD) as (tz & Hz).
  rewrite Hz in Hwrap. minj Hwrap.
  assert (KB : Rk (st_next s2) Ts s (wrapped_in sy o c)).
  { eapply Rk_trans; [exact KY|]. apply Rk_new_proxy. reflexivity. }
  destruct HD as (j & k & -> & _).
  assert (Hq : Wraps (wrapped_in sy o (VChk j)) (st_next sy) (VObj o) (VChk j)).
  { split; [simpl; apply upd_eq|simpl; lia]. }
  destruct (call_passed E (st_next s2) Ts HF HK HTk f (st_next sy) args (VObj o) j _ v s' tc
              I Hq H2) as (r & su & sv & tv & Hrun2 & Kv & Hwrap2).
  assert (KV := Rk_trans _ _ _ _ _ KB Kv).
  destruct (proxy_result _ _ _ _ _ _ _ _ Hwrap2) as [Hpx|[-> _]];
    [destruct v; first [discriminate Htup|discriminate Hpx]|].
  destruct r as [| | | | |ob| | | | | | | |]; try discriminate Htup.
  assert (Hot : In (e_type E ob) Ts).
  { left. simpl in Htup. symmetry. apply String.eqb_eq. exact Htup. }
  destruct (Hdef sv (e_type E ob) KV Hot) as (c2 & ns2 & Hc2 & HD2).
  destruct (default_wrapped E Ts Hwe HTo f j ob sv ns2 c2 Hot Hc2 HD2) as (ty & Hyy).
  rewrite Hyy in Hwrap2. discriminate Hwrap2.
Qed.

(** ** References *)

Lemma by_name_lemma E f globals which protocol obj s m n s' t :
  pickle E f globals which protocol obj s = (Ok (ByName m n), s', t) ->
  unpickle globals (ByName m n) = Some obj.
Proof.
  intros H. unfold pickle in H. apply bind_inv in H.
  destruct H as [(e & _ & X)|(rv & s1 & t1 & t2 & H1 & H2 & _)]; [discriminate X|].
  destruct rv as [v|].
  - assert (Hv : (exists nm, v = VStr nm) \/
                 (if is_tuple E v then ret (ByValue v) else ret PicklingError) s1 =
                 (Ok (ByName m n), s', t2)).
    { destruct v as [| | | | | | | | | | | | |]; try (right; exact H2). left. eexists. reflexivity. }
    destruct Hv as [[nm ->]|Hv].
    + unfold save_global in H2. apply bind_inv in H2.
      destruct H2 as [(e & _ & X)|(om & s2 & t3 & t4 & H3 & H4 & _)]; [discriminate X|].
      apply bind_inv in H4.
      destruct H4 as [(e & _ & X)|(m' & s3 & t5 & t6 & H5 & H6 & _)]; [discriminate X|].
      simpl. destruct (globals m' nm) as [x|] eqn:Hg; [|discriminate H6].
      destruct (value_eqb_spec x obj) as [->|_]; [|discriminate H6].
      injection H6 as <- <- _ _. exact Hg.
    + destruct (is_tuple E v); discriminate Hv.
  - apply bind_inv in H2.
    destruct H2 as [(e & _ & X)|(y & s2 & t3 & t4 & _ & H4 & _)]; [discriminate X|discriminate H4].
Qed.
