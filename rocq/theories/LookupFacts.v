(** * LookupFacts: [hasattr] and [getattr] with default on security proxies. *)

From Coq Require Import List String Bool Arith ZArith Lia.
From Verif Require Import Base Domain CheckerModel ProxyModel MFacts Spec RegSpec CheckFacts
  ProxySpec SafeFacts ProxyFacts ProxyOps ProxyTable Lookup LookupSpec.
Import ListNotations.
Open Scope string_scope.
Open Scope m_scope.

Lemma hasattr_exc E f v n s e s' t :
  perform E f (OGetattr v n None) s = (Exc e, s', t) ->
  (attribute_error e -> client_hasattr E f v n s = (Ok false, s', t)) /\
  (~ attribute_error e -> client_hasattr E f v n s = (Exc e, s', t)).
Proof.
  intros H. unfold client_hasattr, catch, bind. rewrite H.
  destruct (is_attribute_error e) eqn:He; split; intros Hx; unfold ret, raise;
    rewrite ?app_nil_r; auto.
  - apply attribute_error_iff in He. contradiction.
  - apply attribute_error_iff in Hx. congruence.
Qed.

Lemma getattr_exc E f v n d s e s' t :
  perform E f (OGetattr v n None) s = (Exc e, s', t) ->
  (attribute_error e -> client_getattr E f v n d s = (Ok d, s', t)) /\
  (~ attribute_error e -> client_getattr E f v n d s = (Exc e, s', t)).
Proof.
  intros H. unfold client_getattr, catch. rewrite H.
  destruct (is_attribute_error e) eqn:He; split; intros Hx; unfold ret, raise;
    rewrite ?app_nil_r; auto.
  - apply attribute_error_iff in He. contradiction.
  - apply attribute_error_iff in Hx. congruence.
Qed.

Lemma hasattr_true E f v n s s' t :
  client_hasattr E f v n s = (Ok true, s', t) ->
  exists u, perform E f (OGetattr v n None) s = (Ok u, s', t).
Proof.
  unfold client_hasattr, catch, bind.
  destruct (perform E f (OGetattr v n None) s) as [[[u|e] s1] t1]; unfold ret, raise.
  - rewrite app_nil_r. intros [= <- <-]. eauto.
  - destruct (is_attribute_error e); intros [=].
Qed.

Lemma lookup_forbidden E f p n w c g wt s d :
  guard_of (e_impl E) (OGetattr (VProxy p) n None) = Some (p, n, Read) ->
  st_prox s p = Some (w, c) ->
  PlainChecker s c g wt -> no_none (table_of g) -> no_none (table_of wt) ->
  table_of g n = None -> ~ always_available n -> n <> "__iter__" ->
  client_hasattr E (S (S (S f))) (VProxy p) n s = (Ok false, s, []) /\
  client_getattr E (S (S (S f))) (VProxy p) n d s = (Ok d, s, []).
Proof.
  intros Hg Hp Hc Hng Hnw Ht Ha Hi.
  assert (H := forbidden_lemma E f _ p n Read w c g wt s Hg Hp Hc Hng Hnw Ht
                 (fun _ => conj Ha Hi)).
  split; [apply (hasattr_exc _ _ _ _ _ _ _ _ H)|apply (getattr_exc _ _ _ _ _ _ _ _ _ H)];
    exact I.
Qed.

Lemma lookup_no_interaction E f p n w c g wt s q d :
  guard_of (e_impl E) (OGetattr (VProxy p) n None) = Some (p, n, Read) ->
  st_prox s p = Some (w, c) ->
  PlainChecker s c g wt -> no_none (table_of g) -> no_none (table_of wt) ->
  plain_object w -> table_of g n = Some q -> q <> PPublic ->
  tl_inter (st_tls s (e_tid E)) = None ->
  client_hasattr E (S (S (S f))) (VProxy p) n s = (Ok false, s, []) /\
  client_getattr E (S (S (S f))) (VProxy p) n d s = (Ok d, s, []).
Proof.
  intros Hg Hp Hc Hng Hnw Hw Ht Hq Htl.
  assert (H := no_interaction_lemma E f _ p n Read w c g wt s q Hg Hp Hc Hng Hnw Hw Ht Hq Htl).
  split; [apply (hasattr_exc _ _ _ _ _ _ _ _ H)|apply (getattr_exc _ _ _ _ _ _ _ _ _ H)];
    exact I.
Qed.

Lemma lookup_unauthorised E f p n w c g wt s q i x d :
  guard_of (e_impl E) (OGetattr (VProxy p) n None) = Some (p, n, Read) ->
  st_prox s p = Some (w, c) ->
  PlainChecker s c g wt -> no_none (table_of g) -> no_none (table_of wt) ->
  plain_object w -> table_of g n = Some q ->
  tl_inter (st_tls s (e_tid E)) = Some (VIact i) -> st_inters s i = Some x ->
  ~ simple_grants s x q ->
  client_hasattr E (S (S (S f))) (VProxy p) n s =
    (Exc (EUnauthorized w n q), s, [EAsk (e_tid E) (VIact i) q w (Some false)]) /\
  client_getattr E (S (S (S f))) (VProxy p) n d s =
    (Exc (EUnauthorized w n q), s, [EAsk (e_tid E) (VIact i) q w (Some false)]).
Proof.
  intros Hg Hp Hc Hng Hnw Hw Ht Htl Hi Hno.
  assert (H := unauthorised_lemma E f _ p n Read w c g wt s q i x Hg Hp Hc Hng Hnw Hw Ht
                 Htl Hi Hno).
  split; [apply (hasattr_exc _ _ _ _ _ _ _ _ H)|apply (getattr_exc _ _ _ _ _ _ _ _ _ H)];
    simpl; tauto.
Qed.

Lemma plain_modes E f m1 m2 c g wt w n s :
  PlainChecker s c g wt -> m1 <> MSetattr -> m2 <> MSetattr ->
  do_check E (S f) m1 c w n s = do_check E (S f) m2 c w n s.
Proof.
  intros (i & k & -> & Hk & Hkind & _) H1 H2.
  unfold do_check. simpl. unfold bind, get. rewrite Hk, Hkind.
  destruct m1, m2; congruence.
Qed.

Lemma lookup_present E f p n w c g wt s s' tr :
  foreign_keeps_proxies E ->
  guard_of (e_impl E) (OGetattr (VProxy p) n None) = Some (p, n, Read) ->
  Wraps s p w c ->
  PlainChecker s c g wt -> no_none (table_of g) -> no_none (table_of wt) ->
  plain_object w -> n <> "__Security_checker__" ->
  client_hasattr E (S (S (S f))) (VProxy p) n s = (Ok true, s', tr) ->
  Authorised E s Read g wt w n tr /\
  client_calls tr = [ECall Client (e_tid E) (own_read E p w n)].
Proof.
  intros HF Hg HW Hc Hng Hnw Hw Hn H. apply hasattr_true in H. destruct H as (u & HP).
  assert (Hcl : client_calls tr = [ECall Client (e_tid E) (own_read E p w n)]).
  { destruct (effect_lemma E (S f) _ p n Read w c s _ _ _ HF Hg HW (plain_not_none _ _ _ _ Hc)
                Hw I Hn HP) as (m & r0 & s1 & t1 & t2 & Hm & Hd & -> & Hq & Hr).
    destruct r0 as [[]|e].
    - rewrite client_calls_app, Hq. simpl. simpl in Hr.
      unfold own_read. destruct (e_impl E); simpl in Hr; exact Hr.
    - exfalso. destruct HW as [Hp _].
      destruct (guarded_lemma E (S (S f)) _ p n Read w c s Hg Hp) as (m2 & Hm2 & _ & HL).
      rewrite (plain_modes E (S f) m m2 c g wt w n s Hc) in Hd.
      + destruct (HL _ _ _ Hd) as (_ & e' & s3 & t4 & HP' & _).
        rewrite HP in HP'. discriminate.
      + intros ->. destruct Hm as [Hm _]. specialize (Hm eq_refl). discriminate.
      + intros ->. destruct Hm2 as [Hm2 _]. specialize (Hm2 eq_refl). discriminate. }
  split; [|exact Hcl].
  eapply authorised_lemma; eauto; try exact I. rewrite Hcl. discriminate.
Qed.

(** A public attribute that the object does not have. *)
Lemma lookup_missing E f p n w c g wt g2 wt2 s e s2 :
  guard_of (e_impl E) (OGetattr (VProxy p) n None) = Some (p, n, Read) ->
  st_prox s p = Some (w, c) -> PlainChecker s c g wt ->
  st_prox s2 p = Some (w, c) -> PlainChecker s2 c g2 wt2 ->
  table_of g n = Some PPublic -> table_of g2 n = Some PPublic ->
  no_none (table_of g) -> no_none (table_of wt) ->
  no_none (table_of g2) -> no_none (table_of wt2) ->
  plain_object w -> n <> "__Security_checker__" ->
  e_run E (e_tid E) (own_read E p w n) s = (Exc e, s2) -> attribute_error e ->
  client_hasattr E (S (S (S f))) (VProxy p) n s =
    (Ok false, s2, [ECall Client (e_tid E) (own_read E p w n)]).
Proof.
  intros Hg Hp Hc Hp2 Hc2 Ht Ht2 Hng Hnw Hng2 Hnw2 Hw Hn HR He.
  assert (Hck : forall m s0 g0 wt0, m <> MSetattr -> PlainChecker s0 c g0 wt0 ->
            no_none (table_of g0) -> no_none (table_of wt0) ->
            table_of g0 n = Some PPublic ->
            do_check E (S (S f)) m c w n s0 = (Ok tt, s0, [])).
  { intros m s0 g0 wt0 Hm H0 H1 H2 H3.
    destruct (do_check E (S (S f)) m c w n s0) as [[r0 s1] t1] eqn:Hd.
    eapply access_check with (a := Read) in Hd; eauto.
    - simpl in Hd. apply ReadCheck_public in Hd; auto. destruct Hd as (-> & -> & ->). reflexivity.
    - split; [congruence|discriminate]. }
  assert (Hraw : forall fr, own_read E p w n = CallOp (OGetattr w n fr) ->
            i_op (interp_n E (S (S f))) Client (OGetattr w n fr) s =
            (Exc e, s2, [ECall Client (e_tid E) (own_read E p w n)])).
  { intros fr Hfr. change (perform E (S (S f)) (OGetattr w n fr) s = (Exc e, s2,
      [ECall Client (e_tid E) (own_read E p w n)])).
    rewrite (getattr_raw E (S f) w n fr Hw Hn).
    unfold raw, bind, foreign. rewrite <- Hfr, HR. reflexivity. }
  assert (HP : exists e', attribute_error e' /\
            perform E (S (S (S f))) (OGetattr (VProxy p) n None) s =
            (Exc e', s2, [ECall Client (e_tid E) (own_read E p w n)])).
  { unfold perform. change (i_op (interp_n E (S (S (S f)))) Client (OGetattr (VProxy p) n None))
      with (proxy_getattr E (interp_n E (S (S f))) Client p n None).
    unfold proxy_getattr. unfold own_read in *.
    destruct (e_impl E) eqn:Hi.
    - exists (EAttribute n). split; [exact I|].
      simpl in Hg. unfold internal_nameb in Hg.
      unfold py_getattr, py_getattribute.
      destruct (String.eqb n "_wrapped") eqn:Hw1; [discriminate|].
      destruct (String.eqb n "_checker") eqn:Hk1; [discriminate|]. cbv zeta.
      change ((false || false) && negb false)%bool with false. cbv iota.
      rewrite <- unchecked_names_spec. simpl in Hg.
      destruct (unchecked_read n); [discriminate|].
      unfold catch.
      rewrite (pget_ok _ _ _ _ Hp). cbn [fst snd].
      assert (H1 : i_check (interp_n E (S (S f))) MGetattr c w n s = (Ok tt, s, []))
        by (apply (Hck MGetattr s g wt); auto; discriminate).
      unfold bind at 1. rewrite H1.
      rewrite (pget_ok _ _ _ _ Hp). cbn [fst snd].
      replace (if (String.eqb n "__reduce__" || String.eqb n "__reduce_ex__"
                   || String.eqb n "__module__")%bool then w else w) with w
        by (destruct (_ || _)%bool; reflexivity).
      unfold bind at 1. rewrite (Hraw _ eq_refl).
      replace (is_attribute_error e) with true by (symmetry; apply attribute_error_iff; auto).
      unfold py_getattr_fallback. rewrite (pget_ok _ _ _ _ Hp2). cbn [fst snd].
      assert (H2 : i_check (interp_n E (S (S f))) MGetattr c w n s2 = (Ok tt, s2, []))
        by (apply (Hck MGetattr s2 g2 wt2); auto; discriminate).
      unfold bind. rewrite H2. reflexivity.
    - exists e. split; [exact He|].
      unfold c_check1, c_check, bind at 1.
      rewrite (pget_ok _ _ _ _ Hp). unfold bind at 1, get. cbn [fst snd].
      assert (H1 : i_check (interp_n E (S (S f))) (slot_mode s c MGetattr) c w n s
                   = (Ok tt, s, [])).
      { apply (Hck (slot_mode s c MGetattr) s g wt); auto.
        destruct Hc as (i & k & -> & Hk & Hkind & _). unfold slot_mode. rewrite Hk, Hkind.
        discriminate. }
      rewrite H1. rewrite (pget_ok _ _ _ _ Hp). cbn [fst snd].
      unfold bind. rewrite (Hraw _ eq_refl). reflexivity. }
  destruct HP as (e' & He' & HP). apply (hasattr_exc _ _ _ _ _ _ _ _ HP). exact He'.
Qed.

(** Under a simple policy, [hasattr] answers False for a name that needs a permission
    only if the permission is granted. *)
Lemma lookup_false_granted E f p n w c g wt s q i x s' tr :
  guard_of (e_impl E) (OGetattr (VProxy p) n None) = Some (p, n, Read) ->
  st_prox s p = Some (w, c) ->
  PlainChecker s c g wt -> no_none (table_of g) -> no_none (table_of wt) ->
  plain_object w -> table_of g n = Some q ->
  tl_inter (st_tls s (e_tid E)) = Some (VIact i) -> st_inters s i = Some x ->
  client_hasattr E (S (S (S f))) (VProxy p) n s = (Ok false, s', tr) ->
  simple_grants s x q.
Proof.
  intros Hg Hp Hc Hng Hnw Hw Ht Htl Hi H.
  assert (Hdec : simple_grants s x q \/ ~ simple_grants s x q).
  { unfold simple_grants. destruct (in_permissive x); [auto|].
    destruct (perm_eqb_spec q PPublic); [auto|].
    assert (Hall : (forall z, In z (in_parts x) -> pt_principal (st_parts s z) = SystemUser) \/
                   ~ (forall z, In z (in_parts x) ->
                        pt_principal (st_parts s z) = SystemUser)).
    { induction (in_parts x) as [|y l IH].
      - left. intros z [].
      - destruct (pt_principal (st_parts s y)) as [|u] eqn:Hy.
        + destruct IH as [IH|IH].
          * left. intros z [<-|Hz]; auto.
          * right. intros Hx. apply IH. intros z Hz. apply Hx. right; auto.
        + right. intros Hx. specialize (Hx y (or_introl eq_refl)). congruence. }
    destruct Hall as [Hall|Hall]; [auto|]. right.
    intros [Hx|[Hx|Hx]]; [discriminate|congruence|contradiction]. }
  destruct Hdec as [Hy|Hno]; [exact Hy|exfalso].
  destruct (lookup_unauthorised E f p n w c g wt s q i x VNone Hg Hp Hc Hng Hnw Hw Ht Htl Hi
              Hno) as [H1 _].
  rewrite H in H1. discriminate.
Qed.
