(** * CheckProps: proofs of the statements in Properties_Check. *)

From Coq Require Import List String Bool Arith ZArith Lia.
From Verif Require Import Base Domain CheckerModel ProxyModel MFacts Spec Witness
  CheckFacts CombineFacts.
Import ListNotations.
Open Scope string_scope.

Lemma granted_iff_lemma E f m c g w obj n s r s' tr :
  PlainChecker s c g w -> m <> MSetattr -> no_none (table_of g) ->
  (n = "__iter__" -> plain_object obj) ->
  do_check E (S (S f)) m c obj n s = (r, s', tr) ->
  (r = Ok tt <->
   table_of g n = Some PPublic \/
   (exists p iv, table_of g n = Some p /\ p <> PPublic /\
      tl_inter (st_tls s (e_tid E)) = Some iv /\
      asks tr = [EAsk (e_tid E) iv p obj (Some true)]) \/
   (table_of g n = None /\ always_available n) \/
   (table_of g n = None /\ n = "__iter__" /\
      exists e s1, e_run E (e_tid E) (CallOp (OGetattr obj n None)) s = (Exc e, s1) /\
                   (e_cimpl E = ImplC \/ attribute_error e))).
Proof.
  intros Hp Hm Hnn Hobj H. pose proof (check_exact_lemma _ _ _ _ _ _ _ _ _ _ _ _ Hp Hm Hnn Hobj H) as HR.
  split.
  - intros ->. inversion HR; subst; eauto 10.
    right. left.
    match goal with HA : Asked _ _ _ _ _ _ _ |- _ => apply Asked_asks in HA;
      destruct HA as [[Ha [x ->]]|(iv & a & Ha & Hb & Hc)] end.
    + discriminate.
    + exists p, iv. destruct a as [[]|]; subst; simpl in *; try discriminate; auto.
      destruct Hc as [e ->]. discriminate.
  - intros [Hq|[(p & iv & Ha & Hb & Hc & Hd)|[[Ha Hb]|(Ha & Hb & e & s1 & Hc & Hd)]]].
    + eapply ReadCheck_public; eauto.
    + apply ReadCheck_asks in HR. destruct HR as [HR|(iv' & p' & a & H1 & _ & _ & _ & H5)].
      * congruence.
      * rewrite Hd in H1. injection H1 as <- <- <-. exact H5.
    + eapply ReadCheck_available; eauto.
    + destruct HR; try congruence.
      destruct Hd as [Hd|Hd]; congruence.
Qed.

Lemma simple_policy_lemma E f m c g w obj n s r s' tr i x :
  PlainChecker s c g w -> m <> MSetattr -> no_none (table_of g) -> n <> "__iter__" ->
  tl_inter (st_tls s (e_tid E)) = Some (VIact i) -> st_inters s i = Some x ->
  do_check E (S (S f)) m c obj n s = (r, s', tr) ->
  s' = s /\
  (r = Ok tt <-> match table_of g n with
                 | Some p => simple_grants s x p
                 | None => always_available n
                 end) /\
  (r <> Ok tt -> match table_of g n with
                 | Some p => r = Exc (EUnauthorized obj n p)
                 | None => r = Exc (EForbidden n obj)
                 end).
Proof.
  intros Hp Hm Hnn Hni Htl Hi H.
  assert (HR : ReadCheck E s (table_of g) obj n r s' tr)
    by (eapply check_exact_lemma; eauto; congruence).
  pose proof (ReadCheck_simple_exact _ _ _ _ _ _ _ _ _ _ Htl Hi Hni HR) as [-> HS].
  unfold simple_member_grants in HS. split; auto.
  destruct HS as [[-> Hg]|[-> Hg]].
  - split; [tauto|congruence].
  - split.
    + split; [discriminate|contradiction].
    + intros _. destruct (table_of g n); reflexivity.
Qed.

Lemma example_plain_10 :
  PlainChecker (w_state_in false) (VChk 10)
    [("foo", PPublic); ("bar", p_view)] [("bar", p_edit)] /\
  no_none (table_of [("foo", PPublic); ("bar", p_view)]).
Proof.
  split.
  - exists 10, (mkChecker 20 21 CkPlain). repeat split.
  - apply no_none_list. reflexivity.
Qed.

Lemma default_deny_lemma E f c g w obj n s r s' tr :
  PlainChecker s c g w -> no_none (table_of w) -> table_of w n = None ->
  do_check E (S f) MSetattr c obj n s = (r, s', tr) ->
  r = Exc (EForbidden n obj) /\ s' = s /\ tr = [].
Proof.
  intros Hp Hnn Hn H. eapply WriteCheck_absent; eauto.
  eapply check_setattr_exact_lemma; eauto.
Qed.

Lemma write_granted_iff_lemma E f c g w obj n s r s' tr :
  PlainChecker s c g w -> no_none (table_of w) ->
  do_check E (S f) MSetattr c obj n s = (r, s', tr) ->
  (r = Ok tt <->
   table_of w n = Some PPublic \/
   (exists p iv, table_of w n = Some p /\ p <> PPublic /\
      tl_inter (st_tls s (e_tid E)) = Some iv /\
      asks tr = [EAsk (e_tid E) iv p obj (Some true)])).
Proof.
  intros Hp Hnn H.
  pose proof (check_setattr_exact_lemma _ _ _ _ _ _ _ _ _ _ _ Hp Hnn H) as HR.
  split.
  - intros ->. inversion HR; subst; eauto.
    right.
    match goal with HA : Asked _ _ _ _ _ _ _ |- _ => apply Asked_asks in HA;
      destruct HA as [[Ha [x ->]]|(iv & a & Ha & Hb & Hc)] end.
    + discriminate.
    + exists p, iv. destruct a as [[]|]; subst; simpl in *; try discriminate; auto.
      destruct Hc as [e ->]. discriminate.
  - intros [Hq|(p & iv & Ha & Hb & Hc & Hd)].
    + eapply WriteCheck_public; eauto.
    + apply WriteCheck_asks in HR. destruct HR as [HR|(iv' & p' & a & H1 & _ & _ & _ & H5)].
      * congruence.
      * rewrite Hd in H1. injection H1 as <- <- <-. exact H5.
Qed.

Lemma fail_closed_read_lemma E f m c g w obj n s r s' tr p :
  PlainChecker s c g w -> m <> MSetattr -> no_none (table_of g) ->
  table_of g n = Some p -> p <> PPublic ->
  tl_inter (st_tls s (e_tid E)) = None ->
  do_check E (S (S f)) m c obj n s = (r, s', tr) ->
  r = Exc (EAttribute "interaction") /\ s' = s /\ tr = [].
Proof.
  intros (i & k & -> & Hi & Hk & Hg & Hw) Hm Hnn Hp Hnp Htl H.
  rewrite do_check_plain with (k := k) in H by auto.
  assert (Hp' : dget String.eqb (st_dicts s (ck_get k)) n = Some p) by (rewrite Hg; auto).
  assert (Hpn : p <> PNone) by (intros ->; apply (Hnn n); auto).
  unfold Checker_check in H. destruct (e_cimpl E).
  - unfold CheckerPy_check, get_or_none in H. msimpl. rewrite Hp' in H.
    destruct (perm_eqb_spec p PNone); [congruence|].
    destruct (perm_eqb_spec p PPublic); [congruence|]. simpl in H.
    unfold tl_checkPermission, bind, get in H. rewrite Htl in H. minj H. auto.
  - unfold CheckerC_check_int in H. msimpl. rewrite Hp' in H.
    destruct (perm_eqb_spec p PPublic); [congruence|].
    unfold CheckerC_checkPermission, tl_checkPermission, bind, get in H.
    rewrite Htl in H. minj H. auto.
Qed.

Lemma fail_closed_write_lemma E f c g w obj n s r s' tr p :
  PlainChecker s c g w -> no_none (table_of w) ->
  table_of w n = Some p -> p <> PPublic ->
  tl_inter (st_tls s (e_tid E)) = None ->
  do_check E (S f) MSetattr c obj n s = (r, s', tr) ->
  r = Exc (EAttribute "interaction") /\ s' = s /\ tr = [].
Proof.
  intros Hp Hnn Hn Hnp Htl H. eapply WriteCheck_no_interaction; eauto.
  eapply check_setattr_exact_lemma; eauto.
Qed.

Lemma public_unaffected_lemma E f m c g w obj n s r s' tr :
  PlainChecker s c g w -> m <> MSetattr -> no_none (table_of g) ->
  (table_of g n = Some PPublic \/ (table_of g n = None /\ always_available n)) ->
  do_check E (S (S f)) m c obj n s = (r, s', tr) ->
  r = Ok tt /\ s' = s /\ tr = [].
Proof.
  intros (i & k & -> & Hi & Hk & Hg & Hw) Hm Hnn Hp H.
  rewrite do_check_plain with (k := k) in H by auto.
  assert (Hd : dget String.eqb (st_dicts s (ck_get k)) n = table_of g n)
    by (rewrite Hg; reflexivity).
  unfold Checker_check in H. destruct (e_cimpl E).
  - unfold CheckerPy_check, get_or_none in H. msimpl. rewrite Hd in H.
    destruct Hp as [Hp|[Hp Ha]]; rewrite Hp in H.
    + minj H. auto.
    + apply available_iff in Ha. rewrite Ha in H. minj H. auto.
  - unfold CheckerC_check_int in H. msimpl. rewrite Hd in H.
    destruct Hp as [Hp|[Hp Ha]]; rewrite Hp in H.
    + minj H. auto.
    + rewrite (available_operator _ Ha) in H.
      apply available_iff in Ha. rewrite Ha in H. minj H. auto.
Qed.

Lemma policy_once_read_lemma E f m c g w obj n s r s' tr :
  PlainChecker s c g w -> m <> MSetattr -> no_none (table_of g) ->
  (n = "__iter__" -> plain_object obj) ->
  do_check E (S (S f)) m c obj n s = (r, s', tr) ->
  asks tr = [] \/
  exists iv p a, asks tr = [EAsk (e_tid E) iv p obj a] /\
    tl_inter (st_tls s (e_tid E)) = Some iv /\ table_of g n = Some p /\ p <> PPublic /\
    match a with
    | Some true => r = Ok tt
    | Some false => r = Exc (EUnauthorized obj n p)
    | None => exists e, r = Exc e
    end.
Proof. intros. eapply ReadCheck_asks. eapply check_exact_lemma; eauto. Qed.

Lemma policy_once_write_lemma E f c g w obj n s r s' tr :
  PlainChecker s c g w -> no_none (table_of w) ->
  do_check E (S f) MSetattr c obj n s = (r, s', tr) ->
  asks tr = [] \/
  exists iv p a, asks tr = [EAsk (e_tid E) iv p obj a] /\
    tl_inter (st_tls s (e_tid E)) = Some iv /\ table_of w n = Some p /\ p <> PPublic /\
    match a with
    | Some true => r = Ok tt
    | Some false => r = Exc (EUnauthorized obj n p)
    | None => exists e, r = Exc e
    end.
Proof. intros. eapply WriteCheck_asks. eapply check_setattr_exact_lemma; eauto. Qed.

Lemma verdict_lemma ck s tbs rs s' tr :
  Tries ck s tbs rs s' tr ->
  (verdict rs = Ok tt <-> In (Ok tt) rs) /\
  (forall n o, verdict rs = Exc (EForbidden n o) ->
     Forall (fun r => exists n' o', r = Exc (EForbidden n' o')) rs) /\
  (forall o n p, Forall is_denied rs -> In (Exc (EUnauthorized o n p)) rs ->
     exists o' n' p', verdict rs = Exc (EUnauthorized o' n' p') /\
                      last_unauthorized rs = Some (EUnauthorized o' n' p')).
Proof.
  intros H. split; [eapply verdict_ok; eauto|]. split.
  - intros n o. eapply verdict_forbidden; eauto.
  - intros o n p. apply verdict_unauthorized.
Qed.

Lemma chain_simple_lemma E f m c gs ws obj n s i x :
  e_watch E = 0 -> foreign_keeps_checkers E ->
  Chain s c gs ws -> m <> MSetattr -> Forall no_none gs -> n <> "__iter__" ->
  tl_inter (st_tls s (e_tid E)) = Some (VIact i) -> st_inters s i = Some x ->
  exists r tr,
    do_check E (List.length gs + S f) m c obj n s = (r, s, tr) /\
    (r = Ok tt <->
     exists tb, In tb gs /\ match tb n with
                            | Some p => simple_grants s x p
                            | None => always_available n
                            end) /\
    (r <> Ok tt -> is_denied r).
Proof.
  intros Hw HE Hc Hm Hnn Hni Htl Hi.
  destruct (chain_read E f m c gs ws obj n s Hw HE Hc Hm Hnn) as (rs & s' & tr & Hrun & Ht);
    [congruence|].
  pose proof (Tries_simple (read_ck E obj n) (simple_member_grants s x n) s) as HT.
  destruct (HT (fun tb r s0 t0 H => ReadCheck_simple _ _ _ _ _ _ _ _ _ _ Htl Hi Hni H)
               _ _ _ _ _ Ht eq_refl) as (-> & Hv & Hd).
  exists (verdict rs), tr. auto.
Qed.

Lemma example_chain_12 :
  Chain w_state (VChk 12) [table_of (w_dicts 20); table_of (w_dicts 22)]
        [table_of (w_dicts 21); table_of (w_dicts 23)].
Proof.
  apply (Chain_more w_state 12 (mkChecker 20 21 (CkCombined (VChk 11))) (VChk 11)
           [table_of (w_dicts 22)] [table_of (w_dicts 23)]); try reflexivity.
  constructor. exists 11, (mkChecker 22 23 CkPlain). repeat split.
Qed.

Lemma left_nested_refuted_lemma :
  exists E s c1 c2 c s1 obj n,
    CombinedChecker_new E c1 c2 s = (Ok c, s1, []) /\
    (exists s2 tr, do_check E 10 MCheck c1 obj n s1 = (Ok tt, s2, tr)) /\
    (exists s2 tr, do_check E 10 MCheck c obj n s1 = (Exc (EForbidden n obj), s2, tr)).
Proof.
  (* checker 12 is CombinedChecker(10, 11); 11 makes "baz" public; 15 is empty *)
  exists (wenv ImplPy), w_state, (VChk 12), (VChk 15).
  do 2 eexists. exists (VObj 5), "baz".
  split; [reflexivity|]. split; do 2 eexists; reflexivity.
Qed.

Lemma example_watching :
  WatchingVariant w_state (VChk 10) (VChk 13) 1 /\
  do_check (wenv_watch ImplPy 1) 5 MGetattr (VChk 13) (VObj 5) "qux" w_state =
  (Exc (EForbidden "qux" (VObj 5)), w_state,
   [ECall Probe 0 (CallOp (ORepr (VObj 5)));
    ELog "[CHK] - Forbidden getattr:" "qux" (VObj 5)]).
Proof.
  split; [|reflexivity].
  exists 10, 13, (mkChecker 20 21 CkPlain), (mkChecker 20 21 (CkWatching 1)).
  repeat split.
Qed.

Lemma permission_id_truth_lemma E f m i k obj n s p s1 t1 r s' tr :
  st_chks s i = Some k -> ck_kind k = CkPlain -> m <> MSetattr ->
  no_none (table_of (st_dicts s (ck_get k))) ->
  (n = "__iter__" -> plain_object obj) ->
  Checker_permission_id E k n s = (Ok p, s1, t1) ->
  do_check E (S (S f)) m (VChk i) obj n s1 = (r, s', tr) ->
  s1 = s /\ t1 = [] /\
  match p with
  | PPublic => r = Ok tt /\ s' = s /\ tr = []
  | PNone => r = Ok tt /\ always_available n \/ n = "__iter__" \/
             r = Exc (EForbidden n obj) /\ s' = s /\ tr = []
  | PId _ _ => exists a, Asked E s p obj a s' tr /\ r = by_answer a obj n p
  end.
Proof.
  intros Hi Hk Hm Hnn Hobj Hid H. rewrite permission_id_eq in Hid. minj Hid.
  split; auto. split; auto.
  assert (HR : ReadCheck E s1 (table_of (st_dicts s1 (ck_get k))) obj n r s' tr).
  { eapply check_exact_lemma; eauto. exists i, k. repeat split; auto. }
  destruct HR as [Hp | p r s' tr Hp Hnp Ha | Hp Hav | v s' Hp Hn | e s' Hp Hn
                | e s' Hp Hn | Hp Hav Hn]; rewrite Hp; auto.
  destruct p; [congruence | exfalso; apply (Hnn n); auto | eauto].
Qed.

Lemma setattr_permission_id_truth_lemma E f i k obj n s p s1 t1 r s' tr :
  st_chks s i = Some k -> ck_kind k = CkPlain ->
  no_none (table_of (st_dicts s (ck_set k))) ->
  Checker_setattr_permission_id E k n s = (Ok p, s1, t1) ->
  do_check E (S f) MSetattr (VChk i) obj n s1 = (r, s', tr) ->
  s1 = s /\ t1 = [] /\
  match p with
  | PPublic => r = Ok tt /\ s' = s /\ tr = []
  | PNone => r = Exc (EForbidden n obj) /\ s' = s /\ tr = []
  | PId _ _ => exists a, Asked E s p obj a s' tr /\ r = by_answer a obj n p
  end.
Proof.
  intros Hi Hk Hnn Hid H. rewrite setattr_permission_id_eq in Hid. minj Hid.
  split; auto. split; auto.
  assert (HR : WriteCheck E s1 (table_of (st_dicts s1 (ck_set k))) obj n r s' tr).
  { eapply check_setattr_exact_lemma; eauto. exists i, k. repeat split; auto. }
  destruct HR as [Hp | p r s' tr Hp Hnp Ha | Hp]; rewrite Hp; auto.
  destruct p; [congruence | exfalso; apply (Hnn n); auto | eauto].
Qed.

Lemma none_forbids_py_lemma E f m c g w obj n s r s' tr :
  e_cimpl E = ImplPy ->
  PlainChecker s c g w -> m <> MSetattr -> table_of g n = Some PNone ->
  ~ always_available n -> n <> "__iter__" ->
  do_check E (S (S f)) m c obj n s = (r, s', tr) ->
  r = Exc (EForbidden n obj) /\ s' = s /\ tr = [].
Proof.
  intros Himpl Hp Hm Hn Hav Hni H.
  eapply ReadCheck_absent with (tb := drop_none (table_of g)); eauto.
  - eapply py_none_read; eauto. congruence.
  - unfold drop_none. rewrite Hn. reflexivity.
Qed.

Lemma none_forbids_write_py_lemma E f c g w obj n s r s' tr :
  e_cimpl E = ImplPy ->
  PlainChecker s c g w -> table_of w n = Some PNone ->
  do_check E (S f) MSetattr c obj n s = (r, s', tr) ->
  r = Exc (EForbidden n obj) /\ s' = s /\ tr = [].
Proof.
  intros Himpl Hp Hn H.
  eapply WriteCheck_absent with (tb := drop_none (table_of w)); eauto.
  - eapply py_none_write; eauto.
  - unfold drop_none. rewrite Hn. reflexivity.
Qed.

Lemma none_forbids_c_refuted_lemma :
  exists E s c g w obj n,
    e_cimpl E = ImplC /\ PlainChecker s c g w /\
    table_of g n = Some PNone /\ table_of w n = Some PNone /\
    ~ always_available n /\ n <> "__iter__" /\
    (exists s' tr, do_check E 10 MCheck c obj n s = (Ok tt, s', tr)) /\
    (exists s' tr, do_check E 10 MSetattr c obj n s = (Ok tt, s', tr)).
Proof.
  exists (wenv ImplC), (w_state_in true), (VChk 14), [("nil", PNone)], [("nil", PNone)],
    (VObj 5), "nil".
  split; [reflexivity|]. split.
  { exists 14, (mkChecker 24 25 CkPlain). repeat split. }
  split; [reflexivity|]. split; [reflexivity|]. split.
  { rewrite <- available_iff. discriminate. }
  split; [discriminate|].
  split; do 2 eexists; reflexivity.
Qed.
