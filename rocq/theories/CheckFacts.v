(** * CheckFacts: proofs about single name-based checkers. *)

From Coq Require Import List String Bool Arith ZArith Lia.
From Verif Require Import Base Domain CheckerModel ProxyModel MFacts Spec.
Import ListNotations.
Open Scope string_scope.
Open Scope m_scope.

Lemma available_iff n : mem n available_by_default = true <-> always_available n.
Proof.
  rewrite mem_In. unfold available_by_default, always_available. simpl. tauto.
Qed.

Lemma available_false n : mem n available_by_default = false <-> ~ always_available n.
Proof. rewrite <- available_iff. destruct (mem n _); split; congruence. Qed.

Lemma iter_not_available : ~ always_available "__iter__".
Proof.
  unfold always_available. simpl.
  intros H. repeat (destruct H as [H|H]; [discriminate|]). exact H.
Qed.

Lemma available_operator n : always_available n -> is_operator n = true.
Proof.
  unfold always_available. simpl.
  intros H. repeat (destruct H as [H|H]; [subst; reflexivity|]). destruct H.
Qed.

Lemma attribute_error_iff e : is_attribute_error e = true <-> attribute_error e.
Proof. destruct e; simpl; split; auto; try discriminate; tauto. Qed.

(** ** Truth values *)

Lemma bool_raw E v s r s' tr :
  is_proxy v = false -> raw E Probe (OBool v) s = (r, s', tr) ->
  BoolOf E s v (match r with
                | Ok (VBool b) => Ok b
                | Ok _ => Exc (EType "__bool__")
                | Exc e => Exc e
                end) s' tr /\ (forall u, r = Ok u -> exists b, u = VBool b).
Proof.
  intros Hv H. unfold raw, foreign in H. mbind H.
  - destruct (e_run E (e_tid E) _ s) as [r0 s0] eqn:Hx. minj Hm.
    split; [exact (Bo_object E s v _ _ Hv Hx)|discriminate].
  - destruct (e_run E (e_tid E) _ s) as [r0 s0] eqn:Hx. minj Hm.
    pose proof (Bo_object E s v _ _ Hv Hx) as HB.
    simpl in Hf. destruct a as [| |b| | | | | | | | | | |]; unfold ret, raise in Hf; minj Hf;
      (split; [exact HB|intros u Hu; try discriminate; injection Hu as <-; eauto]).
Qed.

Lemma run_bool E f v s r s' tr :
  i_op (interp_n E f) Probe (OBool v) s = (r, s', tr) ->
  BoolOf E s v (match r with
                | Ok (VBool b) => Ok b
                | Ok _ => Exc (EType "__bool__")
                | Exc e => Exc e
                end) s' tr /\ (forall u, r = Ok u -> exists b, u = VBool b).
Proof.
  revert v s r s' tr. induction f as [|f IH]; intros v s r s' tr H.
  - simpl in H. minj H. split; [constructor|discriminate].
  - simpl in H.
    destruct v; try (apply bool_raw; [reflexivity|exact H]).
    assert (HP : (wc <- pget p ;; i_op (interp_n E f) Probe (OBool (fst wc))) s = (r, s', tr)).
    { destruct (e_impl E); exact H. }
    unfold pget in HP. rewrite bind_assoc, bind_get in HP.
    destruct (st_prox s p) as [[w c]|] eqn:Hp; msimpl.
    + apply IH in HP. destruct HP as [HP HQ]. split; [|exact HQ].
      eapply Bo_proxy; eauto.
    + unfold raise in HP. minj HP. split; [apply Bo_dangling; exact Hp|discriminate].
Qed.

Lemma truth_spec E f v s r s' tr :
  truth (interp_n E f) v s = (r, s', tr) -> TruthOf E s v r s' tr.
Proof.
  intros H.
  assert (Hobj : (r0 <- i_op (interp_n E f) Probe (OBool v) ;;
                  match r0 with
                  | VBool b => ret b
                  | _ => raise (EType "__bool__")
                  end) s = (r, s', tr) -> BoolOf E s v r s' tr).
  { clear H. intros H. mbind H.
    - apply run_bool in Hm. subst r. apply Hm.
    - apply run_bool in Hm. destruct Hm as [HB HU].
      destruct (HU _ eq_refl) as (b & ->). unfold ret in Hf. minj Hf.
      rewrite app_nil_r. exact HB. }
  unfold TruthOf.
  destruct v; simpl in H |- *;
    try (minj H; repeat split; reflexivity); apply (Hobj H).
Qed.

(** Evaluating truth asks no questions. *)
Lemma BoolOf_no_ask E s v r s' tr : BoolOf E s v r s' tr -> filter is_ask tr = [].
Proof. induction 1; auto. Qed.
Lemma TruthOf_no_ask E s v r s' tr : TruthOf E s v r s' tr -> filter is_ask tr = [].
Proof.
  unfold TruthOf. destruct (constant_truth v).
  - intros (_ & _ & ->). reflexivity.
  - apply BoolOf_no_ask.
Qed.

(** ** Questions to the interaction *)

Lemma simple_check_spec s x p :
  simple_checkPermission s x p = true <-> simple_grants s x p.
Proof.
  unfold simple_checkPermission, simple_grants.
  destruct (in_permissive x) eqn:Hp; [tauto|].
  destruct (perm_eqb_spec p PPublic) as [->|Hne]; [tauto|].
  set (fl := filter _ _). split.
  - intros H. right; right. intros q Hq.
    destruct (pt_principal (st_parts s q)) eqn:Hq2; [reflexivity|].
    assert (In q fl) as Hin.
    { unfold fl. apply filter_In. split; auto. rewrite Hq2. reflexivity. }
    destruct fl; [destruct Hin | discriminate].
  - intros [?|[?|H]]; try congruence.
    destruct fl as [|q l] eqn:Hfl; [reflexivity|].
    assert (In q fl) as Hin by (rewrite Hfl; left; reflexivity).
    unfold fl in Hin. apply filter_In in Hin. destruct Hin as [Hin Hq].
    rewrite (H q Hin) in Hq. discriminate.
Qed.

Lemma ask_foreign E f iv p obj s r s' tr :
  tl_inter (st_tls s (e_tid E)) = Some iv ->
  foreign_interaction iv ->
  (b <- catch (v <- foreign_quiet E (CallPerm iv p obj) ;; truth (interp_n E f) v)
              (fun e => emit (EAsk (e_tid E) iv p obj None) ;;; raise e) ;;
   emit (EAsk (e_tid E) iv p obj (Some b)) ;;; ret b) s = (r, s', tr) ->
  Asked E s p obj r s' tr.
Proof.
  intros Htl Hfor H. mbind H.
  - (* the handler re-raised *)
    subst r. mcatch Hm; [discriminate|].
    msimpl. unfold raise in Hf. minj Hf.
    mbind Hm0.
    + unfold foreign_quiet in Hm. destruct (e_run E _ _ s) as [r0 s0] eqn:Hrun.
      minj Hm. minj Hr.
      eapply Asked_foreign_raises; eauto.
    + unfold foreign_quiet in Hm. destruct (e_run E _ _ s) as [r0 s0] eqn:Hrun.
      minj Hm. simpl. apply truth_spec in Hf.
      exact (Asked_foreign _ _ _ _ _ _ _ _ _ _ Htl Hfor Hrun Hf).
  - msimpl. unfold ret in Hf. minj Hf.
    mcatch Hm.
    + minj Hr. mbind Hm0; [discriminate|].
      unfold foreign_quiet in Hm. destruct (e_run E _ _ s) as [r0 s0] eqn:Hrun.
      minj Hm. simpl. apply truth_spec in Hf.
      exact (Asked_foreign _ _ _ _ _ _ _ _ _ _ Htl Hfor Hrun Hf).
    + msimpl. discriminate.
Qed.

Lemma tl_check_spec E f p obj s r s' tr :
  tl_checkPermission E (interp_n E f) p obj s = (r, s', tr) ->
  Asked E s p obj r s' tr.
Proof.
  unfold tl_checkPermission. msimpl.
  destruct (tl_inter (st_tls s (e_tid E))) as [iv|] eqn:Htl.
  2: { intros H. unfold raise in H. minj H. constructor; auto. }
  intros H. unfold ask in H.
  destruct iv; msimpl;
    try (unfold raise in H; minj H; eapply Asked_bad_interaction; eauto; exact I);
    try (apply (ask_foreign E f) in H; [exact H | exact Htl | exact I]).
  destruct (st_inters s i) as [x|] eqn:Hi.
  - msimpl. unfold ret in H. minj H.
    apply Asked_simple with (x := x); auto. apply simple_check_spec.
  - unfold raise in H. minj H. eapply Asked_bad_interaction; eauto.
Qed.

Lemma checkPermission_outcome E f p obj n s r s' tr :
  (b <- tl_checkPermission E (interp_n E f) p obj ;;
   if (b : bool) then ret tt else raise (EUnauthorized obj n p)) s = (r, s', tr) ->
  exists r0, Asked E s p obj r0 s' tr /\ r = by_answer r0 obj n p.
Proof.
  intros H. mbind H.
  - apply tl_check_spec in Hm. exists (Exc e). subst r. auto.
  - apply tl_check_spec in Hm. exists (Ok a).
    destruct a; unfold ret, raise in Hf; minj Hf; rewrite app_nil_r; auto.
Qed.

(** ** The __iter__ probe *)

Lemma probe_getattr E f v n s :
  plain_object v -> (is_atom v = false \/ n <> "__Security_checker__") ->
  i_op (interp_n E (S f)) Probe (OGetattr v n None) s =
  foreign E Probe (CallOp (OGetattr v n None)) s.
Proof.
  intros Hp Hn. simpl.
  assert (Hraw : raw E Probe (OGetattr v n None) s =
                 foreign E Probe (CallOp (OGetattr v n None)) s).
  { unfold raw. unfold bind, coerce, ret.
    destruct (foreign E Probe (CallOp (OGetattr v n None)) s) as [[[a|e] s1] t1];
      [rewrite app_nil_r|]; reflexivity. }
  destruct (String.eqb_spec n "__Security_checker__");
    destruct v; simpl; try exact Hraw; try destruct Hp;
    destruct Hn; simpl in *; try congruence.
Qed.

Lemma hasattr_py_eq E f obj n s :
  plain_object obj -> n <> "__Security_checker__" ->
  hasattr_py (interp_n E (S f)) obj n s =
  match e_run E (e_tid E) (CallOp (OGetattr obj n None)) s with
  | (Ok _, s') => (Ok true, s', [ECall Probe (e_tid E) (CallOp (OGetattr obj n None))])
  | (Exc e, s') => (if is_attribute_error e then Ok false else Exc e, s',
                    [ECall Probe (e_tid E) (CallOp (OGetattr obj n None))])
  end.
Proof.
  intros Hp Hn. unfold hasattr_py, catch, bind.
  rewrite probe_getattr by auto. unfold foreign.
  destruct (e_run E (e_tid E) _ s) as [[v|e] s1]; simpl; auto.
  destruct (is_attribute_error e); reflexivity.
Qed.

Lemma hasattr_c_eq E f obj n s :
  plain_object obj -> n <> "__Security_checker__" ->
  hasattr_c (interp_n E (S f)) obj n s =
  match e_run E (e_tid E) (CallOp (OGetattr obj n None)) s with
  | (Ok _, s') => (Ok true, s', [ECall Probe (e_tid E) (CallOp (OGetattr obj n None))])
  | (Exc e, s') => (Ok false, s',
                    [ECall Probe (e_tid E) (CallOp (OGetattr obj n None))])
  end.
Proof.
  intros Hp Hn. unfold hasattr_c, catch, bind.
  rewrite probe_getattr by auto. unfold foreign.
  destruct (e_run E (e_tid E) _ s) as [[v|e] s1]; simpl; auto.
Qed.

(** ** check / check_getattr *)

Lemma CheckerPy_check_spec E f k obj n s r s' tr :
  e_cimpl E = ImplPy ->
  (n = "__iter__" -> plain_object obj) ->
  CheckerPy_check E (interp_n E (S f)) k obj n s = (r, s', tr) ->
  ReadCheck E s (drop_none (table_of (st_dicts s (ck_get k)))) obj n r s' tr.
Proof.
  intros Himpl Hobj H. unfold CheckerPy_check in H. msimpl.
  unfold get_or_none in H. fold (table_of (st_dicts s (ck_get k)) n) in H.
  set (tb := table_of (st_dicts s (ck_get k))) in *.
  assert (Hnone : drop_none tb n = None ->
                  match tb n with Some p => p | None => PNone end = PNone).
  { unfold drop_none. destruct (tb n) as [[| |]|]; congruence. }
  destruct (perm_eqb_spec (match tb n with Some p => p | None => PNone end) PNone)
    as [Hp|Hp]; cbn [negb] in H.
  - assert (Hd : drop_none tb n = None).
    { unfold drop_none. destruct (tb n) as [[| |]|]; congruence. }
    destruct (mem n available_by_default) eqn:Hav.
    + unfold ret in H. minj H. apply RC_available; auto. apply available_iff; auto.
    + apply available_false in Hav.
      destruct (String.eqb_spec n "__iter__") as [->|Hni]; cbn [negb] in H.
      * unfold bind in H. rewrite hasattr_py_eq in H by (auto; discriminate).
        destruct (e_run E (e_tid E) (CallOp (OGetattr obj "__iter__" None)) s)
          as [[v|e] s1] eqn:Hrun.
        -- simpl in H. minj H. eapply RC_iter_present; eauto.
        -- destruct (is_attribute_error e) eqn:Hae; simpl in H; minj H.
           ++ eapply RC_iter_missing; eauto. right. apply attribute_error_iff; auto.
           ++ eapply RC_iter_raises; eauto.
              intros Hx. apply attribute_error_iff in Hx. congruence.
      * msimpl. unfold raise in H. minj H. apply RC_forbidden; auto.
  - destruct (perm_eqb_spec (match tb n with Some p => p | None => PNone end) PPublic)
      as [Hq|Hq].
    + unfold ret in H. minj H. apply RC_public.
      unfold drop_none. destruct (tb n) as [[| |]|]; congruence.
    + apply checkPermission_outcome in H. destruct H as (r0 & Ha & ->).
      apply RC_permission; auto.
      unfold drop_none. destruct (tb n) as [[| |]|]; congruence.
Qed.

Lemma CheckerC_check_spec E f k obj n s r s' tr :
  e_cimpl E = ImplC ->
  (n = "__iter__" -> plain_object obj) ->
  CheckerC_check_int E (interp_n E (S f)) k obj n s = (r, s', tr) ->
  ReadCheck E s (table_of (st_dicts s (ck_get k))) obj n r s' tr.
Proof.
  intros Himpl Hobj H. unfold CheckerC_check_int in H. msimpl.
  fold (table_of (st_dicts s (ck_get k)) n) in H.
  set (tb := table_of (st_dicts s (ck_get k))) in *.
  destruct (tb n) as [p|] eqn:Htb.
  - destruct (perm_eqb_spec p PPublic) as [->|Hq].
    + unfold ret in H. minj H. apply RC_public; auto.
    + apply checkPermission_outcome in H. destruct H as (r0 & Ha & ->).
      apply RC_permission; auto.
  - destruct (is_operator n) eqn:Hop.
    + destruct (mem n available_by_default) eqn:Hav.
      * unfold ret in H. minj H. apply RC_available; auto. apply available_iff; auto.
      * apply available_false in Hav.
        destruct (String.eqb_spec n "__iter__") as [->|Hni].
        -- unfold bind in H. rewrite hasattr_c_eq in H by (auto; discriminate).
           destruct (e_run E (e_tid E) (CallOp (OGetattr obj "__iter__" None)) s)
             as [[v|e] s1] eqn:Hrun; simpl in H; minj H.
           ++ eapply RC_iter_present; eauto.
           ++ eapply RC_iter_missing; eauto.
        -- unfold raise in H. minj H. apply RC_forbidden; auto.
    + unfold raise in H. minj H. apply RC_forbidden; auto.
      * intros Hav. apply available_operator in Hav. congruence.
      * intros ->. discriminate Hop.
Qed.

Lemma drop_none_id tb n : no_none tb -> drop_none tb n = tb n.
Proof.
  intros H. unfold drop_none. specialize (H n). destruct (tb n) as [[| |]|]; congruence.
Qed.

Lemma ReadCheck_ext E s tb tb' obj n r s' tr :
  tb n = tb' n -> ReadCheck E s tb obj n r s' tr -> ReadCheck E s tb' obj n r s' tr.
Proof.
  intros Heq H. destruct H; rewrite Heq in *;
    [ apply RC_public | apply RC_permission | apply RC_available
    | eapply RC_iter_present | eapply RC_iter_missing | eapply RC_iter_raises
    | apply RC_forbidden ]; eauto.
Qed.

Lemma do_check_plain E f m i k obj n s :
  st_chks s i = Some k -> ck_kind k = CkPlain -> m <> MSetattr ->
  do_check E (S f) m (VChk i) obj n s = Checker_check E (interp_n E f) k obj n s.
Proof.
  intros Hi Hk Hm. unfold do_check. simpl. msimpl. rewrite Hi, Hk.
  destruct m; congruence.
Qed.

Theorem check_exact_lemma E f m c g w obj n s r s' tr :
  PlainChecker s c g w -> m <> MSetattr -> no_none (table_of g) ->
  (n = "__iter__" -> plain_object obj) ->
  do_check E (S (S f)) m c obj n s = (r, s', tr) ->
  ReadCheck E s (table_of g) obj n r s' tr.
Proof.
  intros (i & k & -> & Hi & Hk & Hg & Hw) Hm Hnn Hobj H.
  rewrite do_check_plain with (k := k) in H by auto.
  unfold Checker_check in H. destruct (e_cimpl E) eqn:Himpl.
  - apply CheckerPy_check_spec in H; auto. rewrite Hg in H.
    eapply ReadCheck_ext; [|exact H]. apply drop_none_id; auto.
  - apply CheckerC_check_spec in H; auto. rewrite Hg in H. exact H.
Qed.

(** ** check_setattr *)

Lemma CheckerPy_check_setattr_spec E f k obj n s r s' tr :
  CheckerPy_check_setattr E (interp_n E f) k obj n s = (r, s', tr) ->
  WriteCheck E s (drop_none (table_of (st_dicts s (ck_set k)))) obj n r s' tr.
Proof.
  intros H. unfold CheckerPy_check_setattr in H. msimpl.
  assert (Heq : match st_dicts s (ck_set k) with
                | [] => PNone
                | (_ :: _) as d => get_or_none d n
                end = get_or_none (st_dicts s (ck_set k)) n).
  { destruct (st_dicts s (ck_set k)); reflexivity. }
  rewrite Heq in H. clear Heq. unfold get_or_none in H.
  fold (table_of (st_dicts s (ck_set k)) n) in H.
  set (tb := table_of (st_dicts s (ck_set k))) in *.
  destruct (perm_eqb_spec (match tb n with Some p => p | None => PNone end) PNone)
    as [Hp|Hp]; cbn [negb] in H.
  - unfold raise in H. minj H. apply WC_forbidden.
    unfold drop_none. destruct (tb n) as [[| |]|]; congruence.
  - destruct (perm_eqb_spec (match tb n with Some p => p | None => PNone end) PPublic)
      as [Hq|Hq].
    + unfold ret in H. minj H. apply WC_public.
      unfold drop_none. destruct (tb n) as [[| |]|]; congruence.
    + apply checkPermission_outcome in H. destruct H as (r0 & Ha & ->).
      apply WC_permission; auto.
      unfold drop_none. destruct (tb n) as [[| |]|]; congruence.
Qed.

Lemma CheckerC_check_setattr_spec E f k obj n s r s' tr :
  CheckerC_check_setattr E (interp_n E f) k obj n s = (r, s', tr) ->
  WriteCheck E s (table_of (st_dicts s (ck_set k))) obj n r s' tr.
Proof.
  intros H. unfold CheckerC_check_setattr in H. msimpl.
  fold (table_of (st_dicts s (ck_set k)) n) in H.
  set (tb := table_of (st_dicts s (ck_set k))) in *.
  destruct (tb n) as [p|] eqn:Htb.
  - destruct (perm_eqb_spec p PPublic) as [->|Hq]; cbn [negb] in H.
    + unfold ret in H. minj H. apply WC_public; auto.
    + apply checkPermission_outcome in H. destruct H as (r0 & Ha & ->).
      apply WC_permission; auto.
  - unfold raise in H. minj H. apply WC_forbidden; auto.
Qed.

Lemma WriteCheck_ext E s tb tb' obj n r s' tr :
  tb n = tb' n -> WriteCheck E s tb obj n r s' tr -> WriteCheck E s tb' obj n r s' tr.
Proof.
  intros Heq H. destruct H; rewrite Heq in *;
    [ apply WC_public | apply WC_permission | apply WC_forbidden ]; eauto.
Qed.

Lemma do_check_plain_set E f i k obj n s :
  st_chks s i = Some k -> ck_kind k = CkPlain ->
  do_check E (S f) MSetattr (VChk i) obj n s =
  Checker_check_setattr E (interp_n E f) k obj n s.
Proof. intros Hi Hk. unfold do_check. simpl. msimpl. rewrite Hi, Hk. reflexivity. Qed.

Theorem check_setattr_exact_lemma E f c g w obj n s r s' tr :
  PlainChecker s c g w -> no_none (table_of w) ->
  do_check E (S f) MSetattr c obj n s = (r, s', tr) ->
  WriteCheck E s (table_of w) obj n r s' tr.
Proof.
  intros (i & k & -> & Hi & Hk & Hg & Hw) Hnn H.
  rewrite do_check_plain_set with (k := k) in H by auto.
  unfold Checker_check_setattr in H. destruct (e_cimpl E) eqn:Himpl.
  - apply CheckerPy_check_setattr_spec in H; auto. rewrite Hw in H.
    eapply WriteCheck_ext; [|exact H]. apply drop_none_id; auto.
  - apply CheckerC_check_setattr_spec in H; auto. rewrite Hw in H. exact H.
Qed.

(** ** Consequences for traces *)

Lemma asks_app t1 t2 : asks (t1 ++ t2) = (asks t1 ++ asks t2)%list.
Proof. apply filter_app. Qed.
Lemma logs_app t1 t2 : logs (t1 ++ t2) = (logs t1 ++ logs t2)%list.
Proof. apply filter_app. Qed.
Lemma client_calls_app t1 t2 :
  client_calls (t1 ++ t2) = (client_calls t1 ++ client_calls t2)%list.
Proof. apply filter_app. Qed.

(** What a question leaves in the trace. *)
Lemma Asked_asks E s p obj r s' tr :
  Asked E s p obj r s' tr ->
  (asks tr = [] /\ exists n, r = Exc (EAttribute n)) \/
  exists iv a, tl_inter (st_tls s (e_tid E)) = Some iv /\
               asks tr = [EAsk (e_tid E) iv p obj a] /\
               match a with Some b => r = Ok b | None => exists e, r = Exc e end.
Proof.
  intros H. destruct H as [Htl | iv Htl Hbad | i x b Htl Hi Hb
    | iv v s1 r s' tr0 Htl Hf Hr Ht | iv e s' Htl Hf Hr].
  - left. simpl. eauto.
  - left. simpl. eauto.
  - right. exists (VIact i), (Some b). auto.
  - right. exists iv, (match r with Ok b => Some b | Exc _ => None end).
    rewrite asks_app. unfold asks at 1. rewrite (TruthOf_no_ask _ _ _ _ _ _ Ht).
    split; [auto|]. split; [auto|]. destruct r; eauto.
  - right. exists iv, None. eauto.
Qed.

Lemma Asked_not_none E s p obj s' tr b :
  Asked E s p obj (Ok b) s' tr -> tl_inter (st_tls s (e_tid E)) <> None.
Proof. intros H; inversion H; subst; congruence. Qed.

Lemma ReadCheck_asks E s tb obj n r s' tr :
  ReadCheck E s tb obj n r s' tr ->
  asks tr = [] \/
  exists iv p a, asks tr = [EAsk (e_tid E) iv p obj a] /\
     tl_inter (st_tls s (e_tid E)) = Some iv /\ tb n = Some p /\ p <> PPublic /\
     match a with
     | Some true => r = Ok tt
     | Some false => r = Exc (EUnauthorized obj n p)
     | None => exists e, r = Exc e
     end.
Proof.
  intros H; destruct H; simpl; auto.
  apply Asked_asks in H1. destruct H1 as [[H1 _]|(iv & a & H1 & H2 & H3)]; auto.
  right. exists iv, p, a. repeat split; auto.
  destruct a as [[]|]; subst; simpl; auto. destruct H3 as [e ->]. simpl. eauto.
Qed.

Lemma WriteCheck_asks E s tb obj n r s' tr :
  WriteCheck E s tb obj n r s' tr ->
  asks tr = [] \/
  exists iv p a, asks tr = [EAsk (e_tid E) iv p obj a] /\
     tl_inter (st_tls s (e_tid E)) = Some iv /\ tb n = Some p /\ p <> PPublic /\
     match a with
     | Some true => r = Ok tt
     | Some false => r = Exc (EUnauthorized obj n p)
     | None => exists e, r = Exc e
     end.
Proof.
  intros H; destruct H; simpl; auto.
  apply Asked_asks in H1. destruct H1 as [[H1 _]|(iv & a & H1 & H2 & H3)]; auto.
  right. exists iv, p, a. repeat split; auto.
  destruct a as [[]|]; subst; simpl; auto. destruct H3 as [e ->]. simpl. eauto.
Qed.

(** Without an interaction nothing that needs a permission is granted. *)
Lemma ReadCheck_no_interaction E s tb obj n r s' tr p :
  ReadCheck E s tb obj n r s' tr ->
  tl_inter (st_tls s (e_tid E)) = None ->
  tb n = Some p -> p <> PPublic ->
  r = Exc (EAttribute "interaction") /\ s' = s /\ tr = [].
Proof.
  intros H Hno Hp Hnp. destruct H; try congruence.
  assert (p0 = p) by congruence. subst p0.
  inversion H1; subst; try congruence. auto.
Qed.

Lemma WriteCheck_no_interaction E s tb obj n r s' tr p :
  WriteCheck E s tb obj n r s' tr ->
  tl_inter (st_tls s (e_tid E)) = None ->
  tb n = Some p -> p <> PPublic ->
  r = Exc (EAttribute "interaction") /\ s' = s /\ tr = [].
Proof.
  intros H Hno Hp Hnp. destruct H; try congruence.
  assert (p0 = p) by congruence. subst p0.
  inversion H1; subst; try congruence. auto.
Qed.

Lemma ReadCheck_public E s tb obj n r s' tr :
  ReadCheck E s tb obj n r s' tr -> tb n = Some PPublic ->
  r = Ok tt /\ s' = s /\ tr = [].
Proof. intros H Hp. destruct H; try congruence; auto. Qed.

Lemma ReadCheck_available E s tb obj n r s' tr :
  ReadCheck E s tb obj n r s' tr -> tb n = None -> always_available n ->
  r = Ok tt /\ s' = s /\ tr = [].
Proof.
  intros H Hp Ha. destruct H; try congruence; auto; try contradiction.
  all: subst n; apply iter_not_available in Ha; contradiction.
Qed.

Lemma WriteCheck_public E s tb obj n r s' tr :
  WriteCheck E s tb obj n r s' tr -> tb n = Some PPublic ->
  r = Ok tt /\ s' = s /\ tr = [].
Proof. intros H Hp. destruct H; try congruence; auto. Qed.

Lemma WriteCheck_absent E s tb obj n r s' tr :
  WriteCheck E s tb obj n r s' tr -> tb n = None ->
  r = Exc (EForbidden n obj) /\ s' = s /\ tr = [].
Proof. intros H Hp. destruct H; try congruence; auto. Qed.

Lemma ReadCheck_absent E s tb obj n r s' tr :
  ReadCheck E s tb obj n r s' tr -> tb n = None -> ~ always_available n ->
  n <> "__iter__" ->
  r = Exc (EForbidden n obj) /\ s' = s /\ tr = [].
Proof. intros H Hp. destruct H; try congruence; try contradiction; auto. Qed.

(** ** permission_id *)

Lemma permission_id_eq E k n s :
  Checker_permission_id E k n s =
  (Ok (match table_of (st_dicts s (ck_get k)) n with Some p => p | None => PNone end), s, []).
Proof.
  unfold Checker_permission_id, CheckerPy_permission_id, CheckerC_permission_id.
  destruct (e_cimpl E); rewrite bind_get; unfold get_or_none, table_of; auto.
  destruct (dget String.eqb (st_dicts s (ck_get k)) n); reflexivity.
Qed.

Lemma setattr_permission_id_eq E k n s :
  Checker_setattr_permission_id E k n s =
  (Ok (match table_of (st_dicts s (ck_set k)) n with Some p => p | None => PNone end), s, []).
Proof.
  unfold Checker_setattr_permission_id, CheckerPy_setattr_permission_id,
    CheckerC_setattr_permission_id.
  destruct (e_cimpl E); rewrite bind_get; unfold get_or_none, table_of; auto.
  - destruct (st_dicts s (ck_set k)); reflexivity.
  - destruct (dget String.eqb (st_dicts s (ck_set k)) n); reflexivity.
Qed.

(** ** None entries (Python build) *)

Lemma py_none_read E f m c g w obj n s r s' tr :
  e_cimpl E = ImplPy ->
  PlainChecker s c g w -> m <> MSetattr ->
  (n = "__iter__" -> plain_object obj) ->
  do_check E (S (S f)) m c obj n s = (r, s', tr) ->
  ReadCheck E s (drop_none (table_of g)) obj n r s' tr.
Proof.
  intros Himpl (i & k & -> & Hi & Hk & Hg & Hw) Hm Hobj H.
  rewrite do_check_plain with (k := k) in H by auto.
  unfold Checker_check in H. rewrite Himpl in H.
  apply CheckerPy_check_spec in H; auto. rewrite Hg in H. exact H.
Qed.

Lemma py_none_write E f c g w obj n s r s' tr :
  e_cimpl E = ImplPy ->
  PlainChecker s c g w ->
  do_check E (S f) MSetattr c obj n s = (r, s', tr) ->
  WriteCheck E s (drop_none (table_of w)) obj n r s' tr.
Proof.
  intros Himpl (i & k & -> & Hi & Hk & Hg & Hw) H.
  rewrite do_check_plain_set with (k := k) in H by auto.
  unfold Checker_check_setattr in H. rewrite Himpl in H.
  apply CheckerPy_check_setattr_spec in H; auto. rewrite Hw in H. exact H.
Qed.

Lemma no_none_list d :
  forallb (fun kv => negb (perm_eqb (snd kv) PNone)) d = true -> no_none (table_of d).
Proof.
  intros H n. unfold table_of. induction d as [|[k p] d IH]; cbn in *; [discriminate|].
  apply andb_true_iff in H. destruct H as [H1 H2].
  destruct (String.eqb k n); [|apply IH; auto].
  destruct (perm_eqb_spec p PNone); [discriminate|congruence].
Qed.

(** ** The outcome of a check is determined *)

Lemma BoolOf_one E s v r1 s1 t1 r2 s2 t2 :
  BoolOf E s v r1 s1 t1 -> BoolOf E s v r2 s2 t2 ->
  r1 <> Exc EFuel -> r2 <> Exc EFuel -> r1 = r2 /\ s1 = s2 /\ t1 = t2.
Proof.
  intros H. revert r2 s2 t2.
  induction H as [v r s' Hv Hr|p w c r s' tr Hp _ IH|p Hp|v]; intros r2 s2 t2 H2 N1 N2.
  - inversion H2 as [v' r' s3 Hv' Hr'|p' w' c' r' s3 tr' Hp' Hb'|p' Hp'|v']; subst;
      try discriminate; try congruence.
    rewrite Hr in Hr'. injection Hr' as <- <-. auto.
  - inversion H2 as [v' r' s3 Hv' Hr'|p' w' c' r' s3 tr' Hp' Hb'|p' Hp'|v']; subst;
      try discriminate; try congruence.
    rewrite Hp in Hp'. injection Hp' as <- <-. auto.
  - inversion H2 as [v' r' s3 Hv' Hr'|p' w' c' r' s3 tr' Hp' Hb'|p' Hp'|v']; subst;
      try discriminate; try congruence. auto.
  - congruence.
Qed.

Lemma TruthOf_one E s v r1 s1 t1 r2 s2 t2 :
  TruthOf E s v r1 s1 t1 -> TruthOf E s v r2 s2 t2 ->
  r1 <> Exc EFuel -> r2 <> Exc EFuel -> r1 = r2 /\ s1 = s2 /\ t1 = t2.
Proof.
  unfold TruthOf. destruct (constant_truth v).
  - intros (-> & -> & ->) (-> & -> & ->). auto.
  - apply BoolOf_one.
Qed.

Lemma Asked_one E s p obj r1 s1 t1 r2 s2 t2 :
  Asked E s p obj r1 s1 t1 -> Asked E s p obj r2 s2 t2 ->
  r1 <> Exc EFuel -> r2 <> Exc EFuel -> r1 = r2 /\ s1 = s2 /\ t1 = t2.
Proof.
  intros H1 H2 N1 N2.
  destruct H1 as [Htl|iv Htl Hbad|i x b Htl Hi Hb|iv v sa r sb tr0 Htl Hf Hr Ht
                 |iv e sb Htl Hf Hr];
    inversion H2 as [Htl'|iv' Htl' Hbad'|i' x' b' Htl' Hi' Hb'|iv' v' sa' r' sb' tr0' Htl' Hf' Hr' Ht'
                 |iv' e' sb' Htl' Hf' Hr']; subst; rewrite Htl in Htl'; try discriminate;
    try (injection Htl' as Hiv; subst); auto; simpl in *; try contradiction; try congruence.
  all: try (exfalso; destruct iv'; simpl in *; contradiction).
  - assert (x' = x) by congruence. subst x'.
    destruct b, b'; auto; exfalso; intuition discriminate.
  - rewrite Hr in Hr'. injection Hr' as <- <-.
    destruct (TruthOf_one _ _ _ _ _ _ _ _ _ Ht Ht' N1 N2) as (-> & -> & ->). auto.
  - rewrite Hr in Hr'. injection Hr' as <- <-. auto.
Qed.

Lemma by_answer_fuel r obj n p : by_answer r obj n p <> Exc EFuel -> r <> Exc EFuel.
Proof. intros H ->. apply H. reflexivity. Qed.

Lemma ReadCheck_one E s tb obj n r1 s1 t1 r2 s2 t2 :
  ReadCheck E s tb obj n r1 s1 t1 -> ReadCheck E s tb obj n r2 s2 t2 ->
  r1 <> Exc EFuel -> r2 <> Exc EFuel -> r1 = r2 /\ s1 = s2 /\ t1 = t2.
Proof.
  intros H1 H2 N1 N2. assert (Hia := iter_not_available).
  destruct H1 as [Hp|p r s' tr Hp Hq Ha|Hp Hav|v s' Hp Hn Hr|e s' Hp Hn Hr He|e s' Hp Hn Hr He He'
                 |Hp Hav Hn];
    inversion H2 as [Hp'|p' r' s3 tr' Hp' Hq' Ha'|Hp' Hav'|v' s3 Hp' Hn' Hr'|e' s3 Hp' Hn' Hr' Hx
                 |e' s3 Hp' Hn' Hr' Hx Hx'|Hp' Hav' Hn'];
    subst; try congruence; try contradiction; auto.
  - assert (p' = p) by congruence. subst p'.
    destruct (Asked_one _ _ _ _ _ _ _ _ _ _ Ha Ha' (by_answer_fuel _ _ _ _ N1)
                (by_answer_fuel _ _ _ _ N2)) as (-> & -> & ->). auto.
  - rewrite Hr in Hr'. injection Hr' as <- <-. auto.
  - rewrite Hr in Hr'. injection Hr' as <- <-. auto.
  - exfalso. rewrite Hr in Hr'. injection Hr' as <- <-. destruct He; [congruence|contradiction].
  - exfalso. rewrite Hr in Hr'. injection Hr' as <- <-. destruct Hx; [congruence|contradiction].
  - rewrite Hr in Hr'. injection Hr' as <- <-. auto.
Qed.

Lemma WriteCheck_one E s tb obj n r1 s1 t1 r2 s2 t2 :
  WriteCheck E s tb obj n r1 s1 t1 -> WriteCheck E s tb obj n r2 s2 t2 ->
  r1 <> Exc EFuel -> r2 <> Exc EFuel -> r1 = r2 /\ s1 = s2 /\ t1 = t2.
Proof.
  intros H1 H2 N1 N2.
  destruct H1 as [Hp|p r s' tr Hp Hq Ha|Hp];
    inversion H2 as [Hp'|p' r' s3 tr' Hp' Hq' Ha'|Hp']; subst; try congruence; auto.
  assert (p' = p) by congruence. subst p'.
  destruct (Asked_one _ _ _ _ _ _ _ _ _ _ Ha Ha' (by_answer_fuel _ _ _ _ N1)
              (by_answer_fuel _ _ _ _ N2)) as (-> & -> & ->). auto.
Qed.
