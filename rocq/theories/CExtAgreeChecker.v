(** * CExtAgreeChecker: the C checker, call by call, does what the model of the C build says. *)

From Coq Require Import List String Bool Arith ZArith Lia.
From Verif Require Import Base Domain CheckerModel ProxyModel CExtAgreeSpec CExtAgreeFacts.
From Verif Require MFacts CExt CExtFacts CExtDecide CExtPaths.
Import ListNotations.
Open Scope string_scope.

Section Checker.
  Variable E : env.
  Variable W : world.
  Variables is_checker is_str char0 char1 is_iter : CExt.obj -> bool.
  Hypothesis HN : named W.
  Variable k : kind.
  Variable oper : list CExt.ptr -> option op.

  Ltac inv_answers := match goal with
    | H : answers _ _ _ _ _ _ (_ :: _) _ _ _ _ _ |- _ => inversion H; subst; clear H
    | H : answers _ _ _ _ _ _ [] _ _ _ _ _ |- _ => inversion H; subst; clear H
    end.

  Section Fuel.
  Variable f : nat.
  Notation ans := (answers E W is_checker k oper f).
  Notation I := (interp_n E f).

  Lemma public p : perm_eqb (pm W p) PPublic = Nat.eqb p CExt.CheckerPublic.
  Proof.
    destruct (Nat.eqb_spec p CExt.CheckerPublic) as [->|Hp].
    - rewrite (proj2 (nd_public _ HN _) eq_refl). reflexivity.
    - destruct (pm W p) eqn:Ep; try reflexivity. destruct Hp. apply (nd_public _ HN). exact Ep.
  Qed.

  Lemma perm_agree p ob n i l x s x' s' tr :
    CExtPaths.perm_path p ob n i l -> ans (rev l) x s x' s' tr ->
    did_status i x' (CheckerC_checkPermission E I (pm W p) (vl W ob) (nm W n)) s s' tr.
  Proof.
    intros Hp H. unfold CheckerC_checkPermission, tl_checkPermission.
    destruct Hp; cbn [rev app] in H; repeat inv_answers.
    - right. split; [reflexivity|]. eexists. split; [reflexivity|]. apply bind_exc. rewrite bind_get.
      match goal with H : tl_inter _ = _ |- _ => rewrite H end. reflexivity.
    - right. split; [reflexivity|]. eexists. split; [reflexivity|]. apply bind_exc. rewrite bind_get.
      match goal with H : tl_inter _ = _ |- _ => rewrite H end. rewrite app_nil_r. assumption.
    - right. split; [reflexivity|]. eexists. split; [reflexivity|]. apply bind_exc. rewrite bind_get.
      match goal with H : tl_inter _ = _ |- _ => rewrite H end. rewrite app_nil_r. assumption.
    - left. split; [reflexivity|]. split; [reflexivity|]. eapply bind_ok.
      + rewrite bind_get. match goal with H : tl_inter _ = _ |- _ => rewrite H end. eassumption.
      + destruct b; [reflexivity|]. match goal with H : n0 <> 0%nat, H' : n0 = 0%nat <-> _ |- _ =>
          destruct (H (proj2 H' eq_refl)) end.
    - right. split; [reflexivity|]. eexists. split; [reflexivity|]. eapply bind_ok.
      + rewrite bind_get. match goal with H : tl_inter _ = _ |- _ => rewrite H end. eassumption.
      + match goal with H : _ <-> b = false |- _ => rewrite (proj1 H eq_refl) end. reflexivity.
  Qed.

  Lemma forb_agree {A} ob n l x s x' s' tr :
    CExtPaths.forb_path ob n l -> ans (rev l) x s x' s' tr ->
    exists e, x' = Some e /\ (raise (EForbidden (nm W n) (vl W ob)) : M A) s = (Exc e, s', tr).
  Proof.
    intros Hp H. destruct Hp; cbn [rev app] in H; repeat inv_answers.
    eexists. split; reflexivity.
  Qed.
  Lemma forb_status ob n l x s x' s' tr :
    CExtPaths.forb_path ob n l -> ans (rev l) x s x' s' tr ->
    did_status (-1) x' (raise (EForbidden (nm W n) (vl W ob))) s s' tr.
  Proof. intros Hp H. right. split; [reflexivity|]. exact (forb_agree _ _ _ _ _ _ _ _ Hp H). Qed.

  Definition by_default (ob : value) (n : name) : M unit :=
    if is_operator n then
      if mem n available_by_default then ret tt
      else if String.eqb n "__iter__" then
        bind (hasattr_c I ob n) (fun h => if negb h then ret tt else raise (EForbidden n ob))
      else raise (EForbidden n ob)
    else raise (EForbidden n ob).

  Lemma default_agree ob n i l x s x' s' tr :
    spelled W is_str char0 char1 is_iter n ->
    CExtPaths.default_path char0 char1 is_iter ob n i l -> ans (rev l) x s x' s' tr ->
    did_status i x' (by_default (vl W ob) (nm W n)) s s' tr.
  Proof.
    intros (_ & Hop & Hit) Hp H. unfold by_default, is_operator. rewrite <- Hop, <- Hit.
    destruct Hp as [r0 F H1 HF|r0 r1 F H1 HF|r0 r1 H1|r0 r1 i H1 Hi|r0 r1 r2 H1 H2|r0 r1 r2 F H1 H2 HF|r0 r1 r2 F H1 H2 HF];
      rewrite ?rev_app_distr in H; cbn [rev app] in H; rewrite H1, ?H2; try clear H1;
      repeat match goal with r : CExt.ptr |- _ => destruct r; cbn [CExtDecide.out_ptr] in H end;
      repeat inv_answers.
    - eapply forb_status; eassumption.
    - eapply forb_status; eassumption.
    - destruct (mem (nm W n) available_by_default).
      + left. repeat split; reflexivity.
      + match goal with H : i <> 0%nat, H' : i = 0%nat <-> _ |- _ => destruct (H (proj2 H' eq_refl)) end.
    - match goal with H : _ <-> mem _ _ = false |- _ => rewrite (proj1 H eq_refl) end.
      match goal with H : _ <-> b = false |- _ => rewrite (proj1 H eq_refl) in * end.
      left. split; [reflexivity|]. split; [reflexivity|]. eapply bind_ok; [eassumption|reflexivity].
    - match goal with H : _ <-> mem _ _ = false |- _ => rewrite (proj1 H eq_refl) end.
      match goal with H : _ <-> b = false |- _ => destruct b; [|discriminate (proj2 H eq_refl)] end.
      match goal with H : ans (rev F) _ _ _ _ _ |- _ =>
        destruct (forb_agree (A := unit) _ _ _ _ _ _ _ _ HF H) as (e & -> & He) end.
      right. split; [reflexivity|]. exists e. split; [reflexivity|].
      eapply bind_ok; [eassumption|]. exact He.
    - match goal with H : _ <-> mem _ _ = false |- _ => rewrite (proj1 H eq_refl) end.
      eapply forb_status; eassumption.
  Qed.

  Lemma int_agree_path t kk ob n i l s x' s' tr :
    spelled W is_str char0 char1 is_iter n -> tabled W t (ck_get kk) s ->
    CExtPaths.int_path char0 char1 is_iter t ob n i l -> ans (rev l) None s x' s' tr ->
    did_status i x' (CheckerC_check_int E I kk (vl W ob) (nm W n)) s s' tr.
  Proof.
    intros Hsp Ht Hp H. unfold did_status, CheckerC_check_int. rewrite bind_get.
    destruct Hp as [d Hd|d p i l Hd Hp Hl|i l Hd Hl|d i l Hd Hl]; subst t;
      rewrite ?rev_app_distr in H; cbn [rev app tabled] in *; 
      try match type of Ht with _ /\ _ => destruct Ht as [Hne <-] end.
    - repeat inv_answers; [|congruence]. match goal with H : dget _ _ _ = Some _ |- _ => rewrite H end.
      rewrite public, Nat.eqb_refl. left. repeat split; reflexivity.
    - inversion H; subst; clear H; [|congruence].
      match goal with H : dget _ _ _ = Some _ |- _ => rewrite H end.
      rewrite public. destruct (Nat.eqb_spec p CExt.CheckerPublic) as [->|_]; [congruence|].
      match goal with H : ans (rev l) _ _ _ _ _ |- _ =>
        destruct (perm_agree _ _ _ _ _ _ _ _ _ _ Hl H) as [(-> & H1 & H2)|(-> & H1)] end; cbn; auto.
    - rewrite Ht. cbn [dget]. exact (default_agree _ _ _ _ _ _ _ _ _ Hsp Hl H).
    - inversion H; subst; clear H; [|congruence].
      match goal with H : dget _ _ _ = None |- _ => rewrite H end.
      eapply default_agree; eassumption.
  Qed.

  Lemma set_agree_path t kk ob n r l s x' s' tr :
    tabled W t (ck_set kk) s ->
    CExtPaths.set_path t ob n r l -> ans (rev l) None s x' s' tr ->
    did_unit r x' (CheckerC_check_setattr E I kk (vl W ob) (nm W n)) s s' tr.
  Proof.
    intros Ht Hp H. unfold did_unit, CheckerC_check_setattr. rewrite bind_get.
    destruct Hp as [d Hd|d p i l Hd Hp Hl|l Hd Hl|d l Hd Hl]; subst t;
      rewrite ?rev_app_distr in H; cbn [rev app tabled] in *; 
      try match type of Ht with _ /\ _ => destruct Ht as [Hne <-] end.
    - repeat inv_answers; [|congruence]. match goal with H : dget _ _ _ = Some _ |- _ => rewrite H end.
      rewrite public, Nat.eqb_refl. repeat split; reflexivity.
    - inversion H; subst; clear H; [|congruence].
      match goal with H : dget _ _ _ = Some _ |- _ => rewrite H end.
      rewrite public. destruct (Nat.eqb_spec p CExt.CheckerPublic) as [->|_]; [congruence|]. cbn [negb].
      match goal with H : ans (rev l) _ _ _ _ _ |- _ =>
        destruct (perm_agree _ _ _ _ _ _ _ _ _ _ Hl H) as [(-> & H1 & H2)|(-> & H1)] end; cbn; auto.
    - rewrite Ht. cbn [dget]. exact (forb_agree _ _ _ _ _ _ _ _ Hl H).
    - inversion H; subst; clear H; [|congruence].
      match goal with H : dget _ _ _ = None |- _ => rewrite H end.
      eapply forb_agree; eassumption.
  Qed.

  Variable oracle : nat -> CExt.answer.
  Variable args : list CExt.obj.

  Lemma plain_check c kk m ob n s :
    st_chks s c = Some kk -> ck_kind kk = CkPlain -> e_cimpl E = ImplC -> m <> MSetattr ->
    i_check (interp_n E (S f)) m (VChk c) ob n s = CheckerC_check_int E I kk ob n s.
  Proof.
    intros Hk Hp Hc Hm. cbn [i_check interp_n]. unfold checker_check. rewrite bind_get, Hk, Hp.
    unfold Checker_check. rewrite Hc. destruct m; congruence.
  Qed.
  Lemma plain_check_setattr c kk ob n s :
    st_chks s c = Some kk -> ck_kind kk = CkPlain -> e_cimpl E = ImplC ->
    i_check (interp_n E (S f)) MSetattr (VChk c) ob n s = CheckerC_check_setattr E I kk ob n s.
  Proof.
    intros Hk Hp Hc. cbn [i_check interp_n]. unfold checker_check. rewrite bind_get, Hk, Hp.
    unfold Checker_check_setattr. rewrite Hc. reflexivity.
  Qed.

  Lemma check_slot_agree self c kk m ob n c0 c1 s i :
    e_cimpl E = ImplC -> m <> MSetattr -> st_chks s c = Some kk -> ck_kind kk = CkPlain ->
    spelled W is_str char0 char1 is_iter n -> tabled W (CExt.f1 c0 self) (ck_get kk) s ->
    CExt.Checker_check_int oracle args is_str char0 char1 is_iter self ob n c0 = Some (i, c1) ->
    exists calls, CExt.log c1 = (rev calls ++ CExt.log c0)%list /\
      forall x s' tr, ans calls None s x s' tr ->
        did_status i x (i_check (interp_n E (S f)) m (VChk c) (vl W ob) (nm W n)) s s' tr.
  Proof.
    intros Hc Hm Hk Hp Hsp Ht Hrun.
    destruct (wp_run _ _ _ _ _ (CExtPaths.p_check_int oracle args is_str char0 char1 is_iter self ob n c0 (proj1 Hsp)) Hrun)
      as (l & Hl & Hpath).
    exists (rev l). rewrite rev_involutive. split; [apply (CExtDecide.md_log _ _ _ Hl)|].
    intros x s' tr Ha. unfold did_status. rewrite (plain_check c kk m _ _ s Hk Hp Hc Hm).
    exact (int_agree_path _ _ _ _ _ _ _ _ _ _ Hsp Ht Hpath Ha).
  Qed.

  Lemma check_method_agree self c kk m ob n c0 c1 s r :
    e_cimpl E = ImplC -> m <> MSetattr -> st_chks s c = Some kk -> ck_kind kk = CkPlain ->
    spelled W is_str char0 char1 is_iter n -> tabled W (CExt.f1 c0 self) (ck_get kk) s ->
    CExt.Checker_check oracle args is_str char0 char1 is_iter self (Some (ob, n)) c0 = Some (r, c1) ->
    exists calls, CExt.log c1 = (rev calls ++ CExt.log c0)%list /\
      forall x s' tr, ans calls None s x s' tr ->
        did_unit r x (i_check (interp_n E (S f)) m (VChk c) (vl W ob) (nm W n)) s s' tr.
  Proof.
    intros Hc Hm Hk Hp Hsp Ht Hrun.
    assert (Hwp : CExtFacts.wp (CExt.Checker_check oracle args is_str char0 char1 is_iter self (Some (ob, n))) c0
              (CExtPaths.path (fun r l => exists i, r = (if Z.ltb i 0 then None else Some CExt.Py_None) /\
                 CExtPaths.int_path char0 char1 is_iter (CExt.f1 c0 self) ob n i l) c0)).
    { unfold CExt.Checker_check. apply CExtFacts.wp_bind.
      eapply CExtFacts.wp_mono; [apply (CExtPaths.p_check_int oracle args is_str char0 char1 is_iter self ob n c0 (proj1 Hsp))|].
      cbn beta. intros i c2 (l & H2 & Hl). destruct (Z.ltb i 0) eqn:Ei.
      - apply CExtFacts.wp_ret. exists l. split; [exact H2|]. exists i. rewrite Ei. auto.
      - apply (CExtPaths.p_none args c0 _ _ _ H2). intros c3 H3. exists l. split; [exact H3|]. exists i.
        rewrite Ei. auto. }
    destruct (wp_run _ _ _ _ _ Hwp Hrun) as (l & Hl & i & -> & Hpath).
    exists (rev l). rewrite rev_involutive. split; [apply (CExtDecide.md_log _ _ _ Hl)|].
    intros x s' tr Ha. unfold did_unit. rewrite (plain_check c kk m _ _ s Hk Hp Hc Hm).
    destruct (int_agree_path _ _ _ _ _ _ _ _ _ _ Hsp Ht Hpath Ha) as [(-> & H1 & H2)|(-> & H1)]; cbn; auto.
  Qed.

  Lemma check_setattr_agree self c kk ob n c0 c1 s r :
    e_cimpl E = ImplC -> st_chks s c = Some kk -> ck_kind kk = CkPlain ->
    tabled W (CExt.f2 c0 self) (ck_set kk) s ->
    CExt.Checker_check_setattr oracle args self (Some (ob, n)) c0 = Some (r, c1) ->
    exists calls, CExt.log c1 = (rev calls ++ CExt.log c0)%list /\
      forall x s' tr, ans calls None s x s' tr ->
        did_unit r x (i_check (interp_n E (S f)) MSetattr (VChk c) (vl W ob) (nm W n)) s s' tr.
  Proof.
    intros Hc Hk Hp Ht Hrun.
    destruct (wp_run _ _ _ _ _ (CExtPaths.p_check_setattr oracle args self ob n c0) Hrun) as (l & Hl & Hpath).
    exists (rev l). rewrite rev_involutive. split; [apply (CExtDecide.md_log _ _ _ Hl)|].
    intros x s' tr Ha. unfold did_unit. rewrite (plain_check_setattr c kk _ _ s Hk Hp Hc).
    exact (set_agree_path _ _ _ _ _ _ _ _ _ _ Ht Hpath Ha).
  Qed.
  End Fuel.

  (** ** The choice of a checker *)
  Variable exact_proxy : CExt.obj -> bool.
  Hypothesis HX : forall o, exact_proxy o = Domain.is_proxy (vl W o).
  Notation ans f := (answers E W is_checker k oper f).

  Lemma not_none o : o <> CExt.Py_None -> vl W o <> VNone.
  Proof. intros H Hv. apply H, (nd_none _ HN), Hv. Qed.
  Lemma stops n : value_eqb (vl W n) VNoProxy || value_eqb (vl W n) VNone
                  = Nat.eqb n CExt.NoProxy || Nat.eqb n CExt.Py_None.
  Proof.
    f_equal.
    - destruct (Nat.eqb_spec n CExt.NoProxy) as [->|Hn].
      + rewrite (proj2 (nd_noproxy _ HN _) eq_refl). reflexivity.
      + destruct (MFacts.value_eqb_spec (vl W n) VNoProxy) as [Hv|]; [|reflexivity].
        destruct Hn. apply (nd_noproxy _ HN), Hv.
    - destruct (Nat.eqb_spec n CExt.Py_None) as [->|Hn].
      + rewrite (proj2 (nd_none _ HN _) eq_refl). reflexivity.
      + destruct (MFacts.value_eqb_spec (vl W n) VNone) as [Hv|]; [|reflexivity].
        destruct Hn. apply (nd_none _ HN), Hv.
  Qed.

  Lemma loop_agree ob c r l : CExtPaths.loop_path is_checker ob c r l ->
    forall f x s x' s' tr, is_checker c = is_Checker E s (vl W c) -> ans (S f) (rev l) x s x' s' tr ->
    (x = None \/ l <> []) ->
    did_option W r x' (i_select (interp_n E (S f)) (vl W c) (vl W ob)) s s' tr.
  Proof.
    induction 1 as [c Hc|c Hc|c n Hc Hn|c n r l Hc N1 N2 Hl IH]; intros f x s x' s' tr His H Hx;
      rewrite ?rev_app_distr in H; cbn [rev app] in H; unfold did_option;
      cbn [i_select interp_n]; unfold select_loop; rewrite bind_get, <- His, Hc.
    - inv_answers. split; [destruct Hx as [Hx|Hx]; congruence|].
      destruct (Nat.eqb_spec c CExt.Py_None) as [->|_]; [|reflexivity].
      rewrite (proj2 (nd_none _ HN _) eq_refl) in His. cbn in His. congruence.
    - inv_answers. inv_answers. eexists. split; [reflexivity|]. rewrite app_nil_r. apply bind_exc. assumption.
    - inv_answers. inv_answers. split; [reflexivity|]. rewrite Nat.eqb_refl.
      eapply bind_ok; [eassumption|]. rewrite stops.
      replace (Nat.eqb n CExt.NoProxy || Nat.eqb n CExt.Py_None) with true; [reflexivity|].
      symmetry. apply orb_true_iff. destruct Hn as [-> | ->]; [left|right]; apply Nat.eqb_refl.
    - inv_answers.
      match goal with H : is_checker n = is_Checker E ?s1 _, H' : answers _ _ _ _ _ _ (rev l) _ _ _ _ _ |- _ =>
        pose proof (IH _ _ _ _ _ _ H H' (or_introl eq_refl)) as Hd end.
      assert (Hs : value_eqb (vl W n) VNoProxy || value_eqb (vl W n) VNone = false).
      { rewrite stops. apply orb_false_iff. split; apply Nat.eqb_neq; assumption. }
      destruct r as [y|]; cbn [did_option] in Hd.
      + destruct Hd as [-> Hd]. split; [reflexivity|].
        destruct (Nat.eqb y CExt.Py_None);
          (eapply bind_ok; [eassumption|]; rewrite Hs; exact Hd).
      + destruct Hd as (e & -> & Hd). exists e. split; [reflexivity|].
        eapply bind_ok; [eassumption|]. rewrite Hs. exact Hd.
  Qed.

  Lemma looked_agree ob c e f rest x s x' s' tr :
    CExtPaths.looked ob c e -> ans f (e :: rest) x s x' s' tr ->
    registered E s (vl W ob) = vl W c /\ is_checker c = is_Checker E s (vl W c) /\
    ans f rest None s x' s' tr.
  Proof.
    intros Hl H. unfold registered. destruct Hl; inversion H; subst; clear H; try congruence.
    - match goal with H : dget _ _ _ = _ |- _ => rewrite H end. auto.
    - match goal with H : dget _ _ _ = _ |- _ => rewrite H end.
      rewrite (proj2 (nd_default _ HN _) eq_refl). auto.
  Qed.

  Lemma select_agree_path ob r l f x s x' s' tr :
    CExtPaths.select_path is_checker ob r l -> ans (S f) (rev l) x s x' s' tr ->
    did_option W r x' (selectCheckerC E (interp_n E (S f)) (vl W ob)) s s' tr.
  Proof.
    intros Hp H. unfold did_option, selectCheckerC. rewrite bind_get. cbv zeta.
    destruct Hp as [e He|e He|e n He Hn|e r l He Hl|c e r l He N1 N2 Hl];
      rewrite ?rev_app_distr in H; cbn [rev app] in H;
      destruct (looked_agree _ _ _ _ _ _ _ _ _ _ He H) as (-> & Hic & H1); clear H.
    - inv_answers. rewrite (proj2 (nd_noproxy _ HN _) eq_refl). split; reflexivity.
    - inversion H1.
    - inv_answers. inv_answers. rewrite (proj2 (nd_default _ HN _) eq_refl). cbn [value_eqb].
      rewrite Nat.eqb_refl. cbn [andb].
      destruct (e_isexc E (type_of E s' (vl W ob))); [split; reflexivity|].
      match goal with H : n = 0%nat <-> _ |- _ => destruct (Hn (proj2 H eq_refl)) end.
    - inv_answers. pose proof (proj2 (nd_default _ HN CExt.defaultChecker) eq_refl) as Hd.
      replace (value_eqb (vl W CExt.defaultChecker) VNoProxy) with false by (rewrite Hd; reflexivity).
      match goal with H : 0%nat = 0%nat <-> _ |- _ => rewrite (proj1 H eq_refl) end. rewrite andb_false_r.
      eapply (loop_agree _ _ _ _ Hl); eauto.
    - assert (Hv1 : value_eqb (vl W c) VNoProxy = false).
      { destruct (MFacts.value_eqb_spec (vl W c) VNoProxy) as [Hv|]; [|reflexivity].
        destruct N1. apply (nd_noproxy _ HN), Hv. }
      assert (Hv2 : value_eqb (vl W c) (VChk default_cid) = false).
      { destruct (MFacts.value_eqb_spec (vl W c) (VChk default_cid)) as [Hv|]; [|reflexivity].
        destruct N2. apply (nd_default _ HN), Hv. }
      rewrite Hv1, Hv2. cbn [andb]. eapply (loop_agree _ _ _ _ Hl); eauto.
  Qed.

  Lemma last_answer e f l x s x' s' tr :
    CExt.en_api e = CExt.AProxy -> ans f (l ++ [e]) x s x' s' tr ->
    exists f1 x1 s1 t1 t2, ans f l x s x1 s1 t1 /\ ans f1 [e] x1 s1 x' s' t2 /\ tr = (t1 ++ t2)%list.
  Proof.
    intros He. revert f x s tr. induction l as [l IH] using (induction_ltof1 _ (@List.length _)).
    unfold ltof in IH. intros f x s tr H. destruct l as [|y l].
    { exists f, x, s, [], tr. split; [apply an_done|]. split; [exact H|reflexivity]. }
    assert (IH1 : forall f x s tr, ans f (l ++ [e]) x s x' s' tr ->
      exists f1 x1 s1 t1 t2, ans f l x s x1 s1 t1 /\ ans f1 [e] x1 s1 x' s' t2 /\ tr = (t1 ++ t2)%list).
    { intros. apply IH; [simpl; lia|assumption]. }
    cbn [app] in H. inversion H; subst; clear H;
      try (destruct l as [|z l];
           [match goal with H : _ = ([] ++ _)%list |- _ => cbn [app] in H; injection H; intros; subst; discriminate He
                          | H : ([] ++ _)%list = _ |- _ => cbn [app] in H; injection H; intros; subst; discriminate He end|];
           match goal with H : _ = ((_ :: _) ++ _)%list |- _ => cbn [app] in H; injection H; clear H; intros; subst
                         | H : ((_ :: _) ++ _)%list = _ |- _ => cbn [app] in H; injection H; clear H; intros; subst end;
           match goal with H : answers _ _ _ _ _ _ (l ++ [e])%list _ _ _ _ _ |- _ =>
             destruct (IH l ltac:(simpl; lia) _ _ _ _ H) as (f1 & x1 & s1' & t1' & t2' & Ha & Hb & ->) end;
           eexists f1, x1, s1', _, t2'; (split; [econstructor; eassumption|]); (split; [exact Hb|]);
           first [reflexivity | apply app_assoc]);
      match goal with H : answers _ _ _ _ _ _ (l ++ [e])%list _ _ _ _ _ |- _ =>
        destruct (IH1 _ _ _ _ H) as (f1 & x1 & s1' & t1' & t2' & Ha & Hb & ->) end;
      eexists f1, x1, s1', _, t2'; (split; [econstructor; eassumption|]); (split; [exact Hb|]);
      first [reflexivity | apply app_assoc].
  Qed.

  Lemma proxy_agree_path v r l f s x' s' tr :
    CExtPaths.proxy_path is_checker exact_proxy v r l -> ans (S f) (rev l) None s x' s' tr ->
    did W r x' (CheckerC_proxy E (interp_n E (S f)) (vl W v)) s s' tr.
  Proof.
    intros Hp H. unfold did, CheckerC_proxy. rewrite <- HX.
    destruct Hp as [Hx|c r Hx Hc|l Hx Hl|l Hx Hl|l Hx Hl|c r l Hx Hc Hl]; rewrite Hx;
      rewrite ?rev_app_distr in H; cbn [rev app] in H; rewrite ?rev_app_distr in H; cbn [rev app] in H.
    - inv_answers. split; reflexivity.
    - destruct r as [r|]; cbn [CExtDecide.out_ptr] in H; do 3 inv_answers.
      split; [reflexivity|]. eapply bind_ok.
      + unfold getattr_sec_checker_c, catch. erewrite bind_ok; [|eassumption|reflexivity].
        rewrite app_nil_r. reflexivity.
      + rewrite app_nil_r. pose proof (not_none c Hc). destruct (vl W c); (congruence || assumption).
    - destruct Hl as [-> | [e ->]]; cbn [rev app] in H; repeat inv_answers.
      eexists. split; [reflexivity|]. eapply bind_ok.
      + unfold getattr_sec_checker_c, catch. erewrite bind_ok; [|eassumption|reflexivity].
        rewrite app_nil_r. reflexivity.
      + rewrite (proj2 (nd_none _ HN _) eq_refl). reflexivity.
    - inv_answers.
      match goal with H : answers _ _ _ _ _ _ (rev l) _ _ _ _ _ |- _ =>
        destruct (select_agree_path _ _ _ _ _ _ _ _ _ Hl H) as (e' & -> & Hd) end.
      eexists. split; [reflexivity|]. eapply bind_ok.
      + unfold getattr_sec_checker_c, catch. match goal with H : i_op _ _ _ _ = _ |- _ => rewrite (bind_exc _ _ _ _ _ _ H) end. cbn.
        rewrite app_nil_r. reflexivity.
      + apply bind_exc. exact Hd.
    - inv_answers.
      match goal with H : answers _ _ _ _ _ _ (rev l) _ _ _ _ _ |- _ =>
        destruct (select_agree_path _ _ _ _ _ _ _ _ _ Hl H) as (-> & Hd) end.
      rewrite Nat.eqb_refl in Hd. split; [reflexivity|]. eapply bind_ok.
      + unfold getattr_sec_checker_c, catch. match goal with H : i_op _ _ _ _ = _ |- _ => rewrite (bind_exc _ _ _ _ _ _ H) end. cbn.
        rewrite app_nil_r. reflexivity.
      + unfold bind. rewrite Hd. unfold ret. rewrite app_nil_r. reflexivity.
    - destruct r as [r|]; cbn [CExtDecide.out_ptr] in H; rewrite app_comm_cons in H;
        destruct (last_answer (CExt.mkE _ _ _) _ _ _ _ _ _ _ eq_refl H) as (f1 & x1 & s1 & t1 & t2 & H1 & H2 & ->);
        clear H; inversion H2; subst; clear H2. repeat inv_answers.
      match goal with H : answers _ _ _ _ _ _ (rev l) _ _ _ _ _ |- _ =>
        destruct (select_agree_path _ _ _ _ _ _ _ _ _ Hl H) as (-> & Hd) end.
      rewrite (proj2 (Nat.eqb_neq _ _) Hc) in Hd. split; [reflexivity|]. rewrite app_nil_r, <- app_assoc. eapply bind_ok.
      + unfold getattr_sec_checker_c, catch. match goal with H : i_op _ _ _ _ = _ |- _ => rewrite (bind_exc _ _ _ _ _ _ H) end. cbn.
        rewrite app_nil_r. reflexivity.
      + eapply bind_ok; [exact Hd|]. assumption.
  Qed.

  Lemma select_agree oracle args fuel ob f c0 c1 s r :
    CExt.selectChecker oracle args is_checker fuel ob c0 = Some (r, c1) ->
    exists calls, CExt.log c1 = (rev calls ++ CExt.log c0)%list /\
      forall x s' tr, ans (S f) calls None s x s' tr ->
        did_option W r x (selectCheckerC E (interp_n E (S f)) (vl W ob)) s s' tr.
  Proof.
    intros Hrun.
    assert (Hwp : CExtFacts.wp (CExt.selectChecker oracle args is_checker fuel ob) c0
              (CExtPaths.path (CExtPaths.select_path is_checker ob) c0)).
    { apply (CExtPaths.p_select oracle args is_checker fuel ob c0 [] c0 _ (CExtDecide.made_refl c0)).
      intros r' l c2 Hl H2. exists l. rewrite app_nil_r in H2. split; assumption. }
    destruct (wp_run _ _ _ _ _ Hwp Hrun) as (l & Hl & Hpath).
    exists (rev l). rewrite rev_involutive. split; [apply (CExtDecide.md_log _ _ _ Hl)|].
    intros x s' tr Ha. exact (select_agree_path _ _ _ _ _ _ _ _ _ Hpath Ha).
  Qed.

  Lemma proxy_agree oracle args fuel v f c0 c1 s r :
    CExt.Checker_proxy oracle args is_checker exact_proxy fuel v c0 = Some (r, c1) ->
    exists calls, CExt.log c1 = (rev calls ++ CExt.log c0)%list /\
      forall x s' tr, ans (S f) calls None s x s' tr ->
        did W r x (CheckerC_proxy E (interp_n E (S f)) (vl W v)) s s' tr.
  Proof.
    intros Hrun.
    destruct (wp_run _ _ _ _ _ (CExtPaths.p_proxy oracle args is_checker exact_proxy fuel v c0) Hrun) as (l & Hl & Hpath).
    exists (rev l). rewrite rev_involutive. split; [apply (CExtDecide.md_log _ _ _ Hl)|].
    intros x s' tr Ha. exact (proxy_agree_path _ _ _ _ _ _ _ _ Hpath Ha).
  Qed.

  Lemma do_select_agree oracle args fuel ob f c0 c1 s r :
    e_cimpl E = ImplC ->
    CExt.selectChecker oracle args is_checker fuel ob c0 = Some (r, c1) ->
    exists calls, CExt.log c1 = (rev calls ++ CExt.log c0)%list /\
      forall x s' tr, ans (S f) calls None s x s' tr ->
        did_option W r x (do_select E (S f) (vl W ob)) s s' tr.
  Proof.
    intros Hc Hrun. unfold do_select, selectChecker. rewrite Hc.
    exact (select_agree oracle args fuel ob f c0 c1 s r Hrun).
  Qed.
  Lemma do_proxy_agree oracle args fuel c v f c0 c1 s r :
    e_cimpl E = ImplC ->
    CExt.Checker_proxy oracle args is_checker exact_proxy fuel v c0 = Some (r, c1) ->
    exists calls, CExt.log c1 = (rev calls ++ CExt.log c0)%list /\
      forall x s' tr, ans (S f) calls None s x s' tr ->
        did W r x (do_proxy E (S f) (VChk c) (vl W v)) s s' tr.
  Proof.
    intros Hc Hrun. unfold do_proxy, checker_proxy. rewrite Hc.
    exact (proxy_agree oracle args fuel v f c0 c1 s r Hrun).
  Qed.
End Checker.
