(** * CExtAgreeFacts: the C code, call by call, does what the model of the C build says. *)

From Coq Require Import List String Bool Arith ZArith Lia.
From Verif Require Import Base Domain CheckerModel ProxyModel CExtAgreeSpec.
From Verif Require MFacts CExt CExtFacts CExtDecide CExtPaths.
Import ListNotations.
Open Scope string_scope.

Lemma bind_ok {A B} (m : M A) (f : A -> M B) s a s1 t1 r s2 t2 :
  m s = (Ok a, s1, t1) -> f a s1 = (r, s2, t2) -> bind m f s = (r, s2, t1 ++ t2)%list.
Proof. intros H1 H2. unfold bind. rewrite H1, H2. reflexivity. Qed.
Lemma bind_exc {A B} (m : M A) (f : A -> M B) s e s1 t1 :
  m s = (Exc e, s1, t1) -> bind m f s = (Exc e, s1, t1).
Proof. intros H1. unfold bind. rewrite H1. reflexivity. Qed.
Lemma bind_get {B} (f : state -> M B) s : bind get f s = f s s.
Proof. unfold bind, get. destruct (f s s) as [[r s'] t]. reflexivity. Qed.
Lemma pget_some {B} p wc (f : value * value -> M B) s :
  st_prox s p = Some wc -> bind (pget p) f s = f wc s.
Proof. intros H. unfold pget, bind, get. rewrite H. cbn. destruct (f wc s) as [[r s'] t]. reflexivity. Qed.
Lemma calm_refl s : calm s s. Proof. intros p x H. exact H. Qed.
Lemma calm_trans s1 s2 s3 : calm s1 s2 -> calm s2 s3 -> calm s1 s3.
Proof. intros H1 H2 p x H. apply H2, H1, H. Qed.

Lemma wp_run {A} (m : CExt.C A) s Q a s' : CExtFacts.wp m s Q -> m s = Some (a, s') -> Q a s'.
Proof. unfold CExtFacts.wp. intros H E. rewrite E in H. exact H. Qed.

Lemma method_det me m m' : method me m -> method me m' -> m = m'.
Proof. intros [] H; inversion H; reflexivity. Qed.

Section Agree.
  Variable E : env.
  Variable W : world.
  Variable is_checker : CExt.obj -> bool.
  Variables is_proxy exact_proxy has_sub has_ass : CExt.obj -> bool.
  Hypothesis HN : named W.
  Hypothesis HT : typed W is_proxy exact_proxy has_sub has_ass.

  (** Texts that cannot be encoded are no answers. *)
  Lemma answered k oper f calls x s x' s' tr :
    answers E W is_checker k oper f calls x s x' s' tr ->
    forall n, ~ In (CExt.mkE CExt.AEncode [Some n] CExt.Failed) calls.
  Proof.
    induction 1; intros n0 Hin; simpl in Hin; try tauto;
      repeat match goal with
      | H : _ \/ _ |- _ => destruct H
      | H : CExt.mkE _ _ _ = CExt.mkE _ _ _ |- _ => inversion H; clear H
      | IH : forall n, ~ In _ ?r, H : In _ ?r |- _ => exact (IH _ H)
      end; try discriminate; try contradiction.
  Qed.

  (** str() and repr() return strings. *)
  Definition textual (o : op) : Prop := exists w, o = OStr w \/ o = ORepr w.
  Definition strings (m : M value) : Prop :=
    forall s v s' t, m s = (Ok v, s', t) -> exists z, v = VStr z.
  Lemma coerced o m : textual o -> strings (bind m (coerce o)).
  Proof.
    intros [w [-> | ->]] s v s' t H; unfold bind in H; destruct (m s) as [[[a|e] s1] t1]; try discriminate H;
      destruct a; try discriminate H; cbn in H; injection H; intros; subst; eauto.
  Qed.
  Lemma op_strings f k o : textual o -> strings (i_op (interp_n E f) k o).
  Proof.
    intros Ht. destruct f as [|f]; [intros s v s' t H; discriminate H|].
    pose proof Ht as [w [-> | ->]]; cbn [i_op interp_n run_op];
      destruct w; try (unfold raw; apply coerced, Ht); apply coerced, Ht.
  Qed.
  Lemma describe_strings f w : strings (default_repr_c E (interp_n E f) w).
  Proof.
    intros s v s' t H. unfold default_repr_c in H.
    unfold bind at 1 in H. destruct (i_op _ _ _ s) as [[[a|e] s1] t1]; [|discriminate H].
    unfold bind at 1 in H. destruct (i_op _ _ _ s1) as [[[b|e] s2] t2]; [|discriminate H].
    unfold bind at 1 in H.
    match type of H with context [catch ?m ?h s2] => destruct (catch m h s2) as [[[c|e] s3] t3] end;
      [|discriminate H].
    destruct c; unfold ret in H; injection H; intros; subst; eauto.
  Qed.
  Lemma text_strings f k p n g : (forall w, textual (g w)) ->
    strings (c_str_like E (interp_n E f) p n (fun w => i_op (interp_n E f) k (g w))).
  Proof.
    intros Hg s v s' t H. unfold c_str_like in H. unfold bind at 1 in H.
    match type of H with context [catch ?m ?h s] => destruct (catch m h s) as [[[c|e] s1] t1] end;
      [|discriminate H].
    unfold bind at 1 in H. destruct (pget p s1) as [[[wc|e] s2] t2]; [|discriminate H].
    destruct c.
    - destruct (i_op _ _ _ s2) as [[r s3] t3] eqn:Eo. injection H; intros; subst.
      exact (op_strings f k _ (Hg _) _ _ _ _ Eo).
    - destruct (default_repr_c _ _ _ s2) as [[r s3] t3] eqn:Eo. injection H; intros; subst.
      exact (describe_strings f _ _ _ _ _ Eo).
  Qed.
  Lemma did_coerced r x m o s s' tr : textual o -> strings m ->
    did W r x m s s' tr -> did W r x (bind m (coerce o)) s s' tr.
  Proof.
    intros Ho Hm Hd. destruct r as [y|]; cbn [did] in *.
    - destruct Hd as [Hx Hd]. split; [exact Hx|]. destruct (Hm _ _ _ _ Hd) as [z Hz].
      rewrite <- (app_nil_r tr). eapply bind_ok; [exact Hd|]. rewrite Hz.
      destruct Ho as [w [-> | ->]]; reflexivity.
    - destruct Hd as (e & Hx & Hd). exists e. split; [exact Hx|]. apply bind_exc. exact Hd.
  Qed.

  Section Guards.
    Variable k : kind.
    Variable oper : list CExt.ptr -> option op.
    Variable f : nat.
    Notation ans := (answers E W is_checker k oper f).
    Notation I := (interp_n E f).

    Definition present (v : value) (s : state) : Prop := forall i, v = VChk i -> st_chks s i <> None.

    Lemma slot_or_method chk s m m' :
      m <> MSetattr -> m' <> MSetattr -> (exists c, vl W chk = VChk c) -> present (vl W chk) s ->
      slot_mode s (vl W chk) m = slot_mode s (vl W chk) m'.
    Proof.
      intros _ _ [c Hc] Hp. specialize (Hp c Hc). rewrite Hc. unfold slot_mode.
      destruct (st_chks s c); [reflexivity|congruence].
    Qed.
    Lemma by_method chk s m : (forall c, vl W chk <> VChk c) -> slot_mode s (vl W chk) m = m.
    Proof. intros H. unfold slot_mode. destruct (vl W chk); try reflexivity. exfalso. eapply H. reflexivity. Qed.

    Lemma asked me m chk ob n b e p rest x s x' s' tr :
      CExtPaths.asks has_ass chk ob me n b e -> method me m ->
      st_prox s p = Some (vl W ob, vl W chk) -> present (vl W chk) s ->
      ans (e :: rest) x s x' s' tr ->
      exists s1 t1 t2 r, c_check I p m (nm W n) s = (r, s1, t1) /\ calm s s1 /\ tr = (t1 ++ t2)%list /\
        match r with
        | Ok _ => b = true /\ ans rest None s1 x' s' t2
        | Exc e => b = false /\ ans rest (Some e) s1 x' s' t2
        end.
    Proof.
      intros Ha Hm Hp Hc H.
      assert (Hs : has_ass chk = true -> me <> CExt.str_check_setattr -> forall r s1 t1,
        i_check I (slot_mode s (vl W chk) MCheck) (vl W chk) (vl W ob) (nm W n) s = (r, s1, t1) ->
        c_check I p m (nm W n) s = (r, s1, t1)).
      { intros Hh Hne r s1 t1 Hi. unfold c_check. rewrite (pget_some _ _ _ _ Hp), bind_get. cbn [fst snd].
        rewrite (slot_or_method chk s MCheck m) in Hi; try discriminate; try assumption.
        - destruct m; try exact Hi. inversion Hm; subst; congruence.
        - intros ->. inversion Hm; subst; congruence.
        - apply (ty_ass _ _ _ _ _ HT). exact Hh. }
      assert (Hm' : has_ass chk = false \/ me = CExt.str_check_setattr -> forall r s1 t1,
        i_check I m (vl W chk) (vl W ob) (nm W n) s = (r, s1, t1) ->
        c_check I p m (nm W n) s = (r, s1, t1)).
      { intros Hh r s1 t1 Hi. unfold c_check. rewrite (pget_some _ _ _ _ Hp), bind_get. cbn [fst snd].
        destruct m; try exact Hi; (destruct Hh as [Hh|Hh]; [|subst me; inversion Hm]);
          (rewrite (by_method chk); [exact Hi|]); intros c Hv;
          assert (has_ass chk = true) by (apply (ty_ass _ _ _ _ _ HT); eauto); congruence. }
      destruct Ha as [i H1 H2|H1 H2|o H1|H1]; inversion H; subst; clear H;
        try (match goal with H : method me ?m' |- _ => rewrite (method_det _ _ _ H Hm) in * end);
        do 4 eexists;
        (split; [first [eapply Hs; eassumption | eapply Hm'; eassumption]
                |split; [eassumption|split; [reflexivity|split; [reflexivity|eassumption]]]]).
    Qed.

    Lemma wrapped chk o r w p ob x s x' s' tr :
      CExtPaths.wraps_to chk o r w -> st_prox s p = Some (vl W ob, vl W chk) ->
      ans [w] x s x' s' tr -> did W r x' (c_proxy_result E I p (vl W o)) s s' tr.
    Proof.
      intros Hw Hp H. unfold did, c_proxy_result. rewrite (pget_some _ _ _ _ Hp). cbn [snd].
      destruct Hw as [l y Hl|l Hl]; inversion H; subst; clear H;
        match goal with H : answers _ _ _ _ _ _ [] _ _ _ _ _ |- _ => inversion H; subst; clear H end;
        match goal with H : _ \/ _ |- _ => idtac end;
        rewrite app_nil_r; repeat match goal with H : _ \/ _ |- _ => destruct H; subst end;
        try discriminate;
        repeat match goal with H : _ :: _ = _ :: _ |- _ => injection H; clear H; intros; subst end;
        try discriminate; eauto.
    Qed.

    Lemma guarded_agree me m chk ob n os r l p g s x s' tr :
      CExtPaths.guarded has_ass chk ob me n os r l -> method me m ->
      st_prox s p = Some (vl W ob, vl W chk) -> present (vl W chk) s ->
      oper os = Some (g (vl W ob)) ->
      ans (rev l) None s x s' tr ->
      did W r x (c_check1 E I p m (nm W n) (fun w => i_op I k (g w))) s s' tr.
    Proof.
      intros Hg Hm Hp Hc Ho H. unfold c_check1.
      destruct Hg as [e He|e He|e He|e o r w He Hw]; cbn [rev app] in H;
        destruct (asked _ _ _ _ _ _ _ _ _ _ _ _ _ _ He Hm Hp Hc H) as (s1 & t1 & t2 & [[]|ex] & H1 & H2 & -> & Hb & H3);
        try discriminate Hb; clear Hb H.
      - inversion H3; subst. rewrite app_nil_r. exists ex. split; [reflexivity|].
        apply bind_exc. exact H1.
      - inversion H3; subst; clear H3.
        match goal with H : answers _ _ _ _ _ _ [] _ _ _ _ _ |- _ => inversion H; subst; clear H end.
        rewrite app_nil_r. eexists. split; [reflexivity|].
        eapply bind_ok; [exact H1|]. rewrite (pget_some _ _ _ _ (H2 _ _ Hp)). apply bind_exc.
        rewrite Ho in *. match goal with H : Some _ = Some _ |- _ => injection H as <- end. assumption.
      - inversion H3; subst; clear H3.
        match goal with H : answers _ _ _ _ _ _ [] _ _ _ _ _ |- _ => inversion H; subst; clear H end.
        rewrite app_nil_r. eexists. split; [reflexivity|].
        eapply bind_ok; [exact H1|]. rewrite (pget_some _ _ _ _ (H2 _ _ Hp)). apply bind_exc.
        rewrite Ho in *. match goal with H : Some _ = Some _ |- _ => injection H as <- end. assumption.
      - inversion H3; subst; clear H3.
        rewrite Ho in *. match goal with H : Some _ = Some _ |- _ => injection H as <- end.
        match goal with H : i_op _ _ _ _ = (Ok _, ?s2, ?t), C : calm s1 ?s2, H' : answers _ _ _ _ _ _ [w] _ _ _ _ ?t' |- _ =>
          rename H into Hop; rename C into Hcalm; rename H' into Hrest end.
        pose proof (wrapped _ _ _ _ p ob _ _ _ _ _ Hw (Hcalm _ _ (H2 _ _ Hp)) Hrest) as Hd.
        destruct r as [y|]; cbn [did] in *.
        + destruct Hd as [-> Hd]. split; [reflexivity|].
          eapply bind_ok; [exact H1|]. rewrite (pget_some _ _ _ _ (H2 _ _ Hp)).
          eapply bind_ok; [exact Hop|exact Hd].
        + destruct Hd as (e' & -> & Hd). exists e'. split; [reflexivity|].
          eapply bind_ok; [exact H1|]. rewrite (pget_some _ _ _ _ (H2 _ _ Hp)).
          eapply bind_ok; [exact Hop|exact Hd].
    Qed.

    Ltac finish := match goal with H : answers _ _ _ _ _ _ [] _ _ _ _ _ |- _ => inversion H; subst; clear H end.
    Ltac same_op Ho := rewrite Ho in *; match goal with H : Some _ = Some _ |- _ => injection H as <- end.

    Lemma guarded_int_agree me m chk ob n os r l p g s x s' tr :
      CExtPaths.guarded_int has_ass chk ob me n os r l -> method me m ->
      st_prox s p = Some (vl W ob, vl W chk) -> present (vl W chk) s ->
      oper os = Some (g (vl W ob)) ->
      ans (rev l) None s x s' tr ->
      did_int r x (c_check0 I p m (nm W n) (fun w => i_op I k (g w))) s s' tr.
    Proof.
      intros Hg Hm Hp Hc Ho H. unfold c_check0.
      destruct Hg as [e He|e He|e i He]; cbn [rev app] in H;
        destruct (asked _ _ _ _ _ _ _ _ _ _ _ _ _ _ He Hm Hp Hc H) as (s1 & t1 & t2 & [[]|ex] & H1 & H2 & -> & Hb & H3);
        try discriminate Hb; clear Hb H.
      - inversion H3; subst. rewrite app_nil_r. right. split; [reflexivity|]. exists ex. split; [reflexivity|].
        apply bind_exc. exact H1.
      - inversion H3; subst; clear H3. finish. same_op Ho.
        rewrite app_nil_r. right. split; [reflexivity|]. eexists. split; [reflexivity|].
        eapply bind_ok; [exact H1|]. rewrite (pget_some _ _ _ _ (H2 _ _ Hp)). assumption.
      - inversion H3; subst; clear H3. finish. same_op Ho.
        rewrite app_nil_r. left. do 2 eexists. split; [reflexivity|]. split; [eassumption|].
        split; [reflexivity|].
        eapply bind_ok; [exact H1|]. rewrite (pget_some _ _ _ _ (H2 _ _ Hp)). assumption.
    Qed.

    Lemma plain_int_agree chk ob os r l p g s x s' tr :
      CExtPaths.plain_int os r l -> st_prox s p = Some (vl W ob, chk) ->
      oper os = Some (g (vl W ob)) ->
      ans (rev l) None s x s' tr ->
      did_int r x (bind (pget p) (fun wc => i_op I k (g (fst wc)))) s s' tr.
    Proof.
      intros Hg Hp Ho H. unfold did_int. rewrite (pget_some _ _ _ _ Hp). cbn [fst].
      destruct Hg as [|i]; cbn [rev app] in H; inversion H; subst; clear H; finish; same_op Ho; rewrite app_nil_r.
      - right. split; [reflexivity|]. eauto.
      - left. do 2 eexists. repeat split; eassumption.
    Qed.

    Lemma inplace_agree px chk ob n os r l p g s x s' tr :
      CExtPaths.guarded_in has_ass px chk ob CExt.str_check n os r l ->
      vl W px = VProxy p -> (forall o, vl W o = vl W ob -> o = ob) ->
      st_prox s p = Some (vl W ob, vl W chk) -> present (vl W chk) s ->
      oper os = Some (g (vl W ob)) ->
      ans (rev l) None s x s' tr ->
      did W r x (c_check2i E I p (nm W n) (fun w => i_op I k (g w))) s s' tr.
    Proof.
      intros Hg Hv Hinj Hp Hc Ho H. unfold c_check2i.
      destruct Hg as [e He|e He|e He|e o r w He Hne Hw]; cbn [rev app] in H;
        destruct (asked _ _ _ _ _ _ _ _ _ _ _ _ _ _ He me_check Hp Hc H) as (s1 & t1 & t2 & [[]|ex] & H1 & H2 & -> & Hb & H3);
        try discriminate Hb; clear Hb H.
      - inversion H3; subst. rewrite app_nil_r. exists ex. split; [reflexivity|].
        apply bind_exc. exact H1.
      - inversion H3; subst; clear H3. finish. same_op Ho.
        rewrite app_nil_r. eexists. split; [reflexivity|].
        eapply bind_ok; [exact H1|]. rewrite (pget_some _ _ _ _ (H2 _ _ Hp)). apply bind_exc. assumption.
      - inversion H3; subst; clear H3. finish. same_op Ho.
        split; [reflexivity|]. rewrite Hv.
        eapply bind_ok; [exact H1|]. rewrite (pget_some _ _ _ _ (H2 _ _ Hp)).
        eapply bind_ok; [eassumption|].
        match goal with C : calm s1 s' |- _ => rewrite (pget_some _ _ _ _ (C _ _ (H2 _ _ Hp))) end.
        cbn [fst]. rewrite (MFacts.value_eqb_refl). reflexivity.
      - inversion H3; subst; clear H3. same_op Ho.
        match goal with H : i_op _ _ _ _ = (Ok _, ?s2, ?t), C : calm s1 ?s2, H' : answers _ _ _ _ _ _ [w] _ _ _ _ ?t' |- _ =>
          rename H into Hop; rename C into Hcalm; rename H' into Hrest end.
        pose proof (Hcalm _ _ (H2 _ _ Hp)) as Hp2.
        pose proof (wrapped _ _ _ _ p ob _ _ _ _ _ Hw Hp2 Hrest) as Hd.
        assert (Hv2 : value_eqb (vl W o) (vl W ob) = false).
        { destruct (value_eqb (vl W o) (vl W ob)) eqn:Ev; [|reflexivity].
          destruct (MFacts.value_eqb_spec (vl W o) (vl W ob)) as [Eq|]; [|discriminate Ev]. destruct (Hne (Hinj _ Eq)). }
        destruct r as [y|]; cbn [did] in *.
        + destruct Hd as [-> Hd]. split; [reflexivity|].
          eapply bind_ok; [exact H1|]. rewrite (pget_some _ _ _ _ (H2 _ _ Hp)).
          eapply bind_ok; [exact Hop|]. rewrite (pget_some _ _ _ _ Hp2). cbn [fst]. rewrite Hv2. exact Hd.
        + destruct Hd as (e' & -> & Hd). exists e'. split; [reflexivity|].
          eapply bind_ok; [exact H1|]. rewrite (pget_some _ _ _ _ (H2 _ _ Hp)).
          eapply bind_ok; [exact Hop|]. rewrite (pget_some _ _ _ _ Hp2). cbn [fst]. rewrite Hv2. exact Hd.
    Qed.

    Lemma compare_agree chk ob other os r l p c s x s' tr :
      CExtPaths.compared chk os r l ->
      st_prox s p = Some (vl W ob, vl W chk) ->
      oper os = Some (OCmp c (vl W ob) other) ->
      ans (rev l) None s x s' tr ->
      did W r x (c_richcompare E I k p c other) s s' tr.
    Proof.
      intros Hg Hp Ho H. unfold c_richcompare, did. rewrite (pget_some _ _ _ _ Hp). cbn [fst].
      destruct Hg as [|o Hb|o r w N1 N2 Hw]; cbn [rev app] in H; inversion H; subst; clear H; same_op Ho.
      - finish. eexists. split; [reflexivity|]. rewrite app_nil_r. apply bind_exc. assumption.
      - finish. split; [reflexivity|]. eapply bind_ok; [eassumption|].
        apply (nd_bool _ HN) in Hb. destruct Hb as [b ->]. reflexivity.
      - match goal with H : i_op _ _ _ _ = (Ok _, ?s2, ?t), C : calm s ?s2, H' : answers _ _ _ _ _ _ [w] _ _ _ _ ?t' |- _ =>
          rename H into Hop; rename C into Hcalm; rename H' into Hrest end.
        pose proof (wrapped _ _ _ _ p ob _ _ _ _ _ Hw (Hcalm _ _ Hp) Hrest) as Hd.
        assert (Hv : forall s0, (match vl W o with VBool _ => ret (vl W o) | _ => c_proxy_result E I p (vl W o) end) s0
                     = c_proxy_result E I p (vl W o) s0).
        { intros s0. destruct (vl W o) eqn:Ev; try reflexivity.
          assert (o = CExt.Py_True \/ o = CExt.Py_False) as [|] by (apply (nd_bool _ HN); eauto); congruence. }
        destruct r as [y|]; cbn [did] in *.
        + destruct Hd as [-> Hd]. split; [reflexivity|].
          eapply bind_ok; [exact Hop|]. rewrite Hv. exact Hd.
        + destruct Hd as (e' & -> & Hd). exists e'. split; [reflexivity|].
          eapply bind_ok; [exact Hop|]. rewrite Hv. exact Hd.
    Qed.

    Lemma texted_agree ob r l s x x' s' tr :
      CExtPaths.texted ob r l -> ans (rev l) x s x' s' tr ->
      did W r x' (default_repr_c E I (vl W ob)) s s' tr.
    Proof.
      intros Hg H. unfold default_repr_c. destruct Hg as [|kl|r l n Hin|kl n b r|kl n b m b' r].
      - cbn [rev app] in H. inversion H; subst; clear H. finish. rewrite app_nil_r.
        eexists. split; [reflexivity|]. apply bind_exc. assumption.
      - cbn [rev app] in H. inversion H; subst; clear H.
        match goal with H : ans (_ :: _) _ _ _ _ _ |- _ => inversion H; subst; clear H end. finish. rewrite app_nil_r.
        eexists. split; [reflexivity|]. eapply bind_ok; [eassumption|].
        match goal with H : _ \/ _ |- _ => destruct H as [[_ ->]|[Hx ?]]; [|discriminate Hx] end.
        apply bind_exc. assumption.
      - apply in_rev in Hin. destruct (answered _ _ _ _ _ _ _ _ _ H _ Hin).
      - cbn [rev app] in H. inversion H; subst; clear H.
        do 4 (match goal with H : ans (_ :: _) _ _ _ _ _ |- _ => inversion H; subst; clear H end). finish.
        all: match goal with H : _ = CExtDecide.out_ptr ?r |- _ => destruct r; [|discriminate H]; injection H as -> | H : CExtDecide.out_ptr ?r = _ |- _ => destruct r; [|discriminate H]; injection H as -> end.
        repeat match goal with H : CExt.str_name = _ /\ _ \/ _ |- _ => destruct H as [[_ ->]|[Hx _]]; [|discriminate Hx] end.
        repeat match goal with H : CExt.str_module = _ /\ _ \/ _ |- _ => destruct H as [[Hx _]|[_ ->]]; [discriminate Hx|] end.
        split; [reflexivity|]. eapply bind_ok; [eassumption|]. eapply bind_ok; [eassumption|].
        eapply bind_ok.
        + unfold catch. rewrite (bind_exc _ _ _ _ _ _ ltac:(eassumption)). cbn. rewrite app_nil_r. reflexivity.
        + unfold ret. match goal with H : vl W _ = VStr _ |- _ => rewrite H end.
          repeat match goal with H : txt W _ = _ |- _ => rewrite H; clear H end. reflexivity.
      - cbn [rev app] in H. inversion H; subst; clear H.
        do 5 (match goal with H : ans (_ :: _) _ _ _ _ _ |- _ => inversion H; subst; clear H end). finish.
        all: match goal with H : _ = CExtDecide.out_ptr ?r |- _ => destruct r; [|discriminate H]; injection H as -> | H : CExtDecide.out_ptr ?r = _ |- _ => destruct r; [|discriminate H]; injection H as -> end.
        repeat match goal with H : CExt.str_name = _ /\ _ \/ _ |- _ => destruct H as [[_ ->]|[Hx _]]; [|discriminate Hx] end.
        repeat match goal with H : CExt.str_module = _ /\ _ \/ _ |- _ => destruct H as [[Hx _]|[_ ->]]; [discriminate Hx|] end.
        split; [reflexivity|]. eapply bind_ok; [eassumption|]. eapply bind_ok; [eassumption|].
        eapply bind_ok.
        + unfold catch. erewrite bind_ok; [|eassumption|reflexivity]. rewrite app_nil_r. reflexivity.
        + unfold ret. match goal with H : vl W _ = VStr _ |- _ => rewrite H end.
          repeat match goal with H : txt W _ = _ |- _ => rewrite H; clear H end. reflexivity.
    Qed.

    Lemma text_agree chk ob n r l p g s x s' tr :
      CExtPaths.guarded_text has_ass chk ob n r l ->
      st_prox s p = Some (vl W ob, vl W chk) -> present (vl W chk) s ->
      oper [Some ob] = Some (g (vl W ob)) ->
      ans (rev l) None s x s' tr ->
      did W r x (c_str_like E I p (nm W n) (fun w => i_op I k (g w))) s s' tr.
    Proof.
      intros Hg Hp Hc Ho H. unfold c_str_like.
      destruct Hg as [e r He|e r l He Hl]; [cbn [rev app] in H|rewrite rev_app_distr in H; cbn [rev app] in H];
        destruct (asked _ _ _ _ _ _ _ _ _ _ _ _ _ _ He me_check Hp Hc H) as (s1 & t1 & t2 & [[]|ex] & H1 & H2 & -> & Hb & H3);
        try discriminate Hb; clear Hb H.
      - destruct r as [y|]; cbn [did CExtDecide.out_ptr] in *; inversion H3; subst; clear H3; finish; same_op Ho;
          rewrite app_nil_r.
        + split; [reflexivity|]. eapply bind_ok.
          * unfold catch. erewrite bind_ok; [|eassumption|reflexivity]. rewrite app_nil_r. reflexivity.
          * rewrite (pget_some _ _ _ _ (H2 _ _ Hp)). assumption.
        + eexists. split; [reflexivity|]. eapply bind_ok.
          * unfold catch. erewrite bind_ok; [|eassumption|reflexivity]. rewrite app_nil_r. reflexivity.
          * rewrite (pget_some _ _ _ _ (H2 _ _ Hp)). assumption.
      - pose proof (texted_agree _ _ _ _ _ _ _ _ Hl H3) as Hd.
        destruct r as [y|]; cbn [did] in *.
        + destruct Hd as [-> Hd]. split; [reflexivity|]. eapply bind_ok.
          * unfold catch. rewrite (bind_exc _ _ _ _ _ _ H1). cbn. rewrite app_nil_r. reflexivity.
          * rewrite (pget_some _ _ _ _ (H2 _ _ Hp)). exact Hd.
        + destruct Hd as (e' & -> & Hd). exists e'. split; [reflexivity|]. eapply bind_ok.
          * unfold catch. rewrite (bind_exc _ _ _ _ _ _ H1). cbn. rewrite app_nil_r. reflexivity.
          * rewrite (pget_some _ _ _ _ (H2 _ _ Hp)). exact Hd.
    Qed.
  End Guards.

  Section Slots.
    Variable oracle : nat -> CExt.answer.
    Variable args : list CExt.obj.
    Variables has_num has_next : CExt.obj -> bool.
    Variable k : kind.
    Variable f : nat.
    Hypothesis HI : e_impl E = ImplC.

    Definition agrees {R} (post : R -> option exn -> state -> list event -> Prop)
      (oper : list CExt.ptr -> option op) (c0 c1 : CExt.cst) (s : state) (r : R) : Prop :=
      exists calls, CExt.log c1 = (rev calls ++ CExt.log c0)%list /\
        forall x s' tr, answers E W is_checker k oper f calls None s x s' tr -> post r x s' tr.

    Lemma agrees_path {R} (P : R -> list CExt.entry -> Prop)
      (post : R -> option exn -> state -> list event -> Prop) oper c0 c1 s (r : R) :
      CExtPaths.path P c0 r c1 ->
      (forall l x s' tr, P r l -> answers E W is_checker k oper f (rev l) None s x s' tr -> post r x s' tr) ->
      agrees post oper c0 c1 s r.
    Proof.
      intros (l & Hm & Hl) H. exists (rev l). split.
      - rewrite rev_involutive. apply (CExtDecide.md_log _ _ _ Hm).
      - intros x s' tr Ha. exact (H l x s' tr Hl Ha).
    Qed.

    Lemma slot_path_agree px ob chk p me m n os (P : CExt.C CExt.ptr) oper g m0 c0 c1 s r :
      stands W px ob chk p c0 s -> P c0 = Some (r, c1) -> method me m ->
      (CExt.f1 c0 px = Some ob -> CExt.f2 c0 px = Some chk ->
       CExtFacts.wp P c0 (CExtPaths.path (CExtPaths.guarded has_ass chk ob me n os) c0)) ->
      oper os = Some (g (vl W ob)) ->
      m0 = c_check1 E (interp_n E f) p m (nm W n) (fun w => i_op (interp_n E f) k (g w)) ->
      agrees (fun r x s' tr => did W r x m0 s s' tr) oper c0 c1 s r.
    Proof.
      intros (Hv & H1 & H2 & Hp & Hc) HP Hm Hwp Ho ->.
      apply (agrees_path _ _ _ _ _ _ _ (wp_run _ _ _ _ _ (Hwp H1 H2) HP)).
      intros l x s' tr Hl Ha. eapply guarded_agree; eassumption.
    Qed.

    Lemma px_is_proxy px p : vl W px = VProxy p -> is_proxy px = true.
    Proof. intros H. rewrite (ty_proxy _ _ _ _ _ HT), H. reflexivity. Qed.

    Lemma object_agree px ob chk p slot oper m c0 c1 s r :
      object_op E W oracle args is_proxy has_sub has_ass has_num has_next k f px ob p slot oper m ->
      stands W px ob chk p c0 s -> slot c0 = Some (r, c1) ->
      agrees (fun r x s' tr => did W r x m s s' tr) oper c0 c1 s r.
    Proof.
      intros Hop Hst Hrun.
      pose proof (px_is_proxy px p (proj1 Hst)) as Hpx.
      destruct Hop as [u o Hn|u o Hn Hnum|b other o ro Hn|b other o ro Hn Hnp| |Hnext|n fr|a|other|other Hnp
                      |other modulus|other modulus Hnp|base other Hnp Hnp2|key].
      - eapply slot_path_agree; [exact Hst|exact Hrun|apply me_check| | |].
        + intros H1 H2. unfold CExt.check1, CExt.checked.
          apply (CExtPaths.p_slot _ _ _ _ px ob chk _ o _ (fun ob => CExt.call_new oracle args CExt.AOp [ob]) _ H1 H2).
          apply CExtPaths.one_new.
        + reflexivity.
        + cbn [i_op interp_n run_op]. unfold proxy_guard. rewrite HI, Hn. reflexivity.
      - eapply slot_path_agree; [exact Hst|exact Hrun|apply me_check| | |].
        + intros H1 H2. unfold CExt.proxy_number.
          apply (CExtPaths.p_slot _ _ _ _ px ob chk _ o _ (fun ob => CExt.call_number oracle args has_num ob) _ H1 H2).
          apply CExtPaths.one_number. exact Hnum.
        + reflexivity.
        + cbn [i_op interp_n run_op]. unfold proxy_guard. rewrite HI, Hn. reflexivity.
      - eapply slot_path_agree; [exact Hst|exact Hrun|apply me_check| | |].
        + intros H1 H2. unfold CExt.check2. rewrite Hpx.
          apply (CExtPaths.p_slot _ _ _ _ px ob chk _ o _
                   (fun ob => CExt.call_new oracle args CExt.AOp [ob; Some other]) _ H1 H2).
          apply CExtPaths.one_new.
        + cbn [on2]. apply (f_equal Some).
          match goal with |- OBin b (vl W ob) (vl W other) = ?g (vl W ob) =>
            unify g (fun v => OBin b v (vl W other)) end. reflexivity.
        + cbn [i_op interp_n run_op]. unfold proxy_bin_left, proxy_guard. rewrite HI, Hn. reflexivity.
      - eapply slot_path_agree; [exact Hst|exact Hrun|apply me_check| | |].
        + intros H1 H2. unfold CExt.check2. rewrite Hnp, Hpx.
          apply (CExtPaths.p_slot _ _ _ _ px ob chk _ ro _
                   (fun ob => CExt.call_new oracle args CExt.AOp [Some other; ob]) _ H1 H2).
          apply CExtPaths.one_new.
        + cbn [on2]. apply (f_equal Some).
          match goal with |- OBin b (vl W other) (vl W ob) = ?g (vl W ob) =>
            unify g (fun v => OBin b (vl W other) v) end. reflexivity.
        + unfold proxy_bin_right, proxy_guard. rewrite HI, Hn. reflexivity.
      - eapply slot_path_agree; [exact Hst|exact Hrun|apply me_check| | |].
        + intros H1 H2. unfold CExt.proxy_iter, CExt.checked.
          apply (CExtPaths.p_slot _ _ _ _ px ob chk _ CExt.str_iter _ (fun ob => CExt.call_new oracle args CExt.AOp [ob]) _ H1 H2).
          apply CExtPaths.one_new.
        + reflexivity.
        + cbn [i_op interp_n run_op]. unfold proxy_guard. rewrite HI, (nd_iter _ HN). reflexivity.
      - eapply slot_path_agree; [exact Hst|exact Hrun|apply me_getattr| | |].
        + intros H1 H2. unfold CExt.proxy_iternext.
          apply (CExtPaths.p_slot _ _ _ _ px ob chk _ CExt.str_next _ (fun ob => CExt.PyIter_Next oracle args has_next ob) _ H1 H2).
          apply CExtPaths.one_next. exact Hnext.
        + reflexivity.
        + cbn [i_op interp_n run_op]. unfold proxy_guard. rewrite HI, (nd_next _ HN). reflexivity.
      - eapply slot_path_agree; [exact Hst|exact Hrun|apply me_getattr| | |].
        + intros H1 H2. unfold CExt.proxy_getattro, CExt.checked.
          apply (CExtPaths.p_slot _ _ _ _ px ob chk _ n _
                   (fun ob => CExt.call_new oracle args CExt.AOp [ob; Some n]) _ H1 H2).
          apply CExtPaths.one_new.
        + cbv beta iota. apply (f_equal Some).
          match goal with |- _ = ?g (vl W ob) => unify g (fun v => OGetattr v (nm W n) None) end. reflexivity.
        + cbn [i_op interp_n run_op]. unfold proxy_getattr. rewrite HI. reflexivity.
      - eapply slot_path_agree; [exact Hst|exact Hrun|apply me_check| | |].
        + intros H1 H2. unfold CExt.proxy_call, CExt.checked.
          apply (CExtPaths.p_slot _ _ _ _ px ob chk _ CExt.str_call _
                   (fun ob => CExt.call_new oracle args CExt.AOp [ob; Some a]) _ H1 H2).
          apply CExtPaths.one_new.
        + cbv beta iota. apply (f_equal Some).
          match goal with |- _ = ?g (vl W ob) => unify g (fun v => OCall v (tup W a)) end. reflexivity.
        + cbn [i_op interp_n run_op]. unfold proxy_guard. rewrite HI, (nd_call _ HN). reflexivity.
      - eapply slot_path_agree; [exact Hst|exact Hrun|apply me_check| | |].
        + intros H1 H2. unfold CExt.proxy_pow, CExt.checked. rewrite Hpx.
          apply (CExtPaths.p_slot _ _ _ _ px ob chk _ CExt.str_pow _
                   (fun ob => CExt.call_new oracle args CExt.AOp [ob; Some other; Some CExt.Py_None]) _ H1 H2).
          apply CExtPaths.one_new.
        + cbv beta iota. apply (f_equal Some).
          match goal with |- _ = ?g (vl W ob) => unify g (fun v => OBin BPow v (vl W other)) end. reflexivity.
        + cbn [i_op interp_n run_op]. unfold proxy_bin_left, proxy_guard. rewrite HI, (nd_pow _ HN). reflexivity.
      - eapply slot_path_agree; [exact Hst|exact Hrun|apply me_check| | |].
        + intros H1 H2. unfold CExt.proxy_pow, CExt.checked. rewrite Hnp, Hpx.
          apply (CExtPaths.p_slot _ _ _ _ px ob chk _ CExt.str_rpow _
                   (fun ob => CExt.call_new oracle args CExt.AOp [Some other; ob; Some CExt.Py_None]) _ H1 H2).
          apply CExtPaths.one_new.
        + cbv beta iota. apply (f_equal Some).
          match goal with |- _ = ?g (vl W ob) => unify g (fun v => OBin BPow (vl W other) v) end. reflexivity.
        + unfold proxy_bin_right, proxy_guard. rewrite HI, (nd_rpow _ HN). reflexivity.
      - eapply slot_path_agree; [exact Hst|exact Hrun|apply me_check| | |].
        + intros H1 H2. unfold CExt.proxy_pow, CExt.checked. rewrite Hpx.
          apply (CExtPaths.p_slot _ _ _ _ px ob chk _ CExt.str_pow _
                   (fun ob => CExt.call_new oracle args CExt.AOp [ob; Some other; Some modulus]) _ H1 H2).
          apply CExtPaths.one_new.
        + cbn [on3]. apply (f_equal Some).
          match goal with |- _ = ?g (vl W ob) => unify g (fun v => OPow3 v (vl W other) (vl W modulus)) end. reflexivity.
        + cbn [i_op interp_n run_op]. unfold proxy_pow3, proxy_guard. rewrite HI, (nd_pow _ HN). reflexivity.
      - eapply slot_path_agree; [exact Hst|exact Hrun|apply me_check| | |].
        + intros H1 H2. unfold CExt.proxy_pow, CExt.checked. rewrite Hnp, Hpx.
          apply (CExtPaths.p_slot _ _ _ _ px ob chk _ CExt.str_rpow _
                   (fun ob => CExt.call_new oracle args CExt.AOp [Some other; ob; Some modulus]) _ H1 H2).
          apply CExtPaths.one_new.
        + cbn [on3]. apply (f_equal Some).
          match goal with |- _ = ?g (vl W ob) => unify g (fun v => OPow3 (vl W other) v (vl W modulus)) end. reflexivity.
        + rewrite (nd_rpow _ HN). reflexivity.
      - eapply slot_path_agree; [exact Hst|exact Hrun|apply me_check| | |].
        + intros H1 H2. unfold CExt.proxy_pow, CExt.checked. rewrite Hnp, Hnp2, Hpx.
          apply (CExtPaths.p_slot _ _ _ _ px ob chk _ CExt.str_pow3 _
                   (fun ob => CExt.call_new oracle args CExt.AOp [Some base; Some other; ob]) _ H1 H2).
          apply CExtPaths.one_new.
        + cbn [on3]. apply (f_equal Some).
          match goal with |- _ = ?g (vl W ob) => unify g (fun v => OPow3 (vl W base) (vl W other) v) end. reflexivity.
        + rewrite (nd_pow3 _ HN). reflexivity.
      - eapply slot_path_agree; [exact Hst|exact Hrun|apply me_check| | |].
        + intros H1 H2. unfold CExt.proxy_getitem, CExt.checked.
          apply (CExtPaths.p_slot _ _ _ _ px ob chk _ CExt.str_getitem _
                   (fun ob => CExt.call_new oracle args CExt.AOp [ob; Some key]) _ H1 H2).
          apply CExtPaths.one_new.
        + cbn [on2]. apply (f_equal Some).
          match goal with |- _ = ?g (vl W ob) => unify g (fun v => OGetitem v (vl W key)) end. reflexivity.
        + cbn [i_op interp_n run_op]. unfold proxy_guard. rewrite HI, (nd_getitem _ HN). reflexivity.
    Qed.

    Lemma int_path_agree px ob chk p me m n os (P : CExt.C Z) oper g m0 c0 c1 s r :
      stands W px ob chk p c0 s -> P c0 = Some (r, c1) -> method me m ->
      (CExt.f1 c0 px = Some ob -> CExt.f2 c0 px = Some chk ->
       CExtFacts.wp P c0 (CExtPaths.path (CExtPaths.guarded_int has_ass chk ob me n os) c0)) ->
      oper os = Some (g (vl W ob)) ->
      m0 = c_check0 (interp_n E f) p m (nm W n) (fun w => i_op (interp_n E f) k (g w)) ->
      agrees (fun r x s' tr => did_int r x m0 s s' tr) oper c0 c1 s r.
    Proof.
      intros (Hv & H1 & H2 & Hp & Hc) HP Hm Hwp Ho ->.
      apply (agrees_path _ _ _ _ _ _ _ (wp_run _ _ _ _ _ (Hwp H1 H2) HP)).
      intros l x s' tr Hl Ha. eapply guarded_int_agree; eassumption.
    Qed.

    Lemma int_agree px ob chk p slot oper m c0 c1 s r :
      int_op E W oracle args has_ass k f px p slot oper m ->
      stands W px ob chk p c0 s -> slot c0 = Some (r, c1) ->
      agrees (fun r x s' tr => did_int r x m s s' tr) oper c0 c1 s r.
    Proof.
      intros Hop Hst Hrun.
      destruct Hop as [n v|n| |v|key v|key| |].
      - eapply int_path_agree; [exact Hst|exact Hrun|apply me_setattr| | |].
        + intros H1 H2. unfold CExt.proxy_setattro.
          apply (CExtPaths.p_int_slot _ _ _ px ob chk _ n _ (fun ob => [ob; Some n; Some v]) _ H1 H2). reflexivity.
        + cbv beta iota. apply (f_equal Some).
          match goal with |- _ = ?g (vl W ob) => unify g (fun w => OSetattr w (nm W n) (vl W v)) end. reflexivity.
        + cbn [i_op interp_n run_op]. unfold proxy_setattr. rewrite HI. reflexivity.
      - eapply int_path_agree; [exact Hst|exact Hrun|apply me_setattr| | |].
        + intros H1 H2. unfold CExt.proxy_setattro.
          apply (CExtPaths.p_int_slot _ _ _ px ob chk _ n _ (fun ob => [ob; Some n]) _ H1 H2). reflexivity.
        + cbv beta iota. apply (f_equal Some).
          match goal with |- _ = ?g (vl W ob) => unify g (fun w => ODelattr w (nm W n)) end. reflexivity.
        + cbn [i_op interp_n run_op]. unfold proxy_delattr. rewrite HI. reflexivity.
      - eapply int_path_agree; [exact Hst|exact Hrun|apply me_check| | |].
        + intros H1 H2. unfold CExt.proxy_length, CExt.checked_int.
          apply (CExtPaths.p_int_slot _ _ _ px ob chk _ CExt.str_len _ (fun ob => [ob]) _ H1 H2). reflexivity.
        + reflexivity.
        + cbn [i_op interp_n run_op]. rewrite HI, (nd_len _ HN). reflexivity.
      - eapply int_path_agree; [exact Hst|exact Hrun|apply me_check| | |].
        + intros H1 H2. unfold CExt.proxy_contains, CExt.checked_int.
          apply (CExtPaths.p_int_slot _ _ _ px ob chk _ CExt.str_contains _ (fun ob => [ob; Some v]) _ H1 H2). reflexivity.
        + cbn [on2]. apply (f_equal Some).
          match goal with |- _ = ?g (vl W ob) => unify g (fun w => OContains w (vl W v)) end. reflexivity.
        + cbn [i_op interp_n run_op]. rewrite HI, (nd_contains _ HN). reflexivity.
      - eapply int_path_agree; [exact Hst|exact Hrun|apply me_check| | |].
        + intros H1 H2. unfold CExt.proxy_setitem, CExt.checked_int.
          apply (CExtPaths.p_int_slot _ _ _ px ob chk _ CExt.str_setitem _ (fun ob => [ob; Some key; Some v]) _ H1 H2). reflexivity.
        + cbn [on3]. apply (f_equal Some).
          match goal with |- _ = ?g (vl W ob) => unify g (fun w => OSetitem w (vl W key) (vl W v)) end. reflexivity.
        + cbn [i_op interp_n run_op]. rewrite HI, (nd_setitem _ HN). reflexivity.
      - eapply int_path_agree; [exact Hst|exact Hrun|apply me_check| | |].
        + intros H1 H2. unfold CExt.proxy_setitem, CExt.checked_int.
          apply (CExtPaths.p_int_slot _ _ _ px ob chk _ CExt.str_delitem _ (fun ob => [ob; Some key]) _ H1 H2). reflexivity.
        + cbn [on2]. apply (f_equal Some).
          match goal with |- _ = ?g (vl W ob) => unify g (fun w => ODelitem w (vl W key)) end. reflexivity.
        + cbn [i_op interp_n run_op]. rewrite HI, (nd_delitem _ HN). reflexivity.
      - destruct Hst as (Hv & H1 & H2 & Hp & Hc). unfold CExt.proxy_hash in Hrun.
        apply (agrees_path _ _ _ _ _ _ _ (wp_run _ _ _ _ _ (CExtPaths.p_plain_int _ _ px ob c0 H1) Hrun)).
        intros l x s' tr Hl Ha. cbn [i_op interp_n run_op]. rewrite HI.
        eapply (plain_int_agree k); [exact Hl|exact Hp| |exact Ha]. reflexivity.
      - destruct Hst as (Hv & H1 & H2 & Hp & Hc). unfold CExt.proxy_bool in Hrun.
        apply (agrees_path _ _ _ _ _ _ _ (wp_run _ _ _ _ _ (CExtPaths.p_plain_int _ _ px ob c0 H1) Hrun)).
        intros l x s' tr Hl Ha. cbn [i_op interp_n run_op]. rewrite HI.
        eapply (plain_int_agree k); [exact Hl|exact Hp| |exact Ha]. reflexivity.
    Qed.

    Lemma in_place_agree px ob chk p b other o c0 c1 s r :
      nm W o = c_inop_name b -> (forall q, vl W q = vl W ob -> q = ob) ->
      stands W px ob chk p c0 s ->
      CExt.check2i oracle args has_sub has_ass px other o c0 = Some (r, c1) ->
      agrees (fun r x s' tr => did W r x (i_op (interp_n E (S f)) k (OIn b (VProxy p) (vl W other))) s s' tr)
        (on2 W (OIn b)) c0 c1 s r.
    Proof.
      intros Hn Hinj (Hv & H1 & H2 & Hp & Hc) Hrun.
      apply (agrees_path _ _ _ _ _ _ _ (wp_run _ _ _ _ _ (CExtPaths.p_inplace _ _ _ _ px ob chk other o c0 H1 H2) Hrun)).
      intros l x s' tr Hl Ha. cbn [i_op interp_n run_op]. unfold proxy_inplace. rewrite HI, <- Hn.
      eapply (inplace_agree k _ f px chk ob o _ r l p (fun w => OIn b w (vl W other))); try eassumption. reflexivity.
    Qed.

    Lemma richcompare_agree px ob chk p c other c0 c1 s r :
      stands W px ob chk p c0 s ->
      CExt.proxy_richcompare oracle args has_sub px other c0 = Some (r, c1) ->
      agrees (fun r x s' tr => did W r x (i_op (interp_n E (S f)) k (OCmp c (VProxy p) (vl W other))) s s' tr)
        (on2 W (OCmp c)) c0 c1 s r.
    Proof.
      intros (Hv & H1 & H2 & Hp & Hc) Hrun.
      apply (agrees_path _ _ _ _ _ _ _ (wp_run _ _ _ _ _ (CExtPaths.p_compare _ _ _ px ob chk other c0 H1 H2) Hrun)).
      intros l x s' tr Hl Ha. cbn [i_op interp_n run_op]. rewrite HI.
      eapply (compare_agree k); try eassumption. reflexivity.
    Qed.

    Lemma str_agree px ob chk p c0 c1 s r :
      stands W px ob chk p c0 s ->
      CExt.proxy_text oracle args has_ass CExt.str_str px c0 = Some (r, c1) ->
      agrees (fun r x s' tr => did W r x (i_op (interp_n E (S f)) k (OStr (VProxy p))) s s' tr)
        (on1 W OStr) c0 c1 s r.
    Proof.
      intros (Hv & H1 & H2 & Hp & Hc) Hrun.
      apply (agrees_path _ _ _ _ _ _ _ (wp_run _ _ _ _ _ (CExtPaths.p_text _ _ _ px ob chk _ c0 H1 H2) Hrun)).
      intros l x s' tr Hl Ha. cbn [i_op interp_n run_op]. rewrite HI.
      apply did_coerced; [eexists; eauto|apply text_strings; intros w; eexists; eauto|].
      rewrite <- (nd_str _ HN). eapply (text_agree k); try eassumption. reflexivity.
    Qed.
    Lemma repr_agree px ob chk p c0 c1 s r :
      stands W px ob chk p c0 s ->
      CExt.proxy_text oracle args has_ass CExt.str_repr px c0 = Some (r, c1) ->
      agrees (fun r x s' tr => did W r x (i_op (interp_n E (S f)) k (ORepr (VProxy p))) s s' tr)
        (on1 W ORepr) c0 c1 s r.
    Proof.
      intros (Hv & H1 & H2 & Hp & Hc) Hrun.
      apply (agrees_path _ _ _ _ _ _ _ (wp_run _ _ _ _ _ (CExtPaths.p_text _ _ _ px ob chk _ c0 H1 H2) Hrun)).
      intros l x s' tr Hl Ha. cbn [i_op interp_n run_op]. rewrite HI.
      apply did_coerced; [eexists; eauto|apply text_strings; intros w; eexists; eauto|].
      rewrite <- (nd_repr _ HN). eapply (text_agree k); try eassumption. reflexivity.
    Qed.
  End Slots.
End Agree.
