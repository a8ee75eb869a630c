(** * CombineFacts: CombinedChecker chains and watching checkers. *)

From Coq Require Import List String Bool Arith ZArith Lia.
From Verif Require Import Base Domain CheckerModel ProxyModel MFacts Spec CheckFacts.
Import ListNotations.
Open Scope string_scope.
Open Scope m_scope.

(** ** The effect of checks on checkers *)

Lemma checkers_kept_refl s : checkers_kept s s.
Proof. intros i k H; auto. Qed.

Lemma checkers_kept_trans s1 s2 s3 :
  checkers_kept s1 s2 -> checkers_kept s2 s3 -> checkers_kept s1 s3.
Proof.
  intros H1 H2 i k Hi. destruct (H1 _ _ Hi) as (Ha & Hb & Hc).
  destruct (H2 _ _ Ha) as (Hd & He & Hf). repeat split; congruence.
Qed.

(** Evaluating truth keeps checkers if foreign code does. *)
Lemma bool_keeps E f v s r s' tr :
  foreign_keeps_checkers E ->
  i_op (interp_n E f) Probe (OBool v) s = (r, s', tr) -> checkers_kept s s'.
Proof.
  intros HE. revert v s r s' tr. induction f as [|f IH]; intros v s r s' tr H.
  - simpl in H. minj H. apply checkers_kept_refl.
  - simpl in H.
    assert (Hraw : forall v0, raw E Probe (OBool v0) s = (r, s', tr) ->
                              checkers_kept s s').
    { intros v0 H0. unfold raw in H0. mbind H0.
      - unfold foreign in Hm. destruct (e_run E (e_tid E) _ s) as [r0 s0] eqn:Hr0.
        minj Hm. eapply HE; eauto.
      - unfold foreign in Hm. destruct (e_run E (e_tid E) _ s) as [r0 s0] eqn:Hr0.
        minj Hm. simpl in Hf. destruct a; minj Hf; eapply HE; eauto. }
    destruct v; try (apply (Hraw _ H)).
    destruct (e_impl E).
    + unfold py_bool in H. mbind H.
      * unfold pget in Hm. msimpl. destruct (st_prox s p); minj Hm.
        apply checkers_kept_refl.
      * unfold pget in Hm. msimpl. destruct (st_prox s p); minj Hm. eauto.
    + mbind H.
      * unfold pget in Hm. msimpl. destruct (st_prox s p); minj Hm.
        apply checkers_kept_refl.
      * unfold pget in Hm. msimpl. destruct (st_prox s p); minj Hm. eauto.
Qed.

Lemma truth_keeps E f v s r s' tr :
  foreign_keeps_checkers E ->
  truth (interp_n E f) v s = (r, s', tr) -> checkers_kept s s'.
Proof.
  intros HE H.
  assert (Hobj : (r0 <- i_op (interp_n E f) Probe (OBool v) ;;
                  match r0 with
                  | VBool b => ret b
                  | _ => raise (EType "__bool__")
                  end) s = (r, s', tr) -> checkers_kept s s').
  { clear H. intros H. mbind H.
    - eapply bool_keeps; eauto.
    - apply bool_keeps in Hm; auto. destruct a; minj Hf; auto. }
  destruct v; simpl in H; try (minj H; apply checkers_kept_refl); apply (Hobj H).
Qed.

Lemma tl_check_keeps E f p obj s r s' tr :
  foreign_keeps_checkers E ->
  tl_checkPermission E (interp_n E f) p obj s = (r, s', tr) -> checkers_kept s s'.
Proof.
  intros HE H. unfold tl_checkPermission in H. msimpl.
  destruct (tl_inter (st_tls s (e_tid E))) as [iv|]; [|minj H; apply checkers_kept_refl].
  assert (Hfor : (b <- catch (v <- foreign_quiet E (CallPerm iv p obj) ;;
                              truth (interp_n E f) v)
                     (fun e => emit (EAsk (e_tid E) iv p obj None) ;;; raise e) ;;
                  emit (EAsk (e_tid E) iv p obj (Some b)) ;;; ret b) s = (r, s', tr) ->
                 checkers_kept s s').
  { clear H. intros H.
    assert (Hin : forall r0 s0 t0,
               (v <- foreign_quiet E (CallPerm iv p obj) ;; truth (interp_n E f) v) s
               = (r0, s0, t0) -> checkers_kept s s0).
    { intros r0 s0 t0 H0. mbind H0.
      - unfold foreign_quiet in Hm. destruct (e_run E _ _ s) eqn:Hr0. minj Hm.
        eapply HE; eauto.
      - unfold foreign_quiet in Hm. destruct (e_run E _ _ s) eqn:Hr0. minj Hm.
        eapply checkers_kept_trans; [eapply HE; eauto | eapply truth_keeps; eauto]. }
    mbind H.
    - mcatch Hm; [congruence|]. msimpl. minj Hf. eauto.
    - msimpl. minj Hf. mcatch Hm; [eauto|]. msimpl. minj Hf. }
  unfold ask in H.
  destruct iv; msimpl; try (minj H; apply checkers_kept_refl); try (apply (Hfor H)).
  destruct (st_inters s i); msimpl; minj H; apply checkers_kept_refl.
Qed.

Lemma ask_then_keeps E f p obj n s r s' tr :
  foreign_keeps_checkers E ->
  (b <- tl_checkPermission E (interp_n E f) p obj ;;
   if (b : bool) then ret tt else raise (EUnauthorized obj n p)) s = (r, s', tr) ->
  checkers_kept s s'.
Proof.
  intros HE H. mbind H; [eapply tl_check_keeps; eauto|].
  apply tl_check_keeps in Hm; auto. destruct a; minj Hf; auto.
Qed.

Lemma Checker_check_keeps E f k obj n s r s' tr :
  foreign_keeps_checkers E -> (n = "__iter__" -> plain_object obj) ->
  Checker_check E (interp_n E (S f)) k obj n s = (r, s', tr) -> checkers_kept s s'.
Proof.
  intros HE Hobj H. unfold Checker_check in H. destruct (e_cimpl E).
  - unfold CheckerPy_check in H. msimpl.
    destruct (negb _).
    + destruct (perm_eqb _ _); [minj H; apply checkers_kept_refl|].
      eapply ask_then_keeps; eauto.
    + destruct (mem n _); [minj H; apply checkers_kept_refl|].
      destruct (String.eqb_spec n "__iter__"); cbn [negb] in H.
      * unfold bind in H. rewrite hasattr_py_eq in H by (auto; congruence).
        destruct (e_run E _ _ s) as [[v|e0] s1] eqn:Hr.
        -- minj H. eapply HE; eauto.
        -- destruct (is_attribute_error e0); minj H; eapply HE; eauto.
      * msimpl. minj H. apply checkers_kept_refl.
  - unfold CheckerC_check_int in H. msimpl.
    destruct (dget _ _ n).
    + destruct (perm_eqb _ _); [minj H; apply checkers_kept_refl|].
      eapply ask_then_keeps; eauto.
    + destruct (is_operator n); [|minj H; apply checkers_kept_refl].
      destruct (mem n _); [minj H; apply checkers_kept_refl|].
      destruct (String.eqb_spec n "__iter__"); [|minj H; apply checkers_kept_refl].
      unfold bind in H. rewrite hasattr_c_eq in H by (auto; congruence).
      destruct (e_run E _ _ s) as [[v|e0] s1] eqn:Hr; minj H; eapply HE; eauto.
Qed.

Lemma Checker_check_setattr_keeps E f k obj n s r s' tr :
  foreign_keeps_checkers E ->
  Checker_check_setattr E (interp_n E f) k obj n s = (r, s', tr) -> checkers_kept s s'.
Proof.
  intros HE H. unfold Checker_check_setattr in H. destruct (e_cimpl E).
  - unfold CheckerPy_check_setattr in H. msimpl.
    destruct (negb _); [|minj H; apply checkers_kept_refl].
    destruct (perm_eqb _ _); [minj H; apply checkers_kept_refl|].
    eapply ask_then_keeps; eauto.
  - unfold CheckerC_check_setattr in H. msimpl.
    destruct (dget String.eqb (st_dicts s (ck_set k)) n); [|minj H; apply checkers_kept_refl].
    destruct (negb _); [|minj H; apply checkers_kept_refl].
    eapply ask_then_keeps; eauto.
Qed.

(** ** Chains *)

Lemma PlainChecker_kept s s' c g w :
  checkers_kept s s' -> PlainChecker s c g w -> PlainChecker s' c g w.
Proof.
  intros Hk (i & k & -> & Hi & Hp & Hg & Hw).
  destruct (Hk _ _ Hi) as (Ha & Hb & Hc).
  exists i, k. repeat split; congruence.
Qed.

Lemma Chain_kept s s' c gs ws :
  checkers_kept s s' -> Chain s c gs ws -> Chain s' c gs ws.
Proof.
  intros Hk H. induction H as [c g w H | i k c2 gs ws Hi Hc H IH].
  - constructor. eapply PlainChecker_kept; eauto.
  - destruct (Hk _ _ Hi) as (Ha & Hb & Hd). rewrite <- Hb, <- Hd.
    econstructor; eauto.
Qed.

Definition read_ck E obj n := fun s tb r s' tr => ReadCheck E s tb obj n r s' tr.
Definition write_ck E obj n := fun s tb r s' tr => WriteCheck E s tb obj n r s' tr.

Lemma Tries_nonempty ck s tbs rs s' tr : Tries ck s tbs rs s' tr -> rs <> [].
Proof. intros H; destruct H; discriminate. Qed.

Lemma last_cons {A} (x : A) l d : l <> [] -> last (x :: l) d = last l d.
Proof. destruct l; [congruence|reflexivity]. Qed.

Lemma verdict_one r : verdict [r] = r.
Proof. unfold verdict. simpl. destruct r as [|[]]; reflexivity. Qed.

(** The try statement of CombinedChecker computes the verdict. *)
Lemma combine_verdict (first second : M unit) s r1 s1 t1 r2 s2 t2 rs :
  first s = (r1, s1, t1) ->
  is_denied r1 ->
  second s1 = (r2, s2, t2) -> r2 = verdict rs -> rs <> [] ->
  combine first second s = (verdict (r1 :: rs), s2, (t1 ++ t2)%list).
Proof.
  intros H1 Hd H2 Hr Hne. unfold combine.
  destruct r1 as [|e1]; [destruct Hd|].
  rewrite (catch_exc _ _ _ _ _ _ H1).
  assert (Hl : last (Exc e1 :: rs) (Ok tt) = last rs (Ok tt)) by (apply last_cons; auto).
  destruct e1; simpl in Hd; try contradiction;
    cbv beta; cbn [is_forbidden is_unauthorized].
  - (* first Unauthorized *)
    destruct r2 as [u|e2].
    + rewrite (catch_ok _ _ _ _ _ _ H2). f_equal. f_equal. 
      unfold verdict in *. rewrite Hl. destruct (last rs (Ok tt)) as [u0|e0].
      * auto.
      * destruct e0; try discriminate. simpl. destruct (last_unauthorized rs); discriminate.
    + rewrite (catch_exc _ _ _ _ _ _ H2). 
      unfold verdict in Hr |- *. rewrite Hl.
      destruct (last rs (Ok tt)) as [u0|e0] eqn:El; [discriminate|].
      destruct e0; try (injection Hr as ->; simpl; rewrite app_nil_r; reflexivity).
      cbn [last_unauthorized] in *. destruct (last_unauthorized rs) as [e|] eqn:Eu.
      * injection Hr as ->.
        assert (exists o0 m0 p0, e = EUnauthorized o0 m0 p0) as (o0 & m0 & p0 & ->).
        { clear -Eu. revert e Eu. induction rs as [|r rs IH]; simpl; [discriminate|].
          intros e. destruct (last_unauthorized rs); [intros [= <-]; eauto|].
          destruct r as [|[]]; try discriminate. intros [= <-]; eauto. }
        simpl. rewrite app_nil_r. reflexivity.
      * injection Hr as ->. simpl. rewrite app_nil_r. reflexivity.
  - rewrite H2. f_equal. f_equal. subst r2. unfold verdict. rewrite Hl.
    simpl. destruct (last rs (Ok tt)) as [|[]]; auto.
    destruct (last_unauthorized rs); auto.
Qed.

Lemma combine_stop (first second : M unit) s r1 s1 t1 :
  first s = (r1, s1, t1) -> ~ is_denied r1 ->
  combine first second s = (r1, s1, t1).
Proof.
  intros H1 Hd. unfold combine. destruct r1 as [u|e1].
  - rewrite (catch_ok _ _ _ _ _ _ H1). reflexivity.
  - rewrite (catch_exc _ _ _ _ _ _ H1).
    destruct e1; simpl in *; try (exfalso; apply Hd; exact I);
      rewrite app_nil_r; reflexivity.
Qed.

Lemma is_denied_dec r : is_denied r \/ ~ is_denied r.
Proof. destruct r as [|[]]; simpl; auto. Qed.

Definition no_nones (tbs : list table) : Prop := Forall no_none tbs.

Lemma Checker_check_ReadCheck E f k obj n s r s' tr :
  no_none (table_of (st_dicts s (ck_get k))) ->
  (n = "__iter__" -> plain_object obj) ->
  Checker_check E (interp_n E (S f)) k obj n s = (r, s', tr) ->
  ReadCheck E s (table_of (st_dicts s (ck_get k))) obj n r s' tr.
Proof.
  intros Hnn Hobj H. unfold Checker_check in H. destruct (e_cimpl E) eqn:Himpl.
  - apply CheckerPy_check_spec in H; auto.
    eapply ReadCheck_ext; [|exact H]. apply drop_none_id; auto.
  - apply CheckerC_check_spec in H; auto.
Qed.

Lemma Checker_check_WriteCheck E f k obj n s r s' tr :
  no_none (table_of (st_dicts s (ck_set k))) ->
  Checker_check_setattr E (interp_n E f) k obj n s = (r, s', tr) ->
  WriteCheck E s (table_of (st_dicts s (ck_set k))) obj n r s' tr.
Proof.
  intros Hnn H. unfold Checker_check_setattr in H. destruct (e_cimpl E) eqn:Himpl.
  - apply CheckerPy_check_setattr_spec in H; auto.
    eapply WriteCheck_ext; [|exact H]. apply drop_none_id; auto.
  - apply CheckerC_check_setattr_spec in H; auto.
Qed.

Lemma Chain_nonempty s c gs ws : Chain s c gs ws -> gs <> [] /\ ws <> [].
Proof. intros H; destruct H; split; discriminate. Qed.

Theorem chain_read E f m c gs ws obj n s :
  e_watch E = 0 -> foreign_keeps_checkers E ->
  Chain s c gs ws -> m <> MSetattr -> no_nones gs ->
  (n = "__iter__" -> plain_object obj) ->
  exists rs s' tr,
    do_check E (List.length gs + S f) m c obj n s = (verdict rs, s', tr) /\
    Tries (read_ck E obj n) s gs rs s' tr.
Proof.
  intros Hw HE H. revert m s H. induction gs as [|g0 gs IH] in c, ws |- *;
    intros m s H Hm Hnn Hobj.
  - apply Chain_nonempty in H. destruct H; congruence.
  - inversion H as [c0 g w Hp | i k c2 gs0 ws0 Hi Hk Hc]; subst.
    + simpl List.length. simpl plus.
      destruct (do_check E (S (S f)) m c obj n s) as [[r s'] tr] eqn:Hd.
      exists [r], s', tr. rewrite verdict_one. split; auto. constructor.
      unfold read_ck. eapply check_exact_lemma; eauto. inversion Hnn; auto.
    + inversion Hnn as [|? ? Hn0 Hn1]; subst.
      simpl List.length. simpl plus. unfold do_check. cbn [interp_n i_check].
      unfold checker_check. msimpl. rewrite Hi, Hk.
      assert (Hmm : (match m with
                     | MSetattr => Combined_check_setattr E (interp_n E (List.length gs + S f))
                                     k c2 obj n
                     | _ => Combined_check E (interp_n E (List.length gs + S f)) k c2 obj n
                     end) = Combined_check E (interp_n E (List.length gs + S f)) k c2 obj n)
        by (destruct m; congruence).
      rewrite Hmm. clear Hmm. unfold Combined_check, Combined_first_check. rewrite Hw.
      replace (List.length gs + S f) with (S (List.length gs + f)) by lia.
      destruct (Checker_check E (interp_n E (S (List.length gs + f))) k obj n s)
        as [[r1 s1] t1] eqn:H1.
      pose proof (Checker_check_ReadCheck _ _ _ _ _ _ _ _ _ Hn0 Hobj H1) as HR.
      pose proof (Checker_check_keeps _ _ _ _ _ _ _ _ _ HE Hobj H1) as Hkeep.
      destruct (is_denied_dec r1) as [Hd|Hd].
      * destruct (IH c2 ws0 MCheck s1) as (rs & s' & tr & Hrun & Ht); auto.
        { eapply Chain_kept; eauto. }
        { discriminate. }
        unfold do_check in Hrun. replace (List.length gs + S f) with (S (List.length gs + f))
          in Hrun by lia.
        exists (r1 :: rs), s', (t1 ++ tr)%list. split.
        -- eapply combine_verdict; eauto. eapply Tries_nonempty; eauto.
        -- eapply Tries_next; eauto.
      * exists [r1], s1, t1. rewrite verdict_one. split.
        -- apply combine_stop; auto.
        -- apply Tries_stop; auto. apply Chain_nonempty in Hc. tauto.
Qed.

Theorem chain_write E f c gs ws obj n s :
  e_watch E = 0 -> foreign_keeps_checkers E ->
  Chain s c gs ws -> no_nones ws ->
  exists rs s' tr,
    do_check E (List.length ws + f) MSetattr c obj n s = (verdict rs, s', tr) /\
    Tries (write_ck E obj n) s ws rs s' tr.
Proof.
  intros Hw HE H. revert s H. induction ws as [|w0 ws IH] in c, gs |- *;
    intros s H Hnn.
  - apply Chain_nonempty in H. destruct H; congruence.
  - inversion H as [c0 g w Hp | i k c2 gs0 ws0 Hi Hk Hc]; subst.
    + simpl List.length. simpl plus.
      destruct (do_check E (S f) MSetattr c obj n s) as [[r s'] tr] eqn:Hd.
      exists [r], s', tr. rewrite verdict_one. split; auto. constructor.
      unfold write_ck. eapply check_setattr_exact_lemma; eauto. inversion Hnn; auto.
    + inversion Hnn as [|? ? Hn0 Hn1]; subst.
      simpl List.length. simpl plus. unfold do_check. cbn [interp_n i_check].
      unfold checker_check. msimpl. rewrite Hi, Hk.
      unfold Combined_check_setattr, Combined_first_check_setattr. rewrite Hw.
      destruct (Checker_check_setattr E (interp_n E (List.length ws + f)) k obj n s)
        as [[r1 s1] t1] eqn:H1.
      pose proof (Checker_check_WriteCheck _ _ _ _ _ _ _ _ _ Hn0 H1) as HR.
      pose proof (Checker_check_setattr_keeps _ _ _ _ _ _ _ _ _ HE H1) as Hkeep.
      destruct (is_denied_dec r1) as [Hd|Hd].
      * destruct (IH c2 gs0 s1) as (rs & s' & tr & Hrun & Ht); auto.
        { eapply Chain_kept; eauto. }
        unfold do_check in Hrun.
        exists (r1 :: rs), s', (t1 ++ tr)%list. split.
        -- eapply combine_verdict; eauto. eapply Tries_nonempty; eauto.
        -- eapply Tries_next; eauto.
      * exists [r1], s1, t1. rewrite verdict_one. split.
        -- apply combine_stop; auto.
        -- apply Tries_stop; auto. apply Chain_nonempty in Hc. tauto.
Qed.

(** ** What the verdict means *)

Lemma last_unauthorized_shape rs e :
  last_unauthorized rs = Some e -> exists o n p, e = EUnauthorized o n p.
Proof.
  revert e. induction rs as [|r rs IH]; simpl; [discriminate|].
  intros e. destruct (last_unauthorized rs); [intros [= <-]; eauto|].
  destruct r as [|[]]; try discriminate. intros [= <-]; eauto.
Qed.

Lemma last_unauthorized_in rs e :
  last_unauthorized rs = Some e -> In (Exc e) rs.
Proof.
  revert e. induction rs as [|r rs IH]; simpl; [discriminate|].
  intros e. destruct (last_unauthorized rs); [intros [= <-]; auto|].
  destruct r as [|[]]; try discriminate. intros [= <-]; auto.
Qed.

Lemma last_unauthorized_none rs :
  last_unauthorized rs = None -> forall o n p, ~ In (Exc (EUnauthorized o n p)) rs.
Proof.
  induction rs as [|r rs IH]; simpl; [auto|].
  destruct (last_unauthorized rs) eqn:El; [discriminate|].
  intros Hr o n p [->|Hin]; [discriminate | eapply IH; eauto].
Qed.

(** All but the last outcome are denials. *)
Lemma Tries_denied_init ck s tbs rs s' tr :
  Tries ck s tbs rs s' tr ->
  exists init r, rs = (init ++ [r])%list /\ Forall is_denied init.
Proof.
  induction 1 as [s tb r s' tr H | s tb tbs r s' tr H Hd Hne | s tb tbs r s1 t1 rs s' t2 H Hd Ht IH].
  - exists [], r. auto.
  - exists [], r. auto.
  - destruct IH as (init & r0 & -> & Hi). exists (r :: init), r0. auto.
Qed.

Lemma last_snoc {A} (l : list A) x d : last (l ++ [x]) d = x.
Proof.
  induction l as [|a l IH]; auto. simpl app. rewrite last_cons; auto.
  destruct l; discriminate.
Qed.

Lemma verdict_ok ck s tbs rs s' tr :
  Tries ck s tbs rs s' tr -> (verdict rs = Ok tt <-> In (Ok tt) rs).
Proof.
  intros H. apply Tries_denied_init in H. destruct H as (init & r & -> & Hi).
  unfold verdict. rewrite last_snoc. split.
  - intros Hv. apply in_or_app. right. left.
    destruct r as [[]|e]; auto. destruct e; try discriminate.
    destruct (last_unauthorized _); discriminate.
  - intros Hin. apply in_app_or in Hin. destruct Hin as [Hin|[->|[]]]; auto.
    rewrite Forall_forall in Hi. apply Hi in Hin. destruct Hin.
Qed.

Lemma verdict_forbidden ck s tbs rs s' tr n o :
  Tries ck s tbs rs s' tr ->
  verdict rs = Exc (EForbidden n o) ->
  Forall (fun r => exists n' o', r = Exc (EForbidden n' o')) rs.
Proof.
  intros H Hv. apply Tries_denied_init in H. destruct H as (init & r & -> & Hi).
  unfold verdict in Hv. rewrite last_snoc in Hv.
  destruct r as [|e]; [discriminate|]. destruct e; try discriminate.
  destruct (last_unauthorized _) as [e|] eqn:El.
  - injection Hv as ->. apply last_unauthorized_shape in El.
    destruct El as (? & ? & ? & ?). discriminate.
  - apply Forall_app. split; [|repeat constructor; eauto].
    rewrite Forall_forall in Hi |- *. intros x Hx. pose proof (Hi _ Hx) as Hd.
    destruct x as [|[]]; simpl in Hd; try contradiction; eauto.
    exfalso. eapply last_unauthorized_none; eauto. apply in_or_app. eauto.
Qed.

Lemma verdict_all_forbidden rs n o :
  rs <> [] -> Forall (fun r => r = Exc (EForbidden n o)) rs ->
  verdict rs = Exc (EForbidden n o).
Proof.
  intros Hne Hall. unfold verdict.
  assert (Hl : last rs (Ok tt) = Exc (EForbidden n o)).
  { destruct (exists_last Hne) as (l & x & ->). rewrite last_snoc.
    apply Forall_app in Hall. destruct Hall as [_ Hx]. inversion Hx; auto. }
  rewrite Hl. destruct (last_unauthorized rs) as [e|] eqn:El; auto.
  pose proof (last_unauthorized_in _ _ El) as Hin.
  rewrite Forall_forall in Hall. apply Hall in Hin.
  apply last_unauthorized_shape in El. destruct El as (? & ? & ? & ->). discriminate.
Qed.

Lemma verdict_unauthorized rs o n p :
  Forall is_denied rs -> In (Exc (EUnauthorized o n p)) rs ->
  exists o' n' p', verdict rs = Exc (EUnauthorized o' n' p') /\
                   last_unauthorized rs = Some (EUnauthorized o' n' p').
Proof.
  intros Hall Hin.
  assert (Hne : rs <> []) by (intros ->; destruct Hin).
  destruct (last_unauthorized rs) as [e|] eqn:El.
  2: { exfalso. eapply last_unauthorized_none; eauto. }
  destruct (last_unauthorized_shape _ _ El) as (o' & n' & p' & ->).
  exists o', n', p'. split; auto. unfold verdict. rewrite El.
  destruct (exists_last Hne) as (l & x & ->). rewrite last_snoc.
  assert (Hx : is_denied x).
  { apply Forall_app in Hall. destruct Hall as [_ Hx]. inversion Hx; auto. }
  destruct x as [|[]]; simpl in Hx; try contradiction; auto.
  clear -El. revert El. induction l as [|r l IH]; simpl.
  - intros [= -> -> ->]. reflexivity.
  - destruct (last_unauthorized (l ++ [Exc (EUnauthorized obj n0 p0)])) eqn:E0.
    + intros [= ->]. apply IH. reflexivity.
    + exfalso. eapply last_unauthorized_none in E0. apply E0.
      apply in_or_app. right. left. reflexivity.
Qed.

(** ** Chains under the simple policies *)

(** A member grants [n] to a simple interaction [x]. *)
Definition simple_member_grants (s : state) (x : inter) (n : name) (tb : table) : Prop :=
  match tb n with
  | Some p => simple_grants s x p
  | None => always_available n
  end.

Lemma Asked_simple_inv E s p obj r s' tr i x :
  tl_inter (st_tls s (e_tid E)) = Some (VIact i) -> st_inters s i = Some x ->
  Asked E s p obj r s' tr ->
  s' = s /\ exists b, r = Ok b /\ (b = true <-> simple_grants s x p).
Proof.
  intros Htl Hi Ha.
  destruct Ha as [H | iv H Hb | i' x' b H Hi' Hb | iv v s1 r s2 tr0 H Hf
                 | iv e s1 H Hf]; rewrite Htl in H; try discriminate;
    injection H as <-; simpl in *; try contradiction.
  - congruence.
  - assert (x' = x) by congruence. subst x'. eauto.
Qed.

Lemma ReadCheck_simple_exact E s tb obj n r s' tr i x :
  tl_inter (st_tls s (e_tid E)) = Some (VIact i) -> st_inters s i = Some x ->
  n <> "__iter__" ->
  ReadCheck E s tb obj n r s' tr ->
  s' = s /\ (r = Ok tt /\ simple_member_grants s x n tb \/
             r = Exc (match tb n with
                      | Some p => EUnauthorized obj n p
                      | None => EForbidden n obj
                      end) /\ ~ simple_member_grants s x n tb).
Proof.
  intros Htl Hi Hni H. unfold simple_member_grants.
  destruct H as [Hp | p r s' tr Hp Hnp Ha | Hp Hav | v s' Hp Hn | e s' Hp Hn
                | e s' Hp Hn | Hp Hav Hn]; try congruence; rewrite Hp.
  - split; auto. left. split; auto. right. auto.
  - destruct (Asked_simple_inv _ _ _ _ _ _ _ _ _ Htl Hi Ha) as (-> & b & -> & Hb).
    split; auto. destruct b; simpl.
    + left. split; auto. apply Hb. reflexivity.
    + right. split; auto. intros Hg. apply Hb in Hg. discriminate.
  - auto.
  - split; auto.
Qed.

Lemma ReadCheck_simple E s tb obj n r s' tr i x :
  tl_inter (st_tls s (e_tid E)) = Some (VIact i) -> st_inters s i = Some x ->
  n <> "__iter__" ->
  ReadCheck E s tb obj n r s' tr ->
  s' = s /\ (r = Ok tt /\ simple_member_grants s x n tb \/
             is_denied r /\ ~ simple_member_grants s x n tb).
Proof.
  intros Htl Hi Hni H.
  destruct (ReadCheck_simple_exact _ _ _ _ _ _ _ _ _ _ Htl Hi Hni H) as [Hs Hr].
  split; auto. destruct Hr as [Hr|[-> Hr]]; auto. right. split; auto.
  destruct (tb n); exact I.
Qed.

Lemma WriteCheck_simple E s tb obj n r s' tr i x :
  tl_inter (st_tls s (e_tid E)) = Some (VIact i) -> st_inters s i = Some x ->
  WriteCheck E s tb obj n r s' tr ->
  s' = s /\ (r = Ok tt /\ (exists p, tb n = Some p /\ simple_grants s x p) \/
             is_denied r /\ ~ (exists p, tb n = Some p /\ simple_grants s x p)).
Proof.
  intros Htl Hi H.
  destruct H as [Hp | p r s' tr Hp Hnp Ha | Hp]; rewrite Hp.
  - split; auto. left. split; auto. exists PPublic. split; auto. right. auto.
  - destruct (Asked_simple_inv _ _ _ _ _ _ _ _ _ Htl Hi Ha) as (-> & b & -> & Hb).
    split; auto. destruct b; simpl.
    + left. split; auto. exists p. split; auto. apply Hb. reflexivity.
    + right. split; auto. intros (q & [= <-] & Hg). apply Hb in Hg. discriminate.
  - split; auto. right. split; [exact I|]. intros (q & Hq & _). discriminate.
Qed.

Lemma Tries_simple (ck : state -> table -> res unit -> state -> list event -> Prop)
      (G : table -> Prop) s :
  (forall tb r s' tr, ck s tb r s' tr ->
     s' = s /\ (r = Ok tt /\ G tb \/ is_denied r /\ ~ G tb)) ->
  forall s0 tbs rs s' tr, Tries ck s0 tbs rs s' tr -> s0 = s ->
  s' = s /\ (verdict rs = Ok tt <-> exists tb, In tb tbs /\ G tb) /\
  (verdict rs <> Ok tt -> is_denied (verdict rs)).
Proof.
  intros Hck s0 tbs rs s' tr H Hs0.
  assert (Hin : s' = s /\ (In (Ok tt) rs <-> exists tb, In tb tbs /\ G tb) /\
                (forall r, In r rs -> r = Ok tt \/ is_denied r)).
  { induction H as [s0 tb r s' tr H | s0 tb tbs r s' tr H Hd Hne
                   | s0 tb tbs r s1 t1 rs s' t2 H Hd Ht IH]; subst s0.
    - apply Hck in H. destruct H as [-> H]. split; auto. split.
      + split.
        * intros [->|[]]. destruct H as [[_ Hg]|[Hd _]]; [|destruct Hd].
          exists tb. simpl. auto.
        * intros (tb' & [<-|[]] & Hg). destruct H as [[-> _]|[_ Hn]]; [|contradiction].
          simpl. auto.
      + intros r0 [->|[]]. tauto.
    - apply Hck in H. destruct H as [-> H]. split; auto. split.
      + split.
        * intros [->|[]]. destruct H as [[_ Hg]|[Hd' _]]; [|contradiction].
          exists tb. simpl. auto.
        * intros _. destruct H as [[-> _]|[Hd' _]]; [|contradiction]. simpl. auto.
      + intros r0 [->|[]]. tauto.
    - apply Hck in H. destruct H as [-> H].
      destruct (IH eq_refl) as (-> & IH1 & IH2). split; auto. split.
      + destruct H as [[-> _]|[_ Hn]]; [destruct Hd|]. split.
        * intros [->|Hin]; [destruct Hd|]. apply IH1 in Hin.
          destruct Hin as (tb' & Hi & Hg). exists tb'. simpl. auto.
        * intros (tb' & [<-|Hi] & Hg); [contradiction|]. right. apply IH1. eauto.
      + intros r0 [<-|Hin]; auto. }
  destruct Hin as (-> & Hin & Hden). split; auto. split.
  - rewrite (verdict_ok _ _ _ _ _ _ H). exact Hin.
  - intros Hv. apply Tries_denied_init in H. destruct H as (init & r & -> & Hi).
    unfold verdict in *. rewrite last_snoc in *.
    destruct (Hden r) as [->|Hd]; [apply in_or_app; simpl; auto | congruence |].
    destruct r as [|e]; [destruct Hd|]. destruct e; simpl in Hd; try contradiction.
    + exact I.
    + destruct (last_unauthorized _) eqn:El; [|exact I].
      apply last_unauthorized_shape in El. destruct El as (? & ? & ? & ->). exact I.
Qed.

(** ** Watching checkers *)

Lemma repr_plain E f obj s v s' :
  plain_object obj ->
  e_run E (e_tid E) (CallOp (ORepr obj)) s = (Ok (VStr v), s') ->
  i_op (interp_n E (S f)) Probe (ORepr obj) s =
  (Ok (VStr v), s', [ECall Probe (e_tid E) (CallOp (ORepr obj))]).
Proof.
  intros Hp Hr.
  assert (Hraw : raw E Probe (ORepr obj) s =
                 (Ok (VStr v), s', [ECall Probe (e_tid E) (CallOp (ORepr obj))])).
  { unfold raw, bind, foreign. rewrite Hr. reflexivity. }
  destruct obj; simpl; try exact Hraw; destruct Hp.
Qed.

Lemma Checker_check_same_tables E I k k' obj n s :
  st_dicts s (ck_get k') = st_dicts s (ck_get k) ->
  Checker_check E I k' obj n s = Checker_check E I k obj n s.
Proof.
  intros H. unfold Checker_check, CheckerPy_check, CheckerC_check_int.
  destruct (e_cimpl E); rewrite !bind_get, H; reflexivity.
Qed.

Lemma Checker_check_setattr_same_tables E I k k' obj n s :
  st_dicts s (ck_set k') = st_dicts s (ck_set k) ->
  Checker_check_setattr E I k' obj n s = Checker_check_setattr E I k obj n s.
Proof.
  intros H. unfold Checker_check_setattr, CheckerPy_check_setattr, CheckerC_check_setattr.
  destruct (e_cimpl E); rewrite !bind_get, H; reflexivity.
Qed.

(** The common shape of the three watching methods. *)
Definition watch_shape (chk : M unit) (granted : M unit) (unauth forb : M unit) : M unit :=
  catch (chk ;;; granted)
        (fun e => if is_unauthorized e then unauth ;;; raise e
                  else if is_forbidden e then forb ;;; raise e else raise e).

Lemma watch_shape_sound chk granted unauth forb s r s1 t1 s' t' :
  chk s = (r, s1, t1) ->
  watch_shape chk granted unauth forb s = (Ok tt, s', t') -> r = Ok tt.
Proof.
  intros Hc H. unfold watch_shape in H. mcatch H.
  - mbind Hm; [congruence|]. rewrite Hc in Hm0. minj Hm0. destruct a0; reflexivity.
  - destruct (is_unauthorized e).
    + mbind Hf; [congruence|]. discriminate.
    + destruct (is_forbidden e).
      * mbind Hf; [congruence|]. discriminate.
      * discriminate.
Qed.

Definition quiet_tail (tr : list event) : Prop := asks tr = [] /\ client_calls tr = [].

Lemma watch_shape_same chk granted unauth forb s r s1 t1 v n obj
  (Hc : chk s = (r, s1, t1))
  (Hg : exists s2 t2, granted s1 = (Ok tt, s2, t2) /\ quiet_tail t2 /\
          List.length (logs t2) = owed_lines v (Ok tt) /\
          Forall (reports (Ok tt) n obj) (logs t2))
  (Hu : forall e, is_denied (Exc e) -> exists s2 t2, 
          (if is_unauthorized e then unauth else forb) s1 = (Ok tt, s2, t2) /\
          quiet_tail t2 /\
          List.length (logs t2) = owed_lines v (Exc e) /\
          Forall (reports (Exc e) n obj) (logs t2)) :
  exists s2 t2, watch_shape chk granted unauth forb s = (r, s2, (t1 ++ t2)%list) /\
    quiet_tail t2 /\ List.length (logs t2) = owed_lines v r /\
    Forall (reports r n obj) (logs t2).
Proof.
  unfold watch_shape. destruct r as [[]|e].
  - destruct Hg as (s2 & t2 & Hg & Hq & Hl & Hr). exists s2, t2. repeat split; auto;
      try apply Hq.
    apply catch_ok. rewrite (bind_ok _ _ _ _ _ _ Hc), Hg. reflexivity.
  - rewrite (catch_exc _ _ _ e s1 t1) by (apply bind_exc; auto).
    destruct (is_denied_dec (Exc e)) as [Hd|Hd].
    + destruct (Hu e Hd) as (s2 & t2 & Hg2 & Hq & Hl & Hr).
      exists s2, t2. repeat split; auto; try apply Hq.
      destruct e; simpl in Hd; try contradiction; simpl in Hg2 |- *;
        rewrite (bind_ok _ _ _ _ _ _ Hg2); simpl; rewrite app_nil_r; reflexivity.
    + exists s1, []. destruct e; simpl in Hd; try (exfalso; apply Hd; exact I);
        simpl; repeat split; constructor.
Qed.

Lemma log_line_spec E f v th line n obj s x s2 :
  plain_object obj ->
  e_run E (e_tid E) (CallOp (ORepr obj)) s = (Ok (VStr x), s2) ->
  log_line (interp_n E (S f)) v th line n obj s =
  (Ok tt, s2, ECall Probe (e_tid E) (CallOp (ORepr obj)) ::
              (if Nat.leb th v then [ELog line n obj] else [])).
Proof.
  intros Hp Hr. unfold log_line.
  rewrite (bind_ok _ _ _ _ _ _ (repr_plain _ _ _ _ _ _ Hp Hr)).
  destruct (Nat.leb th v); reflexivity.
Qed.

Lemma granted_log E f v l1 l2 n obj s x s2 (b : bool) :
  plain_object obj ->
  e_run E (e_tid E) (CallOp (ORepr obj)) s = (Ok (VStr x), s2) ->
  String.prefix "[CHK] + " l1 = true -> String.prefix "[CHK] + " l2 = true ->
  exists s3 t3,
    (if Nat.ltb 1 v then
       if b then log_line (interp_n E (S f)) v 2 l1 n obj
       else log_line (interp_n E (S f)) v 2 l2 n obj
     else ret tt) s = (Ok tt, s3, t3) /\ quiet_tail t3 /\
    List.length (logs t3) = owed_lines v (Ok tt) /\
    Forall (reports (Ok tt) n obj) (logs t3).
Proof.
  intros Hp Hr H1 H2. unfold owed_lines.
  destruct (Nat.ltb_spec 1 v) as [Hv|Hv].
  - destruct b; rewrite (log_line_spec _ _ _ _ _ _ _ _ _ _ Hp Hr);
      destruct (Nat.leb_spec 2 v) as [Hv2|Hv2]; try lia;
      do 2 eexists; repeat split; repeat constructor; eexists; split; eauto.
  - exists s, []. repeat split; constructor.
Qed.

Lemma denied_log E f v line n obj s x s2 e :
  plain_object obj -> is_denied (Exc e) ->
  e_run E (e_tid E) (CallOp (ORepr obj)) s = (Ok (VStr x), s2) ->
  String.prefix "[CHK] - " line = true ->
  exists s3 t3, log_line (interp_n E (S f)) v 1 line n obj s = (Ok tt, s3, t3) /\
    quiet_tail t3 /\ List.length (logs t3) = owed_lines v (Exc e) /\
    Forall (reports (Exc e) n obj) (logs t3).
Proof.
  intros Hp Hd Hr Hl. rewrite (log_line_spec _ _ _ _ _ _ _ _ _ _ Hp Hr).
  do 2 eexists. split; [reflexivity|].
  assert (Ho : owed_lines v (Exc e) = if Nat.ltb 0 v then 1 else 0)
    by (destruct e; simpl in Hd; try contradiction; reflexivity).
  rewrite Ho.
  destruct (Nat.leb_spec 1 v), (Nat.ltb_spec 0 v); try lia;
    repeat split; repeat constructor. eexists; split; eauto.
Qed.

Theorem watching_lemma E f m c c' v obj n s r s1 t1 :
  WatchingVariant s c c' v ->
  do_check E (S (S f)) m c obj n s = (r, s1, t1) ->
  (forall s' t', do_check E (S (S f)) m c' obj n s = (Ok tt, s', t') -> r = Ok tt) /\
  (plain_object obj ->
   (exists x s2, e_run E (e_tid E) (CallOp (ORepr obj)) s1 = (Ok (VStr x), s2)) ->
   exists s2 t2, do_check E (S (S f)) m c' obj n s = (r, s2, (t1 ++ t2)%list) /\
     asks t2 = [] /\ client_calls t2 = [] /\
     List.length (logs t2) = owed_lines v r /\ Forall (reports r n obj) (logs t2)).
Proof.
  intros (i & i' & k & k' & -> & -> & Hi & Hi' & Hk & Hk' & Hg & Hw) H.
  assert (Hshape :
    exists chk g u fb,
      (do_check E (S (S f)) m (VChk i) obj n s = chk s) /\
      (do_check E (S (S f)) m (VChk i') obj n s = watch_shape chk g u fb s) /\
      (plain_object obj -> forall s1 x s2,
        e_run E (e_tid E) (CallOp (ORepr obj)) s1 = (Ok (VStr x), s2) ->
        (exists s3 t3, g s1 = (Ok tt, s3, t3) /\ quiet_tail t3 /\
           List.length (logs t3) = owed_lines v (Ok tt) /\
           Forall (reports (Ok tt) n obj) (logs t3)) /\
        (forall e, is_denied (Exc e) ->
           exists s3 t3, (if is_unauthorized e then u else fb) s1 = (Ok tt, s3, t3) /\
             quiet_tail t3 /\ List.length (logs t3) = owed_lines v (Exc e) /\
             Forall (reports (Exc e) n obj) (logs t3)))).
  { destruct m.
    - rewrite do_check_plain with (k := k) by (auto; discriminate).
      unfold do_check. cbn [interp_n i_check]. unfold checker_check.
      rewrite bind_get, Hi', Hk'. unfold Watching_check.
      do 4 eexists. split; [reflexivity|]. split.
      + unfold watch_shape, catch, bind.
        rewrite (Checker_check_same_tables _ _ _ _ _ _ _ Hg). reflexivity.
      + intros Hp s0 x s2 Hr. split.
        * eapply granted_log; eauto.
        * intros e He. destruct (is_unauthorized e); eapply denied_log; eauto.
    - rewrite do_check_plain with (k := k) by (auto; discriminate).
      unfold do_check. cbn [interp_n i_check]. unfold checker_check.
      rewrite bind_get, Hi', Hk'. unfold Watching_check_getattr.
      do 4 eexists. split; [reflexivity|]. split.
      + unfold watch_shape, catch, bind.
        rewrite (Checker_check_same_tables _ _ _ _ _ _ _ Hg). reflexivity.
      + intros Hp s0 x s2 Hr. split.
        * eapply granted_log; eauto.
        * intros e He. destruct (is_unauthorized e); eapply denied_log; eauto.
    - rewrite do_check_plain_set with (k := k) by auto.
      unfold do_check. cbn [interp_n i_check]. unfold checker_check.
      rewrite bind_get, Hi', Hk'. unfold Watching_check_setattr.
      do 4 eexists. split; [reflexivity|]. split.
      + unfold watch_shape, catch, bind.
        rewrite (Checker_check_setattr_same_tables _ _ _ _ _ _ _ Hw). reflexivity.
      + intros Hp s0 x s2 Hr. split.
        * pose proof (granted_log E f v "[CHK] + Granted setattr:"
                        "[CHK] + Granted setattr:" n obj s0 x s2 true Hp Hr eq_refl eq_refl)
            as Hgl. exact Hgl.
        * intros e He. destruct (is_unauthorized e); eapply denied_log; eauto. }
  destruct Hshape as (chk & g & u & fb & H1 & H2 & H3).
  rewrite H1 in H. split.
  - intros s' t' Hw'. rewrite H2 in Hw'. eapply watch_shape_sound; eauto.
  - intros Hp (x & s2 & Hr). rewrite H2.
    destruct (H3 Hp _ _ _ Hr) as [Hgr Hde].
    destruct (watch_shape_same chk g u fb s r s1 t1 v n obj H Hgr Hde)
      as (s3 & t3 & Ha & [Hb Hc] & Hd & He).
    exists s3, t3. repeat split; auto.
Qed.

(** ** Making combined checkers *)

(** New checker identities are unused. *)
Definition fresh_checkers (s : state) : Prop :=
  forall i, st_next s <= i -> st_chks s i = None.

Lemma Combined_new_eq E c1 c2 s i k :
  c1 = VChk i -> st_chks s i = Some k -> e_watch E = 0 ->
  CombinedChecker_new E c1 c2 s =
  (Ok (VChk (st_next s)),
   set_chks (upd (st_chks s) (st_next s)
       (Some (mkChecker (ck_get k) (ck_set k) (CkCombined c2))))
            (set_next (S (st_next s)) s), []).
Proof.
  intros -> Hi Hw. unfold CombinedChecker_new, alloc_checker. rewrite bind_get, Hi, Hw.
  rewrite bind_fresh, bind_get, bind_put. reflexivity.
Qed.

Lemma Combined_new_kept E c1 c2 s c s' tr i k :
  c1 = VChk i -> st_chks s i = Some k -> e_watch E = 0 -> fresh_checkers s ->
  CombinedChecker_new E c1 c2 s = (Ok c, s', tr) -> checkers_kept s s'.
Proof.
  intros H1 Hi Hw Hf H. rewrite (Combined_new_eq _ _ _ _ _ _ H1 Hi Hw) in H. minj H.
  intros j kj Hj. simpl. split; auto. rewrite upd_ne; auto.
  intros ->. rewrite Hf in Hj by lia. discriminate.
Qed.

(** CombinedChecker(c1, c2) with a name-based c1 extends the chain of c2. *)
Lemma Combined_new_chain E c1 c2 s c s' tr g w gs ws :
  e_watch E = 0 -> fresh_checkers s ->
  PlainChecker s c1 g w -> Chain s c2 gs ws ->
  CombinedChecker_new E c1 c2 s = (Ok c, s', tr) ->
  Chain s' c (table_of g :: gs) (table_of w :: ws) /\ fresh_checkers s'.
Proof.
  intros Hw Hf (i & k & H1 & Hi & Hk & Hg & Hs) Hc H.
  pose proof (Combined_new_kept _ _ _ _ _ _ _ _ _ H1 Hi Hw Hf H) as Hkept.
  rewrite (Combined_new_eq _ _ _ _ _ _ H1 Hi Hw) in H. minj H.
  split.
  - eapply Chain_kept in Hc; [|exact Hkept].
    match type of Hc with Chain ?s0 _ _ _ => set (s1 := s0) in * end.
    change (table_of (st_dicts s (ck_get k))) with
      (table_of (st_dicts s1 (ck_get (mkChecker (ck_get k) (ck_set k) (CkCombined c2))))).
    change (table_of (st_dicts s (ck_set k))) with
      (table_of (st_dicts s1 (ck_set (mkChecker (ck_get k) (ck_set k) (CkCombined c2))))).
    eapply Chain_more; [|reflexivity|exact Hc].
    simpl. rewrite upd_eq. reflexivity.
  - intros j Hj. simpl in *. rewrite upd_ne by lia. apply Hf. lia.
Qed.

(** CombinedChecker(c1, c2) with a combined c1 only uses the tables of c1 itself:
    the second checker of c1 is dropped. *)
Lemma Combined_new_left_drops E c1 c2 s c s' tr i k c12 gs ws :
  e_watch E = 0 -> fresh_checkers s ->
  c1 = VChk i -> st_chks s i = Some k -> ck_kind k = CkCombined c12 ->
  Chain s c2 gs ws ->
  CombinedChecker_new E c1 c2 s = (Ok c, s', tr) ->
  Chain s' c (table_of (st_dicts s (ck_get k)) :: gs)
        (table_of (st_dicts s (ck_set k)) :: ws).
Proof.
  intros Hw Hf H1 Hi Hk Hc H.
  pose proof (Combined_new_kept _ _ _ _ _ _ _ _ _ H1 Hi Hw Hf H) as Hkept.
  rewrite (Combined_new_eq _ _ _ _ _ _ H1 Hi Hw) in H. minj H.
  eapply Chain_kept in Hc; [|exact Hkept].
  match type of Hc with Chain ?s0 _ _ _ => set (s1 := s0) in * end.
  change (table_of (st_dicts s (ck_get k))) with
      (table_of (st_dicts s1 (ck_get (mkChecker (ck_get k) (ck_set k) (CkCombined c2))))).
  change (table_of (st_dicts s (ck_set k))) with
      (table_of (st_dicts s1 (ck_set (mkChecker (ck_get k) (ck_set k) (CkCombined c2))))).
  eapply Chain_more; [|reflexivity|exact Hc].
  simpl. rewrite upd_eq. reflexivity.
Qed.
