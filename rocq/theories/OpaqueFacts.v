(** * OpaqueFacts: corresponding processes do corresponding things. *)

From Coq Require Import List String Bool Arith ZArith Lia.
From Verif Require Import Base Domain CheckerModel ProxyModel MFacts ConcealSpec OpaqueSpec.
Import ListNotations.
Open Scope string_scope.
Open Scope m_scope.
Local Arguments String.eqb : simpl never.
Local Arguments mem : simpl never.

Section Sim.
  Variable R : perm -> perm -> Prop.
  Variable E : env.
  Variable run' : id -> call -> state -> res value * state.
  Hypothesis HC : code_like R (e_run E) run'.
  Local Notation E' := (with_run E run').
  Local Notation like s d := (tables_like R (st_dicts s) d).

  Definition sim {A} (m m' : M A) (s : state) (d : id -> list (name * perm)) : Prop :=
    outcome_like R (m s) (m' (set_dicts d s)).

  Lemma state_like_intro s d : like s d -> state_like R s (set_dicts d s).
  Proof. intro H. exists d. split; [reflexivity|exact H]. Qed.

  Lemma sim_ret {A} (a : A) s d : like s d -> sim (ret a) (ret a) s d.
  Proof. intro H. split; [reflexivity|]. split; [apply state_like_intro, H|constructor]. Qed.
  Lemma sim_raise {A} e e' s d : exn_like R e e' -> like s d -> sim (A:=A) (raise e) (raise e') s d.
  Proof. intros He H. split; [exact He|]. split; [apply state_like_intro, H|constructor]. Qed.
  Lemma sim_emit e e' s d : event_like R e e' -> like s d -> sim (emit e) (emit e') s d.
  Proof. intros He H. split; [reflexivity|]. split; [apply state_like_intro, H|constructor; [exact He|constructor]]. Qed.
  Lemma sim_put s0 d0 s d : like s0 d0 -> sim (put s0) (put (set_dicts d0 s0)) s d.
  Proof. intro H. split; [reflexivity|]. split; [apply state_like_intro, H|constructor]. Qed.
  Lemma sim_get {A} (k k' : state -> M A) s d : sim (k s) (k' (set_dicts d s)) s d -> sim (bind get k) (bind get k') s d.
  Proof. unfold sim. rewrite !bind_get. exact (fun H => H). Qed.
  Lemma sim_bind {A B} (m m' : M A) (k k' : A -> M B) s d :
    sim m m' s d -> (forall a s1 d1, like s1 d1 -> sim (k a) (k' a) s1 d1) -> sim (bind m k) (bind m' k') s d.
  Proof.
    intros H K. unfold sim, outcome_like, bind in *. destruct (m s) as [[r1 s1] t1], (m' (set_dicts d s)) as [[r2 s2] t2].
    destruct H as (H1 & (d1 & -> & H2) & H3). destruct r1 as [a|e], r2 as [a2|e2]; try contradiction.
    - cbn [res_like] in H1. subst a2. specialize (K a s1 d1 H2).
      destruct (k a s1) as [[r3 s3] t3], (k' a (set_dicts d1 s1)) as [[r4 s4] t4].
      destruct K as (K1 & K2 & K3). split; [exact K1|]. split; [exact K2|apply Forall2_app; assumption].
    - split; [exact H1|]. split; [apply state_like_intro, H2|exact H3].
  Qed.
  Lemma sim_catch {A} (m m' : M A) (h h' : exn -> M A) s d :
    sim m m' s d -> (forall e e' s1 d1, exn_like R e e' -> like s1 d1 -> sim (h e) (h' e') s1 d1) ->
    sim (catch m h) (catch m' h') s d.
  Proof.
    intros H K. unfold sim, outcome_like, catch in *. destruct (m s) as [[r1 s1] t1], (m' (set_dicts d s)) as [[r2 s2] t2].
    destruct H as (H1 & (d1 & -> & H2) & H3). destruct r1 as [a|e], r2 as [a2|e2]; try contradiction.
    - split; [exact H1|]. split; [apply state_like_intro, H2|exact H3].
    - specialize (K e e2 s1 d1 H1 H2).
      destruct (h e s1) as [[r3 s3] t3], (h' e2 (set_dicts d1 s1)) as [[r4 s4] t4].
      destruct K as (K1 & K2 & K3). split; [exact K1|]. split; [exact K2|apply Forall2_app; assumption].
  Qed.

  Lemma foreign_sim k c s d : (forall iv p obj, c <> CallPerm iv p obj) -> like s d ->
    sim (foreign E k c) (foreign E' k c) s d.
  Proof.
    intros Hc Hl. unfold sim, outcome_like, foreign. cbn [with_run e_tid e_run].
    assert (X := HC (e_tid E) c c s (set_dicts d s) (L_call R c Hc) (state_like_intro s d Hl)).
    destruct (e_run E (e_tid E) c s) as [r1 s1], (run' (e_tid E) c (set_dicts d s)) as [r2 s2].
    destruct X as (X1 & X2). split; [exact X1|]. split; [exact X2|]. constructor; [|constructor]. constructor. constructor. exact Hc.
  Qed.

  Record sim_interp (I I' : interp) : Prop := {
    si_op : forall k o s d, like s d -> sim (i_op I k o) (i_op I' k o) s d;
    si_check : forall m c obj n s d, like s d -> sim (i_check I m c obj n) (i_check I' m c obj n) s d;
    si_select : forall c obj s d, like s d -> sim (i_select I c obj) (i_select I' c obj) s d
  }.

  Lemma entry_dget d n : entry d n = dget String.eqb d n.
  Proof. induction d as [|[m p] d IH]; [reflexivity|]. cbn [entry dget]. rewrite IH. reflexivity. Qed.

  Section Step.
    Variables I I' : interp.
    Hypothesis HI : sim_interp I I'.

    Ltac red_state :=
      cbn [set_dicts set_prox set_chks set_decos set_reg set_basic set_tls set_policy set_inters set_parts
           set_next st_next st_dicts st_chks st_prox st_decos st_reg st_basic st_tls st_policy st_inters st_parts st_app].
    Ltac exn_done := first [eassumption | apply L_same; discriminate | apply L_same; assumption | apply L_unauthorized; assumption].
    Ltac step :=
      first
        [ apply sim_ret; assumption
        | apply (si_op I I' HI); assumption
        | apply (si_check I I' HI); assumption
        | apply (si_select I I' HI); assumption
        | apply foreign_sim; [discriminate|assumption]
        | match goal with |- sim (raise _) _ _ _ => apply sim_raise; [exn_done|assumption] end
        | match goal with |- sim (bind get _) _ _ _ => apply sim_get; red_state end
        | match goal with |- sim (put ?a) _ ?s ?d => refine (sim_put a d s d _); assumption end
        | match goal with |- sim (bind _ _) _ _ _ => apply sim_bind; [|intros ? ? ? ?] end
        | match goal with |- sim (catch _ _) _ _ _ => apply sim_catch; [|intros ? ? ? ? [? ?|? ? ? ? ?] ?;
            cbn [is_attribute_error is_unauthorized is_forbidden is_type_error]] end
        | apply sim_emit; [constructor|assumption] ].
    Ltac cases :=
      match goal with
      | |- sim (match ?x with _ => _ end) _ _ _ => destruct x
      end.
    Ltac go := intros; repeat first [step | cases | progress cbv zeta beta].
    Ltac unf d := intros; unfold d; cbn [with_run e_impl e_cimpl e_watch e_tid e_type e_meta e_isexc e_addr].

    Lemma fresh_sim s d : like s d -> sim fresh fresh s d.
    Proof. intro H. split; [reflexivity|]. split; [exists d; split; [reflexivity|exact H]|constructor]. Qed.
    Lemma truth_sim v s d : like s d ->  sim (truth I v) (truth I' v) s d.
    Proof. unf truth. go. Qed.



    Lemma foreign_quiet_sim iv p q obj s d : perm_like R p q -> like s d ->
      sim (foreign_quiet E (CallPerm iv p obj)) (foreign_quiet E' (CallPerm iv q obj)) s d.
    Proof.
      intros Hp Hl. unfold sim, outcome_like, foreign_quiet. cbn [with_run e_tid e_run].
      assert (X := HC (e_tid E) _ _ s (set_dicts d s) (L_perm R iv p q obj Hp) (state_like_intro s d Hl)).
      destruct (e_run E (e_tid E) (CallPerm iv p obj) s) as [r1 s1], (run' (e_tid E) (CallPerm iv q obj) (set_dicts d s)) as [r2 s2].
      destruct X as (X1 & X2). split; [exact X1|]. split; [exact X2|constructor].
    Qed.
    Lemma ask_sim iv p q obj s d : perm_like R p q -> like s d -> sim (ask E I iv p obj) (ask E' I' iv q obj) s d.
    Proof.
      intros Hp Hl. unfold ask.
      assert (F : sim (b <- catch (v <- foreign_quiet E (CallPerm iv p obj) ;; truth I v)
                      (fun e => emit (EAsk (e_tid E) iv p obj None) ;;; raise e) ;;
               emit (EAsk (e_tid E) iv p obj (Some b)) ;;; ret b)
              (b <- catch (v <- foreign_quiet E' (CallPerm iv q obj) ;; truth I' v)
                      (fun e => emit (EAsk (e_tid E') iv q obj None) ;;; raise e) ;;
               emit (EAsk (e_tid E') iv q obj (Some b)) ;;; ret b) s d).
      { apply sim_bind.
        - apply sim_catch.
          + apply sim_bind; [apply foreign_quiet_sim; assumption|]. intros; apply truth_sim; assumption.
          + intros e e' s1 d1 He H1. apply sim_bind; [apply sim_emit; [constructor; exact Hp|exact H1]|].
            intros; apply sim_raise; assumption.
        - intros b s1 d1 H1. apply sim_bind; [apply sim_emit; [constructor; exact Hp|exact H1]|].
          intros; apply sim_ret; assumption. }
      destruct iv; try exact F; try (apply sim_raise; [apply L_same; discriminate|exact Hl]).
      apply sim_get. red_state. destruct (st_inters s i) as [x|]; [|apply sim_raise; [apply L_same; discriminate|exact Hl]].
      replace (simple_checkPermission (set_dicts d s) x q) with (simple_checkPermission s x p)
        by (destruct p, q; try contradiction; reflexivity).
      cbv zeta. apply sim_bind; [apply sim_emit; [constructor; exact Hp|exact Hl]|]. intros; apply sim_ret; assumption.
    Qed.
    Lemma tl_sim p q obj s d : perm_like R p q -> like s d ->
      sim (tl_checkPermission E I p obj) (tl_checkPermission E' I' q obj) s d.
    Proof.
      intros Hp Hl. unfold tl_checkPermission. apply sim_get. red_state. cbn [with_run e_tid].
      destruct (tl_inter (st_tls s (e_tid E))); [apply ask_sim; assumption|apply sim_raise; [apply L_same; discriminate|exact Hl]].
    Qed.
    Lemma decide_sim p q obj n s d : perm_like R p q -> like s d ->
      sim (b <- tl_checkPermission E I p obj ;; if b then ret tt else raise (EUnauthorized obj n p))
          (b <- tl_checkPermission E' I' q obj ;; if b then ret tt else raise (EUnauthorized obj n q)) s d.
    Proof.
      intros Hp Hl. apply sim_bind; [apply tl_sim; assumption|]. intros [|] s1 d1 H1; [apply sim_ret, H1|].
      apply sim_raise; [apply L_unauthorized, Hp|exact H1].
    Qed.
    Lemma looked_up s d i n : like s d ->
      entry_like R (dget String.eqb (st_dicts s i) n) (dget String.eqb (d i) n).
    Proof. intro H. rewrite <- !entry_dget. apply H. Qed.
    Lemma or_none s d i n : like s d -> perm_like R (get_or_none (st_dicts s i) n) (get_or_none (d i) n).
    Proof.
      intro H. assert (X := looked_up s d i n H). unfold get_or_none.
      destruct (dget String.eqb (st_dicts s i) n), (dget String.eqb (d i) n); try contradiction; [exact X|exact Logic.I].
    Qed.
    Lemma like_none p q : perm_like R p q -> perm_eqb p PNone = perm_eqb q PNone.
    Proof. destruct p, q; intro H; try contradiction; reflexivity. Qed.
    Lemma like_public p q : perm_like R p q -> perm_eqb p PPublic = perm_eqb q PPublic.
    Proof. destruct p, q; intro H; try contradiction; reflexivity. Qed.
    Lemma set_or_none (l : list (name * perm)) n : match l with [] => PNone | p :: l' => get_or_none (p :: l') n end = get_or_none l n.
    Proof. destruct l; reflexivity. Qed.
    Lemma hasattr_py_sim obj n s d : like s d ->  sim (hasattr_py I obj n) (hasattr_py I' obj n) s d.
    Proof. unf hasattr_py. go. Qed.
    Lemma hasattr_c_sim obj n s d : like s d ->  sim (hasattr_c I obj n) (hasattr_c I' obj n) s d.
    Proof. unf hasattr_c. go. Qed.

    Lemma Checker_check_sim c obj n s d : like s d -> sim (Checker_check E I c obj n) (Checker_check E' I' c obj n) s d.
    Proof.
      unf Checker_check. destruct (e_cimpl E).
      - unfold CheckerPy_check. apply sim_get. red_state. cbv zeta.
        assert (P := or_none s d (ck_get c) n H). rewrite <- (like_none _ _ P), <- (like_public _ _ P).
        destruct (negb _); [destruct (perm_eqb _ PPublic); [step|apply decide_sim; assumption]|].
        destruct (mem n available_by_default); [step|]. apply sim_bind.
        + destruct (negb _); [step|apply hasattr_py_sim; assumption].
        + intros [|] s1 d1 H1; step.
      - unfold CheckerC_check_int, CheckerC_checkPermission. apply sim_get. red_state.
        assert (P := looked_up s d (ck_get c) n H).
        destruct (dget String.eqb (st_dicts s (ck_get c)) n) as [p|], (dget String.eqb (d (ck_get c)) n) as [q|]; try contradiction.
        + rewrite <- (like_public _ _ P). destruct (perm_eqb p PPublic); [step|apply decide_sim; assumption].
        + go. apply hasattr_c_sim; assumption.
    Qed.
    Lemma Checker_check_setattr_sim c obj n s d : like s d ->
      sim (Checker_check_setattr E I c obj n) (Checker_check_setattr E' I' c obj n) s d.
    Proof.
      unf Checker_check_setattr. destruct (e_cimpl E).
      - unfold CheckerPy_check_setattr. apply sim_get. red_state. cbv zeta. rewrite !set_or_none.
        assert (P := or_none s d (ck_set c) n H). rewrite <- (like_none _ _ P), <- (like_public _ _ P).
        destruct (negb _); [destruct (perm_eqb _ PPublic); [step|apply decide_sim; assumption]|step].
      - unfold CheckerC_check_setattr, CheckerC_checkPermission. apply sim_get. red_state.
        assert (P := looked_up s d (ck_set c) n H).
        destruct (dget String.eqb (st_dicts s (ck_set c)) n) as [p|], (dget String.eqb (d (ck_set c)) n) as [q|]; try contradiction; [|step].
        rewrite <- (like_public _ _ P). destruct (negb _); [apply decide_sim; assumption|step].
    Qed.
    Lemma log_line_sim v k l n obj s d : like s d ->  sim (log_line I v k l n obj) (log_line I' v k l n obj) s d.
    Proof. unf log_line. go. Qed.

    Ltac go2 := go; repeat (first [(apply Checker_check_sim; assumption) | (apply Checker_check_setattr_sim; assumption)
                           | (apply log_line_sim; assumption)]; go).
    Lemma Watching_check_sim v c obj n s d : like s d ->  sim (Watching_check E I v c obj n) (Watching_check E' I' v c obj n) s d.
    Proof. unf Watching_check. go2. Qed.
    Lemma Watching_check_getattr_sim v c obj n s d : like s d ->
       sim (Watching_check_getattr E I v c obj n) (Watching_check_getattr E' I' v c obj n) s d.
    Proof. unf Watching_check_getattr. go2. Qed.
    Lemma Watching_check_setattr_sim v c obj n s d : like s d ->
       sim (Watching_check_setattr E I v c obj n) (Watching_check_setattr E' I' v c obj n) s d.
    Proof. unf Watching_check_setattr. go2. Qed.
    Lemma combine_sim a a' b b' s d :
      sim a a' s d -> (forall s1 d1, like s1 d1 -> sim b b' s1 d1) -> sim (combine a b) (combine a' b') s d.
    Proof.
      intros Ha Hb. unfold combine. apply sim_catch; [exact Ha|]. intros e e' s1 d1 He H1.
      assert (F : is_forbidden e = is_forbidden e') by (destruct He; reflexivity).
      assert (U : is_unauthorized e = is_unauthorized e') by (destruct He; reflexivity).
      rewrite <- F, <- U. destruct (is_forbidden e); [apply Hb, H1|].
      destruct (is_unauthorized e); [|apply sim_raise; assumption].
      apply sim_catch; [apply Hb, H1|]. intros e2 e2' s2 d2 He2 H2.
      assert (F2 : is_forbidden e2 = is_forbidden e2') by (destruct He2; reflexivity). rewrite <- F2.
      destruct (is_forbidden e2); apply sim_raise; assumption.
    Qed.
    Lemma new_proxy_sim v c s d : like s d -> sim (new_proxy v c) (new_proxy v c) s d.
    Proof. unf new_proxy. go; apply fresh_sim; assumption. Qed.
    Lemma getChecker_sim v s d : like s d -> sim (getChecker v) (getChecker v) s d.
    Proof. unf getChecker. go. Qed.
    Lemma remove_sim v s d : like s d -> sim (removeSecurityProxy v) (removeSecurityProxy v) s d.
    Proof. unf removeSecurityProxy. go. Qed.
    Lemma pget_sim p s d : like s d -> sim (pget p) (pget p) s d.
    Proof. unf pget. go. Qed.
    Lemma pset_wrapped_sim p v s d : like s d -> sim (pset_wrapped p v) (pset_wrapped p v) s d.
    Proof. unf pset_wrapped. go; apply pget_sim; assumption. Qed.
    Lemma pset_checker_sim p v s d : like s d -> sim (pset_checker p v) (pset_checker p v) s d.
    Proof. unf pset_checker. go; apply pget_sim; assumption. Qed.
    Lemma alloc_checker_sim k s d : like s d -> sim (alloc_checker k) (alloc_checker k) s d.
    Proof. unf alloc_checker. go; apply fresh_sim; assumption. Qed.
    Lemma combined_new_sim c1 c2 s d : like s d -> sim (CombinedChecker_new E c1 c2) (CombinedChecker_new E' c1 c2) s d.
    Proof. unf CombinedChecker_new. go; apply alloc_checker_sim; assumption. Qed.
    Ltac st_step :=
      first [ apply fresh_sim; assumption | apply new_proxy_sim; assumption | apply getChecker_sim; assumption
            | apply remove_sim; assumption | apply pget_sim; assumption | apply pset_wrapped_sim; assumption
            | apply pset_checker_sim; assumption | apply combined_new_sim; assumption | apply alloc_checker_sim; assumption ].
    Ltac go ::= intros; repeat first [step | st_step | cases | progress cbv zeta beta].

    Lemma Combined_first_sim c obj n s d : like s d ->
       sim (Combined_first_check E I c obj n) (Combined_first_check E' I' c obj n) s d.
    Proof. unf Combined_first_check. go; first [(apply Checker_check_sim; assumption) | (apply Watching_check_sim; assumption)]. Qed.
    Lemma Combined_first_setattr_sim c obj n s d : like s d ->
       sim (Combined_first_check_setattr E I c obj n) (Combined_first_check_setattr E' I' c obj n) s d.
    Proof. unf Combined_first_check_setattr. go; first [(apply Checker_check_setattr_sim; assumption) | (apply Watching_check_setattr_sim; assumption)]. Qed.
    Lemma checker_check_sim m c obj n s d : like s d ->  sim (checker_check E I m c obj n) (checker_check E' I' m c obj n) s d.
    Proof.
      unf checker_check. unfold Combined_check, Combined_check_setattr.
      go; first [(apply Checker_check_sim; assumption) | (apply Checker_check_setattr_sim; assumption) | (apply Watching_check_sim; assumption)
                |(apply Watching_check_getattr_sim; assumption)|(apply Watching_check_setattr_sim; assumption)
                |apply combine_sim; [first [apply Combined_first_sim; assumption|apply Combined_first_setattr_sim; assumption]|intros; step] ].
    Qed.
    Lemma call_factory_sim f obj s d : like s d ->  sim (call_factory I f obj) (call_factory I' f obj) s d.
    Proof. unf call_factory. go. Qed.
    Lemma select_loop_sim c obj s d : like s d ->  sim (select_loop E I c obj) (select_loop E' I' c obj) s d.
    Proof.
      unf select_loop. apply sim_get; red_state.
      change (is_Checker E' (set_dicts d s) c) with (is_Checker E s c). go; (apply call_factory_sim; assumption).
    Qed.
    Lemma selectCheckerC_sim obj s d : like s d ->  sim (selectCheckerC E I obj) (selectCheckerC E' I' obj) s d.
    Proof.
      unf selectCheckerC. apply sim_get; red_state. change (registered E' (set_dicts d s) obj) with (registered E s obj).
      change (type_of E' (set_dicts d s) obj) with (type_of E s obj). go.
    Qed.
    Lemma selectChecker_sim obj s d : like s d ->  sim (selectChecker E I obj) (selectChecker E' I' obj) s d.
    Proof.
      unf selectChecker. destruct (e_cimpl E); [|(apply selectCheckerC_sim; assumption)].
      unfold selectCheckerPy. apply sim_get; red_state. change (registered E' (set_dicts d s) obj) with (registered E s obj). go.
    Qed.
    Lemma getattr_sec_sim v s d : like s d ->  sim (getattr_sec_checker I v) (getattr_sec_checker I' v) s d.
    Proof. unf getattr_sec_checker. go. Qed.
    Lemma checker_proxy_sim c v s d : like s d ->  sim (checker_proxy E I c v) (checker_proxy E' I' c v) s d.
    Proof.
      unf checker_proxy. unfold CheckerPy_proxy, CheckerC_proxy, getattr_sec_checker_c.
      go; repeat (first [(apply getattr_sec_sim; assumption) | (apply selectChecker_sim; assumption) | (apply selectCheckerC_sim; assumption)]; go).
    Qed.
    Lemma ProxyFactory_sim obj c s d : like s d ->  sim (ProxyFactory E I obj c) (ProxyFactory E' I' obj c) s d.
    Proof.
      unf ProxyFactory. go; repeat (first [(apply getattr_sec_sim; assumption) | (apply selectChecker_sim; assumption)]; go).
    Qed.
    Lemma canAccess_sim obj n s d : like s d ->  sim (canAccess E I obj n) (canAccess E' I' obj n) s d.
    Proof. unf canAccess. go. (apply ProxyFactory_sim; assumption). Qed.
    Lemma canWrite_sim obj n s d : like s d ->  sim (canWrite E I obj n) (canWrite E' I' obj n) s d.
    Proof. unf canWrite. go. (apply ProxyFactory_sim; assumption). Qed.
    Lemma Decorated_get_sim w s d : like s d -> sim (Decorated_get E I w) (Decorated_get E' I' w) s d.
    Proof.
      unf Decorated_get. go; repeat (first [(apply getattr_sec_sim; assumption) | (apply selectChecker_sim; assumption)]; go).
    Qed.
    Lemma raw_sim k o s d : like s d ->  sim (raw E k o) (raw E' k o) s d.
    Proof. unf raw. unfold coerce. go. Qed.

    Section Guarded.
      Variables (op1 op2 : value -> M value).
      Hypothesis Hop : forall v s d, like s d -> sim (op1 v) (op2 v) s d.
      Lemma py_check_name_sim p nm s d : like s d ->  sim (py_check_name E I p nm op1) (py_check_name E' I' p nm op2) s d.
      Proof. unf py_check_name. go; first [(apply Hop; assumption) | (apply checker_proxy_sim; assumption)]. Qed.
      Lemma c_check_sim p m nm s d : like s d ->  sim (c_check I p m nm) (c_check I' p m nm) s d.
      Proof. unf c_check. go. Qed.
      Lemma c_check1_sim p m nm s d : like s d ->  sim (c_check1 E I p m nm op1) (c_check1 E' I' p m nm op2) s d.
      Proof. unf c_check1. unfold c_proxy_result. go; first [(apply c_check_sim; assumption) | (apply Hop; assumption) | (apply checker_proxy_sim; assumption)]. Qed.
      Lemma c_check0_sim p m nm s d : like s d ->  sim (c_check0 I p m nm op1) (c_check0 I' p m nm op2) s d.
      Proof. unf c_check0. go; first [(apply c_check_sim; assumption) | (apply Hop; assumption)]. Qed.
      Lemma c_check2i_sim p nm s d : like s d ->  sim (c_check2i E I p nm op1) (c_check2i E' I' p nm op2) s d.
      Proof. unf c_check2i. unfold c_proxy_result. go; first [(apply c_check_sim; assumption) | (apply Hop; assumption) | (apply checker_proxy_sim; assumption)]. Qed.
      Lemma py_nowrap_sim p nm s d : like s d ->  sim (py_check_name_nowrap I p nm op1) (py_check_name_nowrap I' p nm op2) s d.
      Proof. unf py_check_name_nowrap. go; (apply Hop; assumption). Qed.
      Lemma py_str_sim p nm s d : like s d ->  sim (py_str_like E I p nm op1) (py_str_like E' I' p nm op2) s d.
      Proof. unf py_str_like. unfold default_repr_py. go; (apply py_check_name_sim; assumption). Qed.
      Lemma c_str_sim p nm s d : like s d ->  sim (c_str_like E I p nm op1) (c_str_like E' I' p nm op2) s d.
      Proof. unf c_str_like. unfold default_repr_c. go; first [(apply c_check_sim; assumption) | (apply Hop; assumption)]. Qed.
      Lemma proxy_guard_sim p m nm s d : like s d ->  sim (proxy_guard E I p m nm op1) (proxy_guard E' I' p m nm op2) s d.
      Proof. unf proxy_guard. destruct (e_impl E); [apply py_check_name_sim|apply c_check1_sim]; assumption. Qed.
    End Guarded.

    Lemma inplace_sim k p nm arg s d : like s d ->  sim (py_check_name_inplace I k p nm arg) (py_check_name_inplace I' k p nm arg) s d.
    Proof. unf py_check_name_inplace. go. Qed.
    Lemma py_getattr_sim k p n fr s d : like s d ->  sim (py_getattr E I k p n fr) (py_getattr E' I' k p n fr) s d.
    Proof.
      unf py_getattr. apply sim_catch.
      - unfold py_getattribute. go; (apply checker_proxy_sim; assumption).
      - intros e e' s1 d1 [? ?|? ? ? ? ?] Hl; unfold py_getattr_fallback;
          cbn [is_attribute_error is_unauthorized is_forbidden is_type_error]; go.
    Qed.
    Lemma richcompare_sim k p c w s d : like s d ->  sim (c_richcompare E I k p c w) (c_richcompare E' I' k p c w) s d.
    Proof. unf c_richcompare. unfold c_proxy_result. go; (apply checker_proxy_sim; assumption). Qed.

    Ltac guarded :=
      first
        [ apply py_check_name_sim; [intros|assumption] | apply c_check1_sim; [intros|assumption]
        | apply c_check0_sim; [intros|assumption] | apply c_check2i_sim; [intros|assumption]
        | apply py_nowrap_sim; [intros|assumption] | apply py_str_sim; [intros|assumption]
        | apply c_str_sim; [intros|assumption] | apply proxy_guard_sim; [intros|assumption]
        | apply inplace_sim; assumption | apply py_getattr_sim; assumption | apply richcompare_sim; assumption
        | apply raw_sim; assumption | apply truth_sim; assumption | apply Decorated_get_sim; assumption ].
    Ltac go3 := go; repeat (guarded; go).

    Lemma pow3_sim k a b m s d : like s d ->  sim (proxy_pow3 E I k a b m) (proxy_pow3 E' I' k a b m) s d.
    Proof. unf proxy_pow3. destruct a; go3. Qed.
    Lemma deco_getattr_sim k w n fr s d : like s d -> sim (deco_getattr E I k w n fr) (deco_getattr E' I' k w n fr) s d.
    Proof. unf deco_getattr. go3. Qed.
    Lemma deco_setattr_sim k w n v s d : like s d -> sim (deco_setattr E k w n v) (deco_setattr E' k w n v) s d.
    Proof. unf deco_setattr. go3. Qed.

    Lemma run_op_sim k o s d : like s d ->  sim (run_op E I k o) (run_op E' I' k o) s d.
    Proof.
      intro Hl. destruct o; cbn [run_op];
        try (apply pow3_sim; exact Hl);
        cbn [with_run e_impl];
        repeat match goal with
        | |- sim (match ?x with _ => _ end) _ _ _ => is_var x; destruct x
        end;
        try (apply raw_sim; exact Hl);
        try (apply deco_getattr_sim; exact Hl);
        try (apply deco_setattr_sim; exact Hl);
        unfold proxy_getattr, proxy_setattr, proxy_delattr, proxy_bin_left, proxy_bin_right, proxy_inplace,
          py_setattr, py_delattr, py_compare, py_hash, py_bool, py_length_hint, c_length_hint;
        cbn [with_run e_impl]; go3.
    all: unfold coerce; go.
    Qed.
  End Step.

  Lemma interp_sim f : sim_interp (interp_n E f) (interp_n E' f).
  Proof.
    induction f as [|f IH]; cbn [interp_n].
    - split; intros; (apply sim_raise; [apply L_same; discriminate|assumption]).
    - split; intros; cbn [i_op i_check i_select].
      + apply run_op_sim; assumption.
      + apply checker_check_sim; assumption.
      + apply select_loop_sim; assumption.
  Qed.

  Lemma perform_sim f o s s' : state_like R s s' -> outcome_like R (perform E f o s) (perform E' f o s').
  Proof. intros (d & -> & H). exact (si_op _ _ (interp_sim f) Client o s d H). Qed.

  Lemma functions_sim f s s' : state_like R s s' ->
    (forall m c obj n, outcome_like R (do_check E f m c obj n s) (do_check E' f m c obj n s')) /\
    (forall obj, outcome_like R (do_select E f obj s) (do_select E' f obj s')) /\
    (forall obj c, outcome_like R (do_ProxyFactory E f obj c s) (do_ProxyFactory E' f obj c s')) /\
    (forall c v, outcome_like R (do_proxy E f c v s) (do_proxy E' f c v s')) /\
    (forall obj n, outcome_like R (do_canAccess E f obj n s) (do_canAccess E' f obj n s')) /\
    (forall obj n, outcome_like R (do_canWrite E f obj n s) (do_canWrite E' f obj n s')).
  Proof.
    intros (d & -> & H). assert (HI := interp_sim f).
    split; [intros; apply (si_check _ _ HI), H|]. split; [intros; exact (selectChecker_sim _ _ HI obj s d H)|].
    split; [intros; exact (ProxyFactory_sim _ _ HI obj c s d H)|]. split; [intros; exact (checker_proxy_sim _ _ HI c v s d H)|].
    split; [intros; exact (canAccess_sim _ _ HI obj n s d H)|intros; exact (canWrite_sim _ _ HI obj n s d H)].
  Qed.

  Lemma clients_sim f c : forall c' s s', client_like R c c' -> state_like R s s' ->
    match run_client E f c s, run_client E' f c' s' with
    | (rs, s1, t), (rs', s1', t') => Forall2 (res_like R) rs rs' /\ state_like R s1 s1' /\ Forall2 (event_like R) t t'
    end.
  Proof.
    induction c as [|o next IH]; intros c' s s' Hc Hs; destruct c' as [|o' next']; try contradiction; cbn [run_client].
    - split; [constructor|]. split; [exact Hs|constructor].
    - destruct Hc as (-> & Hn). assert (P := perform_sim f o' s s' Hs).
      destruct (perform E f o' s) as [[r s1] t], (perform E' f o' s') as [[r' s1'] t'].
      destruct P as (P1 & P2 & P3). specialize (IH r (next' r') s1 s1' (Hn r r' P1) P2).
      destruct (run_client E f (next r) s1) as [[rs s2] t2], (run_client E' f (next' r') s1') as [[rs' s2'] t2'].
      destruct IH as (I1 & I2 & I3). split; [constructor; assumption|]. split; [exact I2|apply Forall2_app; assumption].
  Qed.
End Sim.

(** ** Same lookups *)

Lemma like_eq p q : perm_like eq p q -> p = q.
Proof. destruct p, q; cbn [perm_like]; intro H; try contradiction; try reflexivity; exact H. Qed.
Lemma like_refl p : perm_like eq p p.
Proof. destruct p; cbn [perm_like]; exact I || reflexivity. Qed.
Lemma res_eq {A} (r r' : res A) : res_like eq r r' -> r = r'.
Proof.
  destruct r as [a|e], r' as [b|e']; cbn [res_like]; intro H; try contradiction; [congruence|].
  destruct H as [e _|obj n p q H]; [reflexivity|]. apply like_eq in H. congruence.
Qed.
Lemma results_eq {A} (l l' : list (res A)) : Forall2 (res_like eq) l l' -> l = l'.
Proof. induction 1 as [|x y l l' H _ IH]; [reflexivity|]. apply res_eq in H. congruence. Qed.
Lemma events_eq l l' : Forall2 (event_like eq) l l' -> l = l'.
Proof.
  induction 1 as [|x y l l' H _ IH]; [reflexivity|]. subst l'. f_equal.
  destruct H as [k t c c' H|t iv p q obj a H|ln n obj]; [|apply like_eq in H; congruence|reflexivity].
  destruct H as [c _|iv p q obj H]; [reflexivity|]. apply like_eq in H. congruence.
Qed.
Lemma client_eq c : client_like eq c c.
Proof.
  induction c as [|o next IH]; cbn [client_like]; [exact I|]. split; [reflexivity|].
  intros r r' H. apply res_eq in H. subst r'. apply IH.
Qed.

Lemma lookup_lemma E f c s d rs s1 t :
  code_like eq (e_run E) (e_run E) -> (forall i n, entry (st_dicts s i) n = entry (d i) n) ->
  run_client E f c s = (rs, s1, t) ->
  exists d1, run_client E f c (set_dicts d s) = (rs, set_dicts d1 s1, t) /\
             forall i n, entry (st_dicts s1 i) n = entry (d1 i) n.
Proof.
  intros HC Hd H.
  assert (Hs : state_like eq s (set_dicts d s)).
  { exists d. split; [reflexivity|]. intros i n. rewrite (Hd i n). destruct (entry (d i) n) as [p|]; [apply like_refl|exact I]. }
  assert (X := clients_sim eq E (e_run E) HC f c c s (set_dicts d s) (client_eq c) Hs).
  assert (Ee : with_run E (e_run E) = E) by (destruct E; reflexivity). rewrite Ee, H in X.
  destruct (run_client E f c (set_dicts d s)) as [[rs' s1'] t']. destruct X as (X1 & (d1 & -> & X2) & X3).
  apply results_eq in X1. apply events_eq in X3. subst rs' t'. exists d1. split; [reflexivity|].
  intros i n. specialize (X2 i n). unfold entry_like in X2.
  destruct (entry (st_dicts s1 i) n) as [p|], (entry (d1 i) n) as [q|]; try contradiction; [|reflexivity].
  apply like_eq in X2. congruence.
Qed.

(** ** Renaming *)

Lemma renamed_rename rho p q : perm_like (renamed rho) p q -> q = rename rho p.
Proof. destruct p, q; cbn [perm_like renamed rename]; intro H; try contradiction; try reflexivity; exact H. Qed.
Lemma rename_renamed rho p : perm_like (renamed rho) p (rename rho p).
Proof. destruct p; cbn [perm_like renamed rename]; exact I || reflexivity. Qed.
Lemma res_renamed {A} rho (r r' : res A) : res_like (renamed rho) r r' -> r' = rename_res rho r.
Proof.
  destruct r as [a|e], r' as [b|e']; cbn [res_like rename_res]; intro H; try contradiction; [congruence|].
  destruct H as [e H|obj n p q H]; cbn [rename_exn].
  - destruct e; try reflexivity. exfalso. exact (H _ _ _ eq_refl).
  - apply renamed_rename in H. congruence.
Qed.
Lemma results_renamed {A} rho (l l' : list (res A)) : Forall2 (res_like (renamed rho)) l l' -> l' = map (rename_res rho) l.
Proof. induction 1 as [|x y l l' H _ IH]; [reflexivity|]. apply res_renamed in H. cbn [map]. congruence. Qed.
Lemma events_renamed rho l l' : Forall2 (event_like (renamed rho)) l l' -> l' = map (rename_event rho) l.
Proof.
  induction 1 as [|x y l l' H _ IH]; [reflexivity|]. subst l'. cbn [map]. f_equal.
  destruct H as [k t c c' H|t iv p q obj a H|ln n obj]; cbn [rename_event]; [|apply renamed_rename in H; congruence|reflexivity].
  destruct H as [c H|iv p q obj H]; [|apply renamed_rename in H; congruence].
  destruct c; try reflexivity. exfalso. exact (H _ _ _ eq_refl).
Qed.
Lemma entry_renamed rho d i n : entry (rename_tables rho d i) n = option_map (rename rho) (entry (d i) n).
Proof.
  unfold rename_tables. induction (d i) as [|[m p] l IH]; [reflexivity|]. cbn [map entry fst snd].
  destruct (String.eqb m n); [reflexivity|exact IH].
Qed.

Lemma renaming_lemma rho E run' f o s r s1 t :
  code_like (renamed rho) (e_run E) run' -> perform E f o s = (r, s1, t) ->
  exists d1, perform (with_run E run') f o (set_dicts (rename_tables rho (st_dicts s)) s) =
               (rename_res rho r, set_dicts d1 s1, map (rename_event rho) t) /\
             forall i n, entry (d1 i) n = option_map (rename rho) (entry (st_dicts s1 i) n).
Proof.
  intros HC H. set (s' := set_dicts _ s).
  assert (Hs : state_like (renamed rho) s s').
  { exists (rename_tables rho (st_dicts s)). split; [reflexivity|]. intros i n. rewrite entry_renamed.
    destruct (entry (st_dicts s i) n) as [p|]; [apply rename_renamed|exact I]. }
  assert (X := perform_sim (renamed rho) E run' HC f o s s' Hs). rewrite H in X.
  destruct (perform (with_run E run') f o s') as [[r' s1'] t']. destruct X as (X1 & (d1 & -> & X2) & X3).
  apply res_renamed in X1. apply events_renamed in X3. subst r' t'. exists d1. split; [reflexivity|].
  intros i n. specialize (X2 i n). unfold entry_like in X2.
  destruct (entry (st_dicts s1 i) n) as [p|], (entry (d1 i) n) as [q|]; try contradiction; [|reflexivity].
  apply renamed_rename in X2. cbn [option_map]. congruence.
Qed.

Lemma ids_lemma R E run' k n s s' : state_like R s s' ->
  exists p q p2 q2,
    Checker_permission_id E k n s = (Ok p, s, []) /\ Checker_permission_id (with_run E run') k n s' = (Ok q, s', []) /\
    Checker_setattr_permission_id E k n s = (Ok p2, s, []) /\
    Checker_setattr_permission_id (with_run E run') k n s' = (Ok q2, s', []) /\
    perm_like R p q /\ perm_like R p2 q2.
Proof.
  intros (d & -> & H). unfold Checker_permission_id, Checker_setattr_permission_id. cbn [with_run e_cimpl].
  destruct (e_cimpl E).
  - unfold CheckerPy_permission_id, CheckerPy_setattr_permission_id. rewrite !bind_get. cbn [st_dicts set_dicts].
    exists (get_or_none (st_dicts s (ck_get k)) n), (get_or_none (d (ck_get k)) n),
           (get_or_none (st_dicts s (ck_set k)) n), (get_or_none (d (ck_set k)) n).
    repeat split; try (destruct (st_dicts s (ck_set k)); reflexivity); try (destruct (d (ck_set k)); reflexivity);
      apply or_none, H.
  - unfold CheckerC_permission_id, CheckerC_setattr_permission_id. rewrite !bind_get. cbn [st_dicts set_dicts].
    exists (get_or_none (st_dicts s (ck_get k)) n), (get_or_none (d (ck_get k)) n),
           (get_or_none (st_dicts s (ck_set k)) n), (get_or_none (d (ck_set k)) n).
    unfold get_or_none at 1 2 3 4.
    destruct (dget String.eqb (st_dicts s (ck_get k)) n) eqn:E1, (dget String.eqb (d (ck_get k)) n) eqn:E2,
      (dget String.eqb (st_dicts s (ck_set k)) n) eqn:E3, (dget String.eqb (d (ck_set k)) n) eqn:E4;
      repeat split; apply (or_none R s d); exact H.
Qed.
