(** * AnswersFacts: an operation performed with other application code, as long as the code it
    called has not changed. *)

From Coq Require Import List String Bool Arith ZArith Lia.
From Verif Require Import Base Domain CheckerModel ProxyModel MFacts ConcealSpec AnswersSpec.
Import ListNotations.
Open Scope string_scope.
Open Scope m_scope.
Local Arguments String.eqb : simpl never.
Local Arguments mem : simpl never.

Section Follow.
  Variable E : env.
  Variable run' : id -> call -> state -> res value * state.
  Local Notation E' := (with_run E run').
  Local Notation unch := (Forall (unchanged E run')).

  Definition follows {A} (m m' : M A) : Prop :=
    forall s r s' t, m s = (r, s', t) -> unch t -> m' s = (r, s', t).

  Lemma follows_refl {A} (m : M A) : follows m m.
  Proof. intros s r s' t H _. exact H. Qed.
  Lemma follows_bind {A B} (m m' : M A) (k k' : A -> M B) :
    follows m m' -> (forall a, follows (k a) (k' a)) -> follows (bind m k) (bind m' k').
  Proof.
    intros H K s r s' t Hm Hu. unfold bind in *. destruct (m s) as [[[a|e] s1] t1] eqn:Em.
    - destruct (k a s1) as [[r2 s2] t2] eqn:Ek. injection Hm as <- <- <-.
      apply Forall_app in Hu. destruct Hu as (U1 & U2).
      rewrite (H _ _ _ _ Em U1), (K a _ _ _ _ Ek U2). reflexivity.
    - injection Hm as <- <- <-. rewrite (H _ _ _ _ Em Hu). reflexivity.
  Qed.
  Lemma follows_catch {A} (m m' : M A) (h h' : exn -> M A) :
    follows m m' -> (forall e, follows (h e) (h' e)) -> follows (catch m h) (catch m' h').
  Proof.
    intros H K s r s' t Hm Hu. unfold catch in *. destruct (m s) as [[[a|e] s1] t1] eqn:Em.
    - injection Hm as <- <- <-. rewrite (H _ _ _ _ Em Hu). reflexivity.
    - destruct (h e s1) as [[r2 s2] t2] eqn:Ek. injection Hm as <- <- <-.
      apply Forall_app in Hu. destruct Hu as (U1 & U2).
      rewrite (H _ _ _ _ Em U1), (K e _ _ _ _ Ek U2). reflexivity.
  Qed.

  Lemma foreign_follows k c : (forall iv p obj, c <> CallPerm iv p obj) -> follows (foreign E k c) (foreign E' k c).
  Proof.
    intros Hc s r s' t H Hu. unfold foreign in *. cbn [with_run e_tid e_run].
    destruct (e_run E (e_tid E) c s) as [r1 s1] eqn:Er. injection H as <- <- <-.
    inversion Hu as [|x l U _]; subst. cbn [unchanged] in U. rewrite (U Hc), Er. reflexivity.
  Qed.

  Record same_interp (I I' : interp) : Prop := {
    si_op : forall k o, follows (i_op I k o) (i_op I' k o);
    si_check : forall m c obj n, follows (i_check I m c obj n) (i_check I' m c obj n);
    si_select : forall c obj, follows (i_select I c obj) (i_select I' c obj)
  }.

  Section Step.
    Variables I I' : interp.
    Hypothesis HI : same_interp I I'.

    Ltac step :=
      first
        [ apply follows_refl
        | apply (si_op I I' HI)
        | apply (si_check I I' HI)
        | apply (si_select I I' HI)
        | apply foreign_follows; discriminate
        | match goal with |- follows (bind _ _) _ => apply follows_bind; [|intro] end
        | match goal with |- follows (catch _ _) _ => apply follows_catch; [|intro] end ].
    Ltac cases :=
      match goal with
      | |- follows (match ?x with _ => _ end) _ => destruct x
      end.
    Ltac go := intros; repeat first [step | cases | cbv zeta beta].
    Ltac unf d := intros; unfold d; cbn [with_run e_impl e_cimpl e_watch e_tid e_type e_meta e_isexc e_addr].

    Lemma truth_follows v : follows (truth I v) (truth I' v).
    Proof. unf truth. go. Qed.

    Lemma truth_known v s : match truth_of v with Some b => truth I v s = (Ok b, s, []) | None => True end.
    Proof. destruct v; cbn; exact eq_refl || exact Logic.I. Qed.

    Lemma ask_foreign iv p obj :
      follows (b <- catch (v <- foreign_quiet E (CallPerm iv p obj) ;; truth I v)
                      (fun e => emit (EAsk (e_tid E) iv p obj None) ;;; raise e) ;;
               emit (EAsk (e_tid E) iv p obj (Some b)) ;;; ret b)
              (b <- catch (v <- foreign_quiet E' (CallPerm iv p obj) ;; truth I' v)
                      (fun e => emit (EAsk (e_tid E') iv p obj None) ;;; raise e) ;;
               emit (EAsk (e_tid E') iv p obj (Some b)) ;;; ret b).
    Proof.
      intros s r s' t H Hu. unfold foreign_quiet, bind, catch, emit, raise, ret in *.
      cbn [with_run e_tid e_run]. destruct (e_run E (e_tid E) (CallPerm iv p obj) s) as [[v|e] s1] eqn:Er.
      - destruct (truth I v s1) as [[[b|e] s2] t2] eqn:Et.
        + cbn [app] in H. injection H as <- <- <-.
          apply Forall_app in Hu. destruct Hu as (U1 & U2). inversion U2 as [|x l U _]; subst. cbn [unchanged] in U.
          assert (Hm : may_answer (Ok v) (Some b)).
          { cbn [may_answer]. assert (K := truth_known v s1). destruct (truth_of v) as [b'|]; [|exact Logic.I].
            rewrite K in Et. congruence. }
          rewrite (U s _ _ Er Hm), (truth_follows v _ _ _ _ Et U1). reflexivity.
        + cbn [app] in H. injection H as <- <- <-. rewrite app_nil_r in *.
          apply Forall_app in Hu. destruct Hu as (U1 & U2). inversion U2 as [|x l U _]; subst. cbn [unchanged] in U.
          assert (Hm : may_answer (Ok v) None).
          { cbn [may_answer]. assert (K := truth_known v s1). destruct (truth_of v) as [b'|]; [|exact Logic.I].
            rewrite K in Et. congruence. }
          rewrite (U s _ _ Er Hm), (truth_follows v _ _ _ _ Et U1). cbn [app]. rewrite ?app_nil_r. reflexivity.
      - cbn [app] in H. injection H as <- <- <-.
        inversion Hu as [|x l U _]; subst. cbn [unchanged] in U.
        rewrite (U s _ _ Er eq_refl). reflexivity.
    Qed.

    Lemma ask_follows iv p obj : follows (ask E I iv p obj) (ask E' I' iv p obj).
    Proof. unfold ask. destruct iv; try apply ask_foreign; unf @id; go. Qed.
    Lemma tl_follows p obj : follows (tl_checkPermission E I p obj) (tl_checkPermission E' I' p obj).
    Proof. unf tl_checkPermission. go. apply ask_follows. Qed.
    Lemma hasattr_py_follows obj n : follows (hasattr_py I obj n) (hasattr_py I' obj n).
    Proof. unf hasattr_py. go. Qed.
    Lemma hasattr_c_follows obj n : follows (hasattr_c I obj n) (hasattr_c I' obj n).
    Proof. unf hasattr_c. go. Qed.

    Lemma Checker_check_follows c obj n : follows (Checker_check E I c obj n) (Checker_check E' I' c obj n).
    Proof.
      unf Checker_check. destruct (e_cimpl E).
      - unfold CheckerPy_check. go; first [apply tl_follows | apply hasattr_py_follows].
      - unfold CheckerC_check_int, CheckerC_checkPermission. go; first [apply tl_follows | apply hasattr_c_follows].
    Qed.
    Lemma Checker_check_setattr_follows c obj n :
      follows (Checker_check_setattr E I c obj n) (Checker_check_setattr E' I' c obj n).
    Proof.
      unf Checker_check_setattr. destruct (e_cimpl E).
      - unfold CheckerPy_check_setattr. go; apply tl_follows.
      - unfold CheckerC_check_setattr, CheckerC_checkPermission. go; apply tl_follows.
    Qed.
    Lemma log_line_follows v k l n obj : follows (log_line I v k l n obj) (log_line I' v k l n obj).
    Proof. unf log_line. go. Qed.

    Ltac go2 := go; repeat (first [apply Checker_check_follows | apply Checker_check_setattr_follows
                           | apply log_line_follows]; go).
    Lemma Watching_check_follows v c obj n : follows (Watching_check E I v c obj n) (Watching_check E' I' v c obj n).
    Proof. unf Watching_check. go2. Qed.
    Lemma Watching_check_getattr_follows v c obj n :
      follows (Watching_check_getattr E I v c obj n) (Watching_check_getattr E' I' v c obj n).
    Proof. unf Watching_check_getattr. go2. Qed.
    Lemma Watching_check_setattr_follows v c obj n :
      follows (Watching_check_setattr E I v c obj n) (Watching_check_setattr E' I' v c obj n).
    Proof. unf Watching_check_setattr. go2. Qed.
    Lemma combine_follows a a' b b' : follows a a' -> follows b b' -> follows (combine a b) (combine a' b').
    Proof. intros Ha Hb. unfold combine. apply follows_catch; [exact Ha|]. intro e. go; exact Hb. Qed.
    Lemma Combined_first_follows c obj n :
      follows (Combined_first_check E I c obj n) (Combined_first_check E' I' c obj n).
    Proof. unf Combined_first_check. go; first [apply Checker_check_follows | apply Watching_check_follows]. Qed.
    Lemma Combined_first_setattr_follows c obj n :
      follows (Combined_first_check_setattr E I c obj n) (Combined_first_check_setattr E' I' c obj n).
    Proof. unf Combined_first_check_setattr. go; first [apply Checker_check_setattr_follows | apply Watching_check_setattr_follows]. Qed.
    Lemma checker_check_follows m c obj n : follows (checker_check E I m c obj n) (checker_check E' I' m c obj n).
    Proof.
      unf checker_check. unfold Combined_check, Combined_check_setattr.
      go; first [apply Checker_check_follows | apply Checker_check_setattr_follows | apply Watching_check_follows
                |apply Watching_check_getattr_follows|apply Watching_check_setattr_follows
                |apply combine_follows; [first [apply Combined_first_follows|apply Combined_first_setattr_follows]|go] ].
    Qed.
    Lemma call_factory_follows f obj : follows (call_factory I f obj) (call_factory I' f obj).
    Proof. unf call_factory. go. Qed.
    Lemma select_loop_follows c obj : follows (select_loop E I c obj) (select_loop E' I' c obj).
    Proof.
      unf select_loop. apply follows_bind; [apply follows_refl|intro a].
      change (is_Checker E' a c) with (is_Checker E a c). go; apply call_factory_follows.
    Qed.
    Lemma selectCheckerC_follows obj : follows (selectCheckerC E I obj) (selectCheckerC E' I' obj).
    Proof.
      unf selectCheckerC. apply follows_bind; [apply follows_refl|intro a]. change (registered E' a obj) with (registered E a obj).
      change (type_of E' a obj) with (type_of E a obj). go.
    Qed.
    Lemma selectChecker_follows obj : follows (selectChecker E I obj) (selectChecker E' I' obj).
    Proof.
      unf selectChecker. destruct (e_cimpl E); [|apply selectCheckerC_follows].
      unfold selectCheckerPy. apply follows_bind; [apply follows_refl|intro a]. change (registered E' a obj) with (registered E a obj). go.
    Qed.
    Lemma getattr_sec_follows v : follows (getattr_sec_checker I v) (getattr_sec_checker I' v).
    Proof. unf getattr_sec_checker. go. Qed.
    Lemma checker_proxy_follows c v : follows (checker_proxy E I c v) (checker_proxy E' I' c v).
    Proof.
      unf checker_proxy. unfold CheckerPy_proxy, CheckerC_proxy, getattr_sec_checker_c.
      go; repeat (first [apply getattr_sec_follows | apply selectChecker_follows | apply selectCheckerC_follows]; go).
    Qed.
    Lemma ProxyFactory_follows obj c : follows (ProxyFactory E I obj c) (ProxyFactory E' I' obj c).
    Proof.
      unf ProxyFactory. go; repeat (first [apply getattr_sec_follows | apply selectChecker_follows]; go).
    Qed.
    Lemma canAccess_follows obj n : follows (canAccess E I obj n) (canAccess E' I' obj n).
    Proof. unf canAccess. go. apply ProxyFactory_follows. Qed.
    Lemma canWrite_follows obj n : follows (canWrite E I obj n) (canWrite E' I' obj n).
    Proof. unf canWrite. go. apply ProxyFactory_follows. Qed.
    Lemma Decorated_get_follows d : follows (Decorated_get E I d) (Decorated_get E' I' d).
    Proof.
      unf Decorated_get. go; repeat (first [apply getattr_sec_follows | apply selectChecker_follows]; go).
    Qed.
    Lemma raw_follows k o : follows (raw E k o) (raw E' k o).
    Proof. unf raw. go. Qed.

    Section Guarded.
      Variables (op1 op2 : value -> M value).
      Hypothesis Hop : forall v, follows (op1 v) (op2 v).
      Lemma py_check_name_follows p nm : follows (py_check_name E I p nm op1) (py_check_name E' I' p nm op2).
      Proof. unf py_check_name. go; first [apply Hop | apply checker_proxy_follows]. Qed.
      Lemma c_check_follows p m nm : follows (c_check I p m nm) (c_check I' p m nm).
      Proof. unf c_check. go. Qed.
      Lemma c_check1_follows p m nm : follows (c_check1 E I p m nm op1) (c_check1 E' I' p m nm op2).
      Proof. unf c_check1. unfold c_proxy_result. go; first [apply c_check_follows | apply Hop | apply checker_proxy_follows]. Qed.
      Lemma c_check0_follows p m nm : follows (c_check0 I p m nm op1) (c_check0 I' p m nm op2).
      Proof. unf c_check0. go; first [apply c_check_follows | apply Hop]. Qed.
      Lemma c_check2i_follows p nm : follows (c_check2i E I p nm op1) (c_check2i E' I' p nm op2).
      Proof. unf c_check2i. unfold c_proxy_result. go; first [apply c_check_follows | apply Hop | apply checker_proxy_follows]. Qed.
      Lemma py_nowrap_follows p nm : follows (py_check_name_nowrap I p nm op1) (py_check_name_nowrap I' p nm op2).
      Proof. unf py_check_name_nowrap. go; apply Hop. Qed.
      Lemma py_str_follows p nm : follows (py_str_like E I p nm op1) (py_str_like E' I' p nm op2).
      Proof. unf py_str_like. unfold default_repr_py. go; apply py_check_name_follows. Qed.
      Lemma c_str_follows p nm : follows (c_str_like E I p nm op1) (c_str_like E' I' p nm op2).
      Proof. unf c_str_like. unfold default_repr_c. go; first [apply c_check_follows | apply Hop]. Qed.
      Lemma proxy_guard_follows p m nm : follows (proxy_guard E I p m nm op1) (proxy_guard E' I' p m nm op2).
      Proof. unf proxy_guard. destruct (e_impl E); [apply py_check_name_follows|apply c_check1_follows]. Qed.
    End Guarded.

    Lemma inplace_follows k p nm arg : follows (py_check_name_inplace I k p nm arg) (py_check_name_inplace I' k p nm arg).
    Proof. unf py_check_name_inplace. go. Qed.
    Lemma py_getattr_follows k p n fr : follows (py_getattr E I k p n fr) (py_getattr E' I' k p n fr).
    Proof.
      unf py_getattr. apply follows_catch.
      - unfold py_getattribute. go; apply checker_proxy_follows.
      - intro e. unfold py_getattr_fallback. go.
    Qed.
    Lemma richcompare_follows k p c w : follows (c_richcompare E I k p c w) (c_richcompare E' I' k p c w).
    Proof. unf c_richcompare. unfold c_proxy_result. go; apply checker_proxy_follows. Qed.

    Ltac guarded :=
      first
        [ apply py_check_name_follows; intro | apply c_check1_follows; intro | apply c_check0_follows; intro
        | apply c_check2i_follows; intro | apply py_nowrap_follows; intro | apply py_str_follows; intro
        | apply c_str_follows; intro | apply proxy_guard_follows; intro | apply inplace_follows
        | apply py_getattr_follows | apply richcompare_follows | apply raw_follows | apply truth_follows
        | apply Decorated_get_follows ].
    Ltac go3 := go; repeat (guarded; go).

    Lemma pow3_follows k a b m : follows (proxy_pow3 E I k a b m) (proxy_pow3 E' I' k a b m).
    Proof. unf proxy_pow3. destruct a; go3. Qed.
    Lemma deco_getattr_follows k d n fr : follows (deco_getattr E I k d n fr) (deco_getattr E' I' k d n fr).
    Proof. unf deco_getattr. go3. Qed.
    Lemma deco_setattr_follows k d n v : follows (deco_setattr E k d n v) (deco_setattr E' k d n v).
    Proof. unf deco_setattr. go3. Qed.

    Lemma run_op_follows k o : follows (run_op E I k o) (run_op E' I' k o).
    Proof.
      destruct o; cbn [run_op];
        try (apply pow3_follows);
        cbn [with_run e_impl];
        repeat match goal with
        | |- follows (match ?x with _ => _ end) _ => is_var x; destruct x
        end;
        try apply raw_follows;
        try (apply deco_getattr_follows);
        try (apply deco_setattr_follows);
        unfold proxy_getattr, proxy_setattr, proxy_delattr, proxy_bin_left, proxy_bin_right, proxy_inplace,
          py_setattr, py_delattr, py_compare, py_hash, py_bool, py_length_hint, c_length_hint;
        cbn [with_run e_impl]; go3.
    Qed.
  End Step.

  Lemma interp_follows f : same_interp (interp_n E f) (interp_n E' f).
  Proof.
    induction f as [|f IH]; cbn [interp_n].
    - split; intros; apply follows_refl.
    - split; intros; cbn [i_op i_check i_select].
      + apply run_op_follows, IH.
      + apply checker_check_follows, IH.
      + apply select_loop_follows, IH.
  Qed.

  Lemma client_follows f c : forall s rs s' t,
    run_client E f c s = (rs, s', t) -> unch t -> run_client E' f c s = (rs, s', t).
  Proof.
    induction c as [|o next IH]; intros s rs s' t H Hu; cbn [run_client] in *; [exact H|].
    destruct (perform E f o s) as [[r s1] t1] eqn:E1. destruct (run_client E f (next r) s1) as [[rs2 s2] t2] eqn:E2.
    injection H as <- <- <-. apply Forall_app in Hu. destruct Hu as (U1 & U2).
    unfold perform in *. rewrite (si_op _ _ (interp_follows f) _ _ _ _ _ _ E1 U1), (IH _ _ _ _ _ E2 U2). reflexivity.
  Qed.
End Follow.

Lemma revised_unchanged b E run' t : revised b E run' -> never b t -> Forall (unchanged E run') t.
Proof.
  intros HR HN. apply Forall_forall. intros [k th c|th iv p obj a|l n obj] He; cbn [unchanged]; [| |exact I].
  - intros Hc s. destruct (HR th c s) as [H|(iv & p & obj & v & s1 & Ec & _)]; [exact H|]. exfalso. exact (Hc _ _ _ Ec).
  - intros s r s1 Er Hm. destruct (HR th (CallPerm iv p obj) s) as [H|(iv' & p' & obj' & v & s2 & Ec & Ev & Ht)].
    + rewrite H. exact Er.
    + rewrite Er in Ev. injection Ev as -> ->. cbn [may_answer] in Hm. rewrite Ht in Hm. subst a.
      exfalso. exact (HN _ _ _ _ He).
Qed.

(** ** Everything that depends on application code *)

Lemma unchanged_ops E run' f o s r s' t :
  perform E f o s = (r, s', t) -> Forall (unchanged E run') t -> perform (with_run E run') f o s = (r, s', t).
Proof. apply (si_op _ _ _ _ (interp_follows E run' f)). Qed.
Lemma unchanged_functions E run' f :
  let kept := fun A (m m' : M A) => forall s r s' t, m s = (r, s', t) -> Forall (unchanged E run') t -> m' s = (r, s', t) in
  let E' := with_run E run' in
  (forall m c obj n, kept _ (do_check E f m c obj n) (do_check E' f m c obj n)) /\
  (forall obj, kept _ (do_select E f obj) (do_select E' f obj)) /\
  (forall obj c, kept _ (do_ProxyFactory E f obj c) (do_ProxyFactory E' f obj c)) /\
  (forall c v, kept _ (do_proxy E f c v) (do_proxy E' f c v)) /\
  (forall obj n, kept _ (do_canAccess E f obj n) (do_canAccess E' f obj n)) /\
  (forall obj n, kept _ (do_canWrite E f obj n) (do_canWrite E' f obj n)).
Proof.
  intros kept E'. assert (HI := interp_follows E run' f).
  split; [intros; apply (si_check _ _ _ _ HI)|]. split; [intros; apply selectChecker_follows, HI|].
  split; [intros; apply ProxyFactory_follows, HI|]. split; [intros; apply checker_proxy_follows, HI|].
  split; [intros; apply canAccess_follows, HI|intros; apply canWrite_follows, HI].
Qed.

(** ** Decisions *)

Section Looser.
  Variable E : env.
  Variable run' : id -> call -> state -> res value * state.
  Hypothesis HP : plain_policy E.
  Hypothesis HL : looser E run'.
  Hypothesis HK : keeps_unwatching E.
  Local Notation E' := (with_run E run').

  Definition mono {A} (good : A) (m m' : M A) (s : state) : Prop :=
    (fst (m s) = fst (m' s) /\ unwatching (snd (fst (m s)))) \/ fst (fst (m' s)) = Ok good.

  Lemma mono_raise {A} (g : A) e s : unwatching s -> mono g (raise e) (raise e) s.
  Proof. intro H. left. split; [reflexivity|exact H]. Qed.
  Lemma mono_ret {A} (g : A) (m : M A) s : mono g m (ret g) s.
  Proof. right. reflexivity. Qed.
  Lemma mono_get {A} (g : A) (k k' : state -> M A) s : mono g (k s) (k' s) s -> mono g (bind get k) (bind get k') s.
  Proof. unfold mono. rewrite !bind_get. exact (fun H => H). Qed.
  Lemma mono_bind {A B} (g : B) (m m' : M A) (k k' : A -> M B) s :
    fst (m s) = fst (m' s) -> unwatching (snd (fst (m s))) ->
    (forall a s1, unwatching s1 -> mono g (k a) (k' a) s1) -> mono g (bind m k) (bind m' k') s.
  Proof.
    intros H1 H2 K. unfold mono, bind. destruct (m s) as [[r1 s1] t1], (m' s) as [[r2 s2] t2].
    cbn [fst snd] in H1, H2. injection H1 as -> ->. destruct r2 as [a|e]; [|left; split; [reflexivity|exact H2]].
    specialize (K a s2 H2). unfold mono in K.
    destruct (k a s2) as [[r3 s3] t3], (k' a s2) as [[r4 s4] t4]. exact K.
  Qed.

  Lemma mono_catch {A} (g : A) (m m' : M A) (h h' : exn -> M A) s :
    mono g m m' s -> (forall e s1, unwatching s1 -> mono g (h e) (h' e) s1) -> mono g (catch m h) (catch m' h') s.
  Proof.
    intros Hm K. unfold mono, catch in *. destruct (m s) as [[r1 s1] t1], (m' s) as [[r2 s2] t2].
    cbn [fst snd] in Hm. destruct Hm as [(H1 & H2)|H2]; [|rewrite H2; right; reflexivity].
    injection H1 as -> ->. destruct r2 as [a|e]; [left; split; [reflexivity|exact H2]|].
    specialize (K e s2 H2). destruct (h e s2) as [[r3 s3] t3], (h' e s2) as [[r4 s4] t4]. exact K.
  Qed.

  Lemma looser_other c s : (forall iv p obj, c <> CallPerm iv p obj) -> run' (e_tid E) c s = e_run E (e_tid E) c s.
  Proof.
    intros Hc. destruct (HL (e_tid E) c s) as [H|(iv & p & obj & Ec & _)]; [exact H|]. exfalso. exact (Hc _ _ _ Ec).
  Qed.

  Lemma ask_mono I I' iv perm0 obj s :
    (exists b t, ask E I iv perm0 obj s = (Ok b, s, t) /\ ask E' I' iv perm0 obj s = (Ok b, s, t)) \/
    (exists e, ask E I iv perm0 obj s = (Exc e, s, []) /\ ask E' I' iv perm0 obj s = (Exc e, s, [])) \/
    (exists t, ask E' I' iv perm0 obj s = (Ok true, s, t)).
  Proof.
    unfold ask. destruct iv;
      try (right; left; eexists; split; reflexivity);
      try (
      match goal with |- context [CallPerm ?iv perm0 obj] => 
        unfold foreign_quiet, bind, catch, emit, ret; cbn [with_run e_tid e_run];
        destruct (HP (e_tid E) iv perm0 obj s) as (b & Eb); rewrite Eb;
        destruct (HL (e_tid E) (CallPerm iv perm0 obj) s) as [H|(iv1 & p1 & obj1 & _ & _ & H)]; rewrite H;
        [rewrite Eb; left; exists b; eexists; split; reflexivity
        |right; right; eexists; reflexivity]
      end).
    unfold bind, get. cbn [fst snd]. destruct (st_inters s i) as [x|].
    - left. eexists. eexists. split; reflexivity.
    - right; left; eexists; split; reflexivity.
  Qed.

  Lemma decide_mono I I' p obj n s : unwatching s ->
    mono tt (b <- tl_checkPermission E I p obj ;; if b then ret tt else raise (EUnauthorized obj n p))
            (b <- tl_checkPermission E' I' p obj ;; if b then ret tt else raise (EUnauthorized obj n p)) s.
  Proof.
    intros Hs. unfold mono, bind. unfold tl_checkPermission. rewrite !bind_get. cbn [with_run e_tid].
    destruct (tl_inter (st_tls s (e_tid E))) as [iv|]; [|left; split; [reflexivity|exact Hs]].
    destruct (ask_mono I I' iv p obj s) as [(b & t & E1 & E2)|[(e & E1 & E2)|(t & E2)]].
    - left. rewrite E1, E2. destruct b; split; try reflexivity; exact Hs.
    - left. rewrite E1, E2. split; [reflexivity|exact Hs].
    - right. rewrite E2. reflexivity.
  Qed.

  (** Looking for [__iter__]. *)
  Lemma probe_same f obj s : is_proxy obj = false -> unwatching s ->
    let o := OGetattr obj "__iter__" None in
    fst (i_op (interp_n E f) Probe o s) = fst (i_op (interp_n E' f) Probe o s) /\
    unwatching (snd (fst (i_op (interp_n E f) Probe o s))).
  Proof.
    intros Hp Hs o. destruct f as [|f]; [split; [reflexivity|exact Hs]|].
    assert (R : forall k o', (forall v, coerce o' v = ret v) ->
      fst (raw E k o' s) = fst (raw E' k o' s) /\ unwatching (snd (fst (raw E k o' s)))).
    { intros k o' Ho. unfold raw, bind, foreign. cbn [with_run e_tid e_run].
      rewrite (looser_other (CallOp o') s) by discriminate.
      destruct (e_run E (e_tid E) (CallOp o') s) as [[v|e] s1] eqn:Er; rewrite ?Ho;
        (split; [reflexivity|exact (HK _ _ _ _ _ Er Hs)]). }
    cbn [interp_n i_op o run_op]. destruct obj; try discriminate Hp;
      try (apply R; reflexivity).
    unfold deco_getattr. change (String.eqb "__iter__" "__Security_checker__") with false. cbv iota.
    rewrite !bind_get.
    change (String.eqb "__iter__" "__parent__") with false. cbn [andb].
    destruct (st_decos s d) as [x|]; [|split; [reflexivity|exact Hs]].
    apply R. reflexivity.
  Qed.

  Definition probed (obj : value) (n : name) : Prop := is_proxy obj = false \/ n <> "__iter__".

  Lemma has_mono f obj (h : exn -> M bool) :
    (forall e s, snd (fst (h e s)) = s) -> is_proxy obj = false -> forall s, unwatching s ->
    let has := fun E => catch (i_op (interp_n E f) Probe (OGetattr obj "__iter__" None) ;;; ret true) h in
    fst (has E s) = fst (has E' s) /\ unwatching (snd (fst (has E s))).
  Proof.
    intros Hh Hp s Hs has. unfold has, catch, bind, ret.
    destruct (probe_same f obj s Hp Hs) as (E1 & E2). cbv zeta in E1, E2.
    destruct (i_op (interp_n E f) Probe (OGetattr obj "__iter__" None) s) as [[r1 s1] t1].
    destruct (i_op (interp_n E' f) Probe (OGetattr obj "__iter__" None) s) as [[r2 s2] t2].
    cbn [fst snd] in E1, E2. injection E1 as -> ->. destruct r2 as [v|e]; [split; [reflexivity|exact E2]|].
    assert (X := Hh e s2). destruct (h e s2) as [[r3 s3] t3]. cbn [fst snd] in X |- *. subst s3. split; [reflexivity|exact E2].
  Qed.

  Lemma check_mono f c obj n s : probed obj n -> unwatching s ->
    mono tt (Checker_check E (interp_n E f) c obj n) (Checker_check E' (interp_n E' f) c obj n) s.
  Proof.
    intros Hp Hs. unfold Checker_check. cbn [with_run e_cimpl]. destruct (e_cimpl E).
    - unfold CheckerPy_check. apply mono_get. cbv zeta.
      destruct (negb (perm_eqb (get_or_none (st_dicts s (ck_get c)) n) PNone)).
      + destruct (perm_eqb (get_or_none (st_dicts s (ck_get c)) n) PPublic); [apply mono_ret|].
        apply decide_mono, Hs.
      + destruct (mem n available_by_default); [apply mono_ret|].
        destruct (String.eqb n "__iter__") eqn:En; cbn [negb]; [|apply mono_bind; [reflexivity|exact Hs|]; intros [|] s1 H1; [apply mono_raise, H1|apply mono_ret]].
        apply String.eqb_eq in En. subst n. destruct Hp as [Hp|Hp]; [|congruence].
        destruct (has_mono f obj (fun e => if is_attribute_error e then ret false else raise e)
                    ltac:(intros e s0; cbn beta; destruct (is_attribute_error e); reflexivity) Hp s Hs) as (A & B).
        apply mono_bind; [exact A|exact B|]. intros [|] s1 H1; [apply mono_raise, H1|apply mono_ret].
    - unfold CheckerC_check_int. apply mono_get.
      destruct (dget String.eqb (st_dicts s (ck_get c)) n) as [p|].
      + destruct (perm_eqb p PPublic); [apply mono_ret|]. apply decide_mono, Hs.
      + destruct (is_operator n); [|apply mono_raise, Hs].
        destruct (mem n available_by_default); [apply mono_ret|].
        destruct (String.eqb n "__iter__") eqn:En; [|apply mono_raise, Hs].
        apply String.eqb_eq in En. subst n. destruct Hp as [Hp|Hp]; [|congruence].
        destruct (has_mono f obj (fun e => ret false) ltac:(intros e s0; reflexivity) Hp s Hs) as (A & B).
        apply mono_bind; [exact A|exact B|]. intros [|] s1 H1; [apply mono_raise, H1|apply mono_ret].
  Qed.

  Lemma check_setattr_mono f c obj n s : unwatching s ->
    mono tt (Checker_check_setattr E (interp_n E f) c obj n) (Checker_check_setattr E' (interp_n E' f) c obj n) s.
  Proof.
    intros Hs. unfold Checker_check_setattr. cbn [with_run e_cimpl]. destruct (e_cimpl E).
    - unfold CheckerPy_check_setattr. apply mono_get. cbv zeta.
      destruct (negb _); [|apply mono_raise, Hs].
      destruct (perm_eqb _ PPublic); [apply mono_ret|]. apply decide_mono, Hs.
    - unfold CheckerC_check_setattr. apply mono_get.
      destruct (dget String.eqb (st_dicts s (ck_set c)) n) as [p|]; [|apply mono_raise, Hs].
      destruct (negb (perm_eqb p PPublic)); [|apply mono_ret]. apply decide_mono, Hs.
  Qed.

  Lemma combine_mono a a' b b' s :
    mono tt a a' s -> (forall s1, unwatching s1 -> mono tt b b' s1) -> mono tt (combine a b) (combine a' b') s.
  Proof.
    intros Ha Hb. unfold combine. apply mono_catch; [exact Ha|]. intros e s1 H1.
    destruct (is_forbidden e); [apply Hb, H1|]. destruct (is_unauthorized e); [|apply mono_raise, H1].
    apply mono_catch; [apply Hb, H1|]. intros e2 s2 H2. destruct (is_forbidden e2); apply mono_raise, H2.
  Qed.

  Lemma do_check_mono f : forall m c obj n s, m = MSetattr \/ probed obj n -> unwatching s ->
    mono tt (do_check E f m c obj n) (do_check E' f m c obj n) s.
  Proof.
    induction f as [|f IH]; intros m c obj n s Hp Hs; [apply mono_raise, Hs|].
    unfold do_check. cbn [interp_n i_check]. unfold checker_check.
    assert (F : forall c', mono tt (foreign E Probe (CallCheck m c' obj n) ;;; ret tt)
                                   (foreign E' Probe (CallCheck m c' obj n) ;;; ret tt) s).
    { intro c'. apply mono_bind; [| |intros; apply mono_ret]; unfold foreign; cbn [with_run e_tid e_run].
      - rewrite (looser_other (CallCheck m c' obj n) s) by discriminate. destruct (e_run E (e_tid E) _ s). reflexivity.
      - destruct (e_run E (e_tid E) (CallCheck m c' obj n) s) as [r s1] eqn:Er. exact (HK _ _ _ _ _ Er Hs). }
    destruct c; try apply F. apply mono_get. destruct (st_chks s c) as [k|] eqn:Ec; [|apply mono_raise, Hs].
    assert (Hk := Hs c k Ec). destruct (ck_kind k) as [|c2|v|v c2] eqn:Ek; try contradiction.
    - destruct m; [apply check_mono|apply check_mono|apply check_setattr_mono]; try exact Hs;
        (destruct Hp as [Hp|Hp]; [discriminate Hp|exact Hp]).
    - assert (G : forall m', (m = MSetattr -> m' = MSetattr) -> (m' = MSetattr -> m = MSetattr) ->
                  forall s1, unwatching s1 ->
                  mono tt (i_check (interp_n E f) m' c2 obj n) (i_check (interp_n E' f) m' c2 obj n) s1).
      { intros m' Hm' Hm'' s1 H1. apply (IH m' c2 obj n s1); [|exact H1].
        destruct Hp as [Hp|Hp]; [left; exact (Hm' Hp)|right; exact Hp]. }
      assert (C : m <> MSetattr -> mono tt (Combined_check E (interp_n E f) k c2 obj n)
                                        (Combined_check E' (interp_n E' f) k c2 obj n) s).
      { intro Hm. apply combine_mono; [|apply G; intro X; [contradiction|discriminate X]].
        unfold Combined_first_check. cbn [with_run e_watch]. rewrite Ek.
        destruct (e_watch E); [apply check_mono; [destruct Hp as [Hp|Hp]; [contradiction|exact Hp]|exact Hs]|apply mono_raise, Hs]. }
      destruct m; [apply C; discriminate|apply C; discriminate|].
      apply combine_mono; [|apply G; intro X; exact X].
      unfold Combined_first_check_setattr. cbn [with_run e_watch]. rewrite Ek.
      destruct (e_watch E); [apply check_setattr_mono, Hs|apply mono_raise, Hs].
  Qed.

  Lemma check_granted f m c obj n s s1 t : is_proxy obj = false -> unwatching s ->
    do_check E f m c obj n s = (Ok tt, s1, t) -> exists s2 t2, do_check E' f m c obj n s = (Ok tt, s2, t2).
  Proof.
    intros Hp Hs H. destruct (do_check_mono f m c obj n s (or_intror (or_introl Hp)) Hs) as [(A & _)|A]; rewrite ?H in A;
      destruct (do_check E' f m c obj n s) as [[r s2] t2]; cbn [fst snd] in A.
    - injection A as <- <-. eauto.
    - subst r. eauto.
  Qed.

  Lemma checker_got {A} (X : env) (I : interp) p (k : value -> value -> M A) s :
    bind (ProxyFactory X I (VProxy p) VNone) (fun o => bind (getChecker o) (k o)) s =
    match st_prox s p with Some (_, c) => k (VProxy p) c s | None => (Exc (EType "dangling proxy"), s, []) end.
  Proof.
    unfold ProxyFactory. cbn [is_proxy]. rewrite bind_ret. unfold getChecker, bind, get.
    destruct (st_prox s p) as [[w c]|]; [|reflexivity]. cbn [ret app]. destruct (k (VProxy p) c s) as [[r s1] t]. reflexivity.
  Qed.

  Lemma can_lemma f p n s : unwatching s ->
    (n <> "__iter__" -> fst (fst (do_canAccess E f (VProxy p) n s)) = Ok true ->
       fst (fst (do_canAccess E' f (VProxy p) n s)) = Ok true) /\
    (fst (fst (do_canWrite E f (VProxy p) n s)) = Ok true ->
       fst (fst (do_canWrite E' f (VProxy p) n s)) = Ok true).
  Proof.
    intros Hs. unfold do_canAccess, do_canWrite, canAccess, canWrite. rewrite !checker_got.
    destruct (st_prox s p) as [[w c]|]; [|split; intros; discriminate].
    assert (D := fun m Hm => do_check_mono f m c (VProxy p) n s Hm Hs). unfold mono, do_check in D.
    split.
    - intros Hn H. specialize (D MGetattr (or_intror (or_intror Hn))). unfold catch, bind in H |- *.
      destruct (i_check (interp_n E f) MGetattr c (VProxy p) n s) as [[r1 s1] t1].
      destruct (i_check (interp_n E' f) MGetattr c (VProxy p) n s) as [[r2 s2] t2]. cbn [fst snd] in D.
      destruct D as [(D & _)|D].
      + injection D as -> ->. destruct r2 as [[]|e]; [reflexivity|]. destruct (is_unauthorized e); cbn in H; discriminate H.
      + subst r2. reflexivity.
    - intros H. specialize (D MSetattr (or_introl eq_refl)). unfold catch at 1, bind at 1 in H. unfold catch at 1, bind at 1.
      destruct (i_check (interp_n E f) MSetattr c (VProxy p) n s) as [[r1 s1] t1].
      destruct (i_check (interp_n E' f) MSetattr c (VProxy p) n s) as [[r2 s2] t2]. cbn [fst snd] in D.
      destruct D as [(D & _)|D].
      + injection D as -> ->. destruct r2 as [[]|e]; [reflexivity|]. exfalso.
        destruct (is_unauthorized e); [discriminate H|]. destruct (is_forbidden e); [|discriminate H].
        unfold bind, catch in H. destruct (i_check (interp_n E f) MGetattr c (VProxy p) n s2) as [[[u|e2] s3] t3];
          [discriminate H|]. destruct (is_unauthorized e2); cbn in H; discriminate H.
      + subst r2. reflexivity.
  Qed.
End Looser.

Lemma revised_clients b E run' f c s rs s' t :
  revised b E run' -> run_client E f c s = (rs, s', t) -> never b t ->
  run_client (with_run E run') f c s = (rs, s', t).
Proof. intros HR H HN. exact (client_follows E run' f c s rs s' t H (revised_unchanged b E run' t HR HN)). Qed.

Lemma granting_lemma E run' f m c obj n s s1 t :
  plain_policy E -> looser E run' -> keeps_unwatching E -> unwatching s -> is_proxy obj = false ->
  do_check E f m c obj n s = (Ok tt, s1, t) ->
  exists s2 t2, do_check (with_run E run') f m c obj n s = (Ok tt, s2, t2).
Proof. intros HP HL HK Hs Hp H. exact (check_granted E run' HP HL HK f m c obj n s s1 t Hp Hs H). Qed.

Lemma can_monotone E run' f p n s :
  plain_policy E -> looser E run' -> keeps_unwatching E -> unwatching s ->
  (n <> "__iter__" -> fst (fst (do_canAccess E f (VProxy p) n s)) = Ok true ->
     fst (fst (do_canAccess (with_run E run') f (VProxy p) n s)) = Ok true) /\
  (fst (fst (do_canWrite E f (VProxy p) n s)) = Ok true ->
     fst (fst (do_canWrite (with_run E run') f (VProxy p) n s)) = Ok true).
Proof. intros HP HL HK Hs. exact (can_lemma E run' HP HL HK f p n s Hs). Qed.
