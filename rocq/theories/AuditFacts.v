(** * AuditFacts: the questions of an operation are those of its operands. *)

From Coq Require Import List String Bool Arith ZArith Lia.
From Verif Require Import Base Domain CheckerModel ProxyModel Spec RegSpec ProxySpec MediationSpec MFacts
  ProxyFacts ProxyTable AuditSpec.
Import ListNotations.
Open Scope string_scope.
Open Scope m_scope.
Local Arguments String.eqb : simpl never.
Local Arguments mem : simpl never.

Lemma explained_app s q1 q2 t1 t2 :
  explained s q1 t1 -> explained s q2 t2 -> explained s (q1 ++ q2)%list (t1 ++ t2)%list.
Proof.
  intros H1 H2. induction H1 as [qs|qs e tr Hn H1 IH|q qs tr H1 IH|q qs e tr Ha H1 IH].
  - induction qs as [|q qs IH]; [exact H2|]. cbn [app]. apply X_unused, IH.
  - cbn [app]. apply X_other; assumption.
  - cbn [app]. apply X_unused, IH.
  - cbn [app]. apply X_asked; assumption.
Qed.
Lemma explained_count s qs tr : explained s qs tr -> List.length (asks tr) <= List.length qs.
Proof.
  induction 1 as [qs|qs e tr Hn H IH|q qs tr H IH|q qs e tr Ha H IH]; unfold asks in *; cbn [filter List.length].
  - lia.
  - rewrite Hn. exact IH.
  - lia.
  - destruct (is_ask e); cbn [List.length]; lia.
Qed.

Lemma undisturbed_refl s : undisturbed s s.
Proof. split; auto. Qed.
Lemma undisturbed_trans s s1 s2 : undisturbed s s1 -> undisturbed s1 s2 -> undisturbed s s2.
Proof.
  intros (A1 & A2) (B1 & B2). split.
  - intros p x H. apply B1, A1, H.
  - intros i k H. destruct (A2 i k H) as (C1 & C2 & C3). destruct (B2 i k C1) as (D1 & D2 & D3).
    split; [exact D1|]. split; congruence.
Qed.

Section Audit.
  Variable E : env.
  Hypothesis HC : calm_code E.
  Variable s0 : state.
  Hypothesis H0 : calm E s0.
  Variable ls : id -> list id.
  Hypothesis HL : chains s0 ls.

  Definition Inv (s : state) : Prop := calm E s /\ undisturbed s0 s.
  Definition Goes (s s' : state) : Prop := Inv s' /\ undisturbed s s'.
  Lemma goes_refl s : Inv s -> Goes s s.
  Proof. intros Hi. split; [exact Hi|apply undisturbed_refl]. Qed.
  Lemma goes_trans s s1 s2 : Goes s s1 -> Goes s1 s2 -> Goes s s2.
  Proof. intros (_ & A) (B & C). split; [exact B|exact (undisturbed_trans _ _ _ A C)]. Qed.
  Definition jx {A} (qs : list question) (m : M A) (s : state) (Q : A -> state -> Prop) : Prop :=
    forall r s' tr, m s = (r, s', tr) ->
      Goes s s' /\ explained s0 qs tr /\ (forall a, r = Ok a -> Q a s').

  Lemma x_ret {A} qs (a : A) s (Q : A -> state -> Prop) : Inv s -> Q a s -> jx qs (ret a) s Q.
  Proof.
    intros Hi Hq r s' tr H. injection H as <- <- <-. split; [exact (goes_refl _ Hi)|]. split; [constructor|].
    intros b Hb. injection Hb as <-. exact Hq.
  Qed.
  Lemma x_raise {A} qs e s (Q : A -> state -> Prop) : Inv s -> jx qs (raise e) s Q.
  Proof.
    intros Hi r s' tr H. injection H as <- <- <-. split; [exact (goes_refl _ Hi)|]. split; [constructor|]. discriminate.
  Qed.
  Lemma x_emit qs e s (Q : unit -> state -> Prop) : is_ask e = false -> Inv s -> Q tt s -> jx qs (emit e) s Q.
  Proof.
    intros He Hi Hq r s' tr H. injection H as <- <- <-. split; [exact (goes_refl _ Hi)|].
    split; [apply X_other; [exact He|constructor]|]. intros [] _. exact Hq.
  Qed.
  Lemma x_get {A} qs (k : state -> M A) s Q : jx qs (k s) s Q -> jx qs (bind get k) s Q.
  Proof. unfold jx. rewrite bind_get. exact (fun H => H). Qed.
  Lemma x_bind {A B} q1 q2 (m : M A) (k : A -> M B) s (P : A -> state -> Prop) Q :
    jx q1 m s P -> (forall a s1, Inv s1 -> P a s1 -> jx q2 (k a) s1 Q) ->
    jx (q1 ++ q2)%list (bind m k) s Q.
  Proof.
    intros Hm Hk r s' tr H. apply bind_inv in H.
    destruct H as [(e & H & ->)|(a & s1 & t1 & t2 & H1 & H2 & ->)].
    - destruct (Hm _ _ _ H) as (I1 & X1 & _). split; [exact I1|]. split; [|discriminate].
      rewrite <- (app_nil_r tr). apply explained_app; [exact X1|constructor].
    - destruct (Hm _ _ _ H1) as (I1 & X1 & P1). specialize (P1 a eq_refl).
      destruct (Hk a s1 (proj1 I1) P1 _ _ _ H2) as (I2 & X2 & P2). split; [exact (goes_trans _ _ _ I1 I2)|].
      split; [apply explained_app; assumption|exact P2].
  Qed.
  Lemma x_bind0 {A B} qs (m : M A) (k : A -> M B) s (P : A -> state -> Prop) Q :
    jx [] m s P -> (forall a s1, Inv s1 -> P a s1 -> jx qs (k a) s1 Q) -> jx qs (bind m k) s Q.
  Proof. exact (x_bind [] qs m k s P Q). Qed.
  Lemma x_bind1 {A B} q qs (m : M A) (k : A -> M B) s (P : A -> state -> Prop) Q :
    jx [q] m s P -> (forall a s1, Inv s1 -> P a s1 -> jx qs (k a) s1 Q) -> jx (q :: qs) (bind m k) s Q.
  Proof. exact (x_bind [q] qs m k s P Q). Qed.
  Lemma x_catch {A} q1 q2 (m : M A) (h : exn -> M A) s Q :
    jx q1 m s Q -> (forall e s1, Inv s1 -> jx q2 (h e) s1 Q) -> jx (q1 ++ q2)%list (catch m h) s Q.
  Proof.
    intros Hm Hk r s' tr H. apply catch_inv in H.
    destruct H as [(a & H & ->)|(e & s1 & t1 & t2 & H1 & H2 & ->)].
    - destruct (Hm _ _ _ H) as (I1 & X1 & P1). split; [exact I1|]. split; [|exact P1].
      rewrite <- (app_nil_r tr). apply explained_app; [exact X1|constructor].
    - destruct (Hm _ _ _ H1) as (I1 & X1 & _).
      destruct (Hk e s1 (proj1 I1) _ _ _ H2) as (I2 & X2 & P2). split; [exact (goes_trans _ _ _ I1 I2)|].
      split; [apply explained_app; assumption|exact P2].
  Qed.
  Lemma x_catch0 {A} qs (m : M A) (h : exn -> M A) s Q :
    jx qs m s Q -> (forall e s1, Inv s1 -> jx [] (h e) s1 Q) -> jx qs (catch m h) s Q.
  Proof. intros Hm Hh. rewrite <- (app_nil_r qs). apply x_catch; assumption. Qed.
  Lemma x_weaken {A} qs (m : M A) s Q : jx [] m s Q -> jx qs m s Q.
  Proof.
    intros H r s' tr Hm. destruct (H _ _ _ Hm) as (I1 & X1 & P1). split; [exact I1|]. split; [|exact P1].
    rewrite <- (app_nil_l tr). apply (explained_app s0 qs [] [] tr) in X1; [|constructor].
    rewrite app_nil_r in X1. exact X1.
  Qed.
  Lemma x_later {A} q1 q2 (m : M A) s Q : jx q2 m s Q -> jx (q1 ++ q2)%list m s Q.
  Proof.
    intros H r s' tr Hm. destruct (H _ _ _ Hm) as (I1 & X1 & P1). split; [exact I1|]. split; [|exact P1].
    apply (explained_app s0 q1 q2 [] tr); [constructor|exact X1].
  Qed.
  Lemma x_sooner {A} q1 q2 (m : M A) s Q : jx q1 m s Q -> jx (q1 ++ q2)%list m s Q.
  Proof.
    intros H r s' tr Hm. destruct (H _ _ _ Hm) as (I1 & X1 & P1). split; [exact I1|]. split; [|exact P1].
    rewrite <- (app_nil_r tr). apply explained_app; [exact X1|constructor].
  Qed.
  Lemma x_post {A} qs (m : M A) s (P Q : A -> state -> Prop) :
    jx qs m s P -> (forall a s1, Inv s1 -> P a s1 -> Q a s1) -> jx qs m s Q.
  Proof.
    intros H HPQ r s' tr Hm. destruct (H _ _ _ Hm) as (I1 & X1 & P1). split; [exact I1|]. split; [exact X1|].
    intros a Ha. apply HPQ; [exact (proj1 I1)|]. apply P1, Ha.
  Qed.

  Lemma x_frame {A} qs (m : M A) s (P : A -> state -> Prop) :
    jx qs m s P -> jx qs m s (fun a s' => P a s' /\ undisturbed s s').
  Proof.
    intros H r s' tr Hm. destruct (H _ _ _ Hm) as (I1 & X1 & P1). split; [exact I1|]. split; [exact X1|].
    intros a Ha. split; [apply P1, Ha|exact (proj2 I1)].
  Qed.
  Definition judge {A} (qs : list query) (m : M A) s Q : Prop := jx (A := A) (each ls qs) m s Q.
  Lemma j_ret {A} qs (a : A) s (Q : A -> state -> Prop) : Inv s -> Q a s -> judge qs (ret a) s Q.
  Proof. exact (x_ret _ a s Q). Qed.
  Lemma j_raise {A} qs e s (Q : A -> state -> Prop) : Inv s -> judge qs (raise e) s Q.
  Proof. exact (x_raise _ e s Q). Qed.
  Lemma j_emit qs e s (Q : unit -> state -> Prop) : is_ask e = false -> Inv s -> Q tt s -> judge qs (emit e) s Q.
  Proof. exact (x_emit _ e s Q). Qed.
  Lemma j_get {A} qs (k : state -> M A) s Q : judge qs (k s) s Q -> judge qs (bind get k) s Q.
  Proof. exact (x_get _ k s Q). Qed.
  Lemma j_bind {A B} q1 q2 (m : M A) (k : A -> M B) s (P : A -> state -> Prop) Q :
    judge q1 m s P -> (forall a s1, Inv s1 -> P a s1 -> judge q2 (k a) s1 Q) ->
    judge (q1 ++ q2)%list (bind m k) s Q.
  Proof. intros. unfold judge, each. rewrite flat_map_app. eapply x_bind; eassumption. Qed.
  Lemma j_bind0 {A B} qs (m : M A) (k : A -> M B) s (P : A -> state -> Prop) Q :
    judge [] m s P -> (forall a s1, Inv s1 -> P a s1 -> judge qs (k a) s1 Q) -> judge qs (bind m k) s Q.
  Proof. exact (j_bind [] qs m k s P Q). Qed.
  Lemma j_bind1 {A B} q qs (m : M A) (k : A -> M B) s (P : A -> state -> Prop) Q :
    judge [q] m s P -> (forall a s1, Inv s1 -> P a s1 -> judge qs (k a) s1 Q) -> judge (q :: qs) (bind m k) s Q.
  Proof. exact (j_bind [q] qs m k s P Q). Qed.
  Lemma j_catch {A} q1 q2 (m : M A) (h : exn -> M A) s Q :
    judge q1 m s Q -> (forall e s1, Inv s1 -> judge q2 (h e) s1 Q) -> judge (q1 ++ q2)%list (catch m h) s Q.
  Proof. intros. unfold judge, each. rewrite flat_map_app. apply x_catch; assumption. Qed.
  Lemma j_catch0 {A} qs (m : M A) (h : exn -> M A) s Q :
    judge qs m s Q -> (forall e s1, Inv s1 -> judge [] (h e) s1 Q) -> judge qs (catch m h) s Q.
  Proof. intros Hm Hh. rewrite <- (app_nil_r qs). apply j_catch; assumption. Qed.
  Lemma j_weaken {A} qs (m : M A) s Q : judge [] m s Q -> judge qs m s Q.
  Proof. exact (x_weaken _ m s Q). Qed.
  Lemma j_later {A} q1 q2 (m : M A) s Q : judge q2 m s Q -> judge (q1 ++ q2)%list m s Q.
  Proof. intros. unfold judge, each. rewrite flat_map_app. apply x_later; assumption. Qed.
  Lemma j_sooner {A} q1 q2 (m : M A) s Q : judge q1 m s Q -> judge (q1 ++ q2)%list m s Q.
  Proof. intros. unfold judge, each. rewrite flat_map_app. apply x_sooner; assumption. Qed.
  Lemma j_post {A} qs (m : M A) s (P Q : A -> state -> Prop) :
    judge qs m s P -> (forall a s1, Inv s1 -> P a s1 -> Q a s1) -> judge qs m s Q.
  Proof. exact (x_post _ m s P Q). Qed.
  Lemma j_frame {A} qs (m : M A) s (P : A -> state -> Prop) :
    judge qs m s P -> judge qs m s (fun a s' => P a s' /\ undisturbed s s').
  Proof. exact (x_frame _ m s P). Qed.

  Lemma run_inv t c s r s' : e_run E t c s = (r, s') -> Inv s -> Goes s s'.
  Proof.
    intros H (Hc & Hu). destruct (cc_state E HC _ _ _ _ _ H Hc) as (Hc' & Hu'). split; [|exact Hu'].
    split; [exact Hc'|]. exact (undisturbed_trans _ _ _ Hu Hu').
  Qed.
  Lemma foreign_j qs k c s (Q : value -> state -> Prop) : Inv s ->
    (forall a s', e_run E (e_tid E) c s = (Ok a, s') -> Inv s' -> Q a s') -> judge qs (foreign E k c) s Q.
  Proof.
    intros Hi HQ r s' tr H. unfold foreign in H. destruct (e_run E (e_tid E) c s) as [r1 s1] eqn:Hr.
    injection H as <- <- <-. assert (Hi' := run_inv _ _ _ _ _ Hr Hi). split; [exact Hi'|].
    split; [apply X_other; [reflexivity|constructor]|]. intros a ->. exact (HQ a s1 eq_refl (proj1 Hi')).
  Qed.
  Definition top {A} : A -> state -> Prop := fun _ _ => True.
  Lemma coerce_j qs o v s (Q : value -> state -> Prop) : Inv s -> (forall n, o <> OGetattr v n None \/ True) ->
    (forall x, coerce o v s = (Ok x, s, []) -> Q x s) -> judge qs (coerce o v) s Q.
  Proof.
    intros Hi _ HQ. unfold coerce in *.
    destruct o; try (apply j_ret; [exact Hi|]; apply HQ; reflexivity);
      destruct v; try (apply j_ret; [exact Hi|]; apply HQ; reflexivity); apply j_raise; exact Hi.
  Qed.
  Lemma raw_j qs k o s : Inv s -> judge qs (raw E k o) s top.
  Proof.
    intros Hi. unfold raw. apply j_bind0 with (P := top).
    - apply foreign_j; [exact Hi|]. intros. exact I.
    - intros v s1 Hi1 _. apply coerce_j; [exact Hi1|auto|]. intros. exact I.
  Qed.

  (** Reading an attribute of something that is not a proxy. *)
  Lemma raw_get_j k v n fr s (Q : value -> state -> Prop) : Inv s ->
    (forall c s', e_run E (e_tid E) (CallOp (OGetattr v n fr)) s = (Ok c, s') -> Inv s' -> Q c s') ->
    judge [] (raw E k (OGetattr v n fr)) s Q.
  Proof.
    intros Hi HQ. unfold raw. apply j_bind0 with (P := Q).
    - apply foreign_j; [exact Hi|exact HQ].
    - intros a s1 Hi1 Ha. cbn [coerce]. apply j_ret; assumption.
  Qed.

  (** What a lookup of checkers may give. *)
  Definition a_checker (c : value) (s : state) : Prop := exists i k, c = VChk i /\ st_chks s i = Some k.

  Record audits (I : interp) : Prop := {
    au_op : forall k o s, Inv s -> auditable (e_impl E) o -> known s0 (e_impl E) o ->
      judge (queries (e_impl E) o) (i_op I k o) s top;
    au_own : forall k v fr s, Inv s -> is_proxy v = false ->
      judge [] (i_op I k (OGetattr v "__Security_checker__" fr)) s
        (fun c s' => c = VNone \/ a_checker c s');
    au_attr : forall k v n fr s, Inv s -> is_proxy v = false -> n = "__class__" \/ n = "__length_hint__" ->
      judge [] (i_op I k (OGetattr v n fr)) s (fun c _ => is_proxy c = false);
    au_call : forall k v obj s, Inv s ->
      match v with VObj _ | VClass _ | VMod _ | VDeco _ | VIact _ => registrable E v | _ => False end ->
      judge [] (i_op I k (OCall v [obj])) s
        (fun c _ => c = VNone \/ c = VNoProxy \/ exists i, c = VChk i);
    au_link : forall m p w c0 c l n s, Inv s -> st_prox s0 p = Some (w, c0) -> Links s0 c l ->
      jx (map (fun j => ((p, n, match m with MSetattr => Write | _ => Read end), j)) l) (i_check I m c w n) s top;
    au_select : forall c obj s, Inv s -> registrable E c ->
      judge [] (i_select I c obj) s (fun oc s' => forall c', oc = Some c' -> a_checker c' s')
  }.

  Section Step.
    Variable I : interp.
    Hypothesis HI : audits I.

    Lemma au_check m p w c n s : Inv s -> st_prox s0 p = Some (w, c) ->
      judge [(p, n, match m with MSetattr => Write | _ => Read end)] (i_check I m c w n) s top.
    Proof.
      intros Hi Hp. unfold judge, each. cbn [flat_map]. rewrite app_nil_r.
      exact (au_link I HI m p w c c (ls p) n s Hi Hp (HL p w c Hp)).
    Qed.
    Lemma free_op k o s : Inv s -> auditable (e_impl E) o -> queries (e_impl E) o = [] ->
      judge [] (i_op I k o) s top.
    Proof.
      intros Hi Ha Hq. rewrite <- Hq. apply (au_op I HI); [exact Hi|exact Ha|].
      intros p n a Hin. rewrite Hq in Hin. destruct Hin.
    Qed.
    Lemma on_plain v n a : is_proxy v = false -> on_proxy v n a = [].
    Proof. destruct v; try reflexivity; discriminate. Qed.

    Lemma truth_j v s : Inv s -> judge [] (truth I v) s top.
    Proof.
      intros Hi. unfold truth.
      destruct v; try (apply j_ret; [exact Hi|exact Logic.I]);
        (apply j_bind0 with (P := top);
         [apply free_op; [exact Hi|exact Logic.I|reflexivity]|
          intros r s1 Hi1 _; destruct r; first [apply j_ret; [exact Hi1|exact Logic.I]|apply j_raise; exact Hi1]]).
    Qed.

    (** ** Asking *)

    Definition entry_of (p : id) (j : id) (n : name) (a : access) (perm : perm) (obj : value) : Prop :=
      forall t iv ans, about s0 ((p, n, a), j) (EAsk t iv perm obj ans).

    Lemma ask_j iv p j n a perm obj s : Inv s -> entry_of p j n a perm obj ->
      jx [((p, n, a), j)] (ask E I iv perm obj) s top.
    Proof.
      intros Hi He.
      assert (Hem : forall b s1, Inv s1 -> jx [((p, n, a), j)] (emit (EAsk (e_tid E) iv perm obj (Some b)) ;;; ret b) s1 top).
      { intros b s1 Hi1 r s' tr H. cbn in H. injection H as <- <- <-. split; [exact (goes_refl _ Hi1)|].
        split; [apply X_asked; [apply He|constructor]|]. intros. exact Logic.I. }
      assert (F : jx [((p, n, a), j)] (b <- catch (v <- foreign_quiet E (CallPerm iv perm obj) ;; truth I v)
                      (fun e => emit (EAsk (e_tid E) iv perm obj None) ;;; raise e) ;;
               emit (EAsk (e_tid E) iv perm obj (Some b)) ;;; ret b) s top).
      { assert (T : jx [] (v <- foreign_quiet E (CallPerm iv perm obj) ;; truth I v) s top).
        { apply x_bind0 with (P := top).
          - intros r s' tr H. unfold foreign_quiet in H.
            destruct (e_run E (e_tid E) (CallPerm iv perm obj) s) as [r1 s1] eqn:Hr.
            injection H as <- <- <-. split; [exact (run_inv _ _ _ _ _ Hr Hi)|]. split; [constructor|].
            intros. exact Logic.I.
          - intros v s1 Hi1 _. apply truth_j, Hi1. }
        intros r s' tr H. apply bind_inv in H.
        destruct H as [(e & H & ->)|(b & s1 & t1 & t2 & H1 & H2 & ->)].
        - apply catch_inv in H. destruct H as [(x & _ & Hx)|(e2 & s1 & t1 & t2 & H1 & H2 & ->)]; [discriminate|].
          destruct (T _ _ _ H1) as (I1 & X1 & _). cbn in H2. injection H2 as <- <- <-. split; [exact I1|].
          split; [|discriminate]. apply (explained_app s0 [] [((p, n, a), j)]); [exact X1|].
          apply X_asked; [apply He|constructor].
        - apply catch_inv in H1. destruct H1 as [(x & H1 & Hx)|(e2 & s2 & t3 & t4 & H3 & H4 & ->)].
          + destruct (T _ _ _ H1) as (I1 & X1 & _). destruct (Hem b s1 (proj1 I1) _ _ _ H2) as (I2 & X2 & P2).
            split; [exact (goes_trans _ _ _ I1 I2)|]. split; [|exact P2]. apply (explained_app s0 [] [((p, n, a), j)]); assumption.
          + cbn in H4. discriminate. }
      unfold ask. destruct iv; try exact F; try (apply x_raise; exact Hi).
      apply x_get. destruct (st_inters s i) as [x|]; [|apply x_raise; exact Hi]. cbv zeta. apply Hem. exact Hi.
    Qed.
    Lemma tl_j p j n a perm obj s : Inv s -> entry_of p j n a perm obj ->
      jx [((p, n, a), j)] (tl_checkPermission E I perm obj) s top.
    Proof.
      intros Hi He. unfold tl_checkPermission. apply x_get.
      destruct (tl_inter _) as [iv|]; [apply ask_j; assumption|apply x_raise; exact Hi].
    Qed.

    Lemma has_free v n (Hv : is_proxy v = false) : queries (e_impl E) (OGetattr v n None) = [].
    Proof. cbn [queries]. rewrite (on_plain v n Read Hv). destruct (e_impl E); [destruct (unchecked_read n)|]; reflexivity. Qed.
    Lemma hasattr_py_j w n s : Inv s -> is_proxy w = false -> jx [] (hasattr_py I w n) s top.
    Proof.
      intros Hi Hw. unfold hasattr_py. apply x_catch0.
      - apply x_bind0 with (P := top); [apply free_op; [exact Hi|exact Logic.I|apply has_free, Hw]|].
        intros; apply x_ret; [assumption|exact Logic.I].
      - intros e s1 Hi1. destruct (is_attribute_error e); [apply x_ret; [exact Hi1|exact Logic.I]|apply x_raise; exact Hi1].
    Qed.
    Lemma hasattr_c_j w n s : Inv s -> is_proxy w = false -> jx [] (hasattr_c I w n) s top.
    Proof.
      intros Hi Hw. unfold hasattr_c. apply x_catch0.
      - apply x_bind0 with (P := top); [apply free_op; [exact Hi|exact Logic.I|apply has_free, Hw]|].
        intros; apply x_ret; [assumption|exact Logic.I].
      - intros e s1 Hi1. apply x_ret; [exact Hi1|exact Logic.I].
    Qed.

    (** The tables are those of the beginning. *)
    Section OneCheck.
      Variables (p : id) (w c0 : value) (j : id) (k : checker).
      Hypothesis Hp : st_prox s0 p = Some (w, c0).
      Hypothesis Hk : st_chks s0 j = Some k.
      Lemma w_plain : is_proxy w = false.
      Proof. exact (proj1 (ca_proxies E s0 H0 _ _ _ Hp)). Qed.
      Lemma tables s : Inv s -> st_dicts s (ck_get k) = st_dicts s0 (ck_get k) /\
                                st_dicts s (ck_set k) = st_dicts s0 (ck_set k).
      Proof. intros (_ & (_ & Hd)). destruct (Hd j k Hk) as (_ & H1 & H2). auto. Qed.
      Lemma entry_read n perm : dget String.eqb (st_dicts s0 (ck_get k)) n = Some perm -> perm <> PPublic ->
        entry_of p j n Read perm w.
      Proof. intros H Hn t iv ans. exists t, iv, perm, w, ans, c0, k. repeat split; assumption. Qed.
      Lemma entry_write n perm : dget String.eqb (st_dicts s0 (ck_set k)) n = Some perm -> perm <> PPublic ->
        entry_of p j n Write perm w.
      Proof. intros H Hn t iv ans. exists t, iv, perm, w, ans, c0, k. repeat split; assumption. Qed.

      Lemma not_public perm : perm_eqb perm PPublic = false -> perm <> PPublic.
      Proof. intros H ->. discriminate H. Qed.
      Lemma or_none d n : get_or_none d n <> PNone -> dget String.eqb d n = Some (get_or_none d n).
      Proof. unfold get_or_none. destruct (dget String.eqb d n); [reflexivity|congruence]. Qed.
      Lemma not_none perm : negb (perm_eqb perm PNone) = true -> perm <> PNone.
      Proof. intros H ->. discriminate H. Qed.
      Lemma granted_j n a perm s : Inv s -> entry_of p j n a perm w ->
        jx [((p, n, a), j)] (b <- tl_checkPermission E I perm w ;;
                           if b then ret tt else raise (EUnauthorized w n perm)) s top.
      Proof.
        intros Hi He. apply (x_bind [((p, n, a), j)] []) with (P := top); [apply tl_j; assumption|].
        intros b s1 Hi1 _. destruct b; [apply x_ret; [exact Hi1|exact Logic.I]|apply x_raise; exact Hi1].
      Qed.

      Lemma py_check_j n s : Inv s -> jx [((p, n, Read), j)] (CheckerPy_check E I k w n) s top.
      Proof.
        intros Hi. unfold CheckerPy_check. apply x_get. rewrite (proj1 (tables s Hi)). cbv zeta.
        destruct (negb (perm_eqb _ PNone)) eqn:Hn.
        - destruct (perm_eqb _ PPublic) eqn:Hpub; [apply x_ret; [exact Hi|exact Logic.I]|].
          apply granted_j; [exact Hi|]. apply entry_read; [apply or_none, not_none, Hn|apply not_public, Hpub].
        - destruct (mem n available_by_default); [apply x_ret; [exact Hi|exact Logic.I]|].
          apply x_weaken. apply x_bind0 with (P := top).
          + destruct (negb (String.eqb n "__iter__")); [apply x_ret; [exact Hi|exact Logic.I]|].
            apply hasattr_py_j; [exact Hi|apply w_plain].
          + intros b s1 Hi1 _. destruct b; [apply x_raise; exact Hi1|apply x_ret; [exact Hi1|exact Logic.I]].
      Qed.
      Lemma py_check_setattr_j n s : Inv s -> jx [((p, n, Write), j)] (CheckerPy_check_setattr E I k w n) s top.
      Proof.
        intros Hi. unfold CheckerPy_check_setattr. apply x_get. rewrite (proj2 (tables s Hi)). cbv zeta.
        assert (Heq : match st_dicts s0 (ck_set k) with [] => PNone | q :: l => get_or_none (q :: l) n end
                      = get_or_none (st_dicts s0 (ck_set k)) n) by (destruct (st_dicts s0 (ck_set k)); reflexivity).
        rewrite Heq. clear Heq.
        destruct (negb (perm_eqb _ PNone)) eqn:Hn.
        - destruct (perm_eqb _ PPublic) eqn:Hpub; [apply x_ret; [exact Hi|exact Logic.I]|].
          apply granted_j; [exact Hi|]. apply entry_write; [apply or_none, not_none, Hn|apply not_public, Hpub].
        - apply x_raise; exact Hi.
      Qed.
      Lemma c_check_j n s : Inv s -> jx [((p, n, Read), j)] (CheckerC_check_int E I k w n) s top.
      Proof.
        intros Hi. unfold CheckerC_check_int. apply x_get. rewrite (proj1 (tables s Hi)).
        destruct (dget String.eqb _ n) as [perm|] eqn:Hd.
        - destruct (perm_eqb perm PPublic) eqn:Hpub; [apply x_ret; [exact Hi|exact Logic.I]|].
          apply granted_j; [exact Hi|]. apply entry_read; [exact Hd|apply not_public, Hpub].
        - apply x_weaken. destruct (is_operator n); [|apply x_raise; exact Hi].
          destruct (mem n available_by_default); [apply x_ret; [exact Hi|exact Logic.I]|].
          destruct (String.eqb n "__iter__"); [|apply x_raise; exact Hi].
          apply x_bind0 with (P := top); [apply hasattr_c_j; [exact Hi|apply w_plain]|].
          intros b s1 Hi1 _. destruct (negb b); [apply x_ret; [exact Hi1|exact Logic.I]|apply x_raise; exact Hi1].
      Qed.
      Lemma c_check_setattr_j n s : Inv s -> jx [((p, n, Write), j)] (CheckerC_check_setattr E I k w n) s top.
      Proof.
        intros Hi. unfold CheckerC_check_setattr. apply x_get. rewrite (proj2 (tables s Hi)).
        destruct (dget String.eqb _ n) as [perm|] eqn:Hd; [|apply x_raise; exact Hi].
        destruct (perm_eqb perm PPublic) eqn:Hpub; cbn [negb]; [apply x_ret; [exact Hi|exact Logic.I]|].
        apply granted_j; [exact Hi|]. apply entry_write; [exact Hd|apply not_public, Hpub].
      Qed.
      Lemma check_j n s : Inv s -> jx [((p, n, Read), j)] (Checker_check E I k w n) s top.
      Proof. unfold Checker_check. destruct (e_cimpl E); [apply py_check_j|apply c_check_j]. Qed.
      Lemma check_setattr_j n s : Inv s -> jx [((p, n, Write), j)] (Checker_check_setattr E I k w n) s top.
      Proof. unfold Checker_check_setattr. destruct (e_cimpl E); [apply py_check_setattr_j|apply c_check_setattr_j]. Qed.

      Lemma log_j v t line n s : Inv s -> jx [] (log_line I v t line n w) s top.
      Proof.
        intros Hi. unfold log_line. apply x_bind0 with (P := top).
        - apply free_op; [exact Hi|exact Logic.I|]. cbn [queries]. apply on_plain, w_plain.
        - intros x s1 Hi1 _. destruct (Nat.leb t v); [apply x_emit; [reflexivity|exact Hi1|exact Logic.I]|
            apply x_ret; [exact Hi1|exact Logic.I]].
      Qed.
      Ltac logs := repeat first
        [ match goal with |- jx _ (bind _ _) _ _ => apply x_bind0 with (P := top); [|intros ? ? ? _] end
        | apply log_j; assumption | apply x_raise; assumption | apply x_ret; [assumption|exact Logic.I]
        | match goal with |- jx _ (if ?x then _ else _) _ _ => destruct x end ].
      Lemma watch_check_j v n s : Inv s -> jx [((p, n, Read), j)] (Watching_check E I v k w n) s top.
      Proof.
        intros Hi. unfold Watching_check. apply x_catch0.
        - apply x_bind1 with (P := top); [apply check_j; exact Hi|]. intros x s1 Hi1 _. logs.
        - intros e s1 Hi1. logs.
      Qed.
      Lemma watch_getattr_j v n s : Inv s -> jx [((p, n, Read), j)] (Watching_check_getattr E I v k w n) s top.
      Proof.
        intros Hi. unfold Watching_check_getattr. apply x_catch0.
        - apply x_bind1 with (P := top); [apply check_j; exact Hi|]. intros x s1 Hi1 _. logs.
        - intros e s1 Hi1. logs.
      Qed.
      Lemma watch_setattr_j v n s : Inv s -> jx [((p, n, Write), j)] (Watching_check_setattr E I v k w n) s top.
      Proof.
        intros Hi. unfold Watching_check_setattr. apply x_catch0.
        - apply x_bind1 with (P := top); [apply check_setattr_j; exact Hi|]. intros x s1 Hi1 _. logs.
        - intros e s1 Hi1. logs.
      Qed.
    End OneCheck.

    Lemma combine_j q1 q2 first second s :
      jx q1 first s top -> (forall s1, Inv s1 -> jx q2 second s1 top) -> jx (q1 ++ q2)%list (combine first second) s top.
    Proof.
      intros H1 H2. unfold combine. apply x_catch; [exact H1|]. intros e s1 Hi1.
      destruct (is_forbidden e); [apply H2, Hi1|]. destruct (is_unauthorized e); [|apply x_raise; exact Hi1].
      apply x_catch0; [apply H2, Hi1|]. intros e2 s2 Hi2. destruct (is_forbidden e2); apply x_raise; exact Hi2.
    Qed.
    Lemma checker_check_j m p w c0 c l n s : Inv s -> st_prox s0 p = Some (w, c0) -> Links s0 c l ->
      jx (map (fun j => ((p, n, match m with MSetattr => Write | _ => Read end), j)) l) (checker_check E I m c w n) s top.
    Proof.
      intros Hi Hp HLi. destruct HLi as [i k Hk Hkind|i k c l Hk Hkind HLi];
        unfold checker_check; apply x_get; destruct (proj2 (proj2 Hi) i k Hk) as (Hks & _); rewrite Hks; cbn [map].
      - destruct Hkind as [Hkind|(v & Hkind)]; rewrite Hkind; destruct m;
          solve [eapply check_j; eassumption|eapply check_setattr_j; eassumption|eapply watch_check_j; eassumption
                |eapply watch_getattr_j; eassumption|eapply watch_setattr_j; eassumption].
      - assert (HR : forall m2, (match m2 with MSetattr => Write | _ => Read end) = Read -> forall s1, Inv s1 ->
          jx (map (fun j => ((p, n, Read), j)) l) (i_check I MCheck c w n) s1 top).
        { intros m2 _ s1 Hi1. exact (au_link I HI MCheck p w c0 c l n s1 Hi1 Hp HLi). }
        assert (HS : forall s1, Inv s1 ->
          jx (map (fun j => ((p, n, Write), j)) l) (i_check I MSetattr c w n) s1 top).
        { intros s1 Hi1. exact (au_link I HI MSetattr p w c0 c l n s1 Hi1 Hp HLi). }
        assert (C1 : jx (((p, n, Read), i) :: map (fun j => ((p, n, Read), j)) l) (Combined_check E I k c w n) s top).
        { unfold Combined_check. apply (combine_j [((p, n, Read), i)]); [|exact (HR MCheck eq_refl)].
          unfold Combined_first_check. destruct (e_watch E); [eapply check_j; eassumption|].
          destruct (ck_kind k); first [apply x_raise; exact Hi|eapply watch_check_j; eassumption]. }
        assert (C2 : jx (((p, n, Write), i) :: map (fun j => ((p, n, Write), j)) l) (Combined_check_setattr E I k c w n) s top).
        { unfold Combined_check_setattr. apply (combine_j [((p, n, Write), i)]); [|exact HS].
          unfold Combined_first_check_setattr. destruct (e_watch E); [eapply check_setattr_j; eassumption|].
          destruct (ck_kind k); first [apply x_raise; exact Hi|eapply watch_setattr_j; eassumption]. }
        destruct Hkind as [Hkind|(v & Hkind)]; rewrite Hkind; destruct m; assumption.
    Qed.

    (** ** Wrapping results *)

    Lemma new_proxy_j v c s : Inv s -> is_proxy v = false -> a_checker c s -> judge [] (new_proxy v c) s top.
    Proof.
      intros ([A1 A2 A3 A4] & (U1 & U2)) Hv (i & k & -> & Hk) r s' tr H.
      cbn in H. injection H as <- <- <-. split; [|split; [constructor|intros; exact Logic.I]].
      assert (Hf : forall p x, st_prox s p = Some x -> upd (st_prox s) (st_next s) (Some (v, VChk i)) p = Some x).
      { intros p x Hx. unfold upd. destruct (Nat.eqb_spec p (st_next s)) as [-> | _]; [|exact Hx].
        apply A1 in Hx. lia. }
      split; [split|].
      - constructor; cbn [st_prox set_prox set_next st_next st_chks st_reg st_decos]; try assumption.
        + intros p x. cbn [st_prox set_prox set_next st_next]. unfold upd.
          destruct (Nat.eqb_spec p (st_next s)) as [-> | _]; [lia|]. intros Hx. apply A1 in Hx. lia.
        + intros j kj Hj. cbn [st_prox set_prox set_next st_next st_chks] in *. apply A2 in Hj. lia.
        + intros p w c. unfold upd. destruct (Nat.eqb_spec p (st_next s)) as [-> | _]; [|apply A3].
          intros Hx. injection Hx as <- <-. split; [exact Hv|]. exists i, k. auto.
      - split; cbn [st_prox set_prox set_next st_next st_chks st_dicts].
        + intros p x Hx. apply Hf, U1, Hx.
        + exact U2.
      - split; cbn [st_prox set_prox set_next st_next st_chks st_dicts]; [exact Hf|auto].
    Qed.

    Lemma call_factory_j f obj s : Inv s -> registrable E f ->
      judge [] (call_factory I f obj) s (fun c s' => registrable E c).
    Proof.
      intros Hi Hf. unfold call_factory.
      assert (C : match f with VObj _ | VClass _ | VMod _ | VDeco _ | VIact _ => registrable E f | _ => False end ->
                  judge [] (i_op I Probe (OCall f [obj])) s (fun c _ => registrable E c)).
      { intros Hc. eapply j_post; [apply (au_call I HI); [exact Hi|exact Hc]|].
        intros c s1 _ [-> | [-> | (i & ->)]]; exact Logic.I. }
      destruct f; try (apply j_raise; exact Hi); try (apply C; exact Hf); try contradiction.
      apply j_get. destruct obj; try (apply j_ret; [exact Hi|exact Logic.I]).
      apply j_ret; [exact Hi|]. destruct (dget rkey_eqb (st_reg s) (KMod m)) as [v|] eqn:Hd; [|exact Logic.I].
      exact (ca_registry E s (proj1 Hi) _ _ Hd).
    Qed.
    Lemma is_Checker_is s c : is_Checker E s c = true -> a_checker c s.
    Proof.
      unfold is_Checker. destruct c; try discriminate. destruct (st_chks s c) as [k|] eqn:Hk; [|discriminate].
      intros _. exists c, k. auto.
    Qed.
    Lemma select_loop_j c obj s : Inv s -> registrable E c ->
      judge [] (select_loop E I c obj) s (fun oc s' => forall c', oc = Some c' -> a_checker c' s').
    Proof.
      intros Hi Hc. unfold select_loop. apply j_get. destruct (is_Checker E s c) eqn:Hk.
      - apply j_ret; [exact Hi|]. intros c' H. injection H as <-. apply is_Checker_is, Hk.
      - eapply j_bind0; [apply call_factory_j; assumption|]. intros c1 s1 Hi1 Hc1. cbn beta in Hc1.
        destruct (_ || _); [apply j_ret; [exact Hi1|discriminate]|]. apply (au_select I HI); assumption.
    Qed.
    Lemma registered_ok s obj : Inv s -> registrable E (registered E s obj).
    Proof.
      intros Hi. unfold registered. destruct (dget rkey_eqb (st_reg s) _) as [v|] eqn:Hd; [|exact Logic.I].
      exact (ca_registry E s (proj1 Hi) _ _ Hd).
    Qed.
    Lemma selectC_j obj s : Inv s ->
      judge [] (selectCheckerC E I obj) s (fun oc s' => forall c', oc = Some c' -> a_checker c' s').
    Proof.
      intros Hi. unfold selectCheckerC. apply j_get. cbv zeta.
      destruct (value_eqb _ VNoProxy); [apply j_ret; [exact Hi|discriminate]|].
      destruct (_ && _); [apply j_ret; [exact Hi|discriminate]|].
      apply (au_select I HI); [exact Hi|apply registered_ok, Hi].
    Qed.
    Lemma select_j obj s : Inv s ->
      judge [] (selectChecker E I obj) s (fun oc s' => forall c', oc = Some c' -> a_checker c' s').
    Proof.
      intros Hi. unfold selectChecker. destruct (e_cimpl E); [|apply selectC_j, Hi].
      unfold selectCheckerPy. apply j_get. cbv zeta.
      destruct (value_eqb _ VNoProxy); [apply j_ret; [exact Hi|discriminate]|].
      apply (au_select I HI); [exact Hi|apply registered_ok, Hi].
    Qed.
    Lemma wrap_j v oc s : Inv s -> is_proxy v = false -> (forall c, oc = Some c -> a_checker c s) ->
      judge [] (match oc with None => ret v | Some c' => new_proxy v c' end) s top.
    Proof.
      intros Hi Hv Hc. destruct oc as [c|]; [apply new_proxy_j; auto|apply j_ret; [exact Hi|exact Logic.I]].
    Qed.
    Lemma checker_proxy_j i v s : Inv s -> judge [] (checker_proxy E I (VChk i) v) s top.
    Proof.
      intros Hi. unfold checker_proxy. destruct (e_cimpl E).
      - unfold CheckerPy_proxy. destruct (is_proxy v) eqn:Hv; [apply j_ret; [exact Hi|exact Logic.I]|].
        eapply j_bind0 with (P := fun c s' => c = VNone \/ a_checker c s').
        + unfold getattr_sec_checker. apply j_catch0; [apply (au_own I HI); assumption|].
          intros e s1 Hi1. destruct (is_attribute_error e); [apply j_ret; auto|apply j_raise; exact Hi1].
        + intros c s1 Hi1 [-> | Hc].
          * eapply j_bind0; [apply select_j; exact Hi1|]. intros oc s2 Hi2 Hoc. apply wrap_j; assumption.
          * destruct Hc as (j & k & -> & Hk). apply new_proxy_j; [exact Hi1|exact Hv|exists j, k; auto].
      - unfold CheckerC_proxy. destruct (is_proxy v) eqn:Hv; [apply j_ret; [exact Hi|exact Logic.I]|].
        eapply j_bind0 with (P := fun oc s' => forall c, oc = Some c -> c = VNone \/ a_checker c s').
        + unfold getattr_sec_checker_c. apply j_catch0.
          * eapply j_bind0; [apply (au_own I HI); assumption|]. intros c s1 Hi1 Hc.
            apply j_ret; [exact Hi1|]. intros c' H. injection H as <-. exact Hc.
          * intros e s1 Hi1. apply j_ret; [exact Hi1|discriminate].
        + intros oc s1 Hi1 Hoc. destruct oc as [c|].
          * destruct (Hoc c eq_refl) as [-> | (j & k & -> & Hk)]; [apply j_raise; exact Hi1|].
            apply new_proxy_j; [exact Hi1|exact Hv|exists j, k; auto].
          * eapply j_bind0; [apply selectC_j; exact Hi1|]. intros sc s2 Hi2 Hsc. apply wrap_j; assumption.
    Qed.

    (** ** Decorators *)

    Lemma kept_checker c s s' : a_checker c s -> undisturbed s s' -> a_checker c s'.
    Proof. intros (i & k & -> & Hk) (_ & U). exists i, k. split; [reflexivity|]. exact (proj1 (U i k Hk)). Qed.
    Lemma combined_new_j w c s : Inv s -> judge [] (CombinedChecker_new E w c) s a_checker.
    Proof.
      intros Hi. unfold CombinedChecker_new. apply j_get.
      destruct w; try (apply j_raise; exact Hi). destruct (st_chks s c0) as [k|] eqn:Hk; [|apply j_raise; exact Hi].
      match goal with |- judge _ (alloc_checker ?k0) _ _ => remember k0 as nk eqn:Hnk end.
      destruct Hi as ([A1 A2 A3 A4] & (U1 & U2)).
      intros r s' tr H. cbn in H. injection H as <- <- <-.
      assert (Hf : forall j kj, st_chks s j = Some kj -> upd (st_chks s) (st_next s) (Some nk) j = Some kj).
      { intros j kj Hj. unfold upd. destruct (Nat.eqb_spec j (st_next s)) as [-> | _]; [|exact Hj].
        apply A2 in Hj. lia. }
      split; [split; [split|]|split; [constructor|]].
      - constructor; cbn [st_prox set_chks set_next st_next st_chks st_reg st_decos]; try assumption.
        + intros p x Hx. cbn [st_prox set_chks set_next st_next] in *. apply A1 in Hx. lia.
        + intros j kj. cbn [set_chks set_next st_next st_chks]. unfold upd.
          destruct (Nat.eqb_spec j (st_next s)) as [-> | _].
          * intros Hj. injection Hj as <-. subst nk. cbn [ck_get ck_set]. apply A2 in Hk. lia.
          * intros Hj. apply A2 in Hj. lia.
        + intros p w0 c1 Hx. destruct (A3 p w0 c1 Hx) as (H1 & j & kj & -> & Hj). split; [exact H1|].
          exists j, kj. split; [reflexivity|]. apply Hf, Hj.
      - split; cbn [st_prox set_chks set_next st_next st_chks st_dicts]; [exact U1|].
        intros j kj Hj. destruct (U2 j kj Hj) as (V1 & V2). split; [apply Hf, V1|exact V2].
      - split; cbn [st_prox set_chks set_next st_next st_chks st_dicts]; [auto|].
        intros j kj Hj. split; [apply Hf, Hj|auto].
      - intros a Ha. injection Ha as <-. exists (st_next s), nk. split; [reflexivity|].
        cbn [st_prox set_chks set_next st_next st_chks]. unfold upd. rewrite Nat.eqb_refl. reflexivity.
    Qed.
    Lemma decorated_j d s : Inv s -> judge [] (Decorated_get E I d) s a_checker.
    Proof.
      intros Hi. unfold Decorated_get. apply j_get. destruct (st_decos s d) as [x|]; [|apply j_raise; exact Hi].
      cbv zeta. apply j_bind0 with (P := fun oc s' => forall c, oc = Some c -> a_checker c s').
      - destruct (is_proxy (dc_obj x)) eqn:Hx.
        + destruct (dc_obj x); try discriminate Hx. unfold getChecker. apply j_bind0 with (P := a_checker).
          * apply j_get. destruct (st_prox s p) as [[w c]|] eqn:Hp; [|apply j_raise; exact Hi].
            apply j_ret; [exact Hi|]. exact (proj2 (ca_proxies E s (proj1 Hi) _ _ _ Hp)).
          * intros c s1 Hi1 Hc. apply j_ret; [exact Hi1|]. intros c' H. injection H as <-. exact Hc.
        + eapply j_bind0 with (P := fun c s' => c = VNone \/ a_checker c s').
          * unfold getattr_sec_checker. apply j_catch0; [apply (au_own I HI); assumption|].
            intros e s1 Hi1. destruct (is_attribute_error e); [apply j_ret; auto|apply j_raise; exact Hi1].
          * intros c s1 Hi1 [-> | (j & k & -> & Hk)]; [apply select_j; exact Hi1|].
            apply j_ret; [exact Hi1|]. intros c' H. injection H as <-. exists j, k. auto.
      - intros oc s1 Hi1 Hoc. eapply j_bind0; [apply j_frame, select_j; exact Hi1|]. intros wr s2 Hi2 (Hwr & Hu).
        cbn beta in *. destruct wr as [w|], oc as [c|].
        + apply combined_new_j, Hi2.
        + apply j_ret; [exact Hi2|apply Hwr; reflexivity].
        + apply j_ret; [exact Hi2|]. exact (kept_checker c s1 s2 (Hoc c eq_refl) Hu).
        + apply j_raise; exact Hi2.
    Qed.
    Lemma deco_getattr_j k d n fr s : Inv s -> judge [] (deco_getattr E I k d n fr) s top.
    Proof.
      intros Hi. unfold deco_getattr. destruct (String.eqb n "__Security_checker__").
      - eapply j_post; [apply decorated_j, Hi|]. intros; exact Logic.I.
      - apply j_get. destruct (st_decos s d) as [x|]; [|apply j_raise; exact Hi].
        destruct (_ && _); [apply j_ret; [exact Hi|exact Logic.I]|apply raw_j; exact Hi].
    Qed.
    Lemma deco_setattr_j k d n v s : Inv s -> judge [] (deco_setattr E k d n v) s top.
    Proof.
      intros Hi. unfold deco_setattr. destruct (String.eqb n "__Security_checker__"); [apply j_raise; exact Hi|].
      apply j_get. destruct (st_decos s d) as [x|]; [|apply j_raise; exact Hi].
      destruct (_ && _); [|apply raw_j; exact Hi].
      apply j_bind0 with (P := top); [|intros; apply j_ret; [assumption|exact Logic.I]].
      intros r s' tr H. cbn in H. injection H as <- <- <-.
      destruct Hi as ([A1 A2 A3 A4] & (U1 & U2)).
      split; [split; [split; [constructor; assumption|split; assumption]|split; auto]|].
      split; [constructor|]. intros; exact Logic.I.
    Qed.

    (** ** Proxies *)

    Lemma pget_known p x s (Q : value * value -> state -> Prop) : Inv s -> st_prox s0 p = Some x ->
      Q x s -> judge [] (pget p) s Q.
    Proof.
      intros Hi Hx HQ. unfold pget. apply j_get. rewrite (proj1 (proj2 Hi) p x Hx). apply j_ret; assumption.
    Qed.
    Lemma pget_any p s : Inv s ->
      judge [] (pget p) s (fun wc _ => is_proxy (fst wc) = false /\ exists i, snd wc = VChk i).
    Proof.
      intros Hi. unfold pget. apply j_get. destruct (st_prox s p) as [[w c]|] eqn:Hp; [|apply j_raise; exact Hi].
      apply j_ret; [exact Hi|]. destruct (ca_proxies E s (proj1 Hi) _ _ _ Hp) as (H1 & i & k & -> & _).
      split; [exact H1|]. exists i. reflexivity.
    Qed.

    Section Slots.
      Variables (p : id) (w : value) (i : id).
      Hypothesis Hp : st_prox s0 p = Some (w, VChk i).
      Local Definition wp : is_proxy w = false := proj1 (ca_proxies E s0 H0 _ _ _ Hp).

      Ltac known_get := eapply j_bind0; [eapply pget_known with (Q := fun x _ => x = (w, VChk i));
        [eassumption|exact Hp|reflexivity]|]; let sz := fresh "sz" in intros ? sz ? ->; cbn [fst snd].
      Lemma py_check_name_j qs nm meth s : Inv s -> (forall s1, Inv s1 -> judge qs (meth w) s1 top) ->
        judge ((p, nm, Read) :: qs) (py_check_name E I p nm meth) s top.
      Proof.
        intros Hi Hm. unfold py_check_name. known_get.
        eapply j_bind1; [apply (au_check MCheck); [eassumption|exact Hp]|]. intros x s2 Hi2 _. known_get.
        rewrite <- (app_nil_r qs). eapply j_bind; [apply Hm; eassumption|]. intros v s3 Hi3 _.
        apply checker_proxy_j. exact Hi3.
      Qed.
      Lemma py_check_name_nowrap_j qs nm meth s : Inv s -> (forall s1, Inv s1 -> judge qs (meth w) s1 top) ->
        judge ((p, nm, Read) :: qs) (py_check_name_nowrap I p nm meth) s top.
      Proof.
        intros Hi Hm. unfold py_check_name_nowrap. known_get.
        eapply j_bind1; [apply (au_check MCheck); [eassumption|exact Hp]|]. intros x s2 Hi2 _. known_get.
        apply Hm. assumption.
      Qed.
      Lemma c_check_slot_j m nm s : Inv s ->
        judge [(p, nm, match m with MSetattr => Write | _ => Read end)] (c_check I p m nm) s top.
      Proof.
        intros Hi. unfold c_check. known_get. apply j_get. destruct m.
        3: exact (au_check MSetattr p w (VChk i) nm _ ltac:(eassumption) Hp).
        all: match goal with |- context [slot_mode ?s0 ?c ?m0] =>
               assert (Hs : slot_mode s0 c m0 = MCheck \/ slot_mode s0 c m0 = MGetattr)
                 by (unfold slot_mode; destruct (st_chks _ i) as [k|]; [destruct (ck_kind k)|]; auto);
               destruct Hs as [-> | ->] end.
        1, 3: exact (au_check MCheck p w (VChk i) nm _ ltac:(eassumption) Hp).
        all: exact (au_check MGetattr p w (VChk i) nm _ ltac:(eassumption) Hp).
      Qed.
      Lemma result_j v s : Inv s -> judge [] (c_proxy_result E I p v) s top.
      Proof. intros Hi. unfold c_proxy_result. known_get. apply checker_proxy_j. assumption. Qed.
      Lemma c_check1_j qs m nm operation s : Inv s -> (forall s1, Inv s1 -> judge qs (operation w) s1 top) ->
        judge ((p, nm, match m with MSetattr => Write | _ => Read end) :: qs) (c_check1 E I p m nm operation) s top.
      Proof.
        intros Hi Hm. unfold c_check1. eapply j_bind1; [apply c_check_slot_j; exact Hi|]. intros x s2 Hi2 _. known_get.
        rewrite <- (app_nil_r qs). eapply j_bind; [apply Hm; eassumption|]. intros v s3 Hi3 _. apply result_j. exact Hi3.
      Qed.
      Lemma c_check0_j qs m nm operation s : Inv s -> (forall s1, Inv s1 -> judge qs (operation w) s1 top) ->
        judge ((p, nm, match m with MSetattr => Write | _ => Read end) :: qs) (c_check0 I p m nm operation) s top.
      Proof.
        intros Hi Hm. unfold c_check0. eapply j_bind1; [apply c_check_slot_j; exact Hi|]. intros x s2 Hi2 _. known_get.
        apply Hm. assumption.
      Qed.
      Lemma c_check2i_j qs nm operation s : Inv s -> (forall s1, Inv s1 -> judge qs (operation w) s1 top) ->
        judge ((p, nm, Read) :: qs) (c_check2i E I p nm operation) s top.
      Proof.
        intros Hi Hm. unfold c_check2i. eapply j_bind1; [apply (c_check_slot_j MCheck); exact Hi|]. intros x s2 Hi2 _. known_get.
        rewrite <- (app_nil_r qs). eapply j_bind; [apply Hm; eassumption|]. intros v s3 Hi3 _. known_get.
        destruct (value_eqb v w); [apply j_ret; [assumption|exact Logic.I]|apply result_j; assumption].
      Qed.
      Lemma guard_j qs m nm operation s : m <> MSetattr -> Inv s -> (forall s1, Inv s1 -> judge qs (operation w) s1 top) ->
        judge ((p, nm, Read) :: qs) (proxy_guard E I p m nm operation) s top.
      Proof.
        intros Hms Hi Hm. unfold proxy_guard. destruct (e_impl E); [apply py_check_name_j; assumption|].
        destruct m; try contradiction; first [exact (c_check1_j qs MCheck nm operation s Hi Hm)|exact (c_check1_j qs MGetattr nm operation s Hi Hm)].
      Qed.

      Lemma get_free v n fr s : Inv s -> is_proxy v = false -> forall k, judge [] (i_op I k (OGetattr v n fr)) s top.
      Proof.
        intros Hi Hv k. apply free_op; [exact Hi|exact Logic.I|]. cbn [queries]. rewrite (on_plain v n Read Hv).
        destruct (e_impl E); [destruct (unchecked_read n)|]; reflexivity.
      Qed.
      Lemma default_repr_c_j s : Inv s -> judge [] (default_repr_c E I w) s top.
      Proof.
        intros Hi. unfold default_repr_c.
        eapply j_bind0; [apply (au_attr I HI); [exact Hi|apply wp|auto]|]. intros kl s1 Hi1 Hkl. cbn beta in Hkl.
        eapply j_bind0; [apply get_free; assumption|]. intros nm s2 Hi2 _.
        eapply j_bind0 with (P := top).
        - apply j_catch0; [eapply j_bind0; [apply get_free; assumption|]|];
            intros; apply j_ret; try assumption; exact Logic.I.
        - intros om s3 Hi3 _. destruct om; apply j_ret; try assumption; exact Logic.I.
      Qed.
      Lemma default_repr_py_j s : Inv s -> judge [] (default_repr_py E I w) s top.
      Proof.
        intros Hi. unfold default_repr_py.
        eapply j_bind0; [apply (au_attr I HI); [exact Hi|apply wp|auto]|]. intros kl s1 Hi1 Hkl. cbn beta in Hkl.
        eapply j_bind0; [apply get_free; assumption|]. intros md s2 Hi2 _.
        eapply j_bind0; [apply (au_attr I HI); [exact Hi2|apply wp|auto]|]. intros k2 s3 Hi3 Hk2. cbn beta in Hk2.
        eapply j_bind0; [apply get_free; assumption|]. intros nm s4 Hi4 _. apply j_ret; [exact Hi4|exact Logic.I].
      Qed.
      Lemma c_str_like_j nm operation s : Inv s -> (forall s1, Inv s1 -> judge [] (operation w) s1 top) ->
        judge [(p, nm, Read)] (c_str_like E I p nm operation) s top.
      Proof.
        intros Hi Hm. unfold c_str_like. eapply j_bind1 with (P := top).
        - apply j_catch0.
          + eapply j_bind1; [apply (c_check_slot_j MCheck); exact Hi|]. intros; apply j_ret; [assumption|exact Logic.I].
          + intros; apply j_ret; [assumption|exact Logic.I].
        - intros ok s1 Hi1 _. known_get. destruct ok; [apply Hm; assumption|apply default_repr_c_j; assumption].
      Qed.
      Lemma py_str_like_j nm operation s : Inv s -> (forall s1, Inv s1 -> judge [] (operation w) s1 top) ->
        judge [(p, nm, Read)] (py_str_like E I p nm operation) s top.
      Proof.
        intros Hi Hm. unfold py_str_like. apply j_catch0; [apply py_check_name_j; assumption|].
        intros e s1 Hi1. destruct (is_type_error e); [apply j_raise; exact Hi1|]. known_get.
        apply default_repr_py_j. assumption.
      Qed.

      Lemma py_getattribute_j k n fr s : Inv s ->
        judge (if unchecked_read n then [] else [(p, n, Read)]) (py_getattribute E I k p n fr) s top.
      Proof.
        intros Hi. unfold py_getattribute. cbv zeta.
        destruct (_ && _); [apply j_raise; exact Hi|]. known_get.
        destruct (String.eqb n "_wrapped"); [apply j_ret; [assumption|exact Logic.I]|].
        destruct (String.eqb n "_checker"); [apply j_ret; [assumption|exact Logic.I]|].
        change (mem n py_unchecked_names) with (unchecked_read n).
        assert (R : forall s2, Inv s2 -> judge []
          (wc2 <- pget p ;; val <- i_op I k (OGetattr (if String.eqb n "__reduce__" || String.eqb n "__reduce_ex__"
              || String.eqb n "__module__" then w else fst wc2) n (Some (VProxy p))) ;;
           checker_proxy E I (VChk i) val) s2 top).
        { intros s2 Hi2. known_get.
          eapply j_bind0; [apply get_free; [eassumption|destruct (_ || _); apply wp]|]. intros v s3 Hi3 _.
          apply checker_proxy_j. exact Hi3. }
        destruct (unchecked_read n).
        - eapply j_bind0; [apply j_ret with (Q := top); [eassumption|exact Logic.I]|]. intros x s2 Hi2 _. apply R, Hi2.
        - eapply j_bind1; [apply (au_check MGetattr); [eassumption|exact Hp]|]. intros x s2 Hi2 _. apply R, Hi2.
      Qed.
      Lemma py_getattr_j k n fr s : Inv s ->
        judge ((if unchecked_read n then [] else [(p, n, Read)]) ++ [(p, n, Read)])%list (py_getattr E I k p n fr) s top.
      Proof.
        intros Hi. unfold py_getattr. apply j_catch; [apply py_getattribute_j; exact Hi|].
        intros e s1 Hi1. destruct (is_attribute_error e); [|apply j_raise; exact Hi1].
        unfold py_getattr_fallback. known_get.
        eapply j_bind1; [apply (au_check MGetattr); [eassumption|exact Hp]|]. intros x s2 Hi2 _. apply j_raise. exact Hi2.
      Qed.
    End Slots.

    Lemma py_length_hint_j k p s : Inv s -> judge [] (py_length_hint I k p) s top.
    Proof.
      intros Hi. unfold py_length_hint. eapply j_bind0; [apply pget_any, Hi|]. intros [w c] s1 Hi1 (Hw & _). cbn [fst snd] in *.
      eapply j_bind0 with (P := fun oh _ => forall h, oh = Some h -> is_proxy h = false).
      - apply j_catch0.
        + eapply j_bind0; [apply (au_attr I HI); [exact Hi1|exact Hw|auto]|]. intros h s2 Hi2 Hh.
          apply j_ret; [exact Hi2|]. intros h' H. injection H as <-. exact Hh.
        + intros e s2 Hi2. destruct (is_attribute_error e); [apply j_ret; [exact Hi2|discriminate]|apply j_raise; exact Hi2].
      - intros oh s2 Hi2 Hoh. destruct oh as [h|]; [|apply j_ret; [exact Hi2|exact Logic.I]].
        apply free_op; [exact Hi2|exact Logic.I|]. cbn [queries]. apply on_plain, Hoh. reflexivity.
    Qed.
    Lemma c_length_hint_j k p s : Inv s -> judge [] (c_length_hint I k p) s top.
    Proof.
      intros Hi. unfold c_length_hint. eapply j_bind0; [apply pget_any, Hi|]. intros [w c] s1 Hi1 (Hw & _). cbn [fst snd] in *.
      apply j_catch0.
      - eapply j_bind0; [apply (au_attr I HI); [exact Hi1|exact Hw|auto]|]. intros h s2 Hi2 Hh. cbn beta in Hh.
        apply free_op; [exact Hi2|exact Logic.I|]. cbn [queries]. apply on_plain, Hh.
      - intros e s2 Hi2. destruct (is_attribute_error e); [apply j_ret; [exact Hi2|exact Logic.I]|apply j_raise; exact Hi2].
    Qed.
    Lemma compare_j k c p v s : Inv s ->
      judge [] (match e_impl E with ImplPy => py_compare I k p c v | ImplC => c_richcompare E I k p c v end) s top.
    Proof.
      intros Hi. destruct (e_impl E).
      - unfold py_compare. eapply j_bind0; [apply pget_any, Hi|]. intros wc s1 Hi1 _.
        apply free_op; [exact Hi1|exact Logic.I|reflexivity].
      - unfold c_richcompare. eapply j_bind0; [apply pget_any, Hi|]. intros wc s1 Hi1 _.
        eapply j_bind0; [apply free_op; [exact Hi1|exact Logic.I|reflexivity]|]. intros r s2 Hi2 _.
        assert (R : judge [] (c_proxy_result E I p r) s2 top).
        { unfold c_proxy_result. eapply j_bind0; [apply pget_any, Hi2|]. intros [w2 c2] s3 Hi3 (_ & i & Hc).
          cbn [snd] in *. subst c2. apply checker_proxy_j, Hi3. }
        destruct r; try exact R. apply j_ret; [exact Hi2|exact Logic.I].
    Qed.

    (** ** Operations *)

    Lemma sub_op k o qs s : Inv s -> auditable (e_impl E) o -> queries (e_impl E) o = qs ->
      (forall p n a, In (p, n, a) qs -> exists x, st_prox s0 p = Some x) -> judge qs (i_op I k o) s top.
    Proof.
      intros Hi Ha Hq Hk. subst qs. apply (au_op I HI); [exact Hi|exact Ha|exact Hk].
    Qed.
    Lemma known_one p : (exists x, st_prox s0 p = Some x) -> exists w i, st_prox s0 p = Some (w, VChk i).
    Proof.
      intros ((w & c) & Hp). destruct (ca_proxies E s0 H0 _ _ _ Hp) as (_ & i & k & -> & _). exists w, i. exact Hp.
    Qed.
    Lemma proxy_cases v : (exists p, v = VProxy p) \/ is_proxy v = false.
    Proof. destruct v; auto. left. eauto. Qed.
    Lemma plain_case {A} (v : value) (X : id -> A) (Y : A) : is_proxy v = false ->
      match v with VProxy p => X p | _ => Y end = Y.
    Proof. destruct v; try reflexivity. discriminate. Qed.
    Ltac plain := cbn [queries on_proxy]; rewrite ?on_plain by assumption; cbn [app]; try reflexivity.

    Lemma pow3_j k a b m s : Inv s -> known s0 (e_impl E) (OPow3 a b m) ->
      judge (queries (e_impl E) (OPow3 a b m)) (proxy_pow3 E I k a b m) s top.
    Proof.
      intros Hi Hk. unfold proxy_pow3.
      assert (Hb : forall p n x, In (p, n, x) (on_proxy b "__rpow__" Read ++ on_proxy m "__3pow__" Read)%list ->
                   exists y, st_prox s0 p = Some y).
      { intros p n x Hin. apply (Hk p n x). cbn [queries]. apply in_or_app. right. exact Hin. }
      assert (Hnext : e_impl E = ImplC -> forall q nm rest (f : value -> op) s1, Inv s1 ->
             (exists y, st_prox s0 q = Some y) ->
             (forall w, is_proxy w = false -> queries ImplC (f w) = rest /\ auditable ImplC (f w)) ->
             (forall p n x, In (p, n, x) rest -> exists y, st_prox s0 p = Some y) ->
             judge ((q, nm, Read) :: rest) (c_check1 E I q MCheck nm (fun w => i_op I k (f w))) s1 top).
      { intros HE q nm rest f s1 Hi1 Hq Hf Hrest. destruct (known_one q Hq) as (w & i & Hp).
        apply (c_check1_j q w i Hp rest MCheck); [exact Hi1|]. intros s2 Hi2.
        destruct (Hf w (wp q w i Hp)) as (Hf1 & Hf2).
        apply sub_op; [exact Hi2|rewrite HE; exact Hf2|rewrite HE; exact Hf1|exact Hrest]. }
      destruct (proxy_cases a) as [(p & ->)|Ha].
      { destruct (known_one p) as (w & i & Hp).
        { apply (Hk p "__pow__" Read). left. reflexivity. }
        cbn [queries on_proxy app]. apply guard_j with (w := w) (i := i); [exact Hp|discriminate|exact Hi|].
        intros s1 Hi1. apply sub_op; [exact Hi1|exact Logic.I| |exact Hb].
        cbn [queries]. rewrite (on_plain w) by exact (wp p w i Hp). reflexivity. }
      rewrite plain_case by exact Ha.
      destruct (is_proxy b || is_proxy m) eqn:Hbm; [|apply raw_j; exact Hi].
      eapply j_bind0; [apply raw_j; exact Hi|]. intros v s1 Hi1 _.
      destruct (value_eqb v VNotImpl); [|apply j_ret; [exact Hi1|exact Logic.I]].
      destruct (e_impl E) eqn:HE; [apply j_raise; exact Hi1|].
      cbn [queries]. rewrite (on_plain a) by exact Ha. cbn [app].
      destruct (proxy_cases b) as [(q & ->)|Hbp].
      { apply (Hnext eq_refl q "__rpow__" (on_proxy m "__3pow__" Read) (fun w => OPow3 a w m) s1 Hi1).
        - apply (Hb q "__rpow__" Read). left. reflexivity.
        - intros w Hw. split; [cbn [queries]; rewrite (on_plain a), (on_plain w) by assumption; reflexivity|exact Logic.I].
        - intros p n x Hin. apply (Hb p n x). right. exact Hin. }
      rewrite (on_plain b) by exact Hbp. cbn [app].
      rewrite plain_case by exact Hbp.
      destruct (proxy_cases m) as [(q & ->)|Hmp].
      { apply (Hnext eq_refl q "__3pow__" [] (fun w => OPow3 a b w) s1 Hi1).
        - apply (Hb q "__3pow__" Read). apply in_or_app. right. left. reflexivity.
        - intros w Hw. split; [cbn [queries]; rewrite (on_plain a), (on_plain b), (on_plain w) by assumption; reflexivity|exact Logic.I].
        - intros p n x []. }
      destruct m; try (apply j_ret; [exact Hi1|exact Logic.I]). discriminate Hmp.
    Qed.

    (** One proxied operand. *)
    Lemma one_j k p nm m (f : value -> op) qs s : m <> MSetattr -> Inv s ->
      (exists y, st_prox s0 p = Some y) ->
      (forall w, is_proxy w = false -> queries (e_impl E) (f w) = qs /\ auditable (e_impl E) (f w)) ->
      (forall q n x, In (q, n, x) qs -> exists y, st_prox s0 q = Some y) ->
      judge ((p, nm, Read) :: qs) (proxy_guard E I p m nm (fun w => i_op I k (f w))) s top.
    Proof.
      intros Hm Hi Hp Hf Hq. destruct (known_one p Hp) as (w & i & Hw).
      apply guard_j with (w := w) (i := i); [exact Hw|exact Hm|exact Hi|]. intros s1 Hi1.
      destruct (Hf w (wp p w i Hw)) as (H1 & H2). apply sub_op; assumption.
    Qed.
    Lemma bin_left_j k p b r s : Inv s -> (exists y, st_prox s0 p = Some y) ->
      (forall q n x, In (q, n, x) (on_proxy r (reflected_name b) Read) -> exists y, st_prox s0 q = Some y) ->
      judge ((p, binary_name b, Read) :: on_proxy r (reflected_name b) Read) (proxy_bin_left E I k p b r) s top.
    Proof.
      intros Hi Hp Hr. unfold proxy_bin_left.
      replace (match e_impl E with ImplPy => py_binop_name b | ImplC => c_binop_name b end) with (binary_name b)
        by (destruct (e_impl E); [symmetry; apply py_binop_spec|symmetry; apply c_binop_spec]).
      apply (one_j k p (binary_name b) MCheck (fun w => OBin b w r)); [discriminate|exact Hi|exact Hp| |exact Hr].
      intros w Hw. split; [cbn [queries]; rewrite (on_plain w) by exact Hw; reflexivity|exact Logic.I].
    Qed.
    Lemma bin_right_j k p b l s : is_proxy l = false -> Inv s -> (exists y, st_prox s0 p = Some y) ->
      judge [(p, reflected_name b, Read)] (proxy_bin_right E I k p b l) s top.
    Proof.
      intros Hl Hi Hp. unfold proxy_bin_right.
      replace (match e_impl E with ImplPy => py_rbinop_name b | ImplC => c_rbinop_name b end) with (reflected_name b)
        by (destruct (e_impl E); [symmetry; apply py_rbinop_spec|symmetry; apply c_rbinop_spec]).
      apply (one_j k p (reflected_name b) MCheck (fun w => OBin b l w)); [discriminate|exact Hi|exact Hp| |intros q n x []].
      intros w Hw. split; [cbn [queries]; rewrite (on_plain l), (on_plain w) by assumption; reflexivity|exact Logic.I].
    Qed.

    Lemma run_op_j k o s : Inv s -> auditable (e_impl E) o -> known s0 (e_impl E) o ->
      judge (queries (e_impl E) o) (run_op E I k o) s top.
    Proof.
      intros Hi Ha Hk.
      assert (H1 : forall p n a, In (p, n, a) (queries (e_impl E) o) -> exists w i, st_prox s0 p = Some (w, VChk i)).
      { intros p n a Hin. apply known_one. exact (Hk p n a Hin). }
      assert (HN : forall (f : value -> op), (forall w, is_proxy w = false ->
                queries (e_impl E) (f w) = [] /\ auditable (e_impl E) (f w)) ->
                forall w s1, is_proxy w = false -> Inv s1 -> judge [] (i_op I k (f w)) s1 top).
      { intros f Hf w s1 Hw Hi1. destruct (Hf w Hw) as (F1 & F2). apply free_op; assumption. }
      assert (HG : forall p nm m (f : value -> op), m <> MSetattr -> queries (e_impl E) o = [(p, nm, Read)] ->
                (forall w, is_proxy w = false -> queries (e_impl E) (f w) = [] /\ auditable (e_impl E) (f w)) ->
                judge [(p, nm, Read)] (proxy_guard E I p m nm (fun w => i_op I k (f w))) s top).
      { intros p nm m f Hm Hq Hf. apply one_j; [exact Hm|exact Hi| |exact Hf|intros q n x []].
        apply (Hk p nm Read). rewrite Hq. left. reflexivity. }
      assert (HP : forall p nm (meth : value -> M value), queries (e_impl E) o = [(p, nm, Read)] ->
                (forall w, st_prox s0 p = Some w -> is_proxy (fst w) = false -> forall s1, Inv s1 -> judge [] (meth (fst w)) s1 top) ->
                judge [(p, nm, Read)] (py_check_name E I p nm meth) s top /\
                judge [(p, nm, Read)] (py_check_name_nowrap I p nm meth) s top /\
                judge [(p, nm, Read)] (c_check0 I p MCheck nm meth) s top /\
                judge [(p, nm, Read)] (py_str_like E I p nm meth) s top /\
                judge [(p, nm, Read)] (c_str_like E I p nm meth) s top).
      { intros p nm meth Hq Hm. destruct (H1 p nm Read) as (w & i & Hp); [rewrite Hq; left; reflexivity|].
        assert (Hw := wp p w i Hp). assert (Hm' := Hm _ Hp Hw). cbn [fst] in Hm'.
        split; [eapply py_check_name_j; eassumption|]. split; [eapply py_check_name_nowrap_j; eassumption|].
        split; [exact (c_check0_j p w i Hp [] MCheck nm meth s Hi Hm')|].
        split; [eapply py_str_like_j; eassumption|eapply c_str_like_j; eassumption]. }
      Ltac nq := intros w Hw; split; [cbn [queries]; rewrite ?on_plain by assumption; try reflexivity|cbn [auditable]; auto].
      destruct o as [v n fr|v n x|v n|v args|u v|u v|b l r|a b m|b l r|v key|v key x|v key|v key|v|v|v|v|v|c l r|v|v|v].
      - destruct (proxy_cases v) as [(p & ->)|Hv].
        + cbn [run_op]. unfold proxy_getattr.
          destruct (H1 p n Read) as (w & i & Hp); [cbn [queries on_proxy]; left; reflexivity|].
          cbn [queries on_proxy app]. destruct (e_impl E) eqn:HE.
          * assert (J := py_getattr_j p w i Hp k n fr s Hi). destruct (unchecked_read n); exact J.
          * apply (c_check1_j p w i Hp [] MGetattr); [exact Hi|]. intros s1 Hi1.
            exact (get_free w n None s1 Hi1 (wp p w i Hp) k).
        + apply j_weaken. destruct v; cbn [run_op is_atom]; try discriminate Hv;
            try (destruct (_ && _); [apply j_raise; exact Hi|apply raw_j; exact Hi]).
          apply deco_getattr_j, Hi.
      - destruct (proxy_cases v) as [(p & ->)|Hv].
        + cbn [run_op]. unfold proxy_setattr.
          destruct (H1 p n Write) as (w & i & Hp); [cbn [queries on_proxy]; left; reflexivity|].
          assert (Hs : forall s1, Inv s1 -> judge [] (i_op I k (OSetattr w n x)) s1 top).
          { intros s1 Hi1. apply free_op; [exact Hi1| |cbn [queries]; apply on_plain; exact (wp p w i Hp)].
            intros _ Hc. rewrite (wp p w i Hp) in Hc. discriminate. }
          cbn [queries on_proxy]. destruct (e_impl E) eqn:HE.
          * cbn [auditable] in Ha. specialize (Ha eq_refl eq_refl). unfold internal_name in Ha.
            unfold py_setattr. destruct (String.eqb_spec n "_wrapped"); [tauto|].
            destruct (String.eqb_spec n "_checker"); [tauto|].
            eapply j_bind0; [eapply pget_known with (Q := fun y _ => y = (w, VChk i));
              [eassumption|exact Hp|reflexivity]|]. intros wc s1 Hi1 ->. cbn [fst snd].
            eapply j_bind1; [apply (au_check MSetattr); [exact Hi1|exact Hp]|]. intros y s2 Hi2 _. apply Hs, Hi2.
          * apply (c_check0_j p w i Hp [] MSetattr); [exact Hi|exact Hs].
        + apply j_weaken. destruct v; cbn [run_op]; try discriminate Hv; try (apply raw_j; exact Hi).
          apply deco_setattr_j, Hi.
      - destruct (proxy_cases v) as [(p & ->)|Hv];
          [|apply j_weaken; destruct v; try discriminate Hv; apply raw_j; exact Hi].
        cbn [run_op]. unfold proxy_delattr.
        destruct (H1 p n Write) as (w & i & Hp); [cbn [queries on_proxy]; left; reflexivity|].
        assert (Hs : forall s1, Inv s1 -> judge [] (i_op I k (ODelattr w n)) s1 top).
        { intros s1 Hi1. apply free_op; [exact Hi1|exact Logic.I|cbn [queries]; apply on_plain; exact (wp p w i Hp)]. }
        cbn [queries on_proxy]. destruct (e_impl E) eqn:HE.
        + unfold py_delattr. destruct (_ || _); [apply j_raise; exact Hi|].
          eapply j_bind0; [eapply pget_known with (Q := fun y _ => y = (w, VChk i));
            [eassumption|exact Hp|reflexivity]|]. intros wc s1 Hi1 ->. cbn [fst snd].
          eapply j_bind1; [apply (au_check MSetattr); [exact Hi1|exact Hp]|]. intros y s2 Hi2 _. apply Hs, Hi2.
        + apply (c_check0_j p w i Hp [] MSetattr); [exact Hi|exact Hs].
      - destruct (proxy_cases v) as [(p & ->)|Hv];
          [|apply j_weaken; destruct v; try discriminate Hv; apply raw_j; exact Hi].
        apply (HG p "__call__" MCheck (fun w => OCall w args)); [discriminate|reflexivity|nq].
      - destruct (proxy_cases v) as [(p & ->)|Hv];
          [|apply j_weaken; destruct v; try discriminate Hv; apply raw_j; exact Hi].
        cbn [run_op queries on_proxy].
        replace (match e_impl E with ImplPy => py_unop_name u | ImplC => c_unop_name u end) with (unary_name u)
          by (destruct (e_impl E); [symmetry; apply py_unop_spec|symmetry; apply c_unop_spec]).
        apply (HG p (unary_name u) MCheck (fun w => OUn u w)); [discriminate|reflexivity|nq].
      - destruct (proxy_cases v) as [(p & ->)|Hv];
          [|apply j_weaken; destruct v; try discriminate Hv; apply raw_j; exact Hi].
        cbn [run_op]. destruct (e_impl E) eqn:HE; [|apply raw_j; exact Hi].
        cbn [queries on_proxy]. change (py_unopx_name u) with (unary_name_x u). apply HP; [reflexivity|]. intros w _ Hw s1 Hi1.
        apply free_op; [exact Hi1|exact Logic.I|]. rewrite HE. cbn [queries]. apply on_plain, Hw.
      - destruct (proxy_cases l) as [(p & ->)|Hl].
        + cbn [run_op queries on_proxy app]. apply bin_left_j; [exact Hi| |].
          * apply (Hk p (binary_name b) Read). left. reflexivity.
          * intros q n x Hin. apply (Hk q n x). right. exact Hin.
        + destruct (proxy_cases r) as [(p & ->)|Hr].
          * assert (J : judge (queries (e_impl E) (OBin b l (VProxy p)))
               (v <- raw E k (OBin b l (VProxy p)) ;;
                if value_eqb v VNotImpl then proxy_bin_right E I k p b l else ret v) s top).
            { eapply j_bind0; [apply raw_j; exact Hi|]. intros v s1 Hi1 _.
              destruct (value_eqb v VNotImpl); [|apply j_ret; [exact Hi1|exact Logic.I]].
              cbn [queries]. rewrite (on_plain l) by exact Hl. apply bin_right_j; [exact Hl|exact Hi1|].
              apply (Hk p (reflected_name b) Read). cbn [queries]. rewrite (on_plain l) by exact Hl. left. reflexivity. }
            destruct l; try exact J. discriminate Hl.
          * apply j_weaken. destruct l; try discriminate Hl; destruct r; try discriminate Hr; apply raw_j; exact Hi.
      - apply pow3_j; assumption.
      - destruct (proxy_cases l) as [(p & ->)|Hl].
        + cbn [auditable] in Ha. cbn [run_op]. unfold proxy_inplace.
          destruct (e_impl E) eqn:HE; [discriminate (Ha eq_refl)|]. rewrite c_inop_spec. cbn [queries on_proxy app].
          destruct (H1 p (inplace_name b) Read) as (w & i & Hp); [left; reflexivity|].
          apply (c_check2i_j p w i Hp); [exact Hi|]. intros s1 Hi1. apply sub_op; [exact Hi1| | |].
          * intros Hc. rewrite HE in Hc. discriminate.
          * rewrite HE. cbn [queries]. rewrite (on_plain w) by exact (wp p w i Hp). reflexivity.
          * intros q n x Hin. apply (Hk q n x). right. exact Hin.
        + destruct (proxy_cases r) as [(p & ->)|Hr].
          * assert (J : judge (queries (e_impl E) (OIn b l (VProxy p)))
               (v <- raw E k (OIn b l (VProxy p)) ;;
                if value_eqb v VNotImpl then proxy_bin_right E I k p (inop_bin b) l else ret v) s top).
            { eapply j_bind0; [apply raw_j; exact Hi|]. intros v s1 Hi1 _.
              destruct (value_eqb v VNotImpl); [|apply j_ret; [exact Hi1|exact Logic.I]].
              replace (inop_bin b) with (reflected_of b) by (destruct b; reflexivity).
              cbn [queries]. rewrite (on_plain l) by exact Hl. apply bin_right_j; [exact Hl|exact Hi1|].
              apply (Hk p (reflected_name (reflected_of b)) Read). cbn [queries].
              rewrite (on_plain l) by exact Hl. left. reflexivity. }
            destruct l; try exact J. discriminate Hl.
          * apply j_weaken. destruct l; try discriminate Hl; destruct r; try discriminate Hr; apply raw_j; exact Hi.
      - destruct (proxy_cases v) as [(p & ->)|Hv];
          [|apply j_weaken; destruct v; try discriminate Hv; apply raw_j; exact Hi].
        apply (HG p "__getitem__" MCheck (fun w => OGetitem w key)); [discriminate|reflexivity|nq].
      - destruct (proxy_cases v) as [(p & ->)|Hv];
          [|apply j_weaken; destruct v; try discriminate Hv; apply raw_j; exact Hi].
        destruct (HP p "__setitem__" (fun w => i_op I k (OSetitem w key x))) as (P1 & P2 & P3 & _); [reflexivity| |].
        { intros w _ Hw s1 Hi1. apply free_op; [exact Hi1|exact Logic.I|cbn [queries]; apply on_plain, Hw]. }
        cbn [run_op queries on_proxy]. destruct (e_impl E); [|exact P3].
        apply (j_bind1 _ []) with (P := top); [exact P1|]. intros; apply j_ret; [assumption|exact Logic.I].
      - destruct (proxy_cases v) as [(p & ->)|Hv];
          [|apply j_weaken; destruct v; try discriminate Hv; apply raw_j; exact Hi].
        destruct (HP p "__delitem__" (fun w => i_op I k (ODelitem w key))) as (P1 & P2 & P3 & _); [reflexivity| |].
        { intros w _ Hw s1 Hi1. apply free_op; [exact Hi1|exact Logic.I|cbn [queries]; apply on_plain, Hw]. }
        cbn [run_op queries on_proxy]. destruct (e_impl E); [|exact P3].
        apply (j_bind1 _ []) with (P := top); [exact P1|]. intros; apply j_ret; [assumption|exact Logic.I].
      - destruct (proxy_cases v) as [(p & ->)|Hv];
          [|apply j_weaken; destruct v; try discriminate Hv; apply raw_j; exact Hi].
        destruct (HP p "__contains__" (fun w => i_op I k (OContains w key))) as (P1 & P2 & P3 & _); [reflexivity| |].
        { intros w _ Hw s1 Hi1. apply free_op; [exact Hi1|exact Logic.I|cbn [queries]; apply on_plain, Hw]. }
        cbn [run_op queries on_proxy]. destruct (e_impl E); [|exact P3].
        apply (j_bind1 _ []) with (P := top); [exact P1|]. intros r s1 Hi1 _.
        eapply j_bind0; [apply truth_j; exact Hi1|]. intros; apply j_ret; [assumption|exact Logic.I].
      - destruct (proxy_cases v) as [(p & ->)|Hv];
          [|apply j_weaken; destruct v; try discriminate Hv; apply raw_j; exact Hi].
        destruct (HP p "__len__" (fun w => i_op I k (OLen w))) as (P1 & P2 & P3 & _); [reflexivity| |].
        { intros w _ Hw s1 Hi1. apply free_op; [exact Hi1|exact Logic.I|cbn [queries]; apply on_plain, Hw]. }
        cbn [run_op queries on_proxy]. destruct (e_impl E); assumption.
      - destruct (proxy_cases v) as [(p & ->)|Hv];
          [|apply j_weaken; destruct v; try discriminate Hv; apply raw_j; exact Hi].
        apply (HG p "__iter__" MCheck (fun w => OIter w)); [discriminate|reflexivity|nq].
      - destruct (proxy_cases v) as [(p & ->)|Hv];
          [|apply j_weaken; destruct v; try discriminate Hv; apply raw_j; exact Hi].
        apply (HG p "__next__" MGetattr (fun w => ONext w)); [discriminate|reflexivity|nq].
      - destruct (proxy_cases v) as [(p & ->)|Hv]; [|destruct v; try discriminate Hv; apply raw_j; exact Hi].
        cbn [run_op queries]. unfold py_hash. destruct (e_impl E); (eapply j_bind0; [apply pget_any, Hi|]);
          intros wc s1 Hi1 _; apply free_op; first [exact Hi1|exact Logic.I|reflexivity].
      - destruct (proxy_cases v) as [(p & ->)|Hv]; [|destruct v; try discriminate Hv; apply raw_j; exact Hi].
        cbn [run_op queries]. unfold py_bool. destruct (e_impl E); (eapply j_bind0; [apply pget_any, Hi|]);
          intros wc s1 Hi1 _; apply free_op; first [exact Hi1|exact Logic.I|reflexivity].
      - cbn [queries]. destruct (proxy_cases l) as [(p & ->)|Hl]; [apply compare_j, Hi|].
        destruct (proxy_cases r) as [(p & ->)|Hr].
        + assert (J : judge [] (v <- raw E k (OCmp c l (VProxy p)) ;;
             if value_eqb v VNotImpl then
               match e_impl E with
               | ImplPy => py_compare I k p (swap_cmp c) l
               | ImplC => c_richcompare E I k p (swap_cmp c) l
               end
             else ret v) s top).
          { eapply j_bind0; [apply raw_j; exact Hi|]. intros v s1 Hi1 _.
            destruct (value_eqb v VNotImpl); [|apply j_ret; [exact Hi1|exact Logic.I]]. apply compare_j, Hi1. }
          destruct l; try exact J. discriminate Hl.
        + destruct l; try discriminate Hl; destruct r; try discriminate Hr; apply raw_j; exact Hi.
      - destruct (proxy_cases v) as [(p & ->)|Hv];
          [|apply j_weaken; destruct v; try discriminate Hv; apply raw_j; exact Hi].
        destruct (HP p "__str__" (fun w => i_op I k (OStr w))) as (_ & _ & _ & P4 & P5); [reflexivity| |].
        { intros w _ Hw s1 Hi1. apply free_op; [exact Hi1|exact Logic.I|cbn [queries]; apply on_plain, Hw]. }
        cbn [run_op queries on_proxy]. apply (j_bind1 _ []) with (P := top); [destruct (e_impl E); assumption|].
        intros r s1 Hi1 _. apply coerce_j; [exact Hi1|auto|intros; exact Logic.I].
      - destruct (proxy_cases v) as [(p & ->)|Hv];
          [|apply j_weaken; destruct v; try discriminate Hv; apply raw_j; exact Hi].
        destruct (HP p "__repr__" (fun w => i_op I k (ORepr w))) as (_ & _ & _ & P4 & P5); [reflexivity| |].
        { intros w _ Hw s1 Hi1. apply free_op; [exact Hi1|exact Logic.I|cbn [queries]; apply on_plain, Hw]. }
        cbn [run_op queries on_proxy]. apply (j_bind1 _ []) with (P := top); [destruct (e_impl E); assumption|].
        intros r s1 Hi1 _. apply coerce_j; [exact Hi1|auto|intros; exact Logic.I].
      - destruct (proxy_cases v) as [(p & ->)|Hv]; [|destruct v; try discriminate Hv; apply raw_j; exact Hi].
        cbn [run_op queries]. destruct (e_impl E); [apply py_length_hint_j|apply c_length_hint_j]; exact Hi.
    Qed.

    Lemma plain_get k v n fr s (Q : value -> state -> Prop) : Inv s -> is_proxy v = false ->
      n = "__Security_checker__" \/ n = "__class__" \/ n = "__length_hint__" ->
      (forall c s', e_run E (e_tid E) (CallOp (OGetattr v n fr)) s = (Ok c, s') -> Inv s' -> Q c s') ->
      (n = "__Security_checker__" -> forall c s', a_checker c s' -> Q c s') ->
      judge [] (run_op E I k (OGetattr v n fr)) s Q.
    Proof.
      intros Hi Hv Hn HQ HD. destruct v; cbn [run_op is_atom]; try discriminate Hv;
        try (destruct (_ && _); [apply j_raise; exact Hi|apply raw_get_j; assumption]).
      unfold deco_getattr. destruct (String.eqb_spec n "__Security_checker__") as [Heq|Hne].
      - eapply j_post; [apply decorated_j, Hi|]. intros c s1 _ Hc. exact (HD Heq c s1 Hc).
      - apply j_get. destruct (st_decos s d) as [x|]; [|apply j_raise; exact Hi].
        replace (String.eqb n "__parent__") with false by (destruct Hn as [-> |[-> | ->]]; reflexivity || contradiction).
        cbn [andb]. apply raw_get_j; assumption.
    Qed.
    Lemma step_audits : audits (mkInterp (run_op E I) (checker_check E I) (select_loop E I)).
    Proof.
      constructor; cbn [i_op i_check i_select].
      - exact run_op_j.
      - intros k v fr s Hi Hv. apply plain_get; [exact Hi|exact Hv|auto| |auto]. intros c s' Hr _.
        exact (cc_own E HC _ _ _ _ _ _ (proj1 Hi) Hr).
      - intros k v n fr s Hi Hv Hn. apply plain_get; [exact Hi|exact Hv|auto| |destruct Hn as [-> | ->]; discriminate]. intros c s' Hr _.
        exact (cc_attr E HC _ _ _ _ _ _ _ Hn Hr).
      - intros k v obj s Hi Hv.
        assert (J : registrable E v -> match v with VObj _ | VClass _ | VMod _ | VDeco _ | VIact _ => True | _ => False end ->
            judge [] (raw E k (OCall v [obj])) s (fun c _ => c = VNone \/ c = VNoProxy \/ exists i, c = VChk i)).
        { intros HR HS. unfold raw. eapply j_bind0 with (P := fun c _ => c = VNone \/ c = VNoProxy \/ exists i, c = VChk i).
          - apply foreign_j; [exact Hi|]. intros c s' Hr _. destruct v; try contradiction HS; exact (HR _ _ _ _ _ Hr).
          - intros c s1 Hi1 Hc. cbn [coerce]. apply j_ret; assumption. }
        destruct v; try contradiction Hv; apply J; first [exact Hv|exact Logic.I].
      - exact checker_check_j.
      - exact select_loop_j.
    Qed.
  End Step.

  Lemma zero_audits : audits (interp_n E 0).
  Proof. constructor; intros; first [apply j_raise; assumption|apply x_raise; assumption]. Qed.
  Lemma all_audits f : audits (interp_n E f).
  Proof.
    induction f as [|f IH]; [exact zero_audits|].
    change (interp_n E (S f)) with (mkInterp (run_op E (interp_n E f)) (checker_check E (interp_n E f)) (select_loop E (interp_n E f))).
    apply step_audits, IH.
  Qed.
End Audit.

Theorem questions E f o ls s r s' tr : calm_code E -> calm E s -> chains s ls ->
  auditable (e_impl E) o -> known s (e_impl E) o ->
  perform E f o s = (r, s', tr) -> explained s (each ls (queries (e_impl E) o)) tr.
Proof.
  intros HC H0 HL Ha Hk H.
  assert (Hi : Inv E s s) by (split; [exact H0|apply undisturbed_refl]).
  destruct (au_op E s ls (interp_n E f) (all_audits E HC s H0 ls HL f) Client o s Hi Ha Hk _ _ _ H) as (_ & X & _). exact X.
Qed.

(** ** Reading an attribute that is there *)
Theorem reading E f p n fr ls s v s' tr : calm_code E -> calm E s -> chains s ls -> (exists x, st_prox s p = Some x) ->
  perform E f (OGetattr (VProxy p) n fr) s = (Ok v, s', tr) -> explained s (each ls [(p, n, Read)]) tr.
Proof.
  intros HC H0 HL Hp H. destruct (e_impl E) eqn:HE.
  2: { assert (X := questions E f (OGetattr (VProxy p) n fr) ls s (Ok v) s' tr HC H0 HL I).
       rewrite HE in X. apply X; [|exact H]. intros q m a [Hin|[]]. injection Hin as <- <- <-. exact Hp. }
  destruct (known_one E s H0 p Hp) as (w & i & Hw).
  assert (Hi : Inv E s s) by (split; [exact H0|apply undisturbed_refl]).
  destruct f as [|f]; [discriminate H|].
  change (run_op E (interp_n E f) Client (OGetattr (VProxy p) n fr) s = (Ok v, s', tr)) in H.
  cbn [run_op] in H. unfold proxy_getattr in H. rewrite HE in H. unfold py_getattr in H.
  apply catch_inv in H. destruct H as [(a & H & _)|(e & s1 & t1 & t2 & _ & H & _)].
  - destruct (py_getattribute_j E s H0 ls HL (interp_n E f) (all_audits E HC s H0 ls HL f) p w i Hw Client n fr s Hi _ _ _ H)
      as (_ & X & _). destruct (unchecked_read n); [|exact X].
    apply (explained_app s (each ls [(p, n, Read)]) [] [] tr) in X; [|constructor]. rewrite app_nil_r in X. exact X.
  - exfalso. destruct (is_attribute_error e); [|discriminate H].
    unfold py_getattr_fallback in H. apply bind_inv in H.
    destruct H as [(e2 & _ & H)|(wc & s2 & t3 & t4 & _ & H & _)]; [discriminate|].
    apply bind_inv in H. destruct H as [(e2 & _ & H)|(u & s3 & t5 & t6 & _ & H & _)]; discriminate.
Qed.

Lemma in_single {A} (l : list A) x : In x l -> List.length l <= 1 -> l = [x].
Proof. destruct l as [|y [|z l]]; cbn; [tauto|intros [->|[]]; reflexivity|lia]. Qed.

Lemma queries_guard b o p n a : guard_of b o = Some (p, n, a) -> other_operands_plain o ->
  (exists v m fr, b = ImplPy /\ o = OGetattr v m fr) \/ queries b o = [(p, n, a)].
Proof.
  intros HG HO.
  destruct o; cbn [guard_of] in HG; try discriminate HG;
    match type of HG with match ?x with _ => _ end = _ => destruct x; try discriminate HG end;
    cbn [other_operands_plain queries on_proxy app] in *; try (injection HG as <- <- <-);
    try (right; reflexivity); try (right; rewrite on_plain by exact HO; reflexivity).
  - destruct b; [left; eauto 6|]. injection HG as <- <- <-. right. reflexivity.
  - right. destruct b; [destruct (internal_nameb n0); [discriminate HG|]|]; injection HG as <- <- <-; reflexivity.
  - right. destruct b; [destruct (internal_nameb n0); [discriminate HG|]|]; injection HG as <- <- <-; reflexivity.
  - destruct b; [|discriminate HG]. injection HG as <- <- <-. right. reflexivity.
  - right. destruct HO as (HO1 & HO2). rewrite !on_plain by assumption. reflexivity.
Qed.

Lemma links_plain s i k l : Links s (VChk i) l -> st_chks s i = Some k -> ck_kind k = CkPlain -> l = [i].
Proof.
  intros HX Hk Hp. inversion HX as [j kj Hj Hjk|j kj c l' Hj Hjk HX']; [reflexivity|].
  exfalso. assert (kj = k) by congruence. subst kj. destruct Hjk as [Hjk|(v & Hjk)]; congruence.
Qed.

Theorem once E f o p n a w c g wt q ls s r s' tr :
  calm_code E -> calm E s -> chains s ls -> foreign_keeps_proxies E -> auditable (e_impl E) o ->
  guard_of (e_impl E) o = Some (p, n, a) -> Wraps s p w c -> PlainChecker s c g wt ->
  no_none (table_of g) -> no_none (table_of wt) -> plain_object w -> other_operands_plain o ->
  n <> "__Security_checker__" -> table_for a g wt n = Some q -> q <> PPublic ->
  perform E (S (S (S f))) o s = (r, s', tr) -> client_calls tr <> [] ->
  (forall v m fr, e_impl E = ImplPy -> o = OGetattr v m fr -> exists x, r = Ok x) ->
  exists iv, tl_inter (st_tls s (e_tid E)) = Some iv /\ asks tr = [EAsk (e_tid E) iv q w (Some true)].
Proof.
  intros HC H0 HL HF Ha HG HW HP HN1 HN2 HO HOO Hsc Ht Hq H Hcc Hok.
  destruct (authorised_lemma E f o p n a w c g wt s r s' tr HF HG HW HP HN1 HN2 HO HOO Hsc H Hcc)
    as [X|[(_ & X & _)|(q' & iv & X & _ & Hiv & Hin)]]; [congruence|congruence|].
  assert (q' = q) by congruence. subst q'. exists iv. split; [exact Hiv|].
  apply in_single; [unfold asks; apply filter_In; split; [exact Hin|reflexivity]|].
  assert (Hp : exists x, st_prox s p = Some x) by (exists (w, c); exact (proj1 HW)).
  assert (Hone : List.length (each ls [(p, n, a)]) = 1).
  { destruct HP as (i & k & -> & Hki & Hkk & _). assert (HX := HL _ _ _ (proj1 HW)).
    unfold each, expand. cbn [flat_map fst]. rewrite app_nil_r, map_length.
    rewrite (links_plain _ _ _ _ HX Hki Hkk). reflexivity. }
  rewrite <- Hone. apply explained_count with (s := s).
  destruct (queries_guard _ _ _ _ _ HG HOO) as [(v & m & fr & HE & ->)|HQ].
  - destruct (Hok v m fr HE eq_refl) as (x & ->). rewrite HE in HG. cbn [guard_of] in HG.
    destruct v; try discriminate HG. destruct (_ || _); [discriminate HG|]. injection HG as -> -> <-.
    eapply reading; eassumption.
  - rewrite <- HQ. eapply questions; try eassumption. intros p' n' a' Hin'. rewrite HQ in Hin'.
    destruct Hin' as [Hin'|[]]. injection Hin' as <- <- <-. exact Hp.
Qed.
