(** * CExtPaths: the calls that each slot of the C proxy can make, one after another. *)

From Coq Require Import List Bool Arith ZArith Lia.
From Verif Require Import CExt CExtSpec CExtFacts CExtDecideSpec CExtDecide.
Import ListNotations.
Open Scope Z_scope.

Section Paths.
  Variable oracle : nat -> answer.
  Variable args : list obj.
  Variables is_proxy has_sub has_ass has_num has_next : obj -> bool.

  (** A check, granted or not *)
  Inductive asks (chk ob meth name : obj) : bool -> entry -> Prop :=
  | as_slot n : has_ass chk = true -> meth <> str_check_setattr ->
      asks chk ob meth name true (mkE ACheck [Some chk; Some ob; Some name] (Num n))
  | as_no_slot : has_ass chk = true -> meth <> str_check_setattr ->
      asks chk ob meth name false (mkE ACheck [Some chk; Some ob; Some name] Failed)
  | as_method o : has_ass chk = false \/ meth = str_check_setattr ->
      asks chk ob meth name true (mkE ACheck [Some chk; Some meth; Some ob; Some name] (Gave o))
  | as_no_method : has_ass chk = false \/ meth = str_check_setattr ->
      asks chk ob meth name false (mkE ACheck [Some chk; Some meth; Some ob; Some name] Failed).

  Lemma p_check self ob chk meth name s0 l s (Q : Z -> cst -> Prop) :
    made l s0 s -> f1 s0 self = Some ob -> f2 s0 self = Some chk ->
    (forall e s', asks chk ob meth name false e -> made (e :: l) s0 s' -> Q (-1) s') ->
    (forall e i s', 0 <= i -> asks chk ob meth name true e -> made (e :: l) s0 s' -> Q i s') ->
    wp (check oracle args has_ass self meth name) s Q.
  Proof.
    intros Hs E1 E2 HN HY. unfold check. apply wp_bind, (q_get2 _ _ s0 l); [exact Hs|]. intros s1 H1.
    rewrite E2. apply wp_bind, (q_deref _ _ s0 l); [exact H1|]. intros c s2 Hc H2.
    specialize (Hc chk eq_refl). subst c.
    apply wp_bind, (q_get1 _ _ s0 l); [exact H2|]. intros s3 H3. rewrite E1.
    destruct (has_ass chk && negb (Nat.eqb meth str_check_setattr)) eqn:E.
    - apply andb_true_iff in E. destruct E as [E E']. apply negb_true_iff, Nat.eqb_neq in E'.
      apply (q_int _ _ _ _ s0 l); [exact H3| |].
      + intros s4 H4. eapply HN; [|exact H4]. apply as_no_slot; assumption.
      + intros n s4 H4. eapply HY; [lia| |exact H4]. apply as_slot; assumption.
    - assert (E' : has_ass chk = false \/ meth = str_check_setattr).
      { apply andb_false_iff in E. destruct E as [E|E]; [left; exact E|right].
        apply negb_false_iff, Nat.eqb_eq in E. exact E. }
      apply wp_bind, (q_new _ _ _ _ s0 l); [exact H3|]. intros r s4 H4. destruct r as [o|].
      + apply wp_bind, (q_silent _ s0 _ _ _ (silent_decref _ _) H4). intros _ s5 H5. apply wp_ret.
        eapply HY; [lia| |exact H5]. apply as_method; exact E'.
      + apply wp_ret. eapply HN; [|exact H4]. apply as_no_method; exact E'.
  Qed.

  (** The wrapping of a result *)
  Inductive wraps_to (chk o : obj) : ptr -> entry -> Prop :=
  | wr_made as_ x : as_ = [Some chk; Some o] \/ as_ = [Some chk; Some str_proxy; Some o] ->
      wraps_to chk o (Some x) (mkE AWrap as_ (Gave x))
  | wr_failed as_ : as_ = [Some chk; Some o] \/ as_ = [Some chk; Some str_proxy; Some o] ->
      wraps_to chk o None (mkE AWrap as_ Failed).

  Lemma p_result self chk o s0 l s (Q : ptr -> cst -> Prop) :
    made l s0 s -> f2 s0 self = Some chk ->
    (forall w r s', wraps_to chk o r w -> made (w :: l) s0 s' -> Q r s') ->
    wp (PROXY_RESULT oracle args has_sub self (Some o)) s Q.
  Proof.
    intros Hs E2 HQ. unfold PROXY_RESULT.
    apply wp_bind, (q_get2 _ _ s0 l); [exact Hs|]. intros s1 H1. rewrite E2.
    apply wp_bind, (q_deref _ _ s0 l); [exact H1|]. intros c s2 _ H2.
    apply wp_bind. destruct (has_sub c); apply (q_new _ _ _ _ s0 l); try exact H2; intros r s3 H3;
      apply wp_bind, (q_silent _ s0 _ _ _ (silent_decref _ _) H3); intros _ s4 H4; apply wp_ret;
      (eapply HQ; [|exact H4]); destruct r as [x|]; simpl.
    - apply wr_made. left. reflexivity.
    - apply wr_failed. left. reflexivity.
    - apply wr_made. right. reflexivity.
    - apply wr_failed. right. reflexivity.
  Qed.
  Lemma p_result_null self s0 l s (Q : ptr -> cst -> Prop) :
    made l s0 s -> (forall s', made l s0 s' -> Q None s') ->
    wp (PROXY_RESULT oracle args has_sub self None) s Q.
  Proof. intros Hs HQ. apply wp_ret, HQ, Hs. Qed.

  (** A guarded operation, the latest call first *)
  Inductive guarded (chk ob meth name : obj) (os : list ptr) : ptr -> list entry -> Prop :=
  | gu_refused e : asks chk ob meth name false e -> guarded chk ob meth name os None [e]
  | gu_failed e : asks chk ob meth name true e ->
      guarded chk ob meth name os None [mkE AOp os Failed; e]
  | gu_stopped e : asks chk ob meth name true e ->
      guarded chk ob meth name os None [mkE AOp os Nothing; e]
  | gu_done e o r w : asks chk ob meth name true e -> wraps_to chk o r w ->
      guarded chk ob meth name os r [w; mkE AOp os (Gave o); e].
  Inductive guarded_int (chk ob meth name : obj) (os : list ptr) : Z -> list entry -> Prop :=
  | gi_refused e : asks chk ob meth name false e -> guarded_int chk ob meth name os (-1) [e]
  | gi_failed e : asks chk ob meth name true e ->
      guarded_int chk ob meth name os (-1) [mkE AOp os Failed; e]
  | gi_done e n : asks chk ob meth name true e ->
      guarded_int chk ob meth name os (Z.of_nat n) [mkE AOp os (Num n); e].

  Definition path {A} (P : A -> list entry -> Prop) (s0 : cst) (a : A) (s' : cst) : Prop :=
    exists l, made l s0 s' /\ P a l.

  (** An operation: one call *)
  Definition one_call (op : C ptr) (os : list ptr) : Prop :=
    forall s0 l s (Q : ptr -> cst -> Prop), made l s0 s ->
      (forall s', made (mkE AOp os Failed :: l) s0 s' -> Q None s') ->
      (forall s', made (mkE AOp os Nothing :: l) s0 s' -> Q None s') ->
      (forall o s', made (mkE AOp os (Gave o) :: l) s0 s' -> Q (Some o) s') -> wp op s Q.
  Lemma one_new os : one_call (call_new oracle args AOp os) os.
  Proof.
    intros s0 l s Q Hs HF _ HG. apply (q_new _ _ _ _ s0 l _ _ Hs). intros r s' H.
    destruct r as [o|]; [exact (HG o s' H)|exact (HF s' H)].
  Qed.
  Lemma one_number ob : has_num ob = true -> one_call (call_number oracle args has_num (Some ob)) [Some ob].
  Proof.
    intros Hn s0 l s Q Hs HF HN HG. unfold call_number. apply wp_bind, (q_deref _ _ s0 l _ _ Hs).
    intros o s1 Ho H1. rewrite (Ho ob eq_refl), Hn. exact (one_new _ _ _ _ _ H1 HF HN HG).
  Qed.
  Lemma one_next ob : has_next ob = true -> one_call (PyIter_Next oracle args has_next (Some ob)) [Some ob].
  Proof.
    intros Hn s0 l s Q Hs HF HN HG. unfold PyIter_Next. apply wp_bind.
    apply (q_silent _ s0 l _ _ (silent_use _ _) Hs). intros _ s1 H1. rewrite Hn.
    apply wp_bind, (q_silent _ s0 l _ _ (silent_call _ _ _) H1). intros a s2 H2.
    destruct (an_ptr a) as [x|].
    - apply wp_bind, (q_note _ _ _ s0 l _ _ H2). intros s3 [H31 H32 H33]. apply HG.
      split; [exact H31|exact H32|exact H33].
    - destruct (an_neg a); apply wp_bind, (q_note _ _ _ s0 l _ _ H2); intros s3 H3.
      + apply wp_bind, (q_silent _ s0 _ _ _ silent_raise H3). intros _ s4 H4. apply wp_ret, HF, H4.
      + apply wp_ret, HN, H3.
  Qed.

  Lemma p_slot self ob chk meth name os (op : ptr -> C ptr) s0 :
    f1 s0 self = Some ob -> f2 s0 self = Some chk -> one_call (op (Some ob)) os ->
    wp (i <- check oracle args has_ass self meth name ;;
        if Z.leb 0 i then
          ob <- get1 args self ;;
          result <- op ob ;;
          PROXY_RESULT oracle args has_sub self result
        else ret None) s0 (path (guarded chk ob meth name os) s0).
  Proof.
    intros E1 E2 Hop. pose proof (made_refl s0) as H0.
    apply wp_bind, (p_check _ ob chk _ _ s0 [] _ _ H0 E1 E2).
    - intros e s1 He H1. simpl. apply wp_ret. exists [e]. split; [exact H1|]. apply gu_refused, He.
    - intros e i s1 Hi He H1. rewrite (proj2 (Z.leb_le 0 i) Hi).
      apply wp_bind, (q_get1 _ _ s0 _ _ _ H1). clear s1 H1. intros s1 H1. rewrite E1.
      apply wp_bind, (Hop s0 _ _ _ H1).
      + intros s2 H2. apply (p_result_null self s0 _ _ _ H2). intros s3 H3. eexists. split; [exact H3|].
        apply gu_failed, He.
      + intros s2 H2. apply (p_result_null self s0 _ _ _ H2). intros s3 H3. eexists. split; [exact H3|].
        apply gu_stopped, He.
      + intros o s2 H2. apply (p_result self chk o s0 _ _ _ H2 E2). intros w r s3 Hw H3. eexists.
        split; [exact H3|]. apply gu_done; assumption.
  Qed.

  Lemma p_int_slot self ob chk meth name os (mk : ptr -> list ptr) s0 :
    f1 s0 self = Some ob -> f2 s0 self = Some chk -> mk (Some ob) = os ->
    wp (i <- check oracle args has_ass self meth name ;;
        if Z.leb 0 i then ob <- get1 args self ;; call_int oracle args AOp (mk ob)
        else ret (-1)) s0 (path (guarded_int chk ob meth name os) s0).
  Proof.
    intros E1 E2 <-. pose proof (made_refl s0) as H0.
    apply wp_bind, (p_check _ ob chk _ _ s0 [] _ _ H0 E1 E2).
    - intros e s1 He H1. simpl. apply wp_ret. exists [e]. split; [exact H1|]. apply gi_refused, He.
    - intros e i s1 Hi He H1. rewrite (proj2 (Z.leb_le 0 i) Hi).
      apply wp_bind, (q_get1 _ _ s0 _ _ _ H1). clear s1 H1. intros s1 H1. rewrite E1.
      apply (q_int _ _ _ _ s0 _ _ _ H1).
      + intros s2 H2. eexists. split; [exact H2|]. apply gi_failed, He.
      + intros n s2 H2. eexists. split; [exact H2|]. apply gi_done, He.
  Qed.

  (** In-place operators *)
  Inductive guarded_in (self chk ob meth name : obj) (os : list ptr) : ptr -> list entry -> Prop :=
  | gn_refused e : asks chk ob meth name false e -> guarded_in self chk ob meth name os None [e]
  | gn_failed e : asks chk ob meth name true e ->
      guarded_in self chk ob meth name os None [mkE AOp os Failed; e]
  | gn_same e : asks chk ob meth name true e ->
      guarded_in self chk ob meth name os (Some self) [mkE AOp os (Gave ob); e]
  | gn_done e o r w : asks chk ob meth name true e -> o <> ob -> wraps_to chk o r w ->
      guarded_in self chk ob meth name os r [w; mkE AOp os (Gave o); e].
  Lemma p_inplace self ob chk other name s0 :
    f1 s0 self = Some ob -> f2 s0 self = Some chk ->
    wp (check2i oracle args has_sub has_ass self other name) s0
       (path (guarded_in self chk ob str_check name [Some ob; Some other]) s0).
  Proof.
    intros E1 E2. pose proof (made_refl s0) as H0. unfold check2i.
    apply wp_bind, (p_check _ ob chk _ _ s0 [] _ _ H0 E1 E2).
    - intros e s1 He H1. simpl. apply wp_ret. exists [e]. split; [exact H1|]. apply gn_refused, He.
    - intros e i s1 Hi He H1. rewrite (proj2 (Z.leb_le 0 i) Hi).
      apply wp_bind, (q_get1 _ _ s0 _ _ _ H1). clear s1 H1. intros s1 H1. rewrite E1.
      apply wp_bind, (q_new _ _ _ _ s0 _ _ _ H1). intros r s2 H2.
      apply wp_bind, (q_get1 _ _ s0 _ _ _ H2). clear s2 H2. intros s2 H2. rewrite E1.
      destruct r as [o|]; cbn [ptr_eqb].
      + destruct (Nat.eqb_spec o ob) as [->|Ho].
        * apply wp_bind, (q_silent _ s0 _ _ _ (silent_decref _ _) H2). intros _ s3 H3.
          apply wp_bind, (q_silent _ s0 _ _ _ (silent_incref _ _) H3). intros _ s4 H4. apply wp_ret.
          eexists. split; [exact H4|]. apply gn_same, He.
        * apply (p_result self chk o s0 _ _ _ H2 E2). intros w r s3 Hw H3. eexists.
          split; [exact H3|]. apply gn_done; assumption.
      + eexists. split; [exact H2|]. apply gn_failed, He.
  Qed.

  (** Comparison *)
  Inductive compared (chk : obj) (os : list ptr) : ptr -> list entry -> Prop :=
  | cp_failed : compared chk os None [mkE AOp os Failed]
  | cp_bool o : o = Py_True \/ o = Py_False -> compared chk os (Some o) [mkE AOp os (Gave o)]
  | cp_done o r w : o <> Py_True -> o <> Py_False -> wraps_to chk o r w ->
      compared chk os r [w; mkE AOp os (Gave o)].
  Lemma p_compare self ob chk other s0 :
    f1 s0 self = Some ob -> f2 s0 self = Some chk ->
    wp (proxy_richcompare oracle args has_sub self other) s0
       (path (compared chk [Some ob; Some other]) s0).
  Proof.
    intros E1 E2. pose proof (made_refl s0) as H0. unfold proxy_richcompare.
    apply wp_bind, (q_get1 _ _ s0 _ _ _ H0). intros s1 H1. rewrite E1.
    apply wp_bind, (q_new _ _ _ _ s0 _ _ _ H1). intros r s2 H2. destruct r as [o|].
    - cbn [ptr_eqb]. destruct (Nat.eqb_spec o Py_True) as [->|N1]; [|destruct (Nat.eqb_spec o Py_False) as [->|N2]];
        cbn [orb].
      + apply wp_ret. eexists. split; [exact H2|]. apply cp_bool. left. reflexivity.
      + apply wp_ret. eexists. split; [exact H2|]. apply cp_bool. right. reflexivity.
      + apply (p_result self chk o s0 _ _ _ H2 E2). intros w r s3 Hw H3. eexists.
        split; [exact H3|]. apply cp_done; assumption.
    - simpl. eexists. split; [exact H2|]. apply cp_failed.
  Qed.

  (** The text of an object *)
  Inductive texted (ob : obj) : ptr -> list entry -> Prop :=
  | tx_class : texted ob None [mkE ADescribe [Some ob; Some str_class] Failed]
  | tx_name kl : texted ob None
      [mkE AAttr [Some kl; Some str_name] Failed; mkE ADescribe [Some ob; Some str_class] (Gave kl)]
  | tx_lost r l n : In (mkE AEncode [Some n] Failed) l -> texted ob r l
  | tx_plain kl n b r :
      texted ob r
      [mkE AFormat [Some ob; Some b] (out_ptr r);
       mkE AAttr [Some kl; Some str_module] Failed;
       mkE AEncode [Some n] (Gave b);
       mkE AAttr [Some kl; Some str_name] (Gave n); mkE ADescribe [Some ob; Some str_class] (Gave kl)]
  | tx_full kl n b m b' r :
      texted ob r
      [mkE AFormat [Some ob; Some b'; Some b] (out_ptr r);
       mkE AEncode [Some m] (Gave b');
       mkE AAttr [Some kl; Some str_module] (Gave m);
       mkE AEncode [Some n] (Gave b);
       mkE AAttr [Some kl; Some str_name] (Gave n); mkE ADescribe [Some ob; Some str_class] (Gave kl)].
  Inductive guarded_text (chk ob name : obj) : ptr -> list entry -> Prop :=
  | gt_granted e r : asks chk ob str_check name true e ->
      guarded_text chk ob name r [mkE AOp [Some ob] (out_ptr r); e]
  | gt_refused e r l : asks chk ob str_check name false e -> texted ob r l ->
      guarded_text chk ob name r (l ++ [e]).

  Lemma p_describe ob l0 s0 s :
    made l0 s0 s ->
    wp (default_repr oracle args (Some ob)) s
       (fun r s' => exists l, made (l ++ l0) s0 s' /\ texted ob r l).
  Proof.
    intros H0. unfold default_repr.
    apply wp_bind, (q_new _ _ _ _ s0 _ _ _ H0). intros kl s1 H1. destruct kl as [kl|].
    2:{ apply wp_ret. exists [mkE ADescribe [Some ob; Some str_class] Failed]. split; [exact H1|]. apply tx_class. }
    apply wp_bind, (q_new _ _ _ _ s0 _ _ _ H1). intros n s2 H2. destruct n as [n|].
    2:{ apply wp_bind, (q_silent _ s0 _ _ _ (silent_decref _ _) H2). intros _ s3 H3. apply wp_ret.
        exists [mkE AAttr [Some kl; Some str_name] Failed; mkE ADescribe [Some ob; Some str_class] (Gave kl)].
        split; [exact H3|]. apply tx_name. }
    apply wp_bind. unfold MAKE_STRING at 1. apply (q_new _ _ _ _ s0 _ _ _ H2). intros b s3 H3.
    apply wp_bind, (q_new _ _ _ _ s0 _ _ _ H3). intros m s4 H4.
    assert (Htail : forall l s6 (res : ptr), made (l ++ l0) s0 s6 -> texted ob res l ->
      wp (decref oracle (Some kl) ;;; xdecref oracle (Some n) ;;; xdecref oracle m ;;; ret res) s6
         (fun r s' => exists l, made (l ++ l0) s0 s' /\ texted ob r l)).
    { intros l s6 res H6 N6.
      apply wp_bind, (q_silent _ s0 _ _ _ (silent_decref _ _) H6). intros _ s7 H7.
      apply wp_bind, (q_silent _ s0 _ _ _ (silent_xdecref _ _) H7). intros _ s8 H8.
      apply wp_bind, (q_silent _ s0 _ _ _ (silent_xdecref _ _) H8). intros _ s9 H9.
      apply wp_ret. exists l. auto. }
    apply wp_bind. destruct m as [m|].
    - apply wp_bind. unfold MAKE_STRING at 1. apply (q_new _ _ _ _ s0 _ _ _ H4). intros b' s5 H5.
      apply (q_format _ _ _ _ s0 _ _ _ H5). intros res s6 H6.
      apply (Htail [_; _; _; _; _; _] s6 res H6). destruct b as [b|].
      + destruct b' as [b'|]; [apply tx_full|]. apply (tx_lost ob _ _ m). simpl. auto.
      + apply (tx_lost ob _ _ n). simpl. auto 6.
    - apply wp_bind, (q_silent _ s0 _ _ _ silent_clear H4). intros _ s5 H5.
      apply (q_format _ _ _ _ s0 _ _ _ H5). intros res s6 H6.
      apply (Htail [_; _; _; _; _] s6 res H6). destruct b as [b|]; [apply tx_plain|].
      apply (tx_lost ob _ _ n). simpl. auto 6.
  Qed.

  Lemma p_text self ob chk name s0 :
    f1 s0 self = Some ob -> f2 s0 self = Some chk ->
    wp (proxy_text oracle args has_ass name self) s0 (path (guarded_text chk ob name) s0).
  Proof.
    intros E1 E2. pose proof (made_refl s0) as H0. unfold proxy_text.
    apply wp_bind, (p_check _ ob chk _ _ s0 [] _ _ H0 E1 E2).
    - intros e s1 He H1. simpl. apply wp_bind, (q_silent _ s0 _ _ _ silent_clear H1). clear s1 H1. intros _ s1 H1.
      apply wp_bind, (q_get1 _ _ s0 _ _ _ H1). clear s1 H1. intros s1 H1. rewrite E1.
      eapply wp_mono; [apply (p_describe ob [e] s0 _ H1)|]. cbn beta. intros r s2 (l & H2 & Hl).
      exists (l ++ [e]). split; [exact H2|]. apply gt_refused; assumption.
    - intros e i s1 Hi He H1. rewrite (proj2 (Z.leb_le 0 i) Hi).
      apply wp_bind, (q_get1 _ _ s0 _ _ _ H1). clear s1 H1. intros s1 H1. rewrite E1.
      apply (q_new _ _ _ _ s0 _ _ _ H1). intros r s2 H2. eexists. split; [exact H2|]. apply gt_granted, He.
  Qed.

  (** hash() and bool(): not guarded *)
  Inductive plain_int (os : list ptr) : Z -> list entry -> Prop :=
  | pi_failed : plain_int os (-1) [mkE AOp os Failed]
  | pi_done n : plain_int os (Z.of_nat n) [mkE AOp os (Num n)].
  Lemma p_plain_int self ob s0 :
    f1 s0 self = Some ob ->
    wp (ob <- get1 args self ;; call_int oracle args AOp [ob]) s0 (path (plain_int [Some ob]) s0).
  Proof.
    intros E1. pose proof (made_refl s0) as H0.
    apply wp_bind, (q_get1 _ _ s0 _ _ _ H0). intros s1 H1. rewrite E1.
    apply (q_int _ _ _ _ s0 _ _ _ H1).
    - intros s2 H2. eexists. split; [exact H2|]. apply pi_failed.
    - intros n s2 H2. eexists. split; [exact H2|]. apply pi_done.
  Qed.

  (** ** _zope_security_checker.c *)
  Variables is_checker is_str exact_proxy char0 char1 is_iter : obj -> bool.

  Notation interaction_call := (mkE AInteraction [Some thread_local; Some str_interaction]).
  Notation policy_call i p ob := (mkE APolicy [Some i; Some str_checkPermission; Some p; Some ob]).

  (** checkPermission *)
  Inductive perm_path (p object name : obj) : Z -> list entry -> Prop :=
  | pp_no_interaction : perm_path p object name (-1) [interaction_call Failed]
  | pp_no_policy i : perm_path p object name (-1) [policy_call i p object Failed; interaction_call (Gave i)]
  | pp_no_truth i a : perm_path p object name (-1)
      [mkE ATruth [Some a] Failed; policy_call i p object (Gave a); interaction_call (Gave i)]
  | pp_granted i a n : n <> O -> perm_path p object name 0
      [mkE ATruth [Some a] (Num n); policy_call i p object (Gave a); interaction_call (Gave i)]
  | pp_no_args i a : perm_path p object name (-1)
      [mkE AArgs [Some object; Some name; Some p] Failed;
       mkE ATruth [Some a] (Num 0); policy_call i p object (Gave a); interaction_call (Gave i)]
  | pp_refused i a v : perm_path p object name (-1)
      [mkE ARaise [Some Unauthorized; Some v] Failed;
       mkE AArgs [Some object; Some name; Some p] (Gave v);
       mkE ATruth [Some a] (Num 0); policy_call i p object (Gave a); interaction_call (Gave i)].
  Lemma p_permission p object name s0 l s (Q : Z -> cst -> Prop) :
    made l s0 s ->
    (forall i l' s', perm_path p object name i l' -> made (l' ++ l) s0 s' -> Q i s') ->
    wp (checkPermission oracle args (Some p) object name) s Q.
  Proof.
    intros H0 HQ. unfold checkPermission.
    apply wp_bind, (q_new _ _ _ _ s0 _ _ _ H0). intros i s1 H1. destruct i as [i|].
    2:{ apply wp_ret. eapply HQ; [apply pp_no_interaction|exact H1]. }
    apply wp_bind, (q_new _ _ _ _ s0 _ _ _ H1). intros a s2 H2.
    apply wp_bind, (q_silent _ s0 _ _ _ (silent_decref _ _) H2). clear s2 H2. intros _ s2 H2. destruct a as [a|].
    2:{ apply wp_ret. eapply HQ; [apply (pp_no_policy _ _ _ i)|exact H2]. }
    apply wp_bind, (q_int _ _ _ _ s0 _ _ _ H2).
    { intros s3 H3. apply wp_bind, (q_silent _ s0 _ _ _ (silent_decref _ _) H3). intros _ s4 H4.
      apply wp_ret. eapply HQ; [apply (pp_no_truth _ _ _ i a)|exact H4]. }
    intros n s3 H3. apply wp_bind, (q_silent _ s0 _ _ _ (silent_decref _ _) H3). intros _ s4 H4.
    replace (Z.ltb (Z.of_nat n) 0) with false by (symmetry; apply Z.ltb_ge; lia).
    destruct n as [|n].
    2:{ replace (Z.eqb (Z.of_nat (S n)) 0) with false by (symmetry; apply Z.eqb_neq; lia).
        apply wp_ret. eapply HQ; [apply (pp_granted _ _ _ i a (S n)); discriminate|exact H4]. }
    replace (Z.eqb (Z.of_nat 0) 0) with true by reflexivity.
    apply wp_bind, (q_new _ _ _ _ s0 _ _ _ H4). intros v s5 H5. destruct v as [v|].
    2:{ apply wp_ret. eapply HQ; [apply (pp_no_args _ _ _ i a)|exact H5]. }
    apply wp_bind, (q_setobject _ _ _ s0 _ _ _ H5). intros s6 H6.
    apply wp_bind, (q_silent _ s0 _ _ _ (silent_decref _ _) H6). intros _ s7 H7.
    apply wp_ret. eapply HQ; [apply (pp_refused _ _ _ i a v)|exact H7].
  Qed.

  Inductive forb_path (object name : obj) : list entry -> Prop :=
  | fp_no_args : forb_path object name [mkE AArgs [Some name; Some object] Failed]
  | fp_raised v : forb_path object name
      [mkE ARaise [Some ForbiddenAttribute; Some v] Failed; mkE AArgs [Some name; Some object] (Gave v)].
  Lemma p_forbidden object name s0 l s (Q : Z -> cst -> Prop) :
    made l s0 s -> (forall l' s', forb_path object name l' -> made (l' ++ l) s0 s' -> Q (-1) s') ->
    wp (forbidden oracle args object name) s Q.
  Proof.
    intros H0 HQ. unfold forbidden.
    apply wp_bind, (q_new _ _ _ _ s0 _ _ _ H0). intros v s5 H5. destruct v as [v|].
    2:{ apply wp_ret. eapply HQ; [apply fp_no_args|exact H5]. }
    apply wp_bind, (q_setobject _ _ _ s0 _ _ _ H5). intros s6 H6.
    apply wp_bind, (q_silent _ s0 _ _ _ (silent_decref _ _) H6). intros _ s7 H7.
    apply wp_ret. eapply HQ; [apply (fp_raised _ _ v)|exact H7].
  Qed.

  (** The names available by default *)
  Notation enc name r := (mkE AEncode [Some name] (out_ptr r)).
  Notation member name := (mkE AMember [Some available_by_default; Some name]).
  Inductive default_path (object name : obj) : Z -> list entry -> Prop :=
  | dp_no0 r0 F : char0 name && char1 name = false -> forb_path object name F ->
      default_path object name (-1) (F ++ [enc name r0])
  | dp_no1 r0 r1 F : char0 name && char1 name = false -> forb_path object name F ->
      default_path object name (-1) (F ++ [enc name r1; enc name r0])
  | dp_no_member r0 r1 : char0 name && char1 name = true ->
      default_path object name (-1) [member name Failed; enc name r1; enc name r0]
  | dp_member r0 r1 n : char0 name && char1 name = true -> n <> O ->
      default_path object name 0 [member name (Num n); enc name r1; enc name r0]
  | dp_absent r0 r1 r2 : char0 name && char1 name = true -> is_iter name = true ->
      default_path object name 0
        [mkE AHas [Some object; Some name] (Num 0); enc name r2; member name (Num 0); enc name r1; enc name r0]
  | dp_present r0 r1 r2 F : char0 name && char1 name = true -> is_iter name = true -> forb_path object name F ->
      default_path object name (-1)
        (F ++ [mkE AHas [Some object; Some name] (Num 1); enc name r2; member name (Num 0);
               enc name r1; enc name r0])
  | dp_other r0 r1 r2 F : char0 name && char1 name = true -> is_iter name = false -> forb_path object name F ->
      default_path object name (-1) (F ++ [enc name r2; member name (Num 0); enc name r1; enc name r0]).

  Inductive int_path (t : ptr) (object name : obj) : Z -> list entry -> Prop :=
  | ip_public d : t = Some d ->
      int_path t object name 0 [mkE AItem [Some d; Some name] (Gave CheckerPublic)]
  | ip_permission d p i l : t = Some d -> p <> CheckerPublic -> perm_path p object name i l ->
      int_path t object name (if Z.ltb i 0 then -1 else 0) (l ++ [mkE AItem [Some d; Some name] (Gave p)])
  | ip_default i l : t = None -> default_path object name i l -> int_path t object name i (l ++ [])
  | ip_default' d i l : t = Some d -> default_path object name i l ->
      int_path t object name i (l ++ [mkE AItem [Some d; Some name] Nothing]).

  Lemma p_check_int self object name s0 :
    is_str name = true ->
    wp (Checker_check_int oracle args is_str char0 char1 is_iter self object name) s0
       (path (int_path (f1 s0 self) object name) s0).
  Proof.
    intros Hstr. pose proof (made_refl s0) as H0. unfold Checker_check_int.
    apply wp_bind, (q_get1 _ _ s0 _ _ _ H0). clear H0. intros s1 H0.
    (* when there is no permission *)
    assert (Hdef : forall l (P : Z -> list entry -> Prop) s2, made l s0 s2 ->
              (forall i l', default_path object name i l' -> P i (l' ++ l)) ->
              wp (operator <-
                    (if is_str name then
                       s0 <- MAKE_STRING oracle args (Some name) ;; chars args s0 ;;;
                       if char0 name then
                         s1 <- MAKE_STRING oracle args (Some name) ;; chars args s1 ;;; ret (char1 name)
                       else ret false
                     else ret false) ;;
                  if operator : bool then
                    ic <- call_int oracle args AMember [Some available_by_default; Some name] ;;
                    if Z.ltb ic 0 then ret (-1)
                    else if negb (Z.eqb ic 0) then ret 0
                    else
                      s2 <- MAKE_STRING oracle args (Some name) ;; chars args s2 ;;;
                      absent <- (if is_iter name then
                                   h <- call_flag oracle args AHas [Some object; Some name] ;; ret (negb h)
                                 else ret false) ;;
                      if absent : bool then ret 0 else forbidden oracle args object name
                  else forbidden oracle args object name) s2 (path P s0)).
    { clear s1 H0. intros l P s2 H2 HP. rewrite Hstr.
      apply wp_bind. apply wp_bind. unfold MAKE_STRING at 1. apply (q_new _ _ _ _ s0 _ _ _ H2).
      clear s2 H2. intros r0 s2 H2.
      apply wp_bind, (q_silent _ s0 _ _ _ (silent_use _ _) H2). clear s2 H2. intros _ s2 H2.
      destruct (char0 name) eqn:E0.
      2:{ apply wp_ret. apply (p_forbidden _ _ s0 _ _ _ H2). intros F s3 HF H3.
          exists (F ++ [enc name r0] ++ l). split; [exact H3|].
          rewrite app_assoc. apply HP. apply dp_no0; [rewrite E0; reflexivity|exact HF]. }
      apply wp_bind. unfold MAKE_STRING at 1. apply (q_new _ _ _ _ s0 _ _ _ H2).
      clear s2 H2. intros r1 s2 H2.
      apply wp_bind, (q_silent _ s0 _ _ _ (silent_use _ _) H2). clear s2 H2. intros _ s2 H2.
      apply wp_ret. destruct (char1 name) eqn:E1.
      2:{ apply (p_forbidden _ _ s0 _ _ _ H2). intros F s3 HF H3.
          exists (F ++ [enc name r1; enc name r0] ++ l). split; [exact H3|].
          rewrite app_assoc. apply HP. apply dp_no1; [rewrite E0, E1; reflexivity|exact HF]. }
      assert (E01 : char0 name && char1 name = true) by (rewrite E0, E1; reflexivity).
      apply wp_bind, (q_int _ _ _ _ s0 _ _ _ H2).
      { intros s3 H3. apply wp_ret. eexists. split; [exact H3|].
        apply (HP _ [member name Failed; enc name r1; enc name r0]). apply dp_no_member. exact E01. }
      clear s2 H2. intros n s2 H2.
      replace (Z.ltb (Z.of_nat n) 0) with false by (symmetry; apply Z.ltb_ge; lia).
      destruct n as [|n].
      2:{ replace (Z.eqb (Z.of_nat (S n)) 0) with false by (symmetry; apply Z.eqb_neq; lia).
          apply wp_ret. eexists. split; [exact H2|].
          apply (HP _ [member name (Num (S n)); enc name r1; enc name r0]). apply dp_member; [exact E01|discriminate]. }
      replace (negb (Z.eqb (Z.of_nat 0) 0)) with false by reflexivity.
      apply wp_bind. unfold MAKE_STRING at 1. apply (q_new _ _ _ _ s0 _ _ _ H2).
      clear s2 H2. intros r2 s2 H2.
      apply wp_bind, (q_silent _ s0 _ _ _ (silent_use _ _) H2). clear s2 H2. intros _ s2 H2.
      apply wp_bind. destruct (is_iter name) eqn:Ei.
      - apply wp_bind, (q_flag _ _ _ _ s0 _ _ _ H2). intros b s3 H3. apply wp_ret. destruct b; cbn [negb].
        + apply (p_forbidden _ _ s0 _ _ _ H3). intros F s4 HF H4.
          exists (F ++ [mkE AHas [Some object; Some name] (Num 1); enc name r2; member name (Num 0);
                        enc name r1; enc name r0] ++ l). split; [exact H4|].
          rewrite app_assoc. apply HP. apply dp_present; assumption.
        + apply wp_ret. eexists. split; [exact H3|].
          apply (HP _ [mkE AHas [Some object; Some name] (Num 0); enc name r2; member name (Num 0);
                       enc name r1; enc name r0]). apply dp_absent; assumption.
      - apply wp_ret. apply (p_forbidden _ _ s0 _ _ _ H2). intros F s4 HF H4.
        exists (F ++ [enc name r2; member name (Num 0); enc name r1; enc name r0] ++ l). split; [exact H4|].
        rewrite app_assoc. apply HP. apply dp_other; assumption. }
    apply wp_bind. destruct (f1 s0 self) as [d|] eqn:Ed.
    - apply (q_item _ _ _ _ s0 _ _ _ H0). clear s1 H0. intros [p|] s1 H1.
      + destruct (Nat.eqb_spec p CheckerPublic) as [->|Hp].
        * apply wp_ret. eexists. split; [exact H1|]. apply (ip_public _ _ _ d). reflexivity.
        * apply wp_bind, (p_permission p object name s0 _ _ _ H1). intros i l' s2 Hl H2.
          assert (Hq : int_path (Some d) object name (if Z.ltb i 0 then -1 else 0)
                         (l' ++ [mkE AItem [Some d; Some name] (Gave p)])).
          { apply (ip_permission _ _ _ d); try assumption. reflexivity. }
          destruct (Z.ltb i 0); apply wp_ret; eexists; (split; [exact H2|exact Hq]).
      + apply (Hdef _ _ _ H1). intros i l' Hl. apply (ip_default' _ _ _ d); [reflexivity|exact Hl].
    - apply wp_ret. apply (Hdef _ _ _ H0). intros i l' Hl. apply ip_default; [reflexivity|exact Hl].
  Qed.

  Inductive set_path (t : ptr) (object name : obj) : ptr -> list entry -> Prop :=
  | sp_public d : t = Some d ->
      set_path t object name (Some Py_None) [mkE AItem [Some d; Some name] (Gave CheckerPublic)]
  | sp_permission d p i l : t = Some d -> p <> CheckerPublic -> perm_path p object name i l ->
      set_path t object name (if Z.ltb i 0 then None else Some Py_None)
        (l ++ [mkE AItem [Some d; Some name] (Gave p)])
  | sp_forbidden l : t = None -> forb_path object name l -> set_path t object name None (l ++ [])
  | sp_forbidden' d l : t = Some d -> forb_path object name l ->
      set_path t object name None (l ++ [mkE AItem [Some d; Some name] Nothing]).
  Lemma p_none s0 l s (Q : ptr -> cst -> Prop) :
    made l s0 s -> (forall s', made l s0 s' -> Q (Some Py_None) s') -> wp (none args) s Q.
  Proof.
    intros H0 HQ. unfold none. apply wp_bind, (q_silent _ s0 _ _ _ (silent_incref _ _) H0). intros _ s1 H1.
    apply wp_ret, HQ, H1.
  Qed.
  Lemma p_check_setattr self object name s0 :
    wp (Checker_check_setattr oracle args self (Some (object, name))) s0
       (path (set_path (f2 s0 self) object name) s0).
  Proof.
    pose proof (made_refl s0) as H0. unfold Checker_check_setattr.
    apply wp_bind, (q_get2 _ _ s0 _ _ _ H0). clear H0. intros s1 H0.
    apply wp_bind. destruct (f2 s0 self) as [d|] eqn:Ed.
    - apply (q_item _ _ _ _ s0 _ _ _ H0). clear s1 H0. intros [p|] s1 H1.
      + destruct (Nat.eqb_spec p CheckerPublic) as [->|Hp].
        * apply (p_none s0 _ _ _ H1). intros s2 H2. eexists. split; [exact H2|].
          apply (sp_public _ _ _ d). reflexivity.
        * apply wp_bind, (p_permission p object name s0 _ _ _ H1). intros i l' s2 Hl H2.
          assert (Hq : set_path (Some d) object name (if Z.ltb i 0 then None else Some Py_None)
                         (l' ++ [mkE AItem [Some d; Some name] (Gave p)])).
          { apply (sp_permission _ _ _ d); try assumption. reflexivity. }
          destruct (Z.ltb i 0); [apply wp_ret|apply (p_none s0 _ _ _ H2); clear s2 H2; intros s2 H2];
            eexists; (split; [exact H2|exact Hq]).
      + apply wp_bind, (p_forbidden _ _ s0 _ _ _ H1). intros F s2 HF H2. apply wp_ret.
        eexists. split; [exact H2|]. apply (sp_forbidden' _ _ _ d); [reflexivity|exact HF].
    - apply wp_ret. apply wp_bind, (p_forbidden _ _ s0 _ _ _ H0). intros F s2 HF H2. apply wp_ret.
      eexists. split; [exact H2|]. apply sp_forbidden; [reflexivity|exact HF].
  Qed.

  (** The choice of a checker *)
  Notation factory c object := (mkE AFactory [Some c; Some object]).
  Inductive loop_path (object : obj) : obj -> ptr -> list entry -> Prop :=
  | lp_checker c : is_checker c = true -> loop_path object c (Some c) []
  | lp_failed c : is_checker c = false -> loop_path object c None [factory c object Failed]
  | lp_none c n : is_checker c = false -> n = NoProxy \/ n = Py_None ->
      loop_path object c (Some Py_None) [factory c object (Gave n)]
  | lp_next c n r l : is_checker c = false -> n <> NoProxy -> n <> Py_None -> loop_path object n r l ->
      loop_path object c r (l ++ [factory c object (Gave n)]).
  Lemma p_loop fuel object s0 : forall c l s (Q : ptr -> cst -> Prop),
    made l s0 s ->
    (forall r l' s', loop_path object c r l' -> made (l' ++ l) s0 s' -> Q r s') ->
    wp (select_loop oracle args is_checker fuel (Some c) object) s Q.
  Proof.
    induction fuel as [|fuel IH]; intros c l s Q H0 HQ; cbn [select_loop]; [exact I|].
    apply wp_bind, (q_deref _ _ s0 _ _ _ H0). clear s H0. intros o s Ho H0. rewrite (Ho c eq_refl).
    destruct (is_checker c) eqn:Ec.
    - apply wp_ret. exact (HQ _ [] _ (lp_checker _ _ Ec) H0).
    - apply wp_bind, (q_new _ _ _ _ s0 _ _ _ H0). intros n s1 H1.
      apply wp_bind, (q_silent _ s0 _ _ _ (silent_decref _ _) H1). clear s1 H1. intros _ s1 H1.
      destruct n as [n|]; [|apply wp_ret; exact (HQ _ [_] _ (lp_failed _ _ Ec) H1)].
      destruct (Nat.eqb_spec n NoProxy) as [En|En]; [|destruct (Nat.eqb_spec n Py_None) as [Em|Em]]; cbn [orb].
      + apply wp_bind, (q_silent _ s0 _ _ _ (silent_decref _ _) H1). clear s1 H1. intros _ s1 H1.
        apply (p_none s0 _ _ _ H1). intros s2 H2.
        exact (HQ _ [_] _ (lp_none _ _ _ Ec (or_introl En)) H2).
      + apply wp_bind, (q_silent _ s0 _ _ _ (silent_decref _ _) H1). clear s1 H1. intros _ s1 H1.
        apply (p_none s0 _ _ _ H1). intros s2 H2.
        exact (HQ _ [_] _ (lp_none _ _ _ Ec (or_intror Em)) H2).
      + apply (IH n _ _ _ H1). intros r l' s2 Hl H2.
        apply (HQ r (l' ++ [factory c object (Gave n)])); [apply lp_next; assumption|].
        rewrite <- app_assoc. exact H2.
  Qed.

  Notation lookup object := (mkE AItem [Some checkers; Some object]).
  Notation instance object := (mkE AInstance [Some object; Some PyExc_Exception]).
  (** [checker]: what the registry says, by [e] *)
  Inductive looked (object : obj) : obj -> entry -> Prop :=
  | lo_found c : looked object c (lookup object (Gave c))
  | lo_default : looked object defaultChecker (lookup object Nothing).
  Inductive select_path (object : obj) : ptr -> list entry -> Prop :=
  | se_noproxy e : looked object NoProxy e -> select_path object (Some Py_None) [e]
  | se_failed e : looked object defaultChecker e ->
      select_path object (Some Py_None) [instance object Failed; e]
  | se_exception e n : looked object defaultChecker e -> n <> O ->
      select_path object (Some Py_None) [instance object (Num n); e]
  | se_default e r l : looked object defaultChecker e -> loop_path object defaultChecker r l ->
      select_path object r (l ++ [instance object (Num 0); e])
  | se_other c e r l : looked object c e -> c <> NoProxy -> c <> defaultChecker -> loop_path object c r l ->
      select_path object r (l ++ [e]).
  Lemma p_select fuel object s0 l s (Q : ptr -> cst -> Prop) :
    made l s0 s ->
    (forall r l' s', select_path object r l' -> made (l' ++ l) s0 s' -> Q r s') ->
    wp (selectChecker oracle args is_checker fuel object) s Q.
  Proof.
    intros H0 HQ. unfold selectChecker.
    apply wp_bind, (q_item _ _ _ _ s0 _ _ _ H0). clear s H0. intros c s H0. cbv beta zeta.
    cut (forall c' e, looked object c' e -> made (e :: l) s0 s ->
      wp (if ptr_eqb (Some c') (Some NoProxy) then none args
          else
            excluded <- (if ptr_eqb (Some c') (Some defaultChecker) then
                           i <- call_int oracle args AInstance [Some object; Some PyExc_Exception] ;;
                           ret (negb (Z.eqb i 0))
                         else ret false) ;;
            if excluded : bool then none args
            else incref args (Some c') ;;; select_loop oracle args is_checker fuel (Some c') object) s Q).
    { intros Hc. destruct c as [c|].
      - exact (Hc c _ (lo_found _ c) H0).
      - exact (Hc _ _ (lo_default _) H0). }
    clear c H0. intros c' e Hl H1. cbn [ptr_eqb].
    destruct (Nat.eqb_spec c' NoProxy) as [->|Hn].
    { apply (p_none s0 _ _ _ H1). intros s2 H2. exact (HQ _ [e] _ (se_noproxy _ _ Hl) H2). }
    apply wp_bind. destruct (Nat.eqb_spec c' defaultChecker) as [->|Hd].
    - apply wp_bind, (q_int _ _ _ _ s0 _ _ _ H1).
      + intros s2 H2. apply wp_ret. cbn [Z.eqb negb]. apply (p_none s0 _ _ _ H2). intros s3 H3.
        exact (HQ _ [_; e] _ (se_failed _ _ Hl) H3).
      + intros n s2 H2. apply wp_ret. destruct n as [|n].
        * cbn [Z.of_nat Z.eqb negb]. apply wp_bind, (q_silent _ s0 _ _ _ (silent_incref _ _) H2).
          intros _ s3 H3. apply (p_loop fuel object s0 _ _ _ _ H3). intros r l' s4 Hl' H4.
          apply (HQ r (l' ++ [instance object (Num 0); e])); [apply se_default; assumption|].
          rewrite <- app_assoc. exact H4.
        * replace (negb (Z.eqb (Z.of_nat (S n)) 0)) with true
            by (symmetry; apply negb_true_iff, Z.eqb_neq; lia).
          apply (p_none s0 _ _ _ H2). intros s3 H3.
          exact (HQ _ [_; e] _ (se_exception _ _ (S n) Hl ltac:(discriminate)) H3).
    - apply wp_ret. apply wp_bind, (q_silent _ s0 _ _ _ (silent_incref _ _) H1).
      intros _ s3 H3. apply (p_loop fuel object s0 _ _ _ _ H3). intros r l' s4 Hl' H4.
      apply (HQ r (l' ++ [e])); [apply (se_other _ c'); assumption|].
      rewrite <- app_assoc. exact H4.
  Qed.

  Notation own_call v := (mkE AOwn [Some v; Some str_Security_checker]).
  Notation proxy_call v c := (mkE AProxy [Some Proxy; Some v; Some c]).
  Inductive proxy_path (v : obj) : ptr -> list entry -> Prop :=
  | px_already : exact_proxy v = true -> proxy_path v (Some v) []
  | px_own c r : exact_proxy v = false -> c <> Py_None ->
      proxy_path v r [proxy_call v c (out_ptr r); own_call v (Gave c)]
  | px_own_none l : exact_proxy v = false ->
      l = [mkE AArgs [Some v] Failed] \/
      (exists e, l = [mkE ARaise [Some PyExc_ValueError; Some e] Failed; mkE AArgs [Some v] (Gave e)]) ->
      proxy_path v None (l ++ [own_call v (Gave Py_None)])
  | px_failed l : exact_proxy v = false -> select_path v None l -> proxy_path v None (l ++ [own_call v Failed])
  | px_bare l : exact_proxy v = false -> select_path v (Some Py_None) l ->
      proxy_path v (Some v) (l ++ [own_call v Failed])
  | px_selected c r l : exact_proxy v = false -> c <> Py_None -> select_path v (Some c) l ->
      proxy_path v r (proxy_call v c (out_ptr r) :: l ++ [own_call v Failed]).
  Lemma p_proxy fuel v s0 :
    wp (Checker_proxy oracle args is_checker exact_proxy fuel v) s0 (path (proxy_path v) s0).
  Proof.
    pose proof (made_refl s0) as H0. unfold Checker_proxy. destruct (exact_proxy v) eqn:Ex.
    { apply wp_bind, (q_silent _ s0 _ _ _ (silent_incref _ _) H0). intros _ s1 H1. apply wp_ret.
      eexists. split; [exact H1|]. apply px_already. exact Ex. }
    apply wp_bind, (q_new _ _ _ _ s0 _ _ _ H0). intros c s1 H1. destruct c as [c|].
    - destruct (Nat.eqb_spec c Py_None) as [->|Hc].
      + apply wp_bind, (q_new _ _ _ _ s0 _ _ _ H1). intros e s2 H2. destruct e as [e|].
        * apply wp_bind, (q_setobject _ _ _ s0 _ _ _ H2). intros s3 H3.
          apply wp_bind, (q_silent _ s0 _ _ _ (silent_decref _ _) H3). intros _ s4 H4. apply wp_ret.
          exists ([mkE ARaise [Some PyExc_ValueError; Some e] Failed; mkE AArgs [Some v] (Gave e)]
                  ++ [own_call v (Gave Py_None)]). split; [exact H4|].
          apply px_own_none; [exact Ex|]. right. exists e. reflexivity.
        * apply wp_ret. exists ([mkE AArgs [Some v] Failed] ++ [own_call v (Gave Py_None)]). split; [exact H2|].
          apply px_own_none; [exact Ex|]. left. reflexivity.
      + apply wp_bind, (q_new _ _ _ _ s0 _ _ _ H1). intros r s2 H2.
        apply wp_bind, (q_silent _ s0 _ _ _ (silent_decref _ _) H2). intros _ s3 H3. apply wp_ret.
        eexists. split; [exact H3|]. apply px_own; assumption.
    - apply wp_bind, (q_silent _ s0 _ _ _ silent_clear H1). clear s1 H1. intros _ s1 H1.
      apply wp_bind, (p_select fuel v s0 _ _ _ H1). intros r l' s2 Hl H2. destruct r as [c|].
      + destruct (Nat.eqb_spec c Py_None) as [->|Hc].
        * apply wp_bind, (q_silent _ s0 _ _ _ (silent_decref _ _) H2). clear s2 H2. intros _ s2 H2.
          apply wp_bind, (q_silent _ s0 _ _ _ (silent_incref _ _) H2). clear s2 H2. intros _ s2 H2. apply wp_ret.
          eexists. split; [exact H2|]. apply px_bare; assumption.
        * apply wp_bind, (q_new _ _ _ _ s0 _ _ _ H2). intros r s3 H3.
          apply wp_bind, (q_silent _ s0 _ _ _ (silent_decref _ _) H3). intros _ s4 H4. apply wp_ret.
          eexists. split; [exact H4|]. apply px_selected; assumption.
      + apply wp_ret. eexists. split; [exact H2|]. apply px_failed; assumption.
  Qed.
End Paths.
