(** * InspectFacts: proofs about the helpers for looking at protected objects. *)

From Coq Require Import List String Bool Arith ZArith Lia Sorted Permutation.
From Verif Require Import Base Domain CheckerModel ProxyModel MFacts Spec RegSpec CheckFacts
  CheckProps RegistryFacts ProxySpec ProxyFacts ProxyOps Lookup LookupFacts Inspect InspectSpec.
Import ListNotations.
Open Scope string_scope.
Open Scope m_scope.

Lemma insert_perm x l : Permutation (insert_item x l) (x :: l).
Proof.
  induction l as [|y l IH]; simpl; [auto|].
  destruct (String.leb (fst x) (fst y)); [auto|].
  eapply perm_trans; [apply perm_skip; exact IH|]. apply perm_swap.
Qed.
Lemma sort_perm l : Permutation (sort_items l) l.
Proof.
  induction l as [|x l IH]; simpl; [auto|].
  eapply perm_trans; [apply insert_perm|]. auto.
Qed.

Lemma insert_head x y l :
  HdRel alphabetical y (map fst l) -> alphabetical y (fst x) ->
  HdRel alphabetical y (map fst (insert_item x l)).
Proof.
  destruct l as [|z l]; simpl; intros H Hx; [auto|].
  inversion H; subst. destruct (String.leb (fst x) (fst z)); simpl; auto.
Qed.

Lemma insert_sorted x l :
  Sorted alphabetical (map fst l) -> Sorted alphabetical (map fst (insert_item x l)).
Proof.
  induction l as [|y l IH]; simpl; intros H; [auto|].
  destruct (String.leb (fst x) (fst y)) eqn:Hx; simpl.
  - constructor; [exact H|]. constructor. exact Hx.
  - inversion H; subst. constructor; [auto|].
    apply insert_head; [auto|]. destruct (String.leb_total (fst x) (fst y)); [congruence|auto].
Qed.

Lemma sort_sorted l : Sorted alphabetical (map fst (sort_items l)).
Proof. induction l; simpl; [constructor|]. apply insert_sorted. auto. Qed.

Lemma in_table g n q : NoDup (map fst g) -> (In (n, q) g <-> table_of g n = Some q).
Proof.
  unfold table_of. induction g as [|[m x] g IH]; simpl; intros Hd.
  - split; [contradiction|discriminate].
  - inversion Hd; subst. destruct (String.eqb_spec m n) as [->|Hne].
    + split; [intros [H|H]; [congruence|]|intros H; left; congruence].
      exfalso. apply H1. change n with (fst (n, q)). apply in_map. exact H.
    + rewrite <- IH by auto. split; [intros [H|H]; [congruence|auto]|auto].
Qed.

Lemma items_lemma s p w c g wt :
  st_prox s p = Some (w, c) -> PlainChecker s c g wt -> NoDup (map fst g) ->
  exists l, sortedTestProxyItems (VProxy p) s = (Ok l, s, []) /\ lists_table l (table_of g).
Proof.
  intros Hp (i & k & -> & Hk & _ & Hg & _) Hd. exists (sort_items g). split.
  - unfold sortedTestProxyItems, getTestProxyItems, getChecker, bind, get, ret, raise, pget.
    simpl. rewrite Hp. simpl. rewrite Hk, Hg. reflexivity.
  - split; [apply sort_sorted|]. split.
    + eapply Permutation_NoDup; [apply Permutation_map, Permutation_sym, sort_perm|exact Hd].
    + intros n q. rewrite <- in_table by exact Hd.
      split; apply Permutation_in; [|apply Permutation_sym]; apply sort_perm.
Qed.

Lemma items_non_proxy s v l s' t :
  is_proxy v = false -> sortedTestProxyItems v s = (Ok l, s', t) -> False.
Proof.
  unfold sortedTestProxyItems, getTestProxyItems, getChecker, bind, get, ret, raise.
  destruct v; simpl; discriminate.
Qed.

Lemma info_total_lemma E f obj s : exists x s' t, getInfo E f obj s = (Ok x, s', t).
Proof.
  assert (HC : forall (m : M (list string)) s0, exists l s1 t1,
            catch m (fun _ => ret []) s0 = (Ok l, s1, t1)).
  { intros m s0. unfold catch. destruct (m s0) as [[[l|e] s1] t1]; simpl; eauto. }
  unfold getInfo.
  match goal with |- context [bind (catch ?m ?h) _ s] =>
    destruct (HC m s) as (a & s1 & t1 & Ha); rewrite (bind_ok _ _ _ _ _ _ Ha) end.
  match goal with |- context [bind (catch ?m ?h) _ s1] =>
    destruct (HC m s1) as (b & s2 & t2 & Hb); rewrite (bind_ok _ _ _ _ _ _ Hb) end.
  unfold ret. eauto.
Qed.

Lemma class_text_lemma E f cls modname nm s :
  named_class E cls modname nm -> plain_object cls ->
  exists t, class_text E (S f) cls s = (Ok (modname ++ "." ++ nm), s, t).
Proof.
  intros HN Hc. destruct (HN s) as [Hm Hn].
  assert (R : forall n v, n <> "__Security_checker__" ->
            e_run E (e_tid E) (CallOp (OGetattr cls n None)) s = (Ok v, s) ->
            exists t, perform E (S f) (OGetattr cls n None) s = (Ok v, s, t)).
  { intros n v Hne Hr. rewrite getattr_raw by assumption. unfold raw, bind, foreign.
    rewrite Hr. simpl. eauto. }
  destruct (R "__module__" _ ltac:(discriminate) Hm) as (t1 & R1).
  destruct (R "__name__" _ ltac:(discriminate) Hn) as (t2 & R2).
  unfold class_text.
  assert (Hh : exists t, client_hasattr E (S f) cls "__module__" s = (Ok true, s, t)).
  { unfold client_hasattr. eexists. erewrite catch_ok; [reflexivity|].
    rewrite (bind_ok _ _ _ _ _ _ R1). reflexivity. }
  destruct Hh as (t0 & Hh). rewrite (bind_ok _ _ _ _ _ _ Hh), (bind_ok _ _ _ _ _ _ R1).
  unfold format_value. unfold bind at 1, ret at 1. rewrite (bind_ok _ _ _ _ _ _ R2).
  unfold bind, ret. eauto.
Qed.

Lemma info_exact_lemma E f o cls m1 n1 m2 n2 s :
  (forall s, e_run E (e_tid E) (CallOp (OGetattr (VObj o) "__class__" None)) s =
             (Ok (VClass cls), s)) ->
  named_class E (VClass cls) m1 n1 -> named_class E (VClass (e_type E o)) m2 n2 ->
  exists t, getInfo E (S f) (VObj o) s =
    (Ok (("   - class: " ++ m1 ++ "." ++ n1) ++ newline ++
         ("   - type: " ++ m2 ++ "." ++ n2)), s, t).
Proof.
  intros Hcls H1 H2.
  assert (Ra : exists t, perform E (S f) (OGetattr (VObj o) "__class__" None) s =
                         (Ok (VClass cls), s, t)).
  { rewrite getattr_raw by (simpl; auto; discriminate). unfold raw, bind, foreign.
    rewrite Hcls. simpl. eauto. }
  destruct Ra as (ta & Ra).
  destruct (class_text_lemma E f (VClass cls) m1 n1 s H1 I) as (tb & Rb).
  destruct (class_text_lemma E f (VClass (e_type E o)) m2 n2 s H2 I) as (tc & Rc).
  unfold getInfo.
  assert (A : exists t, catch (cls0 <- perform E (S f) (OGetattr (VObj o) "__class__" None) ;;
              x <- class_text E (S f) cls0 ;; ret ["   - class: " ++ x])
             (fun _ => ret []) s = (Ok ["   - class: " ++ m1 ++ "." ++ n1], s, t)).
  { eexists. erewrite catch_ok; [reflexivity|].
    rewrite (bind_ok _ _ _ _ _ _ Ra), (bind_ok _ _ _ _ _ _ Rb). reflexivity. }
  destruct A as (t1 & A). rewrite (bind_ok _ _ _ _ _ _ A).
  assert (B : exists t, catch (s <- get ;;
              x <- class_text E (S f) (VClass (type_of E s (VObj o))) ;;
              ret ["   - type: " ++ x])
             (fun _ => ret []) s = (Ok ["   - type: " ++ m2 ++ "." ++ n2], s, t)).
  { eexists. erewrite catch_ok; [reflexivity|]. rewrite bind_get.
    change (type_of E s (VObj o)) with (e_type E o).
    rewrite (bind_ok _ _ _ _ _ _ Rc). reflexivity. }
  destruct B as (t2 & B). rewrite (bind_ok _ _ _ _ _ _ B).
  eexists. reflexivity.
Qed.

Lemma items_tell_lemma s p w c g wt :
  st_prox s p = Some (w, c) -> PlainChecker s c g wt -> NoDup (map fst g) ->
  no_none (table_of g) ->
  exists l, sortedTestProxyItems (VProxy p) s = (Ok l, s, []) /\
  forall E f m n i x r s' tr,
    m <> MSetattr -> n <> "__iter__" -> ~ always_available n ->
    tl_inter (st_tls s (e_tid E)) = Some (VIact i) -> st_inters s i = Some x ->
    do_check E (S (S f)) m c w n s = (r, s', tr) ->
    (r = Ok tt <-> exists q, In (n, q) l /\ simple_grants s x q) /\
    (r = Exc (EForbidden n w) <-> forall q, ~ In (n, q) l).
Proof.
  intros Hp Hc Hd Hn. destruct (items_lemma s p w c g wt Hp Hc Hd) as (l & Hl & _ & _ & HI).
  exists l. split; [exact Hl|]. intros E f m n i x r s' tr Hm Hni Ha Htl Hx H.
  destruct (simple_policy_lemma E f m c g wt w n s r s' tr i x Hc Hm Hn Hni Htl Hx H)
    as (_ & H1 & H2).
  assert (Hdec : r = Ok tt \/ r <> Ok tt) by (destruct r as [[]|]; [left|right]; congruence).
  destruct (table_of g n) as [q|] eqn:Hq.
  - assert (Hone : forall q', In (n, q') l <-> q' = q).
    { intros q'. rewrite HI, Hq. split; congruence. }
    split.
    + rewrite H1. split; [intros Hg; exists q; split; [apply Hone|]; auto|].
      intros (q' & Hin & Hg). apply Hone in Hin. congruence.
    + split; [intros ->|intros Hno; exfalso; apply (Hno q), Hone; reflexivity].
      assert (Hx2 := H2 ltac:(discriminate)). discriminate.
  - assert (Hnone : forall q, ~ In (n, q) l) by (intros q; rewrite HI, Hq; discriminate).
    split.
    + rewrite H1. split; [contradiction|]. intros (q & Hin & _). exfalso. eapply Hnone; eauto.
    + split; [auto|]. intros _. apply H2. rewrite H1. exact Ha.
Qed.
