(** * BooksThreads: threads that share no participation keep the books. *)

From Coq Require Import List String Bool Arith Lia.
From Verif Require Import Base Domain CheckerModel MFacts MgmtSpec Threads ThreadSpec.
Import ListNotations.
Open Scope string_scope.

(** Where a thread is: nowhere special; it has seen that [q] is free; it has bound [q] to [i]
    and not yet entered it in the list of [i]. *)
Inductive phase := Idle | Free (q : id) | Bound (q i : id).

(** Programs that enter only participations of [mine], each in an interaction of their own. *)
Fixpoint tidy {A} (mine own : id -> Prop) (ph : phase) (p : prog A) : Prop :=
  match p with
  | PRet _ => ph = Idle
  | PGetTl _ k => ph = Idle /\ forall o, tidy mine own Idle (k o)
  | PSetTl _ _ k | PDelTl _ k => ph = Idle /\ tidy mine own Idle k
  | PGetPol k => ph = Idle /\ forall pol, (forall v, pol <> PolForeign v) -> tidy mine own Idle (k pol)
  | PSetPol _ _ | PForeign _ _ _ => False
  | PNewIact _ k => ph = Idle /\ forall i, tidy mine (fun j => j = i \/ own j) Idle (k i)
  | PGetPart q k => ph = Idle /\ mine q /\ (forall v, tidy mine own Idle (k (Some v))) /\
                    tidy mine own (Free q) (k None)
  | PSetPart q i k => ph = Free q /\ own i /\ tidy mine own (Bound q i) k
  | PAppend i q k => ph = Bound q i /\ tidy mine own Idle k
  end.

Lemma tidy_ext {A} mine (p : prog A) : forall (o1 o2 : id -> Prop) ph,
  (forall i, o1 i -> o2 i) -> tidy mine o1 ph p -> tidy mine o2 ph p.
Proof.
  induction p as [a|a k IH|a v k IH|a k IH|k IH|pol k IH|b k IH|q k IH|q i k IH|i q k IH|v l k IH];
    intros o1 o2 ph Ho H; simpl in *.
  - exact H.
  - destruct H as [-> H]. split; [reflexivity|]. intros o. eapply IH; eauto.
  - destruct H as [-> H]. split; [reflexivity|]. eapply IH; eauto.
  - destruct H as [-> H]. split; [reflexivity|]. eapply IH; eauto.
  - destruct H as [-> H]. split; [reflexivity|]. intros pol Hp. eapply IH; eauto.
  - exact H.
  - destruct H as [-> H]. split; [reflexivity|]. intros i. eapply IH; [|apply H].
    intros j [->|Hj]; auto.
  - destruct H as (-> & Hq & H1 & H2). repeat split; auto; intros; eapply IH; eauto.
  - destruct H as (-> & Hi & H). repeat split; auto. eapply IH; eauto.
  - destruct H as (-> & H). repeat split; auto. eapply IH; eauto.
  - exact H.
Qed.

Lemma tidy_bind {A B} mine (p : prog A) (f : A -> prog B) : forall own ph,
  tidy mine own ph p -> (forall a o, tidy mine o Idle (f a)) -> tidy mine own ph (pbind p f).
Proof.
  induction p as [a|a k IH|a v k IH|a k IH|k IH|pol k IH|b k IH|q k IH|q i k IH|i q k IH|v l k IH];
    intros own ph H Hf; simpl in *.
  - subst ph. apply Hf.
  - destruct H as [-> H]. split; [reflexivity|]. intros o. apply IH; auto.
  - destruct H as [-> H]. split; [reflexivity|]. apply IH; auto.
  - destruct H as [-> H]. split; [reflexivity|]. apply IH; auto.
  - destruct H as [-> H]. split; [reflexivity|]. intros pol Hp. apply IH; auto.
  - exact H.
  - destruct H as [-> H]. split; [reflexivity|]. intros i. apply IH; auto.
  - destruct H as (-> & Hq & H1 & H2). repeat split; auto; intros; apply IH; auto.
  - destruct H as (-> & Hi & H). repeat split; auto; apply IH; auto.
  - destruct H as (-> & H). repeat split; auto; apply IH; auto.
  - exact H.
Qed.

Lemma tidy_add_all (mine : id -> Prop) i parts : forall own : id -> Prop,
  own i -> (forall q, In q parts -> mine q) -> tidy mine own Idle (p_add_all i parts).
Proof.
  induction parts as [|q parts IH]; intros own Hi Hq; [reflexivity|].
  cbn [p_add_all p_add pbind]. simpl. split; [reflexivity|]. split; [apply Hq; left; reflexivity|].
  split; [intros v; reflexivity|].
  split; [reflexivity|]. split; [exact Hi|]. split; [reflexivity|].
  apply IH; [exact Hi|]. intros q' H. apply Hq. right. exact H.
Qed.

Lemma tidy_mcall (mine : id -> Prop) c : (forall parts q, c = MNew parts -> In q parts -> mine q) ->
  forall own, tidy mine own Idle (p_mcall c).
Proof.
  intros Hm own. destruct c as [parts| | | |]; simpl.
  - split; [reflexivity|]. intros o.
    destruct (negb _); [reflexivity|]. simpl. split; [reflexivity|]. intros pol Hp.
    apply tidy_bind.
    + destruct pol as [| |v]; [| |exfalso; eapply Hp; reflexivity]; simpl;
        (split; [reflexivity|]); intros i; apply tidy_add_all; eauto.
    + intros [i|e] o'; simpl; auto.
  - split; [reflexivity|]. intros [v|]; simpl; auto.
  - split; [reflexivity|]. intros [v|]; simpl; auto.
  - split; [reflexivity|]. intros [v|]; simpl; auto.
  - split; [reflexivity|]. intros [v|]; simpl; auto.
Qed.

Lemma tidy_mcalls (mine : id -> Prop) cs : (forall parts q, In (MNew parts) cs -> In q parts -> mine q) ->
  forall own, tidy mine own Idle (p_mcalls cs).
Proof.
  induction cs as [|c cs IH]; intros Hm own; [reflexivity|]. cbn [p_mcalls].
  apply tidy_bind.
  - apply tidy_mcall. intros parts q -> Hq. eapply Hm; [left; reflexivity|exact Hq].
  - intros r o. apply tidy_bind; [|intros rs o'; reflexivity].
    apply IH. intros parts q H Hq. eapply Hm; [right; exact H|exact Hq].
Qed.

Lemma NoDup_app_one (l : list id) q : NoDup l -> ~ In q l -> NoDup (l ++ [q]).
Proof.
  intros H Hq. apply NoDup_Add with (a := q) (l := l); [|split; assumption].
  rewrite <- (app_nil_r l) at 1. apply Add_app.
Qed.

Record books_up_to (s : state) (ph : id -> phase) : Prop := {
  bu_listed : forall i x q, st_inters s i = Some x -> In q (in_parts x) ->
    pt_inter (st_parts s q) = Some (VIact i);
  bu_bound : forall i x q, st_inters s i = Some x -> pt_inter (st_parts s q) = Some (VIact i) ->
    In q (in_parts x) \/ exists t, ph t = Bound q i;
  bu_once : forall i x, st_inters s i = Some x -> NoDup (in_parts x);
  bu_inter : forall q v, pt_inter (st_parts s q) = Some v ->
    exists i x, v = VIact i /\ st_inters s i = Some x;
  bu_fresh : forall i, st_next s <= i -> st_inters s i = None
}.

Section Threads.
  Context {A : Type}.
  Variable E : env.
  Variable mine : id -> id -> Prop.
  Hypothesis apart : forall t t' q, mine t q -> mine t' q -> t = t'.

  Record inv (c : id -> prog A) (s : state) (own : id -> id -> Prop) (ph : id -> phase) : Prop := {
    iv_policy : forall v, st_policy s <> PolForeign v;
    iv_tidy : forall t, tidy (mine t) (own t) (ph t) (c t);
    iv_own : forall t i, own t i -> exists x, st_inters s i = Some x;
    iv_free : forall t q, ph t = Free q -> mine t q /\ pt_inter (st_parts s q) = None;
    iv_bound : forall t q i, ph t = Bound q i ->
      mine t q /\ pt_inter (st_parts s q) = Some (VIact i) /\
      exists x, st_inters s i = Some x /\ ~ In q (in_parts x);
    iv_books : books_up_to s ph
  }.

  Lemma tidy_upd c own ph t (p : prog A) o f :
    (forall t, tidy (mine t) (own t) (ph t) (c t)) -> tidy (mine t) o f p ->
    forall t', tidy (mine t') (upd own t o t') (upd ph t f t') (upd c t p t').
  Proof.
    intros H Hp t'. unfold upd. destruct (Nat.eqb_spec t' t) as [->|_]; [exact Hp|apply H].
  Qed.

  (** A step that touches neither participations nor interactions. *)
  Lemma inv_quiet c s own ph t p s1 :
    inv c s own ph -> ph t = Idle -> tidy (mine t) (own t) Idle p ->
    st_inters s1 = st_inters s -> st_parts s1 = st_parts s -> st_policy s1 = st_policy s ->
    st_next s <= st_next s1 ->
    inv (upd c t p) s1 own ph.
  Proof.
    intros [H1 H2 H3 H4 H5 [B1 B2 B3 B4 B5]] Hph Hp E1 E2 E3 E4.
    split; rewrite ?E1, ?E2, ?E3; auto.
    - intros t'. unfold upd. destruct (Nat.eqb_spec t' t) as [->|_]; [rewrite Hph; exact Hp|apply H2].
    - split; rewrite ?E1, ?E2; auto. intros i Hi. apply B5. lia.
  Qed.

  Lemma inv_step c s own ph t p s1 ls :
    inv c s own ph -> step E t (c t) s = Some (p, s1, ls) ->
    exists own' ph', inv (upd c t p) s1 own' ph'.
  Proof.
    intros HI H. pose proof (iv_tidy _ _ _ _ HI t) as HT. unfold step in H.
    destruct (c t) as [a|a k|a v k|a k|k|pol k|b k|q k|q i k|i q k|v l k] eqn:Hc; simpl in HT.
    - discriminate H.
    - injection H as <- <- <-. destruct HT as [Hp HT]. exists own, ph. eapply inv_quiet; eauto.
    - injection H as <- <- <-. destruct HT as [Hp HT]. exists own, ph. eapply inv_quiet; eauto.
    - injection H as <- <- <-. destruct HT as [Hp HT]. exists own, ph. eapply inv_quiet; eauto.
    - injection H as <- <- <-. destruct HT as [Hp HT]. exists own, ph. eapply inv_quiet; eauto.
      apply HT. apply (iv_policy _ _ _ _ HI).
    - contradiction HT.
    - (* a new interaction *)
      injection H as <- <- <-. destruct HT as [Hp HT]. specialize (HT (st_next s)).
      destruct HI as [H1 H2 H3 H4 H5 [B1 B2 B3 B4 B5]].
      assert (N : forall i x, st_inters s i = Some x -> i <> st_next s).
      { intros i x Hi ->. rewrite B5 in Hi by lia. discriminate Hi. }
      exists (upd own t (fun j => j = st_next s \/ own t j)), (upd ph t Idle).
      assert (P : forall t', upd ph t Idle t' = ph t').
      { intros t'. unfold upd. destruct (Nat.eqb_spec t' t) as [->|_]; auto. }
      split; simpl.
      + exact H1.
      + apply tidy_upd; assumption.
      + intros t' i. unfold upd. destruct (Nat.eqb_spec t' t) as [->|_].
        * intros [->|Hi]; [rewrite Nat.eqb_refl; eauto|]. destruct (Nat.eqb i (st_next s)); eauto.
        * intros Hi. destruct (Nat.eqb i (st_next s)); eauto.
      + intros t' q. rewrite P. apply H4.
      + intros t' q i. rewrite P. intros Hb. destruct (H5 _ _ _ Hb) as (M & Q & x & Hx & Hn).
        split; [exact M|]. split; [exact Q|]. exists x. rewrite upd_ne by eauto. auto.
      + split; simpl.
        * intros i x q Hi. unfold upd in Hi. destruct (Nat.eqb_spec i (st_next s)) as [->|_]; [|eauto].
          injection Hi as <-. intros [].
        * intros i x q Hi Hq. unfold upd in Hi. destruct (Nat.eqb_spec i (st_next s)) as [->|_].
          -- destruct (B4 _ _ Hq) as (j & y & Hj & Hy). injection Hj as <-. exfalso. eapply N; eauto.
          -- destruct (B2 _ _ _ Hi Hq) as [X|[t' X]]; [auto|]. right. exists t'. rewrite P. exact X.
        * intros i x Hi. unfold upd in Hi. destruct (Nat.eqb_spec i (st_next s)) as [->|_]; [|eauto].
          injection Hi as <-. constructor.
        * intros q v Hq. destruct (B4 _ _ Hq) as (j & y & Hj & Hy). exists j, y.
          split; [exact Hj|]. rewrite upd_ne by eauto. exact Hy.
        * intros i Hi. rewrite upd_ne by lia. apply B5. lia.
    - (* reading q.interaction *)
      injection H as <- <- <-. destruct HT as (Hp & Hm & HS & HN).
      destruct (pt_inter (st_parts s q)) as [v|] eqn:Hq.
      + exists own, ph. eapply inv_quiet; eauto.
      + destruct HI as [H1 H2 H3 H4 H5 [B1 B2 B3 B4 B5]].
        exists own, (upd ph t (Free q)).
        assert (P : forall t' q' i, upd ph t (Free q) t' = Bound q' i -> ph t' = Bound q' i).
        { intros t' q' i. unfold upd. destruct (Nat.eqb_spec t' t); [discriminate|auto]. }
        split; auto.
        * intros t'. unfold upd. destruct (Nat.eqb_spec t' t) as [->|_]; [exact HN|apply H2].
        * intros t' q'. unfold upd. destruct (Nat.eqb_spec t' t) as [->|_]; [|apply H4].
          intros X. injection X as <-. auto.
        * split; auto. intros i x q' Hi Hq'. destruct (B2 _ _ _ Hi Hq') as [X|[t' X]]; [auto|].
          right. exists t'. unfold upd. destruct (Nat.eqb_spec t' t) as [->|_]; [congruence|exact X].
    - (* binding q *)
      injection H as <- <- <-. destruct HT as (Hp & Hi & HT).
      destruct HI as [H1 H2 H3 H4 H5 [B1 B2 B3 B4 B5]].
      destruct (H4 _ _ Hp) as [Hm Hq]. destruct (H3 _ _ Hi) as [x Hx].
      exists own, (upd ph t (Bound q i)).
      assert (NQ : forall j y, st_inters s j = Some y -> ~ In q (in_parts y)).
      { intros j y Hj Hin. rewrite (B1 _ _ _ Hj Hin) in Hq. discriminate Hq. }
      assert (OT : forall t' q', t' <> t -> mine t' q' -> q' <> q).
      { intros t' q' Hn Hm' ->. apply Hn. eapply apart; eassumption. }
      split; simpl.
      + exact H1.
      + intros t'. unfold upd. destruct (Nat.eqb_spec t' t) as [->|_]; [exact HT|apply H2].
      + exact H3.
      + intros t' q'. unfold upd at 1. destruct (Nat.eqb_spec t' t) as [->|Hn]; [discriminate|].
        intros X. destruct (H4 _ _ X) as [M Q]. split; [exact M|].
        rewrite upd_ne by eauto. exact Q.
      + intros t' q' j. unfold upd at 1. destruct (Nat.eqb_spec t' t) as [->|Hn].
        * intros X. injection X as <- <-. split; [exact Hm|]. rewrite upd_eq. split; [reflexivity|].
          exists x. split; [exact Hx|]. eapply NQ, Hx.
        * intros X. destruct (H5 _ _ _ X) as (M & Q & Y). split; [exact M|].
          rewrite upd_ne by eauto. auto.
      + split; simpl.
        * intros j y q' Hj Hin. rewrite upd_ne; [eauto|]. intros ->. eapply NQ; eauto.
        * intros j y q' Hj. unfold upd at 1. destruct (Nat.eqb_spec q' q) as [->|Hn].
          -- simpl. intros X. injection X as <-. right. exists t. apply upd_eq.
          -- intros X. destruct (B2 _ _ _ Hj X) as [Y|[t' Y]]; [auto|]. right. exists t'.
             rewrite upd_ne; [exact Y|]. intros ->. congruence.
        * exact B3.
        * intros q' v. unfold upd at 1. destruct (Nat.eqb_spec q' q) as [->|Hn]; [|apply B4].
          simpl. intros X. injection X as <-. eauto.
        * exact B5.
    - (* entering q *)
      injection H as <- <- <-. destruct HT as (Hp & HT).
      destruct HI as [H1 H2 H3 H4 H5 [B1 B2 B3 B4 B5]].
      destruct (H5 _ _ _ Hp) as (Hm & Hq & x & Hx & Hn). rewrite Hx.
      exists own, (upd ph t Idle).
      split; simpl.
      + exact H1.
      + intros t'. unfold upd. destruct (Nat.eqb_spec t' t) as [->|_]; [exact HT|apply H2].
      + intros t' j Hj. unfold upd. destruct (Nat.eqb j i); eauto.
      + intros t' q'. unfold upd. destruct (Nat.eqb_spec t' t) as [->|_]; [discriminate|apply H4].
      + intros t' q' j. unfold upd at 1. destruct (Nat.eqb_spec t' t) as [->|Ht]; [discriminate|].
        intros X. destruct (H5 _ _ _ X) as (M & Q & y & Hy & Hny). split; [exact M|]. split; [exact Q|].
        unfold upd. destruct (Nat.eqb_spec j i) as [->|Hj]; [|eauto].
        eexists. split; [reflexivity|]. simpl. rewrite Hx in Hy. injection Hy as <-.
        intros Hin. apply in_app_or in Hin. destruct Hin as [Hin|[->|[]]]; [auto|].
        apply Ht. eapply apart; eassumption.
      + split; simpl.
        * intros j y q' Hj. unfold upd in Hj. destruct (Nat.eqb_spec j i) as [->|_]; [|eauto].
          injection Hj as <-. simpl. intros Hin. apply in_app_or in Hin.
          destruct Hin as [Hin|[->|[]]]; [eauto|exact Hq].
        * intros j y q' Hj Hq'. unfold upd in Hj. destruct (Nat.eqb_spec j i) as [->|Hne].
          -- injection Hj as <-. simpl. destruct (B2 _ _ _ Hx Hq') as [X|[t' X]].
             ++ left. apply in_or_app. auto.
             ++ destruct (Nat.eq_dec t' t) as [->|Ht].
                ** rewrite Hp in X. injection X as <-. left. apply in_or_app. right. left. reflexivity.
                ** right. exists t'. rewrite upd_ne by exact Ht. exact X.
          -- destruct (B2 _ _ _ Hj Hq') as [X|[t' X]]; [auto|]. right. exists t'.
             rewrite upd_ne; [exact X|]. intros ->. rewrite Hp in X. congruence.
        * intros j y Hj. unfold upd in Hj. destruct (Nat.eqb_spec j i) as [->|_]; [|eauto].
          injection Hj as <-. simpl. apply NoDup_app_one; [eauto|exact Hn].
        * intros q' v Hv. destruct (B4 _ _ Hv) as (j & y & -> & Hy).
          destruct (Nat.eq_dec j i) as [->|Hne].
          -- eexists i, _. split; [reflexivity|]. apply upd_eq.
          -- exists j, y. split; [reflexivity|]. rewrite upd_ne by exact Hne. exact Hy.
        * intros j Hj. rewrite upd_ne; [auto|]. intros ->. rewrite B5 in Hx by exact Hj. discriminate Hx.
    - contradiction HT.
  Qed.

  Lemma inv_together c s c' s' own ph :
    Together E c s c' s' -> inv c s own ph -> exists own' ph', inv c' s' own' ph'.
  Proof.
    intros H. revert own ph. induction H as [c s|c s t p s1 ls c' s' Hs _ IH|c s s1 c' s' E1 E2 E3 _ E4 _ IH];
      intros own ph HI.
    - eauto.
    - destruct (inv_step _ _ _ _ _ _ _ _ HI Hs) as (o1 & p1 & H1). eauto.
    - apply (IH own ph). destruct HI as [H1 H2 H3 H4 H5 [B1 B2 B3 B4 B5]].
      split; rewrite ?E1, ?E2, ?E3; auto. split; rewrite ?E1, ?E2; auto. intros i Hi. apply B5. lia.
  Qed.
End Threads.

Lemma threads_books_lemma E (css : id -> list mcall) c s c' s' :
  (forall t, c t = p_mcalls (css t)) ->
  (forall t t' q, brings (css t) q -> brings (css t') q -> t = t') ->
  (forall v, st_policy s <> PolForeign v) -> books_ok s ->
  Together E c s c' s' -> (forall t, exists rs, c' t = PRet rs) -> books_ok s'.
Proof.
  intros Hc Ha Hp (B1 & B2 & B3 & B4) HT Hd.
  assert (HI : inv (fun t => brings (css t)) c s (fun _ _ => False) (fun _ => Idle)).
  { split; auto; try discriminate; try contradiction.
    - intros t. rewrite Hc. apply tidy_mcalls. intros parts q H1 H2. exists parts. auto.
    - split; auto.
      + intros i x q Hi. apply (B1 i x q Hi).
      + intros i x q Hi Hq. left. apply (B1 i x q Hi), Hq. }
  destruct (inv_together E _ Ha _ _ _ _ _ _ HT HI) as (own & ph & [_ H2 _ _ _ [C1 C2 C3 C4 C5]]).
  assert (P : forall t, ph t = Idle).
  { intros t. specialize (H2 t). destruct (Hd t) as [rs Hr]. rewrite Hr in H2. exact H2. }
  split; [|split; [exact C3|split; [exact C4|exact C5]]].
  intros i x q Hi. split; [eauto|]. intros Hq. destruct (C2 _ _ _ Hi Hq) as [X|[t X]]; [exact X|].
  rewrite P in X. discriminate X.
Qed.
