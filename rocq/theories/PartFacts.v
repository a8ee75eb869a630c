(** * PartFacts: participations, their bookkeeping, and the context manager of testing.py. *)

From Coq Require Import List String Bool Arith ZArith Lia.
From Verif Require Import Base Domain CheckerModel Management MFacts Spec MgmtSpec Threads
  ThreadSpec ThreadFacts CheckFacts MgmtFacts.
Import ListNotations.
Open Scope string_scope.
Open Scope m_scope.

(** ** add and remove *)

Lemma add_lemma i q s x :
  st_inters s i = Some x ->
  (pt_inter (st_parts s q) = None ->
   exists s', Paranoid_add i q s = (Ok tt, s', []) /\ st_next s' = st_next s /\
              Entered s i (in_permissive x) (in_parts x) [q] s') /\
  (forall v, pt_inter (st_parts s q) = Some v ->
   Paranoid_add i q s = (Exc (EValue "already belongs to an interaction"), s, [])).
Proof.
  intros Hi. split.
  - intros Hq. destruct (add_all_lemma i [q] s x Hi) as (seen & s' & HE & Hn & HR).
    destruct HR as [(-> & Ha)|(q0 & rest & Hp & Hbad & Ha)].
    + exists s'. split; [|auto]. simpl in Ha. mbind Ha; [discriminate|].
      destruct a. minj Hf. rewrite app_nil_r in Ht. subst. exact Hm.
    + destruct seen as [|z seen].
      * simpl in Hp. inversion Hp; subst. destruct Hbad as [[]|(v & Hv)]. congruence.
      * simpl in Hp. inversion Hp. destruct seen; discriminate.
  - intros v Hv. unfold Paranoid_add. rewrite bind_get, Hv. reflexivity.
Qed.

(** What remove does to the list. *)
Lemma list_remove_split peq l q r :
  list_remove peq l q = Some r ->
  exists l1 z l2, l = (l1 ++ z :: l2)%list /\ r = (l1 ++ l2)%list /\
                  (z = q \/ peq z q = true) /\ (forall y, In y l1 -> y <> q /\ peq y q = false).
Proof.
  revert r. induction l as [|x l IH]; simpl; intros r H; [discriminate|].
  destruct (Nat.eqb_spec x q) as [->|Hne]; simpl in H.
  - minj H. exists [], q, r. split; [reflexivity|]. split; [reflexivity|]. split; [auto|intros ? []].
  - destruct (peq x q) eqn:Hp.
    + minj H. exists [], x, r. split; [reflexivity|]. split; [reflexivity|]. split; [auto|intros ? []].
    + destruct (list_remove peq l q) as [r'|]; [|discriminate]. minj H.
      destruct (IH r' eq_refl) as (l1 & z & l2 & -> & -> & Hz & Hb).
      exists (x :: l1), z, l2. split; [reflexivity|]. split; [reflexivity|]. split; [exact Hz|].
      intros y [<-|Hy]; auto.
Qed.

Lemma list_remove_none peq l q : list_remove peq l q = None -> ~ In q l.
Proof.
  induction l as [|x l IH]; simpl; intros H; [tauto|].
  destruct (Nat.eqb_spec x q) as [->|Hne]; simpl in H; [discriminate|].
  destruct (peq x q); [discriminate|].
  destruct (list_remove peq l q); [discriminate|]. intros [?|?]; [congruence|]. apply IH; auto.
Qed.

Lemma remove_inv peq i q s r s' t :
  Paranoid_remove peq i q s = (r, s', t) ->
  (exists e, r = Exc e /\ s' = s /\ t = []) \/
  (exists x l, r = Ok tt /\ t = [] /\ st_inters s i = Some x /\
     pt_inter (st_parts s q) = Some (VIact i) /\
     list_remove peq (in_parts x) q = Some l /\
     s' = set_parts (upd (st_parts s) q (mkPart (pt_principal (st_parts s q)) None))
            (set_inters (upd (st_inters s) i (Some (mkInter (in_permissive x) l))) s)).
Proof.
  unfold Paranoid_remove. rewrite bind_get.
  destruct (pt_inter (st_parts s q)) as [v|] eqn:Hv; [|intros H; minj H; left; eauto].
  destruct (value_eqb_spec v (VIact i)) as [->|]; [|intros H; minj H; left; eauto].
  destruct (st_inters s i) as [x|] eqn:Hi; [|intros H; minj H; left; eauto].
  destruct (list_remove peq (in_parts x) q) as [l|] eqn:Hl; [|intros H; minj H; left; eauto].
  rewrite bind_put, bind_get. intros H. minj H. right. exists x, l. repeat split; auto.
Qed.

Lemma remove_refuses_lemma peq i q s :
  pt_inter (st_parts s q) <> Some (VIact i) ->
  exists msg, Paranoid_remove peq i q s = (Exc (EValue msg), s, []).
Proof.
  intros H. unfold Paranoid_remove. rewrite bind_get.
  destruct (pt_inter (st_parts s q)) as [v|]; [|eexists; reflexivity].
  destruct (value_eqb_spec v (VIact i)) as [->|]; [congruence|eexists; reflexivity].
Qed.

(** ** The bookkeeping invariant *)

Definition identity_eq (peq : id -> id -> bool) : Prop :=
  forall x y, peq x y = true -> x = y.

Lemma NoDup_app_disjoint (a b : list id) :
  NoDup a -> NoDup b -> (forall q, In q a -> ~ In q b) -> NoDup (a ++ b).
Proof.
  intros Ha Hb. induction Ha as [|z a Hz Ha IH]; simpl; intros Hd; [exact Hb|].
  constructor; [|apply IH; intros q Hq; apply Hd; right; exact Hq].
  rewrite in_app_iff. intros [H|H]; [contradiction|].
  apply (Hd z); [left; reflexivity|exact H].
Qed.

Lemma books_same_ok s s' : books_same s s' -> books_ok s -> books_ok s'.
Proof.
  intros (H1 & H2 & H3) (B1 & B2 & B3 & B4). unfold books_ok. rewrite H1, H2.
  repeat split; auto; try apply B1; auto.
  intros i Hi. apply B4. lia.
Qed.

Lemma entered_ok s i b before l s' :
  books_ok s -> Entered s i b before l s' -> st_next s <= st_next s' -> i < st_next s' ->
  (before = [] /\ i = st_next s \/ st_inters s i = Some (mkInter b before)) ->
  books_ok s'.
Proof.
  intros (B1 & B2 & B3 & B4) (Hnd & Hfree & Hint & Hoth & Hpr & Hin & Hout & Hfr) Hn Hi Hb.
  assert (Hbef : forall q, In q before <-> pt_inter (st_parts s q) = Some (VIact i)).
  { intros q. destruct Hb as [(-> & ->)|Hx].
    - split; [intros []|]. intros Hq. exfalso. destruct (B3 _ _ Hq) as (j & x & Hj & Hx).
      inversion Hj; subst. rewrite (B4 (st_next s)) in Hx by lia. discriminate.
    - apply (B1 i _ q Hx). }
  assert (Hi_of : forall q, pt_inter (st_parts s' q) =
                   if in_dec Nat.eq_dec q l then Some (VIact i) else pt_inter (st_parts s q)).
  { intros q. destruct (in_dec Nat.eq_dec q l) as [H|H]; [apply Hin; exact H|].
    rewrite Hout by exact H. reflexivity. }
  split; [|split; [|split]].
  - intros j x q Hx. rewrite Hi_of. destruct (Nat.eq_dec j i) as [->|Hj].
    + rewrite Hint in Hx. inversion Hx; subst. simpl. rewrite in_app_iff, Hbef.
      destruct (in_dec Nat.eq_dec q l); split; intros; auto; tauto.
    + rewrite Hoth in Hx by exact Hj. rewrite (B1 j x q Hx).
      destruct (in_dec Nat.eq_dec q l) as [H|H]; [|tauto].
      rewrite (Hfree q H). split; [discriminate|]. intros [= ->]. congruence.
  - intros j x Hx. destruct (Nat.eq_dec j i) as [->|Hj].
    + rewrite Hint in Hx. inversion Hx; subst. simpl. clear Hx.
      assert (Hndb : NoDup before).
      { destruct Hb as [(-> & _)|Hx]; [constructor|]. apply (B2 _ _ Hx). }
      apply NoDup_app_disjoint; auto. intros q Hq Hl. apply Hbef in Hq.
      rewrite (Hfree q Hl) in Hq. discriminate.
    + rewrite Hoth in Hx by exact Hj. apply (B2 _ _ Hx).
  - intros q v Hv. rewrite Hi_of in Hv. destruct (in_dec Nat.eq_dec q l) as [H|H].
    + inversion Hv; subst. eauto.
    + destruct (B3 _ _ Hv) as (j & x & -> & Hx). exists j.
      destruct (Nat.eq_dec j i) as [->|Hj]; [eauto|]. exists x. rewrite Hoth by exact Hj. auto.
  - intros j Hj. rewrite Hoth by lia. apply B4. lia.
Qed.

Lemma new_ok b parts s r s' t :
  books_ok s -> Paranoid_new b parts s = (r, s', t) -> books_ok s'.
Proof.
  intros HB H. destruct (new_simple_lemma b parts s) as (r0 & s0 & Hp & Hn & seen & HE & _).
  rewrite H in Hp. inversion Hp; subst.
  apply (entered_ok s (st_next s) b [] seen s0 HB HE); [lia|lia|left; auto].
Qed.

Lemma add_ok i q x s r s' t :
  books_ok s -> st_inters s i = Some x -> Paranoid_add i q s = (r, s', t) -> books_ok s'.
Proof.
  intros HB Hi H. destruct (add_lemma i q s x Hi) as [H1 H2].
  destruct (pt_inter (st_parts s q)) as [v|] eqn:Hq.
  - rewrite (H2 v eq_refl) in H. minj H. exact HB.
  - destruct (H1 eq_refl) as (s0 & Ha & Hn & HE). rewrite Ha in H. minj H.
    apply (entered_ok s i _ _ _ _ HB HE).
    + lia.
    + rewrite Hn. destruct HB as (_ & _ & _ & B4). destruct (le_lt_dec (st_next s) i); [|lia].
      rewrite (B4 i) in Hi by lia. discriminate.
    + right. rewrite Hi. destruct x; reflexivity.
Qed.

Lemma remove_ok peq i q s r s' t :
  identity_eq peq -> books_ok s -> Paranoid_remove peq i q s = (r, s', t) -> books_ok s'.
Proof.
  intros Hp HB H. destruct (remove_inv _ _ _ _ _ _ _ H) as [(e & _ & -> & _)|
    (x & l & _ & _ & Hi & Hq & Hl & ->)]; [exact HB|].
  destruct (list_remove_split _ _ _ _ Hl) as (l1 & z & l2 & Hx & -> & Hz & _).
  assert (z = q) as -> by (destruct Hz as [?|Hz]; [assumption|apply Hp; exact Hz]).
  destruct HB as (B1 & B2 & B3 & B4).
  pose proof (B2 _ _ Hi) as Hnd. rewrite Hx in Hnd.
  apply NoDup_remove in Hnd. destruct Hnd as [Hnd Hnq].
  split; [|split; [|split]]; simpl.
  - intros j y q0 Hy. unfold upd in Hy. destruct (Nat.eqb_spec j i) as [->|Hj].
    + inversion Hy; subst. simpl. unfold upd. destruct (Nat.eqb_spec q0 q) as [->|Hq0]; simpl.
      * split; [contradiction|discriminate].
      * rewrite <- (B1 i x q0 Hi), Hx. rewrite !in_app_iff. simpl. intuition congruence.
    + rewrite (B1 j y q0 Hy). unfold upd. destruct (Nat.eqb_spec q0 q) as [->|Hq0]; simpl; [|tauto].
      rewrite Hq. split; [|discriminate]. intros [= ->]. congruence.
  - intros j y Hy. unfold upd in Hy. destruct (Nat.eqb_spec j i) as [->|Hj].
    + inversion Hy; subst. exact Hnd.
    + apply (B2 _ _ Hy).
  - intros q0 v. unfold upd at 1. destruct (Nat.eqb_spec q0 q) as [->|Hq0]; simpl; [discriminate|].
    intros Hv. destruct (B3 _ _ Hv) as (j & y & -> & Hy). exists j.
    unfold upd. destruct (Nat.eqb_spec j i) as [->|Hj]; [eauto|]. exists y. auto.
  - intros j Hj. unfold upd. destruct (Nat.eqb_spec j i) as [->|Hne]; [|apply B4; exact Hj].
    rewrite (B4 i Hj) in Hi. discriminate.
Qed.

(** Histories: any code of the package that creates interactions or changes their
    participations, in any thread, and anything that does neither. *)
Definition foreign_books_ok (E : env) : Prop :=
  forall t c s r s', e_run E t c s = (r, s') -> books_ok s -> books_ok s'.

Inductive Books (Env : env -> Prop) (peq : id -> id -> bool) : state -> state -> Prop :=
| Bk_done s : Books Env peq s s
| Bk_policy b parts s r s1 t s' :
    Paranoid_new b parts s = (r, s1, t) -> Books Env peq s1 s' -> Books Env peq s s'
| Bk_call E c s r s1 t s' :
    Env E -> mcall_run E c s = (r, s1, t) -> Books Env peq s1 s' -> Books Env peq s s'
| Bk_add i q s r s1 t s' :
    st_inters s i <> None -> Paranoid_add i q s = (r, s1, t) -> Books Env peq s1 s' ->
    Books Env peq s s'
| Bk_remove i q s r s1 t s' :
    Paranoid_remove peq i q s = (r, s1, t) -> Books Env peq s1 s' -> Books Env peq s s'
| Bk_other s s1 s' :
    books_same s s1 -> Books Env peq s1 s' -> Books Env peq s s'.

Lemma call_ok E c s r s' t :
  foreign_books_ok E -> books_ok s -> mcall_run E c s = (r, s', t) -> books_ok s'.
Proof.
  intros HF HB H. destruct (calls_policy c (st_tls s (e_tid E))) eqn:HC.
  - destruct c; simpl in HC; try discriminate.
    destruct (new_policy_lemma E parts s HC) as (made & s1 & t1 & Hc & HM).
    assert (HB1 : books_ok s1).
    { destruct (st_policy s); simpl in Hc.
      - eapply new_ok; eauto.
      - eapply new_ok; eauto.
      - unfold foreign in Hc. destruct (e_run E (e_tid E) (CallPolicy v parts) s) eqn:Hr.
        inversion Hc; subst. eapply HF; eauto. }
    simpl in H. destruct made as [i|e].
    + destruct HM as (s2 & HN & Ho & _). rewrite HN in H. inversion H; subst.
      eapply books_same_ok; [|exact HB1]. rewrite Ho. repeat split; auto.
    + rewrite HM in H. inversion H; subst. exact HB1.
  - destruct (local_call_lemma E c s HC) as (r0 & l1 & s0 & Hsp & Hr & Ho & _).
    rewrite Hr in H. inversion H; subst.
    eapply books_same_ok; [|exact HB]. rewrite Ho. repeat split; auto.
Qed.

Lemma books_lemma (Env : env -> Prop) peq s s' :
  (forall E, Env E -> foreign_books_ok E) -> identity_eq peq ->
  Books Env peq s s' -> books_ok s -> books_ok s'.
Proof.
  intros HE Hp H. induction H; intros HB; auto; apply IHBooks.
  - eapply new_ok; eauto.
  - eapply call_ok; eauto.
  - destruct (st_inters s i) as [x|] eqn:Hi; [|congruence]. eapply add_ok; eauto.
  - eapply remove_ok; eauto.
  - eapply books_same_ok; eauto.
Qed.

(** ** Granting *)

Lemma paranoid_lemma E i x p obj s :
  st_inters s i = Some x -> in_permissive x = false ->
  exists b, inter_checkPermission E (VIact i) p obj s = (Ok (VBool b), s, []) /\
    (b = true <-> (p = PPublic \/
       forall q, In q (in_parts x) -> pt_principal (st_parts s q) = SystemUser)).
Proof.
  intros Hi Hp. destruct (inter_simple_lemma E i x p obj s Hi) as (b & Hb & Hiff).
  exists b. split; [exact Hb|]. rewrite Hiff. unfold iact_grants. split.
  - intros (x' & Hx & [H|H]); rewrite Hi in Hx; inversion Hx; subst; [congruence|exact H].
  - intros H. exists x. auto.
Qed.

Lemma permissive_lemma E i x p obj s :
  st_inters s i = Some x -> in_permissive x = true ->
  inter_checkPermission E (VIact i) p obj s = (Ok (VBool true), s, []).
Proof.
  intros Hi Hp. unfold inter_checkPermission. rewrite bind_get, Hi.
  unfold simple_checkPermission. rewrite Hp. reflexivity.
Qed.

Lemma add_narrows_lemma i q s r s' t :
  st_inters s i <> None -> Paranoid_add i q s = (r, s', t) ->
  forall j p, iact_grants s' j p -> iact_grants s j p.
Proof.
  intros Hi H j p. destruct (st_inters s i) as [x|] eqn:Hx; [|congruence].
  destruct (add_lemma i q s x Hx) as [H1 H2].
  destruct (pt_inter (st_parts s q)) as [v|] eqn:Hq.
  { rewrite (H2 v eq_refl) in H. minj H. auto. }
  destruct (H1 eq_refl) as (s0 & Ha & Hn & HE). rewrite Ha in H. minj H.
  destruct HE as (_ & _ & Hint & Hoth & Hpr & _ & _ & _).
  intros (y & Hy & HG). destruct (Nat.eq_dec j i) as [->|Hj].
  - rewrite Hint in Hy. inversion Hy; subst. simpl in HG. exists x. split; [exact Hx|].
    destruct HG as [HG|[HG|HG]]; auto. right. right. intros q0 Hq0. rewrite <- Hpr. apply HG.
    apply in_or_app. left. exact Hq0.
  - rewrite Hoth in Hy by exact Hj. exists y. split; [exact Hy|].
    destruct HG as [HG|[HG|HG]]; auto. right. right. intros q0 Hq0. rewrite <- Hpr. auto.
Qed.

Lemma remove_widens_lemma peq i q s r s' t :
  Paranoid_remove peq i q s = (r, s', t) ->
  forall j p, iact_grants s j p -> iact_grants s' j p.
Proof.
  intros H j p. destruct (remove_inv _ _ _ _ _ _ _ H) as [(e & _ & -> & _)|
    (x & l & _ & _ & Hi & Hq & Hl & ->)]; [auto|].
  destruct (list_remove_split _ _ _ _ Hl) as (l1 & z & l2 & Hx & -> & _ & _).
  assert (Hpr : forall q0, pt_principal (upd (st_parts s) q
                  (mkPart (pt_principal (st_parts s q)) None) q0) =
                pt_principal (st_parts s q0)).
  { intros q0. unfold upd. destruct (Nat.eqb_spec q0 q) as [->|]; reflexivity. }
  intros (y & Hy & HG). unfold iact_grants. simpl. unfold upd at 1.
  destruct (Nat.eqb_spec j i) as [->|Hj].
  - rewrite Hi in Hy. inversion Hy; subst. eexists. split; [reflexivity|]. simpl.
    destruct HG as [HG|[HG|HG]]; auto. right. right. intros q0 Hq0. rewrite Hpr. apply HG.
    rewrite Hx. apply in_app_iff in Hq0. apply in_app_iff. simpl. tauto.
  - exists y. split; [exact Hy|]. destruct HG as [HG|[HG|HG]]; auto.
    right. right. intros q0 Hq0. rewrite Hpr. auto.
Qed.

(** ** testing.interaction *)

Lemma finally_lemma {A} (m : M A) (f : M unit) s r s1 t1 s2 t2 :
  m s = (r, s1, t1) -> f s1 = (Ok tt, s2, t2) ->
  finally m f s = (r, s2, (t1 ++ t2)%list).
Proof.
  intros Hm Hf. unfold finally.
  assert (Hc : catch (a <- m ;; ret (Ok a)) (fun e => ret (Exc e)) s = (Ok r, s1, t1)).
  { destruct r as [a|e].
    - apply catch_ok. rewrite (bind_ok _ _ _ _ _ _ Hm). simpl. rewrite app_nil_r. reflexivity.
    - erewrite catch_exc; [|apply (bind_exc _ _ _ _ _ _ Hm)]. simpl. rewrite app_nil_r.
      reflexivity. }
  rewrite (bind_ok _ _ _ _ _ _ Hc), (bind_ok _ _ _ _ _ _ Hf).
  destruct r; simpl; rewrite app_nil_r; reflexivity.
Qed.

Lemma with_existing_lemma E {A} I (body : M A) s v s1 t1 :
  tl_inter (st_tls s (e_tid E)) = Some v ->
  interaction_truth I v s = (Ok true, s1, t1) ->
  with_interaction E I body s = let '(r, s2, t2) := body s1 in (r, s2, (t1 ++ t2)%list).
Proof.
  intros Hv Ht. unfold with_interaction, queryInteraction.
  rewrite bind_assoc, bind_get, bind_ret, Hv, (bind_ok _ _ _ _ _ _ Ht). reflexivity.
Qed.

Lemma with_simple_existing_lemma E {A} I (body : M A) s i :
  tl_inter (st_tls s (e_tid E)) = Some (VIact i) ->
  with_interaction E I body s = body s.
Proof.
  intros Hv. rewrite (with_existing_lemma E I body s (VIact i) s [] Hv eq_refl).
  destruct (body s) as [[? ?] ?]. reflexivity.
Qed.

Lemma with_fresh_lemma E {A} I (body : M A) s b :
  tl_inter (st_tls s (e_tid E)) = None -> simple_policy (st_policy s) = Some b ->
  exists u q i s1,
    only_locals (e_tid E) (mkTl (Some (VIact i)) (tl_prev (st_tls s (e_tid E)))) 
      (set_next (st_next s1) (set_parts (st_parts s1) (set_inters (st_inters s1) s))) s1 /\
    st_inters s1 i = Some (mkInter b [q]) /\
    st_parts s1 q = mkPart (User u) (Some (VIact i)) /\
    (u = st_next s /\ q = S u /\ i = S q /\ st_next s1 = S i) /\
    (forall j, j <> i -> st_inters s1 j = st_inters s j) /\
    (forall q', q' <> q -> st_parts s1 q' = st_parts s q') /\
    forall r s2 t2, body s1 = (r, s2, t2) ->
      exists s3, with_interaction E I body s = (r, s3, t2) /\
        only_locals (e_tid E) (mkTl None (tl_inter (st_tls s2 (e_tid E)))) s2 s3.
Proof.
  intros Hv Hb. set (u := st_next s). set (q := S u). set (i := S q).
  set (s0 := set_parts (upd (st_parts s) q (mkPart (User u) None)) (set_next i s)).
  assert (HW : forall k : M A,
    (create_interaction E ;;; k) s =
    bind (newInteraction E [q]) (fun _ => bind (ret (VObj u)) (fun _ => k)) s0).
  { intros k. unfold create_interaction.
    rewrite bind_assoc, bind_fresh, bind_assoc, bind_fresh, bind_assoc, bind_get,
      bind_assoc, bind_put, bind_assoc. reflexivity. }
  destruct (new_installs_lemma E [q] s0 b) as (made & s1 & (Hn & seen & HE & HM) & HN).
  { left. exact Hv. } { exact Hb. }
  assert (seen = [q] /\ made = Ok (VIact i)) as [-> ->].
  { destruct HM as [(-> & ->)|(q0 & rest & Hp & Hbad & _)]; [auto|]. exfalso.
    destruct seen as [|z seen].
    - simpl in Hp. inversion Hp; subst. destruct Hbad as [[]|(v & Hq)].
      unfold s0 in Hq. simpl in Hq. rewrite upd_eq in Hq. discriminate.
    - simpl in Hp. inversion Hp. destruct seen; discriminate. }
  destruct HN as (s1' & HN & Ho & Hl & Hx).
  destruct HE as (_ & _ & Hint & Hoth & Hpr & Hin & Hout & Hfr).
  change (st_next s0) with i in *.
  exists u, q, i, s1'.
  assert (Hs1 : st_inters s1' = st_inters s1 /\ st_parts s1' = st_parts s1 /\
                st_next s1' = st_next s1) by (rewrite Ho; auto).
  destruct Hs1 as (Ei & Ep & En).
  split.
  { split.
    - rewrite Ho, Hfr. simpl. reflexivity.
    - split; [rewrite Hl; reflexivity|]. intros t' Ht. rewrite Hx by exact Ht. rewrite Hfr.
      reflexivity. }
  split; [rewrite Ei; exact Hint|].
  split.
  { rewrite Ep. pose proof (Hpr q) as H1. pose proof (Hin q (or_introl eq_refl)) as H2.
    unfold s0 in H1. simpl in H1. rewrite upd_eq in H1. simpl in H1.
    destruct (st_parts s1 q). simpl in *. congruence. }
  split; [repeat split; rewrite En, Hn; reflexivity|].
  split; [intros j Hj; rewrite Ei, Hoth by exact Hj; reflexivity|].
  split.
  { intros q' Hq'. rewrite Ep, Hout.
    - unfold s0. simpl. apply upd_ne. exact Hq'.
    - intros [H|[]]. congruence. }
  intros r s2 t2 Hbody.
  destruct (end_lemma E s2) as (s3 & He & Ho3).
  exists s3. split; [|exact Ho3].
  unfold with_interaction, queryInteraction. rewrite bind_assoc, bind_get, bind_ret, Hv.
  assert (Ht : interaction_truth I VNone s = (Ok false, s, [])) by reflexivity.
  rewrite (bind_ok _ _ _ _ _ _ Ht). rewrite HW, (bind_ok _ _ _ _ _ _ HN), bind_ret.
  erewrite finally_lemma; [|exact Hbody|].
  2: { rewrite (bind_ok _ _ _ _ _ _ He). reflexivity. }
  simpl. rewrite app_nil_r. reflexivity.
Qed.

(** When the policy fails the body does not run and there still is no interaction. *)
Lemma with_failed_lemma E {A} I (body : M A) s v q e s1 :
  tl_inter (st_tls s (e_tid E)) = None -> st_policy s = PolForeign v ->
  q = S (st_next s) ->
  e_run E (e_tid E) (CallPolicy v [q])
    (set_parts (upd (st_parts s) q (mkPart (User (st_next s)) None)) (set_next (S q) s)) =
    (Exc e, s1) ->
  with_interaction E I body s = (Exc e, s1, [ECall Probe (e_tid E) (CallPolicy v [q])]).
Proof.
  intros Hv Hp Hq Hr. unfold with_interaction, queryInteraction.
  rewrite bind_assoc, bind_get, bind_ret, Hv.
  assert (Ht : interaction_truth I VNone s = (Ok false, s, [])) by reflexivity.
  rewrite (bind_ok _ _ _ _ _ _ Ht). subst q.
  set (s0 := set_parts _ _) in Hr.
  destruct (new_foreign_lemma E [S (st_next s)] s0 v) as (made & s1' & Hc & HM).
  { left. exact Hv. } { exact Hp. }
  rewrite Hr in Hc. inversion Hc; subst.
  unfold create_interaction.
  rewrite bind_assoc, bind_fresh, bind_assoc, bind_fresh, bind_assoc, bind_get,
      bind_assoc, bind_put, bind_assoc.
  erewrite bind_exc; [reflexivity|exact HM].
Qed.

(** An interaction that is there but false: a second one is refused, and the body does
    not run. *)
Lemma with_false_lemma E {A} I (body : M A) s v s1 t1 v1 :
  tl_inter (st_tls s (e_tid E)) = Some v ->
  interaction_truth I v s = (Ok false, s1, t1) ->
  tl_inter (st_tls s1 (e_tid E)) = Some v1 -> v1 <> VNone ->
  exists s2, with_interaction E I body s = (Exc EExistingInteraction, s2, t1) /\
    st_tls s2 = st_tls s1 /\ st_inters s2 = st_inters s1 /\ st_policy s2 = st_policy s1.
Proof.
  intros Hv Ht Hv1 Hn. unfold with_interaction, queryInteraction.
  rewrite bind_assoc, bind_get, bind_ret, Hv, (bind_ok _ _ _ _ _ _ Ht).
  unfold create_interaction.
  rewrite bind_assoc, bind_fresh, bind_assoc, bind_fresh, bind_assoc, bind_get,
      bind_assoc, bind_put, bind_assoc.
  set (s2 := set_parts _ _).
  assert (HX : newInteraction E [S (st_next s1)] s2 = (Exc EExistingInteraction, s2, [])).
  { unfold newInteraction, queryInteraction. rewrite bind_assoc, bind_get, bind_ret.
    change (st_tls s2) with (st_tls s1). rewrite Hv1.
    replace (value_eqb v1 VNone) with false; [reflexivity|].
    destruct v1; try reflexivity. exfalso. apply Hn. reflexivity. }
  exists s2. rewrite (bind_exc _ _ _ _ _ _ HX). rewrite app_nil_r. repeat split.
Qed.

Lemma failed_new_lemma E parts s b e s' t :
  (tl_inter (st_tls s (e_tid E)) = None \/ tl_inter (st_tls s (e_tid E)) = Some VNone) ->
  simple_policy (st_policy s) = Some b ->
  newInteraction E parts s = (Exc e, s', t) ->
  st_tls s' = st_tls s /\ st_policy s' = st_policy s /\
  (forall i, i <> st_next s -> st_inters s' i = st_inters s i) /\
  (forall q v, pt_inter (st_parts s q) = Some v -> st_parts s' q = st_parts s q).
Proof.
  intros Hl Hb H.
  destruct (new_installs_lemma E parts s b Hl Hb) as (made & s1 & (Hn & seen & HE & HM) & HN).
  destruct made as [i|e0].
  - destruct HN as (s2 & HN & _). congruence.
  - rewrite HN in H. minj H.
    destruct HE as (_ & Hfree & _ & Hoth & _ & _ & Hout & Hfr).
    split; [rewrite Hfr; reflexivity|]. split; [rewrite Hfr; reflexivity|].
    split; [exact Hoth|]. intros q v Hq. apply Hout. intros Hin.
    rewrite (Hfree q Hin) in Hq. discriminate.
Qed.
