(** * MgmtFacts: proofs about management.py, simplepolicies.py and testing.py. *)

From Coq Require Import List String Bool Arith ZArith Lia.
From Verif Require Import Base Domain CheckerModel Management MFacts Spec MgmtSpec Threads
  ThreadSpec ThreadFacts CheckFacts.
Import ListNotations.
Open Scope string_scope.
Open Scope m_scope.

(** ** Entering participations *)

Lemma add_all_lemma i parts : forall s x,
  st_inters s i = Some x ->
  exists seen s',
    Entered s i (in_permissive x) (in_parts x) seen s' /\ st_next s' = st_next s /\
    ((seen = parts /\ add_all i parts s = (Ok tt, s', [])) \/
     (exists q rest, parts = (seen ++ q :: rest)%list /\
        (In q seen \/ exists v, pt_inter (st_parts s q) = Some v) /\
        add_all i parts s = (Exc (EValue "already belongs to an interaction"), s', []))).
Proof.
  induction parts as [|q parts IH]; intros s x Hi.
  - exists [], s. split; [|split; [reflexivity|left; auto]].
    repeat split; auto; try (constructor; fail); try (intros ? []; fail).
    + rewrite app_nil_r, Hi. destruct x; reflexivity.
    + destruct s; reflexivity.
  - simpl add_all. unfold Paranoid_add.
    destruct (pt_inter (st_parts s q)) as [v|] eqn:Hq.
    + exists [], s. split; [|split; [reflexivity|right]].
      * repeat split; auto; try (constructor; fail); try (intros ? []; fail).
        -- rewrite app_nil_r, Hi. destruct x; reflexivity.
        -- destruct s; reflexivity.
      * exists q, parts. split; [reflexivity|]. split; [right; eauto|].
        rewrite bind_assoc, bind_get, Hq. reflexivity.
    + set (s1 := set_parts (upd (st_parts s) q
                   (mkPart (pt_principal (st_parts s q)) (Some (VIact i)))) s).
      set (x2 := mkInter (in_permissive x) (in_parts x ++ [q])).
      set (s2 := set_inters (upd (st_inters s1) i (Some x2)) s1).
      assert (Hadd : (s0 <- get ;;
        match pt_inter (st_parts s0 q) with
        | Some _ => raise (EValue "already belongs to an interaction")
        | None =>
            put (set_parts (upd (st_parts s0) q
                   (mkPart (pt_principal (st_parts s0 q)) (Some (VIact i)))) s0) ;;;
            s1 <- get ;;
            match st_inters s1 i with
            | Some x =>
                put (set_inters (upd (st_inters s1) i
                       (Some (mkInter (in_permissive x) (in_parts x ++ [q])))) s1)
            | None => raise (EType "dangling interaction")
            end
        end) s = (Ok tt, s2, [])).
      { rewrite bind_get, Hq, bind_put, bind_get. fold s1.
        replace (st_inters s1 i) with (st_inters s i) by reflexivity. rewrite Hi. reflexivity. }
      rewrite (bind_ok _ _ _ _ _ _ Hadd).
      destruct (IH s2 x2) as (seen & s' & HE & Hn & HR).
      { unfold s2. simpl. apply upd_eq. }
      destruct HE as (Hnd & Hfree & Hint & Hoth & Hpr & Hin & Hout & Hfr).
      assert (Hns : ~ In q seen).
      { intros Hc. apply Hfree in Hc. unfold s2, s1 in Hc. simpl in Hc.
        rewrite upd_eq in Hc. discriminate. }
      exists (q :: seen), s'. split; [|split].
      * repeat split.
        -- constructor; auto.
        -- intros q0 [<-|H0]; [exact Hq|]. specialize (Hfree q0 H0).
           unfold s2, s1 in Hfree. simpl in Hfree. rewrite upd_ne in Hfree; auto.
           intros ->. contradiction.
        -- rewrite Hint. unfold x2. simpl. rewrite <- app_assoc. reflexivity.
        -- intros j Hj. rewrite Hoth by auto. unfold s2. simpl. apply upd_ne. exact Hj.
        -- intros q0. rewrite Hpr. unfold s2, s1. simpl.
           destruct (Nat.eq_dec q0 q) as [->|Hne]; [rewrite upd_eq|rewrite upd_ne by auto];
             reflexivity.
        -- intros q0 [<-|H0]; [|apply Hin; exact H0].
           rewrite Hout by exact Hns. unfold s2, s1. simpl. rewrite upd_eq. reflexivity.
        -- intros q0 H0. rewrite Hout by (intros Hc; apply H0; right; exact Hc).
           unfold s2, s1. simpl. apply upd_ne. intros ->. apply H0. left. reflexivity.
        -- rewrite Hfr. unfold s2, s1. reflexivity.
      * rewrite Hn. reflexivity.
      * destruct HR as [(-> & ->)|(q' & rest & -> & Hbad & ->)].
        -- left. auto.
        -- right. exists q', rest. split; [reflexivity|]. split; [|reflexivity].
           destruct Hbad as [Hb|(v & Hb)]; [left; right; exact Hb|].
           unfold s2, s1 in Hb. simpl in Hb.
           destruct (Nat.eq_dec q' q) as [->|Hne]; [left; left; reflexivity|].
           rewrite upd_ne in Hb by auto. right. eauto.
Qed.

Lemma new_simple_lemma b parts s :
  exists r s', Paranoid_new b parts s = (r, s', []) /\ Makes s b parts r s'.
Proof.
  set (s1 := set_next (S (st_next s)) s).
  set (s2 := set_inters (upd (st_inters s1) (st_next s) (Some (mkInter b []))) s1).
  assert (Hq : forall A (f : unit -> M A),
    (i <- fresh ;; s0 <- get ;;
     put (set_inters (upd (st_inters s0) i (Some (mkInter b []))) s0) ;;; ret i) s =
    (Ok (st_next s), s2, [])) by reflexivity.
  destruct (add_all_lemma (st_next s) parts s2 (mkInter b [])) as (seen & s' & HE & Hn & HR).
  { unfold s2. simpl. apply upd_eq. }
  unfold Paranoid_new. rewrite bind_fresh, bind_get, bind_put. fold s1. fold s2.
  assert (HE' : Entered s (st_next s) b [] seen s').
  { destruct HE as (Hnd & Hfree & Hint & Hoth & Hpr & Hin & Hout & Hfr).
    repeat split; auto.
    - intros j Hj. rewrite Hoth by auto. unfold s2, s1. simpl. apply upd_ne. exact Hj. }
  destruct HR as [(-> & Ha)|(q & rest & Hp & Hbad & Ha)].
  - rewrite (bind_ok _ _ _ _ _ _ Ha). do 2 eexists. split; [reflexivity|].
    split; [exact Hn|]. exists parts. split; [exact HE'|left; auto].
  - rewrite (bind_exc _ _ _ _ _ _ Ha). do 2 eexists. split; [reflexivity|].
    split; [exact Hn|]. exists seen. split; [exact HE'|right]. exists q, rest. auto.
Qed.

(** ** The calls of one thread *)

Lemma local_call_lemma E c s :
  calls_policy c (st_tls s (e_tid E)) = false ->
  exists r l1 s', (forall made, spec_mcall c made (st_tls s (e_tid E)) = (r, l1)) /\
    mcall_run E c s = (r, s', []) /\ only_locals (e_tid E) l1 s s'.
Proof.
  intros HC.
  assert (Hsame : only_locals (e_tid E) (st_tls s (e_tid E)) s s).
  { split; [destruct s; reflexivity|]. split; auto. }
  assert (Hset : forall l, only_locals (e_tid E) l s (set_tls (upd (st_tls s) (e_tid E) l) s)).
  { intros l. split; [reflexivity|]. split; [apply upd_eq|]. intros t' Ht.
    simpl. apply upd_ne. exact Ht. }
  destruct c; simpl in *.
  - destruct (tl_inter (st_tls s (e_tid E))) as [v|] eqn:Hv; [|discriminate].
    assert (Hn : value_eqb v VNone = false) by (destruct v; try discriminate; reflexivity).
    exists (Exc EExistingInteraction), (st_tls s (e_tid E)), s.
    split; [|split; [|exact Hsame]].
    + intros made. destruct v; try discriminate; reflexivity.
    + unfold newInteraction, queryInteraction. rewrite bind_assoc, bind_get, bind_ret, Hv, Hn.
      reflexivity.
  - unfold endInteraction, set_tl. rewrite bind_get.
    destruct (tl_inter (st_tls s (e_tid E))) as [v|] eqn:Hv.
    + do 3 eexists. split; [reflexivity|]. split.
      { rewrite bind_assoc, bind_get, bind_put, bind_get, bind_assoc, bind_get, bind_put.
        reflexivity. }
      split; [reflexivity|]. split.
      * simpl. rewrite upd_eq. simpl. rewrite upd_eq. simpl. reflexivity.
      * intros t' Ht. simpl. rewrite !upd_ne by auto. reflexivity.
    + do 3 eexists. split; [reflexivity|]. split.
      { rewrite bind_assoc, bind_get, bind_put. reflexivity. }
      apply Hset.
  - unfold restoreInteraction, set_tl. rewrite bind_get.
    destruct (tl_prev (st_tls s (e_tid E))) as [v|] eqn:Hv; (do 3 eexists; split; [reflexivity|];
      split; [rewrite bind_assoc, bind_get, bind_put; reflexivity|]); apply Hset.
  - unfold queryInteraction. rewrite bind_get. do 3 eexists. split; [reflexivity|].
    split; [reflexivity|]. exact Hsame.
  - unfold getInteraction. rewrite bind_get.
    destruct (tl_inter (st_tls s (e_tid E))) as [v|] eqn:Hv;
      (do 3 eexists; split; [reflexivity|]; split; [reflexivity|exact Hsame]).
Qed.

(** newInteraction when there is none. *)
Lemma new_policy_lemma E parts s :
  calls_policy (MNew parts) (st_tls s (e_tid E)) = true ->
  exists made s1 t1, call_policy E (st_policy s) parts s = (made, s1, t1) /\
    match made with
    | Ok i => exists s', newInteraction E parts s = (Ok VNone, s', t1) /\
                only_locals (e_tid E) (mkTl (Some i) (tl_prev (st_tls s1 (e_tid E)))) s1 s'
    | Exc e => newInteraction E parts s = (Exc e, s1, t1)
    end.
Proof.
  intros HC. destruct (call_policy E (st_policy s) parts s) as [[made s1] t1] eqn:Hc.
  exists made, s1, t1. split; [reflexivity|].
  assert (HN : newInteraction E parts s =
    (i <- call_policy E (st_policy s) parts ;; s0 <- get ;;
     set_tl E (mkTl (Some i) (tl_prev (st_tls s0 (e_tid E)))) ;;; ret VNone) s).
  { unfold newInteraction, queryInteraction, getSecurityPolicy.
    rewrite bind_assoc, bind_get, bind_ret.
    unfold calls_policy in HC.
    destruct (tl_inter (st_tls s (e_tid E))) as [[]|]; try discriminate;
      simpl; rewrite bind_assoc, bind_get, bind_ret; reflexivity. }
  rewrite HN. destruct made as [i|e].
  - eexists. split.
    + rewrite (bind_ok _ _ _ _ _ _ Hc), bind_get. unfold set_tl.
      rewrite bind_assoc, bind_get, bind_put. simpl. rewrite app_nil_r. reflexivity.
    + split; [reflexivity|]. split; [apply upd_eq|]. intros t' Ht. simpl. apply upd_ne. exact Ht.
  - rewrite (bind_exc _ _ _ _ _ _ Hc). reflexivity.
Qed.

(** The policy is one of this package. *)
Definition simple_policy (p : policy) : option bool :=
  match p with PolParanoid => Some false | PolPermissive => Some true | PolForeign _ => None end.

Lemma call_policy_simple E pol b parts :
  simple_policy pol = Some b -> call_policy E pol parts = Paranoid_new b parts.
Proof. destruct pol; simpl; intros [= <-]; reflexivity. Qed.

Lemma Makes_locals s b parts r s' : Makes s b parts r s' -> st_tls s' = st_tls s.
Proof.
  intros (_ & seen & (_ & _ & _ & _ & _ & _ & _ & Hf) & _). rewrite Hf. reflexivity.
Qed.

Lemma new_installs_lemma E parts s b :
  (tl_inter (st_tls s (e_tid E)) = None \/ tl_inter (st_tls s (e_tid E)) = Some VNone) ->
  simple_policy (st_policy s) = Some b ->
  exists made s1, Makes s b parts made s1 /\
    match made with
    | Ok i => exists s', newInteraction E parts s = (Ok VNone, s', []) /\
                only_locals (e_tid E) (mkTl (Some i) (tl_prev (st_tls s (e_tid E)))) s1 s'
    | Exc e => newInteraction E parts s = (Exc e, s1, [])
    end.
Proof.
  intros HC Hb.
  destruct (new_policy_lemma E parts s) as (made & s1 & t1 & Hc & HM).
  { unfold calls_policy. destruct HC as [-> | ->]; reflexivity. }
  rewrite (call_policy_simple E _ b parts Hb) in Hc.
  destruct (new_simple_lemma b parts s) as (r & s' & Hp & HMk).
  rewrite Hc in Hp. inversion Hp; subst.
  exists r, s'. split; [exact HMk|]. rewrite (Makes_locals _ _ _ _ _ HMk) in HM. exact HM.
Qed.

Lemma new_foreign_lemma E parts s v :
  (tl_inter (st_tls s (e_tid E)) = None \/ tl_inter (st_tls s (e_tid E)) = Some VNone) ->
  st_policy s = PolForeign v ->
  exists made s1, e_run E (e_tid E) (CallPolicy v parts) s = (made, s1) /\
    match made with
    | Ok i => exists s', newInteraction E parts s =
                           (Ok VNone, s', [ECall Probe (e_tid E) (CallPolicy v parts)]) /\
                only_locals (e_tid E) (mkTl (Some i) (tl_prev (st_tls s1 (e_tid E)))) s1 s'
    | Exc e => newInteraction E parts s =
                 (Exc e, s1, [ECall Probe (e_tid E) (CallPolicy v parts)])
    end.
Proof.
  intros HC Hv.
  destruct (new_policy_lemma E parts s) as (made & s1 & t1 & Hc & HM).
  { unfold calls_policy. destruct HC as [-> | ->]; reflexivity. }
  rewrite Hv in Hc. simpl in Hc. unfold foreign in Hc.
  destruct (e_run E (e_tid E) (CallPolicy v parts) s) as [r0 s0]. inversion Hc; subst.
  exists made, s1. auto.
Qed.

Lemma existing_lemma E parts s v :
  tl_inter (st_tls s (e_tid E)) = Some v -> v <> VNone ->
  newInteraction E parts s = (Exc EExistingInteraction, s, []).
Proof.
  intros Hv Hn. unfold newInteraction, queryInteraction.
  rewrite bind_assoc, bind_get, bind_ret, Hv.
  destruct (value_eqb_spec v VNone); [contradiction|reflexivity].
Qed.

Lemma query_lemma E s :
  queryInteraction E s =
    (Ok (match tl_inter (st_tls s (e_tid E)) with Some v => v | None => VNone end), s, []) /\
  getInteraction E s =
    (match tl_inter (st_tls s (e_tid E)) with Some v => Ok v | None => Exc ENoInteraction end,
     s, []).
Proof.
  unfold queryInteraction, getInteraction. rewrite !bind_get. split; [reflexivity|].
  destruct (tl_inter _); reflexivity.
Qed.

(** ** Sequences of calls of one thread, nothing else running *)

Fixpoint mcalls_run (E : env) (cs : list mcall) (s : state) : list (res value) * state :=
  match cs with
  | [] => ([], s)
  | c :: cs' =>
      let '(r, s1, _) := mcall_run E c s in
      let '(rs, s2) := mcalls_run E cs' s1 in (r :: rs, s2)
  end.

Lemma call_policy_locals E pol parts s r s' t :
  policies_keep_locals E -> call_policy E pol parts s = (r, s', t) ->
  forall t', st_tls s' t' = st_tls s t'.
Proof.
  intros HE. destruct pol; simpl.
  - destruct (new_simple_lemma false parts s) as (r0 & s0 & Hp & HM). rewrite Hp.
    intros [= <- <- <-] t'. rewrite (Makes_locals _ _ _ _ _ HM). reflexivity.
  - destruct (new_simple_lemma true parts s) as (r0 & s0 & Hp & HM). rewrite Hp.
    intros [= <- <- <-] t'. rewrite (Makes_locals _ _ _ _ _ HM). reflexivity.
  - unfold foreign. destruct (e_run E (e_tid E) (CallPolicy v parts) s) as [r0 s0] eqn:Hr.
    intros [= <- <- <-] t'. apply (HE _ _ _ _ _ _ t' Hr).
Qed.

Lemma mcall_spec_lemma E c s r s' t :
  policies_keep_locals E -> mcall_run E c s = (r, s', t) ->
  exists made, spec_mcall c made (st_tls s (e_tid E)) = (r, st_tls s' (e_tid E)).
Proof.
  intros HE H. destruct (calls_policy c (st_tls s (e_tid E))) eqn:HC.
  - destruct c; simpl in HC; try discriminate.
    destruct (new_policy_lemma E parts s HC) as (made & s1 & t1 & Hc & HM).
    exists made. simpl in H.
    pose proof (call_policy_locals _ _ _ _ _ _ _ HE Hc (e_tid E)) as Hl.
    assert (Hsp : spec_mcall (MNew parts) made (st_tls s (e_tid E)) =
      match made with Ok i => (Ok VNone, mkTl (Some i) (tl_prev (st_tls s (e_tid E))))
                    | Exc e => (Exc e, st_tls s (e_tid E)) end).
    { unfold calls_policy in HC. simpl.
      destruct (tl_inter (st_tls s (e_tid E))) as [[]|]; try discriminate; reflexivity. }
    rewrite Hsp. destruct made as [i|e].
    + destruct HM as (s2 & HN & _ & Hl2 & _). rewrite HN in H. inversion H; subst.
      rewrite Hl2, Hl. reflexivity.
    + rewrite HM in H. inversion H; subst. rewrite Hl. reflexivity.
  - destruct (local_call_lemma E c s HC) as (r0 & l1 & s0 & Hsp & Hr & _ & Hl & _).
    rewrite Hr in H. inversion H; subst. exists (Ok VNone). apply Hsp.
Qed.

(** Without endInteraction the remembered interaction stays. *)
Lemma no_end_keeps_previous E cs : forall s rs s',
  policies_keep_locals E -> ~ In MEnd cs -> mcalls_run E cs s = (rs, s') ->
  tl_prev (st_tls s' (e_tid E)) = tl_prev (st_tls s (e_tid E)).
Proof.
  induction cs as [|c cs IH]; intros s rs s' HE Hne H; simpl in H.
  - inversion H; subst. reflexivity.
  - destruct (mcall_run E c s) as [[r s1] t1] eqn:Hc.
    destruct (mcalls_run E cs s1) as [rs2 s2] eqn:Hcs. inversion H; subst.
    rewrite (IH s1 _ _ HE (fun h => Hne (or_intror h)) Hcs).
    destruct (mcall_spec_lemma _ _ _ _ _ _ HE Hc) as (made & Hsp).
    destruct c; simpl in Hsp.
    + destruct (tl_inter (st_tls s (e_tid E))) as [[]|]; try destruct made;
        inversion Hsp; reflexivity.
    + exfalso. apply Hne. left. reflexivity.
    + inversion Hsp. reflexivity.
    + inversion Hsp. reflexivity.
    + inversion Hsp. reflexivity.
Qed.

Lemma end_lemma E s :
  exists s', endInteraction E s = (Ok VNone, s', []) /\
    only_locals (e_tid E) (mkTl None (tl_inter (st_tls s (e_tid E)))) s s'.
Proof.
  destruct (local_call_lemma E MEnd s eq_refl) as (r & l1 & s' & Hs & Hr & Ho).
  specialize (Hs (Ok VNone)). simpl in Hs. inversion Hs; subst. eauto.
Qed.

Lemma restore_lemma E s :
  exists s', restoreInteraction E s = (Ok VNone, s', []) /\
    only_locals (e_tid E)
      (mkTl (tl_prev (st_tls s (e_tid E))) (tl_prev (st_tls s (e_tid E)))) s s'.
Proof.
  destruct (local_call_lemma E MRestore s eq_refl) as (r & l1 & s' & Hs & Hr & Ho).
  specialize (Hs (Ok VNone)). simpl in Hs. inversion Hs; subst. eauto.
Qed.

Lemma end_restore_lemma E s :
  exists s1 s2,
    endInteraction E s = (Ok VNone, s1, []) /\
    queryInteraction E s1 = (Ok VNone, s1, []) /\
    getInteraction E s1 = (Exc ENoInteraction, s1, []) /\
    restoreInteraction E s1 = (Ok VNone, s2, []) /\
    only_locals (e_tid E)
      (mkTl (tl_inter (st_tls s (e_tid E))) (tl_inter (st_tls s (e_tid E)))) s s2.
Proof.
  destruct (end_lemma E s) as (s1 & H1 & Ho1 & Hl1 & Hx1).
  destruct (restore_lemma E s1) as (s2 & H2 & Ho2 & Hl2 & Hx2).
  destruct (query_lemma E s1) as [Hq Hg]. rewrite Hl1 in Hq, Hg, Hl2. simpl in *.
  exists s1, s2. repeat split; auto.
  - rewrite Ho2. rewrite Ho1. reflexivity.
  - intros t' Ht. rewrite Hx2, Hx1 by auto. reflexivity.
Qed.

Lemma bracket_lemma E cs s s1 rs s2 s3 t1 t2 r1 r2 :
  policies_keep_locals E -> ~ In MEnd cs ->
  endInteraction E s = (r1, s1, t1) -> mcalls_run E cs s1 = (rs, s2) ->
  restoreInteraction E s2 = (r2, s3, t2) ->
  tl_inter (st_tls s3 (e_tid E)) = tl_inter (st_tls s (e_tid E)).
Proof.
  intros HE Hne H1 H2 H3.
  destruct (end_lemma E s) as (s1' & H1' & _ & Hl1 & _). rewrite H1 in H1'. inversion H1'; subst.
  destruct (restore_lemma E s2) as (s3' & H3' & _ & Hl3 & _). rewrite H3 in H3'.
  inversion H3'; subst.
  rewrite Hl3. simpl. rewrite (no_end_keeps_previous _ _ _ _ _ HE Hne H2), Hl1. reflexivity.
Qed.

(** ** The policy register *)

Definition pcall_run (c : pcall) (s : state) : option policy * state :=
  match c with
  | PSet p => match setSecurityPolicy p s with
              | (Ok r, s', _) => (Some r, s')
              | (Exc _, s', _) => (None, s')
              end
  | PGet => match getSecurityPolicy s with
            | (Ok r, s', _) => (Some r, s')
            | (Exc _, s', _) => (None, s')
            end
  | PClear => let '(_, s', _) := clear_policy s in (None, s')
  | POther f => (None, f s)
  end.

Fixpoint pcalls_run (cs : list pcall) (s : state) : list (option policy) * state :=
  match cs with
  | [] => ([], s)
  | c :: cs' =>
      let '(r, s1) := pcall_run c s in
      let '(rs, s2) := pcalls_run cs' s1 in (r :: rs, s2)
  end.

Lemma register_lemma cs : forall s,
  others_keep_policy cs ->
  let '(rs, s') := pcalls_run cs s in spec_pcalls cs (st_policy s) = (rs, st_policy s').
Proof.
  induction cs as [|c cs IH]; intros s Ho; [reflexivity|].
  assert (Ho' : others_keep_policy cs) by (intros f Hf; apply Ho; right; exact Hf).
  assert (Hc : spec_pcall c (st_policy s) =
               (fst (pcall_run c s), st_policy (snd (pcall_run c s)))).
  { destruct c; try reflexivity. simpl. rewrite (Ho f (or_introl eq_refl)). reflexivity. }
  simpl. destruct (pcall_run c s) as [r s1] eqn:Hr. simpl in Hc.
  specialize (IH s1 Ho'). destruct (pcalls_run cs s1) as [rs s2].
  rewrite Hc, IH. reflexivity.
Qed.

Lemma set_frame_lemma p s :
  setSecurityPolicy p s = (Ok (st_policy s), set_policy p s, []).
Proof. reflexivity. Qed.

(** ** checkPermission *)

Lemma iact_answer s i x p :
  st_inters s i = Some x -> (simple_checkPermission s x p = true <-> iact_grants s i p).
Proof.
  intros Hi. rewrite simple_check_spec. unfold simple_grants, iact_grants. split.
  - intros H. exists x. auto.
  - intros (x' & Hx & H). rewrite Hi in Hx. inversion Hx; subst. exact H.
Qed.

Lemma check_public_lemma E p obj iv s :
  p = PPublic \/ p = PNone -> checkPermission E p obj iv s = (Ok (VBool true), s, []).
Proof. intros [-> | ->]; reflexivity. Qed.

Lemma check_given_lemma E p obj iv s :
  p <> PPublic -> p <> PNone -> iv <> VNone ->
  checkPermission E p obj iv s = inter_checkPermission E iv p obj s.
Proof.
  intros Hp Hn Hi. unfold checkPermission.
  destruct (perm_eqb_spec p PPublic); [contradiction|].
  destruct (perm_eqb_spec p PNone); [contradiction|]. simpl.
  destruct iv; try contradiction; rewrite bind_ret; reflexivity.
Qed.

Lemma check_current_lemma E p obj s :
  p <> PPublic -> p <> PNone ->
  checkPermission E p obj VNone s =
  match tl_inter (st_tls s (e_tid E)) with
  | None => (Exc ENoInteraction, s, [])
  | Some iv => inter_checkPermission E iv p obj s
  end.
Proof.
  intros Hp Hn. unfold checkPermission.
  destruct (perm_eqb_spec p PPublic); [contradiction|].
  destruct (perm_eqb_spec p PNone); [contradiction|]. simpl. rewrite bind_assoc, bind_get.
  destruct (tl_inter (st_tls s (e_tid E))); [rewrite bind_ret|]; reflexivity.
Qed.

Lemma inter_simple_lemma E i x p obj s :
  st_inters s i = Some x ->
  exists b, inter_checkPermission E (VIact i) p obj s = (Ok (VBool b), s, []) /\
            (b = true <-> iact_grants s i p).
Proof.
  intros Hi. exists (simple_checkPermission s x p). split.
  - unfold inter_checkPermission. rewrite bind_get, Hi. reflexivity.
  - apply iact_answer. exact Hi.
Qed.

Lemma inter_foreign_lemma E iv p obj s r s' :
  foreign_interaction iv -> e_run E (e_tid E) (CallPerm iv p obj) s = (r, s') ->
  inter_checkPermission E iv p obj s =
  (r, s', [ECall Probe (e_tid E) (CallPerm iv p obj)]).
Proof.
  intros Hf Hr. unfold inter_checkPermission, foreign.
  destruct iv; try contradiction; rewrite Hr; reflexivity.
Qed.

Lemma value_none_dec (v : value) : {v = VNone} + {v <> VNone}.
Proof. destruct v; try (right; discriminate). left. reflexivity. Qed.

Lemma answered_lemma E p obj iv s v s' t :
  checkPermission E p obj iv s = (Ok v, s', t) ->
  p = PPublic \/ p = PNone \/
  exists iv',
    (iv <> VNone /\ iv' = iv \/ iv = VNone /\ tl_inter (st_tls s (e_tid E)) = Some iv') /\
    ((exists i x b, iv' = VIact i /\ st_inters s i = Some x /\ v = VBool b /\ s' = s /\
                    (b = true <-> iact_grants s i p)) \/
     (foreign_interaction iv' /\ e_run E (e_tid E) (CallPerm iv' p obj) s = (Ok v, s'))).
Proof.
  intro H.
  destruct (perm_eqb_spec p PPublic) as [Hp|Hp]; [left; exact Hp|right].
  destruct (perm_eqb_spec p PNone) as [Hn|Hn]; [left; exact Hn|right].
  assert (K : forall iv', inter_checkPermission E iv' p obj s = (Ok v, s', t) ->
    (exists i x b, iv' = VIact i /\ st_inters s i = Some x /\ v = VBool b /\ s' = s /\
                   (b = true <-> iact_grants s i p)) \/
    (foreign_interaction iv' /\ e_run E (e_tid E) (CallPerm iv' p obj) s = (Ok v, s'))).
  { intros iv' K.
    destruct iv' eqn:Ev;
      try (unfold inter_checkPermission, raise in K; discriminate K);
      try (right; split; [exact I|]; unfold inter_checkPermission, foreign in K;
           destruct (e_run E (e_tid E) _ s) as [r s1]; inversion K; reflexivity).
    left. destruct (st_inters s i) as [x|] eqn:Hi.
    - destruct (inter_simple_lemma E i x p obj s Hi) as (b & Eb & Hb). rewrite Eb in K.
      inversion K; subst. exists i, x, b. repeat (split; [first [reflexivity|exact Hi]|]). exact Hb.
    - unfold inter_checkPermission in K. rewrite bind_get, Hi in K. discriminate K. }
  destruct (value_none_dec iv) as [Hv|Hv].
  - subst iv. rewrite (check_current_lemma E p obj s Hp Hn) in H.
    destruct (tl_inter (st_tls s (e_tid E))) as [iv'|] eqn:Et; [|discriminate H].
    exists iv'. split; [right; split; reflexivity|exact (K iv' H)].
  - rewrite (check_given_lemma E p obj iv s Hp Hn Hv) in H.
    exists iv. split; [left; split; [exact Hv|reflexivity]|exact (K iv H)].
Qed.

(** ** Cleaning up after tests *)

Lemma cleanup_lemma E s :
  exists s', management_cleanup E s = (Ok tt, s', []) /\
    st_policy s' = PolParanoid /\
    only_locals (e_tid E) (mkTl None (tl_inter (st_tls s (e_tid E))))
      (set_policy PolParanoid s) s'.
Proof.
  destruct (end_lemma E (set_policy PolParanoid s)) as (s' & He & Ho).
  exists s'. split; [|split; [|exact Ho]].
  - unfold management_cleanup, clear_policy. unfold bind at 1, bind at 1, get, put. cbn.
    unfold bind. rewrite He. reflexivity.
  - destruct Ho as [Ho _]. rewrite Ho. reflexivity.
Qed.

(** After the clean-up the thread has no interaction; restoring one gives the old one back. *)
Lemma cleanup_restore_lemma E s v :
  queryInteraction E s = (Ok v, s, []) ->
  exists s1 s2,
    management_cleanup E s = (Ok tt, s1, []) /\
    queryInteraction E s1 = (Ok VNone, s1, []) /\
    restoreInteraction E s1 = (Ok VNone, s2, []) /\
    queryInteraction E s2 = (Ok v, s2, []).
Proof.
  intros Hq0. destruct (cleanup_lemma E s) as (s1 & H1 & _ & Ho1 & Hl1 & Hx1).
  destruct (restore_lemma E s1) as (s2 & H2 & Ho2 & Hl2 & Hx2).
  destruct (query_lemma E s) as [Hq _]. rewrite Hq in Hq0. injection Hq0 as Hv.
  destruct (query_lemma E s1) as [Hq1 _]. rewrite Hl1 in Hq1. simpl in Hq1.
  destruct (query_lemma E s2) as [Hq2 _]. rewrite Hl2, Hl1 in Hq2. simpl in Hq2.
  exists s1, s2. split; [exact H1|]. split; [exact Hq1|]. split; [exact H2|].
  rewrite Hq2, Hv. reflexivity.
Qed.
