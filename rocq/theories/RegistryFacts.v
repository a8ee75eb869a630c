(** * RegistryFacts: proofs about the registry, BasicTypes and selectChecker. *)

From Coq Require Import List String Bool Arith ZArith Lia.
From Verif Require Import Base Domain CheckerModel ProxyModel MFacts RegSpec.
Import ListNotations.
Open Scope string_scope.
Open Scope m_scope.

(** Perform one call of a registry history. *)
Definition registry_call (defaults : list (rkey * value)) (a : raction) : M value :=
  match a with
  | RDefine k c => defineChecker k c ;;; ret VNone
  | RUndefine k => undefineChecker k ;;; ret VNone
  | RLookup k => getCheckerForInstancesOf k
  | RModule k => moduleChecker k
  | RBasicSet k v => BasicTypes_setitem k v ;;; ret VNone
  | RBasicDel k => BasicTypes_delitem k ;;; ret VNone
  | RBasicUpdate d => BasicTypes_update d ;;; ret VNone
  | RBasicClear => BasicTypes_clear ;;; ret VNone
  | RBasicPop k => BasicTypes_pop k
  | RReset => clear_checkers defaults ;;; ret VNone
  end.

(** A program that makes the calls of [h] one after the other, catching exceptions,
    and collects the outcomes. *)
Fixpoint registry_run (defaults : list (rkey * value)) (h : list raction)
  : M (list (res value)) :=
  match h with
  | [] => ret []
  | a :: h' =>
      r <- catch (v <- registry_call defaults a ;; ret (Ok v)) (fun e => ret (Exc e)) ;;
      rs <- registry_run defaults h' ;;
      ret (r :: rs)
  end.

Lemma last_entry_rev d k : dget rkey_eqb (rev d) k = last_entry d k.
Proof.
  induction d as [|[k1 v1] d IH]; simpl; auto.
  rewrite dget_app, IH. simpl.
  destruct (last_entry d k); auto.
Qed.

Lemma dupdate_last d d2 k :
  dget rkey_eqb (dupdate rkey_eqb d d2) k =
  match last_entry d2 k with Some v => Some v | None => dget rkey_eqb d k end.
Proof.
  rewrite (dget_dupdate rkey_eqb rkey_eqb_spec), last_entry_rev. reflexivity.
Qed.

Lemma dget_nodup_last (d : list (rkey * value)) k : NoDup (map fst d) -> last_entry d k = dget rkey_eqb d k.
Proof.
  induction d as [|[k1 v1] d IH]; simpl; auto.
  intros Hn. inversion Hn as [|? ? Hni Hnd]; subst.
  rewrite (IH Hnd). destruct (rkey_eqb_spec k1 k) as [->|]; auto.
  - destruct (dget rkey_eqb d k) eqn:Hd; auto.
    exfalso. apply Hni. apply (dget_In _ rkey_eqb_spec) in Hd.
    apply in_map_iff. exists (k, v). auto.
  - destruct (dget rkey_eqb d k); auto.
Qed.

Lemma NoDup_dupdate (d d2 : list (rkey * value)) :
  NoDup (map fst d) -> NoDup (map fst (dupdate rkey_eqb d d2)).
Proof.
  unfold dupdate. revert d. induction d2 as [|[k v] d2 IH]; simpl; auto.
  intros d Hd. apply IH. apply (NoDup_dset rkey_eqb rkey_eqb_spec). exact Hd.
Qed.

Lemma NoDup_ddel (d : list (rkey * value)) k :
  NoDup (map fst d) -> NoDup (map fst (ddel rkey_eqb d k)).
Proof.
  induction d as [|[k1 v1] d IH]; simpl; auto.
  intros Hn. inversion Hn as [|? ? Hni Hnd]; subst.
  destruct (rkey_eqb_spec k1 k); auto. simpl. constructor; auto.
  intros Hin. apply Hni. clear -Hin. induction d as [|[k2 v2] d IH]; simpl in *; auto.
  destruct (rkey_eqb k2 k); simpl in *; intuition.
Qed.

Lemma set_reg_same s : set_reg (st_reg s) s = s.
Proof. destruct s; reflexivity. Qed.
Lemma set_regbasic_same s : set_reg (st_reg s) (set_basic (st_basic s) s) = s.
Proof. destruct s; reflexivity. Qed.

(** One call refines one abstract step. *)
Lemma registry_call_refines defaults a s m :
  holds s m ->
  exists s', registry_call defaults a s = (fst (spec_step defaults a m), s', []) /\
             holds s' (snd (spec_step defaults a m)) /\ same_but_registry s s'.
Proof.
  intros (Hr & Hb & Hn).
  assert (Hsame : same_but_registry s s).
  { unfold same_but_registry. symmetry. apply set_regbasic_same. }
  destruct a as [k c|k|k|k|k v|k|d| |k|]; simpl.
  - (* define *)
    destruct (type_or_module k) eqn:Htm; simpl.
    2:{ destruct k; try discriminate. exists s. split; [reflexivity|].
        split; [repeat split; auto|auto]. }
    assert (Hd : defineChecker k c s =
                 match dget rkey_eqb (st_reg s) k with
                 | Some _ => (Exc (EDuplication "type_"), s, [])
                 | None => (Ok tt, set_reg (dset rkey_eqb (st_reg s) k c) s, [])
                 end).
    { unfold defineChecker. destruct k; try discriminate; unfold bind, get;
      destruct (dget rkey_eqb (st_reg s) _); reflexivity. }
    unfold bound. rewrite <- Hr.
    destruct (dget rkey_eqb (st_reg s) k) as [v0|] eqn:Hk.
    + exists s. split; [unfold bind; rewrite Hd; reflexivity|].
      split; [repeat split; auto | auto].
    + eexists. split; [unfold bind; rewrite Hd; reflexivity|].
      split; [|destruct s; reflexivity].
      repeat split; simpl; auto.
      intros k'; rewrite rdget_dset; unfold madd; rewrite Hr; reflexivity.
  - (* undefine *)
    unfold undefineChecker, bound. rewrite <- Hr.
    destruct (dget rkey_eqb (st_reg s) k) as [v0|] eqn:Hk.
    + eexists; split; [unfold bind, get; rewrite Hk; reflexivity|].
      split; [|destruct s; reflexivity].
      repeat split; simpl; auto.
      intros k'; rewrite (dget_ddel _ rkey_eqb_spec); unfold mdrop; rewrite Hr; reflexivity.
    + exists s; split; [unfold bind, get; rewrite Hk; reflexivity|].
      split; [repeat split; auto|auto].
  - exists s. unfold getCheckerForInstancesOf, bind, get, ret, or_none. simpl.
    rewrite Hr. split; [reflexivity|]. split; [repeat split; auto|auto].
  - exists s. unfold moduleChecker, bind, get, ret, or_none. simpl.
    rewrite Hr. split; [reflexivity|]. split; [repeat split; auto|auto].
  - eexists; split; [reflexivity|]. split; [|destruct s; reflexivity].
    repeat split; simpl.
    + intros k'; rewrite rdget_dset; unfold madd; rewrite Hr; reflexivity.
    + intros k'; rewrite rdget_dset; unfold madd; rewrite Hb; reflexivity.
    + apply (NoDup_dset rkey_eqb rkey_eqb_spec). exact Hn.
  - (* del BasicTypes[k] *)
    unfold BasicTypes_delitem, undefineChecker, bound. rewrite <- Hb, <- Hr.
    destruct (dget rkey_eqb (st_basic s) k) as [v0|] eqn:Hk.
    + destruct (dget rkey_eqb (st_reg s) k) as [v1|] eqn:Hk1.
      * eexists; split; [unfold bind, get, put; rewrite Hk; simpl; rewrite Hk1; reflexivity|].
        split; [|destruct s; reflexivity].
        repeat split; simpl.
        -- intros k'; rewrite (dget_ddel _ rkey_eqb_spec); unfold mdrop; rewrite Hr; reflexivity.
        -- intros k'; rewrite (dget_ddel _ rkey_eqb_spec); unfold mdrop; rewrite Hb; reflexivity.
        -- apply NoDup_ddel. exact Hn.
      * eexists; split; [unfold bind, get, put; rewrite Hk; simpl; rewrite Hk1; reflexivity|].
        split; [|destruct s; reflexivity].
        repeat split; simpl.
        -- intros k'. unfold mdrop. destruct (rkey_eqb_spec k k') as [<-|]; auto.
        -- intros k'; rewrite (dget_ddel _ rkey_eqb_spec); unfold mdrop; rewrite Hb; reflexivity.
        -- apply NoDup_ddel. exact Hn.
    + exists s; split; [unfold bind, get; rewrite Hk; reflexivity|].
      split; [repeat split; auto|auto].
  - eexists; split; [reflexivity|]. split; [|destruct s; reflexivity].
    repeat split; simpl.
    + intros k'; rewrite dupdate_last; unfold moverlay; rewrite Hr; reflexivity.
    + intros k'; rewrite dupdate_last; unfold moverlay; rewrite Hb; reflexivity.
    + apply NoDup_dupdate. exact Hn.
  - exists s. split; [reflexivity|]. split; [repeat split; auto|auto].
  - unfold BasicTypes_pop. rewrite <- Hb.
    destruct (dget rkey_eqb (st_basic s) k) as [v0|] eqn:Hk.
    + eexists; split; [unfold bind, get, put; rewrite Hk; reflexivity|].
      split; [|destruct s; reflexivity].
      repeat split; simpl; auto.
      * intros k'; rewrite (dget_ddel _ rkey_eqb_spec); unfold mdrop; rewrite Hb; reflexivity.
      * apply NoDup_ddel. exact Hn.
    + exists s; split; [unfold bind, get; rewrite Hk; reflexivity|].
      split; [repeat split; auto|auto].
  - eexists; split; [reflexivity|]. split; [|destruct s; reflexivity].
    repeat split; simpl; auto.
    intros k'. rewrite dupdate_last, (dget_nodup_last _ _ Hn), dupdate_last, Hb.
    unfold moverlay. destruct (m_basic m k'); auto.
    destruct (last_entry defaults k'); auto.
Qed.

Lemma same_but_registry_trans s1 s2 s3 :
  same_but_registry s1 s2 -> same_but_registry s2 s3 -> same_but_registry s1 s3.
Proof.
  unfold same_but_registry. intros -> ->. destruct s1, s2, s3; reflexivity.
Qed.

Lemma registry_refines_lemma defaults h s m :
  holds s m ->
  exists s', registry_run defaults h s = (Ok (fst (spec_run defaults h m)), s', []) /\
             holds s' (snd (spec_run defaults h m)) /\ same_but_registry s s'.
Proof.
  revert s m. induction h as [|a h IH]; intros s m Hh; simpl.
  - exists s. split; [reflexivity|]. split; auto.
    unfold same_but_registry. symmetry. apply set_regbasic_same.
  - destruct (registry_call_refines defaults a s m Hh) as (s1 & Hc & Hh1 & Hs1).
    destruct (spec_step defaults a m) as [r m1]. simpl in *.
    destruct (IH s1 m1 Hh1) as (s2 & Hr & Hh2 & Hs2).
    destruct (spec_run defaults h m1) as [rs m2]. simpl in *.
    exists s2. split; [|split; [auto|eapply same_but_registry_trans; eauto]].
    unfold bind at 1. unfold catch, bind at 1. rewrite Hc.
    destruct r as [v|e]; simpl; unfold bind; rewrite Hr; reflexivity.
Qed.

Lemma defaults_nodup_last d k : NoDup (map fst d) -> last_entry d k = dget rkey_eqb d k.
Proof. apply dget_nodup_last. Qed.

(** *** Consequences *)

Lemma last_entry_notin d k : ~ In k (map fst d) -> last_entry d k = None.
Proof.
  induction d as [|[k1 v1] d IH]; simpl; auto. intros H.
  rewrite IH by tauto. destruct (rkey_eqb_spec k1 k); auto. exfalso; auto.
Qed.

Lemma spec_step_other defaults a m k :
  ~ about k a -> a <> RReset ->
  m_reg (snd (spec_step defaults a m)) k = m_reg m k /\
  m_basic (snd (spec_step defaults a m)) k = m_basic m k.
Proof.
  intros Ha Hr. destruct a as [k' c|k'|k'|k'|k' v|k'|d| |k'|]; simpl in *; auto.
  - destruct (type_or_module k'); simpl; auto. destruct (bound _ _); simpl; auto.
    unfold madd. destruct (rkey_eqb_spec k' k); tauto.
  - destruct (bound _ _); simpl; auto.
    unfold mdrop. destruct (rkey_eqb_spec k' k); tauto.
  - unfold madd. destruct (rkey_eqb_spec k' k); tauto.
  - destruct (bound (m_basic m) k'); simpl; auto.
    unfold mdrop. destruct (rkey_eqb_spec k' k); tauto.
  - unfold moverlay. rewrite last_entry_notin by auto. auto.
  - destruct (m_basic m k'); simpl; auto.
    unfold mdrop. destruct (rkey_eqb_spec k' k); tauto.
  - congruence.
Qed.

(** A binding made by defineChecker stays until it is undefined or reset. *)
Lemma define_lives_lemma defaults k c h s m :
  holds s m -> type_or_module k = true -> m_reg m k = None ->
  (forall a, In a h -> ~ about k a /\ a <> RReset) ->
  exists s1 s2 s3 outs,
    defineChecker k c s = (Ok tt, s1, []) /\
    registry_run defaults h s1 = (Ok outs, s2, []) /\
    getCheckerForInstancesOf k s2 = (Ok c, s2, []) /\
    defineChecker k (VChk 0) s2 = (Exc (EDuplication "type_"), s2, []) /\
    undefineChecker k s2 = (Ok tt, s3, []) /\
    undefineChecker k s3 = (Exc EKey, s3, []) /\
    forall k', k' <> k -> dget rkey_eqb (st_reg s3) k' = dget rkey_eqb (st_reg s2) k'.
Proof.
  intros Hh Hk Hm Hn.
  destruct (registry_call_refines defaults (RDefine k c) s m Hh) as (s1 & Hc & Hh1 & _).
  simpl in Hc, Hh1. unfold bound in *. rewrite Hk, Hm in *. simpl in *.
  destruct (registry_refines_lemma defaults h s1 _ Hh1) as (s2 & Hr & Hh2 & _).
  set (m1 := mkMaps (madd (m_reg m) k c) (m_basic m)) in *.
  assert (Hkeep : m_reg (snd (spec_run defaults h m1)) k = Some c).
  { assert (H1 : m_reg m1 k = Some c).
    { unfold m1, madd; simpl. destruct (rkey_eqb_spec k k); congruence. }
    clear Hr Hh2 Hh1 Hc. clearbody m1. revert m1 H1. induction h as [|a h IH]; simpl; auto.
    intros m1 H1. destruct (Hn a (or_introl eq_refl)) as [Ha Hne].
    destruct (spec_step_other defaults a m1 k Ha Hne) as [Hs _].
    destruct (spec_step defaults a m1) as [r m2]. simpl in Hs.
    specialize (IH (fun a Hin => Hn a (or_intror Hin)) m2).
    destruct (spec_run defaults h m2) as [rs m3]. simpl in *. apply IH. congruence. }
  destruct Hh2 as (Hreg & Hb & Hnd).
  assert (Hk2 : dget rkey_eqb (st_reg s2) k = Some c) by (rewrite Hreg; exact Hkeep).
  exists s1, s2, (set_reg (ddel rkey_eqb (st_reg s2) k) s2),
    (fst (spec_run defaults h m1)).
  split. { unfold bind in Hc. destruct (defineChecker k c s) as [[[u|e] s'] t] eqn:Hd.
           - destruct u. simpl in Hc. rewrite app_nil_r in Hc. inversion Hc; subst; auto.
           - discriminate. }
  split; [exact Hr|].
  split; [unfold getCheckerForInstancesOf, bind, get; rewrite Hk2; reflexivity|].
  split. { unfold defineChecker. destruct k; try discriminate;
           unfold bind, get; rewrite Hk2; reflexivity. }
  split; [unfold undefineChecker, bind, get; rewrite Hk2; reflexivity|].
  split.
  - unfold undefineChecker, bind, get. simpl.
    rewrite (dget_ddel _ rkey_eqb_spec), (dict_eqb_refl _ rkey_eqb_spec). reflexivity.
  - intros k' Hne. simpl. rewrite (dget_ddel _ rkey_eqb_spec).
    destruct (rkey_eqb_spec k k'); congruence.
Qed.

(** BasicTypes entries survive cleanup and anything that is not about them. *)
Lemma basic_survives_lemma defaults k v h s m :
  holds s m ->
  (forall a, In a h -> ~ about k a) ->
  exists s1 s2 outs,
    BasicTypes_setitem k v s = (Ok tt, s1, []) /\
    registry_run defaults h s1 = (Ok outs, s2, []) /\
    getCheckerForInstancesOf k s2 = (Ok v, s2, []).
Proof.
  intros Hh Hn.
  destruct (registry_call_refines defaults (RBasicSet k v) s m Hh) as (s1 & Hc & Hh1 & _).
  simpl in Hc, Hh1.
  destruct (registry_refines_lemma defaults h s1 _ Hh1) as (s2 & Hr & (Hreg & _ & _) & _).
  set (m1 := mkMaps (madd (m_reg m) k v) (madd (m_basic m) k v)) in *.
  exists s1, s2, (fst (spec_run defaults h m1)).
  split. { unfold bind in Hc. destruct (BasicTypes_setitem k v s) as [[[u|e] s'] t] eqn:Hd.
           - destruct u. simpl in Hc. rewrite app_nil_r in Hc. inversion Hc; subst; auto.
           - discriminate. }
  split; [exact Hr|].
  unfold getCheckerForInstancesOf, bind, get, ret. rewrite Hreg.
  assert (Hkeep : m_reg (snd (spec_run defaults h m1)) k = Some v /\
                  m_basic (snd (spec_run defaults h m1)) k = Some v).
  { assert (H1 : m_reg m1 k = Some v /\ m_basic m1 k = Some v).
    { unfold m1, madd; simpl. destruct (rkey_eqb_spec k k); [auto|congruence]. }
    clear Hr Hreg Hh1 Hc. clearbody m1. revert m1 H1. induction h as [|a h IH]; simpl; auto.
    intros m1 H1. pose proof (Hn a (or_introl eq_refl)) as Ha.
    assert (H2 : m_reg (snd (spec_step defaults a m1)) k = Some v /\
                 m_basic (snd (spec_step defaults a m1)) k = Some v).
    { destruct (match a with RReset => true | _ => false end) eqn:Hra.
      - destruct a; try discriminate. simpl. unfold moverlay.
        destruct H1 as [_ H1]. rewrite H1. auto.
      - destruct (spec_step_other defaults a m1 k Ha) as [-> ->]; auto.
        intros ->. discriminate. }
    destruct (spec_step defaults a m1) as [r m2]. simpl in H2.
    specialize (IH (fun a Hin => Hn a (or_intror Hin)) m2).
    destruct (spec_run defaults h m2) as [rs m3]. simpl in *. apply IH. exact H2. }
  destruct Hkeep as [-> _]. reflexivity.
Qed.

(** Deleting from BasicTypes is immediately reflected and survives cleanup unless the
    type has a default checker. *)
Lemma basic_delete_lemma defaults k s m v w :
  holds s m -> m_basic m k = Some v -> m_reg m k = Some w ->
  exists s1 s2,
    BasicTypes_delitem k s = (Ok tt, s1, []) /\
    getCheckerForInstancesOf k s1 = (Ok VNone, s1, []) /\
    clear_checkers defaults s1 = (Ok tt, s2, []) /\
    dget rkey_eqb (st_reg s2) k = last_entry defaults k.
Proof.
  intros Hh Hb Hr.
  destruct (registry_call_refines defaults (RBasicDel k) s m Hh) as (s1 & Hc & Hh1 & _).
  simpl in Hc, Hh1. unfold bound in *. rewrite Hb, Hr in *. simpl in *.
  destruct (registry_call_refines defaults RReset s1 _ Hh1) as (s2 & Hc2 & (Hreg & _) & _).
  exists s1, s2.
  split. { unfold bind in Hc. destruct (BasicTypes_delitem k s) as [[[u|e] s'] t] eqn:Hd.
           - destruct u. simpl in Hc. rewrite app_nil_r in Hc. inversion Hc; subst; auto.
           - discriminate. }
  split. { unfold getCheckerForInstancesOf, bind, get, ret. destruct Hh1 as (Hreg1 & _).
           rewrite Hreg1. simpl. unfold mdrop. rewrite (dict_eqb_refl _ rkey_eqb_spec).
           reflexivity. }
  split. { unfold registry_call in Hc2. mbind Hc2; [discriminate|].
           destruct a. minj Hf. symmetry in Ht. apply app_eq_nil in Ht. destruct Ht as [-> _].
           exact Hm. }
  rewrite Hreg. simpl. unfold moverlay, mdrop.
  rewrite (dict_eqb_refl _ rkey_eqb_spec). reflexivity.
Qed.

(** ** selectChecker *)

Lemma type_of_spec E s v : type_of E s v = concrete_type E s v.
Proof. destruct v; reflexivity. Qed.

Lemma is_Checker_spec E s v : is_Checker E s v = true <-> IsChecker E s v.
Proof.
  unfold is_Checker, IsChecker. split.
  - destruct v as [| | | | | | | | | |i| | |]; try discriminate.
    destruct (st_chks s i) as [k|] eqn:Hk; try discriminate.
    intros H. exists i, k. repeat split; auto.
    destruct (e_cimpl E); auto. destruct (e_watch E); auto.
    right; right. destruct (ck_kind k); auto; discriminate.
  - intros (i & k & -> & -> & H).
    destruct (e_cimpl E); auto. destruct (e_watch E) eqn:Hw; auto.
    destruct H as [H|[H|H]]; try discriminate.
    destruct (ck_kind k); auto; contradiction.
Qed.

Lemma select_result_lemma E fuel c obj s oc s' tr :
  i_select (interp_n E fuel) c obj s = (Ok oc, s', tr) ->
  oc = None \/ exists c', oc = Some c' /\ IsChecker E s' c'.
Proof.
  revert c s s' tr oc. induction fuel as [|f IH]; intros c s s' tr oc H; simpl in H.
  - discriminate.
  - unfold select_loop in H. rewrite bind_get in H.
    destruct (is_Checker E s c) eqn:Hc.
    + minj H. right. exists c. split; auto. apply is_Checker_spec; auto.
    + mbind H; [discriminate|].
      destruct (value_eqb a VNoProxy || value_eqb a VNone)%bool.
      * minj Hf. auto.
      * eapply IH; eauto.
Qed.

Lemma selectChecker_result_lemma E fuel obj s oc s' tr :
  do_select E fuel obj s = (Ok oc, s', tr) ->
  oc = None \/ exists c', oc = Some c' /\ IsChecker E s' c'.
Proof.
  unfold do_select, selectChecker, selectCheckerPy, selectCheckerC.
  destruct (e_cimpl E); rewrite bind_get;
    destruct (value_eqb (registered E s obj) VNoProxy);
    try (intros H; minj H; auto; fail).
  - apply select_result_lemma.
  - destruct (_ && _)%bool; [intros H; minj H; auto|]. apply select_result_lemma.
Qed.

Lemma raw_call_eq E k f args s :
  raw E k (OCall f args) s =
  (fst (e_run E (e_tid E) (CallOp (OCall f args)) s),
   snd (e_run E (e_tid E) (CallOp (OCall f args)) s),
   [ECall k (e_tid E) (CallOp (OCall f args))]).
Proof.
  unfold raw, foreign, bind. destruct (e_run _ _ _ s) as [[v|e] s1]; reflexivity.
Qed.

Lemma select_exact_lemma E fuel c obj s r s' tr :
  no_proxied_factories E s -> is_proxy c = false ->
  i_select (interp_n E fuel) c obj s = (r, s', tr) ->
  r = Exc EFuel \/ Selects E obj s c r s' tr.
Proof.
  revert c s s' tr r. induction fuel as [|f IH]; intros c s s' tr r (Hreg & Hrun) Hp H;
    simpl in H.
  - minj H. auto.
  - unfold select_loop in H. rewrite bind_get in H.
    destruct (is_Checker E s c) eqn:Hc.
    { minj H. right. apply Sel_checker. apply is_Checker_spec; auto. }
    assert (Hnc : ~ IsChecker E s c).
    { rewrite <- is_Checker_spec. congruence. }
    destruct (match c with VModFun => true | _ => false end) eqn:Hmf.
    { destruct c; try discriminate. simpl in H.
      rewrite bind_assoc, bind_get in H.
      set (v := match obj with
                | VMod m => match dget rkey_eqb (st_reg s) (KMod m) with
                            | Some v => v | None => VChk named_cid end
                | _ => VChk named_cid end).
      assert (H' : (if (value_eqb v VNoProxy || value_eqb v VNone)%bool
                    then ret None else i_select (interp_n E f) v obj) s = (r, s', tr)).
      { unfold v. destruct obj; rewrite bind_ret in H; exact H. }
      clear H.
      assert (Hcase : (exists m w, obj = VMod m /\ dget rkey_eqb (st_reg s) (KMod m) = Some w
                                   /\ v = w) \/
                      ((forall m, obj = VMod m -> dget rkey_eqb (st_reg s) (KMod m) = None)
                       /\ v = spec_named)).
      { unfold v. destruct obj; try (right; split; [intros; congruence|reflexivity]).
        destruct (dget rkey_eqb (st_reg s) (KMod m)) as [w|] eqn:Hd.
        - left. exists m, w. auto.
        - right. split; [|reflexivity]. intros m0 [= <-]. exact Hd. }
      clearbody v.
      destruct Hcase as [(m & w & -> & Hd & Hvw)|(Hd & ->)]; [rewrite Hvw in *; clear v Hvw|].
      - destruct (value_eqb_spec w VNoProxy) as [Hw|Hn1]; simpl in H'.
        { subst w. minj H'. right. eapply Sel_module_rock; eauto. }
        destruct (value_eqb_spec w VNone) as [Hw|Hn2]; simpl in H'.
        { subst w. minj H'. right. eapply Sel_module_rock; eauto. }
        destruct (IH w s s' tr r) as [->|Hs]; auto.
        { split; auto. }
        { eapply Hreg; eauto. }
        right. eapply Sel_module; eauto.
      - simpl in H'.
        destruct (IH spec_named s s' tr r) as [->|Hs]; auto.
        { split; auto. }
        right. eapply Sel_module_default; eauto. }
    destruct (match c with
              | VNone | VNotImpl | VBool _ | VInt _ | VStr _ | VNoProxy | VChk _ => true
              | _ => false end) eqn:Hcall.
    { assert (Hcf : call_factory (interp_n E f) c obj s =
                    (Exc (EType "object is not callable"), s, [])).
      { destruct c; try discriminate; reflexivity. }
      rewrite (bind_exc _ _ _ _ _ _ Hcf) in H. minj H. right.
      apply Sel_not_callable; auto. destruct c; simpl; auto; discriminate. }
    assert (Hfc : foreign_callable c).
    { destruct c; simpl; auto; discriminate. }
    assert (Hcf : call_factory (interp_n E f) c obj =
                  i_op (interp_n E f) Probe (OCall c [obj])).
    { destruct c; try discriminate; reflexivity. }
    rewrite Hcf in H. clear Hcf.
    destruct f as [|f].
    { simpl in H. minj H. auto. }
    assert (Hop : i_op (interp_n E (S f)) Probe (OCall c [obj]) s =
                  raw E Probe (OCall c [obj]) s).
    { simpl. destruct c; try discriminate; reflexivity. }
    destruct (e_run E (e_tid E) (CallOp (OCall c [obj])) s) as [[v|e] s1] eqn:Hr.
    + rewrite raw_call_eq, Hr in Hop. simpl fst in Hop. simpl snd in Hop.
      rewrite (bind_ok _ _ _ _ _ _ Hop) in H.
      destruct (Hrun _ _ _ _ _ _ Hreg Hr) as (Hpv & Hreg1).
      destruct (value_eqb_spec v VNoProxy) as [->|Hn1]; simpl in H.
      { minj H. right. eapply Sel_factory_rock; eauto. }
      destruct (value_eqb_spec v VNone) as [->|Hn2]; simpl in H.
      { minj H. right. eapply Sel_factory_rock; eauto. }
      change (mkInterp (run_op E (interp_n E f)) (checker_check E (interp_n E f))
                       (select_loop E (interp_n E f))) with (interp_n E (S f)) in H.
      change (select_loop E (interp_n E f) v obj s1)
        with (i_select (interp_n E (S f)) v obj s1) in H.
      destruct (i_select (interp_n E (S f)) v obj s1) as [[r2 s2] t2] eqn:Hsel.
      minj H.
      destruct (IH v s1 s' t2 r) as [->|Hs]; auto.
      { split; auto. }
      right. eapply Sel_factory; eauto.
    + rewrite raw_call_eq, Hr in Hop. simpl fst in Hop. simpl snd in Hop.
      rewrite (bind_exc _ _ _ _ _ _ Hop) in H. minj H.
      right. apply Sel_factory_raises; auto.
Qed.

Lemma registered_spec E s obj :
  registered E s obj = match registered_for E s obj with
                       | Some v => v | None => spec_default end.
Proof. unfold registered, registered_for. rewrite type_of_spec. reflexivity. Qed.

Lemma selectChecker_exact_lemma E fuel obj s r s' tr :
  no_proxied_factories E s ->
  do_select E fuel obj s = (r, s', tr) ->
  r = Exc EFuel \/ SelectChecker E s obj r s' tr.
Proof.
  intros Hnp H.
  assert (Hreg : is_proxy (registered E s obj) = false).
  { rewrite registered_spec. destruct (registered_for E s obj) eqn:Hr; auto.
    destruct Hnp as [Hnp _]. eapply Hnp; eauto. }
  destruct (value_eqb_spec (registered E s obj) VNoProxy) as [Hv|Hv].
  { assert (Hr : registered_for E s obj = Some VNoProxy).
    { rewrite registered_spec in Hv. destruct (registered_for E s obj); [congruence|].
      discriminate. }
    right. unfold do_select, selectChecker, selectCheckerPy, selectCheckerC in H.
    destruct (e_cimpl E); rewrite bind_get, Hv in H; minj H; apply SC_rock; auto. }
  destruct (value_eqb_spec (registered E s obj) (VChk default_cid)) as [Hd|Hd].
  - assert (Hr : registered_for E s obj = None \/ registered_for E s obj = Some spec_default).
    { rewrite registered_spec in Hd. destruct (registered_for E s obj); [|auto].
      right. rewrite Hd. reflexivity. }
    unfold do_select, selectChecker, selectCheckerPy, selectCheckerC in H.
    destruct (e_cimpl E) eqn:Hi; rewrite bind_get, Hd in H; simpl in H.
    + destruct (select_exact_lemma E fuel (VChk default_cid) obj s r s' tr) as [->|Hs]; auto.
      right. eapply SC_default; eauto. congruence.
    + rewrite type_of_spec in H.
      destruct (e_isexc E (concrete_type E s obj)) eqn:Hx.
      * minj H. right. apply SC_exception; auto.
      * destruct (select_exact_lemma E fuel (VChk default_cid) obj s r s' tr) as [->|Hs]; auto.
        right. eapply SC_default; eauto.
  - assert (Hr : exists v, registered_for E s obj = Some v /\ v = registered E s obj).
    { rewrite registered_spec in Hd |- *. destruct (registered_for E s obj); eauto.
      exfalso. apply Hd. reflexivity. }
    destruct Hr as (v & Hr & ->).
    assert (H' : i_select (interp_n E fuel) (registered E s obj) obj s = (r, s', tr)).
    { unfold do_select, selectChecker, selectCheckerPy, selectCheckerC in H.
      destruct (value_eqb_spec (registered E s obj) VNoProxy); [contradiction|].
      destruct (e_cimpl E); rewrite bind_get in H; simpl in H.
      - destruct (value_eqb_spec (registered E s obj) VNoProxy); [contradiction|]. exact H.
      - destruct (value_eqb_spec (registered E s obj) VNoProxy); [contradiction|].
        destruct (value_eqb_spec (registered E s obj) (VChk default_cid)); [contradiction|].
        exact H. }
    destruct (select_exact_lemma E fuel _ obj s r s' tr Hnp Hreg H') as [->|Hs]; auto.
    right. eapply SC_registered; eauto.
Qed.

(** ** Types without factories *)

Lemma call_factory_not_callable E f c obj s :
  not_callable c ->
  call_factory (interp_n E f) c obj s = (Exc (EType "object is not callable"), s, []).
Proof. destruct c; simpl; intros H; try contradiction; reflexivity. Qed.

(** The outcome for a value that is a checker or not callable. *)
Definition settled_outcome (E : env) (s : state) (c : value) : res (option value) :=
  if is_Checker E s c then Ok (Some c) else Exc (EType "object is not callable").

Lemma i_select_settled E f c obj s :
  not_callable c ->
  i_select (interp_n E (S f)) c obj s = (settled_outcome E s c, s, []).
Proof.
  intros Hc. simpl. unfold select_loop, settled_outcome. rewrite bind_get.
  destruct (is_Checker E s c); [reflexivity|].
  rewrite (bind_exc _ _ _ _ _ _ (call_factory_not_callable E f c obj s Hc)). reflexivity.
Qed.

Lemma do_select_settled E f obj s :
  settled E s obj ->
  do_select E (S f) obj s =
  (if value_eqb (registered E s obj) VNoProxy then Ok None
   else if (match e_cimpl E with ImplC => true | ImplPy => false end
            && value_eqb (registered E s obj) (VChk default_cid)
            && e_isexc E (concrete_type E s obj))%bool then Ok None
   else settled_outcome E s (registered E s obj), s, []).
Proof.
  intros Hs.
  assert (Hc : value_eqb (registered E s obj) VNoProxy = false ->
               not_callable (registered E s obj)).
  { unfold settled in Hs. rewrite registered_spec.
    destruct (registered_for E s obj) as [v|]; [|simpl; auto].
    destruct Hs as [->|H]; auto. discriminate. }
  unfold do_select, selectChecker, selectCheckerPy, selectCheckerC.
  destruct (e_cimpl E); rewrite bind_get;
    destruct (value_eqb (registered E s obj) VNoProxy) eqn:Hv; try reflexivity.
  - simpl. rewrite <- (i_select_settled E f _ obj s (Hc eq_refl)). reflexivity.
  - rewrite type_of_spec. simpl andb.
    destruct (value_eqb (registered E s obj) (VChk default_cid) &&
              e_isexc E (concrete_type E s obj))%bool; [reflexivity|].
    apply i_select_settled. auto.
Qed.

Lemma same_type_lemma E f o1 o2 s :
  concrete_type E s o1 = concrete_type E s o2 -> settled E s o1 ->
  do_select E (S f) o1 s = do_select E (S f) o2 s.
Proof.
  intros Ht Hs.
  assert (Hr : registered_for E s o1 = registered_for E s o2).
  { unfold registered_for. rewrite Ht. reflexivity. }
  assert (Hs2 : settled E s o2) by (unfold settled in *; rewrite <- Hr; exact Hs).
  rewrite !do_select_settled by auto.
  rewrite !registered_spec, Hr, Ht. reflexivity.
Qed.

Lemma defineChecker_inv k c s s1 t :
  defineChecker k c s = (Ok tt, s1, t) ->
  t = [] /\ s1 = set_reg (dset rkey_eqb (st_reg s) k c) s.
Proof.
  unfold defineChecker. destruct k; try discriminate; unfold bind, get, raise, put;
    destruct (dget rkey_eqb (st_reg s) _); try discriminate; intros H; minj H; auto.
Qed.

Lemma other_type_lemma E f obj s k c s1 t :
  defineChecker k c s = (Ok tt, s1, t) ->
  k <> KType (concrete_type E s obj) -> settled E s obj ->
  fst (fst (do_select E (S f) obj s1)) = fst (fst (do_select E (S f) obj s)).
Proof.
  intros Hd Hk Hs. apply defineChecker_inv in Hd. destruct Hd as [_ ->].
  assert (Ht : concrete_type E (set_reg (dset rkey_eqb (st_reg s) k c) s) obj =
               concrete_type E s obj) by (destruct obj; reflexivity).
  assert (Hr : registered_for E (set_reg (dset rkey_eqb (st_reg s) k c) s) obj =
               registered_for E s obj).
  { unfold registered_for. rewrite Ht. simpl.
    apply (dget_dset_ne _ rkey_eqb_spec). exact Hk. }
  assert (Hs2 : settled E (set_reg (dset rkey_eqb (st_reg s) k c) s) obj).
  { unfold settled in *. rewrite Hr. exact Hs. }
  rewrite !do_select_settled by auto. rewrite !registered_spec, Hr, Ht. reflexivity.
Qed.

Lemma getattr_plain_eq E f k v n fr s :
  match v with VProxy _ | VDeco _ => False | _ => True end ->
  (is_atom v && String.eqb n "__Security_checker__")%bool = false ->
  i_op (interp_n E (S f)) k (OGetattr v n fr) s =
  (fst (e_run E (e_tid E) (CallOp (OGetattr v n fr)) s),
   snd (e_run E (e_tid E) (CallOp (OGetattr v n fr)) s),
   [ECall k (e_tid E) (CallOp (OGetattr v n fr))]).
Proof.
  intros Hv Ha.
  assert (H : i_op (interp_n E (S f)) k (OGetattr v n fr) s = raw E k (OGetattr v n fr) s).
  { simpl. destruct v; try contradiction; simpl in *; rewrite ?Ha; reflexivity. }
  rewrite H. unfold raw, foreign, bind. destruct (e_run _ _ _ s) as [[?|?] ?]; reflexivity.
Qed.

Lemma none_type_error_lemma E f obj s :
  registered_for E s obj = Some VNone ->
  do_select E (S f) obj s = (Exc (EType "object is not callable"), s, []).
Proof.
  intros Hr. rewrite do_select_settled.
  - rewrite registered_spec, Hr. simpl. rewrite andb_false_r. reflexivity.
  - unfold settled. rewrite Hr. right. exact I.
Qed.
