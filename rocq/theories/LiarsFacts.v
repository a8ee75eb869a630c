(** Proofs about objects that lie about their class. *)

From Coq Require Import String List Arith Bool.
From Verif Require Import Liars LiarsSpec.

Lemma isinstance_truthful_of : forall {W X} (R : runtime W X) x T w,
  truthful R x T -> isinstance R x T w = (Returns false, w).
Proof.
  intros W X R x T w [Hn Ht]. unfold isinstance.
  destruct (rt_sub R (type_of R x) T) eqn:E; [exfalso; exact (Hn E)|].
  destruct (Ht w) as [(c & Hc & Hno) | (e & Hc & He)]; rewrite Hc.
  - destruct (rt_as_type R c) as [t|] eqn:Et; [|reflexivity].
    specialize (Hno t eq_refl). unfold below in Hno.
    destruct (rt_sub R t T); [exfalso; apply Hno; reflexivity|].
    rewrite andb_false_r. reflexivity.
  - rewrite He. reflexivity.
Qed.

Section Facts.
  Context {W X : Type} (R : runtime W X).
  Hypothesis HS : sane R.

  Lemma plain_type : forall x, not_a_proxy x -> rt_sub R (type_of R x) (rt_proxy R) = false.
  Proof using HS.
    intros x Hx. destruct x; cbn in *; try contradiction.
    - destruct (rt_sub R (rt_none R) (rt_proxy R)) eqn:E; auto.
      exfalso. exact (sane_none R HS E).
    - destruct (rt_sub R (rt_type R n) (rt_proxy R)) eqn:E; auto.
      exfalso. exact (sane_plain R HS n E).
  Qed.

  (** *** isinstance *)

  Lemma isinstance_true : forall x T w w',
    isinstance R x T w = (Returns true, w') ->
    (below R (type_of R x) T /\ w' = w) \/ says R x T w w'.
  Proof using.
    intros x T w w' H. unfold isinstance in H.
    destruct (rt_sub R (type_of R x) T) eqn:E.
    - injection H as <-. left. split; [exact E | reflexivity].
    - destruct (rt_class R x w) as [[c|e|c e| |] w1] eqn:Ec; try discriminate.
      + destruct (rt_as_type R c) as [t|] eqn:Et; [|discriminate].
        injection H as Hb <-. apply andb_true_iff in Hb. destruct Hb as [_ Hb].
        right. exists c, t. repeat split; assumption.
      + destruct (rt_attribute_error R e); discriminate.
  Qed.

  Lemma isinstance_says : forall x T w w',
    rt_sub R (type_of R x) T = false -> says R x T w w' ->
    isinstance R x T w = (Returns true, w').
  Proof using.
    intros x T w w' E (c & t & Hc & Ht & Hb). unfold isinstance. rewrite E, Hc, Ht.
    unfold below in Hb. rewrite Hb. replace (Nat.eqb t (type_of R x)) with false; [reflexivity|].
    symmetry. apply Nat.eqb_neq. intros ->. congruence.
  Qed.

  Lemma isinstance_sub : forall x T w,
    below R (type_of R x) T -> isinstance R x T w = (Returns true, w).
  Proof using.
    intros x T w H. unfold isinstance, below in *. rewrite H. reflexivity.
  Qed.

  Lemma isinstance_truthful : forall x T w,
    truthful R x T -> isinstance R x T w = (Returns false, w).
  Proof using.
    intros x T w H. exact (isinstance_truthful_of R x T w H).
  Qed.

  Lemma truthful_says : forall x T w w', truthful R x T -> ~ says R x T w w'.
  Proof using.
    intros x T w w' [_ Ht] (c & t & Hc & Hty & Hb).
    destruct (Ht w) as [(c' & Hc' & Hno) | (e & Hc' & _)]; rewrite Hc in Hc'.
    - injection Hc' as <- _. exact (Hno t Hty Hb).
    - discriminate.
  Qed.

  (** *** Proxies *)

  Lemma proxies_factory : forall b fuel t o c w, below R t (rt_proxy R) ->
    ProxyFactory R b fuel (Prox t o c) None w = (Returns (Prox t o c), w) /\
    ProxyFactory R b fuel (Prox t o c) (Some c) w = (Returns (Prox t o c), w) /\
    (forall d, rt_is R d c = false ->
       ProxyFactory R b fuel (Prox t o c) (Some d) w = (Raises (rt_type_error R), w)) /\
    getObject R b (Prox t o c) w = (Returns o, w) /\
    getChecker R b (Prox t o c) w = (Returns c, w) /\
    proxy R Py fuel (Prox t o c) w = (Returns (Prox t o c), w) /\
    (t = rt_proxy R -> proxy R C fuel (Prox t o c) w = (Returns (Prox t o c), w)).
  Proof using HS.
    intros b fuel t o c w H. unfold below in H.
    assert (Hi : isinstance R (Prox t o c) (rt_proxy R) w = (Returns true, w))
      by (apply isinstance_sub; exact H).
    assert (Hg : getChecker R b (Prox t o c) w = (Returns c, w)).
    { destruct b; unfold getChecker, super_get; cbn [type_of]; rewrite H; reflexivity. }
    repeat split.
    - unfold ProxyFactory, andthen. rewrite Hi. reflexivity.
    - unfold ProxyFactory, andthen. rewrite Hi, Hg. rewrite (sane_is R HS). reflexivity.
    - intros d Hd. unfold ProxyFactory, andthen. rewrite Hi, Hg, Hd. reflexivity.
    - destruct b; unfold getObject.
      + unfold andthen. rewrite Hi. unfold super_get. cbn [type_of]. rewrite H. reflexivity.
      + cbn [type_of]. rewrite H. reflexivity.
    - exact Hg.
    - cbn [proxy]. unfold proxy_py, andthen. rewrite Hi. reflexivity.
    - intros ->. cbn [proxy]. unfold proxy_c. cbn [type_of]. rewrite Nat.eqb_refl. reflexivity.
  Qed.

  Lemma proxies_isinstance : forall b t o c T w, below R t (rt_proxy R) ->
    proxy_isinstance R b (Prox t o c) T w = isinstance R o T w.
  Proof using HS.
    intros b t o c T w H. unfold proxy_isinstance, andthen.
    destruct (proxies_factory b 0 t o c w H) as (_ & _ & _ & Hg & _). rewrite Hg. reflexivity.
  Qed.

  (** *** Selecting *)

  Lemma loop_none : forall fuel a x w w',
    select_loop R fuel a x w = (Returns None, w') -> Declines R x a w w'.
  Proof using.
    induction fuel as [|k IH]; intros a x w w' H; cbn in H; [discriminate|].
    destruct a as [| |c|f]; try discriminate.
    unfold andthen in H. destruct (rt_call R f x w) as [[a'|e|a' e| |] w1] eqn:Ec; try discriminate.
    destruct a' as [| |c|g]; cbn in H.
    - injection H as <-. eapply declines_now; eauto.
    - injection H as <-. eapply declines_now; eauto.
    - eapply declines_later; [exact Ec|]. apply IH. exact H.
    - eapply declines_later; [exact Ec|]. apply IH. exact H.
  Qed.

  Lemma loop_both : forall fuel a x w o e w',
    select_loop R fuel a x w <> (Both o e, w').
  Proof using.
    induction fuel as [|k IH]; intros a x w o e w' H; cbn in H; [discriminate|].
    destruct a as [| |c|f]; try discriminate.
    unfold andthen in H. destruct (rt_call R f x w) as [[a'|e'|a' e'| |] w1]; try discriminate.
    destruct a'; try discriminate; exact (IH _ _ _ _ _ _ H).
  Qed.

  Lemma select_py_none : forall fuel x w w',
    select_py R fuel x w = (Returns None, w') -> exempt R x w w'.
  Proof using.
    intros fuel x w w' H. unfold select_py in H. unfold exempt.
    unfold registered in H.
    destruct (rt_registry R w (type_of R x)) as [a|].
    - exists a. split; [reflexivity|]. destruct a.
      + injection H as <-. left. split; reflexivity.
      + right. apply (loop_none _ _ _ _ _ H).
      + right. apply (loop_none _ _ _ _ _ H).
      + right. apply (loop_none _ _ _ _ _ H).
    - apply loop_none in H. inversion H.
  Qed.

  (** The three ways in which the C function declines. *)
  Lemma select_c_none : forall fuel x w w',
    select_c R fuel x w = (Returns None, w') ->
    exempt R x w w' \/
    (by_default R x w /\ ((below R (type_of R x) (rt_exception R) /\ w' = w) \/
                          says R x (rt_exception R) w w')).
  Proof using.
    intros fuel x w w' H. unfold select_c, registered in H. unfold exempt, by_default.
    destruct (rt_registry R w (type_of R x)) as [a|] eqn:Er.
    - destruct a as [| |c|f].
      + injection H as <-. left. exists ANoProxy. auto.
      + left. exists ANone. split; [reflexivity|]. right. exact (loop_none _ _ _ _ _ H).
      + destruct (rt_is R c (rt_default R)) eqn:Ei.
        * destruct (isinstance R x (rt_exception R) w) as [[[|]|e|y e| |] w1] eqn:EI; try discriminate.
          -- injection H as <-. right. split; [reflexivity|]. exact (isinstance_true _ _ _ _ EI).
          -- apply loop_none in H. inversion H.
        * apply loop_none in H. inversion H.
      + left. exists (ACall f). split; [reflexivity|]. right. exact (loop_none _ _ _ _ _ H).
    - destruct (rt_is R (rt_default R) (rt_default R)) eqn:Ei.
      + destruct (isinstance R x (rt_exception R) w) as [[[|]|e|y e| |] w1] eqn:EI; try discriminate.
        * injection H as <-. right. split; [exact I|]. exact (isinstance_true _ _ _ _ EI).
        * apply loop_none in H. inversion H.
      + apply loop_none in H. inversion H.
  Qed.

  Lemma select_none : forall b fuel x w w',
    select R b fuel x w = (Returns None, w') -> leaves R b x w w'.
  Proof using.
    intros [|] fuel x w w' H; unfold leaves.
    - left. exact (select_py_none _ _ _ _ H).
    - unfold select in H. destruct (select_c R fuel x w) as [[o|e|o e| |] w1] eqn:E; try discriminate.
      injection H as -> ->. apply select_c_none in E. tauto.
  Qed.

  (** *** Making proxies *)

  Lemma new_proxy_returns : forall x c w y w',
    new_proxy R x c w = (Returns y, w') -> a_new_proxy R x y /\ w' = w.
  Proof using.
    intros x c w y w' H. unfold new_proxy in H.
    destruct c; cbn in H; try discriminate; injection H as <- <-;
      (split; [eexists; split; [reflexivity|discriminate] | reflexivity]).
  Qed.

  Lemma protect_returns : forall b fuel x w y w',
    protect R b fuel x w = (Returns y, w') ->
    a_new_proxy R x y \/
    (y = x /\ exists w1, no_own_checker R Py x w w1 /\ leaves R b x w1 w').
  Proof using.
    intros b fuel x w y w' H. unfold protect, andthen at 1 in H.
    destruct (security_checker R x w) as [[c|e|c e| |] w1] eqn:Es; try discriminate.
    destruct c as [|n|t o k].
    - unfold andthen in H. destruct (select R b fuel x w1) as [[oc|e|oc e| |] w2] eqn:El; try discriminate.
      destruct oc as [c|].
      + left. exact (proj1 (new_proxy_returns _ _ _ _ _ H)).
      + cbn in H. injection H as <- <-. right. split; [reflexivity|]. exists w1. split.
        * unfold security_checker in Es. cbn.
          destruct (rt_security_checker R x w) as [[c|e|c e| |] w3] eqn:Eq; try discriminate.
          -- injection Es as -> ->. left. reflexivity.
          -- destruct (rt_attribute_error R e) eqn:Ee; [|discriminate].
             injection Es as ->. right. exists e. auto.
        * exact (select_none _ _ _ _ _ El).
    - left. exact (proj1 (new_proxy_returns _ _ _ _ _ H)).
    - left. exact (proj1 (new_proxy_returns _ _ _ _ _ H)).
  Qed.

  Lemma factory_returns : forall b fuel x w y w', not_a_proxy x ->
    ProxyFactory R b fuel x None w = (Returns y, w') ->
    a_new_proxy R x y \/
    (y = x /\ (says R x (rt_proxy R) w w' \/
               exists w1 w2, no_own_checker R Py x w1 w2 /\ leaves R b x w2 w')).
  Proof using HS.
    intros b fuel x w y w' Hx H. unfold ProxyFactory, andthen at 1 in H.
    destruct (isinstance R x (rt_proxy R) w) as [[[|]|e|z e| |] w1] eqn:EI; try discriminate.
    - cbn in H. injection H as <- <-. right. split; [reflexivity|]. left.
      destruct (isinstance_true _ _ _ _ EI) as [[Hb _]|Hs]; [|exact Hs].
      unfold below in Hb. rewrite (plain_type x Hx) in Hb. discriminate.
    - destruct (protect_returns _ _ _ _ _ _ H) as [Hn | [-> (w2 & H1 & H2)]].
      + left. exact Hn.
      + right. split; [reflexivity|]. right. exists w1, w2. auto.
  Qed.

  Lemma proxy_c_ends : forall fuel x w y w', not_a_proxy x ->
    (proxy R C fuel x w = (Returns y, w') ->
     a_new_proxy R x y \/
     (y = x /\ exists w1, no_own_checker R C x w w1 /\ leaves R C x w1 w')).
  Proof using HS.
    intros fuel x w y w' Hx H. cbn [proxy] in H. unfold proxy_c in H.
    destruct (Nat.eqb (type_of R x) (rt_proxy R)) eqn:Et.
    { apply Nat.eqb_eq in Et. pose proof (plain_type x Hx) as Hp. rewrite Et in Hp.
      pose proof (sane_refl R HS (rt_proxy R)) as Hr. unfold below in Hr. congruence. }
    assert (Hsel : forall w1,
      match select_c R fuel x w1 with
      | (Returns None, w'') => (Returns x, w'')
      | (Returns (Some c), w'') => new_proxy R x c w''
      | (Raises e, w'') => (Raises e, w'')
      | (Both None e, w'') => (Both x e, w'')
      | (Both (Some _) e, w'') => (Raises e, w'')
      | (Crash, w'') => (Crash, w'')
      | (Unfinished, w'') => (Unfinished, w'')
      end = (Returns y, w') -> a_new_proxy R x y \/ (y = x /\ leaves R C x w1 w')).
    { intros w1 H1. destruct (select_c R fuel x w1) as [[oc|e|oc e| |] w2] eqn:E; try discriminate.
      - destruct oc as [c|].
        + left. exact (proj1 (new_proxy_returns _ _ _ _ _ H1)).
        + injection H1 as <- <-. right. split; [reflexivity|].
          apply select_c_none in E. unfold leaves. tauto.
      - destruct oc; discriminate. }
    destruct (rt_security_checker R x w) as [[c|e|c e| |] w1] eqn:Es; try discriminate.
    - destruct c; try discriminate; left; exact (proj1 (new_proxy_returns _ _ _ _ _ H)).
    - destruct (Hsel _ H) as [Hn | [-> Hl]]; [left; exact Hn|].
      right. split; [reflexivity|]. exists w1. split; [|exact Hl]. cbn. exists e. left. exact Es.
    - destruct (Hsel _ H) as [Hn | [-> Hl]]; [left; exact Hn|].
      right. split; [reflexivity|]. exists w1. split; [|exact Hl]. cbn. exists e. right. exists c. exact Es.
  Qed.

  Lemma proxy_returns : forall b fuel x w y w', not_a_proxy x ->
    proxy R b fuel x w = (Returns y, w') ->
    a_new_proxy R x y \/
    (y = x /\ ((b = Py /\ says R x (rt_proxy R) w w') \/
               exists w1 w2, no_own_checker R b x w1 w2 /\ leaves R b x w2 w')).
  Proof using HS.
    intros [|] fuel x w y w' Hx H.
    - assert (HF : ProxyFactory R Py fuel x None w = (Returns y, w')) by exact H.
      destruct (factory_returns _ _ _ _ _ _ Hx HF) as [Hn | [-> [Hs | Hl]]]; auto.
    - destruct (proxy_c_ends _ _ _ _ _ Hx H) as [Hn | [-> (w1 & H1 & H2)]]; [auto|].
      right. split; [reflexivity|]. right. exists w, w1. auto.
  Qed.

  (** *** Truthful objects *)

  Lemma factory_truthful : forall b fuel x w y w',
    not_a_proxy x -> truthful R x (rt_proxy R) ->
    (below R (type_of R x) (rt_exception R) \/ truthful R x (rt_exception R)) ->
    ProxyFactory R b fuel x None w = (Returns y, w') \/
      proxy R b fuel x w = (Returns y, w') ->
    a_new_proxy R x y \/
    (y = x /\ exists w1, exempt R x w1 w' \/
                         (b = C /\ by_default R x w1 /\ below R (type_of R x) (rt_exception R))).
  Proof using HS.
    intros b fuel x w y w' Hx Ht He H.
    assert (HL : forall w1, leaves R b x w1 w' ->
              exempt R x w1 w' \/
              (b = C /\ by_default R x w1 /\ below R (type_of R x) (rt_exception R))).
    { intros w1 [Hl | (Hb & Hd & [[Hl _] | Hs])]; [left; exact Hl | right; auto |].
      destruct He as [He | He]; [right; auto|]. exfalso. exact (truthful_says _ _ _ _ He Hs). }
    destruct H as [H | H].
    - destruct (factory_returns _ _ _ _ _ _ Hx H) as [Hn | [-> [Hs | (w1 & w2 & _ & Hl)]]].
      + left. exact Hn.
      + exfalso. exact (truthful_says _ _ _ _ Ht Hs).
      + right. split; [reflexivity|]. exists w2. exact (HL _ Hl).
    - destruct (proxy_returns _ _ _ _ _ _ Hx H) as [Hn | [-> [[_ Hs] | (w1 & w2 & _ & Hl)]]].
      + left. exact Hn.
      + exfalso. exact (truthful_says _ _ _ _ Ht Hs).
      + right. split; [reflexivity|]. exists w2. exact (HL _ Hl).
  Qed.

  (** Everything that Python code sees of a truthful object happens as if the
      type had been asked. *)
  Lemma truthful_object : forall b x w, not_a_proxy x -> truthful R x (rt_proxy R) ->
    getObject R b x w = (Returns x, w) /\
    getChecker R b x w = (Raises (rt_type_error R), w) /\
    (forall c, c <> PyNone ->
       ProxyFactory R b 0 x (Some c) w = (Returns (Prox (rt_proxy R) x c), w)).
  Proof using HS.
    intros b x w Hx Ht. pose proof (isinstance_truthful _ _ w Ht) as HI.
    pose proof (plain_type x Hx) as Hp. split; [|split].
    - destruct b; unfold getObject.
      + unfold andthen. rewrite HI. reflexivity.
      + rewrite Hp. reflexivity.
    - destruct b; unfold getChecker.
      + unfold super_get. rewrite Hp. destruct Ht as [_ Ht].
        destruct (Ht w) as [(c & Hc & Hno) | (e & Hc & He)]; rewrite Hc.
        * destruct (rt_as_type R c) as [t|] eqn:Et; [|reflexivity].
          specialize (Hno t eq_refl). unfold below in Hno.
          destruct (rt_sub R t (rt_proxy R)); [exfalso; apply Hno; reflexivity|].
          rewrite andb_false_r. reflexivity.
        * rewrite He. reflexivity.
      + rewrite Hp. reflexivity.
    - intros c Hc. unfold ProxyFactory, andthen at 1. rewrite HI.
      destruct c; [exfalso; apply Hc; reflexivity| |]; reflexivity.
  Qed.

  (** *** Lies are believed *)

  Lemma believed_proxy : forall b fuel x w w', not_a_proxy x ->
    says R x (rt_proxy R) w w' ->
    ProxyFactory R b fuel x None w = (Returns x, w') /\
    proxy R Py fuel x w = (Returns x, w').
  Proof using HS.
    intros b fuel x w w' Hx Hs.
    pose proof (isinstance_says _ _ _ _ (plain_type x Hx) Hs) as HI.
    split.
    - unfold ProxyFactory, andthen at 1. rewrite HI. reflexivity.
    - cbn [proxy]. unfold proxy_py, andthen at 1. rewrite HI. reflexivity.
  Qed.

  Lemma default_select : forall x w, by_default R x w ->
    (forall fuel, select_c R fuel x w =
      match isinstance R x (rt_exception R) w with
      | (Returns true, w') => (Returns None, w')
      | (Returns false, w') => select_loop R fuel (registered R w x) x w'
      | (Raises e, w') => (Both None e, w')
      | (Both _ e, w') => (Both None e, w')
      | (Crash, w') => (Crash, w')
      | (Unfinished, w') => (Unfinished, w')
      end) /\ exists c, registered R w x = AChecker c.
  Proof using HS.
    intros x w Hd. unfold by_default in Hd. unfold select_c, registered.
    destruct (rt_registry R w (type_of R x)) as [[| |c|f]|]; try contradiction.
    - rewrite Hd. split; [reflexivity | eexists; reflexivity].
    - rewrite (sane_is R HS). split; [reflexivity | eexists; reflexivity].
  Qed.

  Lemma plain_not_proxy_type : forall x, not_a_proxy x ->
    Nat.eqb (type_of R x) (rt_proxy R) = false.
  Proof using HS.
    intros x Hx. apply Nat.eqb_neq. intros He. pose proof (plain_type x Hx) as Hp.
    rewrite He in Hp. pose proof (sane_refl R HS (rt_proxy R)) as Hr.
    unfold below in Hr. congruence.
  Qed.

  Lemma proxy_c_selects : forall fuel x w w1,
    Nat.eqb (type_of R x) (rt_proxy R) = false -> no_own_checker R C x w w1 ->
    proxy R C fuel x w =
      match select_c R fuel x w1 with
      | (Returns None, w'') => (Returns x, w'')
      | (Returns (Some c), w'') => new_proxy R x c w''
      | (Raises e, w'') => (Raises e, w'')
      | (Both None e, w'') => (Both x e, w'')
      | (Both (Some _) e, w'') => (Raises e, w'')
      | (Crash, w'') => (Crash, w'')
      | (Unfinished, w'') => (Unfinished, w'')
      end.
  Proof using.
    intros fuel x w w1 Ht Ho. cbn [proxy]. unfold proxy_c. rewrite Ht.
    destruct Ho as (e & [He | (a & He)]); rewrite He; reflexivity.
  Qed.

  Lemma believed_exception : forall fuel x w w1 w', not_a_proxy x ->
    no_own_checker R C x w w1 -> by_default R x w1 ->
    says R x (rt_exception R) w1 w' -> ~ below R (type_of R x) (rt_exception R) ->
    proxy R C fuel x w = (Returns x, w').
  Proof using HS.
    intros fuel x w w1 w' Hx Ho Hd Hs Hn.
    rewrite (proxy_c_selects fuel x w w1 (plain_not_proxy_type x Hx) Ho).
    rewrite (proj1 (default_select x w1 Hd)).
    rewrite (isinstance_says x _ w1 w'); [reflexivity| |exact Hs].
    destruct (rt_sub R (type_of R x) (rt_exception R)) eqn:E; [exfalso; exact (Hn E)|reflexivity].
  Qed.

  Lemma class_fails : forall fuel x w w1 w' e, not_a_proxy x ->
    no_own_checker R C x w w1 -> by_default R x w1 ->
    rt_class R x w1 = (Raises e, w') -> rt_attribute_error R e = false ->
    ~ below R (type_of R x) (rt_exception R) ->
    proxy R C fuel x w = (Both x e, w').
  Proof using HS.
    intros fuel x w w1 w' e Hx Ho Hd Hc He Hn.
    rewrite (proxy_c_selects fuel x w w1 (plain_not_proxy_type x Hx) Ho).
    rewrite (proj1 (default_select x w1 Hd)). unfold isinstance.
    destruct (rt_sub R (type_of R x) (rt_exception R)) eqn:E; [exfalso; exact (Hn E)|].
    rewrite Hc, He. reflexivity.
  Qed.

  Lemma class_fails_py : forall b fuel x given w w' e, not_a_proxy x ->
    rt_class R x w = (Raises e, w') -> rt_attribute_error R e = false ->
    ProxyFactory R b fuel x given w = (Raises e, w') /\
    proxy R Py fuel x w = (Raises e, w') /\
    getObject R Py x w = (Raises e, w') /\
    getObject R C x w = (Returns x, w).
  Proof using HS.
    intros b fuel x given w w' e Hx Hc He. pose proof (plain_type x Hx) as Hp.
    assert (HI : isinstance R x (rt_proxy R) w = (Raises e, w')).
    { unfold isinstance. rewrite Hp, Hc, He. reflexivity. }
    repeat split.
    - unfold ProxyFactory, andthen at 1. rewrite HI. reflexivity.
    - cbn [proxy]. unfold proxy_py, andthen at 1. rewrite HI. reflexivity.
    - unfold getObject, andthen. rewrite HI. reflexivity.
    - unfold getObject. rewrite Hp. reflexivity.
  Qed.

  (** *** Taking proxies off *)

  Lemma unwraps : forall b x w y w', (a_proxy R x \/ not_a_proxy x) ->
    getObject R b x w = (Returns y, w') ->
    (not_a_proxy x /\ y = x /\ (b = C -> w' = w)) \/
    ((exists t c, x = Prox t y c) /\ w' = w) \/
    (b = Py /\ not_a_proxy x /\ exists w1 w2 k t,
       says R x (rt_proxy R) w w1 /\
       rt_class R x w1 = (Returns k, w2) /\ rt_as_type R k = Some t /\ below R t (rt_proxy R) /\
       rt_base_get R t x "_wrapped" w2 = (Returns y, w')).
  Proof using HS.
    intros b x w y w' Hx H. destruct Hx as [Hx | Hx].
    - destruct x as [|n|t o c]; try contradiction. cbn in Hx.
      destruct (proxies_factory b 0 t o c w Hx) as (_ & _ & _ & Hg & _). rewrite Hg in H.
      injection H as <- <-. right. left. split; [|reflexivity]. exists t, c. reflexivity.
    - pose proof (plain_type x Hx) as Hp. destruct b; unfold getObject in H.
      + unfold andthen in H.
        destruct (isinstance R x (rt_proxy R) w) as [[[|]|e|z e| |] w1] eqn:EI; try discriminate.
        * right. right. split; [reflexivity|]. split; [exact Hx|].
          destruct (isinstance_true _ _ _ _ EI) as [[Hb _]|Hs].
          { unfold below in Hb. rewrite Hp in Hb. discriminate. }
          unfold super_get in H. rewrite Hp in H.
          destruct (rt_class R x w1) as [[c|e|c e| |] w2] eqn:Ec; try discriminate.
          -- destruct (rt_as_type R c) as [t|] eqn:Et; [|discriminate].
             destruct (negb (Nat.eqb t (type_of R x)) && rt_sub R t (rt_proxy R)) eqn:Eb; [|discriminate].
             apply andb_true_iff in Eb. destruct Eb as [_ Eb].
             exists w1, w2, c, t. repeat split; auto.
          -- destruct (rt_attribute_error R e); discriminate.
        * cbn in H. injection H as <- <-. left. repeat split; auto. intros Hb. discriminate.
      + rewrite Hp in H. injection H as <- <-. left. auto.
  Qed.

  (** *** Subclasses of Proxy *)

  Lemma subclass_again : forall fuel t o c d w w1, below R t (rt_proxy R) -> t <> rt_proxy R ->
    no_own_checker R C (Prox t o c) w w1 ->
    rt_registry R w1 t = Some (AChecker d) -> rt_is R d (rt_default R) = false -> d <> PyNone ->
    proxy R C (S fuel) (Prox t o c) w = (Returns (Prox (rt_proxy R) (Prox t o c) d), w1).
  Proof using.
    intros fuel t o c d w w1 Hb Ht Ho Hr Hd Hn.
    rewrite (proxy_c_selects (S fuel) (Prox t o c) w w1); [|cbn; apply Nat.eqb_neq; exact Ht|exact Ho].
    unfold select_c, registered. cbn [type_of]. rewrite Hr, Hd. cbn.
    destruct d; [exfalso; apply Hn; reflexivity| |]; reflexivity.
  Qed.

  Lemma subclass_default : forall fuel t o c w w1, below R t (rt_proxy R) -> t <> rt_proxy R ->
    no_own_checker R C (Prox t o c) w w1 ->
    rt_registry R w1 t = None -> truthful R (Prox t o c) (rt_exception R) ->
    rt_default R <> PyNone ->
    proxy R C (S fuel) (Prox t o c) w =
      (Returns (Prox (rt_proxy R) (Prox t o c) (rt_default R)), w1).
  Proof using HS.
    intros fuel t o c w w1 Hb Ht Ho Hr He Hn.
    rewrite (proxy_c_selects (S fuel) (Prox t o c) w w1); [|cbn; apply Nat.eqb_neq; exact Ht|exact Ho].
    assert (Hd : by_default R (Prox t o c) w1) by (unfold by_default; cbn [type_of]; rewrite Hr; exact I).
    rewrite (proj1 (default_select _ w1 Hd)). rewrite (isinstance_truthful _ _ w1 He).
    unfold registered. cbn [type_of]. rewrite Hr. cbn.
    destruct (rt_default R); [exfalso; apply Hn; reflexivity| |]; reflexivity.
  Qed.
  (** *** The C functions that look at types only *)

  Lemma types_only : forall R' x w, same_but_class R R' ->
    getObject R' C x w = getObject R C x w /\ getChecker R' C x w = getChecker R C x w.
  Proof using.
    intros R' x w (H1 & H2 & H3 & H4 & _ & _ & _ & _ & _ & _ & _ & _ & _ & H5 & _).
    assert (Ht : type_of R' x = type_of R x) by (destruct x; cbn; congruence).
    unfold getObject, getChecker. rewrite Ht, H3, H4, H5. split; reflexivity.
  Qed.

  (** A truthful process can be compared with any other truthful one. *)
  Lemma truthful_same : forall R' b fuel x w, same_but_class R R' -> not_a_proxy x ->
    truthful R x (rt_proxy R) -> truthful R' x (rt_proxy R') ->
    (below R (type_of R x) (rt_exception R) \/
     (truthful R x (rt_exception R) /\ truthful R' x (rt_exception R'))) ->
    ProxyFactory R' b fuel x None w = ProxyFactory R b fuel x None w /\
    proxy R' b fuel x w = proxy R b fuel x w.
  Proof using HS.
    intros R' b fuel x w HR Hx Ht Ht' He.
    pose proof HR as (H1 & H2 & H3 & H4 & H5 & H6 & H7 & H8 & H9 & H10 & H11 & H12 & H13 & H14 & H15 & H16).
    assert (Hty : type_of R' x = type_of R x) by (destruct x; cbn; congruence).
    assert (HL : forall k a w0, select_loop R' k a x w0 = select_loop R k a x w0).
    { induction k as [|k IH]; intros a w0; [reflexivity|]. cbn. destruct a; try reflexivity.
      - unfold throw. rewrite H14. reflexivity.
      - unfold throw. rewrite H14. reflexivity.
      - unfold andthen. rewrite H9. destruct (rt_call R f x w0) as [[a'|e|a' e| |] w1]; try reflexivity.
        destruct a'; try reflexivity; apply IH. }
    assert (HE : forall w0, isinstance R' x (rt_exception R') w0 = isinstance R x (rt_exception R) w0).
    { intros w0. destruct He as [He | [He He']].
      - unfold isinstance. rewrite Hty, H3, H5. unfold below in He. rewrite He. reflexivity.
      - rewrite (isinstance_truthful_of R' x _ w0 He'). rewrite (isinstance_truthful _ _ w0 He). reflexivity. }
    assert (HG : forall w0, registered R' w0 x = registered R w0 x).
    { intros w0. unfold registered. rewrite H8, Hty, H10. reflexivity. }
    assert (HSC : forall w0, select_c R' fuel x w0 = select_c R fuel x w0).
    { intros w0. unfold select_c. rewrite HG. destruct (registered R w0 x); rewrite ?HL, ?H12, ?H10, ?HE; try reflexivity.
      destruct (rt_is R c (rt_default R)); [|reflexivity].
      destruct (isinstance R x (rt_exception R) w0) as [[[|]|e|y e| |] w1]; rewrite ?HL; reflexivity. }
    assert (HSP : forall w0, select_py R' fuel x w0 = select_py R fuel x w0).
    { intros w0. unfold select_py. rewrite HG. destruct (registered R w0 x); rewrite ?HL; reflexivity. }
    assert (HSel : forall w0, select R' b fuel x w0 = select R b fuel x w0).
    { intros w0. destruct b; cbn; [apply HSP|]. rewrite HSC, H16. reflexivity. }
    assert (HN : forall c w0, new_proxy R' x c w0 = new_proxy R x c w0).
    { intros c w0. unfold new_proxy. rewrite H15, H4. reflexivity. }
    assert (HP : forall w0, protect R' b fuel x w0 = protect R b fuel x w0).
    { intros w0. unfold protect, andthen, security_checker. rewrite H7, H13.
      destruct (rt_security_checker R x w0) as [[c|e|c e| |] w1]; try reflexivity.
      - destruct c; try apply HN. rewrite HSel.
        destruct (select R b fuel x w1) as [[[c|]|e|oc e| |] w2]; try reflexivity. apply HN.
      - destruct (rt_attribute_error R e); [|reflexivity]. rewrite HSel.
        destruct (select R b fuel x w1) as [[[c|]|e'|oc e'| |] w2]; try reflexivity. apply HN. }
    pose proof (isinstance_truthful_of R' x _ w Ht') as HI'. pose proof (isinstance_truthful x _ w Ht) as HI.
    split.
    - unfold ProxyFactory, andthen. rewrite HI, HI'. apply HP.
    - destruct b; cbn [proxy].
      + unfold proxy_py, andthen. rewrite HI, HI'. apply HP.
      + unfold proxy_c. rewrite Hty, H4, H7, H15.
        destruct (Nat.eqb (type_of R x) (rt_proxy R)); [reflexivity|].
        destruct (rt_security_checker R x w) as [[c|e|c e| |] w1]; try reflexivity.
        * destruct c; try reflexivity; apply HN.
        * rewrite HSC. destruct (select_c R fuel x w1) as [[[c|]|e'|[c|] e'| |] w2]; try reflexivity. apply HN.
        * rewrite HSC. destruct (select_c R fuel x w1) as [[[c0|]|e'|[c0|] e'| |] w2]; try reflexivity. apply HN.
  Qed.

  (** *** Types with a checker in the registry *)

  Lemma registered_guarded : forall b fuel x w y w',
    not_a_proxy x -> truthful R x (rt_proxy R) -> has_checker R x ->
    ProxyFactory R b fuel x None w = (Returns y, w') \/
      proxy R b fuel x w = (Returns y, w') ->
    a_new_proxy R x y.
  Proof using HS.
    intros b fuel x w y w' Hx Ht HR H.
    assert (HL : forall w1 w2, ~ leaves R b x w1 w2).
    { intros w1 w2 HL. destruct (HR w1) as (d & Hd & Hn).
      destruct HL as [(a & Ha & HL) | (_ & HD & _)].
      - rewrite Hd in Ha. injection Ha as <-. destruct HL as [(HL & _) | HL]; [discriminate | inversion HL].
      - unfold by_default in HD. rewrite Hd in HD. rewrite HD in Hn. discriminate. }
    destruct H as [H | H].
    - destruct (factory_returns b fuel x w y w' Hx H) as [HN | (_ & [HS' | (w1 & w2 & _ & HL')])].
      + exact HN.
      + destruct (truthful_says x _ w w' Ht HS').
      + destruct (HL _ _ HL').
    - destruct (proxy_returns b fuel x w y w' Hx H) as [HN | (_ & [(_ & HS') | (w1 & w2 & _ & HL')])].
      + exact HN.
      + destruct (truthful_says x _ w w' Ht HS').
      + destruct (HL _ _ HL').
  Qed.
End Facts.
