(** Proofs about decorators and trusted adapters of objects that may lie. *)

From Coq Require Import String List Arith Bool.
From Verif Require Import Liars LiarsSpec LiarsFacts LiarsUse LiarsUseSpec.
Import ListNotations.

Lemma andthen_returns : forall {W X A B} (m : action W X A) (k : A -> action W X B) w a w',
  m w = (Returns a, w') -> andthen m k w = k a w'.
Proof. intros W X A B m k w a w' H. unfold andthen. rewrite H. reflexivity. Qed.

Lemma andthen_raises : forall {W X A B} (m : action W X A) (k : A -> action W X B) w e w',
  m w = (Raises e, w') -> andthen m k w = (Raises e, w').
Proof. intros W X A B m k w e w' H. unfold andthen. rewrite H. reflexivity. Qed.

Section Facts.
  Context {W X : Type} (R : runtime W X).
  Hypothesis HS : sane R.
  Variable combine : obj -> obj -> action W X obj.
  Variable name_of : obj -> action W X unit.
  Variables no_attribute index_error : X.

  Local Notation deco := (decorated R combine name_of no_attribute).

  (** *** The second half of the descriptor *)

  Lemma deco_with : forall b fuel inst inner c w w1, c <> PyNone ->
    inner_checker R b fuel inner w = (Returns c, w1) ->
    (forall w2, select R b fuel inst w1 = (Returns None, w2) ->
       deco b fuel inst inner w = (Returns c, w2)) /\
    (forall d w2, select R b fuel inst w1 = (Returns (Some d), w2) -> d <> PyNone ->
       deco b fuel inst inner w = combine d c w2) /\
    (forall e w2, select R b fuel inst w1 = (Raises e, w2) ->
       deco b fuel inst inner w = (Raises e, w2)).
  Proof using.
    intros b fuel inst inner c w w1 Hc HI. unfold decorated, andthen. rewrite HI.
    repeat split.
    - intros w2 ->. cbn. destruct c; [contradiction|reflexivity|reflexivity].
    - intros d w2 -> Hd. cbn. destruct d; [contradiction| |]; (destruct c; [contradiction| |]); reflexivity.
    - intros e w2 ->. reflexivity.
  Qed.

  Lemma deco_without : forall b fuel inst inner w w1,
    inner_checker R b fuel inner w = (Returns PyNone, w1) ->
    (forall d w2, select R b fuel inst w1 = (Returns (Some d), w2) -> d <> PyNone ->
       deco b fuel inst inner w = (Returns d, w2)) /\
    (forall e w2, select R b fuel inst w1 = (Raises e, w2) ->
       deco b fuel inst inner w = (Raises e, w2)) /\
    (forall w2, select R b fuel inst w1 = (Returns None, w2) ->
       (forall e w3, rt_class R inner w2 = (Raises e, w3) ->
          deco b fuel inst inner w = (Raises e, w3)) /\
       (forall k w3, rt_class R inner w2 = (Returns k, w3) ->
          (forall e w4, name_of k w3 = (Raises e, w4) ->
             deco b fuel inst inner w = (Raises e, w4)) /\
          (forall w4, name_of k w3 = (Returns tt, w4) ->
             deco b fuel inst inner w = (Raises no_attribute, w4)))).
  Proof using.
    intros b fuel inst inner w w1 HI. unfold decorated, andthen. rewrite HI.
    split; [|split].
    - intros d w2 -> Hd. cbn. destruct d; [contradiction| |]; reflexivity.
    - intros e w2 ->. reflexivity.
    - intros w2 ->. cbn. split; [intros e w3 ->; reflexivity|].
      intros k w3 ->. split; [intros e w4 ->; reflexivity | intros w4 ->; reflexivity].
  Qed.

  (** *** The first half *)

  Lemma inner_proxied : forall b fuel t o c w, below R t (rt_proxy R) ->
    inner_checker R b fuel (Prox t o c) w = (Returns c, w).
  Proof using HS.
    intros b fuel t o c w H. unfold inner_checker, andthen.
    rewrite (isinstance_sub R (Prox t o c) (rt_proxy R) w H).
    destruct (proxies_factory R HS b fuel t o c w H) as (_ & _ & _ & _ & Hg & _). exact Hg.
  Qed.

  Lemma new_proxy_inv : forall x c w y w',
    new_proxy R x c w = (Returns y, w') -> c <> PyNone /\ y = Prox (rt_proxy R) x c /\ w' = w.
  Proof using.
    intros x c w y w' H. destruct c; cbn in H; [discriminate| |];
      injection H as <- <-; (split; [discriminate|split; reflexivity]).
  Qed.

  Lemma inner_protected : forall b fuel inner w t c w1, not_a_proxy inner ->
    ProxyFactory R b fuel inner None w = (Returns (Prox t inner c), w1) ->
    inner_checker R b fuel inner w = (Returns c, w1) /\ c <> PyNone.
  Proof using.
    intros b fuel inner w t c w1 Hn H. unfold ProxyFactory, inner_checker, andthen in *.
    destruct (isinstance R inner (rt_proxy R) w) as [[[|]|e|y e| |] w0]; try discriminate.
    - cbn in H. injection H as H _. rewrite H in Hn. destruct Hn.
    - unfold protect, andthen in H.
      destruct (security_checker R inner w0) as [[k|e|k e| |] w2]; try discriminate.
      destruct k as [|n|t' o' c'].
      + destruct (select R b fuel inner w2) as [[[d|]|e|y e| |] w3]; try discriminate.
        * apply new_proxy_inv in H. destruct H as (Hd & H & ->). injection H as _ ->.
          split; [reflexivity | exact Hd].
        * cbn in H. injection H as H _. rewrite H in Hn. destruct Hn.
      + apply new_proxy_inv in H. destruct H as (Hd & H & ->). injection H as _ ->.
        split; [reflexivity | discriminate].
      + apply new_proxy_inv in H. destruct H as (Hd & H & ->). injection H as _ ->.
        split; [reflexivity | discriminate].
  Qed.

  Lemma inner_left : forall b fuel inner w w1, not_a_proxy inner ->
    ~ says R inner (rt_proxy R) w w1 ->
    ProxyFactory R b fuel inner None w = (Returns inner, w1) ->
    inner_checker R b fuel inner w = (Returns PyNone, w1).
  Proof using HS.
    intros b fuel inner w w1 Hn Hs H. unfold ProxyFactory, inner_checker, andthen in *.
    destruct (isinstance R inner (rt_proxy R) w) as [[[|]|e|y e| |] w0] eqn:EI; try discriminate.
    - cbn in H. injection H as <-. apply isinstance_true in EI. destruct EI as [(EI & _) | EI].
      + unfold below in EI. rewrite (plain_type R HS inner Hn) in EI. discriminate.
      + destruct (Hs EI).
    - unfold protect, andthen in H.
      destruct (security_checker R inner w0) as [[k|e|k e| |] w2]; try discriminate.
      destruct k as [|n|t' o' c'].
      + destruct (select R b fuel inner w2) as [[[d|]|e|y e| |] w3]; try discriminate.
        * apply new_proxy_inv in H. destruct H as (_ & H & _). rewrite H in Hn. destruct Hn.
        * cbn in H. injection H as <-. reflexivity.
      + apply new_proxy_inv in H. destruct H as (_ & H & _). rewrite H in Hn. destruct Hn.
      + apply new_proxy_inv in H. destruct H as (_ & H & _). rewrite H in Hn. destruct Hn.
  Qed.

  Lemma new_proxy_fails : forall x c w e w',
    new_proxy R x c w = (Raises e, w') -> e = rt_value_error R.
  Proof using.
    intros x c w e w' H. destruct c; cbn in H; [|discriminate|discriminate]. injection H as <- _. reflexivity.
  Qed.

  Lemma inner_fails : forall b fuel inner w e w1, e <> rt_value_error R ->
    ProxyFactory R b fuel inner None w = (Raises e, w1) ->
    inner_checker R b fuel inner w = (Raises e, w1).
  Proof using.
    intros b fuel inner w e w1 He H. unfold ProxyFactory, inner_checker, andthen in *.
    destruct (isinstance R inner (rt_proxy R) w) as [[[|]|e0|y e0| |] w0]; try discriminate; try exact H.
    unfold protect, andthen in H.
    destruct (security_checker R inner w0) as [[k|e0|k e0| |] w2]; try discriminate; try exact H.
    destruct k as [|n|t' o' c'].
    - destruct (select R b fuel inner w2) as [[[d|]|e0|y e0| |] w3]; try discriminate; try exact H.
      destruct (He (new_proxy_fails _ _ _ _ _ H)).
    - destruct (He (new_proxy_fails _ _ _ _ _ H)).
    - destruct (He (new_proxy_fails _ _ _ _ _ H)).
  Qed.

  (** *** The descriptor *)

  Lemma deco_proxied : forall b fuel inst t o c w, below R t (rt_proxy R) -> c <> PyNone ->
    (forall w2, select R b fuel inst w = (Returns None, w2) ->
       deco b fuel inst (Prox t o c) w = (Returns c, w2)) /\
    (forall d w2, select R b fuel inst w = (Returns (Some d), w2) -> d <> PyNone ->
       deco b fuel inst (Prox t o c) w = combine d c w2) /\
    (forall e w2, select R b fuel inst w = (Raises e, w2) ->
       deco b fuel inst (Prox t o c) w = (Raises e, w2)).
  Proof using HS.
    intros b fuel inst t o c w H Hc.
    exact (deco_with b fuel inst _ c w w Hc (inner_proxied b fuel t o c w H)).
  Qed.

  Lemma deco_protected : forall b fuel inst inner w t c w1, not_a_proxy inner ->
    ProxyFactory R b fuel inner None w = (Returns (Prox t inner c), w1) ->
    (forall w2, select R b fuel inst w1 = (Returns None, w2) ->
       deco b fuel inst inner w = (Returns c, w2)) /\
    (forall d w2, select R b fuel inst w1 = (Returns (Some d), w2) -> d <> PyNone ->
       deco b fuel inst inner w = combine d c w2) /\
    (forall e w2, select R b fuel inst w1 = (Raises e, w2) ->
       deco b fuel inst inner w = (Raises e, w2)).
  Proof using.
    intros b fuel inst inner w t c w1 Hn H.
    destruct (inner_protected b fuel inner w t c w1 Hn H) as [HI Hc].
    exact (deco_with b fuel inst inner c w w1 Hc HI).
  Qed.

  Lemma deco_left : forall b fuel inst inner w w1, not_a_proxy inner ->
    ~ says R inner (rt_proxy R) w w1 ->
    ProxyFactory R b fuel inner None w = (Returns inner, w1) ->
    (forall d w2, select R b fuel inst w1 = (Returns (Some d), w2) -> d <> PyNone ->
       deco b fuel inst inner w = (Returns d, w2)) /\
    (forall e w2, select R b fuel inst w1 = (Raises e, w2) ->
       deco b fuel inst inner w = (Raises e, w2)) /\
    (forall w2, select R b fuel inst w1 = (Returns None, w2) ->
       (forall e w3, rt_class R inner w2 = (Raises e, w3) ->
          deco b fuel inst inner w = (Raises e, w3)) /\
       (forall k w3, rt_class R inner w2 = (Returns k, w3) ->
          (forall e w4, name_of k w3 = (Raises e, w4) ->
             deco b fuel inst inner w = (Raises e, w4)) /\
          (forall w4, name_of k w3 = (Returns tt, w4) ->
             deco b fuel inst inner w = (Raises no_attribute, w4)))).
  Proof using HS.
    intros b fuel inst inner w w1 Hn Hs H.
    exact (deco_without b fuel inst inner w w1 (inner_left b fuel inner w w1 Hn Hs H)).
  Qed.

  Lemma deco_fails : forall b fuel inst inner w e w1, e <> rt_value_error R ->
    ProxyFactory R b fuel inner None w = (Raises e, w1) ->
    deco b fuel inst inner w = (Raises e, w1).
  Proof using.
    intros b fuel inst inner w e w1 He H. unfold decorated, andthen.
    rewrite (inner_fails b fuel inner w e w1 He H). reflexivity.
  Qed.

  Lemma deco_liar_c : forall fuel inst inner w w1, not_a_proxy inner ->
    says R inner (rt_proxy R) w w1 ->
    deco C fuel inst inner w = (Raises (rt_type_error R), w1).
  Proof using HS.
    intros fuel inst inner w w1 Hn Hs. unfold decorated, inner_checker, andthen.
    rewrite (isinstance_says R inner _ w w1 (plain_type R HS inner Hn) Hs).
    cbn [getChecker]. rewrite (plain_type R HS inner Hn). reflexivity.
  Qed.

  Lemma deco_liar_py : forall fuel inst inner w w1 k t w2 c w3 w4, not_a_proxy inner ->
    says R inner (rt_proxy R) w w1 ->
    rt_class R inner w1 = (Returns k, w2) -> rt_as_type R k = Some t -> below R t (rt_proxy R) ->
    rt_base_get R t inner "_checker" w2 = (Returns c, w3) -> c <> PyNone ->
    select R Py fuel inst w3 = (Returns None, w4) ->
    deco Py fuel inst inner w = (Returns c, w4).
  Proof using HS.
    intros fuel inst inner w w1 k t w2 c w3 w4 Hn Hs Hk Ht Hb Hg Hc Hsel.
    assert (HI : inner_checker R Py fuel inner w = (Returns c, w3)).
    { unfold inner_checker, andthen.
      rewrite (isinstance_says R inner _ w w1 (plain_type R HS inner Hn) Hs).
      cbn [getChecker]. unfold super_get. rewrite (plain_type R HS inner Hn), Hk, Ht.
      unfold below in Hb. rewrite Hb. replace (Nat.eqb t (type_of R inner)) with false; [exact Hg|].
      symmetry. apply Nat.eqb_neq. intros ->. rewrite (plain_type R HS inner Hn) in Hb. discriminate. }
    exact (proj1 (deco_with Py fuel inst inner c w w3 Hc HI) w4 Hsel).
  Qed.

  (** *** Proxies around decorators *)

  Lemma deco_shape : forall b fuel inst t o c w, below R t (rt_proxy R) -> c <> PyNone ->
    combines combine ->
    match deco b fuel inst (Prox t o c) w with
    | (Returns d, _) =>
        d <> PyNone /\ (d = c \/ exists wc w1 w2, combine wc c w1 = (Returns d, w2))
    | (Raises e, w') => select R b fuel inst w = (Raises e, w')
    | (Both _ _, _) => False
    | (Crash, w') => select R b fuel inst w = (Crash, w')
    | (Unfinished, w') => select R b fuel inst w = (Unfinished, w')
    end \/ exists o' e w', select R b fuel inst w = (Both o' e, w').
  Proof using HS.
    intros b fuel inst t o c w H Hc HC. unfold decorated, andthen.
    rewrite (inner_proxied b fuel t o c w H).
    destruct (select R b fuel inst w) as [[oc|e|oc e| |] w1].
    - left. destruct (value_of oc) as [|n|t' o' c'] eqn:EV.
      + destruct c; [contradiction| |]; cbn; (split; [exact Hc | left; reflexivity]).
      + destruct (HC (Plain n) c w1) as (d & w2 & Hd & Hne).
        destruct c; [contradiction| |]; rewrite Hd; (split; [exact Hne | right; eauto]).
      + destruct (HC (Prox t' o' c') c w1) as (d & w2 & Hd & Hne).
        destruct c; [contradiction| |]; rewrite Hd; (split; [exact Hne | right; eauto]).
    - left. reflexivity.
    - right. eauto.
    - left. reflexivity.
    - left. reflexivity.
  Qed.

  Lemma select_py_both : forall b fuel x w o e w', select R b fuel x w <> (Both o e, w').
  Proof using.
    intros b fuel x w o e w' H. destruct b; cbn in H.
    - unfold select_py in H. destruct (registered R w x); try discriminate;
        exact (loop_both R _ _ _ _ _ _ _ H).
    - destruct (select_c R fuel x w) as [[y|e0|y e0| |] w0]; discriminate.
  Qed.

  Lemma new_proxy_some : forall x c w, c <> PyNone ->
    new_proxy R x c w = (Returns (Prox (rt_proxy R) x c), w).
  Proof using.
    intros x c w H. destruct c; [contradiction|reflexivity|reflexivity].
  Qed.

  Lemma guarded_factory : forall b fuel inst t o c w y w',
    not_a_proxy inst -> below R t (rt_proxy R) -> c <> PyNone -> combines combine ->
    (forall w0, rt_security_checker R inst w0 = deco b fuel inst (Prox t o c) w0) ->
    ProxyFactory R b fuel inst None w = (Returns y, w') ->
    still_guarded R combine inst c y \/
    (y = inst /\ says R inst (rt_proxy R) w w') \/
    (exists w1 e w2, select R b fuel inst w1 = (Raises e, w2) /\ rt_attribute_error R e = true).
  Proof using HS.
    intros b fuel inst t o c w y w' Hn Hb Hc HC HD H.
    unfold ProxyFactory, andthen in H.
    destruct (isinstance R inst (rt_proxy R) w) as [[[|]|e|z e| |] w0] eqn:EI; try discriminate.
    - cbn in H. injection H as <- <-. right. left. split; [reflexivity|].
      apply isinstance_true in EI. destruct EI as [(EI & _) | EI]; [|exact EI].
      unfold below in EI. rewrite (plain_type R HS inst Hn) in EI. discriminate.
    - unfold protect, andthen, security_checker in H. rewrite HD in H.
      destruct (deco_shape b fuel inst t o c w0 Hb Hc HC) as [HSh | (o' & e & w2 & HB)];
        [|destruct (select_py_both _ _ _ _ _ _ _ HB)].
      destruct (deco b fuel inst (Prox t o c) w0) as [[d|e|d e| |] w1]; try discriminate.
      + destruct HSh as [Hd HSh]. destruct d as [|n|t' o' c']; [contradiction| |];
          rewrite (new_proxy_some _ _ _ Hd) in H; injection H as <- _; left; eexists; (split; [reflexivity | exact HSh]).
      + destruct (rt_attribute_error R e) eqn:EA; [|discriminate].
        right. right. exists w0, e, w1. split; assumption.
  Qed.

  Lemma guarded_results : forall b fuel inst t o c w y w',
    not_a_proxy inst -> below R t (rt_proxy R) -> c <> PyNone -> combines combine ->
    (forall w0, rt_security_checker R inst w0 = deco b fuel inst (Prox t o c) w0) ->
    proxy R b fuel inst w = (Returns y, w') ->
    still_guarded R combine inst c y \/
    (b = Py /\ y = inst /\ says R inst (rt_proxy R) w w') \/
    (exists w1 e w2, select R b fuel inst w1 = (Raises e, w2) /\
                     (b = Py -> rt_attribute_error R e = true)).
  Proof using HS.
    intros b fuel inst t o c w y w' Hn Hb Hc HC HD H. destruct b; cbn [proxy] in H.
    - assert (HF : ProxyFactory R Py fuel inst None w = (Returns y, w')) by exact H.
      destruct (guarded_factory Py fuel inst t o c w y w' Hn Hb Hc HC HD HF)
        as [HG | [(HY & HSa) | (w1 & e & w2 & HSel & HA)]]; [left; exact HG | |].
      + right. left. repeat split; assumption.
      + right. right. exists w1, e, w2. split; [exact HSel | intros _; exact HA].
    - unfold proxy_c in H. rewrite HD in H.
      destruct (Nat.eqb (type_of R inst) (rt_proxy R)) eqn:ET.
      { apply Nat.eqb_eq in ET. pose proof (plain_type R HS inst Hn) as HP.
        rewrite ET in HP. pose proof (sane_refl R HS (rt_proxy R)) as HR. unfold below in HR.
        rewrite HR in HP. discriminate. }
      destruct (deco_shape C fuel inst t o c w Hb Hc HC) as [HSh | (o' & e & w2 & HB)];
        [|destruct (select_py_both _ _ _ _ _ _ _ HB)].
      destruct (deco C fuel inst (Prox t o c) w) as [[d|e|d e| |] w1]; try discriminate.
      + destruct HSh as [Hd HSh]. destruct d as [|n|t' o' c']; [contradiction| |];
          rewrite (new_proxy_some _ _ _ Hd) in H; injection H as <- _; left; eexists; (split; [reflexivity | exact HSh]).
      + right. right. exists w, e, w1. split; [exact HSh | discriminate].
      + destruct HSh.
  Qed.

  (** *** Trusted adapters *)

  Lemma honest_get : forall b x w, honest R b x -> getObject R b x w = (Returns (bare x), w).
  Proof using HS.
    intros b x w [Hp | (Hn & Hh)].
    - destruct x as [|n|t o c]; [destruct Hp | destruct Hp |].
      destruct (proxies_factory R HS b 0 t o c w Hp) as (_ & _ & _ & Hg & _). exact Hg.
    - replace (bare x) with x by (destruct x; [reflexivity | reflexivity | destruct Hn]).
      destruct Hh as [-> | Ht].
      + cbn [getObject]. rewrite (plain_type R HS x Hn). reflexivity.
      + destruct (truthful_object R HS b x w Hn Ht) as [Hg _]. exact Hg.
  Qed.

  Lemma strip_honest : forall b args w, Forall (honest R b) args ->
    strip R b args w = (Returns (map bare args), w).
  Proof using HS.
    intros b args w H. induction H as [|a r Ha Hr IH]; cbn; [reflexivity|].
    unfold andthen. rewrite (honest_get b a w Ha). fold (strip R b r). rewrite IH. reflexivity.
  Qed.

  Lemma any_honest : forall b args w, distinct R -> Forall (honest R b) args ->
    (Exists (a_proxy R) args -> any_proxied R b args w = (Returns true, w)) /\
    (Forall not_a_proxy args -> any_proxied R b args w = (Returns false, w)).
  Proof using HS.
    intros b args w HD H. induction H as [|a r Ha Hr IH]; cbn.
    - split; [intros HE; inversion HE | reflexivity].
    - destruct IH as [IH1 IH2]. unfold andthen. rewrite (honest_get b a w Ha). split.
      + intros HE. destruct a as [|n|t o c].
        * cbn [bare]. rewrite (sane_is R HS). apply IH1. inversion HE as [? ? HA|]; subst; [destruct HA | assumption].
        * cbn [bare]. rewrite (sane_is R HS). apply IH1. inversion HE as [? ? HA|]; subst; [destruct HA | assumption].
        * cbn [bare]. rewrite HD. reflexivity.
      + intros HF. inversion HF as [|? ? HA HR]; subst. destruct a as [|n|t o c]; [| |destruct HA];
          cbn [bare]; rewrite (sane_is R HS); apply IH2; exact HR.
  Qed.

  Variable factory : list obj -> action W X obj.
  Variable customize : bool -> obj -> obj -> action W X obj.
  Local Notation adapt := (trusted_call R index_error factory customize).

  Lemma adapt_proxied : forall b fuel x args w, distinct R -> Forall (honest R b) (x :: args) ->
    Exists (a_proxy R) (x :: args) ->
    (forall e w1, factory (map bare (x :: args)) w = (Raises e, w1) ->
       adapt b fuel (x :: args) w = (Raises e, w1)) /\
    (forall a w1, factory (map bare (x :: args)) w = (Returns a, w1) ->
       (forall e w2, customize true a (bare x) w1 = (Raises e, w2) ->
          adapt b fuel (x :: args) w = (Raises e, w2)) /\
       (forall a' w2, customize true a (bare x) w1 = (Returns a', w2) ->
          adapt b fuel (x :: args) w = ProxyFactory R b fuel a' None w2)).
  Proof using HS.
    intros b fuel x args w HD HH HE. unfold trusted_call.
    rewrite (andthen_returns _ _ _ _ _ (proj1 (any_honest b _ w HD HH) HE)).
    rewrite (andthen_returns _ _ _ _ _ (strip_honest b _ w HH)). split.
    - intros e w1 Hf. exact (andthen_raises _ _ _ _ _ Hf).
    - intros a w1 Hf. rewrite (andthen_returns _ _ _ _ _ Hf). split.
      + intros e w2 Hc. rewrite (andthen_returns (head index_error (map bare (x :: args))) _ w1 (bare x) w1 eq_refl).
        exact (andthen_raises _ _ _ _ _ Hc).
      + intros a' w2 Hc. rewrite (andthen_returns (head index_error (map bare (x :: args))) _ w1 (bare x) w1 eq_refl).
        exact (andthen_returns _ _ _ _ _ Hc).
  Qed.

  Lemma adapt_bare : forall b fuel x args w, distinct R -> Forall (honest R b) (x :: args) ->
    Forall not_a_proxy (x :: args) ->
    (forall e w1, factory (x :: args) w = (Raises e, w1) ->
       adapt b fuel (x :: args) w = (Raises e, w1)) /\
    (forall a w1, factory (x :: args) w = (Returns a, w1) ->
       adapt b fuel (x :: args) w = customize false a x w1).
  Proof using HS.
    intros b fuel x args w HD HH HE. unfold trusted_call.
    rewrite (andthen_returns _ _ _ _ _ (proj2 (any_honest b _ w HD HH) HE)). split.
    - intros e w1 Hf. exact (andthen_raises _ _ _ _ _ Hf).
    - intros a w1 Hf. rewrite (andthen_returns _ _ _ _ _ Hf). reflexivity.
  Qed.
End Facts.
