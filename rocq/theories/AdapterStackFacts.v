(** Proofs about stacks of adapter factories. *)

From Coq Require Import String List Arith Bool.
From Verif Require Import Liars LiarsSpec LiarsFacts LiarsUse LiarsUseSpec LiarsUseFacts.
From Verif Require Import AdapterStack AdapterStackSpec.
Import ListNotations.

Lemma andthen_ext : forall {W X A B} (m m' : action W X A) (k k' : A -> action W X B) w,
  m w = m' w -> (forall a w', k a w' = k' a w') -> andthen m k w = andthen m' k' w.
Proof.
  intros W X A B m m' k k' w H HK. unfold andthen. rewrite H.
  destruct (m' w) as [[a|e|a e| |] w']; try reflexivity. apply HK.
Qed.

Lemma andthen_assoc : forall {W X A B D} (m : action W X A) (k : A -> action W X B)
  (h : B -> action W X D) w,
  andthen (andthen m k) h w = andthen m (fun a => andthen (k a) h) w.
Proof.
  intros W X A B D m k h w. unfold andthen.
  destruct (m w) as [[a|e|a e| |] w']; reflexivity.
Qed.

Section Names.
  Context {W X : Type}.
  Variable attribute : nat -> string -> action W X obj.

  Lemma wraps_names : forall ks k i n m w w1 w2,
    attribute i "__name__" w = (Returns n, w1) ->
    attribute i "__module__" w1 = (Returns m, w2) ->
    exists f, wraps attribute (k :: ks) (App i) w = (Returns f, w2) /\
      named n m f /\ layers f = k :: ks /\ core f = i.
  Proof using.
    induction ks as [|k' ks IH]; intros k i n m w w1 w2 Hn Hm.
    - exists (Wrapped k (App i) n m). split; [|repeat split].
      cbn [wraps]. rewrite (andthen_returns (give (App i)) (wrap attribute k) w (App i) w eq_refl).
      unfold wrap. rewrite (andthen_returns (read attribute (App i) "__name__") _ w n w1 Hn).
      rewrite (andthen_returns (read attribute (App i) "__module__") _ w1 m w2 Hm). reflexivity.
    - destruct (IH k' i n m w w1 w2 Hn Hm) as (f & Hf & HN & HL & HC).
      exists (Wrapped k f n m). split; [|split; [split; [reflexivity|split; [reflexivity|exact HN]]|]].
      + change (wraps attribute (k :: k' :: ks) (App i))
          with (andthen (wraps attribute (k' :: ks) (App i)) (wrap attribute k)).
        rewrite (andthen_returns _ _ _ _ _ Hf).
        destruct f as [j|k0 f0 n0 m0]; [cbn in HL; discriminate|].
        cbn in HN. destruct HN as (-> & -> & _). reflexivity.
      + cbn. rewrite HL. split; [reflexivity | exact HC].
  Qed.

  Lemma wraps_fails : forall ks k i e w w',
    (attribute i "__name__" w = (Raises e, w') \/
     exists n w1, attribute i "__name__" w = (Returns n, w1) /\
                  attribute i "__module__" w1 = (Raises e, w')) ->
    wraps attribute (k :: ks) (App i) w = (Raises e, w').
  Proof using.
    induction ks as [|k' ks IH]; intros k i e w w' H.
    - cbn [wraps]. rewrite (andthen_returns (give (App i)) (wrap attribute k) w (App i) w eq_refl).
      unfold wrap. destruct H as [H | (n & w1 & Hn & Hm)].
      + exact (andthen_raises (read attribute (App i) "__name__") _ w e w' H).
      + rewrite (andthen_returns (read attribute (App i) "__name__") _ w n w1 Hn).
        exact (andthen_raises (read attribute (App i) "__module__") _ w1 e w' Hm).
    - change (wraps attribute (k :: k' :: ks) (App i))
        with (andthen (wraps attribute (k' :: ks) (App i)) (wrap attribute k)).
      exact (andthen_raises _ _ _ _ _ (IH k' i e w w' H)).
  Qed.
End Names.

Section Calls.
  Context {W X : Type} (R : runtime W X).
  Hypothesis HS : sane R.
  Hypothesis HD : distinct R.
  Variable app : nat -> list obj -> action W X obj.
  Variable provided : obj -> action W X bool.
  Variable get_parent : obj -> action W X obj.
  Variable set_parent : obj -> obj -> action W X unit.
  Variable located : obj -> obj -> action W X obj.
  Variable index_error : X.
  Hypothesis HO : orderly provided get_parent set_parent.

  Local Notation unp := (customizeUnprotected provided get_parent set_parent).
  Local Notation assertL := (assertLocation provided get_parent set_parent located).
  Local Notation custom := (customize provided get_parent set_parent located).
  Local Notation run := (call R app provided get_parent set_parent located index_error).

  (** What the unprotected step ends with. *)
  Lemma unp_cases : forall a c w,
    (unp a c w = (Returns a, w) /\
       (provided a w = (Returns false, w) \/
        (provided a w = (Returns true, w) /\ exists q, q <> PyNone /\ get_parent a w = (Returns q, w)))) \/
    (exists w', unp a c w = (Returns a, w') /\ provided a w = (Returns true, w) /\
       get_parent a w = (Returns PyNone, w) /\ set_parent a c w = (Returns tt, w')) \/
    (unp a c w = assertL a c w /\ forall d w', unp a c w <> (Returns d, w') /\ forall e, unp a c w <> (Both d e, w')).
  Proof using HO.
    intros a c w. unfold customizeUnprotected, assertLocation, andthen.
    destruct (orderly_provided _ _ _ HO a w) as [(p & Hp) | (e & w' & Hp)]; rewrite Hp.
    - destruct p.
      + destruct (orderly_parent _ _ _ HO a w) as [(q & Hq) | (e & w' & Hq)]; rewrite Hq.
        * destruct q as [|n|t o d].
          -- destruct (set_parent a c w) as [[[]|e|[] e| |] w'] eqn:ES.
             ++ right. left. exists w'. repeat split; reflexivity.
             ++ right. right. split; [reflexivity|]. intros; split; [discriminate|intros; discriminate].
             ++ right. right. split; [reflexivity|]. intros; split; [discriminate|intros; discriminate].
             ++ right. right. split; [reflexivity|]. intros; split; [discriminate|intros; discriminate].
             ++ right. right. split; [reflexivity|]. intros; split; [discriminate|intros; discriminate].
          -- left. split; [reflexivity|]. right. split; [reflexivity|]. exists (Plain n). split; [discriminate | reflexivity].
          -- left. split; [reflexivity|]. right. split; [reflexivity|]. exists (Prox t o d). split; [discriminate | reflexivity].
        * right. right. split; [reflexivity|]. intros; split; [discriminate|intros; discriminate].
      + left. split; [reflexivity|]. left. reflexivity.
    - right. right. split; [reflexivity|]. intros; split; [discriminate|intros; discriminate].
  Qed.

  (** After it, another step has nothing to do. *)
  Lemma unp_then : forall (h : obj -> obj -> action W X obj) a c w,
    h = unp \/ h = assertL ->
    andthen (unp a c) (fun a' => h a' c) w = h a c w.
  Proof using HO.
    intros h a c w Hh.
    destruct (unp_cases a c w) as [(HU & _) | [(w' & HU & Hp & Hq & HSt) | (HU & Hno)]].
    - rewrite (andthen_returns _ _ _ _ _ HU). reflexivity.
    - rewrite (andthen_returns _ _ _ _ _ HU).
      destruct (orderly_set _ _ _ HO a c w w' Hp HSt) as (Hp' & Hq' & HS').
      assert (HA : assertL a c w = (Returns a, w')).
      { unfold assertLocation, andthen. rewrite Hp, Hq, HSt. reflexivity. }
      assert (HU' : unp a c w' = (Returns a, w')).
      { unfold customizeUnprotected, andthen. rewrite Hp', Hq'. destruct c; [rewrite HS'|..]; reflexivity. }
      assert (HA' : assertL a c w' = (Returns a, w')).
      { unfold assertLocation, andthen. rewrite Hp', Hq'. destruct c; [rewrite HS'|..]; reflexivity. }
      destruct Hh as [-> | ->]; congruence.
    - assert (HE : h a c w = unp a c w) by (destruct Hh as [-> | ->]; [reflexivity | symmetry; exact HU]).
      rewrite HE. unfold andthen. destruct (unp a c w) as [[d|e|d e| |] w']; try reflexivity.
      + destruct (Hno d w') as [H _]. destruct (H eq_refl).
      + destruct (Hno d w') as [_ H]. destruct (H e eq_refl).
  Qed.

  Lemma custom_false : forall k, custom k false = unp.
  Proof using. intros []; reflexivity. Qed.

  Lemma custom_true : forall k, custom k true = unp \/ custom k true = assertL.
  Proof using. intros []; [right|left|left]; reflexivity. Qed.

  Lemma call_trusted : forall b fuel k f n m args, is_trusted k ->
    run b fuel (Wrapped k f n m) args = trusted_call R index_error (run b fuel f) (custom k) b fuel args.
  Proof using. intros b fuel [] f n m args Hk; try reflexivity. destruct (Hk eq_refl). Qed.

  (** Without proxies. *)
  Lemma stack_bare : forall b fuel x args f w,
    Forall (honest R b) (x :: args) -> Forall not_a_proxy (x :: args) ->
    Forall is_trusted (layers f) -> layers f <> [] ->
    run b fuel f (x :: args) w = andthen (app (core f) (x :: args)) (fun a => unp a x) w.
  Proof using HS HD HO.
    intros b fuel x args f w HH HN. revert w. induction f as [i|k f IH n m]; intros w HT HL.
    - destruct (HL eq_refl).
    - cbn [layers] in HT. inversion HT as [|? ? Hk HT']; subst. rewrite (call_trusted b fuel k f n m _ Hk).
      unfold trusted_call.
      rewrite (andthen_returns _ _ _ _ _ (proj2 (any_honest R HS b _ w HD HH) HN)).
      cbn [core]. rewrite (andthen_ext _ (run b fuel f (x :: args)) _ (fun a => unp a x) w eq_refl).
      2:{ intros a w'. rewrite custom_false. reflexivity. }
      destruct f as [i|k' f' n' m'].
      + reflexivity.
      + cbn [layers] in HT'.
        rewrite (andthen_ext _ _ _ _ w (IH w HT' ltac:(discriminate)) (fun a w' => eq_refl)).
        rewrite andthen_assoc. apply andthen_ext; [reflexivity|]. intros a w'.
        exact (unp_then unp a x w' (or_introl eq_refl)).
  Qed.

  (** With a proxy among the arguments. *)
  Lemma stack_proxied : forall b fuel x args k f n m w,
    Forall (simple R b) (x :: args) -> Exists (a_proxy R) (x :: args) ->
    is_trusted k -> Forall is_trusted (layers f) ->
    run b fuel (Wrapped k f n m) (x :: args) w =
      andthen (app (core f) (map bare (x :: args))) (fun a =>
        andthen (custom k true a (bare x)) (fun a' => ProxyFactory R b fuel a' None)) w.
  Proof using HS HD HO.
    intros b fuel x args k f n m w HSi HE Hk HT. rewrite (call_trusted b fuel k f n m _ Hk).
    assert (HH : Forall (honest R b) (x :: args)).
    { apply Forall_forall. intros y Hy. rewrite Forall_forall in HSi. exact (proj1 (HSi y Hy)). }
    assert (HB : Forall (honest R b) (map bare (x :: args)) /\ Forall not_a_proxy (map bare (x :: args))).
    { rewrite Forall_forall in HSi.
      split; apply Forall_forall; intros y Hy; apply in_map_iff in Hy; destruct Hy as (z & <- & Hz);
        destruct (HSi z Hz) as (_ & H1 & H2); assumption. }
    destruct HB as [HB HN]. unfold trusted_call.
    rewrite (andthen_returns _ _ _ _ _ (proj1 (any_honest R HS b _ w HD HH) HE)).
    rewrite (andthen_returns _ _ _ _ _ (strip_honest R HS b _ w HH)).
    cbn [map] in *.
    destruct f as [i|k' f' n' m'].
    - cbn [core call]. apply andthen_ext; [reflexivity|]. intros a w'. reflexivity.
    - rewrite (andthen_ext _ _ _ _ w
                 (stack_bare b fuel (bare x) (map bare args) (Wrapped k' f' n' m') w HB HN HT ltac:(discriminate))
                 (fun a w' => eq_refl)).
      rewrite andthen_assoc. cbn [core]. apply andthen_ext; [reflexivity|]. intros a w'.
      transitivity (andthen (andthen (unp a (bare x)) (fun a0 => custom k true a0 (bare x)))
                      (fun a' => ProxyFactory R b fuel a' None) w').
      { rewrite andthen_assoc. apply andthen_ext; [reflexivity|]. intros a0 w0. reflexivity. }
      apply andthen_ext; [|reflexivity]. apply unp_then. apply custom_true.
  Qed.

  Lemma settles_assert : forall a c w o w',
    settles provided get_parent set_parent located true a c w o w' -> assertL a c w = (o, w').
  Proof using.
    intros a c w o w' H. unfold assertLocation, andthen.
    inversion H as [w1 w2 q Hp Hq Hn|w1 w2 w3 Hp Hq Hs|w1 d w2 _ Hp Hl|w1 Hc|e w1 Hp|e w1 w2 Hp Hq|
                    e w1 w2 w3 Hp Hq Hs|e w1 w2 _ Hp Hl]; subst;
      try discriminate; rewrite ?Hp; try reflexivity; try exact Hl; rewrite Hq; try reflexivity.
    - destruct q; [destruct (Hn eq_refl)|reflexivity|reflexivity].
    - rewrite Hs. reflexivity.
    - rewrite Hs. reflexivity.
  Qed.

  Lemma settles_unp : forall a c w o w',
    settles provided get_parent set_parent located false a c w o w' -> unp a c w = (o, w').
  Proof using.
    intros a c w o w' H. unfold customizeUnprotected, andthen.
    inversion H as [w1 w2 q Hp Hq Hn|w1 w2 w3 Hp Hq Hs|w1 d w2 Hc|w1 _ Hp|e w1 Hp|e w1 w2 Hp Hq|
                    e w1 w2 w3 Hp Hq Hs|e w1 w2 Hc]; subst;
      try discriminate; rewrite ?Hp; try reflexivity; rewrite Hq; try reflexivity.
    - destruct q; [destruct (Hn eq_refl)|reflexivity|reflexivity].
    - rewrite Hs. reflexivity.
    - rewrite Hs. reflexivity.
  Qed.

  Lemma stack_settles : forall b fuel x args k f n m w,
    Forall (simple R b) (x :: args) -> Exists (a_proxy R) (x :: args) ->
    is_trusted k -> Forall is_trusted (layers f) ->
    (forall e w1, app (core f) (map bare (x :: args)) w = (Raises e, w1) ->
       run b fuel (Wrapped k f n m) (x :: args) w = (Raises e, w1)) /\
    (forall a w1, app (core f) (map bare (x :: args)) w = (Returns a, w1) ->
       (forall e w2, settles provided get_parent set_parent located
                       (match k with Locating => true | _ => false end) a (bare x) w1 (Raises e) w2 ->
          run b fuel (Wrapped k f n m) (x :: args) w = (Raises e, w2)) /\
       (forall a' w2, settles provided get_parent set_parent located
                       (match k with Locating => true | _ => false end) a (bare x) w1 (Returns a') w2 ->
          run b fuel (Wrapped k f n m) (x :: args) w = ProxyFactory R b fuel a' None w2)).
  Proof using HS HD HO.
    intros b fuel x args k f n m w H1 H2 H3 H4.
    rewrite (stack_proxied b fuel x args k f n m w H1 H2 H3 H4).
    assert (HK : forall a c w0 o w', settles provided get_parent set_parent located
                   (match k with Locating => true | _ => false end) a c w0 o w' ->
                 custom k true a c w0 = (o, w')).
    { intros a c w0 o w' H. destruct k; [exact (settles_assert a c w0 o w' H)
        | exact (settles_unp a c w0 o w' H) | exact (settles_unp a c w0 o w' H)]. }
    split.
    - intros e w1 Ha. exact (andthen_raises _ _ _ _ _ Ha).
    - intros a w1 Ha. rewrite (andthen_returns _ _ _ _ _ Ha). split.
      + intros e w2 H. exact (andthen_raises _ _ _ _ _ (HK _ _ _ _ _ H)).
      + intros a' w2 H. exact (andthen_returns _ _ _ _ _ (HK _ _ _ _ _ H)).
  Qed.

  Lemma stack_settles_bare : forall b fuel x args f w,
    Forall (honest R b) (x :: args) -> Forall not_a_proxy (x :: args) ->
    Forall is_trusted (layers f) -> layers f <> [] ->
    (forall e w1, app (core f) (x :: args) w = (Raises e, w1) ->
       run b fuel f (x :: args) w = (Raises e, w1)) /\
    (forall a w1 o w2, app (core f) (x :: args) w = (Returns a, w1) ->
       settles provided get_parent set_parent located false a x w1 o w2 ->
       run b fuel f (x :: args) w = (o, w2)).
  Proof using HS HD HO.
    intros b fuel x args f w H1 H2 H3 H4. rewrite (stack_bare b fuel x args f w H1 H2 H3 H4). split.
    - intros e w1 Ha. exact (andthen_raises _ _ _ _ _ Ha).
    - intros a w1 o w2 Ha H. rewrite (andthen_returns _ _ _ _ _ Ha). exact (settles_unp a x w1 o w2 H).
  Qed.

  (** Untrusted factories unwrap and protect nothing. *)
  Lemma untrusted_settles : forall b fuel x args f n m w,
    (forall e w1, run b fuel f (x :: args) w = (Raises e, w1) ->
       run b fuel (Wrapped Untrusted f n m) (x :: args) w = (Raises e, w1)) /\
    (forall a w1 o w2, run b fuel f (x :: args) w = (Returns a, w1) ->
       settles provided get_parent set_parent located true a x w1 o w2 ->
       run b fuel (Wrapped Untrusted f n m) (x :: args) w = (o, w2)).
  Proof using.
    intros b fuel x args f n m w. cbn [call]. split.
    - intros e w1 Ha. exact (andthen_raises _ _ _ _ _ Ha).
    - intros a w1 o w2 Ha H. rewrite (andthen_returns _ _ _ _ _ Ha).
      rewrite (andthen_returns (head index_error (x :: args)) _ w1 x w1 eq_refl).
      exact (settles_assert a x w1 o w2 H).
  Qed.

  Lemma stack_once : forall b fuel x args k f n m w,
    Forall (simple R b) (x :: args) -> is_trusted k -> Forall is_trusted (layers f) ->
    run b fuel (Wrapped k f n m) (x :: args) w =
    run b fuel (Wrapped k (App (core f)) n m) (x :: args) w.
  Proof using HS HD HO.
    intros b fuel x args k f n m w HSi Hk HT.
    destruct (Forall_Exists_dec not_a_proxy
                (fun y => match y return {not_a_proxy y} + {~ not_a_proxy y} with
                          | Prox _ _ _ => right (fun H => H)
                          | PyNone => left I | Plain _ => left I end) (x :: args)) as [HN | HE].
    - assert (HH : Forall (honest R b) (x :: args)).
      { apply Forall_forall. intros y Hy. rewrite Forall_forall in HSi. exact (proj1 (HSi y Hy)). }
      rewrite (stack_bare b fuel x args (Wrapped k f n m) w HH HN); [|constructor; assumption|discriminate].
      rewrite (stack_bare b fuel x args (Wrapped k (App (core f)) n m) w HH HN);
        [reflexivity|constructor; [exact Hk|constructor]|discriminate].
    - assert (HE' : Exists (a_proxy R) (x :: args)).
      { apply Exists_exists in HE. destruct HE as (y & Hy & HyN). apply Exists_exists. exists y.
        split; [exact Hy|]. rewrite Forall_forall in HSi. destruct (HSi y Hy) as ([HP | (HP & _)] & _).
        - exact HP.
        - destruct (HyN HP). }
      rewrite (stack_proxied b fuel x args k f n m w HSi HE' Hk HT).
      rewrite (stack_proxied b fuel x args k (App (core f)) n m w HSi HE' Hk (Forall_nil _)). reflexivity.
  Qed.
End Calls.
