(** Proofs about comparisons through proxies. *)

From Coq Require Import List Arith Bool Lia.
From Verif Require Import Compare CompareSpec.
Import ListNotations.

Section Facts.
  Variable W : world.
  Variable b : build.
  Hypothesis HN : no_subclass W.

  Lemma swap_swap : forall o, swap (swap o) = o.
  Proof using. destruct o; reflexivity. Qed.

  Lemma seen_result : forall t r, result b (seen b t r) = seen b true r.
  Proof using. destruct b, t, r; reflexivity. Qed.

  (** Two objects. *)
  Lemma rich_bare : forall k x y o, rich W b (S k) (Obj x) (Obj y) o = Some (bare W x y o).
  Proof using.
    intros k x y o. cbn [rich]. unfold bare, otherwise, by_identity. cbn [type_of same].
    destruct (w_strict W (w_type W y) (w_type W x)).
    - destruct (w_cmp W y (swap o) (Obj x)); [reflexivity|].
      destruct (w_cmp W x o (Obj y)); [reflexivity|]. destruct o; reflexivity.
    - destruct (w_cmp W x o (Obj y)); [reflexivity|].
      destruct (w_cmp W y (swap o) (Obj x)); [reflexivity|]. destruct o; reflexivity.
  Qed.

  (** A proxy on the left asks for its object. *)
  Lemma rich_left : forall k i v w o,
    rich W b (S k) (Pr i v) w o =
      match rich W b k v w o with Some r => Some (result b r) | None => None end.
  Proof using HN.
    intros k i v w o. cbn [rich type_of]. rewrite (HN (type_of W w)). unfold otherwise.
    destruct (rich W b k v w o); reflexivity.
  Qed.

  (** An object on the left, a proxy on the right: the reflected comparison. *)
  Lemma rich_right : forall k x i w o, selective W x ->
    rich W b (S k) (Obj x) (Pr i w) o =
      match rich W b k w (Obj x) (swap o) with Some r => Some (result b r) | None => None end.
  Proof using.
    intros k x i w o Hs. cbn [rich]. rewrite (Hs o i w). unfold otherwise.
    destruct (w_strict W (type_of W (Pr i w)) (type_of W (Obj x)));
      destruct (rich W b k w (Obj x) (swap o)); reflexivity.
  Qed.

  Lemma rich_strip_left : forall v k y o, layers v < k ->
    rich W b k v (Obj y) o = Some (seen b (proxied v) (bare W (strip v) y o)).
  Proof using HN.
    induction v as [x|i v IH]; intros k y o Hk; (destruct k as [|k]; [cbn in Hk; lia|]).
    - rewrite rich_bare. destruct b; reflexivity.
    - rewrite rich_left. cbn [layers] in Hk. rewrite (IH k y o) by lia.
      rewrite seen_result. reflexivity.
  Qed.

  (** The exact result: if the right operand is a proxy, the object behind it
      is asked first, for the reflected comparison. *)
  Lemma rich_exact : forall v w o k, selective W (strip v) -> layers v + layers w < k ->
    rich W b k v w o =
      Some (seen b (proxied v || proxied w)
             (if proxied w then bare W (strip w) (strip v) (swap o)
              else bare W (strip v) (strip w) o)).
  Proof using HN.
    induction v as [x|i v IH]; intros w o k Hs Hk; (destruct k as [|k]; [lia|]).
    - destruct w as [y|j w].
      + rewrite rich_bare. destruct b; reflexivity.
      + rewrite rich_right by exact Hs. cbn [layers] in Hk.
        rewrite rich_strip_left by lia. rewrite seen_result. reflexivity.
    - rewrite rich_left. cbn [layers strip] in *. rewrite (IH w o k Hs) by lia.
      rewrite seen_result. reflexivity.
  Qed.

  Lemma rich_mirrored : forall v w o k, selective W (strip v) ->
    mirrored W (strip v) (strip w) o -> layers v + layers w < k ->
    rich W b k v w o = Some (seen b (proxied v || proxied w) (bare W (strip v) (strip w) o)).
  Proof using HN.
    intros v w o k Hs Hm Hk. rewrite (rich_exact v w o k Hs Hk). unfold mirrored in Hm.
    destruct (proxied w); [rewrite <- Hm|]; reflexivity.
  Qed.

  Lemma hash_strip : forall v, hash W v = w_hash W (strip v).
  Proof using. induction v; cbn; auto. Qed.

  Lemma truth_seen : forall t r, truth W (seen b t r) = truth W r.
  Proof using. destruct b, t, r; reflexivity. Qed.

  Lemma same_strip : forall v w, well_numbered v w -> same v w = true -> strip v = strip w.
  Proof using. intros v w Hw H. rewrite (Hw H). reflexivity. Qed.

  Lemma seen_exc : forall t r e, seen b t r = Exc e -> r = Exc e.
  Proof using. intros t r e. destruct b, t, r; cbn; congruence. Qed.

  (** A key is found through proxies iff it would be found without. *)
  Lemma lookup_find : forall {D} (entries : list (val * D)) x k,
    (forall e, In e entries ->
       selective W (strip (fst e)) /\ mirrored W (strip (fst e)) (strip x) Eq /\
       well_numbered (fst e) x /\ layers (fst e) + layers x < k) ->
    (exists t, bare W (strip x) (strip x) Eq = t /\ truth W t = true) ->
    lookup W b k entries x = find W (stripped entries) (strip x).
  Proof using HN.
    intros D entries x k HE Hr. destruct Hr as (t & Ht & Htr).
    induction entries as [|[key d] rest IH]; [reflexivity|].
    cbn [lookup stripped map fst snd find]. rewrite !hash_strip.
    assert (Hrest : lookup W b k rest x = find W (stripped rest) (strip x)).
    { apply IH. intros e He. apply HE. right. exact He. }
    destruct (HE (key, d) (or_introl eq_refl)) as (Hs & Hm & Hw & Hl). cbn [fst] in *.
    destruct (Nat.eqb (w_hash W (strip key)) (w_hash W (strip x))); [|exact Hrest].
    destruct (same key x) eqn:Es.
    - rewrite (same_strip key x Hw Es), Nat.eqb_refl. reflexivity.
    - rewrite (rich_mirrored key x Eq k Hs Hm Hl).
      destruct (Nat.eqb (strip key) (strip x)) eqn:En.
      + apply Nat.eqb_eq in En. rewrite En, Ht.
        destruct t as [[|]|n|r|e]; cbn in Htr; try discriminate.
        * destruct b, (proxied key || proxied x); reflexivity.
        * destruct b, (proxied key || proxied x); cbn; rewrite Htr; reflexivity.
        * destruct b, (proxied key || proxied x); cbn; rewrite Htr; reflexivity.
      + rewrite Hrest. destruct (bare W (strip key) (strip x) Eq) as [v|n|r|e];
          destruct b, (proxied key || proxied x); reflexivity.
  Qed.

  (** An object that looks at what it is compared with: the answer is its own. *)
  Lemma rich_looks : forall x i w o k r, w_cmp W x o (Pr i w) = Some r ->
    w_strict W (w_proxy W) (w_type W x) = false ->
    rich W b (S k) (Obj x) (Pr i w) o = Some r.
  Proof using.
    intros x i w o k r Hc Ht. cbn [rich type_of]. rewrite Ht, Hc. reflexivity.
  Qed.
End Facts.
