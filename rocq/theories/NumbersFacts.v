(** Proofs for C90. *)

From Coq Require Import ZArith Lia String List.
From Verif Require Import Numbers NumbersSpec.
Import ListNotations.
Open Scope Z_scope.

Lemma signed_fits b z : 0 < b -> fits b z -> signed b z = z.
Proof.
  intros Hb [H1 H2]. unfold signed.
  assert (Hp : 2 ^ b = 2 * 2 ^ (b - 1)).
  { replace b with (Z.succ (b - 1)) at 1 by lia. apply Z.pow_succ_r. lia. }
  assert (Hq : 0 < 2 ^ (b - 1)) by (apply Z.pow_pos_nonneg; lia).
  destruct (Z_lt_le_dec z 0) as [Hz | Hz].
  - assert (E : z mod 2 ^ b = z + 2 ^ b).
    { symmetry. apply Z.mod_unique with (q := -1); lia. }
    rewrite E. destruct (Z.ltb_spec (z + 2 ^ b) (2 ^ (b - 1))); lia.
  - rewrite Z.mod_small by lia. destruct (Z.ltb_spec z (2 ^ (b - 1))); lia.
Qed.

Lemma fits_wider a b z : a <= b -> fits a z -> fits b z.
Proof.
  intros Hab [H1 H2].
  assert (2 ^ (a - 1) <= 2 ^ (b - 1)) by (apply Z.pow_le_mono_r; lia).
  split; lia.
Qed.

Lemma fits_minus1 b : 0 < b -> fits b (-1).
Proof.
  intros Hb. assert (0 < 2 ^ (b - 1)) by (apply Z.pow_pos_nonneg; lia). split; lia.
Qed.

Section Facts.
  Context {W X V : Type}.
  Variable p : platform.
  Variable h : host W X V.

  Lemma hash_same upper w :
    sane p -> decent p h -> size_bits p <= long_bits p ->
    hash_of_proxy p upper h w = plain_hash h w.
  Proof.
    intros [Hl Hs] [Hd _] Hw. unfold hash_of_proxy, proxy_hash, plain_hash, call, call_number.
    assert (R : forall z, fits (size_bits p) z ->
                read_result p upper (signed (long_bits p) z) = z).
    { intros z Hz. rewrite (signed_fits _ _ Hl (fits_wider _ _ _ Hw Hz)).
      unfold read_result. destruct (Z.leb_spec (size_bits p) (long_bits p)); [| lia].
      now apply signed_fits. }
    destruct (h_hash h w) as [[z | x] w'] eqn:E.
    - destruct (Hd _ _ _ E) as [Hf Hn]. rewrite (R _ Hf). unfold number_result.
      destruct (Z.eqb_spec z (-1)); [contradiction | reflexivity].
    - rewrite (R _ (fits_minus1 _ Hs)). reflexivity.
  Qed.

  Lemma length_exact w :
    decent p h ->
    length_of_proxy h w =
      match h_ask h "__len__" w with
      | (None, w') => plain_length h w'
      | (Some x, w') => (Raises x, w')
      end.
  Proof.
    intros [_ Hd]. unfold length_of_proxy, proxy_length, check, plain_length, call, call_number.
    destruct (h_ask h "__len__" w) as [[x |] w']; [reflexivity |].
    destruct (h_length h w') as [[z | x] w''] eqn:E; [| reflexivity].
    destruct (Hd _ _ _ E) as [_ Hz]. unfold number_result.
    destruct (Z.eqb_spec z (-1)); [lia | reflexivity].
  Qed.

  Lemma getitem_through k w :
    lets_through h -> proxy_getitem h k w = proxied h (call (h_subscript h k)) w.
  Proof.
    intros Ht. unfold proxy_getitem, andthen at 1, check. rewrite Ht. reflexivity.
  Qed.

  Lemma setitem_through k v w :
    lets_through h -> proxy_setitem h k v w = call (h_ass_subscript h k v) w.
  Proof.
    intros Ht. unfold proxy_setitem.
    destruct v; unfold andthen, check; rewrite Ht; reflexivity.
  Qed.

  Lemma call_ext {A} (f g : W -> (A + X) * W) w : f w = g w -> call f w = call g w.
  Proof. unfold call. now intros ->. Qed.

  Lemma andthen_ext {A B} (m m' : action W X A) (k : A -> action W X B) w :
    m w = m' w -> andthen m k w = andthen m' k w.
  Proof. unfold andthen. now intros ->. Qed.

  Lemma place_get k w :
    sane p -> lets_through h -> fits (long_bits p) k ->
    h_subscript h k w = h_item h k w ->
    proxy_igetitem p h k w = proxied h (call (h_item h k)) w.
  Proof.
    intros [Hl _] Ht Hf E. unfold proxy_igetitem, PyInt_FromLong.
    rewrite (signed_fits _ _ Hl Hf), (getitem_through _ _ Ht).
    unfold proxied. apply andthen_ext, call_ext, E.
  Qed.

  Lemma place_set k v w :
    sane p -> lets_through h -> fits (long_bits p) k ->
    h_ass_subscript h k v w = h_assign h k v w ->
    proxy_isetitem p h k v w = call (h_assign h k v) w.
  Proof.
    intros [Hl _] Ht Hf E. unfold proxy_isetitem, PyInt_FromLong.
    rewrite (signed_fits _ _ Hl Hf), (setitem_through _ _ _ Ht). apply call_ext, E.
  Qed.

  (** One proof for both slots. *)
  Lemma from_the_end_same {A} (slot slot' : Z -> action W X A) i w :
    decent p h -> lets_through h ->
    (forall k w', place h w i k -> slot k w' = slot' k w') ->
    from_the_end (length_of_proxy h) slot i w = from_the_end (plain_length h) slot' i w.
  Proof.
    intros Hd Ht Hs. unfold from_the_end. destruct (Z.ltb_spec i 0) as [Hi | Hi].
    - unfold andthen. rewrite (length_exact w Hd), (Ht "__len__"%string w).
      unfold plain_length, call. destruct (h_length h w) as [[l | x] w'] eqn:E; [| reflexivity].
      apply Hs. econstructor 2; eassumption.
    - apply Hs. now constructor.
  Qed.

  Lemma proxied_from_the_end (slot : Z -> action W X V) len i w :
    proxied h (from_the_end len slot i) w = from_the_end len (fun k => proxied h (slot k)) i w.
  Proof.
    unfold from_the_end, proxied. destruct (i <? 0); [| reflexivity].
    unfold andthen. destruct (len w) as [[l | x |] w']; reflexivity.
  Qed.

  Lemma get_same i w :
    sane p -> decent p h -> lets_through h -> narrow_enough p h w i ->
    (is_sequence h /\ within h w i \/ is_instance h) ->
    proxy_get p h i w = proxied h (plain_get h i) w.
  Proof.
    intros Hs Hd Ht Hn Hk. unfold proxy_get, plain_get. rewrite proxied_from_the_end.
    apply from_the_end_same; try assumption. intros k w' Hp.
    apply place_get; try assumption; [now apply Hn |].
    destruct Hk as [[Hq Hi] | Hq]; [apply Hq, Hi, Hp | apply Hq].
  Qed.

  Lemma set_same i v w :
    sane p -> decent p h -> lets_through h -> narrow_enough p h w i ->
    (is_sequence h /\ within h w i \/ is_instance h) ->
    proxy_set p h i v w = plain_set h i v w.
  Proof.
    intros Hs Hd Ht Hn Hk. unfold proxy_set, plain_set.
    apply from_the_end_same; try assumption. intros k w' Hp.
    apply place_set; try assumption; [now apply Hn |].
    destruct Hk as [[Hq Hi] | Hq]; [apply Hq, Hi, Hp | apply Hq].
  Qed.

  (** On a wide [long] every index is narrow enough. *)
  Lemma wide_enough i w :
    decent p h -> size_bits p <= long_bits p -> fits (size_bits p) i ->
    narrow_enough p h w i.
  Proof.
    intros [_ Hd] Hw Hi k Hp. apply (fits_wider _ _ _ Hw). destruct Hp as [H | l w' H E]; [easy |].
    destruct (Hd _ _ _ E) as [[H1 H2] H3]. destruct Hi. split; lia.
  Qed.

  Lemma get_twice i w l :
    sane p -> decent p h -> lets_through h -> is_builtin h ->
    h_length h w = (inl l, w) -> i < 0 -> fits (long_bits p) (i + l) ->
    proxy_get p h i w = proxied h (plain_get h (i + l)) w.
  Proof.
    intros [Hl _] Hd Ht Hb E Hi Hf. unfold proxy_get, from_the_end at 1.
    destruct (Z.ltb_spec i 0); [| lia].
    unfold andthen. rewrite (length_exact w Hd), (Ht "__len__"%string w).
    unfold plain_length at 1, call at 1. rewrite E. cbv iota beta.
    unfold proxy_igetitem, PyInt_FromLong.
    rewrite (signed_fits _ _ Hl Hf), (getitem_through _ _ Ht).
    unfold proxied. apply andthen_ext. apply Hb.
  Qed.

  Lemma backwards_ext ends (f g : Z -> action W X V) n :
    (forall k w, 0 <= k < Z.of_nat n -> f k w = g k w) ->
    forall w, backwards ends f n w = backwards ends g n w.
  Proof.
    induction n as [| m IH]; intros H w; [reflexivity |]. cbn [backwards].
    rewrite (H (Z.of_nat m) w) by lia.
    destruct (g (Z.of_nat m) w) as [[v | x |] w']; try reflexivity.
    rewrite IH; [reflexivity |]. intros k w0 Hk. apply H. lia.
  Qed.

  Lemma reversed_same w :
    sane p -> decent p h -> lets_through h -> is_sequence h ->
    (forall w n w', h_length h w = (inl n, w') -> fits (long_bits p) n) ->
    reversed_items (h_ends h) (length_of_proxy h) (proxy_get p h) w
    = reversed_items (h_ends h) (plain_length h) (fun k => proxied h (plain_get h k)) w.
  Proof.
    intros Hs Hd Ht Hq Hn. unfold reversed_items.
    rewrite (length_exact w Hd), (Ht "__len__"%string w). unfold plain_length at 1 2, call.
    destruct (h_length h w) as [[n | x] w'] eqn:E; [| reflexivity].
    apply backwards_ext. intros k w0 Hk.
    destruct (proj2 Hd _ _ _ E) as [_ H0]. rewrite Z2Nat.id in Hk by assumption.
    destruct (Hn _ _ _ E) as [H1 H2].
    apply get_same; try assumption.
    - intros j [Hj | l w1 Hj _]; [split; lia | lia].
    - left. split; [assumption |]. intros j [Hj | l w1 Hj _]; lia.
  Qed.
End Facts.

(** Refusals do not depend on what is behind them. *)

Lemma refused_andthen {W X V A} (h h' : host W X V) n (k k' : unit -> action W X A) w :
  same_checker h h' -> refuses h n ->
  andthen (check h n) k w = andthen (check h' n) k' w.
Proof.
  intros Hc Hr. unfold andthen, check. rewrite <- (Hc n w).
  specialize (Hr w). destruct (h_ask h n w) as [[x |] w']; [reflexivity |].
  now contradiction Hr.
Qed.

Lemma get_refused {W X V} (p : platform) (h h' : host W X V) i w :
  same_checker h h' -> refuses h "__getitem__" ->
  (forall w, h_length h w = h_length h' w) ->
  proxy_get p h i w = proxy_get p h' i w /\ forall v, fst (proxy_get p h i w) <> Returns v.
Proof.
  intros Hc Hr Hl.
  assert (G : forall k w, proxy_igetitem p h k w = proxy_igetitem p h' k w /\
                          forall v, fst (proxy_igetitem p h k w) <> Returns v).
  { intros k w0. split; [apply (refused_andthen _ _ _ _ _ _ Hc Hr) |].
    intros v. unfold proxy_igetitem, proxy_getitem, andthen at 1, check.
    specialize (Hr w0). destruct (h_ask h "__getitem__" w0) as [[x |] w']; [easy |].
    now contradiction Hr. }
  unfold proxy_get, from_the_end. destruct (i <? 0); [| apply G].
  unfold andthen, length_of_proxy, proxy_length, check. rewrite <- (Hc "__len__"%string w).
  destruct (h_ask h "__len__" w) as [[x |] w']; cbn.
  - split; [reflexivity | easy].
  - unfold call_number. rewrite <- (Hl w').
    destruct (h_length h w') as [[z | x] w'']; cbn.
    + destruct (z =? -1); [split; [reflexivity | easy] | apply G].
    + split; [reflexivity | easy].
Qed.

Lemma set_refused {W X V} (p : platform) (h h' : host W X V) i v w :
  same_checker h h' ->
  refuses h (match v with Some _ => "__setitem__" | None => "__delitem__" end)%string ->
  (forall w, h_length h w = h_length h' w) ->
  proxy_set p h i v w = proxy_set p h' i v w /\ fst (proxy_set p h i v w) <> Returns tt.
Proof.
  intros Hc Hr Hl.
  assert (G : forall k w, proxy_isetitem p h k v w = proxy_isetitem p h' k v w /\
                          fst (proxy_isetitem p h k v w) <> Returns tt).
  { intros k w0. unfold proxy_isetitem, proxy_setitem.
    destruct v; (split; [apply (refused_andthen _ _ _ _ _ _ Hc Hr) |]);
      unfold andthen, check; specialize (Hr w0);
      destruct (h_ask h _ w0) as [[x |] w']; try easy; now contradiction Hr. }
  unfold proxy_set, from_the_end. destruct (i <? 0); [| apply G].
  unfold andthen, length_of_proxy, proxy_length, check. rewrite <- (Hc "__len__"%string w).
  destruct (h_ask h "__len__" w) as [[x |] w']; cbn.
  - split; [reflexivity | easy].
  - unfold call_number. rewrite <- (Hl w').
    destruct (h_length h w') as [[z | x] w'']; cbn.
    + destruct (z =? -1); [split; [reflexivity | easy] | apply G].
    + split; [reflexivity | easy].
Qed.

Lemma length_refused {W X V} (p : platform) (h h' : host W X V) i w :
  same_checker h h' -> refuses h "__len__" -> i < 0 ->
  proxy_get p h i w = proxy_get p h' i w /\
  (forall v, proxy_set p h i v w = proxy_set p h' i v w).
Proof.
  intros Hc Hr Hi.
  assert (L : forall A (k k' : Z -> action W X A),
             andthen (length_of_proxy h) k w = andthen (length_of_proxy h') k' w).
  { intros A k k'. unfold andthen, length_of_proxy, proxy_length, check.
    rewrite <- (Hc "__len__"%string w). specialize (Hr w).
    destruct (h_ask h "__len__" w) as [[x |] w']; [reflexivity | now contradiction Hr]. }
  split; [| intros v]; unfold proxy_get, proxy_set, from_the_end;
    destruct (Z.ltb_spec i 0); try lia; apply L.
Qed.
