(** * MFacts: reasoning about the monad and about dictionaries. *)

From Coq Require Import List String Bool Arith ZArith Lia.
From Verif Require Import Base Domain.
Import ListNotations.
Open Scope string_scope.
Open Scope m_scope.

(** ** Inversion and computation *)

Lemma bind_inv {A B} (m : M A) (f : A -> M B) s r s' tr :
  bind m f s = (r, s', tr) ->
  (exists e, m s = (Exc e, s', tr) /\ r = Exc e) \/
  (exists a s1 t1 t2, m s = (Ok a, s1, t1) /\ f a s1 = (r, s', t2) /\
                      tr = (t1 ++ t2)%list).
Proof.
  unfold bind. destruct (m s) as [[[a|e] s1] t1] eqn:Hm.
  - destruct (f a s1) as [[r2 s2] t2] eqn:Hf. intros H; inversion H; subst.
    right. exists a, s1, t1, t2. auto.
  - intros H; inversion H; subst. left. exists e. auto.
Qed.

Lemma catch_inv {A} (m : M A) (h : exn -> M A) s r s' tr :
  catch m h s = (r, s', tr) ->
  (exists a, m s = (Ok a, s', tr) /\ r = Ok a) \/
  (exists e s1 t1 t2, m s = (Exc e, s1, t1) /\ h e s1 = (r, s', t2) /\
                      tr = (t1 ++ t2)%list).
Proof.
  unfold catch. destruct (m s) as [[[a|e] s1] t1] eqn:Hm.
  - intros H; inversion H; subst. left. exists a. auto.
  - destruct (h e s1) as [[r2 s2] t2] eqn:Hf. intros H; inversion H; subst.
    right. exists e, s1, t1, t2. auto.
Qed.

Lemma bind_ok {A B} (m : M A) (f : A -> M B) s a s1 t1 :
  m s = (Ok a, s1, t1) ->
  bind m f s = (let '(r, s', t2) := f a s1 in (r, s', (t1 ++ t2)%list)).
Proof. unfold bind. intros ->. destruct (f a s1) as [[? ?] ?]. reflexivity. Qed.

Lemma bind_exc {A B} (m : M A) (f : A -> M B) s e s1 t1 :
  m s = (Exc e, s1, t1) -> bind m f s = (Exc e, s1, t1).
Proof. unfold bind. intros ->. reflexivity. Qed.

Lemma catch_ok {A} (m : M A) (h : exn -> M A) s a s1 t1 :
  m s = (Ok a, s1, t1) -> catch m h s = (Ok a, s1, t1).
Proof. unfold catch. intros ->. reflexivity. Qed.

Lemma catch_exc {A} (m : M A) (h : exn -> M A) s e s1 t1 :
  m s = (Exc e, s1, t1) ->
  catch m h s = (let '(r, s', t2) := h e s1 in (r, s', (t1 ++ t2)%list)).
Proof. unfold catch. intros ->. destruct (h e s1) as [[? ?] ?]. reflexivity. Qed.

Lemma bind_get {B} (f : state -> M B) s : bind get f s = f s s.
Proof. unfold bind, get. destruct (f s s) as [[? ?] ?]. reflexivity. Qed.

Lemma bind_ret {A B} (a : A) (f : A -> M B) s : bind (ret a) f s = f a s.
Proof. unfold bind, ret. destruct (f a s) as [[? ?] ?]. reflexivity. Qed.

Lemma bind_raise {A B} e (f : A -> M B) s : bind (raise e) f s = (Exc e, s, []).
Proof. reflexivity. Qed.

Lemma bind_put {B} s1 (f : unit -> M B) s : bind (put s1) f s = f tt s1.
Proof. unfold bind, put. destruct (f tt s1) as [[? ?] ?]. reflexivity. Qed.

Lemma bind_fresh {B} (f : id -> M B) s :
  bind fresh f s = f (st_next s) (set_next (S (st_next s)) s).
Proof.
  unfold bind, fresh. destruct (f (st_next s) _) as [[? ?] ?]. reflexivity.
Qed.

Lemma bind_emit {B} e (f : unit -> M B) s :
  bind (emit e) f s = (let '(r, s', t) := f tt s in (r, s', e :: t)).
Proof. unfold bind, emit. destruct (f tt s) as [[? ?] ?]. reflexivity. Qed.

Lemma catch_ret {A} (a : A) h s : catch (ret a) h s = (Ok a, s, []).
Proof. reflexivity. Qed.

Lemma catch_raise {A} e (h : exn -> M A) s : catch (raise e) h s = h e s.
Proof. unfold catch, raise. destruct (h e s) as [[? ?] ?]. reflexivity. Qed.

Lemma bind_assoc {A B C} (m : M A) (f : A -> M B) (g : B -> M C) s :
  bind (bind m f) g s = bind m (fun a => bind (f a) g) s.
Proof.
  unfold bind. destruct (m s) as [[[a|e] s1] t1]; auto.
  destruct (f a s1) as [[[b|e] s2] t2]; auto.
  destruct (g b s2) as [[r s3] t3]. rewrite app_assoc. reflexivity.
Qed.

#[export] Hint Rewrite @bind_get @bind_ret @bind_raise @bind_put @bind_fresh @bind_emit
  @catch_ret @catch_raise : mrw.

Ltac msimpl := autorewrite with mrw in *.

(** Invert one step of a computation hypothesis. *)
Ltac mbind H :=
  let e := fresh "e" in let Hm := fresh "Hm" in let Hr := fresh "Hr" in
  let a := fresh "a" in let s1 := fresh "s1" in let t1 := fresh "t1" in
  let t2 := fresh "t2" in let Hf := fresh "Hf" in let Ht := fresh "Ht" in
  apply bind_inv in H;
  destruct H as [(e & Hm & Hr) | (a & s1 & t1 & t2 & Hm & Hf & Ht)].

Ltac mcatch H :=
  let e := fresh "e" in let Hm := fresh "Hm" in let Hr := fresh "Hr" in
  let a := fresh "a" in let s1 := fresh "s1" in let t1 := fresh "t1" in
  let t2 := fresh "t2" in let Hf := fresh "Hf" in let Ht := fresh "Ht" in
  apply catch_inv in H;
  destruct H as [(a & Hm & Hr) | (e & s1 & t1 & t2 & Hm & Hf & Ht)].

Ltac minj H := inversion H; clear H; subst.

(** ** Decidable equalities *)

Lemma perm_eqb_spec p q : reflect (p = q) (perm_eqb p q).
Proof.
  destruct p as [| |i u], q as [| |j w]; simpl; try (constructor; congruence).
  destruct (Nat.eqb_spec i j), (String.eqb_spec u w); subst; simpl;
    constructor; congruence.
Qed.

Lemma perm_eqb_refl p : perm_eqb p p = true.
Proof. destruct (perm_eqb_spec p p); congruence. Qed.

Lemma value_eqb_spec v w : reflect (v = w) (value_eqb v w).
Proof.
  destruct v, w; simpl; try (constructor; congruence).
  - destruct b, b0; constructor; congruence.
  - destruct (Z.eqb_spec z z0); constructor; congruence.
  - destruct (String.eqb_spec s s0); constructor; congruence.
  - destruct (Nat.eqb_spec o o0); constructor; congruence.
  - destruct (String.eqb_spec c c0); constructor; congruence.
  - destruct (String.eqb_spec m m0); constructor; congruence.
  - destruct (Nat.eqb_spec p p0); constructor; congruence.
  - destruct (Nat.eqb_spec d d0); constructor; congruence.
  - destruct (Nat.eqb_spec c c0); constructor; congruence.
  - destruct (Nat.eqb_spec i i0); constructor; congruence.
Qed.

Lemma value_eqb_refl v : value_eqb v v = true.
Proof. destruct (value_eqb_spec v v); congruence. Qed.

Lemma rkey_eqb_spec a b : reflect (a = b) (rkey_eqb a b).
Proof.
  destruct a, b; simpl; try (constructor; congruence).
  - destruct (String.eqb_spec t t0); constructor; congruence.
  - destruct (String.eqb_spec m m0); constructor; congruence.
  - destruct (Nat.eqb_spec n n0); constructor; congruence.
Qed.

Lemma mem_In x l : mem x l = true <-> In x l.
Proof.
  induction l as [|y l IH]; simpl; [split; [discriminate|tauto]|].
  destruct (String.eqb_spec y x); subst.
  - split; auto.
  - rewrite IH. split; [auto|]. intros [?|?]; [congruence|auto].
Qed.

Lemma mem_false x l : mem x l = false <-> ~ In x l.
Proof.
  rewrite <- mem_In. destruct (mem x l); split; intros; congruence.
Qed.

(** ** Dictionaries *)

Section DictFacts.
  Context {K V : Type} (eqb : K -> K -> bool).
  Variable eqb_spec : forall x y, reflect (x = y) (eqb x y).

  Lemma dict_eqb_refl x : eqb x x = true.
  Proof. destruct (eqb_spec x x); congruence. Qed.

  Lemma dget_dset (d : list (K * V)) k v k' :
    dget eqb (dset eqb d k v) k' = if eqb k k' then Some v else dget eqb d k'.
  Proof.
    induction d as [|[k1 v1] d IH]; simpl.
    - reflexivity.
    - destruct (eqb_spec k1 k) as [->|Hk]; simpl.
      + destruct (eqb_spec k k'); reflexivity.
      + destruct (eqb_spec k1 k') as [->|].
        * destruct (eqb_spec k k'); congruence.
        * exact IH.
  Qed.

  Lemma dget_dset_eq (d : list (K * V)) k v : dget eqb (dset eqb d k v) k = Some v.
  Proof. rewrite dget_dset, dict_eqb_refl. reflexivity. Qed.

  Lemma dget_dset_ne (d : list (K * V)) k v k' :
    k <> k' -> dget eqb (dset eqb d k v) k' = dget eqb d k'.
  Proof. intros. rewrite dget_dset. destruct (eqb_spec k k'); congruence. Qed.

  Lemma dget_ddel (d : list (K * V)) k k' :
    dget eqb (ddel eqb d k) k' = if eqb k k' then None else dget eqb d k'.
  Proof.
    induction d as [|[k1 v1] d IH]; simpl.
    - destruct (eqb k k'); reflexivity.
    - destruct (eqb_spec k1 k) as [->|Hk]; simpl.
      + rewrite IH. destruct (eqb_spec k k'); reflexivity.
      + destruct (eqb_spec k1 k') as [->|].
        * destruct (eqb_spec k k'); congruence.
        * exact IH.
  Qed.

  Lemma dget_app (d1 d2 : list (K * V)) k :
    dget eqb (d1 ++ d2) k =
    match dget eqb d1 k with Some v => Some v | None => dget eqb d2 k end.
  Proof.
    induction d1 as [|[k1 v1] d1 IH]; simpl; auto.
    destruct (eqb k1 k); auto.
  Qed.

  (** [update]: the last binding in [d2] wins, otherwise the one in [d]. *)
  Lemma dget_dupdate (d d2 : list (K * V)) k :
    dget eqb (dupdate eqb d d2) k =
    match dget eqb (rev d2) k with Some v => Some v | None => dget eqb d k end.
  Proof.
    unfold dupdate. revert d. induction d2 as [|[k1 v1] d2 IH]; intros d; simpl; auto.
    rewrite IH, dget_app. simpl. rewrite dget_dset.
    destruct (dget eqb (rev d2) k); auto.
    destruct (eqb k1 k); auto.
  Qed.

  Lemma dget_In (d : list (K * V)) k v : dget eqb d k = Some v -> In (k, v) d.
  Proof.
    induction d as [|[k1 v1] d IH]; simpl; [discriminate|].
    destruct (eqb_spec k1 k); [subst; intros [= ->]; auto | auto].
  Qed.

  Lemma dget_None (d : list (K * V)) k : dget eqb d k = None <-> ~ In k (map fst d).
  Proof.
    induction d as [|[k1 v1] d IH]; simpl; [tauto|].
    destruct (eqb_spec k1 k).
    - split; [discriminate|]. intros H; exfalso; auto.
    - rewrite IH. intuition.
  Qed.

  Lemma NoDup_dset (d : list (K * V)) k v :
    NoDup (map fst d) -> NoDup (map fst (dset eqb d k v)).
  Proof.
    induction d as [|[k1 v1] d IH]; simpl; intros H.
    - repeat constructor. simpl. tauto.
    - inversion H as [|? ? Hni Hnd]; subst.
      destruct (eqb_spec k1 k) as [->|Hk]; simpl.
      + constructor; auto.
      + constructor; auto. intros Hin. apply Hni. clear -Hin Hk eqb_spec.
        induction d as [|[k2 v2] d IH]; simpl in *.
        * destruct Hin as [|[]]; congruence.
        * destruct (eqb_spec k2 k) as [->|]; simpl in *; intuition.
  Qed.

  Lemma dget_NoDup_In (d : list (K * V)) k v :
    NoDup (map fst d) -> In (k, v) d -> dget eqb d k = Some v.
  Proof.
    induction d as [|[k1 v1] d IH]; simpl; [tauto|].
    intros Hnd [Heq|Hin]; inversion Hnd as [|? ? Hni Hnd']; subst.
    - inversion Heq; subst. rewrite dict_eqb_refl. reflexivity.
    - destruct (eqb_spec k1 k) as [->|]; [|auto].
      exfalso. apply Hni. apply in_map_iff. exists (k, v). auto.
  Qed.
End DictFacts.

Definition sdget_dset {V} := @dget_dset string V String.eqb String.eqb_spec.
Definition rdget_dset {V} := @dget_dset rkey V rkey_eqb rkey_eqb_spec.

Lemma upd_eq {A} (f : nat -> A) k v : upd f k v k = v.
Proof. unfold upd. rewrite Nat.eqb_refl. reflexivity. Qed.

Lemma upd_ne {A} (f : nat -> A) k v k' : k' <> k -> upd f k v k' = f k'.
Proof. unfold upd. intros. destruct (Nat.eqb_spec k' k); congruence. Qed.
