(** * CExtGcFacts: proofs about garbage collection of proxies and checkers. *)

From Coq Require Import List Bool Arith ZArith Lia Permutation Relations.
From Verif Require Import CExt CExtSpec CExtFacts CExtSound CExtDecideSpec CExtDecide CExtGc CExtGcSpec.
Import ListNotations.
Open Scope Z_scope.

(** ** Traversal *)

Lemma times_cons o x l : times o (x :: l) = returned (Some x) o + times o l.
Proof.
  unfold times, returned. cbn [count_occ].
  destruct (Nat.eq_dec x o) as [-> | N].
  - rewrite Nat.eqb_refl. lia.
  - replace (Nat.eqb o x) with false by (symmetry; apply Nat.eqb_neq; congruence). lia.
Qed.
Lemma returned_nonneg r o : 0 <= returned r o.
Proof. destruct r as [x|]; cbn; [destruct (Nat.eqb o x)|]; lia. Qed.
Lemma in_struct_nonneg s x o : 0 <= in_struct s x o.
Proof. unfold in_struct. pose proof (returned_nonneg (f1 s x) o). pose proof (returned_nonneg (f2 s x) o). lia. Qed.

Lemma proxy_traverse_lemma visit s self :
  (forall o, visit o = 0) ->
  snd (proxy_traverse visit s self) = 0 /\
  forall o, times o (fst (proxy_traverse visit s self)) = in_struct s self o.
Proof.
  intros V. unfold proxy_traverse, Py_VISIT, in_struct.
  destruct (f1 s self) as [a|], (f2 s self) as [b|]; rewrite ?V; cbn [Z.eqb fst snd];
    (split; [reflexivity|intros o; rewrite ?times_cons; change (returned None o) with 0; change (times o []) with 0; lia]).
Qed.
Lemma checker_traverse_lemma visit s self :
  (forall o, visit o = 0) ->
  snd (Checker_traverse visit s self) = 0 /\
  forall o, times o (fst (Checker_traverse visit s self)) = in_struct s self o.
Proof.
  intros V. unfold Checker_traverse, visit_negative, in_struct.
  destruct (f1 s self) as [a|], (f2 s self) as [b|]; rewrite ?V; change (0 <? 0) with false; cbn [fst snd];
    (split; [reflexivity|intros o; rewrite ?times_cons; change (returned None o) with 0; change (times o []) with 0; lia]).
Qed.

Lemma traverse_lemma oracle is_proxy is_checker visit s x t :
  type_of oracle is_proxy is_checker x = Some t -> (forall o, visit o = 0) ->
  snd (tp_traverse t visit s x) = 0 /\
  forall o, times o (fst (tp_traverse t visit s x)) = in_struct s x o.
Proof.
  intros T V. unfold type_of in T.
  destruct (is_proxy x); [|destruct (is_checker x); [|discriminate T]];
    injection T as <-; cbn [tp_traverse SecurityProxyType CheckerType].
  - apply proxy_traverse_lemma, V.
  - apply checker_traverse_lemma, V.
Qed.

(** A [visit] that fails (negative) at any object held is reported by both types. *)
Lemma traverse_stops oracle is_proxy is_checker visit s x t o :
  type_of oracle is_proxy is_checker x = Some t ->
  (forall a, visit a <= 0) -> 0 < in_struct s x o -> visit o < 0 ->
  snd (tp_traverse t visit s x) < 0.
Proof.
  intros T N H V. unfold type_of in T. unfold in_struct, returned in H.
  destruct (is_proxy x); [|destruct (is_checker x); [|discriminate T]];
    injection T as <-; cbn [tp_traverse SecurityProxyType CheckerType].
  - unfold proxy_traverse, Py_VISIT.
    destruct (f1 s x) as [a|].
    + destruct (Z.eqb_spec (visit a) 0) as [Ea|Ea]; cbn [snd]; [|pose proof (N a); lia].
      destruct (Nat.eqb_spec o a) as [Q|Q]; [subst; lia|].
      destruct (f2 s x) as [b|]; [|lia].
      destruct (Nat.eqb_spec o b) as [Q'|Q']; [subst b|lia].
      destruct (Z.eqb_spec (visit o) 0); cbn [snd]; lia.
    + destruct (f2 s x) as [b|]; [|lia].
      destruct (Nat.eqb_spec o b) as [Q'|Q']; [subst b|lia].
      destruct (Z.eqb_spec (visit o) 0); cbn [snd]; lia.
  - unfold Checker_traverse, visit_negative.
    destruct (f1 s x) as [a|].
    + destruct (Z.ltb_spec (visit a) 0) as [Ea|Ea]; cbn [snd]; [lia|].
      destruct (Nat.eqb_spec o a) as [Q|Q]; [subst; lia|].
      destruct (f2 s x) as [b|]; [|lia].
      destruct (Nat.eqb_spec o b) as [Q'|Q']; [subst b|lia].
      destruct (Z.ltb_spec (visit o) 0); cbn [snd]; lia.
    + destruct (f2 s x) as [b|]; [|lia].
      destruct (Nat.eqb_spec o b) as [Q'|Q']; [subst b|lia].
      destruct (Z.ltb_spec (visit o) 0); cbn [snd]; lia.
Qed.

Lemma refers_proxy oracle is_proxy is_checker s x d :
  is_proxy x = true ->
  exists b, refers oracle is_proxy is_checker s x d = Some b /\ (b = true <-> 0 < in_struct s x d).
Proof.
  intros P. unfold refers, type_of. rewrite P. cbn [tp_traverse SecurityProxyType].
  eexists; split; [reflexivity|].
  unfold proxy_traverse, Py_VISIT, in_struct, returned.
  destruct (f1 s x) as [a|].
  - destruct (Nat.eqb_spec d a) as [->|N].
    + rewrite Nat.eqb_refl. cbn. destruct (f2 s x) as [b|]; [destruct (Nat.eqb a b)|]; split; intros; try reflexivity; lia.
    + replace (Nat.eqb a d) with false by (symmetry; apply Nat.eqb_neq; congruence). cbn [Z.eqb snd].
      destruct (f2 s x) as [b|].
      * destruct (Nat.eqb_spec d b) as [->|N']; [rewrite Nat.eqb_refl|].
        -- cbn. split; intros; [lia|reflexivity].
        -- replace (Nat.eqb b d) with false by (symmetry; apply Nat.eqb_neq; congruence). cbn.
           split; intros H; [discriminate H|lia].
      * cbn. split; intros H; [discriminate H|lia].
  - destruct (f2 s x) as [b|].
    + destruct (Nat.eqb_spec d b) as [->|N']; [rewrite Nat.eqb_refl|].
      * cbn. split; intros; [lia|reflexivity].
      * replace (Nat.eqb b d) with false by (symmetry; apply Nat.eqb_neq; congruence). cbn.
        split; intros H; [discriminate H|lia].
    + cbn. split; intros H; [discriminate H|lia].
Qed.

Lemma refers_checker oracle is_proxy is_checker s x d :
  is_proxy x = false -> is_checker x = true ->
  refers oracle is_proxy is_checker s x d = Some false.
Proof.
  intros P K. unfold refers, type_of. rewrite P, K. cbn [tp_traverse CheckerType].
  unfold Checker_traverse, visit_negative.
  assert (L : forall a, ((if Nat.eqb a d then 1 else 0) <? 0) = false)
    by (intros a; destruct (Nat.eqb a d); reflexivity).
  destruct (f1 s x) as [a|], (f2 s x) as [b|]; rewrite ?L; reflexivity.
Qed.

(** ** The collector *)

Lemma total_perm f l l' : Permutation l l' -> total f l = total f l'.
Proof. induction 1; cbn [total fold_right] in *; unfold total in *; lia. Qed.
Lemma total_split f p l :
  total f l = total f (filter p l) + total f (filter (fun x => negb (p x)) l).
Proof.
  unfold total. induction l as [|x l IH]; cbn [filter fold_right]; [lia|].
  destruct (p x); cbn [negb fold_right]; lia.
Qed.
Lemma total_nonneg f l : (forall x, 0 <= f x) -> 0 <= total f l.
Proof. intros N. unfold total. induction l as [|x l IH]; cbn [fold_right]; [lia|]. specialize (N x). lia. Qed.
Lemma total_pos f l : (forall x, 0 <= f x) -> (0 < total f l <-> exists x, In x l /\ 0 < f x).
Proof.
  intros N. induction l as [|x l IH]; unfold total in *; cbn [fold_right].
  - split; [lia|intros (x & [] & _)].
  - pose proof (total_nonneg f l N) as T. unfold total in T. split.
    + intros H. destruct (Z.ltb_spec 0 (f x)) as [P|P].
      * exists x. split; [now left|exact P].
      * pose proof (N x). destruct (proj1 IH) as (y & I & Q); [lia|]. exists y. split; [now right|exact Q].
    + intros (y & [-> | I] & Q); [lia|]. pose proof (N x).
      assert (0 < fold_right (fun x n => f x + n) 0 l) by (apply IH; eauto). lia.
Qed.

Definition memb (l : list obj) (x : obj) : bool := existsb (Nat.eqb x) l.
Lemma memb_in l x : memb l x = true <-> In x l.
Proof.
  unfold memb. rewrite existsb_exists. split.
  - intros (y & I & E). apply Nat.eqb_eq in E. now subst.
  - intros I. exists x. split; [exact I|apply Nat.eqb_refl].
Qed.

Section Collect.
  Variable oracle : nat -> answer.
  Variables is_proxy is_checker : obj -> bool.
  Variable others : obj -> list obj.
  Variable s : cst.
  Let T := traverse oracle is_proxy is_checker others (fun _ => 0) s.
  Let H := holds is_proxy is_checker others s.

  Lemma T_holds x o : times o (T x) = H x o.
  Proof.
    unfold T, H, traverse, holds, type_of.
    destruct (is_proxy x); [|destruct (is_checker x)]; cbn [orb tp_traverse SecurityProxyType CheckerType].
    - apply proxy_traverse_lemma. reflexivity.
    - apply checker_traverse_lemma. reflexivity.
    - reflexivity.
  Qed.
  Lemma H_nonneg x o : 0 <= H x o.
  Proof. rewrite <- T_holds. unfold times. lia. Qed.
  Lemma T_in x o : In o (T x) <-> 0 < H x o.
  Proof.
    rewrite <- T_holds. unfold times. rewrite (count_occ_In Nat.eq_dec). lia.
  Qed.

  Lemma gc_refs_total refcount l o :
    gc_refs oracle is_proxy is_checker others s refcount l o = refcount o - total (fun x => H x o) l.
  Proof.
    unfold gc_refs, total. induction l as [|x l IH]; cbn [fold_right]; [lia|].
    rewrite IH. pose proof (T_holds x o) as X. unfold times, T in X. rewrite X. lia.
  Qed.

  Lemma gc_refs_outside roots refcount all l o :
    counted is_proxy is_checker others s roots refcount all -> NoDup l -> incl l all ->
    gc_refs oracle is_proxy is_checker others s refcount l o =
    roots o + total (fun x => H x o) (filter (fun x => negb (memb l x)) all).
  Proof.
    intros (ND & _ & RC) NL I. rewrite gc_refs_total, RC. fold H.
    rewrite (total_split _ (memb l) all).
    rewrite (total_perm _ (filter (memb l) all) l); [unfold H; lia|].
    apply NoDup_Permutation; [now apply NoDup_filter|exact NL|].
    intros x. rewrite filter_In, memb_in. split; [tauto|]. intros X. split; [now apply I|exact X].
  Qed.

  Lemma collector_lemma roots refcount all l o :
    counted is_proxy is_checker others s roots refcount all -> NoDup l -> incl l all ->
    (survives oracle is_proxy is_checker others s refcount l o <->
     in_use is_proxy is_checker others s roots all l o).
  Proof.
    intros Ct NL I.
    assert (G : forall a, 0 < gc_refs oracle is_proxy is_checker others s refcount l a <->
                 0 < roots a \/ exists x, In x all /\ ~ In x l /\ 0 < H x a).
    { intros a. rewrite (gc_refs_outside roots refcount all l a Ct NL I).
      pose proof (proj1 (proj2 Ct) a) as R0.
      pose proof (total_pos (fun x => H x a) (filter (fun x => negb (memb l x)) all)
                    (fun x => H_nonneg x a)) as TP.
      pose proof (total_nonneg (fun x => H x a) (filter (fun x => negb (memb l x)) all)
                    (fun x => H_nonneg x a)) as TN.
      split.
      - intros P. destruct (Z.ltb_spec 0 (roots a)) as [Q|Q]; [now left|right].
        destruct (proj1 TP) as (x & X & HX); [lia|]. apply filter_In in X as [X1 X2].
        exists x. split; [exact X1|]. split; [|exact HX].
        intros C. apply memb_in in C. rewrite C in X2. discriminate X2.
      - intros [P | (x & X1 & X2 & HX)]; [lia|].
        assert (0 < total (fun x => H x a) (filter (fun x => negb (memb l x)) all)); [|lia].
        apply TP. exists x. split; [|exact HX]. apply filter_In. split; [exact X1|].
        destruct (memb l x) eqn:M; [|reflexivity]. apply memb_in in M. contradiction. }
    split.
    - intros SV. induction SV as [a Ia Pa | x a SVx IHx Ia Va].
      + apply G in Pa as [P | (x & X1 & X2 & HX)].
        * now apply iu_root.
        * now apply (iu_outside _ _ _ _ _ _ _ x a).
      + apply (iu_held _ _ _ _ _ _ _ x a IHx Ia). apply T_in, Va.
    - intros IU. induction IU as [a Ia Pa | x a Ia X1 X2 HX | x a IUx IHx Ia HX].
      + apply sv_outside; [exact Ia|]. apply G. now left.
      + apply sv_outside; [exact Ia|]. apply G. right. exists x. repeat split; assumption.
      + apply (sv_visited _ _ _ _ _ _ _ x a IHx Ia). apply T_in, HX.
  Qed.
End Collect.

(** ** Clearing and destroying *)

Lemma clear1_fields oracle self s u s' :
  clear1 oracle self s = Some (u, s') ->
  f1 s' self = None /\ f2 s' = f2 s /\ (forall y, y <> self -> f1 s' y = f1 s y).
Proof.
  unfold clear1. destruct (f1 s self) as [t|] eqn:E; intros Q; injection Q as <- <-.
  - cbn. unfold upd. rewrite Nat.eqb_refl. repeat split.
    intros y N. apply Nat.eqb_neq in N. now rewrite N.
  - repeat split; auto.
Qed.
Lemma clear2_fields oracle self s u s' :
  clear2 oracle self s = Some (u, s') ->
  f2 s' self = None /\ f1 s' = f1 s /\ (forall y, y <> self -> f2 s' y = f2 s y).
Proof.
  unfold clear2. destruct (f2 s self) as [t|] eqn:E; intros Q; injection Q as <- <-.
  - cbn. unfold upd. rewrite Nat.eqb_refl. repeat split.
    intros y N. apply Nat.eqb_neq in N. now rewrite N.
  - repeat split; auto.
Qed.
Lemma cbind_some {A B} (m : C A) (f : A -> C B) s b s' :
  bind m f s = Some (b, s') -> exists a s1, m s = Some (a, s1) /\ f a s1 = Some (b, s').
Proof. unfold bind. destruct (m s) as [[a s1]|]; [eauto|discriminate]. Qed.

Lemma checker_clear_fields oracle self s u s' :
  Checker_clear oracle self s = Some (u, s') ->
  f1 s' self = None /\ f2 s' self = None /\
  (forall y, y <> self -> f1 s' y = f1 s y /\ f2 s' y = f2 s y).
Proof.
  unfold Checker_clear. intros Q. apply cbind_some in Q as (a & s1 & Q1 & Q2).
  apply clear1_fields in Q1 as (A1 & A2 & A3). apply clear2_fields in Q2 as (B1 & B2 & B3).
  split; [now rewrite B2|]. split; [exact B1|]. intros y N. rewrite B2, (B3 y N), A2. auto.
Qed.

Lemma dealloc_lemma oracle is_proxy is_checker x t s u s' :
  fault s = false -> type_of oracle is_proxy is_checker x = Some t ->
  tp_dealloc t x s = Some (u, s') ->
  balanced_with x s None s' /\ f1 s' x = None /\ f2 s' x = None /\ exc s' = exc s.
Proof.
  intros F Ty Q. unfold type_of in Ty.
  destruct (is_proxy x); [|destruct (is_checker x); [|discriminate Ty]];
    injection Ty as <-; cbn [tp_dealloc SecurityProxyType CheckerType] in Q.
  - unfold proxy_dealloc in Q. apply cbind_some in Q as (a & s1 & Q1 & Q2).
    destruct (clear_lemma oracle x s s1 a F (or_introl Q1)) as (B & N1 & N2 & X).
    unfold clear1 in Q2. rewrite N1 in Q2. injection Q2 as <- <-. auto.
  - unfold Checker_dealloc in Q. exact (clear_lemma oracle x s s' u F (or_intror Q)).
Qed.

Section Clearing.
  Variable oracle : nat -> answer.
  Variables is_proxy is_checker : obj -> bool.

  Lemma garbage_fields l : forall s u s',
    delete_garbage oracle is_proxy is_checker l s = Some (u, s') ->
    (forall x, is_proxy x = true -> f1 s' x = f1 s x /\ f2 s' x = f2 s x) /\
    (forall x, ~ In x l -> f1 s' x = f1 s x /\ f2 s' x = f2 s x) /\
    (forall x, f1 s x = None -> f1 s' x = None) /\
    (forall x, f2 s x = None -> f2 s' x = None) /\
    (forall x, In x l -> is_proxy x = false -> is_checker x = true ->
       f1 s' x = None /\ f2 s' x = None).
  Proof.
    induction l as [|y l IH]; intros s u s' Q.
    - injection Q as <- <-. repeat split; auto; contradiction.
    - cbn [delete_garbage] in Q. apply cbind_some in Q as (a & s1 & Q1 & Q2).
      destruct (IH s1 u s' Q2) as (P & O & K1 & K2 & G).
      assert (E : (is_proxy y = true /\ f1 s1 = f1 s /\ f2 s1 = f2 s) \/
                  (is_proxy y = false /\ is_checker y = false /\ f1 s1 = f1 s /\ f2 s1 = f2 s) \/
                  (is_proxy y = false /\ f1 s1 y = None /\ f2 s1 y = None /\
                   forall z, z <> y -> f1 s1 z = f1 s z /\ f2 s1 z = f2 s z)).
      { unfold type_of in Q1. destruct (is_proxy y) eqn:Py.
        - cbn in Q1. injection Q1 as <- <-. auto.
        - destruct (is_checker y) eqn:Cy.
          + cbn in Q1. apply checker_clear_fields in Q1 as (A & B & D). right; right; auto.
          + injection Q1 as <- <-. cbn. auto 6. }
      assert (NE : forall x, x = y \/ x <> y) by (intros x; destruct (Nat.eq_dec x y); auto).
      assert (E' : ((is_proxy y = true \/ is_checker y = false) /\ f1 s1 = f1 s /\ f2 s1 = f2 s) \/
                   (is_proxy y = false /\ f1 s1 y = None /\ f2 s1 y = None /\
                   forall z, z <> y -> f1 s1 z = f1 s z /\ f2 s1 z = f2 s z)) by tauto.
      clear E. destruct E' as [(Py & E1 & E2) | (Py & N1 & N2 & D)].
      + rewrite <- E1, <- E2. split; [exact P|]. split; [|split; [exact K1|split; [exact K2|]]].
        * intros x N. apply O. intros I. apply N. now right.
        * intros x [<- | I] Px Cx; [destruct Py; congruence|]. now apply G.
      + split; [|split; [|split; [|split]]].
        * intros x X. destruct (P x X) as [-> ->]. apply D. intros ->. congruence.
        * intros x N. destruct (O x (fun I => N (or_intror I))) as [-> ->]. apply D.
          intros ->. apply N. now left.
        * intros x X. apply K1. destruct (NE x) as [-> | N]; [exact N1|]. now rewrite (proj1 (D x N)).
        * intros x X. apply K2. destruct (NE x) as [-> | N]; [exact N2|]. now rewrite (proj2 (D x N)).
        * intros x [<- | I] Px Cx; [split; [now apply K1|now apply K2]|]. now apply G.
  Qed.
End Clearing.

(** ** The life of proxies *)

Lemma structs_object oracle args is_proxy has_sub has_ass has_num m s r s' :
  entered s -> proxies_complete args is_proxy s ->
  object_function oracle args is_proxy has_sub has_ass has_num m -> m s = Some (r, s') ->
  forall x, f1 s' x = f1 s x /\ f2 s' x = f2 s x.
Proof.
  intros En PC OF Q.
  destruct (object_functions_lemma _ _ _ _ _ _ _ OF s r s' En PC Q) as ((_ & _ & E) & _). exact E.
Qed.
Lemma structs_int oracle args is_proxy has_ass m s r s' :
  entered s -> proxies_complete args is_proxy s ->
  int_function oracle args is_proxy has_ass m -> m s = Some (r, s') ->
  forall x, f1 s' x = f1 s x /\ f2 s' x = f2 s x.
Proof.
  intros En PC OF Q.
  destruct (int_functions_lemma _ _ _ _ _ OF s r s' En PC Q) as ((_ & _ & E) & _). exact E.
Qed.

(** Each proxy refers to none of those made after it, nor to itself. *)
Inductive older (s : cst) : list obj -> Prop :=
| old_nil : older s []
| old_cons n l : ~ In n l -> (forall x, In x (n :: l) -> ~ points s x n) -> older s l -> older s (n :: l).

Lemma older_same s s' l :
  (forall x, In x l -> f1 s' x = f1 s x /\ f2 s' x = f2 s x) -> older s l -> older s' l.
Proof.
  intros E O. induction O as [|n l N P O IH]; constructor.
  - exact N.
  - intros x I [Q|Q]; apply (P x I); [left; rewrite <- (proj1 (E x I))|right; rewrite <- (proj2 (E x I))]; exact Q.
  - apply IH. intros x I. apply E. now right.
Qed.
Lemma in_remove_neq x y l : In y (remove Nat.eq_dec x l) <-> In y l /\ y <> x.
Proof. split; [apply in_remove|intros [I N]; now apply in_in_remove]. Qed.
Lemma older_remove s x l : older s l -> older s (remove Nat.eq_dec x l).
Proof.
  intros O. induction O as [|n l N P O IH]; [constructor|]. cbn [remove].
  destruct (Nat.eq_dec x n) as [->|D]; [exact IH|]. constructor.
  - intros I. apply in_remove_neq in I as [I _]. contradiction.
  - intros y [<-|I]; apply P; [now left|]. right. apply in_remove_neq in I as [I _]. exact I.
  - exact IH.
Qed.

Definition sound_proxies (is_proxy : obj -> bool) (ps : list obj) (s : cst) : Prop :=
  (forall x, In x ps -> is_proxy x = true /\ f1 s x <> None /\ f2 s x <> None) /\ older s ps.

Lemma sound_same is_proxy ps s s' :
  (forall x, is_proxy x = true -> f1 s' x = f1 s x /\ f2 s' x = f2 s x) ->
  sound_proxies is_proxy ps s -> sound_proxies is_proxy ps s'.
Proof.
  intros E (C & O). split.
  - intros x I. destruct (C x I) as (P & A & B). destruct (E x P) as [-> ->]. auto.
  - apply (older_same s); [|exact O]. intros x I. apply E, C, I.
Qed.

Lemma sound_complete is_proxy ps args s :
  sound_proxies is_proxy ps s -> (forall x, In x args -> is_proxy x = true -> In x ps) ->
  proxies_complete args is_proxy s.
Proof. intros (C & _) A x I P. destruct (C x (A x I P)) as (_ & X & Y). auto. Qed.

Lemma life_step_sound is_proxy is_checker ps s ps' s' :
  life_step is_proxy is_checker ps s ps' s' ->
  sound_proxies is_proxy ps s -> sound_proxies is_proxy ps' s'.
Proof.
  intros St Sd. destruct St as
    [oracle args object checker fresh ps s r s' En IO IC Pf Fa Fp Fr F1 F2 Q
    |oracle args has_sub has_ass has_num m ps s r s' En Ar OF Q
    |oracle args has_ass m ps s i s' En Ar OF Q
    |ps s s' E
    |oracle garbage ps s u s' Q
    |oracle x ps s u s' F Q].
  - destruct (Nat.eq_dec checker Py_None) as [Nn|Nn].
    + destruct (CExtSound.new_refused_lemma oracle args (Some (object, checker)) (Some fresh) s r s' En) as (-> & _ & (_ & _ & E)).
      { intros ob c X. injection X as <- <-. now left. }
      { exact Q. }
      apply (sound_same _ _ s); [intros x _; apply E|exact Sd].
    + destruct (new_lemma oracle args object checker fresh s r s' En IO IC Nn F1 F2 Q)
        as (-> & A1 & A2 & (_ & _ & E) & _).
      assert (Nf : forall x, In x ps -> x <> fresh) by (intros x I ->; contradiction).
      destruct Sd as (C & O). split.
      * intros x [<- | I]; [rewrite A1, A2; repeat split; try discriminate; exact Pf|].
        destruct (C x I) as (P & X & Y). destruct (E x (Nf x I)) as [-> ->]. auto.
      * constructor.
        -- exact Fp.
        -- intros x [<- | I] Pt.
           ++ apply Fa. destruct Pt as [Pt|Pt]; [rewrite A1 in Pt|rewrite A2 in Pt]; injection Pt as <-; assumption.
           ++ apply (Fr x I). unfold points in *. destruct (E x (Nf x I)) as [<- <-]. exact Pt.
        -- apply (older_same s); [|exact O]. intros x I. apply E, Nf, I.
  - apply (sound_same _ _ s); [|exact Sd]. intros x _.
    exact (structs_object _ _ _ _ _ _ _ _ _ _ En (sound_complete _ _ _ _ Sd Ar) OF Q x).
  - apply (sound_same _ _ s); [|exact Sd]. intros x _.
    exact (structs_int _ _ _ _ _ _ _ _ En (sound_complete _ _ _ _ Sd Ar) OF Q x).
  - apply (sound_same _ _ s); [exact E|exact Sd].
  - apply (sound_same _ _ s); [|exact Sd].
    exact (proj1 (garbage_fields oracle is_proxy is_checker garbage s u s' Q)).
  - unfold proxy_dealloc in Q. apply cbind_some in Q as (a & s1 & Q1 & Q2).
    destruct (clear_lemma oracle x s s1 a F (or_introl Q1)) as ((_ & _ & E) & N1 & N2 & X).
    unfold clear1 in Q2. rewrite N1 in Q2. injection Q2 as <- <-.
    destruct Sd as (C & O). split.
    + intros y I. apply in_remove_neq in I as [I N]. destruct (C y I) as (P & Y1 & Y2).
      destruct (E y N) as [-> ->]. auto.
    + apply (older_same s); [|now apply older_remove].
      intros y I. apply in_remove_neq in I as [_ N]. now apply E.
Qed.

Lemma life_sound is_proxy is_checker ps s ps' s' :
  life is_proxy is_checker ps s ps' s' -> sound_proxies is_proxy ps s -> sound_proxies is_proxy ps' s'.
Proof.
  intros L. induction L as [|ps1 s1 ps2 s2 ps3 s3 L IH St]; intros Sd; [exact Sd|].
  exact (life_step_sound _ _ _ _ _ _ St (IH Sd)).
Qed.

Lemma life_complete_lemma is_proxy is_checker s ps' s' :
  life is_proxy is_checker [] s ps' s' ->
  forall args, (forall x, In x args -> is_proxy x = true -> In x ps') ->
    proxies_complete args is_proxy s'.
Proof.
  intros L args A. apply (sound_complete _ ps'); [|exact A].
  apply (life_sound _ _ _ _ _ _ L). split; [intros x []|constructor].
Qed.

Lemma older_acyclic s l : older s l -> forall x, ~ leads l s x x.
Proof.
  intros O. induction O as [|n l N P O IH]; intros x L.
  - unfold leads in L. apply clos_trans_t1n in L. destruct L as [y (I & _) | y z (I & _) _]; exact I.
  - assert (Tgt : forall a b, In a (n :: l) /\ In b (n :: l) /\ points s a b -> In b l).
    { intros a b (Ia & [<- | Ib] & Pt); [|exact Ib]. exfalso. exact (P a Ia Pt). }
    assert (Last : forall a b, leads (n :: l) s a b -> In b l).
    { intros a b Q. apply clos_trans_t1n in Q. induction Q as [a b E | a c b E _ IHQ]; [exact (Tgt _ _ E)|exact IHQ]. }
    assert (Down : forall a b, leads (n :: l) s a b -> In a l -> leads l s a b).
    { intros a b Q. apply clos_trans_t1n in Q. induction Q as [a b E | a c b E _ IHQ]; intros Ia.
      - apply t_step. split; [exact Ia|]. split; [exact (Tgt _ _ E)|]. exact (proj2 (proj2 E)).
      - apply (t_trans _ _ _ c).
        + apply t_step. split; [exact Ia|]. split; [exact (Tgt _ _ E)|]. exact (proj2 (proj2 E)).
        + apply IHQ, (Tgt _ _ E). }
    exact (IH x (Down x x L (Last x x L))).
Qed.

Lemma life_acyclic_lemma is_proxy is_checker s ps' s' :
  life is_proxy is_checker [] s ps' s' -> forall x, ~ leads ps' s' x x.
Proof.
  intros L. apply older_acyclic. apply (life_sound _ _ _ _ _ _ L). split; [intros x []|constructor].
Qed.

(** ** A checker that was cleared *)

Lemma no_table object name calls : ~ by_table None object name calls.
Proof. intros [t E _ | t p i a n E _ _ _ _ _]; discriminate E. Qed.

Lemma emptied_check oracle args is_str char0 char1 is_iter self object name s r s' :
  f1 s self = None ->
  Checker_check oracle args is_str char0 char1 is_iter self (Some (object, name)) s = Some (r, s') ->
  fault s' = false ->
  exists calls, log s' = calls ++ log s /\
    (r <> None <-> by_default is_str char0 char1 is_iter None object name calls).
Proof.
  intros N Q F.
  destruct (CExtDecide.check_lemma oracle args is_str char0 char1 is_iter self object name s r s' Q F)
    as (calls & L & G & _).
  exists calls. split; [exact L|]. rewrite G, N. split; [|now right].
  intros [B | B]; [destruct (no_table _ _ _ B)|exact B].
Qed.
Lemma emptied_setattr oracle args self object name s r s' :
  f2 s self = None ->
  Checker_check_setattr oracle args self (Some (object, name)) s = Some (r, s') -> r = None.
Proof.
  intros N Q.
  destruct (CExtDecide.check_setattr_lemma oracle args self object name s r s' Q) as (calls & L & G & _).
  destruct r as [x|]; [|reflexivity]. rewrite N in G.
  destruct (no_table object name calls). apply G. discriminate.
Qed.
